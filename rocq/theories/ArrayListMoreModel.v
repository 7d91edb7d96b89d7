(** ints/IntArrayList.cpp and ints/BigIntArrayList.cpp, continued: rich
    comparison, repr, from_range, repetition, the buffer view, and the
    iterators (ints/IntArrayListIter.cpp, ints/BigIntArrayListIter.cpp). Line
    numbers of IntArrayList.cpp unless stated; the 64-bit files have the same
    text up to the element type. *)
From Coq Require Import ZArith List Bool Arith.
From Verif Require Import Base PyLongModel MemModel SimdCopyModel QReverseModel PyListSpec ArrayListModel.
Import ListNotations.
Local Open Scope Z_scope.

(** ** Comparison *)
(** The right operand: a list of the same class, a non-sequence, or any other
    sequence given by PySequence_Size and PySequence_GetItem. *)
Inductive cmp_arg :=
| CSame (ys : list Z)
| CNotSeq
| CSeq (len : outcome Z) (get : Z -> outcome pyobj).

(** A Python list or tuple. *)
Definition cmp_items (items : list pyobj) : cmp_arg :=
  CSeq (Ret (zlen items)) (fun i => match znth items i with Some o => Ret o | None => Raise IndexError end).

(** Py_RETURN_BOOL with the error indicator possibly set. *)
Definition ret_bool (b : bool) (pend : option exn) : outcome bool :=
  match pend with None => Ret b | Some e => RetPending b e end.

(** [PySequence_Size]: -1 with an error set. *)
Definition seq_size (len : outcome Z) : Z * option exn :=
  match len with
  | Ret n => (n, None) | Raise e => (-1, Some e)
  | RetPending n e => (n, Some e) | Undef _ => (-1, None)
  end.

(** [int other_value = PyLong_AsLong(item)] with the error left pending. *)
Definition conv_pending (k : kind) (o : pyobj) : Z * option exn :=
  match as_long o with
  | Ret z => (wrap (bits k) z, None) | Raise e => (wrap (bits k) (-1), Some e)
  | RetPending z e => (wrap (bits k) z, Some e) | Undef _ => (-1, None)
  end.

Fixpoint bytes_eqb (a b : bytes) : bool :=
  match a, b with
  | [], [] => true
  | x :: a', y :: b' => (x =? y) && bytes_eqb a' b'
  | _, _ => false
  end.

(** Loop of IntArrayList_eq, 936-948. *)
Fixpoint eq_loop (k : kind) (get : Z -> outcome pyobj) (n : nat) (i : Z) (s : list Z) : outcome bool :=
  match n with
  | O => Ret true
  | S m =>
      match get i with
      | Ret o =>
          match znth s i with
          | None => Undef OutOfBounds
          | Some x =>
              let '(v, err) := conv_pending k o in
              match err with
              | Some e => RetPending false e             (* 941-944 *)
              | None => if x =? v then eq_loop k get m (i + 1) s else Ret false
              end
          end
      | Raise e => Raise e
      | RetPending _ e => Raise e
      | Undef u => Undef u
      end
  end.

(** IntArrayList_eq, 914-951. *)
Definition eq_ (k : kind) (a : cmp_arg) (s : list Z) : outcome bool :=
  match a with
  | CSame ys =>
      if negb (zlen ys =? zlen s) then Ret false
      else Ret (bytes_eqb (encode k s) (encode k ys))    (* memcmp == 0 *)
  | CNotSeq => Ret false
  | CSeq len get =>
      let '(n, pend) := seq_size len in
      if negb (n =? zlen s) then ret_bool false pend
      else eq_loop k get (Z.to_nat n) 0 s
  end.

(** IntArrayList_ne, 953-962: PyObject_IsTrue of a null result crashes. *)
Definition ne_ (k : kind) (a : cmp_arg) (s : list Z) : outcome bool :=
  match eq_ k a s with
  | Ret b => Ret (negb b)
  | RetPending b e => RetPending (negb b) e
  | Raise _ => Undef NullDeref
  | Undef u => Undef u
  end.

(** The element loops of lt 964-994, le 996-1026, gt 1028-1058, ge 1060-1090;
    the four functions have the same text up to the operator [r], which is used
    for the first differing elements and for the sizes. *)
Fixpoint ord_same (r : Z -> Z -> bool) (s ys : list Z) (n : nat) (i : Z) : outcome bool :=
  match n with
  | O => Ret (r (zlen s) (zlen ys))
  | S m =>
      match znth s i, znth ys i with
      | Some x, Some y => if x =? y then ord_same r s ys m (i + 1) else Ret (r x y)
      | _, _ => Undef OutOfBounds
      end
  end.

Fixpoint ord_seq (k : kind) (r : Z -> Z -> bool) (get : Z -> outcome pyobj) (size : Z)
  (n : nat) (i : Z) (pend : option exn) (s : list Z) : outcome bool :=
  match n with
  | O => ret_bool (r (zlen s) (size mod 2 ^ 64)) pend    (* static_cast<size_t>(seq_size) *)
  | S m =>
      match get i with
      | Ret o =>
          match znth s i with
          | None => Undef OutOfBounds
          | Some x =>
              let '(v, err) := conv_pending k o in
              let pend := match err with Some e => Some e | None => pend end in
              if x =? v then ord_seq k r get size m (i + 1) pend s else ret_bool (r x v) pend
          end
      | Raise e => Raise e
      | RetPending _ e => Raise e
      | Undef u => Undef u
      end
  end.

Definition ord_ (k : kind) (r : Z -> Z -> bool) (a : cmp_arg) (s : list Z) : outcome bool :=
  match a with
  | CSame ys => ord_same r s ys (Nat.min (length s) (length ys)) 0
  | CNotSeq => Ret false
  | CSeq len get =>
      let '(n, pend) := seq_size len in
      ord_seq k r get n (Z.to_nat (Z.min (zlen s) n)) 0 pend s
  end.

(** IntArrayList_compare, 1092-1110. *)
Inductive cmp_op := Eq_ | Ne_ | Lt_ | Le_ | Gt_ | Ge_.
Definition compare_ (k : kind) (c : cmp_op) (a : cmp_arg) (s : list Z) : outcome bool :=
  match c with
  | Eq_ => eq_ k a s
  | Ne_ => ne_ k a s
  | Lt_ => ord_ k Z.ltb a s
  | Le_ => ord_ k Z.leb a s
  | Gt_ => ord_ k Z.gtb a s
  | Ge_ => ord_ k Z.geb a s
  end.

(** ** repr *)
(** "%d" / "%lld": decimal digits by repeated division, ASCII codes. *)
Fixpoint dec_digits (fuel : nat) (n : Z) (acc : list Z) : list Z :=
  match fuel with
  | O => acc
  | S f => if n <? 10 then (48 + n) :: acc else dec_digits f (n / 10) ((48 + n mod 10) :: acc)
  end.

Definition format_int (v : Z) : list Z :=
  let n := Z.abs v in
  (if v <? 0 then [45] else []) ++ dec_digits (S (Z.to_nat (Z.log2 n))) n [].

(** [snprintf(buffer, 32, ...)] then [str.append(buffer, len)], 1136-1137: a
    text of 32 or more characters would be read past the buffer. *)
Definition append_int (v : Z) : outcome (list Z) :=
  let t := format_int v in
  if (length t <? 32)%nat then Ret t else Undef OutOfBounds.

(** Loop 1134-1139 and the last element 1141-1144. *)
Fixpoint repr_loop (s : list Z) (str : list Z) : outcome (list Z) :=
  match s with
  | [] => Undef OutOfBounds
  | [v] => obind (append_int v) (fun t => Ret (str ++ t ++ [93]))
  | v :: r => obind (append_int v) (fun t => repr_loop r (str ++ t ++ [44; 32]))
  end.

(** IntArrayList_repr, 1118-1147. *)
Definition repr_ (s : list Z) : outcome (list Z) :=
  match s with
  | [] => Ret [91; 93]
  | _ => repr_loop s [91]
  end.

(** ** from_range *)
(** PyParse_EvalRange, utils/PythonUtils.h 64-92. *)
Definition eval_range (a1 : pyobj) (a2 a3 : option pyobj) : outcome (Z * Z * Z) :=
  obind (parse_n a1) (fun arg1 =>
  obind (match a2 with None => Ret SSIZE_MAX | Some o => parse_n o end) (fun arg2 =>
  obind (match a3 with None => Ret SSIZE_MAX | Some o => parse_n o end) (fun arg3 =>
  if arg2 =? SSIZE_MAX then Ret (0, arg1, 1)
  else if arg3 =? SSIZE_MAX then Ret (arg1, arg2, 1)
  else if negb (arg3 =? 0) then Ret (arg1, arg2, arg3)
  else Raise ValueError))).

(** Fill loop, 144-148: [current] is advanced after every element, the last
    one included. *)
Fixpoint fill_range (k : kind) (n : nat) (current step : Z) : outcome (list Z) :=
  match n with
  | O => Ret []
  | S m =>
      obind (ssz (current + step)) (fun next =>
      obind (fill_range k m next step) (fun r => Ret (wrap (bits k) current :: r)))
  end.

(** IntArrayList_from_range, 118-158. *)
Definition from_range (k : kind) (a1 : pyobj) (a2 a3 : option pyobj) : outcome val :=
  obind (eval_range a1 a2 a3) (fun '(start, stop, step) =>
  if 0 <? step then
    if stop <=? start then Ret (VNewList [])
    else
      obind (ssz (stop - start)) (fun d =>
      obind (ssz (d + step)) (fun d =>
      obind (ssz (d - 1)) (fun d =>
      obind (fill_range k (Z.to_nat (Z.quot d step)) start step) (fun l => Ret (VNewList l)))))
  else
    if start <=? stop then Ret (VNewList [])
    else
      obind (ssz (start - stop)) (fun d =>
      obind (ssz (- step)) (fun m =>
      obind (fill_range k (Z.to_nat (Z.quot d m)) start step) (fun l => Ret (VNewList l))))).

(** ** Repetition *)
(** The vector buffers come from AlignedAllocator<T, 64>
    (utils/memory/AlignedAllocator.h 55), so each starts at a multiple of 64. *)
Definition round64 (n : nat) : nat := ((n + 63) / 64 * 64)%nat.

(** Copy loop of IntArrayList_mul, 806-808: source at 0, destination buffer at D. *)
Fixpoint mul_loop (f : cpu) (es size D : nat) (n i : nat) (m : bytes) : outcome bytes :=
  match n with
  | O => Ret m
  | S r =>
      obind (simd_memcpy f true es 0 (D + size * i * es) size m) (fun m' =>
      mul_loop f es size D r (S i) m')
  end.

(** IntArrayList_mul, 785-817 (and rmul 819-831 with an int). The result vector
    is value-initialised by resize. *)
Definition mul (cfg : config) (k : kind) (n : Z) (s : list Z) : res :=
  let n := if n <? 0 then 0 else n in
  if n =? 0 then (Ret (VNewList []), s)
  else
    let size := length s in
    let src := encode k s in
    let D := round64 (length src) in
    let total := (size * Z.to_nat n)%nat in
    let m := src ++ repeat 0 (D - length src) ++ repeat 0 (total * esize k) in
    with_ (mul_loop (feat cfg) (esize k) size D (Z.to_nat n) 0 m) s (fun m' =>
    (Ret (VNewList (decode k total (skipn D m'))), s)).

(** Copy loop of IntArrayList_imul, 848-854: the element offset is
    [selfSize * sizeof(T) * i]. *)
Fixpoint imul_loop (f : cpu) (es size : nat) (n i : nat) (m : bytes) : outcome bytes :=
  match n with
  | O => Ret m
  | S r =>
      obind (simd_memcpy f true es 0 (size * es * i * es) size m) (fun m' =>
      imul_loop f es size r (S i) m')
  end.

(** IntArrayList_imul, 833-864. [spare] are the bytes of the allocation behind
    the resized vector (unused capacity, any contents). *)
Definition imul (cfg : config) (k : kind) (n : Z) (spare : bytes) (s : list Z) : res :=
  let n := if n <? 0 then 0 else n in
  if n =? 0 then (Ret VSelf, [])
  else
    let size := length s in
    let total := (size * Z.to_nat n)%nat in
    let m := encode k s ++ repeat 0 ((total - size) * esize k) ++ spare in
    with_ (imul_loop (feat cfg) (esize k) size (Z.to_nat n - 1) 1 m) s (fun m' =>
    (Ret VSelf, decode k total m')).

(** ** Buffer view *)
(** IntArrayList_get_buffer, 1153-1170: bytes visible, length, item size, and
    the format letter ('i' = 105, 'q' = 113). *)
Record view := { v_buf : bytes; v_len : Z; v_itemsize : Z; v_format : Z; v_shape : Z }.
Definition get_buffer (k : kind) (s : list Z) : view :=
  {| v_buf := encode k s; v_len := zlen s * Z.of_nat (esize k); v_itemsize := Z.of_nat (esize k);
     v_format := match k with KInt => 105 | KBig => 113 end; v_shape := zlen s |}.

(** ** Iterators *)
Record iter := { it_index : Z; it_rev : bool }.
Definition SIZE_MAX : Z := 2 ^ 64 - 1.

(** IntArrayListIter_create, IntArrayListIter.cpp 14-29. *)
Definition iter_create (reversed : bool) (s : list Z) : iter :=
  if reversed
  then {| it_index := match s with [] => 0 | _ => zlen s - 1 end; it_rev := true |}
  else {| it_index := 0; it_rev := false |}.

(** IntArrayListIter_next, IntArrayListIter.cpp 36-70. The element is returned
    as its C value; the conversion to an object is [from_elem]. *)
Definition iter_next (it : iter) (s : list Z) : outcome Z * iter :=
  match s with
  | [] => (Raise StopIteration, it)
  | _ =>
    if it_rev it then
      if it_index it =? 0 then
        (or_ub OutOfBounds (znth s (it_index it)), {| it_index := SIZE_MAX; it_rev := true |})
      else if it_index it =? SIZE_MAX then (Raise StopIteration, it)
      else (or_ub OutOfBounds (znth s (it_index it)), {| it_index := it_index it - 1; it_rev := true |})
    else
      if zlen s <=? it_index it then (Raise StopIteration, it)
      else (or_ub OutOfBounds (znth s (it_index it)), {| it_index := it_index it + 1; it_rev := false |})
  end.

(** Successive next() calls, the list having the given contents at each call. *)
Fixpoint iter_run (it : iter) (vs : list (list Z)) : list (outcome Z) :=
  match vs with
  | [] => []
  | s :: r => let '(x, it') := iter_next it s in x :: iter_run it' r
  end.
