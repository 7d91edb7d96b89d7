(** ints/IntArrayList.cpp and ints/BigIntArrayList.cpp once more, with
    arguments that are arbitrary Python objects: converting an argument
    ([__index__]), stepping an iterator ([__next__]) or reading a sequence
    ([__len__], [__getitem__]) runs user code, and that code may call methods
    of the very list the call is working on. Line numbers of IntArrayList.cpp;
    the 64-bit file has the same text up to the element type.

    User code is a function of the contents of the list: it yields a result or
    an exception, and the contents it leaves behind. It may also invalidate
    pointers into the buffer. Code that never returns is left out. *)
From Coq Require Import ZArith List Bool.
From Verif Require Import Base PyLongModel MemModel PyListSpec ArrayListModel ArrayListMoreModel.
Import ListNotations.
Local Open Scope Z_scope.

(** One piece of user code. [inval u s]: started on contents [s], it performs
    an operation after which iterators, pointers and references into the
    vector are no longer valid (erase, clear, or an insertion). *)
Record user (A : Type) := { act : list Z -> outcome A * list Z; inval : list Z -> bool }.
Arguments act {A} _ _.
Arguments inval {A} _ _.

(** An object in the place of an integer: the code is its [__index__]; the
    result [PObj] stands for an object without that method. *)
Notation uobj := (user pyobj).

(** A sequence: PySequence_Size, and PySequence_GetItem for each index, which
    yields an object. *)
Record useq := { q_len : user Z; q_get : Z -> user uobj }.

(** Convert an object with [f] (PyLong_AsLong and friends): its [__index__]
    runs first. *)
Definition conv {B} (f : pyobj -> outcome B) (o : uobj) (s : list Z) : outcome B * list Z :=
  let '(r, s1) := act o s in (obind r f, s1).

(** Continue after user code with the list as that code left it. *)
Definition after {A B} (r : outcome A * list Z) (f : A -> list Z -> outcome B * list Z)
  : outcome B * list Z :=
  match fst r with
  | Ret a => f a (snd r)
  | Raise e => (Raise e, snd r)
  | RetPending _ e => (Raise e, snd r)
  | Undef u => (Undef u, snd r)
  end.

(** Optional argument with a default. *)
Definition conv_opt (f : pyobj -> outcome Z) (d : Z) (o : option uobj) (s : list Z) : outcome Z * list Z :=
  match o with None => (Ret d, s) | Some o => conv f o s end.

(** IntArrayList_append, 221-237. *)
Definition append_u (k : kind) (o : uobj) (s : list Z) : res :=
  after (conv (as_elem k) o s) (fun v s => (Ret VNone, s ++ [v])).

(** IntArrayList_insert, 396-423: PyArg_ParseTuple("ni") converts the index,
    then the value; the size is read afterwards. *)
Definition insert_u (k : kind) (oi ov : uobj) (s : list Z) : res :=
  after (conv parse_n oi s) (fun index s =>
  after (conv (parse_elem k) ov s) (fun value s =>
  let vecSize := zlen s in
  let index := if index <? 0 then Z.max 0 (vecSize + index)
               else if vecSize <? index then vecSize else index in
  match zinsert s index value with
  | Some s' => (Ret VNone, s')
  | None => (Undef OutOfBounds, s)
  end)).

(** IntArrayList_pop with an argument, 293-335: the size is read at 300, the
    argument converted at 311 (BigInt 305). *)
Definition pop_u (cfg : config) (k : kind) (o : uobj) (s : list Z) : res :=
  match s with
  | [] => (Raise IndexError, s)
  | _ =>
    let vecSize := zlen s in
    after (conv as_long o s) (fun index s =>
    let index := if index <? 0 then index + vecSize else index in
    if (index <? 0) || (vecSize <=? index) then (Raise IndexError, s)
    else match znth s index, zerase s index with
         | Some v, Some s' => (Ret (VElem (from_elem cfg k v)), s')
         | _, _ => (Undef OutOfBounds, s)
         end)
  end.

(** IntArrayList_index, 337-376: the default of stop is the size at 342,
    before the arguments are converted; the other uses of the size come after. *)
Definition index_u (k : kind) (o : uobj) (oa ob : option uobj) (s : list Z) : res :=
  let stop0 := zlen s in
  after (conv (parse_elem k) o s) (fun value s =>
  after (conv_opt parse_n 0 oa s) (fun start s =>
  after (conv_opt parse_n stop0 ob s) (fun stop s =>
  let size := zlen s in
  let start := if start <? 0 then start + size else start in
  let stop := if stop <? 0 then stop + size else stop in
  let start := if start <? 0 then 0 else start in
  let stop := if size <? stop then size else stop in
  if stop <? start then (Raise ValueError, s)
  else with_ (std_find s value (Z.to_nat (stop - start)) start) s (fun it =>
       if it =? stop then (Raise ValueError, s) else (Ret (VInt it), s))))).

(** IntArrayList_count, 378-394. *)
Definition count_u (k : kind) (o : uobj) (s : list Z) : res :=
  after (conv (as_elem k) o s) (fun v s => (Ret (VInt (std_count s v)), s)).

(** IntArrayList_remove, 425-448. *)
Definition remove_u (k : kind) (o : uobj) (s : list Z) : res :=
  after (conv (as_elem k) o s) (fun v s =>
  with_ (std_find s v (length s) 0) s (fun it =>
  if it =? zlen s then (Raise ValueError, s)
  else match zerase s it with
       | Some s' => (Ret VNone, s')
       | None => (Undef OutOfBounds, s)
       end)).

(** IntArrayList_setitem, 568-597: bounds are checked at 571-580 and the value
    is converted at 586, before the store at 591. [None] is deletion. *)
Definition setitem_u (k : kind) (pyIndex : Z) (ov : option uobj) (s : list Z) : res :=
  let size := zlen s in
  let pyIndex := if pyIndex <? 0 then size + pyIndex else pyIndex in
  if (pyIndex <? 0) || (size <=? pyIndex) then (Raise IndexError, s)
  else match ov with
       | None => match zerase s pyIndex with
                 | Some s' => (Ret VNone, s') | None => (Undef OutOfBounds, s) end
       | Some o => after (conv (as_elem k) o s) (fun v s =>
                   match zset s pyIndex v with
                   | Some s' => (Ret VNone, s') | None => (Undef OutOfBounds, s) end)
       end.

(** Index objects in subscripts, 534-540 and 601-607. *)
Definition subscript_u (cfg : config) (k : kind) (oi : uobj) (s : list Z) : res :=
  after (conv as_index oi s) (fun i s => getitem cfg k i s).
Definition ass_subscript_u (k : kind) (oi : uobj) (ov : option uobj) (s : list Z) : res :=
  after (conv as_index oi s) (fun i s => setitem_u k i ov s).

(** ** Slices *)
Record uslice := { u_start : option uobj; u_stop : option uobj; u_step : option uobj }.

(** _PyEval_SliceIndex: any int is accepted and clipped. *)
Definition slice_index (o : pyobj) : outcome Z :=
  match o with PInt z => Ret (clip z) | PObj _ => Raise TypeError end.

(** PySlice_Unpack of CPython: the step is converted first, then the start,
    then the stop. *)
Definition unpack_u (sl : uslice) (s : list Z) : outcome (Z * Z * Z) * list Z :=
  after (conv_opt slice_index 1 (u_step sl) s) (fun step s =>
  if step =? 0 then (Raise ValueError, s) else
  let step := if step <? - SSIZE_MAX then - SSIZE_MAX else step in
  after (conv_opt slice_index (if step <? 0 then SSIZE_MAX else 0) (u_start sl) s) (fun start s =>
  after (conv_opt slice_index (if step <? 0 then SSIZE_MIN else SSIZE_MAX) (u_stop sl) s) (fun stop s =>
  (Ret (start, stop, step), s)))).

(** IntArrayList_getitem_slice, 542-565: the size is read after the unpacking. *)
Definition getitem_slice_u (cfg : config) (k : kind) (sl : uslice) (s : list Z) : res :=
  after (unpack_u sl s) (fun '(start, stop, step) s =>
  let '(start, _, sliceLength) := PySlice_AdjustIndices (zlen s) start stop step in
  with_ (slice_read cfg k s (Z.to_nat sliceLength) 0 start step) s (fun l =>
  (Ret (VPyList l), s))).

(** [PyLong_AsLong(item)] with the error indicator read only later: the value
    (-1 on error), the error, and the list afterwards. *)
Definition conv_err (k : kind) (o : uobj) (s : list Z) : (Z * option exn) * list Z :=
  let '(r, s1) := conv as_long o s in
  (match r with
   | Ret z => (wrap (bits k) z, None)
   | Raise e => (wrap (bits k) (-1), Some e)
   | RetPending z e => (wrap (bits k) z, Some e)
   | Undef _ => (wrap (bits k) (-1), None)
   end, s1).

(** Loop [vector[start+i] = PyLong_AsLong(item)], 633-644, 646-657, 664-675.
    The right operand of an assignment is evaluated before the left one. *)
Fixpoint assign_loop_u (k : kind) (q : useq) (n : nat) (i start : Z) (s : list Z)
  : outcome unit * list Z :=
  match n with
  | O => (Ret tt, s)
  | S m =>
      after (act (q_get q i) s) (fun item s =>
      let '((v, err), s) := conv_err k item s in
      match zset s (start + i) v with
      | None => (Undef OutOfBounds, s)
      | Some s' => match err with
                   | Some e => (Raise e, s')
                   | None => assign_loop_u k q m (i + 1) start s' end
      end)
  end.

(** The order in which the two arguments of [insert] are evaluated is
    unspecified in C++: the position [begin()+start+i] may be formed before or
    after the item is converted. *)
Inductive arg_order := IterFirst | ConvFirst.

(** Loop [vector.insert(begin()+start+i, PyLong_AsLong(item))], 677-691. *)
Fixpoint insert_loop_u (ord : arg_order) (k : kind) (q : useq) (n : nat) (i start : Z) (s : list Z)
  : outcome unit * list Z :=
  match n with
  | O => (Ret tt, s)
  | S m =>
      after (act (q_get q i) s) (fun item s0 =>
      let '((v, err), s) := conv_err k item s0 in
      let stale := match ord with IterFirst => inval item s0 | ConvFirst => false end in
      if stale then (Undef UseAfterFree, s)
      else match zinsert s (start + i) v with
           | None => (Undef OutOfBounds, s)
           | Some s' => match err with
                        | Some e => (Raise e, s')
                        | None => insert_loop_u ord k q m (i + 1) start s' end
           end)
  end.

(** IntArrayList_setitem_slice of a sequence, 609-700: bounds adjusted to the
    size at 616, before any code of the sequence runs. *)
Definition setitem_slice_u (ord : arg_order) (k : kind) (sl : uslice) (q : useq) (s : list Z) : res :=
  after (unpack_u sl s) (fun '(start, stop, step) s =>
  let '(start, stop, sliceLength) := PySlice_AdjustIndices (zlen s) start stop step in
  let '(rl, s) := act (q_len q) s in
  let '(newLength, pend) := seq_size rl in
  if negb (step =? 1) then (Raise NotImplementedError, s) else
  let r :=
    if newLength =? sliceLength then assign_loop_u k q (Z.to_nat sliceLength) 0 start s
    else if newLength <? sliceLength then
      after (assign_loop_u k q (Z.to_nat newLength) 0 start s) (fun _ s =>
      match zerase_range s (start + newLength) stop with
      | Some s' => (Ret tt, s')
      | None => (Undef OutOfBounds, s) end)
    else
      after (assign_loop_u k q (Z.to_nat sliceLength) 0 start s) (fun _ s =>
      insert_loop_u ord k q (Z.to_nat (newLength - sliceLength)) sliceLength start s) in
  match pend, fst r with
  | Some e, Ret _ => (RetPending VNone e, snd r)
  | _, _ => then_ret VNone r
  end).

(** ** extend and in-place addition *)
(** An iterable: the code run by iter(x) and by the length hint together, then
    each [__next__] with the item it yields, and the last [__next__], which
    ends the iteration or raises. *)
Record uiter := { i_start : user unit; i_items : list (user uobj); i_end : user unit }.

(** The item loop of extend, 270-286, and iadd, 761-777. *)
Fixpoint extend_loop_u (k : kind) (items : list (user uobj)) (fin : user unit) (s : list Z)
  : outcome unit * list Z :=
  match items with
  | [] => after (act fin s) (fun _ s => (Ret tt, s))
  | nx :: r =>
      after (act nx s) (fun item s =>
      after (conv (as_elem k) item s) (fun v s => extend_loop_u k r fin (s ++ [v])))
  end.

(** IntArrayList_extend 258-290 and IntArrayList_iadd 748-782. *)
Definition extend_u (k : kind) (it : uiter) (s : list Z) : res :=
  after (act (i_start it) s) (fun _ s => then_ret VNone (extend_loop_u k (i_items it) (i_end it) s)).
Definition iadd_u (k : kind) (it : uiter) (s : list Z) : res :=
  after (act (i_start it) s) (fun _ s => then_ret VSelf (extend_loop_u k (i_items it) (i_end it) s)).

(** ** Comparison with a sequence *)
(** Loop of IntArrayList_eq, 936-948: item, own element, conversion. *)
Fixpoint eq_loop_u (k : kind) (q : useq) (n : nat) (i : Z) (s : list Z) : outcome bool * list Z :=
  match n with
  | O => (Ret true, s)
  | S m =>
      after (act (q_get q i) s) (fun item s =>
      match znth s i with
      | None => (Undef OutOfBounds, s)
      | Some x =>
          let '((v, err), s) := conv_err k item s in
          match err with
          | Some e => (RetPending false e, s)
          | None => if x =? v then eq_loop_u k q m (i + 1) s else (Ret false, s)
          end
      end)
  end.

(** IntArrayList_eq on a sequence, 929-951. *)
Definition eq_u (k : kind) (q : useq) (s : list Z) : outcome bool * list Z :=
  let '(rl, s) := act (q_len q) s in
  let '(n, pend) := seq_size rl in
  if negb (n =? zlen s) then (ret_bool false pend, s)
  else eq_loop_u k q (Z.to_nat n) 0 s.

(** IntArrayList_ne, 953-962: a null result of eq is dereferenced. *)
Definition ne_u (k : kind) (q : useq) (s : list Z) : outcome bool * list Z :=
  let '(r, s) := eq_u k q s in
  (match r with
   | Ret b => Ret (negb b)
   | RetPending b e => RetPending (negb b) e
   | Raise _ => Undef NullDeref
   | Undef u => Undef u
   end, s).

(** Loops of lt, le, gt, ge on a sequence: 983-993, 1015-1025, 1047-1057,
    1079-1089. *)
Fixpoint ord_loop_u (k : kind) (r : Z -> Z -> bool) (q : useq) (size : Z)
  (n : nat) (i : Z) (pend : option exn) (s : list Z) : outcome bool * list Z :=
  match n with
  | O => (ret_bool (r (zlen s) (size mod 2 ^ 64)) pend, s)
  | S m =>
      after (act (q_get q i) s) (fun item s =>
      match znth s i with
      | None => (Undef OutOfBounds, s)
      | Some x =>
          let '((v, err), s) := conv_err k item s in
          let pend := match err with Some e => Some e | None => pend end in
          if x =? v then ord_loop_u k r q size m (i + 1) pend s else (ret_bool (r x v) pend, s)
      end)
  end.

Definition ord_u (k : kind) (r : Z -> Z -> bool) (q : useq) (s : list Z) : outcome bool * list Z :=
  let '(rl, s) := act (q_len q) s in
  let '(n, pend) := seq_size rl in
  ord_loop_u k r q n (Z.to_nat (Z.min (zlen s) n)) 0 pend s.

Definition compare_u (k : kind) (c : cmp_op) (q : useq) (s : list Z) : outcome bool * list Z :=
  match c with
  | Eq_ => eq_u k q s
  | Ne_ => ne_u k q s
  | Lt_ => ord_u k Z.ltb q s
  | Le_ => ord_u k Z.leb q s
  | Gt_ => ord_u k Z.gtb q s
  | Ge_ => ord_u k Z.geb q s
  end.

(** ** sort with a key function *)
(** IntArrayList_sort, 470-491: the data pointer and the size are taken at
    472-473, the key function and the comparisons run inside CPython_sort, and
    the result is written back through the pointer at 486-489. The user code is
    everything CPython_sort does: it yields the values in their new order. *)
Definition sort_key_u (u : user (list Z)) (s : list Z) : res :=
  let '(r, s1) := act u s in
  if inval u s then (Undef UseAfterFree, s1)
  else match r with
       | Ret vs => (Ret VNone, vs)
       | RetPending vs e => (RetPending VNone e, vs)
       | Raise e => (RetPending VNone e, s)
       | Undef x => (Undef x, s1)
       end.

(** ** All calls with integer arguments *)
Inductive rcall :=
| RAppend (o : uobj)
| RInsert (oi ov : uobj)
| RPop (o : uobj)
| RRemove (o : uobj)
| RCount (o : uobj)
| RIndex (o : uobj) (oa ob : option uobj)
| RGet (oi : uobj)
| RSet (oi ov : uobj)
| RDel (oi : uobj)
| RGetSlice (sl : uslice).

Definition rstep (cfg : config) (k : kind) (c : rcall) (s : list Z) : res :=
  match c with
  | RAppend o => append_u k o s
  | RInsert oi ov => insert_u k oi ov s
  | RPop o => pop_u cfg k o s
  | RRemove o => remove_u k o s
  | RCount o => count_u k o s
  | RIndex o oa ob => index_u k o oa ob s
  | RGet oi => subscript_u cfg k oi s
  | RSet oi ov => ass_subscript_u k oi (Some ov) s
  | RDel oi => ass_subscript_u k oi None s
  | RGetSlice sl => getitem_slice_u cfg k sl s
  end.
