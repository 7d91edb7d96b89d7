(** ints/IntArrayList.cpp and ints/BigIntArrayList.cpp: the methods on the
    vector. Both files have the same text up to the element type, so one model
    with a [kind] parameter covers them; line numbers are those of
    IntArrayList.cpp, BigInt differences are stated where they exist.

    Simplifications: allocation failure and [reserve] are left out (capacity is
    not observable); a Python argument is an int or an object without
    [__index__]; an iterator is the list of items it yields and how it ends, and
    does not touch the list it is read into. *)
From Coq Require Import ZArith List Bool.
From Verif Require Import Base PyLongModel MemModel QReverseModel PyListSpec.
Import ListNotations.
Local Open Scope Z_scope.

Inductive kind := KInt | KBig.
Definition bits (k : kind) : Z := match k with KInt => 32 | KBig => 64 end.
Definition esize (k : kind) : nat := match k with KInt => 4%nat | KBig => 8%nat end.

(** Values returned to Python. *)
Inductive val :=
| VNone
| VBool (b : bool)
| VInt (z : Z)                       (* PyLong_FromSsize_t / FromSize_t *)
| VElem (p : pylong)                 (* an element object *)
| VPyList (ps : list pylong)         (* a new Python list of element objects *)
| VConcat (ps : list pylong) (os : list pyobj) (* a new Python list, second part given objects *)
| VNewList (s : list Z)              (* a new array list *)
| VSelf.

(** Result of a method: what the interpreter sees, and the vector afterwards. *)
Definition res : Type := outcome val * list Z.

(** Continue after a conversion; a failed conversion leaves the vector alone.
    (No conversion below produces [RetPending].) *)
Definition with_ {A} (o : outcome A) (s : list Z) (f : A -> res) : res :=
  match o with
  | Ret a => f a
  | Raise e => (Raise e, s)
  | RetPending _ e => (Raise e, s)
  | Undef u => (Undef u, s)
  end.

(** [int value = PyLong_AsLong(o)] / [long long value = PyLong_AsLongLong(o)]. *)
Definition as_elem (k : kind) (o : pyobj) : outcome Z :=
  obind (as_long o) (fun z => Ret (wrap (bits k) z)).

(** PyArg_ParseTuple formats "i" (KInt) / "L" (KBig), and "n". *)
Definition parse_elem (k : kind) (o : pyobj) : outcome Z :=
  obind (as_long o) (fun z => if in_sbits_b (bits k) z then Ret z else Raise OverflowError).
Definition parse_n (o : pyobj) : outcome Z := as_long o.

(** PyFast_FromInt (KInt) / PyLong_FromLongLong (KBig) of an element. *)
Definition from_elem (cfg : config) (k : kind) (v : Z) : pylong :=
  match k with KInt => PyFast_FromInt (py312 cfg) v | KBig => mk_pylong v end.

(** An iterable argument. *)
Inductive arg :=
| ASame (ys : list Z)                         (* another list of the same class *)
| ASelf                                       (* the list itself *)
| AList (items : list pyobj)                  (* a Python list or tuple *)
| AIter (items : list pyobj) (fin : option exn) (* any other iterable: items, then stop or raise *)
| AOther.                                     (* not iterable *)

(** ** Construction *)
(** Fast path over a list or tuple, lines 71-79. *)
Fixpoint init_items (k : kind) (items : list pyobj) (s : list Z) : outcome unit * list Z :=
  match items with
  | [] => (Ret tt, s)
  | o :: r => match as_elem k o with
              | Ret v => init_items k r (s ++ [v])
              | _ => (Raise RuntimeError, s)   (* 73-77: the error is replaced *)
              end
  end.

(** IntArrayList_init, 42-111, for a given first argument. The result vector is
    the state of the new object; on failure the object is discarded. A plain
    integer only reserves (52-54); no argument gives an empty list. *)
Inductive init_arg := INone | IInt (z : Z) | IArg (a : arg).

Definition init (k : kind) (a : init_arg) : outcome val :=
  match a with
  | INone => Ret (VNewList [])
  | IInt z => if in_sbits_b 64 z then Ret (VNewList [])
              else RetPending (VNewList []) OverflowError   (* 36: error not checked *)
  | IArg (ASame ys) => Ret (VNewList ys)
  | IArg ASelf => Ret (VNewList [])      (* the object under construction itself: 59 self-assignment *)
  | IArg (AList items) =>
      match init_items k items [] with
      | (Ret _, s) => Ret (VNewList s)
      | (Raise e, _) => Raise e
      | (RetPending _ e, _) => Raise e
      | (Undef u, _) => Undef u
      end
  | IArg (AIter items fin) =>
      match init_items k items [] with
      | (Ret _, s) => match fin with None => Ret (VNewList s) | Some e => Raise e end
      | (Raise e, _) => Raise e
      | (RetPending _ e, _) => Raise e
      | (Undef u, _) => Undef u
      end
  | IArg AOther => Raise TypeError
  end.

(** ** Simple methods *)
(** IntArrayList_resize, 160-182. The argument must be an int; overflow gives
    -1 from PyLong_AsSsize_t and hence ValueError. *)
Definition resize (o : pyobj) (s : list Z) : res :=
  match o with
  | PObj _ => (Raise TypeError, s)
  | PInt z =>
      let n := if in_sbits_b 64 z then z else -1 in
      if n <? 0 then (Raise ValueError, s)
      else (Ret VNone, firstn (Z.to_nat n) s ++ repeat 0 (Z.to_nat n - length s))
  end.

(** IntArrayList_to_list, 184-202. *)
Definition to_list (cfg : config) (k : kind) (s : list Z) : res :=
  (Ret (VPyList (map (from_elem cfg k) s)), s).

(** IntArrayList_copy, 204-219. *)
Definition copy (s : list Z) : res := (Ret (VNewList s), s).

(** IntArrayList_append, 221-237. *)
Definition append (k : kind) (o : pyobj) (s : list Z) : res :=
  with_ (as_elem k o) s (fun v => (Ret VNone, s ++ [v])).

(** The item loop of extend, 270-286, and of iadd, 761-777. *)
Fixpoint extend_items (k : kind) (items : list pyobj) (fin : option exn) (s : list Z)
  : outcome unit * list Z :=
  match items with
  | [] => match fin with None => (Ret tt, s) | Some e => (Raise e, s) end
  | o :: r => match as_elem k o with
              | Ret v => extend_items k r fin (s ++ [v])
              | Raise e => (Raise e, s)
              | RetPending _ e => (Raise e, s)
              | Undef u => (Undef u, s)
              end
  end.

Definition then_ret {A} (v : A) (r : outcome unit * list Z) : outcome A * list Z :=
  (obind (fst r) (fun _ => Ret v), snd r).

(** IntArrayList_extend, 239-290. [vector.insert(end, first, last)] with an
    iterator range of the vector itself is undefined ([sequence.reqmts]). *)
Definition extend (k : kind) (a : arg) (s : list Z) : res :=
  match a with
  | ASame ys => (Ret VNone, s ++ ys)
  | ASelf => (Undef Overlap, s)
  | AList items => then_ret VNone (extend_items k items None s)
  | AIter items fin => then_ret VNone (extend_items k items fin s)
  | AOther => (Raise TypeError, s)
  end.

(** IntArrayList_iadd, 738-782: as extend, but the fast path returns None. *)
Definition iadd (k : kind) (a : arg) (s : list Z) : res :=
  match a with
  | ASame ys => (Ret VNone, s ++ ys)
  | ASelf => (Undef Overlap, s)
  | AList items => then_ret VSelf (extend_items k items None s)
  | AIter items fin => then_ret VSelf (extend_items k items fin s)
  | AOther => (Raise TypeError, s)
  end.

(** IntArrayList_add, 702-736. Same class: [Py_CreateObj(type, pySelf)] is
    PyObject_CallObject with a non-tuple argument, which always fails, so line
    709 raises MemoryError. Otherwise to_list and PySequence_Concat, which
    needs a Python list ([is_list]). *)
Inductive add_arg := AddSame (ys : list Z) | AddList (items : list pyobj) | AddOther.
Definition add (cfg : config) (k : kind) (a : add_arg) (s : list Z) : res :=
  match a with
  | AddSame _ => (Raise MemoryError, s)
  | AddList items => (Ret (VConcat (map (from_elem cfg k) s) items), s)
  | AddOther => (Raise TypeError, s)
  end.

(** IntArrayList_pop, 293-335 (BigInt 293-331, same behaviour). *)
Definition pop (cfg : config) (k : kind) (a : option pyobj) (s : list Z) : res :=
  match s with
  | [] => (Raise IndexError, s)
  | _ =>
    let vecSize := zlen s in
    match a with
    | None =>
        match znth s (vecSize - 1) with
        | Some v => (Ret (VElem (from_elem cfg k v)), removelast s)
        | None => (Undef OutOfBounds, s)
        end
    | Some o =>
        with_ (as_long o) s (fun index =>
        let index := if index <? 0 then index + vecSize else index in
        if (index <? 0) || (vecSize <=? index) then (Raise IndexError, s)
        else match znth s index, zerase s index with
             | Some v, Some s' => (Ret (VElem (from_elem cfg k v)), s')
             | _, _ => (Undef OutOfBounds, s)
             end)
    end
  end.

(** std::find over [pos, pos+n). Returns the position found or pos+n. *)
Fixpoint std_find (s : list Z) (v : Z) (n : nat) (pos : Z) : outcome Z :=
  match n with
  | O => Ret pos
  | S m => match znth s pos with
           | None => Undef OutOfBounds
           | Some x => if x =? v then Ret pos else std_find s v m (pos + 1)
           end
  end.

(** IntArrayList_index, 337-376. Default of stop is the size. *)
Definition index (k : kind) (o : pyobj) (ostart ostop : option pyobj) (s : list Z) : res :=
  let size := zlen s in
  with_ (parse_elem k o) s (fun value =>
  with_ (match ostart with None => Ret 0 | Some x => parse_n x end) s (fun start =>
  with_ (match ostop with None => Ret size | Some x => parse_n x end) s (fun stop =>
  let start := if start <? 0 then start + size else start in
  let stop := if stop <? 0 then stop + size else stop in
  let start := if start <? 0 then 0 else start in
  let stop := if size <? stop then size else stop in
  if stop <? start then (Raise ValueError, s)
  else with_ (std_find s value (Z.to_nat (stop - start)) start) s (fun it =>
       if it =? stop then (Raise ValueError, s) else (Ret (VInt it), s))))).

(** IntArrayList_count, 378-394. *)
Fixpoint std_count (s : list Z) (v : Z) : Z :=
  match s with [] => 0 | x :: r => (if x =? v then 1 else 0) + std_count r v end.

Definition count (k : kind) (o : pyobj) (s : list Z) : res :=
  with_ (as_elem k o) s (fun v => (Ret (VInt (std_count s v)), s)).

(** IntArrayList_insert, 396-423. *)
Definition insert (k : kind) (oi ov : pyobj) (s : list Z) : res :=
  with_ (parse_n oi) s (fun index =>
  with_ (parse_elem k ov) s (fun value =>
  let vecSize := zlen s in
  let index := if index <? 0 then Z.max 0 (vecSize + index)
               else if vecSize <? index then vecSize else index in
  match zinsert s index value with
  | Some s' => (Ret VNone, s')
  | None => (Undef OutOfBounds, s)
  end)).

(** IntArrayList_remove, 425-448. *)
Definition remove (k : kind) (o : pyobj) (s : list Z) : res :=
  with_ (as_elem k o) s (fun v =>
  with_ (std_find s v (length s) 0) s (fun it =>
  if it =? zlen s then (Raise ValueError, s)
  else match zerase s it with
       | Some s' => (Ret VNone, s')
       | None => (Undef OutOfBounds, s)
       end)).

(** IntArrayList_len, 501-505. *)
Definition len (s : list Z) : res := (Ret (VInt (zlen s)), s).

(** IntArrayList_getitem, 516-531. *)
Definition getitem (cfg : config) (k : kind) (pyIndex : Z) (s : list Z) : res :=
  let size := zlen s in
  let pyIndex := if pyIndex <? 0 then size + pyIndex else pyIndex in
  if (pyIndex <? 0) || (size <=? pyIndex) then (Raise IndexError, s)
  else match znth s pyIndex with
       | Some v => (Ret (VElem (from_elem cfg k v)), s)
       | None => (Undef OutOfBounds, s)
       end.

(** IntArrayList_setitem, 568-597; [None] is deletion. *)
Definition setitem (k : kind) (pyIndex : Z) (ov : option pyobj) (s : list Z) : res :=
  let size := zlen s in
  let pyIndex := if pyIndex <? 0 then size + pyIndex else pyIndex in
  if (pyIndex <? 0) || (size <=? pyIndex) then (Raise IndexError, s)
  else match ov with
       | None => match zerase s pyIndex with
                 | Some s' => (Ret VNone, s') | None => (Undef OutOfBounds, s) end
       | Some o => with_ (as_elem k o) s (fun v =>
                   match zset s pyIndex v with
                   | Some s' => (Ret VNone, s') | None => (Undef OutOfBounds, s) end)
       end.

(** IntArrayList_getitem_slice / setitem_slice with an index object, 534-540
    and 601-607. *)
Definition subscript (cfg : config) (k : kind) (o : pyobj) (s : list Z) : res :=
  with_ (as_index o) s (fun i => getitem cfg k i s).
Definition ass_subscript (k : kind) (o : pyobj) (ov : option pyobj) (s : list Z) : res :=
  with_ (as_index o) s (fun i => setitem k i ov s).

(** ** Slices *)
(** _PyEval_SliceIndex: clamp to the ssize range. *)
Definition clip (z : Z) : Z :=
  if z <? SSIZE_MIN then SSIZE_MIN else if SSIZE_MAX <? z then SSIZE_MAX else z.

(** PySlice_Unpack of CPython (sliceobject.c). *)
Definition PySlice_Unpack (sl : slice) : outcome (Z * Z * Z) :=
  let step := match sl_step sl with None => 1 | Some z => clip z end in
  if step =? 0 then Raise ValueError else
  let step := if step <? - SSIZE_MAX then - SSIZE_MAX else step in
  let start := match sl_start sl with
               | None => if step <? 0 then SSIZE_MAX else 0 | Some z => clip z end in
  let stop := match sl_stop sl with
              | None => if step <? 0 then SSIZE_MIN else SSIZE_MAX | Some z => clip z end in
  Ret (start, stop, step).

(** PySlice_AdjustIndices of CPython: adjusted start, stop and the length. *)
Definition adjust1 (length x step : Z) : Z :=
  if x <? 0 then
    let x := x + length in
    if x <? 0 then (if step <? 0 then -1 else 0) else x
  else if length <=? x then (if step <? 0 then length - 1 else length)
  else x.

Definition PySlice_AdjustIndices (length start stop step : Z) : Z * Z * Z :=
  let start := adjust1 length start step in
  let stop := adjust1 length stop step in
  (start, stop,
   if step <? 0 then
     (if stop <? start then (start - stop - 1) / (- step) + 1 else 0)
   else
     (if start <? stop then (stop - start - 1) / step + 1 else 0)).

(** Signed ssize arithmetic: overflow is undefined. *)
Definition ssz (z : Z) : outcome Z := if in_sbits_b 64 z then Ret z else Undef SignedOverflow.

(** The read loop, 556-564. *)
Fixpoint slice_read (cfg : config) (k : kind) (s : list Z) (n : nat) (i start step : Z)
  : outcome (list pylong) :=
  match n with
  | O => Ret []
  | S m =>
      obind (ssz (i * step)) (fun is_ =>
      obind (ssz (start + is_)) (fun idx =>
      obind (or_ub OutOfBounds (znth s idx)) (fun v =>
      obind (slice_read cfg k s m (i + 1) start step) (fun r =>
      Ret (from_elem cfg k v :: r)))))
  end.

(** IntArrayList_getitem_slice, 542-566. *)
Definition getitem_slice (cfg : config) (k : kind) (sl : slice) (s : list Z) : res :=
  with_ (PySlice_Unpack sl) s (fun '(start, stop, step) =>
  let '(start, _, sliceLength) := PySlice_AdjustIndices (zlen s) start stop step in
  with_ (slice_read cfg k s (Z.to_nat sliceLength) 0 start step) s (fun l =>
  (Ret (VPyList l), s))).

(** Right-hand side of a slice assignment. Its length and items may depend on
    the vector being assigned (when it is the list itself). *)
Record source := { src_len : list Z -> outcome Z; src_get : list Z -> Z -> outcome pyobj }.

(** A Python list or tuple. *)
Definition src_items (items : list pyobj) : source :=
  {| src_len := fun _ => Ret (zlen items);
     src_get := fun _ i => match znth items i with Some o => Ret o | None => Raise IndexError end |}.

(** sq_item of an array list: an element object seen by PyLong_AsLong. *)
Definition get_as_int (cfg : config) (k : kind) (ys : list Z) (i : Z) : outcome pyobj :=
  match znth ys i with
  | Some v => Ret (PInt (pl_val (from_elem cfg k v)))
  | None => Raise IndexError
  end.

(** Another array list (given contents), and the list itself. *)
Definition src_same (cfg : config) (k : kind) (ys : list Z) : source :=
  {| src_len := fun _ => Ret (zlen ys); src_get := fun _ i => get_as_int cfg k ys i |}.
Definition src_self (cfg : config) (k : kind) : source :=
  {| src_len := fun s => Ret (zlen s); src_get := fun s i => get_as_int cfg k s i |}.

(** Loop [vector[start+i] = PyLong_AsLong(item)], 633-644, 646-657, 664-675:
    the value is stored before the error is looked at. PyLong_AsLong is used in
    both files here. *)
Fixpoint assign_loop (k : kind) (src : source) (n : nat) (i start : Z) (s : list Z)
  : outcome unit * list Z :=
  match n with
  | O => (Ret tt, s)
  | S m =>
      match src_get src s i with
      | Ret o =>
          let '(z, err) := match as_long o with
                           | Ret z => (z, None) | Raise e => (-1, Some e)
                           | RetPending z e => (z, Some e) | Undef _ => (-1, None) end in
          match zset s (start + i) (wrap (bits k) z) with
          | None => (Undef OutOfBounds, s)
          | Some s' => match err with
                       | Some e => (Raise e, s')
                       | None => assign_loop k src m (i + 1) start s' end
          end
      | Raise e => (Raise e, s)
      | RetPending _ e => (Raise e, s)
      | Undef u => (Undef u, s)
      end
  end.

(** Loop [vector.insert(begin()+start+i, PyLong_AsLong(item))], 677-691. *)
Fixpoint insert_loop (k : kind) (src : source) (n : nat) (i start : Z) (s : list Z)
  : outcome unit * list Z :=
  match n with
  | O => (Ret tt, s)
  | S m =>
      match src_get src s i with
      | Ret o =>
          let '(z, err) := match as_long o with
                           | Ret z => (z, None) | Raise e => (-1, Some e)
                           | RetPending z e => (z, Some e) | Undef _ => (-1, None) end in
          match zinsert s (start + i) (wrap (bits k) z) with
          | None => (Undef OutOfBounds, s)
          | Some s' => match err with
                       | Some e => (Raise e, s')
                       | None => insert_loop k src m (i + 1) start s' end
          end
      | Raise e => (Raise e, s)
      | RetPending _ e => (Raise e, s)
      | Undef u => (Undef u, s)
      end
  end.

(** Argument of a slice assignment: deletion passes NULL. *)
Inductive ass_arg := AssDel | AssNotSeq | AssSeq (src : source).

(** IntArrayList_setitem_slice, 609-700. *)
Definition setitem_slice (k : kind) (sl : slice) (a : ass_arg) (s : list Z) : res :=
  with_ (PySlice_Unpack sl) s (fun '(start, stop, step) =>
  let '(start, stop, sliceLength) := PySlice_AdjustIndices (zlen s) start stop step in
  match a with
  | AssDel => (Undef NullDeref, s)                  (* 618: PySequence_Check(NULL) *)
  | AssNotSeq => (Raise TypeError, s)
  | AssSeq src =>
      let '(newLength, pend) := match src_len src s with
                                | Ret n => (n, None) | Raise e => (-1, Some e)
                                | RetPending n e => (n, Some e) | Undef _ => (-1, None) end in
      if negb (step =? 1) then (Raise NotImplementedError, s) else
      let r :=
        if newLength =? sliceLength then assign_loop k src (Z.to_nat sliceLength) 0 start s
        else if newLength <? sliceLength then
          let r1 := assign_loop k src (Z.to_nat newLength) 0 start s in
          match fst r1 with
          | Ret _ => match zerase_range (snd r1) (start + newLength) stop with
                     | Some s' => (Ret tt, s')
                     | None => (Undef OutOfBounds, snd r1) end
          | _ => r1
          end
        else
          let r1 := assign_loop k src (Z.to_nat sliceLength) 0 start s in
          match fst r1 with
          | Ret _ => insert_loop k src (Z.to_nat (newLength - sliceLength)) sliceLength start (snd r1)
          | _ => r1
          end in
      match pend, fst r with
      | Some e, Ret _ => (RetPending VNone e, snd r)
      | _, _ => then_ret VNone r
      end
  end).

(** ** Membership, reverse, clear *)
(** IntArrayList_contains, 866-888. *)
Definition contains (k : kind) (o : pyobj) (s : list Z) : res :=
  match o with
  | PObj _ => (Ret (VBool false), s)
  | PInt _ =>
      with_ (as_elem k o) s (fun v =>
      with_ (std_find s v (length s) 0) s (fun it =>
      (Ret (VBool (negb (it =? zlen s))), s)))
  end.

(** The vector's buffer as bytes, and back. *)
Definition encode (k : kind) (s : list Z) : bytes := concat (map (le_bytes (esize k)) s).
Definition decode (k : kind) (n : nat) (b : bytes) : list Z := map le_sval (chunk_n (esize k) n b).

(** IntArrayList_reverse, 898-905: simdReverse (SIMDUtils.h 174) on the buffer. *)
Definition reverse (cfg : config) (k : kind) (s : list Z) : res :=
  with_ (qreverse (feat cfg) (esize k) (length s) (encode k s)) s
    (fun b => (Ret VNone, decode k (length s) b)).

(** IntArrayList_clear, 907-912. *)
Definition clear (s : list Z) : res := (Ret VNone, []).

(** ** Calls of the API with in-range integers, as in PyListSpec.op *)
Definition step (cfg : config) (k : kind) (o : op) (s : list Z) : res :=
  match o with
  | OAppend v => append k (PInt v) s
  | OExtend FromList vs => extend k (AList (map PInt vs)) s
  | OExtend FromIterator vs => extend k (AIter (map PInt vs) None) s
  | OExtend FromSameType vs => extend k (ASame vs) s
  | OInsert i v => insert k (PInt i) (PInt v) s
  | OPop i => pop cfg k (option_map PInt i) s
  | ORemove v => remove k (PInt v) s
  | OReverse => reverse cfg k s
  | OClear => clear s
  | OResize n => resize (PInt n) s
  | OLen => len s
  | OGet i => subscript cfg k (PInt i) s
  | OSet i v => ass_subscript k (PInt i) (Some (PInt v)) s
  | ODel i => ass_subscript k (PInt i) None s
  | OGetSlice sl => getitem_slice cfg k sl s
  | OSetSlice sl vs => setitem_slice k sl (AssSeq (src_items (map PInt vs))) s
  | OIndex v a b => index k (PInt v) (option_map PInt a) (option_map PInt b) s
  | OCount v => count k (PInt v) s
  | OContains v => contains k (PInt v) s
  | OToList => to_list cfg k s
  | OCopy => copy s
  end.

Fixpoint run (cfg : config) (k : kind) (ops : list op) (s : list Z) : list (outcome val) * list Z :=
  match ops with
  | [] => ([], s)
  | o :: r => let '(x, s1) := step cfg k o s in
              let '(xs, s2) := run cfg k r s1 in (x :: xs, s2)
  end.
