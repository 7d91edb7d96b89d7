(** objects/ObjectArrayList.cpp (line numbers of that file): vector of object
    references. Python arguments of index parameters are ints or objects
    without [__index__]. *)
From Coq Require Import ZArith List Bool.
From Verif Require Import Base PyLongModel MemModel QReverseModel PyListSpec ArrayListModel ObjModel.
Import ListNotations.
Local Open Scope Z_scope.

Definition vec := list Z.
Definition ares := ores vec.

(** ObjectArrayList_init, 42-101, with an iterable argument ([None]: without). A
    failed construction destroys the new object, which releases what it holds
    (dealloc, 103-109). The constructor given the object under construction
    itself is left out. *)
Definition a_init (a : option oarg) (rc : counts) : outcome vec * counts :=
  match a with
  | None => (Ret [], rc)
  | Some (OSame ys) => (Ret ys, rc)                                   (* 57-61 *)
  | Some OSelfArg => (Ret [], rc)
  | Some (OList items) =>                                             (* 63-80, also a tuple *)
      match incref_all items rc with
      | Ret rc' => (Ret items, rc')
      | Undef u => (Undef u, rc)
      | Raise e => (Raise e, rc)
      | RetPending _ e => (Raise e, rc)
      end
  | Some (OIter items fin) =>                                         (* 82-93 *)
      let rc1 := new_refs items rc in
      match fin with
      | None => (Ret items, rc1)
      | Some e => match decref_all items rc1 with
                  | Ret rc2 => (Raise e, rc2)
                  | Undef u => (Undef u, rc1)
                  | Raise e => (Raise e, rc1)
                  | RetPending _ e => (Raise e, rc1)
                  end
      end
  | Some OOther => (Raise TypeError, rc)
  end.

(** ObjectArrayList_dealloc, 103-109. *)
Definition a_dealloc (s : vec) (rc : counts) : outcome counts := decref_all s rc.

(** ObjectArrayList_resize, 111-143: no reference is counted. *)
Definition a_resize (n : pyobj) (s : vec) (rc : counts) : ares :=
  match n with
  | PObj _ => (Raise TypeError, (s, rc))
  | PInt z =>
      let n := if in_sbits_b 64 z then z else -1 in
      if n <? 0 then (Raise ValueError, (s, rc))
      else (Ret ONone, (firstn (Z.to_nat n) s ++ repeat PyNone (Z.to_nat n - length s), rc))
  end.

(** ObjectArrayList_to_list, 145-160. *)
Definition a_to_list (s : vec) (rc : counts) : ares :=
  owith (incref_all s rc) s rc (fun rc => (Ret (OPyList s), (s, rc))).

(** ObjectArrayList_copy, 162-180. *)
Definition a_copy (s : vec) (rc : counts) : ares :=
  owith (incref_all s rc) s rc (fun rc => (Ret (ONew s), (s, rc))).

(** ObjectArrayList_append, 182-199. *)
Definition a_append (o : Z) (s : vec) (rc : counts) : ares :=
  owith (incref o rc) s rc (fun rc => (Ret ONone, (s ++ [o], rc))).

(** Pushing the items of an iterator, 244-258 and 722-738: the references they
    come with are kept; then the iterator's own error. *)
Definition push_items (v : oval vec) (items : list Z) (fin : option exn) (s : vec) (rc : counts) : ares :=
  (match fin with None => Ret v | Some e => Raise e end, (s ++ items, new_refs items rc)).

(** ObjectArrayList_extend, 201-262. A range of the vector itself is undefined,
    as in ArrayListModel.extend. *)
Definition a_extend (a : oarg) (s : vec) (rc : counts) : ares :=
  match a with
  | OSame ys => owith (incref_all ys rc) s rc (fun rc => (Ret ONone, (s ++ ys, rc)))
  | OSelfArg => (Undef Overlap, (s, rc))
  | OList items => owith (incref_all items rc) s rc (fun rc => (Ret ONone, (s ++ items, rc)))
  | OIter items fin => push_items ONone items fin s rc
  | OOther => (Raise TypeError, (s, rc))
  end.

(** ObjectArrayList_iadd, 697-743: the fast path returns None; a Python list
    goes through its iterator. *)
Definition a_iadd (a : oarg) (s : vec) (rc : counts) : ares :=
  match a with
  | OSame ys => owith (incref_all ys rc) s rc (fun rc => (Ret ONone, (s ++ ys, rc)))
  | OSelfArg => (Undef Overlap, (s, rc))
  | OList items => push_items OSelf items None s rc
  | OIter items fin => push_items OSelf items fin s rc
  | OOther => (Raise TypeError, (s, rc))
  end.

(** ObjectArrayList_add, 658-695. Same class: as ArrayListModel.add. Otherwise
    to_list, PySequence_Concat (a new list that holds both operands' elements,
    only with a Python list) and the release of the intermediate list. *)
Definition a_add (a : oarg) (s : vec) (rc : counts) : ares :=
  match a with
  | OSame _ | OSelfArg => (Raise MemoryError, (s, rc))
  | OList items =>
      owith (incref_all s rc) s rc (fun rc =>
      owith (incref_all (s ++ items) rc) s rc (fun rc =>
      owith (decref_all s rc) s rc (fun rc => (Ret (OPyList (s ++ items)), (s, rc)))))
  | OIter _ _ | OOther =>
      owith (incref_all s rc) s rc (fun rc =>
      owith (decref_all s rc) s rc (fun rc => (Raise TypeError, (s, rc))))
  end.

(** ObjectArrayList_pop, 265-304: the vector's reference is handed over. *)
Definition a_pop (a : option pyobj) (s : vec) (rc : counts) : ares :=
  match s with
  | [] => (Raise IndexError, (s, rc))
  | _ =>
    let vecSize := zlen s in
    match a with
    | None => match znth s (vecSize - 1) with
              | Some v => (Ret (OElem v), (removelast s, rc))
              | None => (Undef OutOfBounds, (s, rc))
              end
    | Some i =>
        owith (as_long i) s rc (fun index =>
        let index := if index <? 0 then index + vecSize else index in
        if (index <? 0) || (vecSize <=? index) then (Raise IndexError, (s, rc))
        else match znth s index, zerase s index with
             | Some v, Some s' => (Ret (OElem v), (s', rc))
             | _, _ => (Undef OutOfBounds, (s, rc))
             end)
    end
  end.

(** ObjectArrayList_index, 306-345: std::find compares pointers. *)
Definition a_index (o : Z) (ostart ostop : option pyobj) (s : vec) (rc : counts) : ares :=
  let size := zlen s in
  owith (match ostart with None => Ret 0 | Some x => parse_n x end) s rc (fun start =>
  owith (match ostop with None => Ret size | Some x => parse_n x end) s rc (fun stop =>
  let start := if start <? 0 then start + size else start in
  let stop := if stop <? 0 then stop + size else stop in
  let start := if start <? 0 then 0 else start in
  let stop := if size <? stop then size else stop in
  if stop <? start then (Raise ValueError, (s, rc))
  else owith (std_find s o (Z.to_nat (stop - start)) start) s rc (fun it =>
       if it =? stop then (Raise ValueError, (s, rc)) else (Ret (ONum it), (s, rc))))).

(** ObjectArrayList_count, 347-358. *)
Definition a_count (o : Z) (s : vec) (rc : counts) : ares := (Ret (ONum (std_count s o)), (s, rc)).

(** ObjectArrayList_insert, 360-388. *)
Definition a_insert (i : pyobj) (o : Z) (s : vec) (rc : counts) : ares :=
  owith (parse_n i) s rc (fun index =>
  let vecSize := zlen s in
  let index := if index <? 0 then Z.max 0 (vecSize + index)
               else if vecSize <? index then vecSize else index in
  match zinsert s index o with
  | Some s' => owith (incref o rc) s rc (fun rc => (Ret ONone, (s', rc)))
  | None => (Undef OutOfBounds, (s, rc))
  end).

(** ObjectArrayList_remove, 390-415. *)
Definition a_remove (o : Z) (s : vec) (rc : counts) : ares :=
  owith (std_find s o (length s) 0) s rc (fun it =>
  if it =? zlen s then (Raise ValueError, (s, rc))
  else match zerase s it with
       | Some s' => owith (decref o rc) s rc (fun rc => (Ret ONone, (s', rc)))
       | None => (Undef OutOfBounds, (s, rc))
       end).

(** ObjectArrayList_getitem, 449-466. *)
Definition a_getitem (pyIndex : Z) (s : vec) (rc : counts) : ares :=
  let size := zlen s in
  let pyIndex := if pyIndex <? 0 then size + pyIndex else pyIndex in
  if (pyIndex <? 0) || (size <=? pyIndex) then (Raise IndexError, (s, rc))
  else match znth s pyIndex with
       | Some o => owith (incref o rc) s rc (fun rc => (Ret (OElem o), (s, rc)))
       | None => (Undef OutOfBounds, (s, rc))
       end.
Definition a_subscript (i : pyobj) (s : vec) (rc : counts) : ares :=
  owith (as_index i) s rc (fun i => a_getitem i s rc).

(** Read loop of ObjectArrayList_getitem_slice, 491-496. *)
Fixpoint a_slice_read (s : vec) (n : nat) (i start step : Z) (rc : counts) : outcome (list Z * counts) :=
  match n with
  | O => Ret ([], rc)
  | S m =>
      obind (ssz (i * step)) (fun is_ =>
      obind (ssz (start + is_)) (fun idx =>
      obind (or_ub OutOfBounds (znth s idx)) (fun o =>
      obind (incref o rc) (fun rc =>
      obind (a_slice_read s m (i + 1) start step rc) (fun '(r, rc) => Ret (o :: r, rc))))))
  end.
Definition a_getitem_slice (sl : slice) (s : vec) (rc : counts) : ares :=
  owith (PySlice_Unpack sl) s rc (fun '(start, stop, step) =>
  let '(start, _, sliceLength) := PySlice_AdjustIndices (zlen s) start stop step in
  owith (a_slice_read s (Z.to_nat sliceLength) 0 start step rc) s rc (fun '(l, rc) =>
  (Ret (OPyList l), (s, rc)))).

(** ObjectArrayList_setitem, 500-531; [None] is deletion. *)
Definition a_setitem (pyIndex : Z) (ov : option Z) (s : vec) (rc : counts) : ares :=
  let size := zlen s in
  let pyIndex := if pyIndex <? 0 then size + pyIndex else pyIndex in
  if (pyIndex <? 0) || (size <=? pyIndex) then (Raise IndexError, (s, rc))
  else match ov with
       | None => match znth s pyIndex, zerase s pyIndex with
                 | Some o, Some s' => owith (decref o rc) s rc (fun rc => (Ret ONone, (s', rc)))
                 | _, _ => (Undef OutOfBounds, (s, rc))
                 end
       | Some o => match zset s pyIndex o with
                   | Some s' => owith (incref o rc) s rc (fun rc => (Ret ONone, (s', rc)))
                   | None => (Undef OutOfBounds, (s, rc))
                   end
       end.
Definition a_ass_subscript (i : pyobj) (ov : option Z) (s : vec) (rc : counts) : ares :=
  owith (as_index i) s rc (fun i => a_setitem i ov s rc).

(** ** Slice assignment, 533-656 *)
(** Loop of fastCopy, 568-571: SAFE_DECREF(dest[i]) clears the slot before
    src[i] is read; [src] sees the vector. *)
Fixpoint fast_loop (src : vec -> Z -> option Z) (n : nat) (i start : Z) (s : vec) (rc : counts)
    : outcome (vec * counts) :=
  match n with
  | O => Ret (s, rc)
  | S m =>
      obind (or_ub OutOfBounds (znth s (start + i))) (fun old =>
      obind (decref old rc) (fun rc =>
      obind (or_ub OutOfBounds (zset s (start + i) 0)) (fun s =>
      obind (or_ub OutOfBounds (src s i)) (fun o =>
      obind (incref o rc) (fun rc => fast_loop src m (i + 1) start s rc)))))
  end.
(** fast_memcpy(dest, src, length), 572. *)
Fixpoint copy_in (src : list Z) (start : Z) (s : vec) : outcome vec :=
  match src with
  | [] => Ret s
  | o :: r => obind (or_ub OutOfBounds (zset s start o)) (copy_in r (start + 1))
  end.
(** fastCopy with a source of its own memory, and with the vector itself. *)
Definition fast_copy (ys : list Z) (n start : Z) (s : vec) (rc : counts) : outcome (vec * counts) :=
  obind (fast_loop (fun _ i => znth ys i) (Z.to_nat n) 0 start s rc) (fun '(s, rc) =>
  omap (fun s => (s, rc)) (copy_in (firstn (Z.to_nat n) ys) start s)).
Definition fast_copy_self (n start : Z) (s : vec) (rc : counts) : outcome (vec * counts) :=
  obind (fast_loop znth (Z.to_nat n) 0 start s rc) (fun '(s, rc) =>
  if (0 <? n) && (start <? n) then Undef Overlap
  else omap (fun s => (s, rc)) (copy_in (firstn (Z.to_nat n) s) start s)).

(** genericCopy, 576-586: PySequence_GetItem before the old item is released. *)
Fixpoint generic_loop (get : Z -> outcome Z) (n : nat) (i start : Z) (s : vec) (rc : counts)
    : outcome unit * (vec * counts) :=
  match n with
  | O => (Ret tt, (s, rc))
  | S m =>
      match get i with
      | Ret o =>
          let rc := new_ref o rc in
          match obind (or_ub OutOfBounds (znth s (start + i))) (fun old => decref old rc),
                zset s (start + i) o with
          | Ret rc, Some s => generic_loop get m (i + 1) start s rc
          | Undef u, _ => (Undef u, (s, rc))
          | _, _ => (Undef OutOfBounds, (s, rc))
          end
      | Raise e => (Raise e, (s, rc))
      | RetPending _ e => (Raise e, (s, rc))
      | Undef u => (Undef u, (s, rc))
      end
  end.
(** Additional elements of the generic path, 641-647. *)
Fixpoint generic_insert (get : Z -> outcome Z) (n : nat) (i start : Z) (s : vec) (rc : counts)
    : outcome unit * (vec * counts) :=
  match n with
  | O => (Ret tt, (s, rc))
  | S m =>
      match get i with
      | Ret o =>
          match zinsert s (start + i) o with
          | Some s => generic_insert get m (i + 1) start s (new_ref o rc)
          | None => (Undef OutOfBounds, (s, rc))
          end
      | Raise e => (Raise e, (s, rc))
      | RetPending _ e => (Raise e, (s, rc))
      | Undef u => (Undef u, (s, rc))
      end
  end.

(** The extra elements are released (614-616), leaving null pointers, and
    erased, 617. *)
Fixpoint drop_loop (n : nat) (i : Z) (s : vec) (rc : counts) : outcome (vec * counts) :=
  match n with
  | O => Ret (s, rc)
  | S m =>
      obind (or_ub OutOfBounds (znth s i)) (fun old =>
      obind (decref old rc) (fun rc =>
      obind (or_ub OutOfBounds (zset s i 0)) (fun s => drop_loop m (i + 1) s rc)))
  end.
Definition drop_range (a n stop : Z) (s : vec) (rc : counts) : outcome (vec * counts) :=
  obind (drop_loop (Z.to_nat n) a s rc) (fun '(s, rc) =>
  omap (fun s => (s, rc)) (or_ub OutOfBounds (zerase_range s a stop))).

(** vector.insert(begin()+at, first, last) of foreign memory. *)
Definition insert_range (at_ : Z) (ys : list Z) (s : vec) : outcome vec :=
  if (0 <=? at_) && (at_ <=? zlen s)
  then Ret (firstn (Z.to_nat at_) s ++ ys ++ skipn (Z.to_nat at_) s) else Undef OutOfBounds.

(** Last step of a slice assignment. *)
Definition done_ (x : outcome (vec * counts)) (s : vec) (rc : counts) : ares :=
  owith x s rc (fun '(s, rc) => (Ret ONone, (s, rc))).
Definition after (r : outcome unit * (vec * counts)) (f : vec -> counts -> ares) : ares :=
  match fst r with
  | Ret _ => f (fst (snd r)) (snd (snd r))
  | Raise e => (Raise e, snd r)
  | RetPending _ e => (Raise e, snd r)
  | Undef u => (Undef u, snd r)
  end.

(** ObjectArrayList_setitem_slice, 533-656. *)
Definition a_setitem_slice (sl : slice) (v : sset oarg) (s : vec) (rc : counts) : ares :=
  owith (PySlice_Unpack sl) s rc (fun '(start, stop, step) =>
  let '(start, stop, sliceLength) := PySlice_AdjustIndices (zlen s) start stop step in
  let fast (ys : list Z) : ares :=
    let newLength := zlen ys in
    if newLength =? sliceLength then done_ (fast_copy ys sliceLength start s rc) s rc
    else if newLength <? sliceLength then
      done_ (obind (fast_copy ys newLength start s rc) (fun '(s, rc) =>
             drop_range (start + newLength) (sliceLength - newLength) stop s rc)) s rc
    else
      done_ (obind (fast_copy ys sliceLength start s rc) (fun '(s, rc) =>
             omap (fun s => (s, rc))                       (* 622-626, 630-634: no INCREF *)
               (insert_range (start + sliceLength) (skipn (Z.to_nat sliceLength) ys) s))) s rc in
  match v with
  | SetDel => (Undef NullDeref, (s, rc))                   (* 551: PySequence_Check(NULL) *)
  | SetTo OOther => (Raise TypeError, (s, rc))
  | SetNoLen e =>                                          (* newLength is -1 *)
      if negb (step =? 1) then (Raise NotImplementedError, (s, rc))
      else owith (drop_range (start - 1) (sliceLength + 1) stop s rc) s rc (fun '(s, rc) =>
           (RetPending ONone e, (s, rc)))
  | SetTo a =>
      if negb (step =? 1) then (Raise NotImplementedError, (s, rc)) else
      match a with
      | OSame ys => fast ys
      | OList items => fast items
      | OSelfArg =>
          let newLength := zlen s in
          if newLength =? sliceLength then done_ (fast_copy_self sliceLength start s rc) s rc
          else done_ (obind (fast_copy_self sliceLength start s rc) (fun _ => Undef Overlap)) s rc
      | OIter items fin =>
          let get := seq_get items fin in
          let newLength := seq_len items fin in
          if newLength =? sliceLength then
            after (generic_loop get (Z.to_nat sliceLength) 0 start s rc) (fun s rc => (Ret ONone, (s, rc)))
          else if newLength <? sliceLength then
            after (generic_loop get (Z.to_nat newLength) 0 start s rc) (fun s rc =>
            done_ (drop_range (start + newLength) (sliceLength - newLength) stop s rc) s rc)
          else
            after (generic_loop get (Z.to_nat sliceLength) 0 start s rc) (fun s rc =>
            after (generic_insert get (Z.to_nat (newLength - sliceLength)) sliceLength start s rc)
              (fun s rc => (Ret ONone, (s, rc))))
      | OOther => (Raise TypeError, (s, rc))
      end
  end).

(** ** Repetition *)
(** vector::reserve throws length_error above max_size(), caught as
    RuntimeError; the product is computed in size_t. *)
Definition max_size : Z := 2 ^ 60 - 1.
Definition reserve_fails (size n : Z) : bool := max_size <? (size * n) mod 2 ^ 64.

(** Loops of ObjectArrayList_mul, 766-771. *)
Fixpoint a_mul_loop (n : nat) (s acc : vec) (rc : counts) : outcome (vec * counts) :=
  match n with
  | O => Ret (acc, rc)
  | S m => obind (incref_all s rc) (fun rc => a_mul_loop m s (acc ++ s) rc)
  end.
(** ObjectArrayList_mul, 746-779. *)
Definition a_mul (n : Z) (s : vec) (rc : counts) : ares :=
  let n := if n <? 0 then 0 else n in
  if n =? 0 then (Ret (ONew []), (s, rc))
  else if reserve_fails (zlen s) n then (Raise RuntimeError, (s, rc))
  else owith (a_mul_loop (Z.to_nat n) s [] rc) s rc (fun '(l, rc) => (Ret (ONew l), (s, rc))).

(** Loops of ObjectArrayList_imul, 809-814, one loop condition at a time:
    [i < n], then [j < vector.size()] - the size it has then. *)
Record loop := { l_i : Z; l_j : Z; l_vec : vec; l_rc : counts }.
Inductive progress := Running (x : loop) | Finished (s : vec) (rc : counts) | Crashed (u : ub).
Definition imul_step (n : Z) (x : loop) : progress :=
  if l_i x <? n then
    if l_j x <? zlen (l_vec x) then
      match znth (l_vec x) (l_j x) with
      | Some o => match incref o (l_rc x) with
                  | Ret rc => Running {| l_i := l_i x; l_j := l_j x + 1; l_vec := l_vec x ++ [o]; l_rc := rc |}
                  | Undef u => Crashed u
                  | _ => Crashed NullDeref
                  end
      | None => Crashed OutOfBounds
      end
    else Running {| l_i := l_i x + 1; l_j := 0; l_vec := l_vec x; l_rc := l_rc x |}
  else Finished (l_vec x) (l_rc x).
Fixpoint imul_steps (n : Z) (k : nat) (x : loop) : progress :=
  match k with
  | O => Running x
  | S m => match imul_step n x with Running x' => imul_steps n m x' | r => r end
  end.

(** ObjectArrayList_imul, 795-823, observed for [k] steps; [None]: still
    running. *)
Definition a_imul (k : nat) (n : Z) (s : vec) (rc : counts) : option ares :=
  let n := if n <? 0 then 0 else n in
  if n =? 0 then Some (Ret OSelf, ([], rc))                 (* 804: no DECREF *)
  else if reserve_fails (zlen s) n then Some (Raise RuntimeError, (s, rc))
  else match imul_steps n k {| l_i := 1; l_j := 0; l_vec := s; l_rc := rc |} with
       | Running _ => None
       | Finished s rc => Some (Ret OSelf, (s, rc))
       | Crashed u => Some (Undef u, (s, rc))
       end.

(** ObjectArrayList_contains, 825-847. *)
Definition a_contains (isint : bool) (o : Z) (s : vec) (rc : counts) : ares :=
  if negb isint then (Ret (OBool false), (s, rc))
  else owith (std_find s o (length s) 0) s rc (fun it => (Ret (OBool (negb (it =? zlen s))), (s, rc))).

(** ObjectArrayList_reverse, 857-864: simdReverse on the 8-byte pointers. *)
Definition a_reverse (f : cpu) (s : vec) (rc : counts) : ares :=
  owith (qreverse f 8 (length s) (encode KBig s)) s rc (fun b =>
  (Ret ONone, (decode KBig (length s) b, rc))).

(** ObjectArrayList_clear, 866-874. *)
Definition a_clear (s : vec) (rc : counts) : ares :=
  owith (decref_all s rc) s rc (fun rc => (Ret ONone, ([], rc))).

(** All calls; meaningful when the call returns: [a *= n] does not for n >= 2
    on a non-empty list (see [a_imul] and theorem C38). *)
Definition a_call (f : cpu) (c : ocall oarg) (s : vec) (rc : counts) : ares :=
  match c with
  | CAppend o => a_append o s rc
  | CExtend a => a_extend a s rc
  | CIadd a => a_iadd a s rc
  | CAdd a => a_add a s rc
  | CPop i => a_pop i s rc
  | CIndex o a b => a_index o a b s rc
  | CCount o => a_count o s rc
  | CInsert i o => a_insert i o s rc
  | CRemove o => a_remove o s rc
  | CLen => (Ret (ONum (zlen s)), (s, rc))
  | CGet i => a_subscript i s rc
  | CGetSlice sl => a_getitem_slice sl s rc
  | CSet i o => a_ass_subscript i (Some o) s rc
  | CDel i => a_ass_subscript i None s rc
  | CSetSlice sl v => a_setitem_slice sl v s rc
  | CResize n => a_resize n s rc
  | CToList => a_to_list s rc
  | CCopy => a_copy s rc
  | CMul n => a_mul n s rc
  | CImul n => match a_imul (Z.to_nat (Z.max 1 n)) n s rc with Some r => r | None => (Ret OSelf, (s, rc)) end
  | CContains b o => a_contains b o s rc
  | CReverse => a_reverse f s rc
  | CClear => a_clear s rc
  end.
