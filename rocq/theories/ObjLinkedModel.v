(** objects/ObjectLinkedList.cpp (line numbers of that file): std::list of
    object references, on the node model of StdListModel. *)
From Coq Require Import ZArith List Bool.
From Verif Require Import Base PyListSpec ArrayListModel StdListModel LinkedListModel ObjModel.
Import ListNotations.
Local Open Scope Z_scope.

Definition nres := ores ll.

(** ObjectLinkedList_init, 23-81; a failed construction destroys the object
    (dealloc, 83-89). *)
Definition l_init (a : option oarg) (rc : counts) : outcome ll * counts :=
  match a with
  | None => (Ret (new_list empty), rc)
  | Some (OSame ys) => (Ret (new_list (copy_of ys)), rc)              (* 38-42 *)
  | Some OSelfArg => (Ret (new_list empty), rc)
  | Some (OList items) =>                                             (* 44-59, also a tuple *)
      match incref_all items rc with
      | Ret rc' => (Ret (new_list (copy_of items)), rc')
      | Undef u => (Undef u, rc)
      | Raise e => (Raise e, rc)
      | RetPending _ e => (Raise e, rc)
      end
  | Some (OIter items fin) =>                                         (* 61-72 *)
      let rc1 := new_refs items rc in
      match fin with
      | None => (Ret (new_list (copy_of items)), rc1)
      | Some e => match decref_all items rc1 with
                  | Ret rc2 => (Raise e, rc2)
                  | Undef u => (Undef u, rc1)
                  | Raise e => (Raise e, rc1)
                  | RetPending _ e => (Raise e, rc1)
                  end
      end
  | Some OOther => (Raise TypeError, rc)
  end.

(** ObjectLinkedList_dealloc, 83-89. *)
Definition l_dealloc (l : ll) (rc : counts) : outcome counts := decref_all (values (lst l)) rc.

(** ObjectLinkedList_to_list, 91-111. *)
Definition l_to_list (l : ll) (rc : counts) : nres :=
  owith (read_all (lst l) (size (lst l)) (begin_ (lst l))) l rc (fun vs =>
  owith (incref_all vs rc) l rc (fun rc => (Ret (OPyList vs), (l, rc)))).

(** ObjectLinkedList_copy, 113-131. *)
Definition l_copy (l : ll) (rc : counts) : nres :=
  owith (incref_all (values (lst l)) rc) l rc (fun rc =>
  (Ret (ONew (new_list (copy_of (values (lst l))))), (l, rc))).

(** ObjectLinkedList_append, 133-151. *)
Definition l_append (o : Z) (l : ll) (rc : counts) : nres :=
  owith (incref o rc) l rc (fun rc => (Ret ONone, (bump l (push_back (lst l) o), rc))).

(** Pushing the items of an iterator, 182-196 and 633-650. *)
Definition l_push_items (put_ : ll -> slist Z -> ll) (v : oval ll) (items : list Z) (fin : option exn)
    (l : ll) (rc : counts) : nres :=
  (match fin with None => Ret v | Some e => Raise e end,
   (put_ l (append_range (lst l) items), new_refs items rc)).

(** ObjectLinkedList_extend, 153-200. The references are counted after the
    nodes were inserted, by walking the argument - which is the longer list
    when that is the list itself. *)
Definition l_extend (a : oarg) (l : ll) (rc : counts) : nres :=
  match a with
  | OSame ys => owith (incref_all ys rc) l rc (fun rc => (Ret ONone, (bump l (append_range (lst l) ys), rc)))
  | OSelfArg =>
      let s := append_range (lst l) (values (lst l)) in
      owith (incref_all (values s) rc) l rc (fun rc => (Ret ONone, (bump l s, rc)))
  | OList items => l_push_items bump ONone items None l rc
  | OIter items fin => l_push_items bump ONone items fin l rc
  | OOther => (Raise TypeError, (l, rc))
  end.

(** ObjectLinkedList_iadd, 614-654: no modCount, counted before inserting, the
    fast path returns None. *)
Definition l_iadd (a : oarg) (l : ll) (rc : counts) : nres :=
  match a with
  | OSame ys => owith (incref_all ys rc) l rc (fun rc => (Ret ONone, (put l (append_range (lst l) ys), rc)))
  | OSelfArg => owith (incref_all (values (lst l)) rc) l rc (fun rc =>
                (Ret ONone, (put l (append_range (lst l) (values (lst l))), rc)))
  | OList items => l_push_items put OSelf items None l rc
  | OIter items fin => l_push_items put OSelf items fin l rc
  | OOther => (Raise TypeError, (l, rc))
  end.

(** ObjectLinkedList_add, 575-612, as ObjArrayModel.a_add. *)
Definition l_add (a : oarg) (l : ll) (rc : counts) : nres :=
  match a with
  | OSame _ | OSelfArg => (Raise MemoryError, (l, rc))
  | OList items =>
      owith (read_all (lst l) (size (lst l)) (begin_ (lst l))) l rc (fun vs =>
      owith (incref_all vs rc) l rc (fun rc =>
      owith (incref_all (vs ++ items) rc) l rc (fun rc =>
      owith (decref_all vs rc) l rc (fun rc => (Ret (OPyList (vs ++ items)), (l, rc))))))
  | OIter _ _ | OOther =>
      owith (read_all (lst l) (size (lst l)) (begin_ (lst l))) l rc (fun vs =>
      owith (incref_all vs rc) l rc (fun rc =>
      owith (decref_all vs rc) l rc (fun rc => (Raise TypeError, (l, rc)))))
  end.

(** ObjectLinkedList_pop, 203-242: with an index the node is read after it was
    erased. *)
Definition l_pop (a : option pyobj) (l : ll) (rc : counts) : nres :=
  match nodes (lst l) with
  | [] => (Raise IndexError, (l, rc))
  | _ =>
    match a with
    | None =>
        owith (back (lst l)) l rc (fun popped =>
        owith (pop_back (lst l)) l rc (fun s => (Ret (OElem popped), (bump l s, rc))))
    | Some i =>
        owith (as_long i) l rc (fun index =>
        let index := if index <? 0 then index + lsize l else index in
        if (index <? 0) || (lsize l <=? index) then (Raise IndexError, (l, rc))
        else owith (at_ (lst l) (Z.to_nat index)) l rc (fun popped =>
             owith (erase (lst l) popped) l rc (fun s =>
             owith (deref s popped) (bump l s) rc (fun o => (Ret (OElem o), (bump l s, rc))))))
    end
  end.

(** ObjectLinkedList_index, 244-284. *)
Definition l_index (o : Z) (ostart ostop : option pyobj) (l : ll) (rc : counts) : nres :=
  let size_ := lsize l in
  owith (match ostart with None => Ret 0 | Some x => parse_n x end) l rc (fun start =>
  owith (match ostop with None => Ret size_ | Some x => parse_n x end) l rc (fun stop =>
  let start := if start <? 0 then start + size_ else start in
  let stop := if stop <? 0 then stop + size_ else stop in
  let start := if start <? 0 then 0 else start in
  let stop := if size_ <? stop then size_ else stop in
  if stop <? start then (Raise ValueError, (l, rc))
  else owith (at_ (lst l) (Z.to_nat stop)) l rc (fun stopIter =>
       owith (at_ (lst l) (Z.to_nat start)) l rc (fun startIter =>
       owith (std_find_it (lst l) (fun x => x =? o) (size (lst l)) startIter stopIter) l rc (fun it =>
       if it_eqb it stopIter then (Raise ValueError, (l, rc))
       else owith (std_distance (lst l) (size (lst l)) (begin_ (lst l)) it) l rc (fun d =>
            (Ret (ONum d), (l, rc)))))))).

(** ObjectLinkedList_count, 286-297. *)
Definition l_count (o : Z) (l : ll) (rc : counts) : nres :=
  owith (std_count_it (lst l) (fun x => x =? o) (size (lst l)) (begin_ (lst l)) end_) l rc (fun n =>
  (Ret (ONum n), (l, rc))).

(** ObjectLinkedList_insert, 299-328. *)
Definition l_insert (i : pyobj) (o : Z) (l : ll) (rc : counts) : nres :=
  owith (parse_n i) l rc (fun index =>
  let vecSize := lsize l in
  let index := if index <? 0 then Z.max 0 (vecSize + index)
               else if vecSize <? index then vecSize else index in
  owith (at_ (lst l) (Z.to_nat index)) l rc (fun it =>
  owith (insert_ (lst l) it o) l rc (fun s =>
  owith (incref o rc) l rc (fun rc => (Ret ONone, (bump l s, rc)))))).

(** ObjectLinkedList_remove, 330-355. *)
Definition l_remove (o : Z) (l : ll) (rc : counts) : nres :=
  owith (std_find_it (lst l) (fun x => x =? o) (size (lst l)) (begin_ (lst l)) end_) l rc (fun it =>
  if it_eqb it end_ then (Raise ValueError, (l, rc))
  else owith (erase (lst l) it) l rc (fun s =>
       owith (decref o rc) l rc (fun rc => (Ret ONone, (bump l s, rc))))).

(** ObjectLinkedList_getitem, 411-433. *)
Definition l_getitem (pyIndex : Z) (l : ll) (rc : counts) : nres :=
  let size_ := lsize l in
  let pyIndex := if pyIndex <? 0 then size_ + pyIndex else pyIndex in
  if (pyIndex <? 0) || (size_ <=? pyIndex) then (Raise IndexError, (l, rc))
  else owith (obind (at_ (lst l) (Z.to_nat pyIndex)) (deref (lst l))) l rc (fun o =>
       owith (incref o rc) l rc (fun rc => (Ret (OElem o), (l, rc)))).
Definition l_subscript (i : pyobj) (l : ll) (rc : counts) : nres :=
  owith (as_index i) l rc (fun i => l_getitem i l rc).

(** ObjectLinkedList_getitem_slice, 435-469. *)
Fixpoint l_slice_read (s : slist Z) (n : nat) (i start step : Z) (rc : counts) : outcome (list Z * counts) :=
  match n with
  | O => Ret ([], rc)
  | S m =>
      obind (ssz (i * step)) (fun is_ =>
      obind (ssz (start + is_)) (fun idx =>
      obind (at_z s idx) (fun it =>
      obind (deref s it) (fun o =>
      obind (incref o rc) (fun rc =>
      obind (l_slice_read s m (i + 1) start step rc) (fun '(r, rc) => Ret (o :: r, rc)))))))
  end.
Definition l_getitem_slice (sl : slice) (l : ll) (rc : counts) : nres :=
  owith (PySlice_Unpack sl) l rc (fun '(start, stop, step) =>
  let '(start, _, sliceLength) := PySlice_AdjustIndices (lsize l) start stop step in
  owith (l_slice_read (lst l) (Z.to_nat sliceLength) 0 start step rc) l rc (fun '(r, rc) =>
  (Ret (OPyList r), (l, rc)))).

(** ObjectLinkedList_setitem, 471-503; [None] is deletion; no modCount. *)
Definition l_setitem (pyIndex : Z) (ov : option Z) (l : ll) (rc : counts) : nres :=
  let size_ := lsize l in
  let pyIndex := if pyIndex <? 0 then size_ + pyIndex else pyIndex in
  if (pyIndex <? 0) || (size_ <=? pyIndex) then (Raise IndexError, (l, rc))
  else owith (at_ (lst l) (Z.to_nat pyIndex)) l rc (fun it =>
       match ov with
       | None => owith (obind (deref (lst l) it) (fun o => decref o rc)) l rc (fun rc =>
                 owith (erase (lst l) it) l rc (fun s => (Ret ONone, (put l s, rc))))
       | Some o => owith (assign (lst l) it o) l rc (fun s =>
                   owith (incref o rc) l rc (fun rc => (Ret ONone, (put l s, rc))))
       end).
Definition l_ass_subscript (i : pyobj) (ov : option Z) (l : ll) (rc : counts) : nres :=
  owith (as_index i) l rc (fun i => l_setitem i ov l rc).

(** ** Slice assignment, 506-573 *)
(** PySequence_GetItem(value, i): a new reference. *)
Definition getter := slist Z -> Z -> counts -> outcome (Z * counts).
Definition own_ref (o : Z) (rc : counts) : outcome (Z * counts) := omap (pair o) (incref o rc).
Definition get_list (ys : list Z) : getter := fun _ i rc =>
  match znth ys i with Some o => own_ref o rc | None => Raise IndexError end.
Definition get_self : getter := fun s i rc =>
  if (0 <=? i) && (i <? Z.of_nat (size s))
  then obind (obind (at_ s (Z.to_nat i)) (deref s)) (fun o => own_ref o rc)
  else Raise IndexError.
Definition get_seq (items : list Z) (fin : option exn) : getter := fun _ i rc =>
  omap (fun o => (o, new_ref o rc)) (seq_get items fin i).

(** Erase [n] nodes from [it], releasing their objects, 536-540. *)
Fixpoint l_drop (n : nat) (it : iterator) (s : slist Z) (rc : counts) : outcome (slist Z * counts) :=
  match n with
  | O => Ret (s, rc)
  | S m =>
      obind (deref s it) (fun o => obind (decref o rc) (fun rc =>
      obind (it_next s it) (fun nx => obind (erase s it) (fun s => l_drop m nx s rc))))
  end.
(** Insert the items [i..] before [it], 541-551: after the insertion the
    iterator is the new node, and ++ makes it [it] again. *)
Fixpoint l_grow (get : getter) (n : nat) (i : Z) (it : iterator) (s : slist Z) (rc : counts)
    : outcome unit * (slist Z * counts) :=
  match n with
  | O => (Ret tt, (s, rc))
  | S m =>
      match get s i rc with
      | Ret (o, rc') =>
          match insert_ s it o with
          | Ret s' => l_grow get m (i + 1) it s' rc'
          | Undef u => (Undef u, (s, rc))
          | _ => (Undef UseAfterFree, (s, rc))
          end
      | Raise e => (Raise e, (s, rc))
      | RetPending _ e => (Raise e, (s, rc))
      | Undef u => (Undef u, (s, rc))
      end
  end.
(** The overwrite loop, 553-564. *)
Fixpoint l_overwrite (get : getter) (n : nat) (i start step : Z) (s : slist Z) (rc : counts)
    : outcome unit * (slist Z * counts) :=
  match n with
  | O => (Ret tt, (s, rc))
  | S m =>
      match obind (ssz (i * step)) (fun is_ => obind (ssz (start + is_)) (fun idx => at_z s idx)) with
      | Ret it =>
          match get s i rc with
          | Ret (o, rc1) =>
              match obind (deref s it) (fun old => decref old rc1), assign s it o with
              | Ret rc2, Ret s' => l_overwrite get m (i + 1) start step s' rc2
              | Undef u, _ => (Undef u, (s, rc))
              | _, _ => (Undef UseAfterFree, (s, rc))
              end
          | Raise e => (Raise e, (s, rc))
          | RetPending _ e => (Raise e, (s, rc))
          | Undef u => (Undef u, (s, rc))
          end
      | Undef u => (Undef u, (s, rc))
      | _ => (Undef UseAfterFree, (s, rc))
      end
  end.

Definition l_after (l : ll) (r : outcome unit * (slist Z * counts)) (f : slist Z -> counts -> nres) : nres :=
  match fst r with
  | Ret _ => f (fst (snd r)) (snd (snd r))
  | Raise e => (Raise e, (put l (fst (snd r)), snd (snd r)))
  | RetPending _ e => (Raise e, (put l (fst (snd r)), snd (snd r)))
  | Undef u => (Undef u, (put l (fst (snd r)), snd (snd r)))
  end.

(** ObjectLinkedList_setitem_slice, 506-573: the step is not checked. *)
Definition l_setitem_slice (sl : slice) (v : sset oarg) (l : ll) (rc : counts) : nres :=
  owith (PySlice_Unpack sl) l rc (fun '(start, stop, step) =>
  let '(start, stop, sliceLength) := PySlice_AdjustIndices (lsize l) start stop step in
  let store (get : getter) (newLength : Z) : nres :=
    let overwrite s rc :=
      l_after l (l_overwrite get (Z.to_nat newLength) 0 start step s rc) (fun s rc =>
      (Ret ONone, (put l s, rc))) in
    if newLength <? sliceLength then
      owith (obind (obind (ssz (newLength * step)) (fun x => obind (ssz (start + x)) (at_z (lst l)))) (fun it =>
             l_drop (Z.to_nat (sliceLength - newLength)) it (lst l) rc)) l rc (fun '(s, rc) => overwrite s rc)
    else if sliceLength <? newLength then
      owith (at_z (lst l) stop) l rc (fun it =>
      l_after l (l_grow get (Z.to_nat (newLength - sliceLength)) sliceLength it (lst l) rc) overwrite)
    else overwrite (lst l) rc in
  match v with
  | SetDel => (Undef NullDeref, (l, rc))                   (* 523: PySequence_Check(NULL) *)
  | SetNoLen e => (Raise e, (l, rc))                       (* 528-531 *)
  | SetTo (OSame ys) => store (get_list ys) (zlen ys)
  | SetTo OSelfArg => store get_self (lsize l)
  | SetTo (OList items) => store (get_list items) (zlen items)
  | SetTo (OIter items fin) => store (get_seq items fin) (seq_len items fin)
  | SetTo OOther => (Raise TypeError, (l, rc))
  end).

(** ** Repetition *)
(** ObjectLinkedList_mul, 657-687. *)
Fixpoint l_mul_loop (n : nat) (vs : list Z) (s : slist Z) (rc : counts) : outcome (slist Z * counts) :=
  match n with
  | O => Ret (s, rc)
  | S m => obind (incref_all vs rc) (fun rc => l_mul_loop m vs (append_range s vs) rc)
  end.
Definition l_mul (n : Z) (l : ll) (rc : counts) : nres :=
  let n := if n <? 0 then 0 else n in
  if n =? 0 then (Ret (ONew (new_list empty)), (l, rc))
  else owith (l_mul_loop (Z.to_nat n) (values (lst l)) empty rc) l rc (fun '(s, rc) =>
       (Ret (ONew (new_list s)), (l, rc))).

(** ObjectLinkedList_imul, 703-730: each round copies the first [size] nodes. *)
Fixpoint l_imul_inner (n : nat) (it : iterator) (s : slist Z) (rc : counts) : outcome (slist Z * counts) :=
  match n with
  | O => Ret (s, rc)
  | S m =>
      obind (deref s it) (fun o => let s := push_back s o in
      obind (incref o rc) (fun rc => obind (it_next s it) (fun nx => l_imul_inner m nx s rc)))
  end.
Fixpoint l_imul_rounds (n sz : nat) (s : slist Z) (rc : counts) : outcome (slist Z * counts) :=
  match n with
  | O => Ret (s, rc)
  | S m => obind (l_imul_inner sz (begin_ s) s rc) (fun '(s, rc) => l_imul_rounds m sz s rc)
  end.
Definition l_imul (n : Z) (l : ll) (rc : counts) : nres :=
  let n := if n <? 0 then 0 else n in
  if n =? 0 then (Ret OSelf, (put l (clear_ (lst l)), rc))              (* 712: no DECREF *)
  else owith (l_imul_rounds (Z.to_nat n - 1) (size (lst l)) (lst l) rc) l rc (fun '(s, rc) =>
       (Ret OSelf, (put l s, rc))).

(** ObjectLinkedList_contains, 732-751. *)
Definition l_contains (isint : bool) (o : Z) (l : ll) (rc : counts) : nres :=
  if negb isint then (Ret (OBool false), (l, rc))
  else owith (std_find_it (lst l) (fun x => x =? o) (size (lst l)) (begin_ (lst l)) end_) l rc (fun it =>
       (Ret (OBool (negb (it_eqb it end_))), (l, rc))).

(** ObjectLinkedList_reverse, 761-768; clear, 770-778: no modCount. *)
Definition l_reverse (l : ll) (rc : counts) : nres :=
  owith (std_reverse (lst l) (size (lst l)) (begin_ (lst l)) end_) l rc (fun s => (Ret ONone, (put l s, rc))).
Definition l_clear (l : ll) (rc : counts) : nres :=
  owith (decref_all (values (lst l)) rc) l rc (fun rc => (Ret ONone, (put l (clear_ (lst l)), rc))).

(** All calls; resize does not exist on this class. *)
Definition l_call (c : ocall oarg) (l : ll) (rc : counts) : nres :=
  match c with
  | CAppend o => l_append o l rc
  | CExtend a => l_extend a l rc
  | CIadd a => l_iadd a l rc
  | CAdd a => l_add a l rc
  | CPop i => l_pop i l rc
  | CIndex o a b => l_index o a b l rc
  | CCount o => l_count o l rc
  | CInsert i o => l_insert i o l rc
  | CRemove o => l_remove o l rc
  | CLen => (Ret (ONum (lsize l)), (l, rc))
  | CGet i => l_subscript i l rc
  | CGetSlice sl => l_getitem_slice sl l rc
  | CSet i o => l_ass_subscript i (Some o) l rc
  | CDel i => l_ass_subscript i None l rc
  | CSetSlice sl v => l_setitem_slice sl v l rc
  | CResize _ => (Raise TypeError, (l, rc))
  | CToList => l_to_list l rc
  | CCopy => l_copy l rc
  | CMul n => l_mul n l rc
  | CImul n => l_imul n l rc
  | CContains b o => l_contains b o l rc
  | CReverse => l_reverse l rc
  | CClear => l_clear l rc
  end.
