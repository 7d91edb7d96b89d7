(** ints/IntLinkedList.cpp and ints/IntLinkedListIter.cpp. Line numbers of
    IntLinkedList.cpp unless stated.

    Simplifications as in ArrayListModel; also: the modification counter is
    unbounded (2^64 mutations would be needed to wrap it), the reference leaks
    of to_list, getitem and slices (extra Py_INCREF, 150, 478, 511) are not
    visible because the results are values, the placement new of a
    std::list<PyObject*> over the std::list<int> member (24) is taken as an
    empty list, and an iterator argument is advanced normally while an error is
    pending (extend). Subscripting with an index object and the
    slice arithmetic are the same text as in the array lists and share their
    model. *)
From Coq Require Import ZArith List Bool Arith.
From Verif Require Import Base PyLongModel PyListSpec LinkedListSpec ArrayListModel ArrayListMoreModel StdListModel.
Import ListNotations.
Local Open Scope Z_scope.

(** IntLinkedList.h: the list and modCount. *)
Record ll := { lst : slist Z; modc : Z }.
Definition put (l : ll) (s : slist Z) : ll := {| lst := s; modc := modc l |}.
Definition bump (l : ll) (s : slist Z) : ll := {| lst := s; modc := modc l + 1 |}.
Definition lsize (l : ll) : Z := Z.of_nat (size (lst l)).

Definition lres : Type := outcome val * ll.

(** Continue after a computation that leaves the list alone. *)
Definition lwith {A} (o : outcome A) (l : ll) (f : A -> lres) : lres :=
  match o with
  | Ret a => f a
  | Raise e => (Raise e, l)
  | RetPending _ e => (Raise e, l)
  | Undef u => (Undef u, l)
  end.

(** Construction, 23-93. *)
Fixpoint linit_items (items : list pyobj) (s : slist Z) : outcome (slist Z) :=
  match items with
  | [] => Ret s
  | o :: r => match as_elem KInt o with
              | Ret v => linit_items r (push_back s v)
              | _ => Raise RuntimeError
              end
  end.
Definition new_list (s : slist Z) : ll := {| lst := s; modc := 0 |}.
Definition linit (a : init_arg) : outcome ll :=
  match a with
  | INone => Ret (new_list empty)
  | IInt _ => Raise TypeError                                  (* 67-70 *)
  | IArg (ASame ys) => Ret (new_list (copy_of ys))
  | IArg ASelf => Ret (new_list empty)
  | IArg (AList items) => omap new_list (linit_items items empty)
  | IArg (AIter items fin) =>
      obind (linit_items items empty) (fun s =>
      match fin with None => Ret (new_list s) | Some e => Raise e end)
  | IArg AOther => Raise TypeError
  end.

(** IntLinkedList_from_range, 100-138: the same computation as the array list,
    with push_back. *)
Definition lfrom_range (a1 : pyobj) (a2 a3 : option pyobj) : outcome ll :=
  obind (from_range KInt a1 a2 a3) (fun v =>
  match v with VNewList s => Ret (new_list (copy_of s)) | _ => Raise SystemError end).

(** IntLinkedList_to_list, 140-155. *)
Definition lto_list (cfg : config) (l : ll) : lres :=
  lwith (read_all (lst l) (size (lst l)) (begin_ (lst l))) l (fun vs =>
  (Ret (VPyList (map (from_elem cfg KInt) vs)), l)).

(** IntLinkedList_copy, 157-172. *)
Definition lcopy (l : ll) : lres := (Ret (VNewList (values (lst l))), l).

(** A return of [v] with the error indicator possibly set. *)
Definition ret_with {A} (v : A) (err : option exn) : outcome A :=
  match err with None => Ret v | Some e => RetPending v e end.

(** IntLinkedList_append, 174-192: the conversion is not checked. *)
Definition lappend (o : pyobj) (l : ll) : lres :=
  let '(v, err) := conv_pending KInt o in
  (ret_with VNone err, bump l (push_back (lst l) v)).

(** Item loop of extend, 218-232, and iadd, 716-728: the pending error is only
    looked at before the next item is stored, or after the loop. [fin_] is what
    happens to modCount after the loop. *)
Fixpoint lextend_items (after : ll -> ll) (items : list pyobj) (fin : option exn) (pend : option exn) (l : ll)
  : outcome unit * ll :=
  match items with
  | [] => (match fin with
           | Some e => Raise e
           | None => match pend with Some e => Raise e | None => Ret tt end
           end, after l)
  | o :: r => match pend with
              | Some e => (Raise e, l)
              | None => let '(v, err) := conv_pending KInt o in
                        lextend_items after r fin err (put l (push_back (lst l) v))
              end
  end.
Definition lthen {A} (v : A) (r : outcome unit * ll) : outcome A * ll :=
  (obind (fst r) (fun _ => Ret v), snd r).

(** IntLinkedList_extend, 194-240. *)
Definition lextend (a : arg) (l : ll) : lres :=
  let after l := bump l (lst l) in
  match a with
  | ASame ys => (Ret VNone, bump l (append_range (lst l) ys))
  | ASelf => (Ret VNone, bump l (append_range (lst l) (values (lst l))))
  | AList items => lthen VNone (lextend_items after items None None l)
  | AIter items fin => lthen VNone (lextend_items after items fin None l)
  | AOther => (Raise TypeError, l)
  end.

(** IntLinkedList_iadd, 699-736: no modCount, the fast path returns None. *)
Definition liadd (a : arg) (l : ll) : lres :=
  match a with
  | ASame ys => (Ret VNone, put l (append_range (lst l) ys))
  | ASelf => (Ret VNone, put l (append_range (lst l) (values (lst l))))
  | AList items => lthen VSelf (lextend_items (fun l => l) items None None l)
  | AIter items fin => lthen VSelf (lextend_items (fun l => l) items fin None l)
  | AOther => (Raise TypeError, l)
  end.

(** IntLinkedList_add, 663-697 (same class: as ArrayListModel.add). *)
Definition ladd (cfg : config) (a : add_arg) (l : ll) : lres :=
  match a with
  | AddSame _ => (Raise MemoryError, l)
  | AddList items =>
      lwith (read_all (lst l) (size (lst l)) (begin_ (lst l))) l (fun vs =>
      (Ret (VConcat (map (from_elem cfg KInt) vs) items), l))
  | AddOther => (Raise TypeError, l)
  end.

(** IntLinkedList_pop, 243-282. With an index, the node is read after it was
    erased. *)
Definition lpop (cfg : config) (a : option pyobj) (l : ll) : lres :=
  match nodes (lst l) with
  | [] => (Raise IndexError, l)
  | _ =>
    let vecSize := lsize l in
    match a with
    | None =>
        lwith (back (lst l)) l (fun popped =>
        lwith (pop_back (lst l)) l (fun s =>
        (Ret (VElem (from_elem cfg KInt popped)), bump l s)))
    | Some o =>
        lwith (as_long o) l (fun index =>
        let index := if index <? 0 then index + vecSize else index in
        if (index <? 0) || (vecSize <=? index) then (Raise IndexError, l)
        else lwith (at_ (lst l) (Z.to_nat index)) l (fun popped =>
             lwith (erase (lst l) popped) l (fun s =>
             lwith (deref s popped) (bump l s) (fun v =>
             (Ret (VElem (from_elem cfg KInt v)), bump l s)))))
    end
  end.

(** IntLinkedList_index, 284-323. *)
Definition lindex (o : pyobj) (ostart ostop : option pyobj) (l : ll) : lres :=
  let size_ := lsize l in
  lwith (parse_elem KInt o) l (fun value =>
  lwith (match ostart with None => Ret 0 | Some x => parse_n x end) l (fun start =>
  lwith (match ostop with None => Ret size_ | Some x => parse_n x end) l (fun stop =>
  let start := if start <? 0 then start + size_ else start in
  let stop := if stop <? 0 then stop + size_ else stop in
  let start := if start <? 0 then 0 else start in
  let stop := if size_ <? stop then size_ else stop in
  if stop <? start then (Raise ValueError, l)
  else lwith (at_ (lst l) (Z.to_nat stop)) l (fun stopIter =>
       lwith (at_ (lst l) (Z.to_nat start)) l (fun startIter =>
       lwith (std_find_it (lst l) (fun x => x =? value) (size (lst l)) startIter stopIter) l (fun it =>
       if it_eqb it stopIter then (Raise ValueError, l)
       else lwith (std_distance (lst l) (size (lst l)) (begin_ (lst l)) it) l (fun d => (Ret (VInt d), l)))))))).

(** IntLinkedList_count, 325-342. *)
Definition lcount (o : pyobj) (l : ll) : lres :=
  lwith (as_elem KInt o) l (fun value =>
  lwith (std_count_it (lst l) (fun x => x =? value) (size (lst l)) (begin_ (lst l)) end_) l (fun n =>
  (Ret (VInt n), l))).

(** IntLinkedList_insert, 344-371. *)
Definition linsert (oi ov : pyobj) (l : ll) : lres :=
  lwith (parse_n oi) l (fun index =>
  lwith (parse_elem KInt ov) l (fun value =>
  let vecSize := lsize l in
  let index := if index <? 0 then Z.max 0 (vecSize + index)
               else if vecSize <? index then vecSize else index in
  lwith (at_ (lst l) (Z.to_nat index)) l (fun it =>
  lwith (insert_ (lst l) it value) l (fun s => (Ret VNone, bump l s))))).

(** IntLinkedList_remove, 373-398. *)
Definition lremove (o : pyobj) (l : ll) : lres :=
  lwith (as_elem KInt o) l (fun value =>
  lwith (std_find_it (lst l) (fun x => x =? value) (size (lst l)) (begin_ (lst l)) end_) l (fun it =>
  if it_eqb it end_ then (Raise ValueError, l)
  else lwith (erase (lst l) it) l (fun s => (Ret VNone, bump l s)))).

(** IntLinkedList_sort without key, 410-417: std::list::sort with < or >. *)
Definition lsort (reverseInt : Z) (l : ll) : lres :=
  (Ret VNone,
   bump l (list_sort (if reverseInt =? 1 then Z.gtb else Z.ltb) (lst l))).

(** IntLinkedList_len, 450-454. *)
Definition llen (l : ll) : lres := (Ret (VInt (lsize l)), l).

(** IntLinkedList_getitem, 464-485. *)
Definition lgetitem (cfg : config) (pyIndex : Z) (l : ll) : lres :=
  let size_ := lsize l in
  let pyIndex := if pyIndex <? 0 then size_ + pyIndex else pyIndex in
  if (pyIndex <? 0) || (size_ <=? pyIndex) then (Raise IndexError, l)
  else lwith (obind (at_ (lst l) (Z.to_nat pyIndex)) (deref (lst l))) l (fun v =>
       (Ret (VElem (from_elem cfg KInt v)), l)).

(** IntLinkedList_setitem, 522-553; [None] is deletion. modCount is not
    changed, and the conversion is not checked. *)
Definition lsetitem (pyIndex : Z) (ov : option pyobj) (l : ll) : lres :=
  let size_ := lsize l in
  let pyIndex := if pyIndex <? 0 then size_ + pyIndex else pyIndex in
  if (pyIndex <? 0) || (size_ <=? pyIndex) then (Raise IndexError, l)
  else lwith (at_ (lst l) (Z.to_nat pyIndex)) l (fun it =>
       match ov with
       | None => lwith (erase (lst l) it) l (fun s => (Ret VNone, put l s))
       | Some o => let '(v, err) := conv_pending KInt o in
                   lwith (assign (lst l) it v) l (fun s => (ret_with VNone err, put l s))
       end).

Definition lsubscript (cfg : config) (o : pyobj) (l : ll) : lres :=
  lwith (as_index o) l (fun i => lgetitem cfg i l).
Definition lass_subscript (o : pyobj) (ov : option pyobj) (l : ll) : lres :=
  lwith (as_index o) l (fun i => lsetitem i ov l).

(** Read loop of IntLinkedList_getitem_slice, 508-517; a negative index becomes
    a huge size_t and [at] answers end(). *)
Definition at_z (s : slist Z) (i : Z) : outcome iterator :=
  if i <? 0 then Ret end_ else at_ s (Z.to_nat i).
Fixpoint lslice_read (cfg : config) (s : slist Z) (n : nat) (i start step : Z) : outcome (list pylong) :=
  match n with
  | O => Ret []
  | S m =>
      obind (ssz (i * step)) (fun is_ =>
      obind (ssz (start + is_)) (fun idx =>
      obind (at_z s idx) (fun it =>
      obind (deref s it) (fun v =>
      obind (lslice_read cfg s m (i + 1) start step) (fun r =>
      Ret (from_elem cfg KInt v :: r))))))
  end.

(** IntLinkedList_getitem_slice, 494-520. *)
Definition lgetitem_slice (cfg : config) (sl : slice) (l : ll) : lres :=
  lwith (PySlice_Unpack sl) l (fun '(start, stop, step) =>
  let '(start, _, sliceLength) := PySlice_AdjustIndices (lsize l) start stop step in
  lwith (lslice_read cfg (lst l) (Z.to_nat sliceLength) 0 start step) l (fun r =>
  (Ret (VPyList r), l))).

(** Loops of IntLinkedList_setitem_slice: overwrite from [it] (597-610, 612-625,
    633-646) giving the iterator behind the last overwritten node. *)
Fixpoint lassign_loop (src : source) (n : nat) (i : Z) (it : iterator) (s : slist Z)
  : outcome iterator * slist Z :=
  match n with
  | O => (Ret it, s)
  | S m =>
      match src_get src (values s) i with
      | Ret o =>
          let '(v, err) := conv_pending KInt o in
          match assign s it v with
          | Ret s' => match err with
                      | Some e => (Raise e, s')
                      | None => match it_next s' it with
                                | Ret it' => lassign_loop src m (i + 1) it' s'
                                | _ => (Undef IterBeforeBegin, s')
                                end
                      end
          | Undef u => (Undef u, s)
          | _ => (Undef UseAfterFree, s)
          end
      | Raise e => (Raise e, s)
      | RetPending _ e => (Raise e, s)
      | Undef u => (Undef u, s)
      end
  end.

(** Insert before [it], 648-661. *)
Fixpoint linsert_loop (src : source) (n : nat) (i : Z) (it : iterator) (s : slist Z)
  : outcome unit * slist Z :=
  match n with
  | O => (Ret tt, s)
  | S m =>
      match src_get src (values s) i with
      | Ret o =>
          let '(v, err) := conv_pending KInt o in
          match insert_ s it v with
          | Ret s' => match err with
                      | Some e => (Raise e, s')
                      | None => linsert_loop src m (i + 1) it s'
                      end
          | Undef u => (Undef u, s)
          | _ => (Undef UseAfterFree, s)
          end
      | Raise e => (Raise e, s)
      | RetPending _ e => (Raise e, s)
      | Undef u => (Undef u, s)
      end
  end.

(** IntLinkedList_setitem_slice, 567-661. *)
Definition lsetitem_slice (sl : slice) (a : ass_arg) (l : ll) : lres :=
  lwith (PySlice_Unpack sl) l (fun '(start, stop, step) =>
  let '(start, stop, sliceLength) := PySlice_AdjustIndices (lsize l) start stop step in
  match a with
  | AssDel => (Undef NullDeref, l)
  | AssNotSeq => (Raise TypeError, l)
  | AssSeq src =>
      let '(newLength, pend) := seq_size (src_len src (values (lst l))) in
      if negb (step =? 1) then (Raise NotImplementedError, l) else
      lwith (at_z (lst l) start) l (fun it =>
      let r :=
        if newLength =? sliceLength then
          let r1 := lassign_loop src (Z.to_nat sliceLength) 0 it (lst l) in
          (omap (fun _ => tt) (fst r1), snd r1)
        else if newLength <? sliceLength then
          let r1 := lassign_loop src (Z.to_nat newLength) 0 it (lst l) in
          match fst r1 with
          | Ret eraseStart =>
              match obind (advance (snd r1) (Z.to_nat (sliceLength - newLength)) eraseStart) (fun it' =>
                          erase_range (size (snd r1)) (snd r1) eraseStart it') with
              | Ret s' => (Ret tt, s')
              | Undef u => (Undef u, snd r1)
              | _ => (Undef UseAfterFree, snd r1)
              end
          | o => (omap (fun _ => tt) o, snd r1)
          end
        else
          let r1 := lassign_loop src (Z.to_nat sliceLength) 0 it (lst l) in
          match fst r1 with
          | Ret it' => linsert_loop src (Z.to_nat (newLength - sliceLength)) sliceLength it' (snd r1)
          | o => (omap (fun _ => tt) o, snd r1)
          end in
      match pend, fst r with
      | Some e, Ret _ => (RetPending VNone e, put l (snd r))
      | _, _ => (obind (fst r) (fun _ => Ret VNone), put l (snd r))
      end)
  end).

(** IntLinkedList_mul, 739-767. *)
Fixpoint mul_copies (n : nat) (vs : list Z) (s : slist Z) : slist Z :=
  match n with O => s | S m => mul_copies m vs (append_range s vs) end.
Definition lmul (n : Z) (l : ll) : lres :=
  let n := if n <? 0 then 0 else n in
  if n =? 0 then (Ret (VNewList []), l)
  else (Ret (VNewList (values (mul_copies (Z.to_nat n) (values (lst l)) empty))), l).

(** IntLinkedList_imul, 782-806: [begin] and [end] are taken once, but end()
    stays behind the last node while the list grows, so every round copies the
    whole list. *)
Fixpoint imul_rounds (n : nat) (s : slist Z) : slist Z :=
  match n with O => s | S m => imul_rounds m (append_range s (values s)) end.
Definition limul (n : Z) (l : ll) : lres :=
  let n := if n <? 0 then 0 else n in
  if n =? 0 then (Ret VSelf, put l (clear_ (lst l)))
  else (Ret VSelf, put l (imul_rounds (Z.to_nat n - 1) (lst l))).

(** IntLinkedList_contains, 808-829. *)
Definition lcontains (o : pyobj) (l : ll) : lres :=
  match o with
  | PObj _ => (Ret (VBool false), l)
  | PInt _ =>
      lwith (as_elem KInt o) l (fun v =>
      lwith (std_find_it (lst l) (fun x => x =? v) (size (lst l)) (begin_ (lst l)) end_) l (fun it =>
      (Ret (VBool (negb (it_eqb it end_))), l)))
  end.

(** IntLinkedList_reverse, 839-846; clear, 848-853: no modCount. *)
Definition lreverse (l : ll) : lres :=
  lwith (std_reverse (lst l) (size (lst l)) (begin_ (lst l)) end_) l (fun s => (Ret VNone, put l s)).
Definition lclear (l : ll) : lres := (Ret VNone, put l (clear_ (lst l))).

(** ** Comparison *)
(** The operand is always used through the sequence protocol; for another
    linked list that is IntLinkedList_len and IntLinkedList_getitem. *)
Definition lcmp_same (cfg : config) (ys : list Z) : cmp_arg :=
  CSeq (Ret (zlen ys)) (get_as_int cfg KInt ys).

(** Loop of IntLinkedList_eq, 866-881. *)
Fixpoint leq_loop (get : Z -> outcome pyobj) (n : nat) (i : Z) (it : iterator) (s : slist Z) : outcome bool :=
  match n with
  | O => Ret true
  | S m =>
      match get i with
      | Ret o =>
          obind (deref s it) (fun x =>
          let '(v, err) := conv_pending KInt o in
          match err with
          | Some e => RetPending false e
          | None => if negb (x =? v) then Ret false
                    else obind (it_next s it) (fun it' => leq_loop get m (i + 1) it' s)
          end)
      | Raise e => Raise e
      | RetPending _ e => Raise e
      | Undef u => Undef u
      end
  end.
Definition leq (a : cmp_arg) (l : ll) : outcome bool :=
  match a with
  | CSame _ => Raise SystemError   (* not used: see lcmp_same *)
  | CNotSeq => Ret false
  | CSeq len get =>
      let '(n, pend) := seq_size len in
      if negb (n =? lsize l) then ret_bool false pend
      else leq_loop get (Z.to_nat n) 0 (begin_ (lst l)) (lst l)
  end.
(** IntLinkedList_ne, 886-895. *)
Definition lne (a : cmp_arg) (l : ll) : outcome bool :=
  match leq a l with
  | Ret b => Ret (negb b)
  | RetPending b e => RetPending (negb b) e
  | Raise _ => Undef NullDeref
  | Undef u => Undef u
  end.

(** lt 897-927, le 929-959, gt 961-991, ge 993-1023: the same text up to the
    operator [r] applied to the first different elements. *)
Fixpoint lord_loop (r : Z -> Z -> bool) (get : Z -> outcome pyobj) (n : nat) (i : Z) (it : iterator)
  (pend : option exn) (s : slist Z) : outcome bool :=
  match n with
  | O => ret_bool false pend
  | S m =>
      match get i with
      | Ret o =>
          obind (deref s it) (fun x =>
          let '(v, err) := conv_pending KInt o in
          let pend := match err with Some e => Some e | None => pend end in
          if negb (x =? v) then ret_bool (r x v) pend
          else obind (it_next s it) (fun it' => lord_loop r get m (i + 1) it' pend s))
      | Raise e => Raise e
      | RetPending _ e => Raise e
      | Undef u => Undef u
      end
  end.
Definition lord (r : Z -> Z -> bool) (a : cmp_arg) (l : ll) : outcome bool :=
  match a with
  | CSame _ => Raise SystemError   (* not used: see lcmp_same *)
  | CNotSeq => Ret false
  | CSeq len get =>
      match len with
      | Ret n => if negb (lsize l =? n) then Ret (lsize l <? n)
                 else lord_loop r get (Z.to_nat n) 0 (begin_ (lst l)) None (lst l)
      | Raise e => Raise e
      | RetPending _ e => Raise e
      | Undef u => Undef u
      end
  end.
(** IntLinkedList_compare, 1025-1043. *)
Definition lcompare (c : cmp_op) (a : cmp_arg) (l : ll) : outcome bool :=
  match c with
  | Eq_ => leq a l
  | Ne_ => lne a l
  | Lt_ => lord Z.ltb a l
  | Le_ => lord Z.leb a l
  | Gt_ => lord Z.gtb a l
  | Ge_ => lord Z.geb a l
  end.

(** IntLinkedList_repr, 1051-1083. *)
Fixpoint lrepr_loop (s : slist Z) (n : nat) (it : iterator) (str : list Z) : outcome (list Z) :=
  match n with
  | O => Ret str
  | S m => obind (deref s it) (fun v => obind (append_int v) (fun t =>
           obind (it_next s it) (fun it' => lrepr_loop s m it' (str ++ t ++ [44; 32]))))
  end.
Definition lrepr (l : ll) : outcome (list Z) :=
  match nodes (lst l) with
  | [] => Ret [91; 93]
  | _ =>
      let lastIdx := (size (lst l) - 1)%nat in
      obind (lrepr_loop (lst l) lastIdx (begin_ (lst l)) [91]) (fun str =>
      obind (obind (at_ (lst l) lastIdx) (deref (lst l))) (fun v =>
      obind (append_int v) (fun t => Ret (str ++ t ++ [93]))))
  end.

(** ** Iterators, IntLinkedListIter.cpp *)
Record liter := { li_index : Z; li_rev : bool; li_cache : iterator; li_mod : Z }.
Definition usize (z : Z) : Z := z mod 2 ^ 64.

(** IntLinkedListIter_create, IntLinkedListIter.cpp 15-33. *)
Definition liter_create (reversed : bool) (l : ll) : outcome liter :=
  if reversed then
    obind (it_prev (lst l) end_) (fun it =>
    Ret {| li_index := match nodes (lst l) with [] => 0 | _ => lsize l - 1 end;
           li_rev := true; li_cache := it; li_mod := modc l |})
  else Ret {| li_index := 0; li_rev := false; li_cache := begin_ (lst l); li_mod := modc l |}.

(** updateCache, IntLinkedListIter.cpp 40-53. *)
Definition update_cache (it : liter) (l : ll) : outcome liter :=
  if li_mod it =? modc l then Ret it
  else obind (at_z (lst l) (li_index it)) (fun n =>
       Ret {| li_index := usize (if li_rev it then li_index it - 1 else li_index it + 1);
              li_rev := li_rev it; li_cache := n; li_mod := modc l |}).

(** IntLinkedListIter_next, IntLinkedListIter.cpp 55-93. *)
Definition liter_next (it : liter) (l : ll) : outcome Z * liter :=
  match nodes (lst l) with
  | [] => (Raise StopIteration, it)
  | _ =>
    if li_rev it then
      if li_index it =? 0 then
        (obind (it_prev (lst l) end_) (deref (lst l)),
         {| li_index := SIZE_MAX; li_rev := true; li_cache := li_cache it; li_mod := li_mod it |})
      else if li_index it =? SIZE_MAX then (Raise StopIteration, it)
      else
        match obind (update_cache it l) (fun it1 =>
              obind (deref (lst l) (li_cache it1)) (fun x =>
              obind (it_prev (lst l) (li_cache it1)) (fun c =>
              Ret (x, {| li_index := usize (li_index it1 - 1); li_rev := true; li_cache := c; li_mod := li_mod it1 |})))) with
        | Ret (x, it') => (Ret x, it')
        | Undef u => (Undef u, it)
        | Raise e => (Raise e, it)
        | RetPending _ e => (Raise e, it)
        end
    else if lsize l <=? li_index it then (Raise StopIteration, it)
    else
      match obind (update_cache it l) (fun it1 =>
            obind (deref (lst l) (li_cache it1)) (fun x =>
            obind (it_next (lst l) (li_cache it1)) (fun c =>
            Ret (x, {| li_index := usize (li_index it1 + 1); li_rev := false; li_cache := c; li_mod := li_mod it1 |})))) with
      | Ret (x, it') => (Ret x, it')
      | Undef u => (Undef u, it)
      | Raise e => (Raise e, it)
      | RetPending _ e => (Raise e, it)
      end
  end.

(** Successive next() calls on the list states of those moments. *)
Fixpoint liter_run (it : liter) (ls : list ll) : list (outcome Z) :=
  match ls with
  | [] => []
  | l :: r => let '(x, it') := liter_next it l in x :: liter_run it' r
  end.

(** ** Calls with in-range integers, as ArrayListModel.step; resize does not
    exist on this class ([OResize] is excluded from every statement). *)
Definition lstep (cfg : config) (o : op) (l : ll) : lres :=
  match o with
  | OAppend v => lappend (PInt v) l
  | OExtend FromList vs => lextend (AList (map PInt vs)) l
  | OExtend FromIterator vs => lextend (AIter (map PInt vs) None) l
  | OExtend FromSameType vs => lextend (ASame vs) l
  | OInsert i v => linsert (PInt i) (PInt v) l
  | OPop i => lpop cfg (option_map PInt i) l
  | ORemove v => lremove (PInt v) l
  | OReverse => lreverse l
  | OClear => lclear l
  | OResize _ => (Raise SystemError, l)
  | OLen => llen l
  | OGet i => lsubscript cfg (PInt i) l
  | OSet i v => lass_subscript (PInt i) (Some (PInt v)) l
  | ODel i => lass_subscript (PInt i) None l
  | OGetSlice sl => lgetitem_slice cfg sl l
  | OSetSlice sl vs => lsetitem_slice sl (AssSeq (src_items (map PInt vs))) l
  | OIndex v a b => lindex (PInt v) (option_map PInt a) (option_map PInt b) l
  | OCount v => lcount (PInt v) l
  | OContains v => lcontains (PInt v) l
  | OToList => lto_list cfg l
  | OCopy => lcopy l
  end.

(** A history of calls and of sort(reverse=r). *)
Definition lcall_step (cfg : config) (c : lcall) (l : ll) : lres :=
  match c with
  | LCall o => lstep cfg o l
  | LSort r => lsort (if r then 1 else 0) l
  end.
Fixpoint lrun (cfg : config) (cs : list lcall) (l : ll) : list (outcome val) * ll :=
  match cs with
  | [] => ([], l)
  | c :: r => let '(x, l1) := lcall_step cfg c l in
              let '(xs, l2) := lrun cfg r l1 in (x :: xs, l2)
  end.

(** Interleaving of calls with next() on one iterator. *)
Fixpoint lplay (cfg : config) (es : list levent) (it : liter) (l : ll) : list (outcome Z) :=
  match es with
  | [] => []
  | EvCall c :: r => lplay cfg r it (snd (lcall_step cfg c l))
  | EvNext :: r => let '(x, it') := liter_next it l in x :: lplay cfg r it' l
  end.
