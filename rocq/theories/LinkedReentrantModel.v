(** ints/IntLinkedList.cpp once more, with arguments that are arbitrary Python
    objects: converting an argument ([__index__]), stepping an iterator or
    reading a sequence runs user code, which may call methods of the list the
    call is working on. Line numbers of IntLinkedList.cpp. The same
    simplifications as LinkedListModel.

    A piece of user code is a function of the whole list object: it yields a
    result or an exception and the list it leaves, nodes included. Code that
    never returns is left out, and so is what the interpreter itself does when
    code runs with an error already set (extend after a failed conversion: the
    class of the exception may then be SystemError). sort(key) is in
    SortMethodModel. *)
From Coq Require Import ZArith List Bool Arith.
From Verif Require Import Base PyLongModel PyListSpec ArrayListModel ArrayListMoreModel StdListModel LinkedListModel.
Import ListNotations.
Local Open Scope Z_scope.

Notation code A := (ll -> outcome A * ll) (only parsing).
(** An object in the place of an integer: its [__index__]. [PObj] stands for
    an object without that method. *)
Notation iobj := (ll -> outcome pyobj * ll).

(** A sequence: PySequence_Size, and PySequence_GetItem for each index. *)
Record lseq := { s_len : code Z; s_get : Z -> code iobj }.

(** Continue after user code with the list it left. *)
Definition next {A B} (r : outcome A * ll) (f : A -> ll -> outcome B * ll) : outcome B * ll :=
  match fst r with
  | Ret a => f a (snd r)
  | Raise e => (Raise e, snd r)
  | RetPending _ e => (Raise e, snd r)
  | Undef u => (Undef u, snd r)
  end.

(** Convert an object with [f] (PyLong_AsLong and friends). *)
Definition lconv {B} (f : pyobj -> outcome B) (o : iobj) (l : ll) : outcome B * ll :=
  (obind (fst (o l)) f, snd (o l)).
Definition lconv_opt (f : pyobj -> outcome Z) (d : Z) (o : option iobj) (l : ll) : outcome Z * ll :=
  match o with None => (Ret d, l) | Some o => lconv f o l end.

(** [PyLong_AsLong(item)] stored into an int without looking at the error
    indicator: the value (-1 on error), the error, and the list afterwards. *)
Definition lconv_err (o : iobj) (l : ll) : (Z * option exn) * ll :=
  (match fst (lconv as_long o l) with
   | Ret z => (wrap 32 z, None)
   | Raise e => (-1, Some e)
   | RetPending z e => (wrap 32 z, Some e)
   | Undef _ => (-1, None)
   end, snd (lconv as_long o l)).

(** IntLinkedList_append, 175-192: push_back's argument is converted first and
    not checked. *)
Definition lappend_u (o : iobj) (l : ll) : lres :=
  let '((v, err), l) := lconv_err o l in
  (ret_with VNone err, bump l (push_back (lst l) v)).

(** IntLinkedList_insert, 344-372: PyArg_ParseTuple("ni") converts the index,
    then the value; the size is read afterwards. *)
Definition linsert_u (oi ov : iobj) (l : ll) : lres :=
  next (lconv parse_n oi l) (fun index l =>
  next (lconv (parse_elem KInt) ov l) (fun value l =>
  let vecSize := lsize l in
  let index := if index <? 0 then Z.max 0 (vecSize + index)
               else if vecSize <? index then vecSize else index in
  lwith (at_ (lst l) (Z.to_nat index)) l (fun it =>
  lwith (insert_ (lst l) it value) l (fun s => (Ret VNone, bump l s))))).

(** IntLinkedList_pop with an argument, 243-282: the size is read at 251, the
    argument converted at 255, and the node read after its erasure. *)
Definition lpop_u (cfg : config) (o : iobj) (l : ll) : lres :=
  match nodes (lst l) with
  | [] => (Raise IndexError, l)
  | _ =>
    let vecSize := lsize l in
    next (lconv as_long o l) (fun index l =>
    let index := if index <? 0 then index + vecSize else index in
    if (index <? 0) || (vecSize <=? index) then (Raise IndexError, l)
    else lwith (at_ (lst l) (Z.to_nat index)) l (fun popped =>
         lwith (erase (lst l) popped) l (fun s =>
         lwith (deref s popped) (bump l s) (fun v =>
         (Ret (VElem (from_elem cfg KInt v)), bump l s)))))
  end.

(** IntLinkedList_index, 284-324: the default of stop is the size at 289,
    before the arguments are converted; the other uses come after. *)
Definition lindex_u (o : iobj) (oa ob : option iobj) (l : ll) : lres :=
  let stop0 := lsize l in
  next (lconv (parse_elem KInt) o l) (fun value l =>
  next (lconv_opt parse_n 0 oa l) (fun start l =>
  next (lconv_opt parse_n stop0 ob l) (fun stop l =>
  let size_ := lsize l in
  let start := if start <? 0 then start + size_ else start in
  let stop := if stop <? 0 then stop + size_ else stop in
  let start := if start <? 0 then 0 else start in
  let stop := if size_ <? stop then size_ else stop in
  if stop <? start then (Raise ValueError, l)
  else lwith (at_ (lst l) (Z.to_nat stop)) l (fun stopIter =>
       lwith (at_ (lst l) (Z.to_nat start)) l (fun startIter =>
       lwith (std_find_it (lst l) (fun x => x =? value) (size (lst l)) startIter stopIter) l (fun it =>
       if it_eqb it stopIter then (Raise ValueError, l)
       else lwith (std_distance (lst l) (size (lst l)) (begin_ (lst l)) it) l (fun d => (Ret (VInt d), l)))))))).

(** IntLinkedList_count, 326-342. *)
Definition lcount_u (o : iobj) (l : ll) : lres :=
  next (lconv (as_elem KInt) o l) (fun value l =>
  lwith (std_count_it (lst l) (fun x => x =? value) (size (lst l)) (begin_ (lst l)) end_) l (fun n =>
  (Ret (VInt n), l))).

(** IntLinkedList_remove, 374-398. *)
Definition lremove_u (o : iobj) (l : ll) : lres :=
  next (lconv (as_elem KInt) o l) (fun value l =>
  lwith (std_find_it (lst l) (fun x => x =? value) (size (lst l)) (begin_ (lst l)) end_) l (fun it =>
  if it_eqb it end_ then (Raise ValueError, l)
  else lwith (erase (lst l) it) l (fun s => (Ret VNone, bump l s)))).

(** IntLinkedList_setitem, 524-554: the bounds are checked at 529-535; in the
    assignment at 547 the right operand, the conversion, is evaluated before
    [at]. [None] is deletion. *)
Definition lsetitem_u (pyIndex : Z) (ov : option iobj) (l : ll) : lres :=
  let size_ := lsize l in
  let pyIndex := if pyIndex <? 0 then size_ + pyIndex else pyIndex in
  if (pyIndex <? 0) || (size_ <=? pyIndex) then (Raise IndexError, l)
  else match ov with
       | None => lwith (at_ (lst l) (Z.to_nat pyIndex)) l (fun it =>
                 lwith (erase (lst l) it) l (fun s => (Ret VNone, put l s)))
       | Some o => let '((v, err), l) := lconv_err o l in
                   lwith (at_ (lst l) (Z.to_nat pyIndex)) l (fun it =>
                   lwith (assign (lst l) it v) l (fun s => (ret_with VNone err, put l s)))
       end.

(** Index objects in subscripts, 489-495 and 558-564. *)
Definition lsubscript_u (cfg : config) (oi : iobj) (l : ll) : lres :=
  next (lconv as_index oi l) (fun i l => lgetitem cfg i l).
Definition lass_subscript_u (oi : iobj) (ov : option iobj) (l : ll) : lres :=
  next (lconv as_index oi l) (fun i l => lsetitem_u i ov l).

(** ** Slices *)
Record lslice := { ls_start : option iobj; ls_stop : option iobj; ls_step : option iobj }.
Definition slice_ix (o : pyobj) : outcome Z :=
  match o with PInt z => Ret (clip z) | PObj _ => Raise TypeError end.

(** PySlice_Unpack of CPython: step, start, stop. *)
Definition lunpack_u (sl : lslice) (l : ll) : outcome (Z * Z * Z) * ll :=
  next (lconv_opt slice_ix 1 (ls_step sl) l) (fun step l =>
  if step =? 0 then (Raise ValueError, l) else
  let step := if step <? - SSIZE_MAX then - SSIZE_MAX else step in
  next (lconv_opt slice_ix (if step <? 0 then SSIZE_MAX else 0) (ls_start sl) l) (fun start l =>
  next (lconv_opt slice_ix (if step <? 0 then SSIZE_MIN else SSIZE_MAX) (ls_stop sl) l) (fun stop l =>
  (Ret (start, stop, step), l)))).

(** IntLinkedList_getitem_slice, 497-522. *)
Definition lgetitem_slice_u (cfg : config) (sl : lslice) (l : ll) : lres :=
  next (lunpack_u sl l) (fun '(start, stop, step) l =>
  let '(start, _, sliceLength) := PySlice_AdjustIndices (lsize l) start stop step in
  lwith (lslice_read cfg (lst l) (Z.to_nat sliceLength) 0 start step) l (fun r =>
  (Ret (VPyList r), l))).

(** Loop [*iter = PyLong_AsLong(item); ++iter], 591-604, 606-619, 627-640: the
    iterator is kept while the code of the sequence runs. *)
Fixpoint lassign_loop_u (q : lseq) (n : nat) (i : Z) (it : iterator) (l : ll) : outcome iterator * ll :=
  match n with
  | O => (Ret it, l)
  | S m =>
      next (s_get q i l) (fun item l =>
      let '((v, err), l) := lconv_err item l in
      next (assign (lst l) it v, l) (fun s l =>
      let l := put l s in
      match err with
      | Some e => (Raise e, l)
      | None => next (it_next (lst l) it, l) (fun it' l => lassign_loop_u q m (i + 1) it' l)
      end))
  end.

(** Loop [list.insert(iter, PyLong_AsLong(item))], 642-653. [iter] is copied,
    so the order of the two arguments does not matter. *)
Fixpoint linsert_loop_u (q : lseq) (n : nat) (i : Z) (it : iterator) (l : ll) : outcome unit * ll :=
  match n with
  | O => (Ret tt, l)
  | S m =>
      next (s_get q i l) (fun item l =>
      let '((v, err), l) := lconv_err item l in
      next (insert_ (lst l) it v, l) (fun s l =>
      let l := put l s in
      match err with
      | Some e => (Raise e, l)
      | None => linsert_loop_u q m (i + 1) it l
      end))
  end.

(** IntLinkedList_setitem_slice of a sequence, 566-661: bounds adjusted at 573,
    the length asked for at 580, the iterator taken at 588. *)
Definition lsetitem_slice_u (sl : lslice) (q : lseq) (l : ll) : lres :=
  next (lunpack_u sl l) (fun '(start, stop, step) l =>
  let '(start, stop, sliceLength) := PySlice_AdjustIndices (lsize l) start stop step in
  let '(newLength, pend) := seq_size (fst (s_len q l)) in
  let l := snd (s_len q l) in
  if negb (step =? 1) then (Raise NotImplementedError, l) else
  lwith (at_z (lst l) start) l (fun it =>
  let r :=
    if newLength =? sliceLength then
      next (lassign_loop_u q (Z.to_nat sliceLength) 0 it l) (fun _ l => (Ret tt, l))
    else if newLength <? sliceLength then
      next (lassign_loop_u q (Z.to_nat newLength) 0 it l) (fun eraseStart l =>
      next (advance (lst l) (Z.to_nat (sliceLength - newLength)) eraseStart, l) (fun it' l =>
      next (erase_range (size (lst l)) (lst l) eraseStart it', l) (fun s l => (Ret tt, put l s))))
    else
      next (lassign_loop_u q (Z.to_nat sliceLength) 0 it l) (fun it' l =>
      linsert_loop_u q (Z.to_nat (newLength - sliceLength)) sliceLength it' l) in
  match pend, fst r with
  | Some e, Ret _ => (RetPending VNone e, snd r)
  | _, _ => lthen VNone r
  end)).

(** ** extend and in-place addition *)
(** An iterable: iter(x), each [__next__] with the item it yields, and the last
    [__next__], which ends the iteration or raises. *)
Record literable := { n_start : code unit; n_items : list (code iobj); n_end : code unit }.

(** Item loop, 220-231 and 716-726: an error left by a conversion is noticed
    after the next [__next__] yields an item (which is then dropped), or after
    the loop. *)
Fixpoint lextend_loop_u (mark : ll -> ll) (items : list (code iobj)) (fin : code unit) (pend : option exn) (l : ll)
  : outcome unit * ll :=
  match items with
  | [] => let l1 := mark (snd (fin l)) in
          (match fst (fin l) with
           | Ret _ => match pend with None => Ret tt | Some e => Raise e end
           | Raise e => Raise e
           | RetPending _ e => Raise e
           | Undef u => Undef u
           end, l1)
  | nx :: r =>
      match fst (nx l) with
      | Ret item =>
          match pend with
          | Some e => (Raise e, snd (nx l))
          | None => let '((v, err), l2) := lconv_err item (snd (nx l)) in
                    lextend_loop_u mark r fin err (put l2 (push_back (lst l2) v))
          end
      | Raise e => (Raise e, mark (snd (nx l)))
      | RetPending _ e => (Raise e, snd (nx l))
      | Undef u => (Undef u, snd (nx l))
      end
  end.

(** IntLinkedList_extend, 213-240, and IntLinkedList_iadd, 709-736. *)
Definition lextend_u (it : literable) (l : ll) : lres :=
  next (n_start it l) (fun _ l =>
  lthen VNone (lextend_loop_u (fun l => bump l (lst l)) (n_items it) (n_end it) None l)).
Definition liadd_u (it : literable) (l : ll) : lres :=
  next (n_start it l) (fun _ l =>
  lthen VSelf (lextend_loop_u (fun l => l) (n_items it) (n_end it) None l)).

(** ** Comparison with a sequence *)
(** Loop of IntLinkedList_eq, 866-882: item, own element, conversion, iter++. *)
Fixpoint leq_loop_u (q : lseq) (n : nat) (i : Z) (it : iterator) (l : ll) : outcome bool * ll :=
  match n with
  | O => (Ret true, l)
  | S m =>
      next (s_get q i l) (fun item l =>
      next (deref (lst l) it, l) (fun x l =>
      let '((v, err), l) := lconv_err item l in
      match err with
      | Some e => (RetPending false e, l)
      | None => if negb (x =? v) then (Ret false, l)
                else next (it_next (lst l) it, l) (fun it' l => leq_loop_u q m (i + 1) it' l)
      end))
  end.

(** IntLinkedList_eq, 856-885, on a sequence. *)
Definition leq_u (q : lseq) (l : ll) : outcome bool * ll :=
  let '(n, pend) := seq_size (fst (s_len q l)) in
  let l := snd (s_len q l) in
  if negb (n =? lsize l) then (ret_bool false pend, l)
  else leq_loop_u q (Z.to_nat n) 0 (begin_ (lst l)) l.

(** IntLinkedList_ne, 887-896: a null result of eq is dereferenced. *)
Definition lne_u (q : lseq) (l : ll) : outcome bool * ll :=
  (match fst (leq_u q l) with
   | Ret b => Ret (negb b)
   | RetPending b e => RetPending (negb b) e
   | Raise _ => Undef NullDeref
   | Undef u => Undef u
   end, snd (leq_u q l)).

(** Loops of lt, le, gt, ge: 914-927, 946-959, 978-991, 1010-1023. *)
Fixpoint lord_loop_u (r : Z -> Z -> bool) (q : lseq) (n : nat) (i : Z) (it : iterator) (pend : option exn) (l : ll)
  : outcome bool * ll :=
  match n with
  | O => (ret_bool false pend, l)
  | S m =>
      next (s_get q i l) (fun item l =>
      next (deref (lst l) it, l) (fun x l =>
      let '((v, err), l) := lconv_err item l in
      let pend := match err with Some e => Some e | None => pend end in
      if negb (x =? v) then (ret_bool (r x v) pend, l)
      else next (it_next (lst l) it, l) (fun it' l => lord_loop_u r q m (i + 1) it' pend l)))
  end.

(** lt, le, gt, ge on a sequence, 898-1024. *)
Definition lord_u (r : Z -> Z -> bool) (q : lseq) (l : ll) : outcome bool * ll :=
  next (s_len q l) (fun n l =>
  if negb (lsize l =? n) then (Ret (lsize l <? n), l)
  else lord_loop_u r q (Z.to_nat n) 0 (begin_ (lst l)) None l).

(** IntLinkedList_compare, 1026-1044. *)
Definition lcompare_u (c : cmp_op) (q : lseq) (l : ll) : outcome bool * ll :=
  match c with
  | Eq_ => leq_u q l
  | Ne_ => lne_u q l
  | Lt_ => lord_u Z.ltb q l
  | Le_ => lord_u Z.leb q l
  | Gt_ => lord_u Z.gtb q l
  | Ge_ => lord_u Z.geb q l
  end.

(** ** Calls with objects as arguments *)
Inductive mcall :=
| MAppend (o : iobj) | MInsert (oi ov : iobj) | MPop (o : iobj) | MIndex (o : iobj) (oa ob : option iobj)
| MCount (o : iobj) | MRemove (o : iobj) | MGet (oi : iobj) | MSet (oi ov : iobj) | MDel (oi : iobj)
| MGetSlice (sl : lslice).

Definition mstep (cfg : config) (c : mcall) (l : ll) : lres :=
  match c with
  | MAppend o => lappend_u o l
  | MInsert oi ov => linsert_u oi ov l
  | MPop o => lpop_u cfg o l
  | MIndex o oa ob => lindex_u o oa ob l
  | MCount o => lcount_u o l
  | MRemove o => lremove_u o l
  | MGet oi => lsubscript_u cfg oi l
  | MSet oi ov => lass_subscript_u oi (Some ov) l
  | MDel oi => lass_subscript_u oi None l
  | MGetSlice sl => lgetitem_slice_u cfg sl l
  end.
