(** References that the calls of the three integer lists take and give back:
    ints/IntArrayList.cpp, ints/BigIntArrayList.cpp and ints/IntLinkedList.cpp
    with their iterators. An integer list holds machine integers, so every
    reference a call takes must be given back before it returns, except those
    its result owns.

    The state is the elements, the reference counts by object and the next
    object nobody has used. Simplified: converting an item and comparing keys
    run no code that changes counts; the size of a sequence does not fail and
    is the number of items that can be asked for; the elements of a slice are
    those of PyListSpec (the loops are in ArrayListModel and LinkedListModel);
    iterators are given by the element they have come to. *)
From Coq Require Import ZArith List Bool.
From Verif Require Import Base PyListSpec ArrayListModel ObjModel.
Import ListNotations.
Local Open Scope Z_scope.

(** The surroundings of a call.
    [conv]: the C value of an object or the error of the conversion;
    [small]: the object PyFast_FromInt (PyLong_FromLongLong) keeps for a value, if it keeps one;
    [small_size]: the same of PyLong_FromSsize_t;
    [imm]: immortal objects, whose count never changes (CPython 3.12 on);
    [alloc]: whether the object of this identity can be allocated;
    [room]: whether a list of so many elements can take one more. *)
Record env := {
  conv : Z -> Z + exn; small : Z -> option Z; small_size : Z -> option Z; imm : Z -> bool;
  alloc : Z -> bool; room : Z -> bool; none : Z; tru : Z; fls : Z; self : Z }.
Record rst := { elems : list Z; cnt : counts; nxt : Z }.
Definition with_elems (xs : list Z) (s : rst) : rst := {| elems := xs; cnt := cnt s; nxt := nxt s |}.
Definition with_cnt (c : counts) (s : rst) : rst := {| elems := elems s; cnt := c; nxt := nxt s |}.

(** The end of a call: a value, an exception, undefined behaviour, std::terminate. *)
Inductive rr (A : Type) := Ok (s : rst) (a : A) | Er (s : rst) (e : exn) | Bad (u : ub) | Killed.
Arguments Ok {A} s a. Arguments Er {A} s e. Arguments Bad {A} u. Arguments Killed {A}.
Definition bind {A B} (r : rr A) (f : rst -> A -> rr B) : rr B :=
  match r with Ok s a => f s a | Er s e => Er s e | Bad u => Bad u | Killed => Killed end.

(** What a call returns: an object; a list with its items; an iterator and the
    list it holds; the 0 of an item assignment. *)
Inductive value := VObj (o : Z) | VList (l : Z) (items : list Z) | VIter (i c : Z) | VUnit.

(** ** Counting *)
Definition bump (E : env) (o d : Z) (s : rst) : rst :=
  if imm E o then s else with_cnt (upd (cnt s) o (cnt s o + d)) s.
Definition alive (E : env) (s : rst) (o : Z) : bool := imm E o || (0 <? cnt s o).
(** Py_INCREF; Py_DECREF and SAFE_DECREF (utils/PythonUtils.h 19-42). *)
Definition inc (E : env) (o : Z) (s : rst) : rr unit :=
  if alive E s o then Ok (bump E o 1 s) tt else Bad UseAfterFree.
Definition dec (E : env) (o : Z) (s : rst) : rr unit :=
  if alive E s o then Ok (bump E o (-1) s) tt else Bad UseAfterFree.
Fixpoint incs (E : env) (os : list Z) (s : rst) : rr unit :=
  match os with [] => Ok s tt | o :: r => bind (inc E o s) (fun s _ => incs E r s) end.
Fixpoint decs (E : env) (os : list Z) (s : rst) : rr unit :=
  match os with [] => Ok s tt | o :: r => bind (dec E o s) (fun s _ => decs E r s) end.
(** Code of the user hands over a new reference to [o], an object that may not
    have existed before: the result of PyIter_Next, PySequence_GetItem or a
    call. *)
Definition fetch (E : env) (o : Z) (s : rst) : rst := bump E o 1 s.
(** PyLong_AsLong / PyLong_AsLongLong / PyFast_AsInt of a borrowed object. *)
Definition as_int (E : env) (o : Z) (s : rst) : rr (Z + exn) :=
  if alive E s o then Ok s (conv E o) else Bad UseAfterFree.

(** A new object, or NULL with MemoryError pending. *)
Definition new_obj (E : env) (s : rst) : rst * option Z :=
  if alloc E (nxt s) then ({| elems := elems s; cnt := upd (cnt s) (nxt s) 1; nxt := nxt s + 1 |}, Some (nxt s))
  else ({| elems := elems s; cnt := cnt s; nxt := nxt s + 1 |}, None).
(** PyFast_FromInt (utils/PythonUtils.h 149-155), PyLong_FromLongLong,
    PyLong_FromSsize_t. *)
Definition from_cache (E : env) (cache : Z -> option Z) (z : Z) (s : rst) : rst * option Z :=
  match cache z with Some o => (bump E o 1 s, Some o) | None => new_obj E s end.
Definition from_int (E : env) (z : Z) (s : rst) : rst * option Z := from_cache E (small E) z s.
Definition from_size (E : env) (z : Z) (s : rst) : rst * option Z := from_cache E (small_size E) z s.

(** The caller lets go of a result. A list releases its items when it dies, an
    iterator its container (IntArrayListIter.cpp 31-34, BigIntArrayListIter.cpp
    31-34, IntLinkedListIter.cpp 35-38). *)
Definition dies (E : env) (o : Z) (s : rst) : bool := negb (imm E o) && (cnt s o =? 0).
Definition drop (E : env) (v : value) (s : rst) : rr unit :=
  match v with
  | VObj o => dec E o s
  | VList l items => bind (dec E l s) (fun s _ => if dies E l s then decs E items s else Ok s tt)
  | VIter i c => bind (dec E i s) (fun s _ => if dies E i s then dec E c s else Ok s tt)
  | VUnit => Ok s tt
  end.
(** [return obj] after Py_INCREF: Py_RETURN_NONE, Py_RETURN_TRUE, Py_RETURN_FALSE, self. *)
Definition give (E : env) (o : Z) (s : rst) : rr value := bind (inc E o s) (fun s _ => Ok s (VObj o)).
Definition give_bool (E : env) (b : bool) (s : rst) : rr value := give E (if b then tru E else fls E) s.
Definition null {A} (r : rst * option Z) (f : rst -> Z -> rr A) : rr A :=
  match snd r with None => Er (fst r) MemoryError | Some o => f (fst r) o end.

(** ** Iterables *)
(** An iterable: its object, whether it is its own iterator, whether iter()
    succeeds, the items its iterator yields and the exception at the end. *)
Record iterable := { it_obj : Z; it_own : bool; it_iter : option exn; it_items : list Z; it_end : option exn }.
(** PyObject_GetIter: an iterator that holds its iterable, or the iterable. *)
Definition get_iter (E : env) (a : iterable) (s : rst) : rr value :=
  match it_iter a with
  | Some e => Er s e
  | None => if it_own a then give E (it_obj a) s
            else null (new_obj E s) (fun s i => bind (inc E (it_obj a) s) (fun s _ => Ok s (VIter i (it_obj a))))
  end.

(** ** Both kinds *)
Inductive kind := Array | Linked.

(** IntArrayList_init, 66-83 (BigIntArrayList.cpp 66-83, IntLinkedList.cpp
    45-62): a list or a tuple. *)
Fixpoint init_seq_items (E : env) (q : Z) (items : list Z) (s : rst) : rr value :=
  match items with
  | [] => bind (dec E q s) (fun s _ => Ok s VUnit)
  | o :: r =>
      bind (as_int E o s) (fun s v =>
      match v with
      | inr _ => bind (dec E q s) (fun s _ => Er s RuntimeError)
      | inl z => if room E (zlen (elems s)) then init_seq_items E q r (with_elems (elems s ++ [z]) s)
                 else Er s RuntimeError
      end)
  end.
Definition init_seq (E : env) (q : Z) (items : list Z) (s : rst) : rr value :=
  bind (inc E q s) (fun s _ => init_seq_items E q items (with_elems [] s)).
(** IntArrayList_init, 85-104 (85-104; 64-83): any other iterable. *)
Fixpoint init_iter_items (E : env) (i : value) (items : list Z) (fin : option exn) (s : rst) : rr value :=
  match items with
  | [] => bind (drop E i s) (fun s _ => match fin with Some e => Er s e | None => Ok s VUnit end)
  | o :: r =>
      let s := fetch E o s in
      bind (as_int E o s) (fun s v =>
      match v with
      | inr _ => bind (drop E i s) (fun s _ => bind (dec E o s) (fun s _ => Er s RuntimeError))
      | inl z => if room E (zlen (elems s)) then
                   bind (dec E o (with_elems (elems s ++ [z]) s)) (fun s _ => init_iter_items E i r fin s)
                 else Er s RuntimeError
      end)
  end.
Definition init_iter (E : env) (a : iterable) (s : rst) : rr value :=
  match get_iter E a (with_elems [] s) with
  | Er s _ => Er s TypeError
  | r => bind r (fun s i => init_iter_items E i (it_items a) (it_end a) s)
  end.

(** IntArrayList_append, 221-237 (the same lines; IntLinkedList.cpp 175-192),
    insert, 396-423 (393-420; 344-372), setitem, 568-598 (570-600; 524-555),
    remove, 425-448 (422-445; 374-398) and contains, 866-888 (868-890; 808-830): the argument is borrowed. [f] is what the
    method does to the elements, [None] its IndexError or ValueError. *)
Definition with_int (E : env) (o : Z) (f : Z -> list Z -> list Z + exn) (ret : Z -> rst -> rr value) (s : rst) : rr value :=
  bind (as_int E o s) (fun s v =>
  match v with
  | inr e => Er s e
  | inl z => match f z (elems s) with
             | inr e => Er s e
             | inl xs => if (zlen xs <=? zlen (elems s)) || room E (zlen (elems s)) then ret z (with_elems xs s) else Er s RuntimeError
             end
  end).

(** IntArrayList_index, 337-376 (334-373; 284-324), and count, 378-394
    (375-391; 326-342). *)
Definition search (E : env) (o : Z) (f : Z -> list Z -> option Z) (s : rst) : rr value :=
  bind (as_int E o s) (fun s v =>
  match v with
  | inr e => Er s e
  | inl z => match f z (elems s) with
             | None => Er s ValueError
             | Some n => null (from_size E n s) (fun s o => Ok s (VObj o))
             end
  end).

(** IntArrayList_pop, 293-335 (293-332; 243-282), with the index the arguments
    stand for. *)
Definition pop (E : env) (i : Z) (s : rst) : rr value :=
  match nth_error (elems s) (Z.to_nat i) with
  | None => Er s IndexError
  | Some z => null (from_int E z (with_elems (firstn (Z.to_nat i) (elems s) ++ skipn (S (Z.to_nat i)) (elems s)) s))
                   (fun s o => Ok s (VObj o))
  end.

(** IntArrayListIter_create, IntArrayListIter.cpp 14-29 (the same;
    IntLinkedListIter.cpp 15-33): iter() and reversed(). *)
Definition make_iter (E : env) (s : rst) : rr value :=
  null (new_obj E s) (fun s i => bind (inc E (self E) s) (fun s _ => Ok s (VIter i (self E)))).
(** IntArrayListIter_next, 36-69 (the same; IntLinkedListIter.cpp 55-96) with
    the element to be returned. *)
Definition next (E : env) (i : Z) (s : rst) : rr value :=
  match nth_error (elems s) (Z.to_nat i) with
  | None => Er s StopIteration
  | Some z => null (from_int E z s) (fun s o => Ok s (VObj o))
  end.

(** IntArrayList_mul, 785-816 (787-818; 739-768), and imul, 833-864 (835-866;
    782-806): a new list object; self. What imul does to the elements is in
    ArrayListModel and LinkedListModel, here it is any function. *)
Definition mul (E : env) (s : rst) : rr value := null (new_obj E s) (fun s o => Ok s (VObj o)).
Definition imul (E : env) (f : list Z -> list Z) (s : rst) : rr value := give E (self E) (with_elems (f (elems s)) s).
(** clear, reverse, and sort without a key: None. *)
Definition change (E : env) (f : list Z -> list Z) (s : rst) : rr value := give E (none E) (with_elems (f (elems s)) s).

(** IntArrayList_eq, 914-951 (916-953; 856-884), and the four orderings,
    964-1090 (966-1092; 898-1024): each item is released as soon as it is
    converted. [None] among the items: PySequence_GetItem fails. [on_bad]:
    whether a failed conversion ends the loop with False; otherwise -1 is
    compared. *)
Fixpoint compare (E : env) (on_bad : bool) (ans : Z -> Z -> option bool) (last : bool) (xs : list Z) (items : list (option Z)) (s : rst) : rr value :=
  match items, xs with
  | None :: _, _ :: _ => Er s IndexError
  | Some o :: r, x :: xs =>
      let s := fetch E o s in
      bind (as_int E o s) (fun s v =>
      bind (dec E o s) (fun s _ =>
      match v with
      | inr _ => if on_bad then give_bool E false s
                 else match ans x (-1) with Some b => give_bool E b s | None => compare E on_bad ans last xs r s end
      | inl z => match ans x z with Some b => give_bool E b s | None => compare E on_bad ans last xs r s end
      end))
  | _, _ => give_bool E last s
  end.
Definition eq_ans (x z : Z) : option bool := if x =? z then None else Some false.
Definition py_eq (E : env) (seq : bool) (items : list (option Z)) (s : rst) : rr value :=
  if negb seq then give_bool E false s
  else if negb (zlen items =? zlen (elems s)) then give_bool E false s
  else compare E true eq_ans true (elems s) items s.
Definition order (E : env) (rel : Z -> Z -> bool) (seq : bool) (items : list (option Z)) (s : rst) : rr value :=
  if negb seq then give_bool E false s
  else if negb (zlen items =? zlen (elems s)) then give_bool E (rel (zlen (elems s)) (zlen items)) s
  else compare E false (fun x z => if x =? z then None else Some (rel x z)) false (elems s) items s.
(** IntArrayList_ne, 953-962 (955-964; 887-896): PyObject_IsTrue of the NULL of
    a failed comparison. *)
Definition py_ne (E : env) (seq : bool) (items : list (option Z)) (s : rst) : rr value :=
  match py_eq E seq items s with
  | Ok s v => bind (drop E v s) (fun s _ => give_bool E (match v with VObj o => negb (o =? tru E) | _ => true end) s)
  | Er _ _ => Bad NullDeref
  | r => r
  end.

(** IntArrayList_sort with a key, 470-490 (467-487; 418-442)
    and CPython_sort, utils/include/CPythonSort.c 1425-1441 and 1598-1633:
    [keys] are the results of the key function, [None] where it raises;
    [sorted] is the order in which the elements come out. The
    result of CPython_sort, a new reference to None, is not kept. *)
Fixpoint make_ints (E : env) (xs : list Z) (s : rst) : rst * list (option Z) :=
  match xs with
  | [] => (s, [])
  | x :: r => let (s, o) := from_int E x s in let (s, os) := make_ints E r s in (s, o :: os)
  end.
Fixpoint call_keys (E : env) (items keys : list (option Z)) (got : list Z) (s : rst) : rr bool :=
  match items, keys with
  | [], _ => Ok s true
  | None :: _, _ => Bad NullDeref
  | Some o :: items, k :: keys =>
      if alive E s o then
        match k with
        | None => bind (decs E (rev got) s) (fun s _ => Ok s false)
        | Some k => call_keys E items keys (got ++ [k]) (fetch E k s)
        end
      else Bad UseAfterFree
  | _ :: _, [] => bind (decs E (rev got) s) (fun s _ => Ok s false)
  end.
Fixpoint somes {A} (l : list (option A)) : list A :=
  match l with [] => [] | Some a :: r => a :: somes r | None :: r => somes r end.
Definition sort_key (E : env) (keys : list (option Z)) (sorted : list Z -> list Z) (s : rst) : rr value :=
  let (s, items) := make_ints E (elems s) s in
  bind (call_keys E items keys [] s) (fun s ok =>
  bind (if ok then bind (decs E (somes (firstn (length items) keys)) s) (fun s _ => inc E (none E) s) else Ok s tt) (fun s _ =>
  bind (decs E (somes items) s) (fun s _ =>
  give E (none E) (if ok then with_elems (sorted (elems s)) s else s)))).

(** ** The array lists *)
(** IntArrayList_to_list, 184-202, and the loop of getitem_slice, 556-564 (the
    same lines of BigIntArrayList.cpp up to 2). *)
Fixpoint a_fill (E : env) (l : Z) (xs done : list Z) (s : rst) : rr value :=
  match xs with
  | [] => Ok s (VList l done)
  | x :: r => match from_int E x s with
              | (s, None) => bind (drop E (VList l done) s) (fun s _ => Er s MemoryError)
              | (s, Some o) => a_fill E l r (done ++ [o]) s
              end
  end.
(** IntArrayList_getitem, 516-531 (513-533). *)
Definition at_index (size i : Z) : option Z :=
  let i := if i <? 0 then size + i else i in if (i <? 0) || (size <=? i) then None else Some i.
Definition a_get (E : env) (i : Z) (s : rst) : rr value :=
  match at_index (zlen (elems s)) i with
  | None => Er s IndexError
  | Some n => match nth_error (elems s) (Z.to_nat n) with
              | None => Bad OutOfBounds
              | Some z => null (from_int E z s) (fun s o => Ok s (VObj o))
              end
  end.
(** IntArrayList_extend, 269-288, and iadd, 760-779 (271-290, 762-781):
    push_back is outside any try. [ret] is what is returned at the end. *)
Fixpoint a_extend_items (E : env) (i : value) (items : list Z) (fin : option exn) (ret : Z) (s : rst) : rr value :=
  match items with
  | [] => match fin with
          | Some e => bind (drop E i s) (fun s _ => Er s e)
          | None => bind (drop E i s) (fun s _ => give E ret s)
          end
  | o :: r =>
      let s := fetch E o s in
      bind (as_int E o s) (fun s v =>
      bind (dec E o s) (fun s _ =>
      match v with
      | inr e => bind (drop E i s) (fun s _ => Er s e)
      | inl z => if room E (zlen (elems s)) then a_extend_items E i r fin ret (with_elems (elems s ++ [z]) s) else Killed
      end))
  end.
(** IntArrayList_setitem_slice, 626-697 (628-699), after the checks: [pre] are
    the elements before the position, [old] those still to be replaced, [post]
    the rest. *)
Fixpoint a_assign (E : env) (items : list (option Z)) (pre old post : list Z) (s : rst) : rr value :=
  match items with
  | [] => Ok (with_elems (pre ++ post) s) VUnit
  | None :: _ => Er (with_elems (pre ++ old ++ post) s) IndexError
  | Some o :: r =>
      let s := fetch E o s in
      bind (as_int E o s) (fun s v =>
      match old with
      | [] => if room E (zlen pre + zlen post) then
                bind (dec E o s) (fun s _ =>
                match v with
                | inr e => Er (with_elems (pre ++ [-1] ++ post) s) e
                | inl z => a_assign E r (pre ++ [z]) [] post s
                end)
              else bind (dec E o s) (fun s _ => Er (with_elems (pre ++ post) s) RuntimeError)
      | _ :: old =>
          bind (dec E o s) (fun s _ =>
          match v with
          | inr e => Er (with_elems (pre ++ [-1] ++ old ++ post) s) e
          | inl z => a_assign E r (pre ++ [z]) old post s
          end)
      end)
  end.

(** ** The linked list *)
(** IntLinkedList_to_list, 145-153, and the loop of getitem_slice, 511-520:
    Py_INCREF of the new item, NULL or not. *)
Fixpoint l_fill (E : env) (l : Z) (xs done : list Z) (s : rst) : rr value :=
  match xs with
  | [] => Ok s (VList l done)
  | x :: r => match from_int E x s with
              | (s, None) => Bad NullDeref
              | (s, Some o) => bind (inc E o s) (fun s _ => l_fill E l r (done ++ [o]) s)
              end
  end.
(** IntLinkedList_getitem, 464-486. *)
Definition l_get (E : env) (i : Z) (s : rst) : rr value :=
  match at_index (zlen (elems s)) i with
  | None => Er s IndexError
  | Some n => match nth_error (elems s) (Z.to_nat n) with
              | None => Bad OutOfBounds
              | Some z => match from_int E z s with
                          | (s, None) => Bad NullDeref
                          | (s, Some o) => give E o s
                          end
              end
  end.
(** IntLinkedList_extend, 218-239, and iadd, 715-735: the error of a conversion
    is seen when the next item is there. *)
Fixpoint l_extend_items (E : env) (i : value) (items : list Z) (fin pending : option exn) (ret : Z) (s : rst) : rr value :=
  match items with
  | [] => match pending, fin with
          | Some e, _ | None, Some e => bind (drop E i s) (fun s _ => Er s e)
          | None, None => bind (drop E i s) (fun s _ => give E ret s)
          end
  | o :: r =>
      let s := fetch E o s in
      match pending with
      | Some e => bind (drop E i s) (fun s _ => bind (dec E o s) (fun s _ => Er s e))
      | None =>
          bind (as_int E o s) (fun s v =>
          if room E (zlen (elems s)) then
            match v with
            | inr e => bind (dec E o (with_elems (elems s ++ [-1]) s)) (fun s _ => l_extend_items E i r fin (Some e) ret s)
            | inl z => bind (dec E o (with_elems (elems s ++ [z]) s)) (fun s _ => l_extend_items E i r fin None ret s)
            end
          else Killed)
      end
  end.
(** IntLinkedList_setitem_slice, 585-657, after the checks; the catch clause
    knows no item. *)
Fixpoint l_assign (E : env) (items : list (option Z)) (pre old post : list Z) (s : rst) : rr value :=
  match items with
  | [] => Ok (with_elems (pre ++ post) s) VUnit
  | None :: _ => Er (with_elems (pre ++ old ++ post) s) IndexError
  | Some o :: r =>
      let s := fetch E o s in
      bind (as_int E o s) (fun s v =>
      match old with
      | [] => if room E (zlen pre + zlen post) then
                bind (dec E o s) (fun s _ =>
                match v with
                | inr e => Er (with_elems (pre ++ [-1] ++ post) s) e
                | inl z => l_assign E r (pre ++ [z]) [] post s
                end)
              else Er (with_elems (pre ++ post) s) RuntimeError
      | _ :: old =>
          bind (dec E o s) (fun s _ =>
          match v with
          | inr e => Er (with_elems (pre ++ [-1] ++ old ++ post) s) e
          | inl z => l_assign E r (pre ++ [z]) old post s
          end)
      end)
  end.

(** ** Calls *)
Definition fill (k : kind) := match k with Array => a_fill | Linked => l_fill end.
Definition get (k : kind) := match k with Array => a_get | Linked => l_get end.
Definition assign_items (k : kind) := match k with Array => a_assign | Linked => l_assign end.
Definition extend_items (k : kind) (E : env) (i : value) (items : list Z) (fin : option exn) (ret : Z) (s : rst) : rr value :=
  match k with
  | Array => a_extend_items E i items fin ret s
  | Linked => l_extend_items E i items fin None ret s
  end.
Definition to_list (k : kind) (E : env) (s : rst) : rr value :=
  null (new_obj E s) (fun s l => fill k E l (elems s) [] s).
(** getitem_slice, 533-566 (535-568; 488-522). *)
Definition get_slice (k : kind) (E : env) (sl : slice) (s : rst) : rr value :=
  match PySlice_Unpack sl with
  | Ret _ => null (new_obj E s) (fun s l => fill k E l (py_getslice (elems s) sl) [] s)
  | _ => Er s ValueError
  end.
(** setitem_slice, 600-625 (602-627; 557-584). *)
Definition set_slice (k : kind) (E : env) (sl : slice) (seq : bool) (items : list (option Z)) (s : rst) : rr value :=
  match PySlice_Unpack sl with
  | Ret (start, stop, step) =>
      if negb seq then Er s TypeError
      else if negb (step =? 1) then Er s NotImplementedError
      else let '(start, _, sliceLength) := PySlice_AdjustIndices (zlen (elems s)) start stop step in
           let a := Z.to_nat start in let n := Z.to_nat sliceLength in
           assign_items k E items (firstn a (elems s)) (firstn n (skipn a (elems s))) (skipn (a + n) (elems s)) s
  | _ => Er s ValueError
  end.
(** extend, 249-267 (251-269; 203-216), and iadd, 738-758 (740-760; 699-713):
    [Some ys] is a list of the same class. *)
Definition extend (k : kind) (E : env) (a : list Z + iterable) (s : rst) : rr value :=
  match a with
  | inl ys => give E (none E) (with_elems (elems s ++ ys) s)
  | inr a => bind (get_iter E a s) (fun s i => extend_items k E i (it_items a) (it_end a) (none E) s)
  end.
Definition iadd (k : kind) (E : env) (a : list Z + iterable) (s : rst) : rr value :=
  match a with
  | inl ys => give E (none E) (with_elems (elems s ++ ys) s)
  | inr a => bind (get_iter E a s) (fun s i => extend_items k E i (it_items a) (it_end a) (self E) s)
  end.
(** add, 702-736 (704-738; 663-697): with a list of the same class the call of
    the type fails before it makes anything; otherwise to_list and
    PySequence_Concat, which wants a list ([None]: something else). *)
Definition add_same (E : env) (s : rst) : rr value := Er s MemoryError.
Definition add (k : kind) (E : env) (other : option (list Z)) (s : rst) : rr value :=
  bind (to_list k E s) (fun s t =>
  match t, other with
  | VList _ mine, Some ys =>
      match new_obj E s with
      | (s, None) => bind (drop E t s) (fun s _ => Er s MemoryError)
      | (s, Some l) => bind (incs E (mine ++ ys) s) (fun s _ => bind (drop E t s) (fun s _ => Ok s (VList l (mine ++ ys))))
      end
  | _, _ => bind (drop E t s) (fun s _ => Er s TypeError)
  end).

Inductive call :=
  | KInitSeq (q : Z) (items : list Z) | KInitIter (a : iterable)
  | KAppend (o : Z) | KInsert (i : Z) (o : Z) | KSet (i : Z) (o : Z) | KRemove (o : Z) | KContains (o : Z)
  | KIndex (o : Z) | KCount (o : Z) | KPop (i : Z)
  | KExtend (a : list Z + iterable) | KIAdd (a : list Z + iterable)
  | KToList | KGet (i : Z) | KGetSlice (sl : slice) | KSetSlice (sl : slice) (seq : bool) (items : list (option Z))
  | KAddSame | KAdd (other : option (list Z)) | KMul | KIMul (f : list Z -> list Z)
  | KEq (seq : bool) (items : list (option Z)) | KNe (seq : bool) (items : list (option Z))
  | KOrder (rel : Z -> Z -> bool) (seq : bool) (items : list (option Z))
  | KSortKey (keys : list (option Z)) (sorted : list Z -> list Z)
  | KIter | KNext (i : Z) | KChange (f : list Z -> list Z).

Definition insert_at (i z : Z) (xs : list Z) : list Z + exn :=
  let n := Z.to_nat (Z.max 0 (Z.min (if i <? 0 then i + zlen xs else i) (zlen xs))) in
  inl (firstn n xs ++ [z] ++ skipn n xs).
Definition set_at (i z : Z) (xs : list Z) : list Z + exn :=
  match at_index (zlen xs) i with
  | None => inr IndexError
  | Some n => inl (firstn (Z.to_nat n) xs ++ [z] ++ skipn (S (Z.to_nat n)) xs)
  end.
Fixpoint remove_first (z : Z) (xs : list Z) : option (list Z) :=
  match xs with [] => None | x :: r => if x =? z then Some r else option_map (cons x) (remove_first z r) end.
Fixpoint find_first (z : Z) (xs : list Z) : option Z :=
  match xs with [] => None | x :: r => if x =? z then Some 0 else option_map Z.succ (find_first z r) end.
Fixpoint count_of (z : Z) (xs : list Z) : Z :=
  match xs with [] => 0 | x :: r => (if x =? z then 1 else 0) + count_of z r end.
Definition run (k : kind) (E : env) (c : call) (s : rst) : rr value :=
  match c with
  | KInitSeq q items => init_seq E q items s
  | KInitIter a => init_iter E a s
  | KAppend o => with_int E o (fun z xs => inl (xs ++ [z])) (fun _ s => give E (none E) s) s
  | KInsert i o => with_int E o (insert_at i) (fun _ s => give E (none E) s) s
  | KSet i o => with_int E o (set_at i) (fun _ s => Ok s VUnit) s
  | KRemove o => with_int E o (fun z xs => match remove_first z xs with Some ys => inl ys | None => inr ValueError end)
                          (fun _ s => give E (none E) s) s
  | KContains o => with_int E o (fun _ xs => inl xs) (fun _ s => Ok s VUnit) s
  | KIndex o => search E o find_first s
  | KCount o => search E o (fun z xs => Some (count_of z xs)) s
  | KPop i => pop E i s
  | KExtend a => extend k E a s
  | KIAdd a => iadd k E a s
  | KToList => to_list k E s
  | KGet i => get k E i s
  | KGetSlice sl => get_slice k E sl s
  | KSetSlice sl seq items => set_slice k E sl seq items s
  | KAddSame => add_same E s
  | KAdd other => add k E other s
  | KMul => mul E s
  | KIMul f => imul E f s
  | KEq seq items => py_eq E seq items s
  | KNe seq items => py_ne E seq items s
  | KOrder rel seq items => order E rel seq items s
  | KSortKey keys sorted => sort_key E keys sorted s
  | KIter => make_iter E s
  | KNext i => next E i s
  | KChange f => change E f s
  end.

(** A program: calls whose result is dropped at once, exceptions included. *)
Fixpoint session (k : kind) (E : env) (cs : list call) (s : rst) : rr unit :=
  match cs with
  | [] => Ok s tt
  | c :: r => match run k E c s with
              | Ok s v => bind (drop E v s) (fun s _ => session k E r s)
              | Er s _ => session k E r s
              | Bad u => Bad u
              | Killed => Killed
              end
  end.
