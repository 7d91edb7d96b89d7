(** References and memory in the calls of the two object lists:
    objects/ObjectArrayList.cpp and objects/ObjectLinkedList.cpp with their
    iterators, when memory can run out and iterators, sequences, key functions
    and comparisons can fail. Line numbers of ObjectArrayList.cpp, in brackets
    those of ObjectLinkedList.cpp.

    State, counting and iterables are those of IRefModel; the elements are
    objects, and the list owns a reference to each. Simplified: user code in a
    call does not touch the list or the counts of others (FinalModel,
    LFinalModel and CompareModel are about that); the size of a sequence does
    not fail; asking a sequence twice for an item gives the same answer;
    arguments that are lists are not the list itself. *)
From Coq Require Import ZArith List Bool.
From Verif Require Import Base PyListSpec ArrayListModel ObjModel IRefModel.
Import ListNotations.
Local Open Scope Z_scope.

(** Memory during a call: the largest size of a list, and whether a list of
    size [n] can be given room for [m]. What needs no room is not asked for; a
    call never asks twice from the same size, so any pattern of refusals within
    a call is such a function. *)
Record memory := { limit : Z; fits : Z -> Z -> bool }.
Definition grows (G : memory) (n m : Z) : bool := (m <=? n) || ((m <=? limit G) && fits G n m).
Definition size (s : rst) : Z := zlen (elems s).
Definition push (o : Z) (s : rst) : rst := with_elems (elems s ++ [o]) s.

(** ** Construction *)
(** ObjectArrayList_init, 51-54: reserve(exceptSize). The elements of an object
    initialised before are forgotten by the placement new of 43 (24). *)
Definition prepared (k : kind) (G : memory) (h : Z) : bool :=
  match k with Array => (h <=? 0) || grows G 0 h | Linked => true end.
(** 57-61 (39-43): a list of the class, whose elements are copied. *)
Definition init_same (G : memory) (ys : list Z) (s : rst) : rr value :=
  if grows G 0 (zlen ys) then Ok (with_elems ys s) VUnit else Er s RuntimeError.
(** 63-80 (45-60): a list or a tuple. *)
Definition a_init_seq (E : env) (G : memory) (q : Z) (items : list Z) (s : rst) : rr value :=
  bind (inc E q s) (fun s _ =>
  bind (incs E items s) (fun s _ =>
  if grows G 0 (zlen items) then bind (dec E q (with_elems items s)) (fun s _ => Ok s VUnit)
  else Er s RuntimeError)).
Fixpoint l_init_items (E : env) (G : memory) (q : Z) (items : list Z) (s : rst) : rr value :=
  match items with
  | [] => bind (dec E q s) (fun s _ => Ok s VUnit)
  | o :: r => bind (inc E o s) (fun s _ =>
              if grows G (size s) (size s + 1) then l_init_items E G q r (push o s) else Er s RuntimeError)
  end.
Definition init_seq (k : kind) (E : env) (G : memory) (q : Z) (items : list Z) (s : rst) : rr value :=
  match k with
  | Array => a_init_seq E G q items s
  | Linked => bind (inc E q s) (fun s _ => l_init_items E G q items s)
  end.
(** 82-93 (62-73): any other iterable. *)
Fixpoint init_items (E : env) (G : memory) (i : value) (items : list Z) (fin : option exn) (s : rst) : rr value :=
  match items with
  | [] => bind (drop E i s) (fun s _ => match fin with Some e => Er s e | None => Ok s VUnit end)
  | o :: r => let s := fetch E o s in
              if grows G (size s) (size s + 1) then init_items E G i r fin (push o s) else Er s RuntimeError
  end.
Definition init_iter (E : env) (G : memory) (a : iterable) (s : rst) : rr value :=
  match get_iter E a s with
  | Er s _ => Er s TypeError
  | r => bind r (fun s i => init_items E G i (it_items a) (it_end a) s)
  end.
Definition init (k : kind) (G : memory) (h : Z) (f : rst -> rr value) (s : rst) : rr value :=
  let s := with_elems [] s in if prepared k G h then f s else Er s RuntimeError.

(** ** One item *)
(** append, 182-199 (133-151). *)
Definition append (E : env) (G : memory) (o : Z) (s : rst) : rr value :=
  if grows G (size s) (size s + 1) then bind (inc E o (push o s)) (fun s _ => give E (none E) s) else Er s RuntimeError.
(** insert, 360-388 (299-328). *)
Definition insert_pos (n i : Z) : Z := if i <? 0 then Z.max 0 (n + i) else if n <? i then n else i.
Definition insert (E : env) (G : memory) (i o : Z) (s : rst) : rr value :=
  let n := Z.to_nat (insert_pos (size s) i) in
  if grows G (size s) (size s + 1) then
    bind (inc E o (with_elems (firstn n (elems s) ++ o :: skipn n (elems s)) s)) (fun s _ => give E (none E) s)
  else Er s RuntimeError.
(** pop, 265-304 (203-242). The linked list reads the erased node (241). *)
Definition cut (n : nat) (xs : list Z) : list Z := firstn n xs ++ skipn (S n) xs.
Definition pop (k : kind) (i : option Z) (s : rst) : rr value :=
  if size s =? 0 then Er s IndexError
  else match i with
       | None => match nth_error (elems s) (Z.to_nat (size s - 1)) with
                 | Some o => Ok (with_elems (cut (Z.to_nat (size s - 1)) (elems s)) s) (VObj o)
                 | None => Bad OutOfBounds
                 end
       | Some i => match at_index (size s) i with
                   | None => Er s IndexError
                   | Some n => match k, nth_error (elems s) (Z.to_nat n) with
                               | Array, Some o => Ok (with_elems (cut (Z.to_nat n) (elems s)) s) (VObj o)
                               | Linked, Some _ => Bad UseAfterFree
                               | _, None => Bad OutOfBounds
                               end
                   end
       end.
(** index, 306-345 (244-284), and count, 347-358 (286-297): [f] finds the
    answer among the elements. *)
Definition search (E : env) (f : list Z -> option Z) (s : rst) : rr value :=
  match f (elems s) with
  | None => Er s ValueError
  | Some n => null (from_size E n s) (fun s o => Ok s (VObj o))
  end.
(** remove, 390-415 (330-355). *)
Definition remove (E : env) (o : Z) (s : rst) : rr value :=
  match remove_first o (elems s) with
  | None => Er s ValueError
  | Some xs => bind (dec E o (with_elems xs s)) (fun s _ => give E (none E) s)
  end.
(** getitem, 449-466 (411-433). *)
Definition get (E : env) (i : Z) (s : rst) : rr value :=
  match at_index (size s) i with
  | None => Er s IndexError
  | Some n => match nth_error (elems s) (Z.to_nat n) with Some o => give E o s | None => Bad OutOfBounds end
  end.
(** setitem, 500-531 (471-503); [None]: del. *)
Definition put (n : nat) (o : Z) (xs : list Z) : list Z := firstn n xs ++ o :: skipn (S n) xs.
Definition set (E : env) (i : Z) (v : option Z) (s : rst) : rr value :=
  match at_index (size s) i with
  | None => Er s IndexError
  | Some n =>
      match nth_error (elems s) (Z.to_nat n), v with
      | None, _ => Bad OutOfBounds
      | Some old, None => bind (dec E old s) (fun s _ => Ok (with_elems (cut (Z.to_nat n) (elems s)) s) VUnit)
      | Some _, Some o => bind (inc E o (with_elems (put (Z.to_nat n) o (elems s)) s)) (fun s _ => Ok s VUnit)
      end
  end.

(** ** Many items *)
(** extend with a list of the class, 213-220 (165-173), or, array lists only,
    a list, 222-230; iadd with a list of the class, 701-708 (618-625): the
    insertion is outside any try. *)
Definition extend_fast (E : env) (G : memory) (ys : list Z) (s : rst) : rr value :=
  if grows G (size s) (size s + zlen ys) then
    bind (incs E ys (with_elems (elems s ++ ys) s)) (fun s _ => give E (none E) s)
  else Killed.
(** The item loop of extend, 245-261 (182-199), and iadd, 723-742 (634-653):
    push_back is outside any try. [pending]: the error of __length_hint__, seen
    when the first item is there. *)
Fixpoint extend_items (E : env) (G : memory) (i : value) (items : list Z) (fin pending : option exn) (ret : Z) (s : rst) : rr value :=
  match items with
  | [] => match pending, fin with
          | Some e, _ | None, Some e => bind (drop E i s) (fun s _ => Er s e)
          | None, None => bind (drop E i s) (fun s _ => give E ret s)
          end
  | o :: r => let s := fetch E o s in
              match pending with
              | Some e => bind (drop E i s) (fun s _ => Er s e)
              | None => if grows G (size s) (size s + 1) then extend_items E G i r fin None ret (push o s) else Killed
              end
  end.
(** 233-242 (176-179); iadd 711-720 (628-631). Only the array list asks for
    the length hint. *)
Definition extend_iter (k : kind) (E : env) (G : memory) (h : Z + exn) (a : iterable) (ret : Z) (s : rst) : rr value :=
  bind (get_iter E a s) (fun s i =>
  match k, h with
  | Array, inl h => if (h <=? 0) || grows G (size s) (size s + h) then extend_items E G i (it_items a) (it_end a) None ret s else Killed
  | Array, inr e => extend_items E G i (it_items a) (it_end a) (Some e) ret s
  | Linked, _ => extend_items E G i (it_items a) (it_end a) None ret s
  end).
(** clear, 866-874 (770-778); reverse, 857-864 (761-768). *)
Definition clear (E : env) (s : rst) : rr value :=
  bind (decs E (elems s) s) (fun s _ => give E (none E) (with_elems [] s)).
Definition reverse (E : env) (s : rst) : rr value := give E (none E) (with_elems (rev (elems s)) s).
(** resize, 111-143. *)
Definition resize (E : env) (G : memory) (n : Z) (s : rst) : rr value :=
  if n <? 0 then Er s ValueError
  else if n <=? size s then give E (none E) (with_elems (firstn (Z.to_nat n) (elems s)) s)
  else if grows G (size s) n then give E (none E) (with_elems (elems s ++ repeat (none E) (Z.to_nat (n - size s))) s)
  else Er s RuntimeError.

(** ** New lists *)
(** to_list, 145-160 (91-111); getitem_slice, 477-498 (444-469). *)
Definition listed (E : env) (xs : list Z) (s : rst) : rr value :=
  null (new_obj E s) (fun s l => bind (incs E xs s) (fun s _ => Ok s (VList l xs))).
Definition get_slice (E : env) (sl : slice) (s : rst) : rr value :=
  match PySlice_Unpack sl with Ret _ => listed E (py_getslice (elems s) sl) s | _ => Er s ValueError end.
(** copy, 162-180 (113-131): PyObject_Del frees the object itself. *)
Definition copy (E : env) (G : memory) (s : rst) : rr value :=
  null (new_obj E s) (fun s l =>
  if grows G 0 (size s) then bind (incs E (elems s) s) (fun s _ => Ok s (VList l (elems s)))
  else bind (dec E l s) (fun s _ => Er s RuntimeError)).
(** mul, 746-779 (657-687); [done] are the elements of the result so far, [c]
    what has been reserved for it, as a size_t. *)
Fixpoint mul_items (E : env) (G : memory) (l c : Z) (xs done : list Z) (s : rst) : rr (list Z) :=
  match xs with
  | [] => Ok s done
  | o :: r => if (zlen done <? c) || grows G (zlen done) (zlen done + 1)
              then bind (inc E o s) (fun s _ => mul_items E G l c r (done ++ [o]) s)
              else bind (drop E (VList l done) s) (fun s _ => Er s RuntimeError)
  end.
Fixpoint mul_times (E : env) (G : memory) (l c : Z) (n : nat) (done : list Z) (s : rst) : rr value :=
  match n with
  | O => Ok s (VList l done)
  | S n => bind (mul_items E G l c (elems s) done s) (fun s done => mul_times E G l c n done s)
  end.
Definition mul (k : kind) (E : env) (G : memory) (n : Z) (s : rst) : rr value :=
  null (new_obj E s) (fun s l =>
  if n <=? 0 then Ok s (VList l [])
  else match k with
       | Linked => mul_times E G l 0 (Z.to_nat n) [] s
       | Array => let c := size s * n mod 2 ^ 64 in
                  if grows G 0 c then mul_times E G l c (Z.to_nat n) [] s
                  else bind (drop E (VList l []) s) (fun s _ => Er s RuntimeError)
       end).
(** imul, 795-823: j runs up to the growing size. [c]: capacity reserved. *)
Fixpoint a_imul_loop (E : env) (G : memory) (c : Z) (fuel : nat) (j : nat) (s : rst) : rr value :=
  match fuel with
  | O => Bad OutOfBounds
  | S fuel =>
      match nth_error (elems s) j with
      | None => Bad OutOfBounds
      | Some o => if (size s <? c) || grows G (size s) (size s + 1)
                  then bind (inc E o (push o s)) (fun s _ => a_imul_loop E G c fuel (S j) s)
                  else Er s RuntimeError
      end
  end.
(** (703-730): each round copies the first [sz] elements. *)
Fixpoint l_imul_items (E : env) (G : memory) (xs : list Z) (s : rst) : rr unit :=
  match xs with
  | [] => Ok s tt
  | o :: r => if grows G (size s) (size s + 1) then bind (inc E o (push o s)) (fun s _ => l_imul_items E G r s)
              else Er s RuntimeError
  end.
Fixpoint l_imul_times (E : env) (G : memory) (sz n : nat) (s : rst) : rr value :=
  match n with
  | O => give E (self E) s
  | S n => bind (l_imul_items E G (firstn sz (elems s)) s) (fun s _ => l_imul_times E G sz n s)
  end.
Definition imul (k : kind) (E : env) (G : memory) (n : Z) (s : rst) : rr value :=
  if n <=? 0 then give E (self E) (with_elems [] s)
  else match k with
       | Linked => l_imul_times E G (length (elems s)) (Z.to_nat (n - 1)) s
       | Array => let c := size s * n mod 2 ^ 64 in
                  if grows G (size s) c then
                    if (n =? 1) || (size s =? 0) then give E (self E) s
                    else a_imul_loop E G c (S (Z.to_nat (Z.max c (limit G)))) 0 s
                  else Er s RuntimeError
       end.
(** add, 658-695 (575-612): as for the integer lists. *)
Definition add (E : env) (other : option (list Z)) (s : rst) : rr value :=
  bind (listed E (elems s) s) (fun s t =>
  match t, other with
  | VList _ mine, Some ys =>
      match new_obj E s with
      | (s, None) => bind (drop E t s) (fun s _ => Er s MemoryError)
      | (s, Some l) => bind (incs E (mine ++ ys) s) (fun s _ => bind (drop E t s) (fun s _ => Ok s (VList l (mine ++ ys))))
      end
  | _, _ => bind (drop E t s) (fun s _ => Er s TypeError)
  end).

(** ** Slice assignment *)
(** What is assigned: a list of the class, a list, another sequence. *)
Inductive source := SFast (ys : list Z) | SItems (items : list (option Z)).
(** genericCopy, 576-586, and the insertions of 641-647; [old]: the elements
    still to be replaced. *)
Fixpoint a_generic (E : env) (G : memory) (items : list (option Z)) (pre old post : list Z) (s : rst) : rr value :=
  match items with
  | [] => bind (decs E old s) (fun s _ => Ok (with_elems (pre ++ post) s) VUnit)
  | None :: _ => Er (with_elems (pre ++ old ++ post) s) IndexError
  | Some o :: r =>
      let s := fetch E o s in
      match old with
      | x :: old => bind (dec E x s) (fun s _ => a_generic E G r (pre ++ [o]) old post s)
      | [] => if grows G (zlen pre + zlen post) (zlen pre + zlen post + 1) then a_generic E G r (pre ++ [o]) [] post s
              else Er (with_elems (pre ++ post) s) RuntimeError
      end
  end.
(** fastCopy, 567-573: references first, elements afterwards. *)
Fixpoint a_fast_refs (E : env) (old ys : list Z) (s : rst) : rr unit :=
  match old, ys with
  | x :: old, y :: ys => bind (dec E x s) (fun s _ => bind (inc E y s) (fun s _ => a_fast_refs E old ys s))
  | _, _ => Ok s tt
  end.
Definition a_fast (E : env) (G : memory) (ys pre old post : list Z) (s : rst) : rr value :=
  bind (a_fast_refs E old ys s) (fun s _ =>
  if zlen ys <=? zlen old then
    bind (decs E (skipn (length ys) old) s) (fun s _ => Ok (with_elems (pre ++ ys ++ post) s) VUnit)
  else if grows G (zlen pre + zlen old + zlen post) (zlen pre + zlen ys + zlen post) then Ok (with_elems (pre ++ ys ++ post) s) VUnit
  else Er (with_elems (pre ++ firstn (length old) ys ++ post) s) RuntimeError).
(** setitem_slice, 542-656. *)
Definition a_set_slice (E : env) (G : memory) (sl : slice) (seq : bool) (src : source) (s : rst) : rr value :=
  match PySlice_Unpack sl with
  | Ret (start, stop, step) =>
      if negb seq then Er s TypeError
      else if negb (step =? 1) then Er s NotImplementedError
      else let '(start, _, sliceLength) := PySlice_AdjustIndices (size s) start stop step in
           let a := Z.to_nat start in let n := Z.to_nat sliceLength in
           let pre := firstn a (elems s) in let old := firstn n (skipn a (elems s)) in let post := skipn (a + n) (elems s) in
           match src with
           | SFast ys => a_fast E G ys pre old post s
           | SItems items => a_generic E G items pre old post s
           end
  | _ => Er s ValueError
  end.
(** (536-541): erase from position [a] on. *)
Definition l_erase (E : env) (a : Z) (n : nat) (s : rst) : rr unit :=
  if (a <? 0) || (size s <? a + Z.of_nat n) then Bad OutOfBounds
  else bind (decs E (firstn n (skipn (Z.to_nat a) (elems s))) s) (fun s _ =>
       Ok (with_elems (firstn (Z.to_nat a) (elems s) ++ skipn (Z.to_nat a + n) (elems s)) s) tt).
(** (544-551): the catch clause of 566-570 releases the item. *)
Fixpoint l_inserts (E : env) (G : memory) (items : list (option Z)) (pre post : list Z) (s : rst) : rr unit :=
  match items with
  | [] => Ok (with_elems (pre ++ post) s) tt
  | None :: _ => Er (with_elems (pre ++ post) s) IndexError
  | Some o :: r =>
      let s := fetch E o s in
      if grows G (zlen pre + zlen post) (zlen pre + zlen post + 1) then l_inserts E G r (pre ++ [o]) post s
      else bind (dec E o (with_elems (pre ++ post) s)) (fun s _ => Er s RuntimeError)
  end.
(** (554-565). *)
Fixpoint l_writes (E : env) (items : list (option Z)) (index step : Z) (s : rst) : rr value :=
  match items with
  | [] => Ok s VUnit
  | i :: r =>
      if (index <? 0) || (size s <=? index) then Bad OutOfBounds
      else match nth_error (elems s) (Z.to_nat index), i with
           | None, _ => Bad OutOfBounds
           | _, None => Er s IndexError
           | Some old, Some o => bind (dec E old (fetch E o s)) (fun s _ =>
                                 l_writes E r (index + step) step (with_elems (put (Z.to_nat index) o (elems s)) s))
           end
  end.
(** (515-573). A list of the class or a list is a sequence like any other. *)
Definition source_items (src : source) : list (option Z) := match src with SFast ys => map Some ys | SItems items => items end.
Definition l_set_slice (E : env) (G : memory) (sl : slice) (seq : bool) (src : source) (s : rst) : rr value :=
  match PySlice_Unpack sl with
  | Ret (start, stop, step) =>
      if negb seq then Er s TypeError
      else let '(start, stop, sliceLength) := PySlice_AdjustIndices (size s) start stop step in
           let items := source_items src in
           bind (if zlen items <? sliceLength then
                   l_erase E (start + zlen items * step) (Z.to_nat (sliceLength - zlen items)) s
                 else if sliceLength <? zlen items then
                   if (stop <? 0) || (size s <? stop) then Bad OutOfBounds
                   else l_inserts E G (skipn (Z.to_nat sliceLength) items) (firstn (Z.to_nat stop) (elems s)) (skipn (Z.to_nat stop) (elems s)) s
                 else Ok s tt) (fun s _ => l_writes E items start step s)
  | _ => Er s ValueError
  end.
Definition set_slice (k : kind) := match k with Array => a_set_slice | Linked => l_set_slice end.

(** ** Comparing and sorting *)
(** eq, 876-907 (780-812), ne, 909-938 (814-844), and the orderings, 940-1074
    (846-984): the items of the other sequence and how comparing with each
    ends; [None]: the sequence does not give the item. [stop]: the answer after
    a comparison, if it is one. *)
Fixpoint compare (E : env) (stop : bool -> option bool) (last : bool) (xs : list Z) (items : list (option (Z * (bool + exn)))) (s : rst) : rr value :=
  match items, xs with
  | None :: _, _ :: _ => Er s IndexError
  | Some (o, c) :: r, x :: xs =>
      if alive E s x then
        bind (dec E o (fetch E o s)) (fun s _ =>
        match c with
        | inr e => Er s e
        | inl b => match stop b with Some b => give_bool E b s | None => compare E stop last xs r s end
        end)
      else Bad UseAfterFree
  | _, _ => give_bool E last s
  end.
Inductive relation := REq | RNe | ROrd.
Definition stop_of (q : relation) (b : bool) : option bool :=
  match q with REq => if b then None else Some false | RNe => if b then Some true else None | ROrd => Some b end.
Definition compare_with (E : env) (q : relation) (seq shorter : bool) (items : list (option (Z * (bool + exn)))) (s : rst) : rr value :=
  if negb seq then give_bool E (match q with RNe => true | _ => false end) s
  else if negb (zlen items =? size s) then give_bool E (match q with REq => false | RNe => true | ROrd => shorter end) s
  else compare E (stop_of q) (match q with REq => true | _ => false end) (elems s) items s.

(** sort, 417-432 (357-394), and CPython_sort, utils/include/CPythonSort.c
    1416-1441 and 1598-1631. [keys]: the results of the key function, if there
    is one; [fail]: the error of a comparison; [perm]: the order of the
    elements at the end. The linked list copies into a block of its own, does
    not keep the result of CPython_sort and returns None even if an error is
    pending, which the interpreter turns into SystemError. *)
Definition sort_items (E : env) (keys : option (list (option Z))) (fail : option exn) (perm : list Z -> list Z) (s : rst) : rr value :=
  bind (match keys with
        | None => Ok s true
        | Some ks => call_keys E (map Some (elems s)) ks [] s
        end) (fun s ok =>
  if ok then
    bind (match keys with None => Ok s tt | Some ks => decs E (somes (firstn (length (elems s)) ks)) s end) (fun s _ =>
    let s := with_elems (perm (elems s)) s in
    match fail with Some e => Er s e | None => give E (none E) s end)
  else Er s (UserError 0)).
Definition sort (k : kind) (E : env) (block : bool) (keys : option (list (option Z))) (fail : option exn) (perm : list Z -> list Z) (s : rst) : rr value :=
  match k with
  | Array => sort_items E keys fail perm s
  | Linked => if block then
                match sort_items E keys fail perm s with
                | Ok s _ => give E (none E) s
                | Er s _ => bind (give E (none E) s) (fun s v => bind (drop E v s) (fun s _ => Er s SystemError))
                | r => r
                end
              else Er s MemoryError
  end.

(** ** Iterators *)
(** next of ObjectArrayListIter.cpp 36-73 and ObjectLinkedListIter.cpp 55-96,
    with the position of the element returned. Creation is that of the integer
    lists (ObjectArrayListIter.cpp 14-34, ObjectLinkedListIter.cpp 15-38). *)
Definition next (E : env) (i : Z) (s : rst) : rr value :=
  match nth_error (elems s) (Z.to_nat i) with None => Er s StopIteration | Some o => give E o s end.

(** ** Calls *)
Inductive call :=
  | OInitSame (h : Z) (ys : list Z) | OInitSeq (h : Z) (q : Z) (items : list Z) | OInitIter (h : Z) (a : iterable)
  | OAppend (o : Z) | OInsert (i o : Z) | OPop (i : option Z) | ORemove (o : Z) | OSearch (f : list Z -> option Z)
  | OGet (i : Z) | OSet (i o : Z) | ODel (i : Z)
  | OExtendFast (ys : list Z) | OExtendIter (h : Z + exn) (a : iterable)
  | OIAddFast (ys : list Z) | OIAddIter (h : Z + exn) (a : iterable)
  | OClear | OReverse | OResize (n : Z)
  | OToList | OGetSlice (sl : slice) | OCopy | OMul (n : Z) | OIMul (n : Z) | OAdd (other : option (list Z)) | OAddSame
  | OSetSlice (sl : slice) (seq : bool) (src : source)
  | OCompare (q : relation) (seq shorter : bool) (items : list (option (Z * (bool + exn))))
  | OSort (block : bool) (keys : option (list (option Z))) (fail : option exn) (perm : list Z -> list Z)
  | OIter | ONext (i : Z).

Definition run (k : kind) (E : env) (G : memory) (c : call) (s : rst) : rr value :=
  match c with
  | OInitSame h ys => init k G h (init_same G ys) s
  | OInitSeq h q items => init k G h (init_seq k E G q items) s
  | OInitIter h a => init k G h (init_iter E G a) s
  | OAppend o => append E G o s
  | OInsert i o => insert E G i o s
  | OPop i => pop k i s
  | ORemove o => remove E o s
  | OSearch f => search E f s
  | OGet i => get E i s
  | OSet i o => set E i (Some o) s
  | ODel i => set E i None s
  | OExtendFast ys => extend_fast E G ys s
  | OExtendIter h a => extend_iter k E G h a (none E) s
  | OIAddFast ys => extend_fast E G ys s
  | OIAddIter h a => extend_iter k E G h a (self E) s
  | OClear => clear E s
  | OReverse => reverse E s
  | OResize n => resize E G n s
  | OToList => listed E (elems s) s
  | OGetSlice sl => get_slice E sl s
  | OCopy => copy E G s
  | OMul n => mul k E G n s
  | OIMul n => imul k E G n s
  | OAdd other => add E other s
  | OAddSame => add_same E s
  | OSetSlice sl seq src => set_slice k E G sl seq src s
  | OCompare q seq shorter items => compare_with E q seq shorter items s
  | OSort block keys fail perm => sort k E block keys fail perm s
  | OIter => make_iter E s
  | ONext i => next E i s
  end.

(** A program: calls, each with the memory it meets; the result is dropped at
    once. *)
Fixpoint session (k : kind) (E : env) (cs : list (memory * call)) (s : rst) : rr unit :=
  match cs with
  | [] => Ok s tt
  | (G, c) :: r => match run k E G c s with
                   | Ok s v => bind (drop E v s) (fun s _ => session k E r s)
                   | Er s _ => session k E r s
                   | Bad u => Bad u
                   | Killed => Killed
                   end
  end.
(** dealloc, 103-109 (83-89). *)
Definition dealloc (E : env) (s : rst) : rr unit := bind (decs E (elems s) s) (fun s _ => Ok (with_elems [] s) tt).
