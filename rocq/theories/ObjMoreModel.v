(** objects/ObjectArrayList.cpp and objects/ObjectLinkedList.cpp, continued:
    comparison, repr and the iterators (objects/ObjectArrayListIter.cpp,
    objects/ObjectLinkedListIter.cpp). *)
From Coq Require Import ZArith List Bool.
From Verif Require Import Base PyListSpec ArrayListModel ArrayListMoreModel StdListModel LinkedListModel ObjModel.
Import ListNotations.
Local Open Scope Z_scope.

(** PyObject_RichCompare followed by the truth value of its result, for two
    objects: what the [t]-th comparison of the program answers. *)
Definition oracle := nat -> cmp_op -> Z -> Z -> outcome bool.

(** PyObject_RichCompareBool: an object is equal to itself, without asking. *)
Definition rich_bool (cmp : oracle) (t : nat) (c : cmp_op) (x y : Z) : outcome bool :=
  match c with
  | Eq_ => if x =? y then Ret true else cmp t c x y
  | Ne_ => if x =? y then Ret false else cmp t c x y
  | _ => cmp t c x y
  end.

(** The right operand: not a sequence, or what PySequence_Size and
    PySequence_GetItem answer. The reference to an item is released again
    after its comparison, so counts are left out here. *)
Inductive ocmp_arg :=
| ONotSeq
| OSeq (len : outcome Z) (get : Z -> outcome Z).
Definition oseq (ys : list Z) : ocmp_arg :=
  OSeq (Ret (zlen ys)) (fun i => match znth ys i with Some o => Ret o | None => Raise IndexError end).

(** ** ObjectArrayList *)
(** Comparisons run Python code, which may change the list: [now t] are the
    contents after the [t]-th comparison. *)
Definition history := nat -> list Z.

(** Loop of ObjectArrayList_eq, 886-904, and _ne, 920-934. [i] counts the
    comparisons made. *)
Fixpoint a_eq_loop (cmp : oracle) (now : history) (get : Z -> outcome Z) (n : nat) (i : nat) (s : list Z) : outcome bool :=
  match n with
  | O => Ret true
  | S m =>
      obind (get (Z.of_nat i)) (fun item =>
      obind (or_ub OutOfBounds (znth s (Z.of_nat i))) (fun x =>
      obind (rich_bool cmp i Eq_ x item) (fun b =>
      if b then a_eq_loop cmp now get m (S i) (now i) else Ret false)))
  end.
Fixpoint a_ne_loop (cmp : oracle) (now : history) (get : Z -> outcome Z) (n : nat) (i : nat) (s : list Z) : outcome bool :=
  match n with
  | O => Ret false
  | S m =>
      obind (get (Z.of_nat i)) (fun item =>
      obind (or_ub OutOfBounds (znth s (Z.of_nat i))) (fun x =>
      obind (rich_bool cmp i Ne_ x item) (fun b =>
      if b then Ret true else a_ne_loop cmp now get m (S i) (now i))))
  end.

(** ObjectArrayList_eq, 876-907, and _ne, 909-938: an error of PySequence_Size
    is left pending behind the answer for different lengths. *)
Definition a_eq (cmp : oracle) (now : history) (a : ocmp_arg) (s : list Z) : outcome bool :=
  match a with
  | ONotSeq => Ret false
  | OSeq len get =>
      let '(n, pend) := seq_size len in
      if negb (n =? zlen s) then ret_bool false pend else a_eq_loop cmp now get (Z.to_nat n) 0 s
  end.
Definition a_ne (cmp : oracle) (now : history) (a : ocmp_arg) (s : list Z) : outcome bool :=
  match a with
  | ONotSeq => Ret true
  | OSeq len get =>
      let '(n, pend) := seq_size len in
      if negb (n =? zlen s) then ret_bool true pend else a_ne_loop cmp now get (Z.to_nat n) 0 s
  end.

(** ObjectArrayList_lt 940-972, _le 974-1006, _gt 1008-1040, _ge 1042-1074: the
    same text but for the operator; the loop returns in its first round. *)
Definition a_ord (cmp : oracle) (c : cmp_op) (a : ocmp_arg) (s : list Z) : outcome bool :=
  match a with
  | ONotSeq => Ret false
  | OSeq len get =>
      obind len (fun n =>
      if negb (zlen s =? n) then Ret (zlen s <? n)
      else if 0 <? n then
        obind (get 0) (fun item =>
        obind (or_ub OutOfBounds (znth s 0)) (fun x => rich_bool cmp 0 c x item))
      else Ret false)
  end.

(** ObjectArrayList_compare, 1076-1094. *)
Definition a_compare (cmp : oracle) (now : history) (c : cmp_op) (a : ocmp_arg) (s : list Z) : outcome bool :=
  match c with
  | Eq_ => a_eq cmp now a s
  | Ne_ => a_ne cmp now a s
  | _ => a_ord cmp c a s
  end.

(** ** ObjectLinkedList *)
Definition lhistory := nat -> slist Z.
(** Loops of ObjectLinkedList_eq, 790-812, and _ne, 826-841. *)
Fixpoint l_eq_loop (cmp : oracle) (now : lhistory) (get : Z -> outcome Z) (n : nat) (i : nat) (it : iterator) (s : slist Z) : outcome bool :=
  match n with
  | O => Ret true
  | S m =>
      obind (get (Z.of_nat i)) (fun item =>
      obind (deref s it) (fun x =>
      obind (rich_bool cmp i Eq_ x item) (fun b =>
      if b then obind (it_next (now i) it) (fun nx => l_eq_loop cmp now get m (S i) nx (now i)) else Ret false)))
  end.
Fixpoint l_ne_loop (cmp : oracle) (now : lhistory) (get : Z -> outcome Z) (n : nat) (i : nat) (it : iterator) (s : slist Z) : outcome bool :=
  match n with
  | O => Ret false
  | S m =>
      obind (get (Z.of_nat i)) (fun item =>
      obind (deref s it) (fun x =>
      obind (rich_bool cmp i Ne_ x item) (fun b =>
      if b then Ret true else obind (it_next (now i) it) (fun nx => l_ne_loop cmp now get m (S i) nx (now i)))))
  end.

(** ObjectLinkedList_eq, 780-812; _ne, 814-844; _lt, _le, _gt, _ge, 846-984;
    _compare, 986-1004. *)
Definition l_compare (cmp : oracle) (now : lhistory) (c : cmp_op) (a : ocmp_arg) (l : ll) : outcome bool :=
  match a with
  | ONotSeq => Ret match c with Ne_ => true | _ => false end
  | OSeq len get =>
      let s := lst l in
      match c with
      | Eq_ =>
          let '(n, pend) := seq_size len in
          if negb (n =? lsize l) then ret_bool false pend else l_eq_loop cmp now get (Z.to_nat n) 0 (begin_ s) s
      | Ne_ =>
          let '(n, pend) := seq_size len in
          if negb (n =? lsize l) then ret_bool true pend else l_ne_loop cmp now get (Z.to_nat n) 0 (begin_ s) s
      | _ =>
          obind len (fun n =>
          if negb (lsize l =? n) then Ret (lsize l <? n)
          else if 0 <? n then
            obind (get 0) (fun item =>
            obind (deref s (begin_ s)) (fun x => rich_bool cmp 0 c x item))
          else Ret false)
      end
  end.

(** ** repr *)
(** PyUnicode_AppendAndDel: a null argument on either side gives null. *)
Definition append_del (left right : option (list Z)) : option (list Z) :=
  match left, right with Some a, Some b => Some (a ++ b) | _, _ => None end.

(** Loop of ObjectArrayList_repr, 1116-1126, over all elements but the last.
    [text o]: PyObject_Repr of [o], as character codes. *)
Fixpoint repr_init (text : Z -> outcome (list Z)) (n : nat) (i : Z) (s : list Z) (acc : list Z) : outcome (list Z) :=
  match n with
  | O => Ret acc
  | S m =>
      obind (or_ub OutOfBounds (znth s i)) (fun o =>
      obind (text o) (fun t => repr_init text m (i + 1) s ((acc ++ t) ++ [44; 32])))
  end.
(** The last element, 1128-1130: a failed repr makes the result null. *)
Definition repr_last (acc : list Z) (t : outcome (list Z)) : outcome (list Z) :=
  match t with
  | Ret t => match append_del (append_del (Some acc) (Some t)) (Some [93]) with Some r => Ret r | None => Raise SystemError end
  | Raise e => match append_del (append_del (Some acc) None) (Some [93]) with Some r => RetPending r e | None => Raise e end
  | RetPending _ e => Raise e
  | Undef u => Undef u
  end.
(** ObjectArrayList_repr, 1102-1133 (and str, 1135-1137). *)
Definition a_repr (text : Z -> outcome (list Z)) (s : list Z) : outcome (list Z) :=
  match s with
  | [] => Ret [91; 93]
  | _ =>
      obind (repr_init text (length s - 1) 0 s [91]) (fun acc =>
      obind (or_ub OutOfBounds (znth s (zlen s - 1))) (fun o => repr_last acc (text o)))
  end.
(** ObjectLinkedList_repr, 1012-1044: the last element through back(). *)
Fixpoint l_repr_init (text : Z -> outcome (list Z)) (n : nat) (it : iterator) (s : slist Z) (acc : list Z) : outcome (list Z) :=
  match n with
  | O => Ret acc
  | S m =>
      obind (deref s it) (fun o => obind (text o) (fun t =>
      obind (it_next s it) (fun nx => l_repr_init text m nx s ((acc ++ t) ++ [44; 32]))))
  end.
Definition l_repr (text : Z -> outcome (list Z)) (l : ll) : outcome (list Z) :=
  match nodes (lst l) with
  | [] => Ret [91; 93]
  | _ =>
      obind (l_repr_init text (size (lst l) - 1) (begin_ (lst l)) (lst l) [91]) (fun acc =>
      obind (back (lst l)) (fun o => repr_last acc (text o)))
  end.

(** ** Iterators *)
(** ObjectArrayListIter_next (ObjectArrayListIter.cpp 37-74) and
    ObjectLinkedListIter_next (ObjectLinkedListIter.cpp 55-97): the text of the
    integer iterators, with Py_INCREF of the element; create is the same. *)
Definition handed {I} (r : outcome Z * I) (rc : counts) : outcome Z * (I * counts) :=
  let '(x, it) := r in
  match x with
  | Ret o => match incref o rc with
             | Ret rc' => (Ret o, (it, rc'))
             | Undef u => (Undef u, (it, rc))
             | _ => (Undef NullDeref, (it, rc))
             end
  | _ => (x, (it, rc))
  end.
Definition oa_next (it : iter) (s : list Z) (rc : counts) := handed (iter_next it s) rc.
Definition ol_next (it : liter) (l : ll) (rc : counts) := handed (liter_next it l) rc.

(** Successive next() calls on the list states of those moments, with the
    counts they leave. *)
Fixpoint oa_run (it : iter) (vs : list (list Z)) (rc : counts) : list (outcome Z) * counts :=
  match vs with
  | [] => ([], rc)
  | s :: r => let '(x, (it', rc')) := oa_next it s rc in
              let '(xs, rc'') := oa_run it' r rc' in (x :: xs, rc'')
  end.
Fixpoint ol_run (it : liter) (ls : list ll) (rc : counts) : list (outcome Z) * counts :=
  match ls with
  | [] => ([], rc)
  | l :: r => let '(x, (it', rc')) := ol_next it l rc in
              let '(xs, rc'') := ol_run it' r rc' in (x :: xs, rc'')
  end.
