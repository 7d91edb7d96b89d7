(** Comparison and repr of the object lists once more (objects/ObjectArrayList.cpp
    876-1133, objects/ObjectLinkedList.cpp 780-1044), with what the items'
    methods and the right operand's methods may do meanwhile: they are Python
    code, which may call methods of the list and drop references.

    A program state is the container and everything else. User code is an
    arbitrary function of the state. Objects are numbers; [w_alive s o]: apart
    from references held by the running call itself, something refers to [o].
    The elements of the list are borrowed by the comparison; the item of the
    right operand is held. Methods are taken to be written in Python (they hold
    their operands until they return) and to return; recursion limits and
    failing allocations are left out. *)
From Coq Require Import ZArith List Bool Arith.
From Verif Require Import Base ArrayListModel ArrayListMoreModel StdListModel.
Import ListNotations.
Local Open Scope Z_scope.

Section World.
Context {C X : Type}.

(** The Python side of a run: liveness, the right operand's PySequence_Size and
    PySequence_GetItem, whether the class of the second object is a proper
    subclass of the class of the first, the comparison methods ([None]:
    NotImplemented; [Some t]: a result whose truth value is [t]), the
    finalizers, and repr. *)
Record world := {
  w_alive : C * X -> Z -> bool;
  w_len : C * X -> outcome Z * (C * X);
  w_get : Z -> C * X -> outcome Z * (C * X);
  w_sub : Z -> Z -> bool;
  w_call : cmp_op -> Z -> Z -> C * X -> outcome (option (C * X -> outcome bool * (C * X))) * (C * X);
  w_fin : Z -> C * X -> C * X;
  w_repr : Z -> C * X -> outcome (list Z) * (C * X)
}.

Definition then_ {A B} (r : outcome A * (C * X)) (f : A -> C * X -> outcome B * (C * X)) : outcome B * (C * X) :=
  match fst r with
  | Ret a => f a (snd r)
  | Raise e | RetPending _ e => (Raise e, snd r)
  | Undef u => (Undef u, snd r)
  end.

(** Reading the object [o]. *)
Definition touch {A} (u : world) (o : Z) (s : C * X) (k : C * X -> outcome A * (C * X)) : outcome A * (C * X) :=
  if w_alive u s o then k s else (Undef UseAfterFree, s).
(** SAFE_DECREF of a held reference: the last one runs the finalizer. *)
Definition drop (u : world) (o : Z) (s : C * X) : C * X := if w_alive u s o then s else w_fin u o s.

(** CPython's do_richcompare (Objects/object.c), one method call: its answer,
    or what follows when it is NotImplemented. *)
Definition ask (u : world) (c : cmp_op) (a b : Z) (s : C * X) (k : C * X -> outcome bool * (C * X)) : outcome bool * (C * X) :=
  then_ (w_call u c a b s) (fun r s => match r with Some t => t s | None => k s end).
Definition swapped (c : cmp_op) : cmp_op :=
  match c with Lt_ => Gt_ | Le_ => Ge_ | Gt_ => Lt_ | Ge_ => Le_ | _ => c end.
(** Nobody answered: identity for == and !=, else TypeError naming the types. *)
Definition unanswered (u : world) (c : cmp_op) (v w : Z) (s : C * X) : outcome bool * (C * X) :=
  match c with
  | Eq_ => (Ret (v =? w), s)
  | Ne_ => (Ret (negb (v =? w)), s)
  | _ => touch u v s (fun s => (Raise TypeError, s))
  end.
(** do_richcompare(v, w, c): the class of [v] is read first; a subclass on the
    right is asked first. [w] is held by the caller. *)
Definition do_rich (u : world) (c : cmp_op) (v w : Z) (s : C * X) : outcome bool * (C * X) :=
  touch u v s (fun s =>
  if w_sub u v w then
    ask u (swapped c) w v s (fun s => touch u v s (fun s =>
    ask u c v w s (unanswered u c v w)))
  else
    ask u c v w s (fun s => touch u v s (fun s =>
    ask u (swapped c) w v s (unanswered u c v w)))).
(** PyObject_RichCompareBool. *)
Definition rich (u : world) (c : cmp_op) (v w : Z) (s : C * X) : outcome bool * (C * X) :=
  match c with
  | Eq_ => if v =? w then (Ret true, s) else do_rich u c v w s
  | Ne_ => if v =? w then (Ret false, s) else do_rich u c v w s
  | _ => do_rich u c v w s
  end.

(** The comparison of one pair, and the release of the item whatever it
    answered (ObjectArrayList.cpp 895-896, 926-927, 961-962). *)
Definition pair (u : world) (c : cmp_op) (v w : Z) (s : C * X) : outcome bool * (C * X) :=
  match rich u c v w s with
  | (Undef e, s) => (Undef e, s)
  | (r, s) => (r, drop u w s)
  end.

(** Whether the loop of == (!=) goes on after an answer. *)
Definition goes_on (c : cmp_op) (b : bool) : bool := match c with Eq_ => b | _ => negb b end.
(** What == (!=) answers at the end of the loop; the opposite otherwise. *)
Definition all_same (c : cmp_op) : bool := match c with Eq_ => true | _ => false end.
Definition size_of (u : world) (s : C * X) : (Z * option exn) * (C * X) :=
  let '(r, s) := w_len u s in (seq_size r, s).
End World.
Arguments world : clear implicits.

(** ** ObjectArrayList *)
Section Array.
Context {X : Type}.
Notation st := (list Z * X)%type.

(** Loops of ObjectArrayList_eq, 886-904, and _ne, 920-934: the element is read
    after the item of the right operand. *)
Fixpoint a_loop (u : world (list Z) X) (c : cmp_op) (n i : nat) (s : st) : outcome bool * st :=
  match n with
  | O => (Ret (all_same c), s)
  | S m =>
      then_ (w_get u (Z.of_nat i) s) (fun item s =>
      match nth_error (fst s) i with
      | None => (Undef OutOfBounds, s)
      | Some x =>
          then_ (pair u c x item s) (fun b s =>
          if goes_on c b then a_loop u c m (S i) s else (Ret (negb (all_same c)), s))
      end)
  end.
(** ObjectArrayList_eq, 876-907, and _ne, 909-938, of a sequence. *)
Definition a_eqne (u : world (list Z) X) (c : cmp_op) (s : st) : outcome bool * st :=
  let '((n, pend), s) := size_of u s in
  if negb (n =? zlen (fst s)) then (ret_bool (negb (all_same c)) pend, s)
  else a_loop u c (Z.to_nat n) 0 s.
(** ObjectArrayList_lt 940-972, _le 974-1006, _gt 1008-1040, _ge 1042-1074: the
    loop returns in its first round. *)
Definition a_ordc (u : world (list Z) X) (c : cmp_op) (s : st) : outcome bool * st :=
  then_ (w_len u s) (fun n s =>
  if negb (zlen (fst s) =? n) then (Ret (zlen (fst s) <? n), s)
  else if 0 <? n then
    then_ (w_get u 0 s) (fun item s =>
    match nth_error (fst s) 0 with
    | None => (Undef OutOfBounds, s)
    | Some x => pair u c x item s
    end)
  else (Ret false, s)).
(** ObjectArrayList_compare, 1076-1094. *)
Definition a_comp (u : world (list Z) X) (c : cmp_op) (s : st) : outcome bool * st :=
  match c with Eq_ | Ne_ => a_eqne u c s | _ => a_ordc u c s end.

(** ObjectArrayList_repr, 1116-1132, after at most [n] rounds ([None]: not
    finished): the bound [vec.size() - 1] is computed in every round, in size_t,
    so that it is the largest one for an empty vector. *)
Fixpoint a_repr_loop (u : world (list Z) X) (n i : nat) (acc : list Z) (s : st) : option (outcome (list Z) * st) :=
  match n with
  | O => None
  | S m =>
      let len := List.length (fst s) in
      if match len with O => true | S l => Nat.ltb i l end then
        match nth_error (fst s) i with
        | None => Some (Undef OutOfBounds, s)
        | Some x =>
            match w_repr u x s with
            | (Ret t, s) => a_repr_loop u m (S i) ((acc ++ t) ++ [44; 32]) s
            | (Raise e, s) | (RetPending _ e, s) => Some (Raise e, s)
            | (Undef e, s) => Some (Undef e, s)
            end
        end
      else
        match nth_error (fst s) (len - 1) with
        | None => Some (Undef OutOfBounds, s)
        | Some x => Some (then_ (w_repr u x s) (fun t s => (Ret ((acc ++ t) ++ [93]), s)))
        end
  end.
(** ObjectArrayList_repr, 1102-1133. *)
Definition a_repr_u (u : world (list Z) X) (n : nat) (s : st) : option (outcome (list Z) * st) :=
  match fst s with
  | [] => Some (Ret [91; 93], s)
  | _ => a_repr_loop u n 0 [91] s
  end.
End Array.

(** ** ObjectLinkedList *)
Section Linked.
Context {X : Type}.
Notation st := (slist Z * X)%type.

(** Loops of ObjectLinkedList_eq, 790-809, and _ne, 826-841: the iterator is
    advanced after every pair, the last one included. *)
Fixpoint l_loop (u : world (slist Z) X) (c : cmp_op) (n i : nat) (it : iterator) (s : st) : outcome bool * st :=
  match n with
  | O => (Ret (all_same c), s)
  | S m =>
      then_ (w_get u (Z.of_nat i) s) (fun item s =>
      then_ (deref (fst s) it, s) (fun x s =>
      then_ (pair u c x item s) (fun b s =>
      if goes_on c b then then_ (it_next (fst s) it, s) (fun nx s => l_loop u c m (S i) nx s)
      else (Ret (negb (all_same c)), s))))
  end.
(** ObjectLinkedList_eq, 780-812, and _ne, 814-844, of a sequence. *)
Definition l_eqne (u : world (slist Z) X) (c : cmp_op) (s : st) : outcome bool * st :=
  let '((n, pend), s) := size_of u s in
  if negb (n =? Z.of_nat (size (fst s))) then (ret_bool (negb (all_same c)) pend, s)
  else l_loop u c (Z.to_nat n) 0 (begin_ (fst s)) s.
(** ObjectLinkedList_lt, _le, _gt, _ge, 846-984: begin() is taken before the
    item is read. *)
Definition l_ordc (u : world (slist Z) X) (c : cmp_op) (s : st) : outcome bool * st :=
  then_ (w_len u s) (fun n s =>
  if negb (Z.of_nat (size (fst s)) =? n) then (Ret (Z.of_nat (size (fst s)) <? n), s)
  else if 0 <? n then
    let it := begin_ (fst s) in
    then_ (w_get u 0 s) (fun item s =>
    then_ (deref (fst s) it, s) (fun x s => pair u c x item s))
  else (Ret false, s)).
(** ObjectLinkedList_compare, 986-1004. *)
Definition l_comp (u : world (slist Z) X) (c : cmp_op) (s : st) : outcome bool * st :=
  match c with Eq_ | Ne_ => l_eqne u c s | _ => l_ordc u c s end.

(** ObjectLinkedList_repr, 1026-1043: the iterator is advanced after every
    item, the last item is read through back(). *)
Fixpoint l_repr_loop (u : world (slist Z) X) (n i : nat) (it : iterator) (acc : list Z) (s : st) : option (outcome (list Z) * st) :=
  match n with
  | O => None
  | S m =>
      let len := size (fst s) in
      if match len with O => true | S l => Nat.ltb i l end then
        match deref (fst s) it with
        | Ret x =>
            match w_repr u x s with
            | (Ret t, s) =>
                match it_next (fst s) it with
                | Ret nx => l_repr_loop u m (S i) nx ((acc ++ t) ++ [44; 32]) s
                | Undef e => Some (Undef e, s)
                | _ => Some (Undef NullDeref, s)
                end
            | (Raise e, s) | (RetPending _ e, s) => Some (Raise e, s)
            | (Undef e, s) => Some (Undef e, s)
            end
        | Undef e => Some (Undef e, s)
        | _ => Some (Undef NullDeref, s)
        end
      else
        Some (then_ (back (fst s), s) (fun x s => then_ (w_repr u x s) (fun t s => (Ret ((acc ++ t) ++ [93]), s))))
  end.
(** ObjectLinkedList_repr, 1012-1044. *)
Definition l_repr_u (u : world (slist Z) X) (n : nat) (s : st) : option (outcome (list Z) * st) :=
  match nodes (fst s) with
  | [] => Some (Ret [91; 93], s)
  | _ => l_repr_loop u n 0 (begin_ (fst s)) [91] s
  end.
End Linked.
