(** What the comparison of an object list should be while the items' methods run
    user code: CPython's list comparison (Objects/listobject.c,
    list_richcompare), which holds both items of a pair during their comparison
    and looks at both sizes again before every pair. [world], a run's Python
    side, and [drop], the release of a held reference, come from the model. *)
From Coq Require Import ZArith List Bool Arith.
From Verif Require Import Base PyListSpec ArrayListModel ArrayListMoreModel StdListModel StdListProofs CompareModel LinkedReentrantSpec.
Import ListNotations.
Local Open Scope Z_scope.

Definition defined {A} (o : outcome A) : Prop := forall u, o <> Undef u.
Definition ordering (c : cmp_op) : Prop := c <> Eq_ /\ c <> Ne_.

Section Spec.
Context {C X : Type}.
Context (u : world C X).
Implicit Types s : C * X.

(** What [v c w] is as a question about [w]: [v < w] is [w > v] (Python
    reference, 3.3.1). *)
Definition reflected (c : cmp_op) : cmp_op :=
  match c with Lt_ => Gt_ | Gt_ => Lt_ | Le_ => Ge_ | Ge_ => Le_ | Eq_ => Eq_ | Ne_ => Ne_ end.
(** The methods asked about [v c w], in order, and the answer when all of them
    return NotImplemented. *)
Definition questions (c : cmp_op) (v w : Z) : list (cmp_op * Z * Z) :=
  if w_sub u v w then [(reflected c, w, v); (c, v, w)] else [(c, v, w); (reflected c, w, v)].
Definition by_default (c : cmp_op) (v w : Z) : outcome bool :=
  match c with Eq_ => Ret (v =? w) | Ne_ => Ret (negb (v =? w)) | _ => Raise TypeError end.
Fixpoint ask_all (qs : list (cmp_op * Z * Z)) (d : outcome bool) s : outcome bool * (C * X) :=
  match qs with
  | [] => (d, s)
  | (c, a, b) :: r =>
      match w_call u c a b s with
      | (Ret (Some t), s') => t s'
      | (Ret None, s') => ask_all r d s'
      | (Raise e, s') | (RetPending _ e, s') => (Raise e, s')
      | (Undef e, s') => (Undef e, s')
      end
  end.
(** An object is equal to itself without being asked; orderings are asked. *)
Definition shortcut (c : cmp_op) (v w : Z) : Prop := ~ ordering c /\ v = w.
(** [v c w] with both operands held. *)
Definition py_rich (c : cmp_op) (v w : Z) s : outcome bool * (C * X) :=
  match c, v =? w with
  | Eq_, true => (Ret true, s)
  | Ne_, true => (Ret false, s)
  | _, _ => ask_all (questions c v w) (by_default c v w) s
  end.

(** With [v] borrowed: [v] is looked at before every question, and once more
    for the text of the TypeError. *)
Inductive stale (c : cmp_op) (v : Z) : list (cmp_op * Z * Z) -> C * X -> Prop :=
| stale_now : forall qs s, qs <> [] \/ ordering c -> w_alive u s v = false -> stale c v qs s
| stale_later : forall c' a b r s s', w_call u c' a b s = (Ret None, s') -> stale c v r s' -> stale c v ((c', a, b) :: r) s.
Definition read_dead (c : cmp_op) (v w : Z) s : Prop := ~ shortcut c v w /\ stale c v (questions c v w) s.

(** One piece of user code takes [s] to [s']. *)
Inductive runs : C * X -> C * X -> Prop :=
| run_len : forall s, runs s (snd (w_len u s))
| run_get : forall i s, runs s (snd (w_get u i s))
| run_call : forall c a b s, runs s (snd (w_call u c a b s))
| run_truth : forall c a b s0 t s1 s, w_call u c a b s0 = (Ret (Some t), s1) -> runs s (snd (t s))
| run_fin : forall o s, runs s (w_fin u o s)
| run_repr : forall o s, runs s (snd (w_repr u o s)).
Definition keeps (R : C * X -> C * X -> Prop) : Prop := forall s s', runs s s' -> R s s'.
(** Every piece of user code returns or raises. *)
Definition ends {A} (o : outcome A) : Prop := (exists a, o = Ret a) \/ (exists e, o = Raise e).
Definition returns : Prop :=
  (forall s, ends (fst (w_len u s))) /\ (forall i s, ends (fst (w_get u i s))) /\
  (forall c a b s, ends (fst (w_call u c a b s))) /\
  (forall c a b s0 t s1 s, w_call u c a b s0 = (Ret (Some t), s1) -> ends (fst (t s))) /\
  (forall o s, ends (fst (w_repr u o s))).
(** Nothing dies between two states. *)
Definition nothing_dies s s' : Prop := forall o, w_alive u s o = true -> w_alive u s' o = true.

(** [!=] is the opposite of [==], as object.__ne__ makes it. *)
Definition opposite (r : outcome (option (C * X -> outcome bool * (C * X))) * (C * X)) :=
  match r with
  | (Ret (Some t), s) => (Ret (Some (fun s => (omap negb (fst (t s)), snd (t s)))), s)
  | _ => r
  end.
Definition ne_is_not_eq : Prop := forall a b s, w_call u Ne_ a b s = opposite (w_call u Eq_ a b s).

(** The lists being compared, in a state. *)
Context (mine peer : C * X -> list Z).
(** The right operand is a Python list. *)
Definition list_operand : Prop :=
  (forall s, w_len u s = (Ret (zlen (peer s)), s)) /\
  (forall i s, w_get u (Z.of_nat i) s = (match nth_error (peer s) i with Some w => Ret w | None => Raise IndexError end, s)).
(** Lists refer to their items. *)
Definition items_alive : Prop := forall s o, In o (mine s) -> w_alive u s o = true.
Definition peers_alive : Prop := forall s o, In o (peer s) -> w_alive u s o = true.

(** list_richcompare from pair [i] on, for ==. *)
Inductive walks : nat -> C * X -> outcome bool -> C * X -> Prop :=
| wk_end : forall i s, (List.length (mine s) <= i \/ List.length (peer s) <= i)%nat ->
    walks i s (Ret (List.length (mine s) =? List.length (peer s))%nat) s
| wk_same : forall i s v r s', nth_error (mine s) i = Some v -> nth_error (peer s) i = Some v ->
    walks (S i) s r s' -> walks i s r s'
| wk_equal : forall i s v w s1 r s', nth_error (mine s) i = Some v -> nth_error (peer s) i = Some w -> v <> w ->
    py_rich Eq_ v w s = (Ret true, s1) -> walks (S i) (drop u w (drop u v s1)) r s' -> walks i s r s'
| wk_differ : forall i s v w s1, nth_error (mine s) i = Some v -> nth_error (peer s) i = Some w -> v <> w ->
    py_rich Eq_ v w s = (Ret false, s1) -> walks i s (Ret false) (drop u w (drop u v s1))
| wk_raise : forall i s v w s1 e, nth_error (mine s) i = Some v -> nth_error (peer s) i = Some w -> v <> w ->
    py_rich Eq_ v w s = (Raise e, s1) -> walks i s (Raise e) (drop u w (drop u v s1)).
(** [mine == peer] and [mine != peer] of Python lists. *)
Inductive py_equals : C * X -> outcome bool -> C * X -> Prop :=
| eq_sizes : forall s, List.length (mine s) <> List.length (peer s) -> py_equals s (Ret false) s
| eq_walk : forall s r s', List.length (mine s) = List.length (peer s) -> walks 0 s r s' -> py_equals s r s'.
Definition py_compares (c : cmp_op) s (r : outcome bool) s' : Prop :=
  match c with
  | Eq_ => py_equals s r s'
  | Ne_ => exists b, py_equals s b s' /\ r = omap negb b
  | _ => False
  end.

(** repr(list), list_repr: the size is looked at before every item. [acc] is
    the text so far. *)
Inductive spells : nat -> list Z -> C * X -> outcome (list Z) -> C * X -> Prop :=
| sp_end : forall i acc s, (List.length (mine s) <= i)%nat -> spells i acc s (Ret (acc ++ [93])) s
| sp_item : forall i acc s o t s1 r s', nth_error (mine s) i = Some o -> w_repr u o s = (Ret t, s1) ->
    spells (S i) (acc ++ (if Nat.eqb i 0 then [] else [44; 32]) ++ t) s1 r s' -> spells i acc s r s'
| sp_raise : forall i acc s o e s1, nth_error (mine s) i = Some o -> w_repr u o s = (Raise e, s1) ->
    spells i acc s (Raise e) s1.
Definition py_spells s (r : outcome (list Z)) s' : Prop := spells 0 [91] s r s'.
End Spec.

(** ** The array list *)
Section Array.
Context {X : Type}.
Context (u : world (list Z) X).
Implicit Types s : list Z * X.

(** [i] pairs were compared from [s], every answer letting the loop of [c] go
    on, with every left operand alive when it was looked at. *)
Inductive reached (c : cmp_op) : nat -> list Z * X -> list Z * X -> Prop :=
| rc_start : forall s, reached c 0 s s
| rc_pair : forall i s s1 w s2 v s3, reached c i s s1 -> w_get u (Z.of_nat i) s1 = (Ret w, s2) ->
    nth_error (fst s2) i = Some v -> ~ read_dead u c v w s2 ->
    py_rich u c v w s2 = (Ret (all_same c), s3) -> reached c (S i) s (drop u w s3).
(** The pair [i] from state [s] cannot be read or compared. *)
Inductive falls (c : cmp_op) (i : nat) : list Z * X -> ub -> Prop :=
| fl_short : forall s w s1, w_get u (Z.of_nat i) s = (Ret w, s1) -> (List.length (fst s1) <= i)%nat -> falls c i s OutOfBounds
| fl_dead : forall s w s1 v, w_get u (Z.of_nat i) s = (Ret w, s1) -> nth_error (fst s1) i = Some v ->
    read_dead u c v w s1 -> falls c i s UseAfterFree.
(** [i] items, never the last one, were printed from [s], every [__repr__]
    returning. *)
Inductive printed : nat -> list Z * X -> list Z * X -> Prop :=
| pr_start : forall s, printed 0 s s
| pr_item : forall i s s1 o t s2, printed i s s1 -> (S i < List.length (fst s1))%nat -> nth_error (fst s1) i = Some o ->
    w_repr u o s1 = (Ret t, s2) -> printed (S i) s s2.
Definition same_length s s' : Prop := List.length (fst s') = List.length (fst s).
Definition no_shorter s s' : Prop := (List.length (fst s) <= List.length (fst s'))%nat.
End Array.

(** ** The linked list *)
Section Linked.
Context {X : Type}.
Context (u : world (slist Z) X).
Implicit Types s : slist Z * X.

Inductive lreached (c : cmp_op) : nat -> slist Z * X -> iterator -> slist Z * X -> Prop :=
| lr_start : forall s, lreached c 0 s (begin_ (fst s)) s
| lr_pair : forall i s it s1 w s2 v s3 nx, lreached c i s it s1 -> w_get u (Z.of_nat i) s1 = (Ret w, s2) ->
    deref (fst s2) it = Ret v -> ~ read_dead u c v w s2 ->
    py_rich u c v w s2 = (Ret (all_same c), s3) -> it_next (fst (drop u w s3)) it = Ret nx ->
    lreached c (S i) s nx (drop u w s3).
(** The pair [i] from state [s], at node [it], cannot be read or compared, or
    its node is gone when the iterator is advanced. *)
Inductive lfalls (c : cmp_op) (i : nat) : iterator -> slist Z * X -> ub -> Prop :=
| lf_read : forall it s w s1 e, w_get u (Z.of_nat i) s = (Ret w, s1) -> deref (fst s1) it = Undef e -> lfalls c i it s e
| lf_dead : forall it s w s1 v, w_get u (Z.of_nat i) s = (Ret w, s1) -> deref (fst s1) it = Ret v ->
    read_dead u c v w s1 -> lfalls c i it s UseAfterFree
| lf_gone : forall it s w s1 v s2 e, w_get u (Z.of_nat i) s = (Ret w, s1) -> deref (fst s1) it = Ret v ->
    ~ read_dead u c v w s1 -> py_rich u c v w s1 = (Ret (all_same c), s2) -> it_next (fst (drop u w s2)) it = Undef e ->
    lfalls c i it s e.
Inductive lprinted : nat -> slist Z * X -> iterator -> slist Z * X -> Prop :=
| lp_start : forall s, lprinted 0 s (begin_ (fst s)) s
| lp_item : forall i s it s1 o t s2 nx, lprinted i s it s1 -> (S i < List.length (values (fst s1)))%nat -> deref (fst s1) it = Ret o ->
    w_repr u o s1 = (Ret t, s2) -> it_next (fst s2) it = Ret nx -> lprinted (S i) s nx s2.
(** The item number [i], not the last one, cannot be read, or its node is gone
    when the iterator is advanced. *)
Definition lstuck (i : nat) (it : iterator) s (e : ub) : Prop :=
  (S i < List.length (values (fst s)))%nat /\
  (deref (fst s) it = Undef e \/
   exists o t s2, deref (fst s) it = Ret o /\ w_repr u o s = (Ret t, s2) /\ it_next (fst s2) it = Undef e).
Definition well s : Prop := wf (fst s).
(** User code may add nodes and change values. *)
Definition keeps_links s s' : Prop := well s -> well s' /\ subseq (ids (fst s)) (ids (fst s')).
(** User code may add nodes at the end and change values. *)
Definition appends s s' : Prop := well s -> well s' /\ exists more, ids (fst s') = ids (fst s) ++ more.
(** User code may change values only. *)
Definition same_nodes s s' : Prop := (well s -> well s') /\ ids (fst s') = ids (fst s).
End Linked.
