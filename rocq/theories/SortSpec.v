(** What a stable sort must do, stated without reference to any algorithm. *)
From Coq Require Import List Bool Sorting.Sorted Sorting.Permutation.
Import ListNotations.

Section Spec.
Context {A : Type}.
Variable lt : A -> A -> bool.

(** [lt] is a strict weak order: asymmetric, and "not less" is transitive. *)
Definition weak_order : Prop :=
  (forall x y, lt x y = true -> lt y x = false) /\
  (forall x y z, lt x y = false -> lt y z = false -> lt x z = false).

(** Neither is less than the other. *)
Definition equiv (x y : A) : bool := negb (lt x y) && negb (lt y x).

(** Ascending: no element is less than an earlier one. *)
Definition ascending (l : list A) : Prop := StronglySorted (fun x y => lt y x = false) l.

(** Descending: no element is greater than an earlier one. *)
Definition descending (l : list A) : Prop := StronglySorted (fun x y => lt x y = false) l.

(** Elements that compare equal keep their relative order: for every [k], the
    elements equivalent to [k] appear in the same sequence in both lists. *)
Definition stable (l l' : list A) : Prop :=
  forall k, filter (equiv k) l = filter (equiv k) l'.
End Spec.
