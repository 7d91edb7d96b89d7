(** What finalizers may do, and who owns the references: vocabulary for C70. *)
From Coq Require Import ZArith List Bool.
From Verif Require Import Base PyListSpec ObjModel ObjSpec FinalModel.
Import ListNotations.
Local Open Scope Z_scope.

(** References to [p] owned neither by the rest of the program nor by a slot of
    the two lists. *)
Definition slack (s : ost) (p : Z) : Z := rc s p - ext s p - occ (slots s) p - occ (src s) p.

(** Every reference has one owner, and both lists hold objects. *)
Definition balanced (s : ost) : Prop :=
  (forall p, p <> 0 -> 0 <= ext s p /\ slack s p = 0) /\ ~ In 0 (slots s) /\ ~ In 0 (src s).

(** Finalizers that take and give up references of the rest of the program as
    they like, and append to the list a run of objects satisfying [Q] (taking
    references to them) without making it reallocate. *)
Definition none (m : list Z) : Prop := m = [].
Definition appends (Q : list Z -> Prop) (F : fins) : Prop :=
  forall o s, rc s o = 1 -> exists s' more, F o s = inl s' /\ Q more /\
    slots s' = slots s ++ more /\ buf s' = buf s /\ src s' = src s /\ sbuf s' = sbuf s /\
    forall p, p <> 0 -> (0 <= ext s p -> 0 <= ext s' p) /\ slack s' p = slack s p.
(** A property of runs of objects that survives putting them end to end. *)
Definition runs (Q : list Z -> Prop) : Prop :=
  Q [] /\ (forall x y, Q x -> Q y -> Q (x ++ y)) /\ forall x, Q x -> ~ In 0 x.
(** Finalizers that leave the lists alone. *)
Definition polite : fins -> Prop := appends none.

(** Only the object [o] has a finalizer. *)
Definition only (o : Z) (F : fins) : Prop := forall p t, p <> o -> F p t = inl t.

(** The finalizer of [o] makes the list reallocate, or leaves fewer than [n]
    elements in it. *)
Definition spoils (F : fins) (o b n : Z) : Prop :=
  forall t, exists t', F o t = inl t' /\ src t' = src t /\ sbuf t' = sbuf t /\ (buf t' <> b \/ zlen (slots t') < n).
