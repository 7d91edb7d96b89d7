(** What a collection should and does free. *)
From Coq Require Import ZArith List Bool.
From Verif Require Import Base GcModel.
Import ListNotations.
Local Open Scope Z_scope.

Definition refers (n : node) (o : Z) : Prop := In o (seen n) \/ In o (hidden n).
(** Objects have one place in the heap, references go to objects of the heap,
    what is not tracked is not traversed. *)
Definition well_formed (H : heap) (ext : Z -> Z) : Prop :=
  NoDup (map nid H) /\ (forall o, 0 <= ext o) /\
  (forall n, In n H -> tracked n = false -> seen n = []) /\
  (forall n o, In n H -> refers n o -> In o (map nid H)).

(** Reachable for a program: from references elsewhere, by any references. *)
Inductive live (H : heap) (ext : Z -> Z) : Z -> Prop :=
  | live_ext o : 0 < ext o -> live H ext o
  | live_ref n o : In n H -> live H ext (nid n) -> refers n o -> live H ext o.
(** Held, for all the collector can tell: from references elsewhere or by one
    that is not traversed, whoever has it. *)
Inductive held (H : heap) (ext : Z -> Z) : Z -> Prop :=
  | held_ext o : 0 < ext o -> held H ext o
  | held_hidden n o : In n H -> In o (hidden n) -> held H ext o
  | held_seen n o : In n H -> tracked n = true -> held H ext (nid n) -> In o (seen n) -> held H ext o.

(** A ring of objects of which none can be freed by counting: each is referred
    to by another, and some list in it hides a reference from the collector from
    which all tracked ones are found. *)
Inductive behind (C : list node) : Z -> Prop :=
  | behind_hidden n o : In n C -> In o (hidden n) -> behind C o
  | behind_seen n o : In n C -> tracked n = true -> behind C (nid n) -> In o (seen n) -> behind C o.
Definition ring (C : list node) : Prop :=
  forall n, In n C -> (exists m, In m C /\ refers m (nid n)) /\ (tracked n = true -> behind C (nid n)).
