(** What an object list gets from an int list. *)
From Coq Require Import ZArith List Bool.
From Verif Require Import Base ArrayListModel ObjModel ObjSpec MixModel MixSpec MixObjModel BoxModel.
Import ListNotations.
Local Open Scope Z_scope.

(** A cache of live objects that stand for their integers; from [hn] on there
    are no objects, and room for [n] of them. *)
Definition cache_ok (small : Z -> option Z) (h : heap) : Prop :=
  forall z o, small z = Some o -> 0 < o < hn h /\ 0 < hc h o /\ hv h o = z.
Definition heap_ok (h : heap) (n : Z) : Prop :=
  0 < hn h /\ hn h + n <= 2 ^ 63 /\ forall o, hn h <= o -> hc h o = 0.

(** [os] are objects for the elements [vs] of [x], each with one reference for
    its place; nothing else changed. An object is the cached one of its integer,
    if the cache is used and has one, or a new one that is nowhere else. *)
Definition objects_for (small : Z -> option Z) (py312 : bool) (x : lobj) (h h' : heap) (vs os : list Z) : Prop :=
  Forall2 (fun v o => hv h' o = seen py312 x v /\
             forall c, small (seen py312 x v) = Some c -> py312 = false \/ class_of x = CArr KBig -> o = c) vs os /\
  (forall o, hc h' o = hc h o + occ os o) /\
  (forall o, o < hn h -> hv h' o = hv h o) /\
  (forall o, In o os ->
     o < hn h /\ small (hv h o) = Some o /\ (py312 = false \/ class_of x = CArr KBig) \/
     hn h <= o < hn h' /\ occ os o = 1).
