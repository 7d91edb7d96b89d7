(** What finalizers may do to a linked list, and who owns the references:
    vocabulary for C75. *)
From Coq Require Import ZArith List Bool.
From Verif Require Import Base PyListSpec StdListModel ObjModel ObjSpec LFinalModel.
Import ListNotations.
Local Open Scope Z_scope.

Definition items (s : nst) : list Z := values (nds s).
(** Nodes have different identities, all of them handed out before. *)
Definition linked (s : nst) : Prop := NoDup (ids (nds s)) /\ Forall (fun i => (i < fresh (nds s))%nat) (ids (nds s)).

(** References to [p] owned neither by the rest of the program nor by an
    element of the list or of the source. *)
Definition slack (s : nst) (p : Z) : Z := refs s p - held s p - occ (items s) p - occ (srcs s) p.
(** Every reference has one owner, and list and source hold objects. *)
Definition balanced (s : nst) : Prop :=
  linked s /\ (forall p, p <> 0 -> 0 <= held s p /\ slack s p = 0) /\ ~ In 0 (items s) /\ ~ In 0 (srcs s).

(** Any references taken are accounted for. *)
Definition honest (s s' : nst) : Prop :=
  linked s' /\ srcs s' = srcs s /\ forall p, p <> 0 -> (0 <= held s p -> 0 <= held s' p) /\ slack s' p = slack s p.

(** Finalizers that append to the list a run of objects satisfying [Q]. *)
Definition appends (Q : list Z -> Prop) (F : nfins) : Prop :=
  forall o s, refs s o = 1 -> linked s -> exists s' more, F o s = inl s' /\ Q (map snd more) /\
    nodes (nds s') = nodes (nds s) ++ more /\ honest s s'.
(** A property of runs of objects that survives putting them end to end. *)
Definition runs (Q : list Z -> Prop) : Prop :=
  Q [] /\ (forall x y, Q x -> Q y -> Q (x ++ y)) /\ forall x, Q x -> ~ In 0 x.
Definition none (m : list Z) : Prop := m = [].
(** Finalizers that leave the lists alone. *)
Definition polite : nfins -> Prop := appends none.

(** Finalizers that leave the element of the dying object where it is. They may
    add and remove other elements, as long as no cleared one gets behind it. *)
Definition keeps (F : nfins) : Prop :=
  forall o s a i c, refs s o = 1 -> linked s -> nodes (nds s) = a ++ (i, o) :: c -> ~ In 0 (map snd c) ->
  exists s' a' c', F o s = inl s' /\ nodes (nds s') = a' ++ (i, o) :: c' /\ ~ In 0 (map snd c') /\
    (~ In 0 (map snd a) -> ~ In 0 (map snd a')) /\ honest s s'.

(** Only the object [o] has a finalizer. *)
Definition only (o : Z) (F : nfins) : Prop := forall p t, p <> o -> F p t = inl t.
(** The finalizer of [o] removes the node [i]. *)
Definition removes (F : nfins) (o : Z) (i : nat) : Prop :=
  forall t, exists t', F o t = inl t' /\ ~ In i (ids (nds t')).
(** The finalizer of [o] inserts [x] in front. *)
Definition fronts (F : nfins) (o x : Z) : Prop :=
  forall t, F o t = inl (with_nds {| nodes := (fresh (nds t), x) :: nodes (nds t); fresh := S (fresh (nds t)) |}
                          (with_refs (upd (refs t) x (refs t x + 1)) t)).
(** The finalizers of the objects from [o0] on append an object made for the
    purpose, numbered one higher; the other objects have none. *)
Definition respawns (F : nfins) (o0 : Z) : Prop :=
  (forall p t, p < o0 -> F p t = inl t) /\
  forall o t, o0 <= o -> refs t (o + 1) = 0 ->
    F o t = inl (with_nds (push_back (nds t) (o + 1)) (with_refs (upd (refs t) (o + 1) 1) t)).

(** The list without the node [i]. *)
Definition without (i : nat) (l : slist Z) : slist Z :=
  {| nodes := filter (fun n => negb (Nat.eqb (fst n) i)) (nodes l); fresh := fresh l |}.
