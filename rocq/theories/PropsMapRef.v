(** C84: references taken by the construction of an IntIntHashMap. *)
From Coq Require Import ZArith List Bool Lia.
From Verif Require Import Base HashModel ObjModel ObjSpec MapModel MapSpec MapRefModel MapRefSpec MapRefProofs.
Import ListNotations.
Local Open Scope Z_scope.

(** Nothing dead is touched, nobody's reference is taken away, and the answer is
    the one of C71; any sizes. *)
Theorem C84_same : forall cfg arg1 arg2 rc, (forall o, 0 <= rc o) ->
  exists rc', fill_r cfg arg1 arg2 rc = Done (fill cfg (option_map plain_arg arg1) (option_map plain_arg arg2)) rc' /\ forall o, rc o <= rc' o.
Proof. exact fill_same. Qed.
Print Assumptions C84_same.

(** Exactly what is left behind. *)
Theorem C84_left : forall cfg arg1 arg2 rc, (forall o, 0 <= rc o) -> fits arg1 -> fits arg2 -> defined arg1 -> defined arg2 ->
  exists r rc', fill_r cfg arg1 arg2 rc = Done r rc' /\ forall o, rc' o = rc o + occ (left_behind cfg arg1 arg2) o.
Proof. exact fill_leaves. Qed.
Print Assumptions C84_left.

(** A sequence of pairs: nothing. *)
Theorem C84_sequence : forall cfg q es rc, (forall o, 0 <= rc o) -> Z.of_nat (length es) <= 2 ^ 24 - 2 -> no_pairs es ->
  (forall e, In e es -> stop_of cfg (e_is e) = None) ->
  exists r rc', fill_r cfg (Some (RSeqIter q es)) None rc = Done r rc' /\ forall o, rc' o = rc o.
Proof. exact sequence_good. Qed.
Print Assumptions C84_sequence.

(** An iterator over pairs: every entry, although the construction succeeds. *)
Theorem C84_iterator_refuted : forall cfg i es tail rc, (forall o, 0 <= rc o) -> Z.of_nat (length es) <= 2 ^ 24 - 2 ->
  (forall e, In e es -> stop_of cfg (e_is e) = None) ->
  exists r rc', fill_r cfg (Some (RIter i es tail)) None rc = Done r rc' /\ forall o, rc' o = rc o + occ (map e_obj es) o.
Proof. exact iterator_good. Qed.
Print Assumptions C84_iterator_refuted.

Definition zero_counts (o : Z) : Z := 0.
Definition cfg0 : mapcfg := {| m_py312 := true; key_first := true |}.
Definition pair_at (o : Z) (k v : Z) : rentry := {| e_obj := o; e_iter := 0; e_key := 0; e_val := 0; e_is := ETuple [PInt k; PInt v] |}.
Definition short_at (o it k : Z) : rentry := {| e_obj := o; e_iter := it; e_key := k; e_val := 0; e_is := EIter [PInt 5] |}.
Definition bad_at (o : Z) : rentry := {| e_obj := o; e_iter := 0; e_key := 0; e_val := 0; e_is := ETuple [PInt 1; PObj 3] |}.
Definition after (a : rarg) : option (list Z) :=
  match fill_r cfg0 (Some a) None zero_counts with Done _ rc => Some (map rc [1; 2; 3; 4; 5; 6]) | Dead => None end.
Definition fetched (o : Z) : Z * (pyobj * outcome pyobj) := (o, (PInt 1, Ret (PInt 2))).
(** 1: the iterator or sequence; 2, 3, 4: entries; 5, 6: an entry's iterator and
    its only item. *)
Example C84_left_ex :
  after (RIter 1 [pair_at 2 7 8; pair_at 3 7 9; pair_at 2 1 1] None) = Some [0; 2; 1; 0; 0; 0] /\
  after (RIter 1 [pair_at 2 7 8; short_at 3 5 6; pair_at 4 1 1] None) = Some [1; 1; 1; 0; 1; 1] /\
  after (RIter 1 [pair_at 2 7 8; bad_at 3; pair_at 4 1 1] None) = Some [0; 1; 1; 0; 0; 0] /\
  after (RSeqIter 1 [pair_at 2 7 8; short_at 3 5 6]) = Some [1; 0; 0; 0; 1; 1] /\
  after (RSeqIter 1 [pair_at 2 7 8; bad_at 3]) = Some [0; 0; 0; 0; 0; 0] /\
  after (RMapping 1 (inl [fetched 2; fetched 3])) = Some [0; 0; 0; 0; 0; 0] /\
  fits (Some (RIter 1 [pair_at 2 7 8; short_at 3 5 6; pair_at 4 1 1] None)) /\
  left_behind cfg0 (Some (RIter 1 [pair_at 2 7 8; short_at 3 5 6; pair_at 4 1 1] None)) None = [2; 3; 1; 5; 6] /\
  stop_of cfg0 (e_is (pair_at 2 7 8)) = None /\ no_pairs [pair_at 2 7 8] /\
  defined (Some (RMapping 1 (inl [fetched 2; fetched 3]))).
Proof.
  do 6 (split; [vm_compute; reflexivity|]); split; [cbn; lia|]; do 2 (split; [vm_compute; reflexivity|]); split.
  - intros e k v [<-|[]]; discriminate.
  - repeat constructor.
Qed.
