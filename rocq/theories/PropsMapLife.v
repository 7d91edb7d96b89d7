(** C93: the heap blocks of IntIntHashMap objects. *)
From Coq Require Import ZArith List Bool Lia Permutation.
From Verif Require Import Base MapLifeModel MapLifeSpec MapLifeProofs.
Import ListNotations.
Local Open Scope Z_scope.

(** Every history: what the calls answer, which objects there are, and that
    every block has one owner or is one of at most two that a second
    initialisation left behind. *)
Theorem C93_history : forall h, let r := mrun h start in
  fst r = answers h nobody /\
  (forall x, (exists c, get x (objs (snd r)) = Some c) <-> after h nobody x <> None) /\
  exists lost, Permutation (heap (wmem (snd r))) (owned (snd r) ++ lost) /\ NoDup (heap (wmem (snd r))) /\ (length lost <= 2 * again h nobody)%nat.
Proof. exact history_thm. Qed.
Print Assumptions C93_history.
(** Nothing is released twice or without having been allocated. *)
Theorem C93_defined : forall h, ~ In MUndefined (fst (mrun h start)).
Proof. exact no_undefined. Qed.
Print Assumptions C93_defined.
(** Without second initialisations nothing is left when the objects are gone. *)
Theorem C93_clean : forall h, again h nobody = O -> (forall x, after h nobody x = None) -> heap (wmem (snd (mrun h start))) = [].
Proof. exact clean_thm. Qed.
Print Assumptions C93_clean.
(** That this holds with them is false, whatever the arguments. *)
Theorem C93_second_refuted : forall x ss g ss', existsb refusal ss = false ->
  heap (wmem (snd (mrun [MNew x; MInit x true ss; MInit x g ss'; MDrop x] start))) <> [].
Proof. exact second_refuted. Qed.
Print Assumptions C93_second_refuted.

(** An object with four entries, one never initialised, one whose buckets are
    refused while growing, one made from a copy; one whose first buckets are
    refused. *)
Definition some_history : list mop :=
  [MNew 1; MInit 1 true [GrowValues true; GrowValues true; GrowValues true; GrowValues true; GrowBuckets true];
   MNew 2; MNew 3; MInit 3 true [GrowValues true; GrowBuckets false; GrowValues true];
   MNew 4; MInit 4 true [CopyFrom true true true]; MNew 5; MInit 5 false []; MDrop 2; MDrop 9].
Example C93_ex :
  again some_history nobody = O /\
  fst (mrun some_history start) = [MDone; MDone; MDone; MDone; MRuntimeError; MDone; MDone; MDone; MEscapes; MDone; MNoSuch] /\
  owned (snd (mrun some_history start)) = [10; 11; 8; 5; 6] /\ heap (wmem (snd (mrun some_history start))) = [11; 10; 8; 6; 5] /\
  heap (wmem (snd (mrun (some_history ++ [MDrop 1; MDrop 3; MDrop 4; MDrop 5]) start))) = [] /\
  (let h := [MNew 1; MInit 1 true [GrowValues true]; MInit 1 true []; MDrop 1] in
   again h nobody = 1%nat /\ after h nobody 1 = None /\ heap (wmem (snd (mrun h start))) = [2; 1]).
Proof. vm_compute. repeat split. Qed.
