(** C83: object lists and the cycle collector. *)
From Coq Require Import ZArith List Bool Lia.
From Verif Require Import Base ObjModel ObjSpec GcModel GcSpec GcProofs.
Import ListNotations.
Local Open Scope Z_scope.

(** What a program can still reach, through object lists or not, is not freed and
    not emptied. *)
Theorem C83_safe : forall H ext n, well_formed H ext -> In n H -> live H ext (nid n) -> In n (collect ext H).
Proof. exact live_kept. Qed.
Print Assumptions C83_safe.

(** Nothing is left in an altered state. *)
Theorem C83_whole : forall H ext n, well_formed H ext -> In n (collect ext H) -> In n H.
Proof. exact collect_old. Qed.
Print Assumptions C83_whole.

(** Without object lists exactly what is reachable is left. *)
Theorem C83_lists : forall H ext n, well_formed H ext -> (forall n, In n H -> hidden n = [] /\ tracked n = true) ->
  (In n (collect ext H) <-> In n H /\ live H ext (nid n)).
Proof. exact lists_exact. Qed.
Print Assumptions C83_lists.

(** With them: the largest set in which all are referred to, and in which what the
    collector knows is held for all it can tell. *)
Theorem C83_left : forall H ext n, well_formed H ext ->
  (In n (collect ext H) <-> exists C : node -> Prop, C n /\
     forall m, C m -> In m H /\ (0 < ext (nid m) \/ exists m', C m' /\ refers m' (nid m)) /\ (tracked m = true -> held H ext (nid m))).
Proof. exact collect_exact. Qed.
Print Assumptions C83_left.

(** The collector frees what it knows and what no object list hides. *)
Theorem C83_freed : forall H ext n, well_formed H ext -> In n H -> tracked n = true -> ~ held H ext (nid n) ->
  ~ In (nid n) (map nid (collect ext H)).
Proof. exact not_held_gone. Qed.
Print Assumptions C83_freed.

(** A cycle through an object list stays for ever, whatever else there is. *)
Theorem C83_cycle_refuted : forall k H ext C, well_formed H ext -> ring C -> (forall n, In n C -> In n H) ->
  forall n, In n C -> In n (collects k ext H).
Proof. exact ring_forever. Qed.
Print Assumptions C83_cycle_refuted.

(** Such cycles: a list that contains itself; a list in a Python list that it
    contains; a list and an iterator over it that it contains; an instance of a
    Python subclass that contains itself, and one with itself as an attribute,
    which is freed. *)
Definition none (o : Z) : Z := 0.
Definition self : heap := [obj_list 1 [1]].
Definition mixed : heap := [py_list 1 [2; 2]; obj_list 2 [3; 1]; py_list 3 []; py_list 4 [5]; py_list 5 [4; 6]; obj_list 6 [7]; py_list 7 []].
Definition iterated : heap := [obj_list 1 [2]; obj_list 2 [1]].
Definition subclass : heap := [sub_list 1 [] [1]; sub_list 2 [2] []].

Example C83_mixed_ex : well_formed mixed none /\ ring [py_list 1 [2; 2]; obj_list 2 [3; 1]; py_list 3 []] /\
  (forall o, ~ live mixed none o) /\
  collect none mixed = [py_list 1 [2; 2]; obj_list 2 [3; 1]; py_list 3 []] /\
  held mixed none 3 /\ ~ held mixed none 4.
Proof.
  assert (W : well_formed mixed none).
  { split; [|split; [unfold none; lia|split]].
    - cbn; repeat constructor; cbn; lia.
    - intros n I T; cbn in I; repeat (destruct I as [<-|I]; [first [reflexivity|discriminate]|]); destruct I.
    - intros n o I R; cbn in I; repeat (destruct I as [<-|I]; [destruct R as [R|R]; cbn in R; cbn; lia|]); destruct I. }
  split; [exact W|]; split; [|split; [|split; [vm_compute; reflexivity|split]]].
  - intros n I.
    assert (B1 : behind [py_list 1 [2; 2]; obj_list 2 [3; 1]; py_list 3 []] 1) by (apply (behind_hidden _ (obj_list 2 [3; 1])); cbn; auto).
    assert (B3 : behind [py_list 1 [2; 2]; obj_list 2 [3; 1]; py_list 3 []] 3) by (apply (behind_hidden _ (obj_list 2 [3; 1])); cbn; auto).
    destruct I as [<-|[<-|[<-|[]]]].
    + split; [exists (obj_list 2 [3; 1]); split; [cbn; auto|right; cbn; auto]|intros _; exact B1].
    + split; [exists (py_list 1 [2; 2]); split; [cbn; auto|left; cbn; auto]|discriminate].
    + split; [exists (obj_list 2 [3; 1]); split; [cbn; auto|right; cbn; auto]|intros _; exact B3].
  - intros o L; induction L as [o E|]; [unfold none in E; lia|assumption].
  - apply (held_hidden _ _ (obj_list 2 [3; 1])); cbn; auto 8.
  - intro HE.
    assert (G : forall o, held mixed none o -> o <> 4 /\ o <> 5 /\ o <> 6).
    { intros o; induction 1 as [o E|n o I X|n o I T HN IH X]; [unfold none in E; lia| |];
        cbn in I; repeat (destruct I as [<-|I]; [cbn in X, T || cbn in X; try cbn in IH; lia|]); destruct I. }
    apply (proj1 (G 4 HE)); reflexivity.
Qed.
Example C83_self_ex : collects 5 none self = self /\ collects 5 none iterated = iterated /\
  collects 5 none subclass = [sub_list 1 [] [1]] /\ collect none [py_list 1 [1]] = [] /\
  collect none [obj_list 1 [2]; obj_list 2 [3]; py_list 3 []] = [].
Proof. vm_compute; repeat split; reflexivity. Qed.
