(** Counting lemmas for the object lists. *)
From Coq Require Import ZArith List Bool Lia.
From Verif Require Import Base PyListSpec ListLemmas ObjModel ObjArrayModel ObjWorldModel ObjSpec.
Import ListNotations.
Local Open Scope Z_scope.
Local Arguments Z.pow : simpl never.
Local Arguments Z.add : simpl never.
Local Arguments Z.sub : simpl never.

Definition obj (o : Z) : Prop := is_obj o = true.
Lemma obj_pos o : obj o -> 0 < o.
Proof. unfold obj, is_obj. rewrite andb_true_iff, !Z.ltb_lt. lia. Qed.
Lemma obj_lt o : obj o -> o < 2 ^ 63.
Proof. unfold obj, is_obj. rewrite andb_true_iff, !Z.ltb_lt. lia. Qed.

Lemma occ_nonneg s o : 0 <= occ s o.
Proof. induction s as [|x s IH]; cbn [occ]; [lia|]. destruct (x =? o); lia. Qed.
Lemma occ_app a b o : occ (a ++ b) o = occ a o + occ b o.
Proof. induction a as [|x a IH]; cbn [occ app]; [lia|]. rewrite IH. lia. Qed.
Lemma occ_in s o : In o s -> 1 <= occ s o.
Proof.
  induction s as [|x s IH]; cbn [occ In]; [tauto|]. intros [->|H].
  - rewrite Z.eqb_refl. pose proof (occ_nonneg s o). lia.
  - specialize (IH H). destruct (x =? o); lia.
Qed.
Lemma occ_pos s o : 0 < occ s o -> In o s.
Proof.
  induction s as [|x s IH]; cbn [occ In]; [lia|]. destruct (Z.eqb_spec x o) as [->|N]; [auto|]. intros H. right. apply IH. lia.
Qed.
Lemma occ_rev s o : occ (rev s) o = occ s o.
Proof. induction s as [|x s IH]; cbn [rev occ]; [reflexivity|]. rewrite occ_app, IH. cbn [occ]. lia. Qed.
Lemma occ_split s n o : occ s o = occ (firstn n s) o + occ (skipn n s) o.
Proof. rewrite <- occ_app, firstn_skipn. reflexivity. Qed.
Lemma occ_one o x : occ [o] x = if o =? x then 1 else 0.
Proof. cbn [occ]. lia. Qed.
Lemma occ_self o : occ [o] o = 1.
Proof. cbn [occ]. rewrite Z.eqb_refl. lia. Qed.

Lemma upd_plus rc o x : upd rc o (rc o + 1) x = rc x + occ [o] x.
Proof. unfold upd. cbn [occ]. rewrite (Z.eqb_sym o x). destruct (Z.eqb_spec x o) as [->|]; lia. Qed.
Lemma upd_minus rc o x : upd rc o (rc o - 1) x = rc x - occ [o] x.
Proof. unfold upd. cbn [occ]. rewrite (Z.eqb_sym o x). destruct (Z.eqb_spec x o) as [->|]; lia. Qed.

Lemma incref_ok o rc : obj o -> 0 < rc o -> exists rc', incref o rc = Ret rc' /\ forall x, rc' x = rc x + occ [o] x.
Proof.
  intros O H. pose proof (obj_pos o O). unfold incref. destruct (Z.eqb_spec o 0); [lia|]. destruct (Z.leb_spec (rc o) 0); [lia|].
  eexists. split; [reflexivity|]. apply upd_plus.
Qed.
Lemma decref_ok o rc : obj o -> 0 < rc o -> exists rc', decref o rc = Ret rc' /\ forall x, rc' x = rc x - occ [o] x.
Proof.
  intros O H. pose proof (obj_pos o O). unfold decref. destruct (Z.eqb_spec o 0); [lia|]. destruct (Z.leb_spec (rc o) 0); [lia|].
  eexists. split; [reflexivity|]. apply upd_minus.
Qed.
Lemma new_refs_ok os : forall rc x, new_refs os rc x = rc x + occ os x.
Proof.
  unfold new_refs. induction os as [|o os IH]; intros rc x; cbn [fold_left occ]; [lia|].
  rewrite IH. unfold new_ref. rewrite upd_plus. cbn [occ]. lia.
Qed.
Lemma incref_all_ok os : forall rc, Forall (fun o => obj o /\ 0 < rc o) os ->
  exists rc', incref_all os rc = Ret rc' /\ forall x, rc' x = rc x + occ os x.
Proof.
  induction os as [|o os IH]; intros rc F; cbn [incref_all].
  - exists rc. split; [reflexivity|]. intros; cbn [occ]; lia.
  - inversion F as [|? ? [O P] F']; subst. destruct (incref_ok o rc O P) as (rc1 & E & R). rewrite E. cbn [obind].
    destruct (IH rc1) as (rc2 & E2 & R2).
    { eapply Forall_impl; [|exact F']. cbn beta. intros a [A B]. split; [exact A|]. rewrite R. pose proof (occ_nonneg [o] a). lia. }
    exists rc2. split; [exact E2|]. intros x. rewrite R2, R. cbn [occ]. lia.
Qed.
Lemma decref_all_ok os : forall rc, Forall obj os -> (forall x, In x os -> occ os x <= rc x) ->
  exists rc', decref_all os rc = Ret rc' /\ forall x, rc' x = rc x - occ os x.
Proof.
  induction os as [|o os IH]; intros rc F H; cbn [decref_all].
  - exists rc. split; [reflexivity|]. intros; cbn [occ]; lia.
  - inversion F as [|? ? O F']; subst.
    assert (P : 0 < rc o). { specialize (H o (or_introl eq_refl)). cbn [occ] in H. rewrite Z.eqb_refl in H. pose proof (occ_nonneg os o). lia. }
    destruct (decref_ok o rc O P) as (rc1 & E & R). rewrite E. cbn [obind].
    destruct (IH rc1 F') as (rc2 & E2 & R2).
    { intros x X. specialize (H x (or_intror X)). rewrite R. cbn [occ] in *. lia. }
    exists rc2. split; [exact E2|]. intros x. rewrite R2, R. cbn [occ]. lia.
Qed.

Lemma Forall_app_2 {A} (P : A -> Prop) a b : Forall P a -> Forall P b -> Forall P (a ++ b).
Proof. intros; apply Forall_app; auto. Qed.

(** The references besides those of the list, and what a call may use. *)
Definition pre_arg (d : counts) (a : oarg) : Prop :=
  match a with
  | OSame ys => Forall (fun o => obj o /\ 0 < d o) ys
  | OList ys => Forall (fun o => obj o /\ 0 < d o) ys
  | OIter ys _ => Forall obj ys
  | _ => True
  end.
Definition pre (d : counts) (c : ocall oarg) : Prop :=
  Forall (fun o => obj o /\ 0 < d o) (call_held c) /\ match call_arg c with Some a => pre_arg d a | None => True end.

Definition new_items {C} (items : C -> list Z) (v : outcome (oval C)) : list Z :=
  match v with Ret (ONew c) | RetPending (ONew c) _ => items c | _ => [] end.
Definition defined {A} (v : outcome A) : Prop := match v with Undef _ => False | _ => True end.

(** What a counted call does to contents and counts. *)
Definition good {C} (items : C -> list Z) (inv : C -> Prop) (d : counts) (r : ores C) : Prop :=
  let '(v, (s', rc')) := r in
  defined v /\ inv s' /\ Forall obj (items s') /\ Forall obj (new_items items v) /\ Forall obj (result_owned v) /\
  (forall c, result_new v = [Some c] -> inv c) /\
  (forall x, rc' x = occ (items s') x + d x + occ (result_owned v) x + occ (new_items items v) x).
