(** merge_lo, merge_hi and merge_at of CPythonSortModel.v: for every comparison
    they terminate inside their memory and only rearrange the two runs; for a
    weak order they merge them stably. *)
From Coq Require Import ZArith List Bool Lia Sorting.Sorted Sorting.Permutation.
From Verif Require Import Base ListLemmas SortSpec SortOrderProofs CPythonSortModel SortMachineProofs.
Import ListNotations.
Local Open Scope Z_scope.
Local Arguments Z.of_nat : simpl never.
Local Arguments Z.to_nat : simpl never.
Local Arguments Z.mul : simpl never.
Local Arguments Z.add : simpl never.
Local Arguments Z.sub : simpl never.
Local Arguments MIN_GALLOP : simpl never.

Ltac zl := rewrite ?zlen_app, ?zlen_cons, ?zlen_nil in *.
Ltac apps := repeat (rewrite <- app_assoc; simpl); try reflexivity.
Ltac zpos := repeat match goal with
  | |- context [zlen ?x] => lazymatch goal with H : 0 <= zlen x |- _ => fail | _ => pose proof (zlen_nonneg x) end
  | H : context [zlen ?x] |- _ => lazymatch goal with H : 0 <= zlen x |- _ => fail | _ => pose proof (zlen_nonneg x) end
  end.

Lemma zsplit_le2 {A} (s : list A) i : 0 <= i <= zlen s -> exists a b, s = a ++ b /\ zlen a = i /\ zlen b = zlen s - i.
Proof.
  intros H. destruct (zsplit_le s i H) as (a & b & -> & E). exists a, b. zl. repeat split; lia.
Qed.

Lemma app_split_eq {A} (a b c d : list A) : a ++ b = c ++ d -> zlen a = zlen c -> a = c /\ b = d.
Proof.
  revert c. induction a; destruct c; intros E L; zl; zpos; try lia; simpl in E; auto.
  injection E as -> E. destruct (IHa c E) as (-> & ->); auto. lia.
Qed.

Section Merge.
Context {A : Type}.
Variable cmp : nat -> A -> A -> option bool.
Variable grab : Z -> bool.
Variable lt : A -> A -> bool.
Variable G : Prop.
Hypothesis HG : G -> sane cmp grab lt.
Notation st := (@st A).
Notation asc := (ascending lt).
Notation stb := (stable lt).

Lemma G_wo : G -> weak_order lt.
Proof. intros g. apply (HG g). Qed.

Variables (P Q A0 B0 : list A).
Hypothesis Hsize : 2 * (zlen A0 + zlen B0) + 1 <= SSIZE_MAX.

(** ** Merging from the left *)

Definition ghost_lo (D RA RB : list A) : Prop :=
  Permutation (D ++ RA ++ RB) (A0 ++ B0) /\
  (G -> stb (D ++ RA ++ RB) (A0 ++ B0) /\ asc (D ++ RA) /\ asc (D ++ RB) /\
        exists A' z, RA = A' ++ [z] /\ forall b, In b RB -> lt b z = true).

Lemma ghost_lo_size D RA RB : ghost_lo D RA RB -> zlen D + zlen RA + zlen RB = zlen A0 + zlen B0.
Proof.
  intros (H & _). apply Permutation_length in H. unfold zlen. rewrite !app_length in H. lia.
Qed.

Lemma take_as D R1 R2 b RB : ghost_lo D (R1 ++ R2) (b :: RB) ->
  (G -> forall y, In y R1 -> lt b y = false) -> ghost_lo (D ++ R1) R2 (b :: RB).
Proof.
  intros (H1 & H2) H3. split.
  - rewrite <- H1. rewrite <- !app_assoc. reflexivity.
  - intros g. destruct (H2 g) as (S1 & S2 & S3 & A' & z & E & S4). specialize (H3 g).
    pose proof (G_wo g) as W.
    rewrite <- !app_assoc in *. split; [exact S1|]. split; [exact S2|]. split.
    + apply asc_app in S2 as (Sd & S2 & S2'). apply asc_app in S2 as (Sr1 & _ & _).
      apply asc_app in S3 as (_ & S3 & S3').
      apply asc_app. split; [exact Sd|]. split.
      * apply asc_app. split; [exact Sr1|]. split; [exact S3|].
        intros x y Hx Hy. apply asc_cons in S3 as (S5 & S6).
        destruct Hy as [<-|Hy]; [apply H3; auto|].
        eapply le_trans; eauto.
      * intros x y Hx Hy. apply in_app_or in Hy as [Hy|Hy]; [|apply S3'; auto].
        apply S2'; auto. apply in_or_app; auto.
    + destruct R2 as [|r R2 _] using rev_ind.
      * rewrite app_nil_r in E. exfalso. assert (In z R1) by (rewrite E; apply in_or_app; right; left; auto).
        specialize (H3 z H). rewrite (S4 b) in H3 by (left; auto). discriminate.
      * rewrite app_assoc in E. apply app_inj_tail in E as (E & ->). exists R2, z. auto.
Qed.

Lemma take_bs D a RA R1 R2 : ghost_lo D (a :: RA) (R1 ++ R2) ->
  (G -> forall y, In y R1 -> lt y a = true) -> ghost_lo (D ++ R1) (a :: RA) R2.
Proof.
  intros (H1 & H2) H3. split.
  - rewrite <- H1. rewrite <- !app_assoc. apply Permutation_app_head.
    rewrite !app_assoc. apply Permutation_app_tail. apply Permutation_app_comm.
  - intros g. destruct (H2 g) as (S1 & S2 & S3 & A' & z & E & S4). specialize (H3 g).
    pose proof (G_wo g) as W.
    rewrite <- !app_assoc in *.
    assert (L : forall x y, In x R1 -> In y (a :: RA) -> lt x y = true).
    { intros x y Hx Hy. eapply lt_le_trans; eauto. eapply asc_head; eauto. }
    split; [|split; [|split]].
    + eapply stable_trans; [|exact S1]. apply stb_app; [apply stable_refl|].
      rewrite !app_assoc. apply stb_app; [|apply stable_refl].
      apply stb_swap; auto. intros x y Hx Hy. apply lt_not_equiv; auto.
    + apply asc_app in S2 as (Sd & S2 & S2'). apply asc_app in S3 as (_ & S3 & S3').
      apply asc_app in S3 as (S3 & _ & _).
      apply asc_app. split; [exact Sd|]. split.
      * apply asc_app. split; [exact S3|]. split; [exact S2|]. intros x y Hx Hy. apply lt_asym; auto.
      * intros x y Hx Hy. apply in_app_or in Hy as [Hy|Hy]; [|apply S2'; auto].
        apply S3'; auto. apply in_or_app; auto.
    + exact S3.
    + exists A', z. split; auto. intros b Hb. apply S4. apply in_or_app; auto.
Qed.

Definition mach_lo (s : st) (v : lv) (D gap RA RB TA : list A) : Prop :=
  arr s = P ++ D ++ gap ++ RB ++ Q /\ tmp s = TA ++ RA /\ zlen gap = zlen RA /\
  na v = zlen RA /\ nb v = zlen RB /\ dst v = zlen P + zlen D /\
  pb v = zlen P + zlen D + zlen gap /\ pa v = zlen TA.

Definition inv_lo (s : st) (v : lv) : Prop :=
  exists D gap RA RB TA, mach_lo s v D gap RA RB TA /\ ghost_lo D RA RB.

Lemma mach_lo_quiet s s' v D gap RA RB TA : quiet s s' -> mach_lo s v D gap RA RB TA ->
  mach_lo s' v D gap RA RB TA.
Proof. unfold quiet, mach_lo. intuition congruence. Qed.

Lemma mach_lo_same s s' v D gap RA RB TA : arr s' = arr s -> tmp s' = tmp s ->
  mach_lo s v D gap RA RB TA -> mach_lo s' v D gap RA RB TA.
Proof. unfold mach_lo. intuition congruence. Qed.

Lemma lo_step_b s v D gap RA b RB TA : mach_lo s v D gap RA (b :: RB) TA -> 0 < na v ->
  exists s' gap', copy_arr_arr (dst v) (pb v) s = Done tt s' /\ pend s' = pend s /\
    mach_lo s' (mklv (na v) (nb v - 1) (dst v + 1) (pa v) (pb v + 1)) (D ++ [b]) gap' RA RB TA.
Proof.
  intros (H1 & H2 & H3 & H4 & H5 & H6 & H7 & H8) Hn.
  destruct (zlen_pos_inv gap) as (g & gr & ->); [lia|].
  eexists _, (gr ++ [b]). split; [|split].
  - apply (copy_arr_arr_mid s (P ++ D) g (gr ++ b :: RB ++ Q) (P ++ D ++ g :: gr) b (RB ++ Q)).
    + rewrite H1. apps.
    + zl. zpos. lia.
    + rewrite H1. apps.
    + zl. zpos. lia.
  - reflexivity.
  - unfold mach_lo; simpl. zl. repeat split; auto; try lia. apps.
Qed.

Lemma lo_step_a s v D gap a RA RB TA : mach_lo s v D gap (a :: RA) RB TA ->
  exists s' gap', copy_arr_tmp (dst v) (pa v) s = Done tt s' /\ pend s' = pend s /\
    mach_lo s' (mklv (na v - 1) (nb v) (dst v + 1) (pa v + 1) (pb v)) (D ++ [a]) gap' RA RB (TA ++ [a]).
Proof.
  intros (H1 & H2 & H3 & H4 & H5 & H6 & H7 & H8).
  destruct (zlen_pos_inv gap) as (g & gr & ->); [zl; zpos; lia|].
  eexists _, gr. split; [|split].
  - apply (copy_arr_tmp_mid s (P ++ D) g (gr ++ RB ++ Q) TA a RA).
    + rewrite H1. apps.
    + zl. zpos. lia.
    + exact H2.
    + lia.
  - reflexivity.
  - unfold mach_lo; simpl. zl. rewrite H2. repeat split; auto; try lia; apps.
Qed.

Lemma lo_step_as s v D gap R1 R2 RB TA k : mach_lo s v D gap (R1 ++ R2) RB TA -> zlen R1 = k ->
  exists s' gap', (if k =? 0 then ret tt else copy_from_tmp (dst v) (pa v) k) s = Done tt s' /\
    pend s' = pend s /\
    mach_lo s' (mklv (na v - k) (nb v) (dst v + k) (pa v + k) (pb v)) (D ++ R1) gap' R2 RB (TA ++ R1).
Proof.
  intros (H1 & H2 & H3 & H4 & H5 & H6 & H7 & H8) Hk. zpos.
  destruct (zsplit_le2 gap k) as (g1 & g2 & -> & L1 & L2); [zl; zpos; lia|].
  destruct (k =? 0) eqn:E.
  - assert (R1 = []) by (apply zlen_nil_inv; lia). assert (g1 = []) by (apply zlen_nil_inv; lia).
    subst R1 g1. exists s, g2. split; [reflexivity|]. split; [reflexivity|].
    rewrite !app_nil_r. unfold mach_lo; simpl in *. zl. repeat split; auto; lia.
  - eexists _, g2. split; [|split].
    + apply (copy_from_tmp_mid s (P ++ D) g1 (g2 ++ RB ++ Q) TA R1 R2).
      * rewrite H1. apps.
      * zl. zpos. lia.
      * rewrite H2. apps.
      * lia.
      * lia.
      * lia.
    + reflexivity.
    + unfold mach_lo; simpl. zl. rewrite H2. repeat split; auto; try lia; apps.
Qed.

Lemma lo_step_bs s v D gap RA R1 R2 TA k : mach_lo s v D gap RA (R1 ++ R2) TA -> zlen R1 = k ->
  exists s' gap', (if k =? 0 then ret tt else move_in_arr (dst v) (pb v) k) s = Done tt s' /\
    pend s' = pend s /\
    mach_lo s' (mklv (na v) (nb v - k) (dst v + k) (pa v) (pb v + k)) (D ++ R1) gap' RA R2 TA.
Proof.
  intros (H1 & H2 & H3 & H4 & H5 & H6 & H7 & H8) Hk. zpos.
  destruct (zsplit_le2 (gap ++ R1) k) as (w1 & w2 & Ew & L1 & L2); [zl; zpos; lia|].
  destruct (k =? 0) eqn:E.
  - assert (R1 = []) by (apply zlen_nil_inv; lia).
    subst R1. exists s, gap. split; [reflexivity|]. split; [reflexivity|].
    rewrite !app_nil_r. unfold mach_lo; simpl in *. zl. repeat split; auto; lia.
  - eexists _, w2. split; [|split].
    + apply (move_in_arr_mid s (P ++ D) w1 (w2 ++ R2 ++ Q) (P ++ D ++ gap) R1 (R2 ++ Q)).
      * rewrite H1. rewrite <- !app_assoc. do 2 f_equal.
        rewrite !app_assoc. rewrite Ew. reflexivity.
      * zl. zpos. lia.
      * rewrite H1. apps.
      * zl. zpos. lia.
      * lia.
      * lia.
    + reflexivity.
    + unfold mach_lo; simpl. zl. repeat split; auto; try lia; apps.
Qed.

Definition post_lo (j : jump) (v : lv) : Prop :=
  match j with
  | JSucceed => nb v = 0 \/ na v = 0
  | JCopy => na v = 1 /\ 0 < nb v
  | JFail => ~ G
  | JGallop => 1 < na v /\ 0 < nb v
  end.

Lemma lo_single_spec fuel : forall mg ac bc v s, inv_lo s v -> 1 < na v -> 0 < nb v ->
  na v + nb v <= Z.of_nat fuel ->
  exists j v' s', lo_single cmp fuel mg ac bc v s = Done (j, v') s' /\ pend s' = pend s /\
    inv_lo s' v' /\ post_lo j v' /\ (j = JGallop -> na v' + nb v' < na v + nb v).
Proof.
  induction fuel; intros mg ac bc v s (D & gap & RA & RB & TA & Hm & Hg) Ha Hb Hf; [lia|].
  cbn [lo_single]. pose proof Hm as (H1 & H2 & H3 & H4 & H5 & H6 & H7 & H8).
  destruct (zlen_pos_inv RA) as (a & RA' & ->); [lia|].
  destruct (zlen_pos_inv RB) as (b & RB' & ->); [lia|].
  assert (G1 : get_arr (pb v) s = Done b s).
  { apply (get_arr_mid s (P ++ D ++ gap) b (RB' ++ Q)); [rewrite H1; apps|zl; zpos; lia]. }
  rewrite (bind_done _ _ _ _ _ G1).
  assert (G2 : get_tmp (pa v) s = Done a s).
  { apply (get_tmp_mid s TA a RA'); auto. }
  rewrite (bind_done _ _ _ _ _ G2).
  destruct (islt_spec cmp grab lt b a s) as (r & s1 & E1 & Q1 & W1).
  rewrite (bind_done _ _ _ _ _ E1).
  assert (Hm1 := mach_lo_quiet _ _ _ _ _ _ _ _ Q1 Hm).
  assert (P1 : pend s1 = pend s) by apply Q1.
  destruct r as [[]|].
  - destruct (lo_step_b _ _ _ _ _ _ _ _ Hm1) as (s2 & gap' & E2 & P2 & Hm2); [lia|].
    rewrite (bind_done _ _ _ _ _ E2). cbv zeta.
    assert (Hg2 : ghost_lo (D ++ [b]) (a :: RA') RB').
    { apply take_bs; auto. intros g y [<-|[]]. specialize (W1 (HG g)). congruence. }
    set (v2 := mklv (na v) (nb v - 1) (dst v + 1) (pa v) (pb v + 1)) in *.
    assert (I2 : inv_lo s2 v2) by (do 5 eexists; split; eauto).
    destruct (nb v2 =? 0) eqn:E3; [|destruct (mg <=? bc + 1) eqn:E4].
    + do 3 eexists. split; [reflexivity|]. split; [congruence|]. split; auto.
      split; [left; lia|discriminate].
    + do 3 eexists. split; [reflexivity|]. split; [congruence|]. split; auto.
      simpl in *. split; intros; lia.
    + destruct (IHfuel mg 0 (bc + 1) v2 s2) as (j & v' & s' & E5 & P5 & I5 & Po & Dc); auto;
        try (unfold v2 in *; simpl in *; lia).
      exists j, v', s'. split; auto. split; [congruence|]. split; auto. split; auto.
      intros Hj. specialize (Dc Hj). unfold v2 in Dc; simpl in Dc. lia.
  - destruct (lo_step_a _ _ _ _ _ _ _ _ Hm1) as (s2 & gap' & E2 & P2 & Hm2).
    rewrite (bind_done _ _ _ _ _ E2). cbv zeta.
    assert (Hg2 : ghost_lo (D ++ [a]) RA' (b :: RB')).
    { apply take_as; auto. intros g y [<-|[]]. specialize (W1 (HG g)). congruence. }
    set (v2 := mklv (na v - 1) (nb v) (dst v + 1) (pa v + 1) (pb v)) in *.
    assert (I2 : inv_lo s2 v2) by (do 5 eexists; split; eauto).
    destruct (na v2 =? 1) eqn:E3; [|destruct (mg <=? ac + 1) eqn:E4].
    + do 3 eexists. split; [reflexivity|]. split; [congruence|]. split; auto.
      split; [simpl in *; lia|discriminate].
    + do 3 eexists. split; [reflexivity|]. split; [congruence|]. split; auto.
      simpl in *. split; intros; lia.
    + destruct (IHfuel mg (ac + 1) 0 v2 s2) as (j & v' & s' & E5 & P5 & I5 & Po & Dc); auto;
        try (unfold v2 in *; simpl in *; lia).
      exists j, v', s'. split; auto. split; [congruence|]. split; auto. split; auto.
      intros Hj. specialize (Dc Hj). unfold v2 in Dc; simpl in Dc. lia.
  - do 3 eexists. split; [reflexivity|]. split; [auto|]. split; [do 5 eexists; split; eauto|].
    split; [|discriminate]. intros g. specialize (W1 (HG g)). discriminate.
Qed.

Lemma lo_gallop_spec fuel : forall mg v s, inv_lo s v -> 1 < na v -> 0 < nb v ->
  na v + nb v <= Z.of_nat fuel ->
  exists j mg' v' s', lo_gallop cmp fuel mg v s = Done (j, mg', v') s' /\ pend s' = pend s /\
    inv_lo s' v' /\ post_lo j v' /\ (j = JGallop -> na v' + nb v' < na v + nb v).
Proof.
  induction fuel; intros mg v s (D & gap & RA & RB & TA & Hm & Hg) Ha Hb Hf; [lia|].
  cbn [lo_gallop]. cbv zeta. set (mg1 := if 1 <? mg then mg - 1 else mg).
  rewrite (bind_done _ _ s tt (with_gallops mg1 s) eq_refl).
  apply (mach_lo_same s (with_gallops mg1 s)) in Hm; auto.
  assert (P0 : pend (with_gallops mg1 s) = pend s) by reflexivity.
  set (s0 := with_gallops mg1 s) in *. clearbody s0. rewrite <- P0. clear P0.
  pose proof Hm as (H1 & H2 & H3 & H4 & H5 & H6 & H7 & H8).
  destruct (zlen_pos_inv RB) as (b & RB' & ->); [lia|].
  assert (G1 : get_arr (pb v) s0 = Done b s0).
  { apply (get_arr_mid s0 (P ++ D ++ gap) b (RB' ++ Q)); [rewrite H1; apps|zl; zpos; lia]. }
  rewrite (bind_done _ _ _ _ _ G1).
  pose proof (ghost_lo_size _ _ _ Hg) as Sz. zpos.
  destruct (gallop_right_block cmp grab lt get_tmp tmp reads_tmp s0 TA RA [] (pa v) (na v) b 0)
    as (r & s1 & E1 & Q1 & R1 & W1); auto; try lia.
  { rewrite app_nil_r. auto. }
  rewrite (bind_done _ _ _ _ _ E1).
  assert (Hm1 := mach_lo_quiet _ _ _ _ _ _ _ _ Q1 Hm).
  assert (P1 : pend s1 = pend s0) by apply Q1.
  assert (Asc : G -> asc RA /\ asc (b :: RB')).
  { intros g. destruct Hg as (_ & Hg). destruct (Hg g) as (_ & S2 & S3 & _).
    apply asc_app in S2 as (_ & S2 & _). apply asc_app in S3 as (_ & S3 & _). auto. }
  destruct r as [k|].
  2:{ do 4 eexists. split; [reflexivity|]. split; [auto|]. split; [do 5 eexists; split; eauto|].
      split; [|discriminate]. intros g. destruct (W1 (HG g)) as (? & ? & _ & E & _); [apply Asc; auto|discriminate]. }
  specialize (R1 k eq_refl).
  assert (Sp : exists s1 s2, RA = s1 ++ s2 /\ zlen s1 = k /\
     (G -> (forall y, In y s1 -> lt b y = false) /\ (forall y, In y s2 -> lt b y = true))).
  { destruct (zsplit_le RA k) as (u & w & E & L); [lia|]. exists u, w. split; auto. split; auto.
    intros g. destruct (W1 (HG g)) as (u' & w' & E' & Ek & F1 & F2); [apply Asc; auto|].
    injection Ek as Ek. rewrite E in E'.
    destruct (app_split_eq u w u' w') as (-> & ->); auto. lia. }
  destruct Sp as (U1 & U2 & -> & Lk & GU).
  destruct (lo_step_as _ _ _ _ _ _ _ _ _ Hm1 Lk) as (s2 & gap2 & E2 & P2 & Hm2).
  rewrite (bind_done _ _ _ _ _ E2). cbv zeta.
  assert (Hg2 : ghost_lo (D ++ U1) U2 (b :: RB')).
  { apply take_as; auto. intros g. apply (GU g). }
  set (v2 := mklv (na v - k) (nb v) (dst v + k) (pa v + k) (pb v)) in *.
  assert (N2 : na v2 = na v - k) by reflexivity. assert (N2' : nb v2 = nb v) by reflexivity.
  clearbody v2.
  destruct (negb (k =? 0) && (na v2 =? 1)) eqn:C1.
  { do 4 eexists. split; [reflexivity|]. split; [congruence|]. split; [do 5 eexists; split; eauto|].
    split; [simpl; lia|discriminate]. }
  destruct (negb (k =? 0) && (na v2 =? 0)) eqn:C2.
  { do 4 eexists. split; [reflexivity|]. split; [congruence|]. split; [do 5 eexists; split; eauto|].
    split; [simpl; lia|discriminate]. }
  assert (Hna : 1 < na v2) by lia.
  pose proof Hm2 as (I1 & I2 & I3 & I4 & I5 & I6 & I7 & I8).
  destruct (zlen_pos_inv U2) as (a & U2' & ->); [lia|].
  destruct (lo_step_b _ _ _ _ _ _ _ _ Hm2) as (s3 & gap3 & E3 & P3 & Hm3); [lia|].
  rewrite (bind_done _ _ _ _ _ E3). cbv zeta.
  assert (Hg3 : ghost_lo ((D ++ U1) ++ [b]) (a :: U2') RB').
  { apply take_bs; auto. intros g y [<-|[]]. apply (GU g). left; auto. }
  set (v3 := mklv (na v2) (nb v2 - 1) (dst v2 + 1) (pa v2) (pb v2 + 1)) in *.
  assert (N3 : na v3 = na v2) by reflexivity. assert (N3' : nb v3 = nb v2 - 1) by reflexivity.
  clearbody v3.
  destruct (nb v3 =? 0) eqn:C3.
  { do 4 eexists. split; [reflexivity|]. split; [congruence|]. split; [do 5 eexists; split; eauto|].
    split; [simpl; lia|discriminate]. }
  pose proof Hm3 as (J1 & J2 & J3 & J4 & J5 & J6 & J7 & J8).
  assert (G2 : get_tmp (pa v3) s3 = Done a s3).
  { eapply get_tmp_mid; eauto. }
  rewrite (bind_done _ _ _ _ _ G2).
  pose proof (ghost_lo_size _ _ _ Hg3) as Sz3. zl. zpos.
  destruct (gallop_left_block cmp grab lt get_arr arr reads_arr s3 (P ++ ((D ++ U1) ++ [b]) ++ gap3) RB' Q (pb v3) (nb v3) a 0)
    as (r & s4 & E4 & Q4 & R4 & W4); auto; try (zl; zpos; lia).
  { rewrite J1. apps. }
  rewrite (bind_done _ _ _ _ _ E4).
  assert (Hm4 := mach_lo_quiet _ _ _ _ _ _ _ _ Q4 Hm3).
  assert (P4 : pend s4 = pend s3) by apply Q4.
  assert (Asc3 : G -> asc RB').
  { intros g. destruct (Asc g) as (_ & S). apply asc_cons in S. apply S. }
  destruct r as [k'|].
  2:{ do 4 eexists. split; [reflexivity|]. split; [congruence|]. split; [do 5 eexists; split; eauto|].
      split; [|discriminate]. intros g. destruct (W4 (HG g)) as (? & ? & _ & E & _); [apply Asc3; auto|discriminate]. }
  specialize (R4 k' eq_refl).
  assert (Sp : exists s1 s2, RB' = s1 ++ s2 /\ zlen s1 = k' /\
     (G -> (forall y, In y s1 -> lt y a = true) /\ (forall y, In y s2 -> lt y a = false))).
  { destruct (zsplit_le RB' k') as (u & w & E & L); [lia|]. exists u, w. split; auto. split; auto.
    intros g. destruct (W4 (HG g)) as (u' & w' & E' & Ek & F1 & F2); [apply Asc3; auto|].
    injection Ek as Ek. rewrite E in E'.
    destruct (app_split_eq u w u' w') as (-> & ->); auto. lia. }
  destruct Sp as (B1 & B2 & -> & Lk' & GB).
  destruct (lo_step_bs _ _ _ _ _ _ _ _ _ Hm4 Lk') as (s5 & gap5 & E5 & P5 & Hm5).
  rewrite (bind_done _ _ _ _ _ E5). cbv zeta.
  assert (Hg5 : ghost_lo (((D ++ U1) ++ [b]) ++ B1) (a :: U2') B2).
  { apply take_bs; auto. intros g. apply (GB g). }
  set (v5 := mklv (na v3) (nb v3 - k') (dst v3 + k') (pa v3) (pb v3 + k')) in *.
  assert (N5 : na v5 = na v3) by reflexivity. assert (N5' : nb v5 = nb v3 - k') by reflexivity.
  clearbody v5.
  destruct (negb (k' =? 0) && (nb v5 =? 0)) eqn:C5.
  { do 4 eexists. split; [reflexivity|]. split; [congruence|]. split; [do 5 eexists; split; eauto|].
    split; [simpl; lia|discriminate]. }
  pose proof Hm5 as (K1 & K2 & K3 & K4 & K5 & K6 & K7 & K8).
  destruct (lo_step_a _ _ _ _ _ _ _ _ Hm5) as (s6 & gap6 & E6 & P6 & Hm6).
  rewrite (bind_done _ _ _ _ _ E6). cbv zeta.
  destruct (zlen_pos_inv B2) as (b2 & B2' & ->); [lia|].
  assert (Hg6 : ghost_lo ((((D ++ U1) ++ [b]) ++ B1) ++ [a]) U2' (b2 :: B2')).
  { apply take_as; auto. intros g y [<-|[]]. apply (GB g). left; auto. }
  set (v6 := mklv (na v5 - 1) (nb v5) (dst v5 + 1) (pa v5 + 1) (pb v5)) in *.
  assert (N6 : na v6 = na v5 - 1) by reflexivity. assert (N6' : nb v6 = nb v5) by reflexivity.
  clearbody v6.
  assert (I6' : inv_lo s6 v6) by (do 5 eexists; split; eauto).
  destruct (na v6 =? 1) eqn:C6.
  { do 4 eexists. split; [reflexivity|]. split; [congruence|]. split; auto.
    split; [simpl; lia|discriminate]. }
  destruct ((MIN_GALLOP <=? k) || (MIN_GALLOP <=? k')) eqn:C7.
  - destruct (IHfuel mg1 v6 s6) as (j & mg' & v' & s' & E7 & P7 & I7' & Po & Dc); auto; try lia.
    exists j, mg', v', s'. split; auto. split; [congruence|]. split; auto. split; auto.
    intros Hj. specialize (Dc Hj). lia.
  - do 4 eexists. split; [reflexivity|]. split; [congruence|]. split; auto.
    split; [simpl; lia|intros; lia].
Qed.

Lemma inv_lo_same s s' v : arr s' = arr s -> tmp s' = tmp s -> inv_lo s v -> inv_lo s' v.
Proof.
  intros E1 E2 (D & gap & RA & RB & TA & Hm & Hg). do 5 eexists. split; eauto.
  eapply mach_lo_same; eauto.
Qed.

Lemma lo_outer_spec fuel : forall mg v s, inv_lo s v -> 1 < na v -> 0 < nb v ->
  na v + nb v <= Z.of_nat fuel ->
  exists j v' s', lo_outer cmp fuel mg v s = Done (j, v') s' /\ pend s' = pend s /\
    inv_lo s' v' /\ post_lo j v' /\ j <> JGallop.
Proof.
  induction fuel; intros mg v s Hi Ha Hb Hf; [lia|].
  simpl. destruct (lo_single_spec (Z.to_nat (na v + nb v)) mg 0 0 v s) as (j & v1 & s1 & E1 & P1 & I1 & Po1 & D1);
    auto; try lia.
  rewrite (bind_done _ _ _ _ _ E1).
  destruct j; try (do 3 eexists; split; [reflexivity|]; split; [congruence|]; split; [auto|]; split; [auto|discriminate]).
  specialize (D1 eq_refl). destruct Po1 as (Q1 & Q2).
  destruct (lo_gallop_spec (Z.to_nat (na v1 + nb v1)) (mg + 1) v1 s1) as (j & mg2 & v2 & s2 & E2 & P2 & I2 & Po2 & D2);
    auto; try lia.
  rewrite (bind_done _ _ _ _ _ E2).
  destruct j; try (do 3 eexists; split; [reflexivity|]; split; [congruence|]; split; [auto|]; split; [auto|discriminate]).
  specialize (D2 eq_refl). destruct Po2 as (Q3 & Q4).
  rewrite (bind_done _ _ s2 tt (with_gallops (mg2 + 1) s2) eq_refl).
  destruct (IHfuel (mg2 + 1) v2 (with_gallops (mg2 + 1) s2)) as (j & v3 & s3 & E3 & P3 & I3 & Po3 & D3); auto; try lia.
  exists j, v3, s3. split; auto. split; [simpl in P3; congruence|]. auto.
Qed.

(** What a merge of the two neighbouring runs [A0] and [B0] achieves. *)
Definition merged (C : list A) : Prop :=
  Permutation C (A0 ++ B0) /\ (G -> asc C /\ stb C (A0 ++ B0)).

Lemma merge_lo_spec s a nA b nB : arr s = P ++ A0 ++ B0 ++ Q -> a = zlen P -> nA = zlen A0 -> b = a + nA ->
  nB = zlen B0 -> 0 < nA -> 0 < nB ->
  (G -> asc A0 /\ asc B0 /\ (forall x y, In x A0 -> hd_error B0 = Some y -> lt y x = true) /\
        exists A' z, A0 = A' ++ [z] /\ forall y, In y B0 -> lt y z = true) ->
  exists r s' C, merge_lo cmp grab a nA b nB s = Done r s' /\ pend s' = pend s /\
    arr s' = P ++ C ++ Q /\ Permutation C (A0 ++ B0) /\
    (G -> r = Some tt /\ asc C /\ stb C (A0 ++ B0)).
Proof.
  intros Hs Ea EnA Eb EnB Ha Hb Hgood. unfold merge_lo.
  assert (HM : (exists s1, merge_getmem grab nA s = Done (Some tt) s1 /\ arr s1 = arr s /\ pend s1 = pend s /\ nA <= room s1)
     \/ (exists s1, merge_getmem grab nA s = Done None s1 /\ arr s1 = arr s /\ pend s1 = pend s /\ ~ G)).
  { unfold merge_getmem. destruct (nA <=? room s) eqn:E1; [left|destruct (grab nA) eqn:E2; [left|right]].
    - eexists; repeat split; lia.
    - eexists; repeat split; simpl; lia.
    - eexists; repeat split. intros g. destruct (HG g) as (_ & _ & H). rewrite H in E2. discriminate. }
  destruct HM as [(s1 & E1 & A1 & P1 & R1)|(s1 & E1 & A1 & P1 & NG)]; rewrite (bind_done _ _ _ _ _ E1).
  2:{ do 3 eexists. split; [reflexivity|]. split; auto. split; [rewrite A1, Hs, (app_assoc A0 B0 Q); reflexivity|].
      split; auto. intros g; contradiction. }
  assert (E2 : copy_to_tmp a nA s1 = Done tt (with_tmp A0 s1)).
  { eapply (copy_to_tmp_mid s1 P A0 (B0 ++ Q)); auto; congruence. }
  rewrite (bind_done _ _ _ _ _ E2).
  set (s2 := with_tmp A0 s1).
  destruct (zlen_pos_inv B0) as (b0 & B0' & EB); [lia|].
  set (v0 := mklv nA nB a 0 b).
  assert (Hm0 : mach_lo s2 v0 [] A0 A0 (b0 :: B0') []).
  { unfold mach_lo, v0; simpl. zl. rewrite EB in *. zl. repeat split; auto; try lia.
    rewrite A1, Hs. reflexivity. }
  destruct (lo_step_b _ _ _ _ _ _ _ _ Hm0) as (s3 & gap3 & E3 & P3 & Hm3); [simpl; lia|].
  simpl in E3. rewrite (bind_done _ _ _ _ _ E3). cbv zeta.
  simpl in Hm3. set (v := mklv nA (nB - 1) (a + 1) 0 (b + 1)) in *.
  destruct (zlen_pos_inv A0) as (a0 & A0' & EA); [lia|].
  assert (Hg3 : ghost_lo [b0] A0 B0').
  { rewrite EA. apply (take_bs [] a0 A0' [b0] B0').
    - split; [simpl; rewrite EA, EB; reflexivity|].
      intros g. destruct (Hgood g) as (S1 & S2 & S3 & A' & z & S4 & S5). simpl. rewrite EA, EB in *.
      split; [apply stable_refl|]. split; auto. split; auto. exists A', z. auto.
    - intros g y [<-|[]]. destruct (Hgood g) as (_ & _ & S3 & _). apply S3.
      + rewrite EA; left; auto.
      + rewrite EB; auto. }
  assert (I3 : inv_lo s3 v) by (do 5 eexists; split; eauto).
  assert (HR : exists j v' s', (if nb v =? 0 then ret (JSucceed, v)
            else if na v =? 1 then ret (JCopy, v)
            else bind get_gallops (fun mg => lo_outer cmp (Z.to_nat (na v + nb v)) mg v)) s3 = Done (j, v') s' /\
      pend s' = pend s3 /\ inv_lo s' v' /\ post_lo j v' /\ j <> JGallop).
  { assert (Nv : na v = nA /\ nb v = nB - 1) by auto. destruct Nv as (Nv1 & Nv2).
    destruct (nb v =? 0) eqn:C1; [|destruct (na v =? 1) eqn:C2].
    - do 3 eexists. split; [reflexivity|]. repeat split; auto; [left; lia|discriminate].
    - do 3 eexists. split; [reflexivity|]. repeat split; auto; try lia; discriminate.
    - rewrite (bind_done get_gallops _ s3 (gallops s3) s3 eq_refl). apply lo_outer_spec; auto; lia. }
  destruct HR as (j & v' & s4 & E4 & P4 & I4 & Po & Hj).
  rewrite (bind_done _ _ _ _ _ E4).
  destruct I4 as (D & gap & RA & RB & TA & Hm & Hg).
  pose proof Hm as (H1 & H2 & H3 & H4 & H5 & H6 & H7 & H8).
  assert (Pend : pend s4 = pend s) by (rewrite P4, P3; exact P1).
  clear E1 E2 E3 E4 Hm0 Hm3 Hg3 I3.
  assert (Finish : j <> JCopy -> exists r s' C,
    bind (if na v' =? 0 then ret tt else copy_from_tmp (dst v') (pa v') (na v'))
      (fun _ => ret (match j with JFail => None | _ => Some tt end)) s4 = Done r s' /\ pend s' = pend s /\
    arr s' = P ++ C ++ Q /\ Permutation C (A0 ++ B0) /\
    (G -> r = Some tt /\ asc C /\ stb C (A0 ++ B0))).
  { intros Hc.
    assert (Hm' : mach_lo s4 v' D gap (RA ++ []) RB TA) by (rewrite app_nil_r; auto).
    destruct (lo_step_as _ _ _ _ _ _ _ _ (na v') Hm') as (s5 & gap5 & E5 & P5 & Hm5); [lia|].
    rewrite (bind_done _ _ _ _ _ E5). do 2 eexists. exists (D ++ RA ++ RB).
    split; [reflexivity|]. split; [congruence|].
    destruct Hm5 as (K1 & K2 & K3 & _). zl.
    assert (gap5 = []) by (apply zlen_nil_inv; auto). subst gap5.
    split; [rewrite K1; apps|]. destruct Hg as (G1 & G2). split; auto.
    intros g. destruct (G2 g) as (S1 & S2 & S3 & A' & z & S4 & S5).
    destruct j; simpl in Po; try contradiction; try congruence.
    split; auto. split; [|exact S1].
    destruct Po as [Po|Po].
    - assert (RB = []) by (apply zlen_nil_inv; lia). subst RB. rewrite app_nil_r. auto.
    - assert (RA = []) by (apply zlen_nil_inv; lia). rewrite H. simpl. auto. }
  destruct j; try (apply Finish; discriminate).
  (* CopyB *)
  clear Finish. simpl in Po. destruct Po as (Po1 & Po2).
  destruct (zlen_one_inv RA) as (z & ->); [lia|].
  assert (Hm' : mach_lo s4 v' D gap [z] (RB ++ []) TA) by (rewrite app_nil_r; auto).
  destruct (lo_step_bs _ _ _ _ _ _ _ _ (nb v') Hm') as (s5 & gap5 & E5 & P5 & Hm5); [lia|].
  replace (nb v' =? 0) with false in E5 by lia.
  rewrite (bind_done _ _ _ _ _ E5).
  destruct (lo_step_a _ _ _ _ _ _ _ _ Hm5) as (s6 & gap6 & E6 & P6 & Hm6).
  simpl in E6. rewrite (bind_done _ _ _ _ _ E6).
  do 2 eexists. exists (D ++ RB ++ [z]). split; [reflexivity|]. split; [congruence|].
  destruct Hm6 as (K1 & K2 & K3 & _). zl.
  assert (gap6 = []) by (apply zlen_nil_inv; auto). subst gap6.
  split; [rewrite K1; apps|]. destruct Hg as (G1 & G2). split.
  { rewrite <- G1. apply Permutation_app_head. apply Permutation_app_comm. }
  intros g. split; auto. destruct (G2 g) as (S1 & S2 & S3 & A' & z' & S4 & S5).
  assert (z' = z). { destruct A' as [|? [|]]; simpl in S4; try discriminate. congruence. }
  subst z'. pose proof (G_wo g) as W. split.
  - rewrite app_assoc. apply asc_app. split; auto. split; [apply asc_one|].
    intros x y Hx [<-|[]]. apply in_app_or in Hx as [Hx|Hx].
    + apply asc_app in S2 as (_ & _ & S2). apply S2; simpl; auto.
    + apply lt_asym; auto.
  - eapply stable_trans; [|exact S1]. apply stb_app; [apply stable_refl|].
    apply stb_swap; auto. intros x y Hx [<-|[]]. apply lt_not_equiv; auto.
Qed.

(** ** Merging from the right *)

Definition ghost_hi (RA RB D : list A) : Prop :=
  Permutation (RA ++ RB ++ D) (A0 ++ B0) /\
  (G -> stb (RA ++ RB ++ D) (A0 ++ B0) /\ asc (RA ++ D) /\ asc (RB ++ D) /\
        exists z B', RB = z :: B' /\ forall a, In a RA -> lt z a = true).

Lemma ghost_hi_size RA RB D : ghost_hi RA RB D -> zlen D + zlen RA + zlen RB = zlen A0 + zlen B0.
Proof.
  intros (H & _). apply Permutation_length in H. unfold zlen. rewrite !app_length in H. lia.
Qed.

Lemma take_as_hi R1 R2 B b D : ghost_hi (R1 ++ R2) (B ++ [b]) D ->
  (G -> forall y, In y R2 -> lt b y = true) -> ghost_hi R1 (B ++ [b]) (R2 ++ D).
Proof.
  intros (H1 & H2) H3. split.
  - rewrite <- H1. rewrite <- (app_assoc R1 R2). apply Permutation_app_head.
    rewrite !(app_assoc _ _ D). apply Permutation_app_tail. apply Permutation_app_comm.
  - intros g. destruct (H2 g) as (S1 & S2 & S3 & z & B' & E & S4). specialize (H3 g).
    pose proof (G_wo g) as W.
    assert (L : forall x y, In x (B ++ [b]) -> In y R2 -> lt x y = true).
    { intros x y Hx Hy. apply asc_app in S3 as (S3 & _ & _).
      eapply le_lt_trans; eauto. eapply asc_last; eauto. }
    split; [|split; [|split]].
    + eapply stable_trans; [|exact S1]. rewrite <- (app_assoc R1 R2). apply stb_app; [apply stable_refl|].
      rewrite !(app_assoc _ _ D). apply stb_app; [|apply stable_refl].
      apply stb_swap; auto. intros x y Hx Hy. apply lt_not_equiv; auto.
    + rewrite app_assoc. exact S2.
    + rewrite <- app_assoc in S2. apply asc_app in S2 as (_ & S2 & _).
      apply asc_app in S3 as (S3 & _ & S3').
      apply asc_app. split; [exact S3|]. split; [exact S2|].
      intros x y Hx Hy. apply in_app_or in Hy as [Hy|Hy]; auto. apply lt_asym; auto.
    + exists z, B'. split; auto. intros a Ha. apply S4. apply in_or_app; auto.
Qed.

Lemma take_bs_hi R a R1 R2 D : ghost_hi (R ++ [a]) (R1 ++ R2) D ->
  (G -> forall y, In y R2 -> lt y a = false) -> ghost_hi (R ++ [a]) R1 (R2 ++ D).
Proof.
  intros (H1 & H2) H3. split.
  - rewrite <- H1. rewrite (app_assoc R1 R2 D). reflexivity.
  - intros g. destruct (H2 g) as (S1 & S2 & S3 & z & B' & E & S4). specialize (H3 g).
    pose proof (G_wo g) as W.
    rewrite (app_assoc R1 R2 D). split; [exact S1|]. split; [|split; [exact S3|]].
    + rewrite <- app_assoc in S3. apply asc_app in S3 as (_ & S3 & _).
      apply asc_app in S2 as (S2 & _ & S2').
      apply asc_app. split; [exact S2|]. split; [exact S3|].
      intros x y Hx Hy. apply in_app_or in Hy as [Hy|Hy]; auto.
      eapply le_trans; eauto. eapply asc_last; eauto.
    + destruct R1 as [|r R1].
      * exfalso. simpl in E. subst R2.
        specialize (H3 z (or_introl eq_refl)). rewrite (S4 a) in H3; [discriminate|].
        apply in_or_app; simpl; auto.
      * injection E as -> E. exists z, R1. auto.
Qed.

(** The buffer keeps B from its start; the slots above [RB] are used up. *)
Definition mach_hi (s : st) (v : lv) (RA gap RB TB D : list A) : Prop :=
  arr s = P ++ RA ++ gap ++ D ++ Q /\ tmp s = RB ++ TB /\ zlen gap = zlen RB /\
  na v = zlen RA /\ nb v = zlen RB /\ dst v = zlen P + zlen RA + zlen gap - 1 /\
  pa v = zlen P + zlen RA - 1 /\ pb v = zlen RB - 1.

Definition inv_hi (s : st) (v : lv) : Prop :=
  exists RA gap RB TB D, mach_hi s v RA gap RB TB D /\ ghost_hi RA RB D.

Lemma mach_hi_same s s' v RA gap RB TB D : arr s' = arr s -> tmp s' = tmp s ->
  mach_hi s v RA gap RB TB D -> mach_hi s' v RA gap RB TB D.
Proof. unfold mach_hi. intuition congruence. Qed.
Lemma mach_hi_quiet s s' v RA gap RB TB D : quiet s s' ->
  mach_hi s v RA gap RB TB D -> mach_hi s' v RA gap RB TB D.
Proof. unfold quiet, mach_hi. intuition congruence. Qed.

Lemma hi_step_a s v RA a gap RB TB D : mach_hi s v (RA ++ [a]) gap RB TB D -> 0 < nb v ->
  exists s' gap', copy_arr_arr (dst v) (pa v) s = Done tt s' /\ pend s' = pend s /\
    mach_hi s' (mklv (na v - 1) (nb v) (dst v - 1) (pa v - 1) (pb v)) RA gap' RB TB ([a] ++ D).
Proof.
  intros (H1 & H2 & H3 & H4 & H5 & H6 & H7 & H8) Hn.
  destruct (zlen_pos_last gap) as (gr & g & ->); [lia|].
  eexists _, (a :: gr). split; [|split].
  - apply (copy_arr_arr_mid s (P ++ RA ++ a :: gr) g (D ++ Q) (P ++ RA) a (gr ++ g :: D ++ Q)).
    + rewrite H1. apps.
    + zl. zpos. lia.
    + rewrite H1. apps.
    + zl. zpos. lia.
  - reflexivity.
  - unfold mach_hi; simpl. zl. zpos. repeat split; auto; try lia. apps.
Qed.

Lemma hi_step_b s v RA gap RB b TB D : mach_hi s v RA gap (RB ++ [b]) TB D ->
  exists s' gap', copy_arr_tmp (dst v) (pb v) s = Done tt s' /\ pend s' = pend s /\
    mach_hi s' (mklv (na v) (nb v - 1) (dst v - 1) (pa v) (pb v - 1)) RA gap' RB ([b] ++ TB) ([b] ++ D).
Proof.
  intros (H1 & H2 & H3 & H4 & H5 & H6 & H7 & H8).
  destruct (zlen_pos_last gap) as (gr & g & ->); [zl; zpos; lia|].
  eexists _, gr. split; [|split].
  - apply (copy_arr_tmp_mid s (P ++ RA ++ gr) g (D ++ Q) RB b TB).
    + rewrite H1. apps.
    + zl. zpos. lia.
    + rewrite H2. apps.
    + zl. zpos. lia.
  - reflexivity.
  - unfold mach_hi; simpl. zl. zpos. rewrite H2. repeat split; auto; try lia; apps.
Qed.

Lemma hi_step_as s v R1 R2 gap RB TB D k : mach_hi s v (R1 ++ R2) gap RB TB D -> zlen R2 = k ->
  exists s' gap', (if k =? 0 then ret tt else move_in_arr (dst v - k + 1) (pa v - k + 1) k) s = Done tt s' /\
    pend s' = pend s /\
    mach_hi s' (mklv (na v - k) (nb v) (dst v - k) (pa v - k) (pb v)) R1 gap' RB TB (R2 ++ D).
Proof.
  intros (H1 & H2 & H3 & H4 & H5 & H6 & H7 & H8) Hk. zpos.
  destruct (zsplit_le2 (R2 ++ gap) (zlen gap)) as (w1 & w2 & Ew & L1 & L2); [zl; zpos; lia|].
  destruct (k =? 0) eqn:E.
  - assert (R2 = []) by (apply zlen_nil_inv; lia).
    subst R2. exists s, gap. split; [reflexivity|]. split; [reflexivity|].
    rewrite !app_nil_r in *. unfold mach_hi; simpl in *. zl. repeat split; auto; lia.
  - eexists _, w1. split; [|split].
    + apply (move_in_arr_mid s (P ++ R1 ++ w1) w2 (D ++ Q) (P ++ R1) R2 (gap ++ D ++ Q)).
      * rewrite H1. rewrite <- !app_assoc. do 2 f_equal.
        rewrite (app_assoc R2 gap), Ew. apps.
      * zl. zpos. lia.
      * rewrite H1. apps.
      * zl. zpos. lia.
      * lia.
      * zl. lia.
    + reflexivity.
    + unfold mach_hi; simpl. zl. zpos. repeat split; auto; try lia; apps.
Qed.

Lemma hi_step_bs s v RA gap R1 R2 TB D k : mach_hi s v RA gap (R1 ++ R2) TB D -> zlen R2 = k ->
  exists s' gap', (if k =? 0 then ret tt else copy_from_tmp (dst v - k + 1) (pb v - k + 1) k) s = Done tt s' /\
    pend s' = pend s /\
    mach_hi s' (mklv (na v) (nb v - k) (dst v - k) (pa v) (pb v - k)) RA gap' R1 (R2 ++ TB) (R2 ++ D).
Proof.
  intros (H1 & H2 & H3 & H4 & H5 & H6 & H7 & H8) Hk. zpos.
  destruct (zsplit_le2 gap (zlen R1)) as (g1 & g2 & -> & L1 & L2); [zl; zpos; lia|].
  destruct (k =? 0) eqn:E.
  - assert (R2 = []) by (apply zlen_nil_inv; lia). assert (g2 = []) by (apply zlen_nil_inv; zl; lia).
    subst R2 g2. exists s, g1. split; [reflexivity|]. split; [reflexivity|].
    rewrite !app_nil_r in *. unfold mach_hi; simpl in *. zl. repeat split; auto; lia.
  - eexists _, g1. split; [|split].
    + apply (copy_from_tmp_mid s (P ++ RA ++ g1) g2 (D ++ Q) R1 R2 TB).
      * rewrite H1. apps.
      * zl. zpos. lia.
      * rewrite H2. apps.
      * zl. zpos. lia.
      * lia.
      * zl. lia.
    + reflexivity.
    + unfold mach_hi; simpl. zl. zpos. rewrite H2. repeat split; auto; try lia; apps.
Qed.

Definition post_hi (j : jump) (v : lv) : Prop :=
  match j with
  | JSucceed => na v = 0 \/ nb v = 0
  | JCopy => nb v = 1 /\ 0 < na v
  | JFail => ~ G
  | JGallop => 1 < nb v /\ 0 < na v
  end.

Lemma hi_single_spec fuel : forall mg ac bc v s, inv_hi s v -> 0 < na v -> 1 < nb v ->
  na v + nb v <= Z.of_nat fuel ->
  exists j v' s', hi_single cmp fuel mg ac bc v s = Done (j, v') s' /\ pend s' = pend s /\
    inv_hi s' v' /\ post_hi j v' /\ (j = JGallop -> na v' + nb v' < na v + nb v).
Proof.
  induction fuel; intros mg ac bc v s (RA & gap & RB & TB & D & Hm & Hg) Ha Hb Hf; [lia|].
  cbn [hi_single]. pose proof Hm as (H1 & H2 & H3 & H4 & H5 & H6 & H7 & H8).
  destruct (zlen_pos_last RA) as (RA' & a & ->); [lia|].
  destruct (zlen_pos_last RB) as (RB' & b & ->); [lia|].
  assert (G2 : get_tmp (pb v) s = Done b s).
  { apply (get_tmp_mid s RB' b TB); [rewrite H2; apps|zl; zpos; lia]. }
  rewrite (bind_done _ _ _ _ _ G2).
  assert (G1 : get_arr (pa v) s = Done a s).
  { apply (get_arr_mid s (P ++ RA') a (gap ++ D ++ Q)); [rewrite H1; apps|zl; zpos; lia]. }
  rewrite (bind_done _ _ _ _ _ G1).
  destruct (islt_spec cmp grab lt b a s) as (r & s1 & E1 & Q1 & W1).
  rewrite (bind_done _ _ _ _ _ E1).
  assert (Hm1 := mach_hi_quiet _ _ _ _ _ _ _ _ Q1 Hm).
  assert (P1 : pend s1 = pend s) by apply Q1.
  destruct r as [[]|].
  - destruct (hi_step_a _ _ _ _ _ _ _ _ Hm1) as (s2 & gap' & E2 & P2 & Hm2); [lia|].
    rewrite (bind_done _ _ _ _ _ E2). cbv zeta.
    assert (Hg2 : ghost_hi RA' (RB' ++ [b]) ([a] ++ D)).
    { apply take_as_hi; auto. intros g y [<-|[]]. specialize (W1 (HG g)). congruence. }
    set (v2 := mklv (na v - 1) (nb v) (dst v - 1) (pa v - 1) (pb v)) in *.
    assert (I2 : inv_hi s2 v2) by (do 5 eexists; split; eauto).
    destruct (na v2 =? 0) eqn:E3; [|destruct (mg <=? ac + 1) eqn:E4].
    + do 3 eexists. split; [reflexivity|]. split; [congruence|]. split; auto.
      split; [left; lia|discriminate].
    + do 3 eexists. split; [reflexivity|]. split; [congruence|]. split; auto.
      simpl in *. split; intros; lia.
    + destruct (IHfuel mg (ac + 1) 0 v2 s2) as (j & v' & s' & E5 & P5 & I5 & Po & Dc); auto;
        try (unfold v2 in *; simpl in *; lia).
      exists j, v', s'. split; auto. split; [congruence|]. split; auto. split; auto.
      intros Hj. specialize (Dc Hj). unfold v2 in Dc; simpl in Dc. lia.
  - destruct (hi_step_b _ _ _ _ _ _ _ _ Hm1) as (s2 & gap' & E2 & P2 & Hm2).
    rewrite (bind_done _ _ _ _ _ E2). cbv zeta.
    assert (Hg2 : ghost_hi (RA' ++ [a]) RB' ([b] ++ D)).
    { apply take_bs_hi; auto. intros g y [<-|[]]. specialize (W1 (HG g)). congruence. }
    set (v2 := mklv (na v) (nb v - 1) (dst v - 1) (pa v) (pb v - 1)) in *.
    assert (I2 : inv_hi s2 v2) by (do 5 eexists; split; eauto).
    destruct (nb v2 =? 1) eqn:E3; [|destruct (mg <=? bc + 1) eqn:E4].
    + do 3 eexists. split; [reflexivity|]. split; [congruence|]. split; auto.
      split; [simpl in *; lia|discriminate].
    + do 3 eexists. split; [reflexivity|]. split; [congruence|]. split; auto.
      simpl in *. split; intros; lia.
    + destruct (IHfuel mg 0 (bc + 1) v2 s2) as (j & v' & s' & E5 & P5 & I5 & Po & Dc); auto;
        try (unfold v2 in *; simpl in *; lia).
      exists j, v', s'. split; auto. split; [congruence|]. split; auto. split; auto.
      intros Hj. specialize (Dc Hj). unfold v2 in Dc; simpl in Dc. lia.
  - do 3 eexists. split; [reflexivity|]. split; [auto|]. split; [do 5 eexists; split; eauto|].
    split; [|discriminate]. intros g. specialize (W1 (HG g)). discriminate.
Qed.

Lemma hi_gallop_spec fuel : forall mg v s, inv_hi s v -> 0 < na v -> 1 < nb v ->
  na v + nb v <= Z.of_nat fuel ->
  exists j mg' v' s', hi_gallop cmp fuel (zlen P) mg v s = Done (j, mg', v') s' /\ pend s' = pend s /\
    inv_hi s' v' /\ post_hi j v' /\ (j = JGallop -> na v' + nb v' < na v + nb v).
Proof.
  induction fuel; intros mg v s (RA & gap & RB & TB & D & Hm & Hg) Ha Hb Hf; [lia|].
  cbn [hi_gallop]. cbv zeta. set (mg1 := if 1 <? mg then mg - 1 else mg).
  rewrite (bind_done _ _ s tt (with_gallops mg1 s) eq_refl).
  apply (mach_hi_same s (with_gallops mg1 s)) in Hm; auto.
  assert (P0 : pend (with_gallops mg1 s) = pend s) by reflexivity.
  set (s0 := with_gallops mg1 s) in *. clearbody s0. rewrite <- P0. clear P0.
  pose proof Hm as (H1 & H2 & H3 & H4 & H5 & H6 & H7 & H8).
  destruct (zlen_pos_last RB) as (RB' & b & ->); [lia|].
  assert (G1 : get_tmp (pb v) s0 = Done b s0).
  { apply (get_tmp_mid s0 RB' b TB); [rewrite H2; apps|zl; zpos; lia]. }
  rewrite (bind_done _ _ _ _ _ G1).
  pose proof (ghost_hi_size _ _ _ Hg) as Sz. zpos.
  destruct (gallop_right_block cmp grab lt get_arr arr reads_arr s0 P RA (gap ++ D ++ Q) (zlen P) (na v) b (na v - 1))
    as (r & s1 & E1 & Q1 & R1 & W1); auto; try lia.
  rewrite (bind_done _ _ _ _ _ E1).
  assert (Hm1 := mach_hi_quiet _ _ _ _ _ _ _ _ Q1 Hm).
  assert (P1 : pend s1 = pend s0) by apply Q1.
  assert (Asc : G -> asc RA /\ asc (RB' ++ [b])).
  { intros g. destruct Hg as (_ & Hg). destruct (Hg g) as (_ & S2 & S3 & _).
    apply asc_app in S2 as (S2 & _ & _). apply asc_app in S3 as (S3 & _ & _). auto. }
  destruct r as [k|].
  2:{ do 4 eexists. split; [reflexivity|]. split; [auto|]. split; [do 5 eexists; split; eauto|].
      split; [|discriminate]. intros g. destruct (W1 (HG g)) as (? & ? & _ & E & _); [apply Asc; auto|discriminate]. }
  specialize (R1 k eq_refl).
  assert (Sp : exists s1 s2, RA = s1 ++ s2 /\ zlen s1 = k /\
     (G -> (forall y, In y s1 -> lt b y = false) /\ (forall y, In y s2 -> lt b y = true))).
  { destruct (zsplit_le RA k) as (u & w & E & L); [lia|]. exists u, w. split; auto. split; auto.
    intros g. destruct (W1 (HG g)) as (u' & w' & E' & Ek & F1 & F2); [apply Asc; auto|].
    injection Ek as Ek. rewrite E in E'.
    destruct (app_split_eq u w u' w') as (-> & ->); auto. lia. }
  destruct Sp as (U1 & U2 & -> & Lk & GU).
  assert (Lk2 : zlen U2 = na v - k) by (zl; lia).
  destruct (hi_step_as _ _ _ _ _ _ _ _ _ Hm1 Lk2) as (s2 & gap2 & E2 & P2 & Hm2).
  set (ac := na v - k) in *.
  set (v2 := mklv (na v - ac) (nb v) (dst v - ac) (pa v - ac) (pb v)) in *.
  assert (N2 : na v2 = na v - ac) by reflexivity. assert (N2' : nb v2 = nb v) by reflexivity.
  change (dst v - ac) with (dst v2) in E2. change (pa v - ac) with (pa v2) in E2.
  assert (Hg2 : ghost_hi U1 (RB' ++ [b]) (U2 ++ D)).
  { apply take_as_hi; auto. intros g. apply (GU g). }
  clearbody v2.
  rewrite (bind_done _ _ _ _ _ E2).
  destruct (negb (ac =? 0) && (na v2 =? 0)) eqn:C1.
  { do 4 eexists. split; [reflexivity|]. split; [congruence|]. split; [do 5 eexists; split; eauto|].
    split; [simpl; lia|discriminate]. }
  pose proof Hm2 as (I1 & I2 & I3 & I4 & I5 & I6 & I7 & I8).
  assert (Hna : 0 < na v2) by lia.
  destruct (hi_step_b _ _ _ _ _ _ _ _ Hm2) as (s3 & gap3 & E3 & P3 & Hm3).
  rewrite (bind_done _ _ _ _ _ E3).
  destruct (zlen_pos_last U1) as (U1' & a & ->); [lia|].
  assert (Hg3 : ghost_hi (U1' ++ [a]) RB' ([b] ++ U2 ++ D)).
  { apply take_bs_hi; auto. intros g y [<-|[]]. apply (GU g). apply in_or_app; simpl; auto. }
  set (v3 := mklv (na v2) (nb v2 - 1) (dst v2 - 1) (pa v2) (pb v2 - 1)) in *.
  assert (N3 : na v3 = na v2) by reflexivity. assert (N3' : nb v3 = nb v2 - 1) by reflexivity.
  clearbody v3.
  destruct (nb v3 =? 1) eqn:C3.
  { do 4 eexists. split; [reflexivity|]. split; [congruence|]. split; [do 5 eexists; split; eauto|].
    split; [simpl; lia|discriminate]. }
  pose proof Hm3 as (J1 & J2 & J3 & J4 & J5 & J6 & J7 & J8).
  assert (G2 : get_arr (pa v3) s3 = Done a s3).
  { apply (get_arr_mid s3 (P ++ U1') a (gap3 ++ ([b] ++ U2 ++ D) ++ Q)); [rewrite J1; apps|zl; zpos; lia]. }
  rewrite (bind_done _ _ _ _ _ G2).
  pose proof (ghost_hi_size _ _ _ Hg3) as Sz3. zl. zpos.
  destruct (gallop_left_block cmp grab lt get_tmp tmp reads_tmp s3 [] RB' ([b] ++ TB) 0 (nb v3) a (nb v3 - 1))
    as (r & s4 & E4 & Q4 & R4 & W4); auto; try (zl; zpos; lia).
  rewrite (bind_done _ _ _ _ _ E4).
  assert (Hm4 := mach_hi_quiet _ _ _ _ _ _ _ _ Q4 Hm3).
  assert (P4 : pend s4 = pend s3) by apply Q4.
  assert (Asc3 : G -> asc RB').
  { intros g. destruct (Asc g) as (_ & S). apply asc_app in S. apply S. }
  destruct r as [k'|].
  2:{ do 4 eexists. split; [reflexivity|]. split; [congruence|]. split; [do 5 eexists; split; eauto|].
      split; [|discriminate]. intros g. destruct (W4 (HG g)) as (? & ? & _ & E & _); [apply Asc3; auto|discriminate]. }
  specialize (R4 k' eq_refl).
  assert (Sp : exists s1 s2, RB' = s1 ++ s2 /\ zlen s1 = k' /\
     (G -> (forall y, In y s1 -> lt y a = true) /\ (forall y, In y s2 -> lt y a = false))).
  { destruct (zsplit_le RB' k') as (u & w & E & L); [lia|]. exists u, w. split; auto. split; auto.
    intros g. destruct (W4 (HG g)) as (u' & w' & E' & Ek & F1 & F2); [apply Asc3; auto|].
    injection Ek as Ek. rewrite E in E'.
    destruct (app_split_eq u w u' w') as (-> & ->); auto. lia. }
  destruct Sp as (B1 & B2 & -> & Lk' & GB).
  assert (Lk2' : zlen B2 = nb v3 - k') by (zl; lia).
  destruct (hi_step_bs _ _ _ _ _ _ _ _ _ Hm4 Lk2') as (s5 & gap5 & E5 & P5 & Hm5).
  set (bc := nb v3 - k') in *.
  set (v5 := mklv (na v3) (nb v3 - bc) (dst v3 - bc) (pa v3) (pb v3 - bc)) in *.
  assert (N5 : na v5 = na v3) by reflexivity. assert (N5' : nb v5 = nb v3 - bc) by reflexivity.
  change (dst v3 - bc) with (dst v5) in E5. change (pb v3 - bc) with (pb v5) in E5.
  assert (Hg5 : ghost_hi (U1' ++ [a]) B1 (B2 ++ [b] ++ U2 ++ D)).
  { apply take_bs_hi; auto. intros g. apply (GB g). }
  clearbody v5.
  rewrite (bind_done _ _ _ _ _ E5).
  destruct (negb (bc =? 0) && (nb v5 =? 1)) eqn:C5.
  { do 4 eexists. split; [reflexivity|]. split; [congruence|]. split; [do 5 eexists; split; eauto|].
    split; [simpl; lia|discriminate]. }
  destruct (negb (bc =? 0) && (nb v5 =? 0)) eqn:C5'.
  { do 4 eexists. split; [reflexivity|]. split; [congruence|]. split; [do 5 eexists; split; eauto|].
    split; [simpl; lia|discriminate]. }
  pose proof Hm5 as (K1 & K2 & K3 & K4 & K5 & K6 & K7 & K8).
  destruct (hi_step_a _ _ _ _ _ _ _ _ Hm5) as (s6 & gap6 & E6 & P6 & Hm6); [lia|].
  rewrite (bind_done _ _ _ _ _ E6).
  destruct (zlen_pos_last B1) as (B1' & b2 & ->); [lia|].
  assert (Hg6 : ghost_hi U1' (B1' ++ [b2]) ([a] ++ B2 ++ [b] ++ U2 ++ D)).
  { apply take_as_hi; auto. intros g y [<-|[]]. apply (GB g). apply in_or_app; simpl; auto. }
  set (v6 := mklv (na v5 - 1) (nb v5) (dst v5 - 1) (pa v5 - 1) (pb v5)) in *.
  assert (N6 : na v6 = na v5 - 1) by reflexivity. assert (N6' : nb v6 = nb v5) by reflexivity.
  clearbody v6.
  assert (I6' : inv_hi s6 v6) by (do 5 eexists; split; eauto).
  destruct (na v6 =? 0) eqn:C6.
  { do 4 eexists. split; [reflexivity|]. split; [congruence|]. split; auto.
    split; [simpl; lia|discriminate]. }
  destruct ((MIN_GALLOP <=? ac) || (MIN_GALLOP <=? bc)) eqn:C7.
  - destruct (IHfuel mg1 v6 s6) as (j & mg' & v' & s' & E7 & P7 & I7' & Po & Dc); auto; try lia.
    exists j, mg', v', s'. split; auto. split; [congruence|]. split; auto. split; auto.
    intros Hj. specialize (Dc Hj). lia.
  - do 4 eexists. split; [reflexivity|]. split; [congruence|]. split; auto.
    split; [simpl; lia|intros; lia].
Qed.

Lemma hi_outer_spec fuel : forall mg v s, inv_hi s v -> 0 < na v -> 1 < nb v ->
  na v + nb v <= Z.of_nat fuel ->
  exists j v' s', hi_outer cmp fuel (zlen P) mg v s = Done (j, v') s' /\ pend s' = pend s /\
    inv_hi s' v' /\ post_hi j v' /\ j <> JGallop.
Proof.
  induction fuel; intros mg v s Hi Ha Hb Hf; [lia|].
  simpl. destruct (hi_single_spec (Z.to_nat (na v + nb v)) mg 0 0 v s) as (j & v1 & s1 & E1 & P1 & I1 & Po1 & D1);
    auto; try lia.
  rewrite (bind_done _ _ _ _ _ E1).
  destruct j; try (do 3 eexists; split; [reflexivity|]; split; [congruence|]; split; [auto|]; split; [auto|discriminate]).
  specialize (D1 eq_refl). destruct Po1 as (Q1 & Q2).
  destruct (hi_gallop_spec (Z.to_nat (na v1 + nb v1)) (mg + 1) v1 s1) as (j & mg2 & v2 & s2 & E2 & P2 & I2 & Po2 & D2);
    auto; try lia.
  rewrite (bind_done _ _ _ _ _ E2).
  destruct j; try (do 3 eexists; split; [reflexivity|]; split; [congruence|]; split; [auto|]; split; [auto|discriminate]).
  specialize (D2 eq_refl). destruct Po2 as (Q3 & Q4).
  rewrite (bind_done _ _ s2 tt (with_gallops (mg2 + 1) s2) eq_refl).
  destruct (IHfuel (mg2 + 1) v2 (with_gallops (mg2 + 1) s2)) as (j & v3 & s3 & E3 & P3 & I3 & Po3 & D3); auto; try lia.
  exists j, v3, s3. split; auto. split; [simpl in P3; congruence|]. auto.
Qed.

Lemma merge_hi_spec s a nA b nB : arr s = P ++ A0 ++ B0 ++ Q -> a = zlen P -> nA = zlen A0 -> b = a + nA ->
  nB = zlen B0 -> 0 < nA -> 0 < nB ->
  (G -> asc A0 /\ asc B0 /\ (forall x y, In x A0 -> hd_error B0 = Some y -> lt y x = true) /\
        exists A' z, A0 = A' ++ [z] /\ forall y, In y B0 -> lt y z = true) ->
  exists r s' C, merge_hi cmp grab a nA b nB s = Done r s' /\ pend s' = pend s /\
    arr s' = P ++ C ++ Q /\ Permutation C (A0 ++ B0) /\
    (G -> r = Some tt /\ asc C /\ stb C (A0 ++ B0)).
Proof.
  intros Hs Ea EnA Eb EnB Ha Hb Hgood. unfold merge_hi.
  assert (HM : (exists s1, merge_getmem grab nB s = Done (Some tt) s1 /\ arr s1 = arr s /\ pend s1 = pend s /\ nB <= room s1)
     \/ (exists s1, merge_getmem grab nB s = Done None s1 /\ arr s1 = arr s /\ pend s1 = pend s /\ ~ G)).
  { unfold merge_getmem. destruct (nB <=? room s) eqn:E1; [left|destruct (grab nB) eqn:E2; [left|right]].
    - eexists; repeat split; lia.
    - eexists; repeat split; simpl; lia.
    - eexists; repeat split. intros g. destruct (HG g) as (_ & _ & H). rewrite H in E2. discriminate. }
  destruct HM as [(s1 & E1 & A1 & P1 & R1)|(s1 & E1 & A1 & P1 & NG)]; rewrite (bind_done _ _ _ _ _ E1).
  2:{ do 3 eexists. split; [reflexivity|]. split; auto. split; [rewrite A1, Hs, (app_assoc A0 B0 Q); reflexivity|].
      split; auto. intros g; contradiction. }
  assert (E2 : copy_to_tmp b nB s1 = Done tt (with_tmp B0 s1)).
  { eapply (copy_to_tmp_mid s1 (P ++ A0) B0 Q); auto.
    - rewrite A1, Hs. apps.
    - zl. lia. }
  rewrite (bind_done _ _ _ _ _ E2).
  set (s2 := with_tmp B0 s1).
  destruct (zlen_pos_last A0) as (A0' & a0 & EA); [lia|].
  set (v0 := mklv nA nB (b + nB - 1) (a + nA - 1) (nB - 1)).
  assert (Hm0 : mach_hi s2 v0 (A0' ++ [a0]) B0 B0 [] []).
  { unfold mach_hi, v0; simpl. rewrite <- EA, app_nil_r. repeat split; auto; try lia.
    rewrite A1, Hs. reflexivity. }
  destruct (hi_step_a _ _ _ _ _ _ _ _ Hm0) as (s3 & gap3 & E3 & P3 & Hm3); [simpl; lia|].
  simpl in E3. rewrite (bind_done _ _ _ _ _ E3). cbv zeta.
  simpl in Hm3.
  replace (b + nB - 1 - 1) with (b + nB - 2) in Hm3 by lia.
  replace (a + nA - 1 - 1) with (a + nA - 2) in Hm3 by lia.
  set (v := mklv (nA - 1) nB (b + nB - 2) (a + nA - 2) (nB - 1)) in *.
  destruct (zlen_pos_last B0) as (B0' & b0 & EB); [lia|].
  assert (Hg3 : ghost_hi A0' B0 [a0]).
  { rewrite EB. apply (take_as_hi A0' [a0] B0' b0 []).
    - rewrite <- EA, <- EB. split; [rewrite app_nil_r; reflexivity|].
      intros g. destruct (Hgood g) as (S1 & S2 & S3 & A' & z & S4 & S5).
      rewrite !app_nil_r. split; [apply stable_refl|]. split; auto. split; auto.
      destruct (zlen_pos_inv B0) as (z0 & B1 & E0); [lia|]. exists z0, B1. split; auto.
      intros x Hx. apply S3; auto. rewrite E0. reflexivity.
    - intros g y [<-|[]]. destruct (Hgood g) as (_ & _ & S3 & A' & z & S4 & S5).
      rewrite EA in S4. apply app_inj_tail in S4 as (_ & ->). apply S5.
      rewrite EB. apply in_or_app; simpl; auto. }
  assert (I3 : inv_hi s3 v) by (do 5 eexists; split; eauto).
  assert (HR : exists j v' s', (if na v =? 0 then ret (JSucceed, v)
            else if nb v =? 1 then ret (JCopy, v)
            else bind get_gallops (fun mg => hi_outer cmp (Z.to_nat (na v + nb v)) a mg v)) s3 = Done (j, v') s' /\
      pend s' = pend s3 /\ inv_hi s' v' /\ post_hi j v' /\ j <> JGallop).
  { assert (Nv : na v = nA - 1 /\ nb v = nB) by auto. destruct Nv as (Nv1 & Nv2).
    destruct (na v =? 0) eqn:C1; [|destruct (nb v =? 1) eqn:C2].
    - do 3 eexists. split; [reflexivity|]. repeat split; auto; [left; lia|discriminate].
    - do 3 eexists. split; [reflexivity|]. repeat split; auto; try lia; discriminate.
    - rewrite (bind_done get_gallops _ s3 (gallops s3) s3 eq_refl). rewrite Ea. apply hi_outer_spec; auto; lia. }
  destruct HR as (j & v' & s4 & E4 & P4 & I4 & Po & Hj).
  rewrite (bind_done _ _ _ _ _ E4).
  destruct I4 as (RA & gap & RB & TB & D & Hm & Hg).
  pose proof Hm as (H1 & H2 & H3 & H4 & H5 & H6 & H7 & H8).
  assert (Pend : pend s4 = pend s) by (rewrite P4, P3; exact P1).
  clear E1 E2 E3 E4 Hm0 Hm3 Hg3 I3.
  assert (Finish : j <> JCopy -> exists r s' C,
    bind (if nb v' =? 0 then ret tt else copy_from_tmp (dst v' - (nb v' - 1)) 0 (nb v'))
      (fun _ => ret (match j with JFail => None | _ => Some tt end)) s4 = Done r s' /\ pend s' = pend s /\
    arr s' = P ++ C ++ Q /\ Permutation C (A0 ++ B0) /\
    (G -> r = Some tt /\ asc C /\ stb C (A0 ++ B0))).
  { intros Hc.
    assert (Hm' : mach_hi s4 v' RA gap ([] ++ RB) TB D) by auto.
    destruct (hi_step_bs _ _ _ _ _ _ _ _ (nb v') Hm') as (s5 & gap5 & E5 & P5 & Hm5); [lia|].
    replace (dst v' - nb v' + 1) with (dst v' - (nb v' - 1)) in E5 by lia.
    replace (pb v' - nb v' + 1) with 0 in E5 by lia.
    rewrite (bind_done _ _ _ _ _ E5). do 2 eexists. exists (RA ++ RB ++ D).
    split; [reflexivity|]. split; [congruence|].
    destruct Hm5 as (K1 & K2 & K3 & _). zl.
    assert (gap5 = []) by (apply zlen_nil_inv; auto). subst gap5.
    split; [rewrite K1; apps|]. destruct Hg as (G1 & G2). split; auto.
    intros g. destruct (G2 g) as (S1 & S2 & S3 & z & B' & S4 & S5).
    destruct j; simpl in Po; try contradiction; try congruence.
    split; auto. split; [|exact S1].
    destruct Po as [Po|Po].
    - assert (RA = []) by (apply zlen_nil_inv; lia). subst RA. simpl. auto.
    - assert (RB = []) by (apply zlen_nil_inv; lia). rewrite H. simpl. auto. }
  destruct j; try (apply Finish; discriminate).
  (* CopyA *)
  clear Finish. simpl in Po. destruct Po as (Po1 & Po2).
  destruct (zlen_one_inv RB) as (z & ->); [lia|].
  assert (Hm' : mach_hi s4 v' ([] ++ RA) gap [z] TB D) by auto.
  destruct (hi_step_as _ _ _ _ _ _ _ _ (na v') Hm') as (s5 & gap5 & E5 & P5 & Hm5); [lia|].
  replace (na v' =? 0) with false in E5 by lia.
  replace (dst v' - na v' + 1) with (dst v' + (1 - na v')) in E5 by lia.
  replace (pa v' - na v' + 1) with (pa v' + (1 - na v')) in E5 by lia.
  rewrite (bind_done _ _ _ _ _ E5).
  assert (Hm5' := Hm5). change [z] with ([] ++ [z]) in Hm5'.
  destruct (hi_step_b _ _ _ _ _ _ _ _ Hm5') as (s6 & gap6 & E6 & P6 & Hm6).
  simpl in E6. rewrite (bind_done _ _ _ _ _ E6).
  do 2 eexists. exists ([z] ++ RA ++ D). split; [reflexivity|]. split; [congruence|].
  destruct Hm6 as (K1 & K2 & K3 & _). zl.
  assert (gap6 = []) by (apply zlen_nil_inv; auto). subst gap6.
  split; [rewrite K1; apps|]. destruct Hg as (G1 & G2). split.
  { rewrite <- G1. rewrite !(app_assoc _ _ D). apply Permutation_app_tail. apply Permutation_app_comm. }
  intros g. split; auto. destruct (G2 g) as (S1 & S2 & S3 & z' & B' & S4 & S5).
  injection S4 as <- <-. pose proof (G_wo g) as W. split.
  - apply asc_app. split; [apply asc_one|]. split; auto.
    intros x y [<-|[]] Hy. apply in_app_or in Hy as [Hy|Hy].
    + apply lt_asym; auto.
    + apply asc_app in S3 as (_ & _ & S3). apply S3; simpl; auto.
  - eapply stable_trans; [|exact S1]. rewrite !(app_assoc _ _ D). apply stb_app; [|apply stable_refl].
    apply stb_swap; auto. intros x y [<-|[]] Hy. apply lt_not_equiv; auto.
Qed.

End Merge.
