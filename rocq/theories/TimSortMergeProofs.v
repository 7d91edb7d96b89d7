(** mergeLo and mergeHi of TimSortModel.v: the argument of SortMergeProofs.v,
    carried over to gfx's treatment of minGallop and of runs of length one. *)
From Coq Require Import ZArith List Bool Lia Sorting.Sorted Sorting.Permutation.
From Verif Require Import Base ListLemmas SortSpec SortOrderProofs CPythonSortModel SortMachineProofs
  SortMergeProofs TimSortModel.
Import ListNotations.
Local Open Scope Z_scope.
Local Arguments Z.of_nat : simpl never.
Local Arguments Z.to_nat : simpl never.
Local Arguments Z.mul : simpl never.
Local Arguments Z.add : simpl never.
Local Arguments Z.sub : simpl never.
Local Arguments MIN_GALLOP : simpl never.

Section Merge.
Context {A : Type}.
Variable cmp : nat -> A -> A -> option bool.
Variable grab : Z -> bool.
Variable lt : A -> A -> bool.
Variable G : Prop.
Hypothesis HG : G -> sane cmp grab lt.
Notation st := (@st A).
Notation asc := (ascending lt).
Notation stb := (stable lt).

Variables (P Q A0 B0 : list A).
Hypothesis Hsize : 2 * (zlen A0 + zlen B0) + 1 <= SSIZE_MAX.

Lemma ts_lo_gallop_spec fuel : forall mg v s, (@inv_lo A lt G P Q A0 B0) s v -> 1 < na v -> 0 < nb v ->
  na v + nb v <= Z.of_nat fuel ->
  exists j mg' v' s', ts_lo_gallop cmp fuel mg v s = Done (j, mg', v') s' /\ pend s' = pend s /\
    (@inv_lo A lt G P Q A0 B0) s' v' /\ (@post_lo G) j v' /\ (j = JGallop -> na v' + nb v' < na v + nb v).
Proof.
  induction fuel; intros mg v s (D & gap & RA & RB & TA & Hm & Hg) Ha Hb Hf; [lia|].
  cbn [ts_lo_gallop]. cbv zeta.
  pose proof Hm as (H1 & H2 & H3 & H4 & H5 & H6 & H7 & H8).
  destruct (zlen_pos_inv RB) as (b & RB' & ->); [lia|].
  assert (G1 : get_arr (pb v) s = Done b s).
  { apply (get_arr_mid s (P ++ D ++ gap) b (RB' ++ Q)); [rewrite H1; apps|zl; zpos; lia]. }
  rewrite (bind_done _ _ _ _ _ G1).
  pose proof ((@ghost_lo_size A lt G A0 B0) _ _ _ Hg) as Sz. zpos.
  destruct (gallop_right_block cmp grab lt get_tmp tmp reads_tmp s TA RA [] (pa v) (na v) b 0)
    as (r & s1 & E1 & Q1 & R1 & W1); auto; try lia.
  { rewrite app_nil_r. auto. }
  rewrite (bind_done _ _ _ _ _ E1).
  assert (Hm1 := (@mach_lo_quiet A P Q) _ _ _ _ _ _ _ _ Q1 Hm).
  assert (P1 : pend s1 = pend s) by apply Q1.
  assert (Asc : G -> asc RA /\ asc (b :: RB')).
  { intros g. destruct Hg as (_ & Hg). destruct (Hg g) as (_ & S2 & S3 & _).
    apply asc_app in S2 as (_ & S2 & _). apply asc_app in S3 as (_ & S3 & _). auto. }
  destruct r as [k|].
  2:{ do 4 eexists. split; [reflexivity|]. split; [auto|]. split; [do 5 eexists; split; eauto|].
      split; [|discriminate]. intros g. destruct (W1 (HG g)) as (? & ? & _ & E & _); [apply Asc; auto|discriminate]. }
  specialize (R1 k eq_refl).
  assert (Sp : exists s1 s2, RA = s1 ++ s2 /\ zlen s1 = k /\
     (G -> (forall y, In y s1 -> lt b y = false) /\ (forall y, In y s2 -> lt b y = true))).
  { destruct (zsplit_le RA k) as (u & w & E & L); [lia|]. exists u, w. split; auto. split; auto.
    intros g. destruct (W1 (HG g)) as (u' & w' & E' & Ek & F1 & F2); [apply Asc; auto|].
    injection Ek as Ek. rewrite E in E'.
    destruct (app_split_eq u w u' w') as (-> & ->); auto. lia. }
  destruct Sp as (U1 & U2 & -> & Lk & GU).
  destruct ((@lo_step_as A P Q A0 B0) _ _ _ _ _ _ _ _ _ Hm1 Lk) as (s2 & gap2 & E2 & P2 & Hm2).
  rewrite (bind_done _ _ _ _ _ E2). cbv zeta.
  assert (Hg2 : (@ghost_lo A lt G A0 B0) (D ++ U1) U2 (b :: RB')).
  { apply (@take_as A cmp grab lt G HG A0 B0); auto. intros g. apply (GU g). }
  set (v2 := mklv (na v - k) (nb v) (dst v + k) (pa v + k) (pb v)) in *.
  assert (N2 : na v2 = na v - k) by reflexivity. assert (N2' : nb v2 = nb v) by reflexivity.
  clearbody v2.
  destruct (negb (k =? 0) && (na v2 <=? 1)) eqn:C1.
  { do 4 eexists. split; [reflexivity|]. split; [congruence|]. split; [do 5 eexists; split; eauto|].
    destruct (na v2 =? 1) eqn:C2; (split; [simpl; lia|discriminate]). }
  assert (Hna : 1 < na v2) by lia.
  pose proof Hm2 as (I1 & I2 & I3 & I4 & I5 & I6 & I7 & I8).
  destruct (zlen_pos_inv U2) as (a & U2' & ->); [lia|].
  destruct ((@lo_step_b A P Q A0 B0) _ _ _ _ _ _ _ _ Hm2) as (s3 & gap3 & E3 & P3 & Hm3); [lia|].
  rewrite (bind_done _ _ _ _ _ E3). cbv zeta.
  assert (Hg3 : (@ghost_lo A lt G A0 B0) ((D ++ U1) ++ [b]) (a :: U2') RB').
  { apply (@take_bs A cmp grab lt G HG A0 B0); auto. intros g y [<-|[]]. apply (GU g). left; auto. }
  set (v3 := mklv (na v2) (nb v2 - 1) (dst v2 + 1) (pa v2) (pb v2 + 1)) in *.
  assert (N3 : na v3 = na v2) by reflexivity. assert (N3' : nb v3 = nb v2 - 1) by reflexivity.
  clearbody v3.
  destruct (nb v3 =? 0) eqn:C3.
  { do 4 eexists. split; [reflexivity|]. split; [congruence|]. split; [do 5 eexists; split; eauto|].
    split; [simpl; lia|discriminate]. }
  pose proof Hm3 as (J1 & J2 & J3 & J4 & J5 & J6 & J7 & J8).
  assert (G2 : get_tmp (pa v3) s3 = Done a s3).
  { eapply get_tmp_mid; eauto. }
  rewrite (bind_done _ _ _ _ _ G2).
  pose proof ((@ghost_lo_size A lt G A0 B0) _ _ _ Hg3) as Sz3. zl. zpos.
  destruct (gallop_left_block cmp grab lt get_arr arr reads_arr s3 (P ++ ((D ++ U1) ++ [b]) ++ gap3) RB' Q (pb v3) (nb v3) a 0)
    as (r & s4 & E4 & Q4 & R4 & W4); auto; try (zl; zpos; lia).
  { rewrite J1. apps. }
  rewrite (bind_done _ _ _ _ _ E4).
  assert (Hm4 := (@mach_lo_quiet A P Q) _ _ _ _ _ _ _ _ Q4 Hm3).
  assert (P4 : pend s4 = pend s3) by apply Q4.
  assert (Asc3 : G -> asc RB').
  { intros g. destruct (Asc g) as (_ & S). apply asc_cons in S. apply S. }
  destruct r as [k'|].
  2:{ do 4 eexists. split; [reflexivity|]. split; [congruence|]. split; [do 5 eexists; split; eauto|].
      split; [|discriminate]. intros g. destruct (W4 (HG g)) as (? & ? & _ & E & _); [apply Asc3; auto|discriminate]. }
  specialize (R4 k' eq_refl).
  assert (Sp : exists s1 s2, RB' = s1 ++ s2 /\ zlen s1 = k' /\
     (G -> (forall y, In y s1 -> lt y a = true) /\ (forall y, In y s2 -> lt y a = false))).
  { destruct (zsplit_le RB' k') as (u & w & E & L); [lia|]. exists u, w. split; auto. split; auto.
    intros g. destruct (W4 (HG g)) as (u' & w' & E' & Ek & F1 & F2); [apply Asc3; auto|].
    injection Ek as Ek. rewrite E in E'.
    destruct (app_split_eq u w u' w') as (-> & ->); auto. lia. }
  destruct Sp as (B1 & B2 & -> & Lk' & GB).
  destruct ((@lo_step_bs A P Q A0 B0) _ _ _ _ _ _ _ _ _ Hm4 Lk') as (s5 & gap5 & E5 & P5 & Hm5).
  rewrite (bind_done _ _ _ _ _ E5). cbv zeta.
  assert (Hg5 : (@ghost_lo A lt G A0 B0) (((D ++ U1) ++ [b]) ++ B1) (a :: U2') B2).
  { apply (@take_bs A cmp grab lt G HG A0 B0); auto. intros g. apply (GB g). }
  set (v5 := mklv (na v3) (nb v3 - k') (dst v3 + k') (pa v3) (pb v3 + k')) in *.
  assert (N5 : na v5 = na v3) by reflexivity. assert (N5' : nb v5 = nb v3 - k') by reflexivity.
  clearbody v5.
  destruct (negb (k' =? 0) && (nb v5 =? 0)) eqn:C5.
  { do 4 eexists. split; [reflexivity|]. split; [congruence|]. split; [do 5 eexists; split; eauto|].
    split; [simpl; lia|discriminate]. }
  pose proof Hm5 as (K1 & K2 & K3 & K4 & K5 & K6 & K7 & K8).
  destruct ((@lo_step_a A P Q A0 B0) _ _ _ _ _ _ _ _ Hm5) as (s6 & gap6 & E6 & P6 & Hm6).
  rewrite (bind_done _ _ _ _ _ E6). cbv zeta.
  destruct (zlen_pos_inv B2) as (b2 & B2' & ->); [lia|].
  assert (Hg6 : (@ghost_lo A lt G A0 B0) ((((D ++ U1) ++ [b]) ++ B1) ++ [a]) U2' (b2 :: B2')).
  { apply (@take_as A cmp grab lt G HG A0 B0); auto. intros g y [<-|[]]. apply (GB g). left; auto. }
  set (v6 := mklv (na v5 - 1) (nb v5) (dst v5 + 1) (pa v5 + 1) (pb v5)) in *.
  assert (N6 : na v6 = na v5 - 1) by reflexivity. assert (N6' : nb v6 = nb v5) by reflexivity.
  clearbody v6.
  assert (I6' : (@inv_lo A lt G P Q A0 B0) s6 v6) by (do 5 eexists; split; eauto).
  destruct (na v6 =? 1) eqn:C6.
  { do 4 eexists. split; [reflexivity|]. split; [congruence|]. split; auto.
    split; [simpl; lia|discriminate]. }
  destruct ((MIN_GALLOP <=? k) || (MIN_GALLOP <=? k')) eqn:C7.
  - destruct (IHfuel (mg - 1) v6 s6) as (j & mg' & v' & s' & E7 & P7 & I7' & Po & Dc); auto; try lia.
    exists j, mg', v', s'. split; auto. split; [congruence|]. split; auto. split; auto.
    intros Hj. specialize (Dc Hj). lia.
  - do 4 eexists. split; [reflexivity|]. split; [congruence|]. split; auto.
    split; [simpl; lia|intros; lia].
Qed.

Lemma ts_lo_outer_spec fuel : forall mg v s, inv_lo lt G P Q A0 B0 s v -> 1 < na v -> 0 < nb v ->
  na v + nb v <= Z.of_nat fuel ->
  exists j mg' v' s', ts_lo_outer cmp fuel mg v s = Done (j, mg', v') s' /\ pend s' = pend s /\
    inv_lo lt G P Q A0 B0 s' v' /\ post_lo G j v' /\ j <> JGallop.
Proof.
  induction fuel; intros mg v s Hi Ha Hb Hf; [lia|].
  simpl. destruct (lo_single_spec cmp grab lt G HG P Q A0 B0 (Z.to_nat (na v + nb v)) mg 0 0 v s)
    as (j & v1 & s1 & E1 & P1 & I1 & Po1 & D1); auto; try lia.
  rewrite (bind_done _ _ _ _ _ E1).
  destruct j; try (do 4 eexists; split; [reflexivity|]; split; [congruence|]; split; [auto|]; split; [auto|discriminate]).
  specialize (D1 eq_refl). destruct Po1 as (Q1 & Q2).
  destruct (ts_lo_gallop_spec (Z.to_nat (na v1 + nb v1)) mg v1 s1) as (j & mg2 & v2 & s2 & E2 & P2 & I2 & Po2 & D2);
    auto; try lia.
  rewrite (bind_done _ _ _ _ _ E2).
  destruct j; try (do 4 eexists; split; [reflexivity|]; split; [congruence|]; split; [auto|]; split; [auto|discriminate]).
  specialize (D2 eq_refl). destruct Po2 as (Q3 & Q4).
  destruct (IHfuel ((if mg2 <? 0 then 0 else mg2) + 2) v2 s2) as (j & mg3 & v3 & s3 & E3 & P3 & I3 & Po3 & D3); auto; try lia.
  exists j, mg3, v3, s3. split; auto. split; [congruence|]. auto.
Qed.

Lemma ts_hi_gallop_spec fuel : forall mg v s, (@inv_hi A lt G P Q A0 B0) s v -> 0 < na v -> 1 < nb v ->
  na v + nb v <= Z.of_nat fuel ->
  exists j mg' v' s', ts_hi_gallop cmp fuel (zlen P) mg v s = Done (j, mg', v') s' /\ pend s' = pend s /\
    (@inv_hi A lt G P Q A0 B0) s' v' /\ (@post_hi G) j v' /\ (j = JGallop -> na v' + nb v' < na v + nb v).
Proof.
  induction fuel; intros mg v s (RA & gap & RB & TB & D & Hm & Hg) Ha Hb Hf; [lia|].
  cbn [ts_hi_gallop]. cbv zeta.
  pose proof Hm as (H1 & H2 & H3 & H4 & H5 & H6 & H7 & H8).
  destruct (zlen_pos_last RB) as (RB' & b & ->); [lia|].
  assert (G1 : get_tmp (pb v) s = Done b s).
  { apply (get_tmp_mid s RB' b TB); [rewrite H2; apps|zl; zpos; lia]. }
  rewrite (bind_done _ _ _ _ _ G1).
  pose proof ((@ghost_hi_size A lt G A0 B0) _ _ _ Hg) as Sz. zpos.
  destruct (gallop_right_block cmp grab lt get_arr arr reads_arr s P RA (gap ++ D ++ Q) (zlen P) (na v) b (na v - 1))
    as (r & s1 & E1 & Q1 & R1 & W1); auto; try lia.
  rewrite (bind_done _ _ _ _ _ E1).
  assert (Hm1 := (@mach_hi_quiet A P Q) _ _ _ _ _ _ _ _ Q1 Hm).
  assert (P1 : pend s1 = pend s) by apply Q1.
  assert (Asc : G -> asc RA /\ asc (RB' ++ [b])).
  { intros g. destruct Hg as (_ & Hg). destruct (Hg g) as (_ & S2 & S3 & _).
    apply asc_app in S2 as (S2 & _ & _). apply asc_app in S3 as (S3 & _ & _). auto. }
  destruct r as [k|].
  2:{ do 4 eexists. split; [reflexivity|]. split; [auto|]. split; [do 5 eexists; split; eauto|].
      split; [|discriminate]. intros g. destruct (W1 (HG g)) as (? & ? & _ & E & _); [apply Asc; auto|discriminate]. }
  specialize (R1 k eq_refl).
  assert (Sp : exists s1 s2, RA = s1 ++ s2 /\ zlen s1 = k /\
     (G -> (forall y, In y s1 -> lt b y = false) /\ (forall y, In y s2 -> lt b y = true))).
  { destruct (zsplit_le RA k) as (u & w & E & L); [lia|]. exists u, w. split; auto. split; auto.
    intros g. destruct (W1 (HG g)) as (u' & w' & E' & Ek & F1 & F2); [apply Asc; auto|].
    injection Ek as Ek. rewrite E in E'.
    destruct (app_split_eq u w u' w') as (-> & ->); auto. lia. }
  destruct Sp as (U1 & U2 & -> & Lk & GU).
  assert (Lk2 : zlen U2 = na v - k) by (zl; lia).
  destruct ((@hi_step_as A P Q A0 B0) _ _ _ _ _ _ _ _ _ Hm1 Lk2) as (s2 & gap2 & E2 & P2 & Hm2).
  set (ac := na v - k) in *.
  set (v2 := mklv (na v - ac) (nb v) (dst v - ac) (pa v - ac) (pb v)) in *.
  assert (N2 : na v2 = na v - ac) by reflexivity. assert (N2' : nb v2 = nb v) by reflexivity.
  change (dst v - ac) with (dst v2) in E2. change (pa v - ac) with (pa v2) in E2.
  assert (Hg2 : (@ghost_hi A lt G A0 B0) U1 (RB' ++ [b]) (U2 ++ D)).
  { apply (@take_as_hi A cmp grab lt G HG A0 B0); auto. intros g. apply (GU g). }
  clearbody v2.
  rewrite (bind_done _ _ _ _ _ E2).
  destruct (negb (ac =? 0) && (na v2 =? 0)) eqn:C1.
  { do 4 eexists. split; [reflexivity|]. split; [congruence|]. split; [do 5 eexists; split; eauto|].
    split; [simpl; lia|discriminate]. }
  pose proof Hm2 as (I1 & I2 & I3 & I4 & I5 & I6 & I7 & I8).
  assert (Hna : 0 < na v2) by lia.
  destruct ((@hi_step_b A P Q A0 B0) _ _ _ _ _ _ _ _ Hm2) as (s3 & gap3 & E3 & P3 & Hm3).
  rewrite (bind_done _ _ _ _ _ E3).
  destruct (zlen_pos_last U1) as (U1' & a & ->); [lia|].
  assert (Hg3 : (@ghost_hi A lt G A0 B0) (U1' ++ [a]) RB' ([b] ++ U2 ++ D)).
  { apply (@take_bs_hi A cmp grab lt G HG A0 B0); auto. intros g y [<-|[]]. apply (GU g). apply in_or_app; simpl; auto. }
  set (v3 := mklv (na v2) (nb v2 - 1) (dst v2 - 1) (pa v2) (pb v2 - 1)) in *.
  assert (N3 : na v3 = na v2) by reflexivity. assert (N3' : nb v3 = nb v2 - 1) by reflexivity.
  clearbody v3.
  destruct (nb v3 =? 1) eqn:C3.
  { do 4 eexists. split; [reflexivity|]. split; [congruence|]. split; [do 5 eexists; split; eauto|].
    split; [simpl; lia|discriminate]. }
  pose proof Hm3 as (J1 & J2 & J3 & J4 & J5 & J6 & J7 & J8).
  assert (G2 : get_arr (pa v3) s3 = Done a s3).
  { apply (get_arr_mid s3 (P ++ U1') a (gap3 ++ ([b] ++ U2 ++ D) ++ Q)); [rewrite J1; apps|zl; zpos; lia]. }
  rewrite (bind_done _ _ _ _ _ G2).
  pose proof ((@ghost_hi_size A lt G A0 B0) _ _ _ Hg3) as Sz3. zl. zpos.
  destruct (gallop_left_block cmp grab lt get_tmp tmp reads_tmp s3 [] RB' ([b] ++ TB) 0 (nb v3) a (nb v3 - 1))
    as (r & s4 & E4 & Q4 & R4 & W4); auto; try (zl; zpos; lia).
  rewrite (bind_done _ _ _ _ _ E4).
  assert (Hm4 := (@mach_hi_quiet A P Q) _ _ _ _ _ _ _ _ Q4 Hm3).
  assert (P4 : pend s4 = pend s3) by apply Q4.
  assert (Asc3 : G -> asc RB').
  { intros g. destruct (Asc g) as (_ & S). apply asc_app in S. apply S. }
  destruct r as [k'|].
  2:{ do 4 eexists. split; [reflexivity|]. split; [congruence|]. split; [do 5 eexists; split; eauto|].
      split; [|discriminate]. intros g. destruct (W4 (HG g)) as (? & ? & _ & E & _); [apply Asc3; auto|discriminate]. }
  specialize (R4 k' eq_refl).
  assert (Sp : exists s1 s2, RB' = s1 ++ s2 /\ zlen s1 = k' /\
     (G -> (forall y, In y s1 -> lt y a = true) /\ (forall y, In y s2 -> lt y a = false))).
  { destruct (zsplit_le RB' k') as (u & w & E & L); [lia|]. exists u, w. split; auto. split; auto.
    intros g. destruct (W4 (HG g)) as (u' & w' & E' & Ek & F1 & F2); [apply Asc3; auto|].
    injection Ek as Ek. rewrite E in E'.
    destruct (app_split_eq u w u' w') as (-> & ->); auto. lia. }
  destruct Sp as (B1 & B2 & -> & Lk' & GB).
  assert (Lk2' : zlen B2 = nb v3 - k') by (zl; lia).
  destruct ((@hi_step_bs A P Q A0 B0) _ _ _ _ _ _ _ _ _ Hm4 Lk2') as (s5 & gap5 & E5 & P5 & Hm5).
  set (bc := nb v3 - k') in *.
  set (v5 := mklv (na v3) (nb v3 - bc) (dst v3 - bc) (pa v3) (pb v3 - bc)) in *.
  assert (N5 : na v5 = na v3) by reflexivity. assert (N5' : nb v5 = nb v3 - bc) by reflexivity.
  change (dst v3 - bc) with (dst v5) in E5. change (pb v3 - bc) with (pb v5) in E5.
  assert (Hg5 : (@ghost_hi A lt G A0 B0) (U1' ++ [a]) B1 (B2 ++ [b] ++ U2 ++ D)).
  { apply (@take_bs_hi A cmp grab lt G HG A0 B0); auto. intros g. apply (GB g). }
  clearbody v5.
  rewrite (bind_done _ _ _ _ _ E5).
  destruct (negb (bc =? 0) && (nb v5 <=? 1)) eqn:C5.
  { do 4 eexists. split; [reflexivity|]. split; [congruence|]. split; [do 5 eexists; split; eauto|].
    destruct (nb v5 =? 1) eqn:C5'; (split; [simpl; lia|discriminate]). }
  pose proof Hm5 as (K1 & K2 & K3 & K4 & K5 & K6 & K7 & K8).
  destruct ((@hi_step_a A P Q A0 B0) _ _ _ _ _ _ _ _ Hm5) as (s6 & gap6 & E6 & P6 & Hm6); [lia|].
  rewrite (bind_done _ _ _ _ _ E6).
  destruct (zlen_pos_last B1) as (B1' & b2 & ->); [lia|].
  assert (Hg6 : (@ghost_hi A lt G A0 B0) U1' (B1' ++ [b2]) ([a] ++ B2 ++ [b] ++ U2 ++ D)).
  { apply (@take_as_hi A cmp grab lt G HG A0 B0); auto. intros g y [<-|[]]. apply (GB g). apply in_or_app; simpl; auto. }
  set (v6 := mklv (na v5 - 1) (nb v5) (dst v5 - 1) (pa v5 - 1) (pb v5)) in *.
  assert (N6 : na v6 = na v5 - 1) by reflexivity. assert (N6' : nb v6 = nb v5) by reflexivity.
  clearbody v6.
  assert (I6' : (@inv_hi A lt G P Q A0 B0) s6 v6) by (do 5 eexists; split; eauto).
  destruct (na v6 =? 0) eqn:C6.
  { do 4 eexists. split; [reflexivity|]. split; [congruence|]. split; auto.
    split; [simpl; lia|discriminate]. }
  destruct ((MIN_GALLOP <=? ac) || (MIN_GALLOP <=? bc)) eqn:C7.
  - destruct (IHfuel (mg - 1) v6 s6) as (j & mg' & v' & s' & E7 & P7 & I7' & Po & Dc); auto; try lia.
    exists j, mg', v', s'. split; auto. split; [congruence|]. split; auto. split; auto.
    intros Hj. specialize (Dc Hj). lia.
  - do 4 eexists. split; [reflexivity|]. split; [congruence|]. split; auto.
    split; [simpl; lia|intros; lia].
Qed.

Lemma ts_hi_outer_spec fuel : forall mg v s, inv_hi lt G P Q A0 B0 s v -> 0 < na v -> 1 < nb v ->
  na v + nb v <= Z.of_nat fuel ->
  exists j mg' v' s', ts_hi_outer cmp fuel (zlen P) mg v s = Done (j, mg', v') s' /\ pend s' = pend s /\
    inv_hi lt G P Q A0 B0 s' v' /\ post_hi G j v' /\ j <> JGallop.
Proof.
  induction fuel; intros mg v s Hi Ha Hb Hf; [lia|].
  simpl. destruct (hi_single_spec cmp grab lt G HG P Q A0 B0 (Z.to_nat (na v + nb v)) mg 0 0 v s)
    as (j & v1 & s1 & E1 & P1 & I1 & Po1 & D1); auto; try lia.
  rewrite (bind_done _ _ _ _ _ E1).
  destruct j; try (do 4 eexists; split; [reflexivity|]; split; [congruence|]; split; [auto|]; split; [auto|discriminate]).
  specialize (D1 eq_refl). destruct Po1 as (Q1 & Q2).
  destruct (ts_hi_gallop_spec (Z.to_nat (na v1 + nb v1)) mg v1 s1) as (j & mg2 & v2 & s2 & E2 & P2 & I2 & Po2 & D2);
    auto; try lia.
  rewrite (bind_done _ _ _ _ _ E2).
  destruct j; try (do 4 eexists; split; [reflexivity|]; split; [congruence|]; split; [auto|]; split; [auto|discriminate]).
  specialize (D2 eq_refl). destruct Po2 as (Q3 & Q4).
  destruct (IHfuel ((if mg2 <? 0 then 0 else mg2) + 2) v2 s2) as (j & mg3 & v3 & s3 & E3 & P3 & I3 & Po3 & D3); auto; try lia.
  exists j, mg3, v3, s3. split; auto. split; [congruence|]. auto.
Qed.

Lemma inv_hi_same s s' v : arr s' = arr s -> tmp s' = tmp s -> inv_hi lt G P Q A0 B0 s v -> inv_hi lt G P Q A0 B0 s' v.
Proof.
  intros E1 E2 (RA & gap & RB & TB & D & Hm & Hg). do 5 eexists. split; eauto.
  eapply mach_hi_same; eauto.
Qed.

Lemma lo_all_as (s : st) v D gap R1 R2 RB TA k : mach_lo P Q s v D gap (R1 ++ R2) RB TA -> zlen R1 = k ->
  exists s' gap', copy_from_tmp (dst v) (pa v) k s = Done tt s' /\
    pend s' = pend s /\
    mach_lo P Q s' (mklv (na v - k) (nb v) (dst v + k) (pa v + k) (pb v)) (D ++ R1) gap' R2 RB (TA ++ R1).
Proof.
  intros (H1 & H2 & H3 & H4 & H5 & H6 & H7 & H8) Hk. zpos.
  destruct (zsplit_le2 gap k) as (g1 & g2 & -> & L1 & L2); [zl; zpos; lia|].
  eexists _, g2. split; [|split].
  + apply (copy_from_tmp_mid s (P ++ D) g1 (g2 ++ RB ++ Q) TA R1 R2).
    * rewrite H1. apps.
    * zl. zpos. lia.
    * rewrite H2. apps.
    * lia.
    * lia.
    * lia.
  + reflexivity.
  + unfold mach_lo; simpl. zl. rewrite H2. repeat split; auto; try lia; apps.
Qed.

Lemma hi_all_bs (s : st) v RA gap R1 R2 TB D k : mach_hi P Q s v RA gap (R1 ++ R2) TB D -> zlen R2 = k ->
  exists s' gap', copy_from_tmp (dst v - k + 1) (pb v - k + 1) k s = Done tt s' /\
    pend s' = pend s /\
    mach_hi P Q s' (mklv (na v) (nb v - k) (dst v - k) (pa v) (pb v - k)) RA gap' R1 (R2 ++ TB) (R2 ++ D).
Proof.
  intros (H1 & H2 & H3 & H4 & H5 & H6 & H7 & H8) Hk. zpos.
  destruct (zsplit_le2 gap (zlen R1)) as (g1 & g2 & -> & L1 & L2); [zl; zpos; lia|].
  eexists _, g1. split; [|split].
  + apply (copy_from_tmp_mid s (P ++ RA ++ g1) g2 (D ++ Q) R1 R2 TB).
    * rewrite H1. apps.
    * zl. zpos. lia.
    * rewrite H2. apps.
    * zl. zpos. lia.
    * lia.
    * zl. lia.
  + reflexivity.
  + unfold mach_hi; simpl. zl. zpos. rewrite H2. repeat split; auto; try lia; apps.
Qed.

(** Merging a run of length one by a rotation. *)
Lemma move_to_tmp_mid (s : st) x y z j n : arr s = x ++ y ++ z -> j = zlen x -> n = zlen y ->
  move_to_tmp j n s = Done tt (with_tmp y s).
Proof. intros. unfold move_to_tmp. rewrite (sub_mid _ x y z) by auto. reflexivity. Qed.

Definition mergeable : Prop := G -> asc A0 /\ asc B0 /\
  (forall x y, In x A0 -> hd_error B0 = Some y -> lt y x = true) /\
        exists A' z, A0 = A' ++ [z] /\ forall y, In y B0 -> lt y z = true.

Lemma rotate_left_merges s a nA b nB : arr s = P ++ A0 ++ B0 ++ Q -> a = zlen P -> nA = zlen A0 -> b = a + nA ->
  nB = zlen B0 -> nA = 1 -> 0 < nB -> mergeable ->
  exists r s' C, bind (rotate_left a (b - a + nB)) (fun _ => ret (Some tt)) s = Done r s' /\ pend s' = pend s /\
    arr s' = P ++ C ++ Q /\ Permutation C (A0 ++ B0) /\
    (G -> r = Some tt /\ asc C /\ stb C (A0 ++ B0)).
Proof.
  intros Hs Ea EnA Eb EnB Ha Hb Hgood.
  destruct (zlen_one_inv A0) as (z & EA); [lia|]. rewrite EA in Hs. simpl in Hs.
  destruct (zlen_pos_last B0) as (B' & b0 & EB); [lia|].
  assert (E : rotate_left a (b - a + nB) s = Done tt (with_arr (P ++ (B0 ++ [z]) ++ Q) s)).
  { unfold rotate_left.
    rewrite (bind_done _ _ _ _ _ (get_arr_mid s P z (B0 ++ Q) a Hs Ea)).
    assert (E1 : move_in_arr a (a + 1) (b - a + nB - 1) s = Done tt (with_arr (P ++ B0 ++ b0 :: Q) s)).
    { rewrite (move_in_arr_mid s P (z :: B') (b0 :: Q) (P ++ [z]) B0 Q); [reflexivity|..]; auto.
      - rewrite Hs, EB. apps.
      - rewrite Hs. apps.
      - zl. lia.
      - lia.
      - rewrite EB in *. zl. lia. }
    rewrite (bind_done _ _ _ _ _ E1).
    rewrite (set_arr_mid _ (P ++ B0) b0 Q (a + (b - a + nB) - 1) z); [|simpl; apps|zl; lia].
    unfold with_arr; simpl. do 2 f_equal. apps. }
  rewrite (bind_done _ _ _ _ _ E). do 2 eexists. exists (B0 ++ [z]).
  split; [reflexivity|]. split; [reflexivity|]. split; [reflexivity|].
  rewrite EA. split; [apply Permutation_app_comm|].
  intros g. split; auto. destruct (Hgood g) as (S1 & S2 & S3 & A' & z' & S4 & S5).
  destruct (HG g) as (W & _). rewrite EA in S4.
  assert (z' = z) by (destruct A' as [|? [|]]; simpl in S4; try discriminate; congruence). subst z'.
  split.
  - apply asc_app. split; auto. split; [apply asc_one|]. intros x y Hx [<-|[]]. apply lt_asym; auto.
  - apply stb_swap; auto. intros x y Hx [<-|[]]. apply lt_not_equiv; auto.
Qed.

Lemma rotate_right_merges s a nA b nB : arr s = P ++ A0 ++ B0 ++ Q -> a = zlen P -> nA = zlen A0 -> b = a + nA ->
  nB = zlen B0 -> 0 < nA -> nB = 1 -> mergeable ->
  exists r s' C, bind (rotate_right a (b - a + nB)) (fun _ => ret (Some tt)) s = Done r s' /\ pend s' = pend s /\
    arr s' = P ++ C ++ Q /\ Permutation C (A0 ++ B0) /\
    (G -> r = Some tt /\ asc C /\ stb C (A0 ++ B0)).
Proof.
  intros Hs Ea EnA Eb EnB Ha Hb Hgood.
  destruct (zlen_one_inv B0) as (z & EB); [lia|]. rewrite EB in Hs. simpl in Hs.
  destruct (zlen_pos_inv A0) as (a0 & A' & EA); [lia|].
  assert (E : rotate_right a (b - a + nB) s = Done tt (with_arr (P ++ ([z] ++ A0) ++ Q) s)).
  { unfold rotate_right.
    assert (Hs' : arr s = (P ++ A0) ++ z :: Q) by (rewrite Hs; apps).
    rewrite (bind_done _ _ _ _ _ (get_arr_mid s (P ++ A0) z Q (a + (b - a + nB) - 1) Hs' ltac:(zl; lia))).
    assert (E1 : move_in_arr (a + 1) a (b - a + nB - 1) s = Done tt (with_arr ((P ++ [a0]) ++ A0 ++ Q) s)).
    { rewrite (move_in_arr_mid s (P ++ [a0]) (A' ++ [z]) Q P A0 (z :: Q)); [reflexivity|..]; auto.
      - rewrite Hs, EA. apps.
      - zl. lia.
      - lia.
      - assert (zlen A0 = 1 + zlen A') by (rewrite EA; zl; lia). zl. lia. }
    rewrite (bind_done _ _ _ _ _ E1).
    rewrite (set_arr_mid _ P a0 (A0 ++ Q) a z); [|simpl; apps|auto].
    unfold with_arr; simpl. do 2 f_equal. }
  rewrite (bind_done _ _ _ _ _ E). do 2 eexists. exists ([z] ++ A0).
  split; [reflexivity|]. split; [reflexivity|]. split; [reflexivity|].
  rewrite EB. split; [apply Permutation_app_comm|].
  intros g. split; auto. destruct (Hgood g) as (S1 & S2 & S3 & _). rewrite EB in S3.
  destruct (HG g) as (W & _).
  assert (L : forall x y, In x [z] -> In y A0 -> lt x y = true) by (intros x y [<-|[]] Hy; apply S3; auto).
  split.
  - apply asc_app. split; [apply asc_one|]. split; auto. intros x y Hx Hy. apply lt_asym; auto.
  - apply stb_swap; auto. intros x y Hx Hy. apply lt_not_equiv; auto.
Qed.

Lemma ts_merge_lo_spec s a nA b nB : arr s = P ++ A0 ++ B0 ++ Q -> a = zlen P -> nA = zlen A0 -> b = a + nA ->
  nB = zlen B0 -> 0 < nA -> 0 < nB ->
  (G -> asc A0 /\ asc B0 /\ (forall x y, In x A0 -> hd_error B0 = Some y -> lt y x = true) /\
        exists A' z, A0 = A' ++ [z] /\ forall y, In y B0 -> lt y z = true) ->
  exists r s' C, ts_merge_lo cmp a nA b nB s = Done r s' /\ pend s' = pend s /\
    arr s' = P ++ C ++ Q /\ Permutation C (A0 ++ B0) /\
    (G -> r = Some tt /\ asc C /\ stb C (A0 ++ B0)).
Proof.
  intros Hs Ea EnA Eb EnB Ha Hb Hgood. unfold ts_merge_lo.
  destruct (nA =? 1) eqn:N1.
  { apply (rotate_left_merges s a nA b nB); auto; lia. }
  destruct (nB =? 1) eqn:N2.
  { apply (rotate_right_merges s a nA b nB); auto; lia. }
  assert (E2 : move_to_tmp a nA s = Done tt (with_tmp A0 s)).
  { apply (move_to_tmp_mid s P A0 (B0 ++ Q)); auto. }
  rewrite (bind_done _ _ _ _ _ E2).
  set (s2 := with_tmp A0 s).
  destruct (zlen_pos_inv B0) as (b0 & B0' & EB); [lia|].
  set (v0 := mklv nA nB a 0 b).
  assert (Hm0 : (@mach_lo A P Q) s2 v0 [] A0 A0 (b0 :: B0') []).
  { unfold mach_lo, v0; simpl. zl. rewrite EB in *. zl. repeat split; auto; try lia. }
  destruct ((@lo_step_b A P Q A0 B0) _ _ _ _ _ _ _ _ Hm0) as (s3 & gap3 & E3 & P3 & Hm3); [simpl; lia|].
  simpl in E3. rewrite (bind_done _ _ _ _ _ E3). cbv zeta.
  simpl in Hm3. set (v := mklv nA (nB - 1) (a + 1) 0 (b + 1)) in *.
  destruct (zlen_pos_inv A0) as (a0 & A0' & EA); [lia|].
  assert (Hg3 : (@ghost_lo A lt G A0 B0) [b0] A0 B0').
  { assert (Hx : (@ghost_lo A lt G A0 B0) ([] ++ [b0]) (a0 :: A0') B0'); [|rewrite <- EA in Hx; exact Hx].
    apply ((@take_bs A cmp grab lt G HG A0 B0) [] a0 A0' [b0] B0').
    - split; [simpl; rewrite EA, EB; reflexivity|].
      intros g. destruct (Hgood g) as (S1 & S2 & S3 & A' & z & S4 & S5). simpl. rewrite EA, EB in *.
      split; [apply stable_refl|]. split; auto. split; auto. exists A', z. auto.
    - intros g y [<-|[]]. destruct (Hgood g) as (_ & _ & S3 & _). apply S3.
      + rewrite EA; left; auto.
      + rewrite EB; auto. }
  assert (I3 : (@inv_lo A lt G P Q A0 B0) s3 v) by (do 5 eexists; split; eauto).
  rewrite (bind_done get_gallops _ s3 (gallops s3) s3 eq_refl).
  destruct (ts_lo_outer_spec (Z.to_nat (na v + nb v)) (gallops s3) v s3) as (j & mg' & v' & s4' & E4 & P4 & I4 & Po & Hj);
    auto; try (unfold v; simpl; lia).
  rewrite (bind_done _ _ _ _ _ E4).
  rewrite (bind_done (set_gallops (Z.min mg' 1)) _ s4' tt (with_gallops (Z.min mg' 1) s4') eq_refl).
  apply ( @inv_lo_same A lt G P Q A0 B0 s4' (with_gallops (Z.min mg' 1) s4')) in I4; auto.
  assert (P4' : pend (with_gallops (Z.min mg' 1) s4') = pend s3) by exact P4.
  set (s4 := with_gallops (Z.min mg' 1) s4') in *. clearbody s4. clear P4. rename P4' into P4.
  destruct I4 as (D & gap & RA & RB & TA & Hm & Hg).
  pose proof Hm as (H1 & H2 & H3 & H4 & H5 & H6 & H7 & H8).
  assert (Pend : pend s4 = pend s) by (rewrite P4, P3; reflexivity).
  clear E2 E3 E4 Hm0 Hm3 Hg3 I3.
  assert (Finish : j <> JCopy -> exists r s' C,
    bind (copy_from_tmp (dst v') (pa v') (na v'))
      (fun _ => ret (match j with JFail => None | _ => Some tt end)) s4 = Done r s' /\ pend s' = pend s /\
    arr s' = P ++ C ++ Q /\ Permutation C (A0 ++ B0) /\
    (G -> r = Some tt /\ asc C /\ stb C (A0 ++ B0))).
  { intros Hc.
    assert (Hm' : (@mach_lo A P Q) s4 v' D gap (RA ++ []) RB TA) by (rewrite app_nil_r; auto).
    destruct (lo_all_as _ _ _ _ _ _ _ _ (na v') Hm') as (s5 & gap5 & E5 & P5 & Hm5); [lia|].
    rewrite (bind_done _ _ _ _ _ E5). do 2 eexists. exists (D ++ RA ++ RB).
    split; [reflexivity|]. split; [congruence|].
    destruct Hm5 as (K1 & K2 & K3 & _). zl.
    assert (gap5 = []) by (apply zlen_nil_inv; auto). subst gap5.
    split; [rewrite K1; apps|]. destruct Hg as (G1 & G2). split; auto.
    intros g. destruct (G2 g) as (S1 & S2 & S3 & A' & z & S4 & S5).
    destruct j; simpl in Po; try contradiction; try congruence.
    split; auto. split; [|exact S1].
    destruct Po as [Po|Po].
    - assert (RB = []) by (apply zlen_nil_inv; lia). subst RB. rewrite app_nil_r. auto.
    - assert (RA = []) by (apply zlen_nil_inv; lia). rewrite H. simpl. auto. }
  destruct j; try (apply Finish; discriminate).
  (* CopyB *)
  clear Finish. simpl in Po. destruct Po as (Po1 & Po2).
  destruct (zlen_one_inv RA) as (z & ->); [lia|].
  assert (Hm' : (@mach_lo A P Q) s4 v' D gap [z] (RB ++ []) TA) by (rewrite app_nil_r; auto).
  destruct ((@lo_step_bs A P Q A0 B0) _ _ _ _ _ _ _ _ (nb v') Hm') as (s5 & gap5 & E5 & P5 & Hm5); [lia|].
  replace (nb v' =? 0) with false in E5 by lia.
  rewrite (bind_done _ _ _ _ _ E5).
  destruct ((@lo_step_a A P Q A0 B0) _ _ _ _ _ _ _ _ Hm5) as (s6 & gap6 & E6 & P6 & Hm6).
  simpl in E6. rewrite (bind_done _ _ _ _ _ E6).
  do 2 eexists. exists (D ++ RB ++ [z]). split; [reflexivity|]. split; [congruence|].
  destruct Hm6 as (K1 & K2 & K3 & _). zl.
  assert (gap6 = []) by (apply zlen_nil_inv; auto). subst gap6.
  split; [rewrite K1; apps|]. destruct Hg as (G1 & G2). split.
  { rewrite <- G1. apply Permutation_app_head. apply Permutation_app_comm. }
  intros g. split; auto. destruct (G2 g) as (S1 & S2 & S3 & A' & z' & S4 & S5).
  assert (z' = z). { destruct A' as [|? [|]]; simpl in S4; try discriminate. congruence. }
  subst z'. destruct (HG g) as (W & _). split.
  - rewrite app_assoc. apply asc_app. split; auto. split; [apply asc_one|].
    intros x y Hx [<-|[]]. apply in_app_or in Hx as [Hx|Hx].
    + apply asc_app in S2 as (_ & _ & S2). apply S2; simpl; auto.
    + apply lt_asym; auto.
  - eapply stable_trans; [|exact S1]. apply stb_app; [apply stable_refl|].
    apply stb_swap; auto. intros x y Hx [<-|[]]. apply lt_not_equiv; auto.
Qed.

Lemma ts_merge_hi_spec s a nA b nB : arr s = P ++ A0 ++ B0 ++ Q -> a = zlen P -> nA = zlen A0 -> b = a + nA ->
  nB = zlen B0 -> 0 < nA -> 0 < nB ->
  (G -> asc A0 /\ asc B0 /\ (forall x y, In x A0 -> hd_error B0 = Some y -> lt y x = true) /\
        exists A' z, A0 = A' ++ [z] /\ forall y, In y B0 -> lt y z = true) ->
  exists r s' C, ts_merge_hi cmp a nA b nB s = Done r s' /\ pend s' = pend s /\
    arr s' = P ++ C ++ Q /\ Permutation C (A0 ++ B0) /\
    (G -> r = Some tt /\ asc C /\ stb C (A0 ++ B0)).
Proof.
  intros Hs Ea EnA Eb EnB Ha Hb Hgood. unfold ts_merge_hi.
  destruct (nA =? 1) eqn:N1.
  { apply (rotate_left_merges s a nA b nB); auto; lia. }
  destruct (nB =? 1) eqn:N2.
  { apply (rotate_right_merges s a nA b nB); auto; lia. }
  assert (E2 : move_to_tmp b nB s = Done tt (with_tmp B0 s)).
  { apply (move_to_tmp_mid s (P ++ A0) B0 Q); auto; [rewrite Hs; apps|zl; lia]. }
  rewrite (bind_done _ _ _ _ _ E2).
  set (s2 := with_tmp B0 s).
  destruct (zlen_pos_last A0) as (A0' & a0 & EA); [lia|].
  set (v0 := mklv nA nB (b + nB - 1) (a + nA - 1) (nB - 1)).
  assert (Hm0 : (@mach_hi A P Q) s2 v0 (A0' ++ [a0]) B0 B0 [] []).
  { unfold mach_hi, v0; simpl. rewrite <- EA, app_nil_r. repeat split; auto; try lia. }
  destruct ((@hi_step_a A P Q A0 B0) _ _ _ _ _ _ _ _ Hm0) as (s3 & gap3 & E3 & P3 & Hm3); [simpl; lia|].
  simpl in E3. rewrite (bind_done _ _ _ _ _ E3). cbv zeta.
  simpl in Hm3.
  replace (b + nB - 1 - 1) with (b + nB - 2) in Hm3 by lia.
  replace (a + nA - 1 - 1) with (a + nA - 2) in Hm3 by lia.
  set (v := mklv (nA - 1) nB (b + nB - 2) (a + nA - 2) (nB - 1)) in *.
  destruct (zlen_pos_last B0) as (B0' & b0 & EB); [lia|].
  assert (Hg3 : (@ghost_hi A lt G A0 B0) A0' B0 [a0]).
  { assert (Hx : (@ghost_hi A lt G A0 B0) A0' (B0' ++ [b0]) ([a0] ++ [])); [|rewrite <- EB in Hx; exact Hx].
    apply ((@take_as_hi A cmp grab lt G HG A0 B0) A0' [a0] B0' b0 []).
    - rewrite <- EA, <- EB. split; [rewrite app_nil_r; reflexivity|].
      intros g. destruct (Hgood g) as (S1 & S2 & S3 & A' & z & S4 & S5).
      rewrite !app_nil_r. split; [apply stable_refl|]. split; auto. split; auto.
      destruct (zlen_pos_inv B0) as (z0 & B1 & E0); [lia|]. exists z0, B1. split; auto.
      intros x Hx. apply S3; auto. rewrite E0. reflexivity.
    - intros g y [<-|[]]. destruct (Hgood g) as (_ & _ & S3 & A' & z & S4 & S5).
      rewrite EA in S4. apply app_inj_tail in S4 as (_ & ->). apply S5.
      rewrite EB. apply in_or_app; simpl; auto. }
  assert (I3 : (@inv_hi A lt G P Q A0 B0) s3 v) by (do 5 eexists; split; eauto).
  rewrite (bind_done get_gallops _ s3 (gallops s3) s3 eq_refl).
  destruct (ts_hi_outer_spec (Z.to_nat (na v + nb v)) (gallops s3) v s3) as (j & mg' & v' & s4' & E4 & P4 & I4 & Po & Hj);
    auto; try (unfold v; simpl; lia).
  rewrite <- Ea in E4. rewrite (bind_done _ _ _ _ _ E4).
  rewrite (bind_done (set_gallops (Z.min mg' 1)) _ s4' tt (with_gallops (Z.min mg' 1) s4') eq_refl).
  apply (inv_hi_same s4' (with_gallops (Z.min mg' 1) s4')) in I4; auto.
  assert (P4' : pend (with_gallops (Z.min mg' 1) s4') = pend s3) by exact P4.
  set (s4 := with_gallops (Z.min mg' 1) s4') in *. clearbody s4. clear P4. rename P4' into P4.
  destruct I4 as (RA & gap & RB & TB & D & Hm & Hg).
  pose proof Hm as (H1 & H2 & H3 & H4 & H5 & H6 & H7 & H8).
  assert (Pend : pend s4 = pend s) by (rewrite P4, P3; reflexivity).
  clear E2 E3 E4 Hm0 Hm3 Hg3 I3.
  assert (Finish : j <> JCopy -> exists r s' C,
    bind (copy_from_tmp (dst v' - (nb v' - 1)) 0 (nb v'))
      (fun _ => ret (match j with JFail => None | _ => Some tt end)) s4 = Done r s' /\ pend s' = pend s /\
    arr s' = P ++ C ++ Q /\ Permutation C (A0 ++ B0) /\
    (G -> r = Some tt /\ asc C /\ stb C (A0 ++ B0))).
  { intros Hc.
    assert (Hm' : (@mach_hi A P Q) s4 v' RA gap ([] ++ RB) TB D) by auto.
    destruct (hi_all_bs _ _ _ _ _ _ _ _ (nb v') Hm') as (s5 & gap5 & E5 & P5 & Hm5); [lia|].
    replace (dst v' - nb v' + 1) with (dst v' - (nb v' - 1)) in E5 by lia.
    replace (pb v' - nb v' + 1) with 0 in E5 by lia.
    rewrite (bind_done _ _ _ _ _ E5). do 2 eexists. exists (RA ++ RB ++ D).
    split; [reflexivity|]. split; [congruence|].
    destruct Hm5 as (K1 & K2 & K3 & _). zl.
    assert (gap5 = []) by (apply zlen_nil_inv; auto). subst gap5.
    split; [rewrite K1; apps|]. destruct Hg as (G1 & G2). split; auto.
    intros g. destruct (G2 g) as (S1 & S2 & S3 & z & B' & S4 & S5).
    destruct j; simpl in Po; try contradiction; try congruence.
    split; auto. split; [|exact S1].
    destruct Po as [Po|Po].
    - assert (RA = []) by (apply zlen_nil_inv; lia). subst RA. simpl. auto.
    - assert (RB = []) by (apply zlen_nil_inv; lia). rewrite H. simpl. auto. }
  destruct j; try (apply Finish; discriminate).
  (* CopyA *)
  clear Finish. simpl in Po. destruct Po as (Po1 & Po2).
  destruct (zlen_one_inv RB) as (z & ->); [lia|].
  assert (Hm' : (@mach_hi A P Q) s4 v' ([] ++ RA) gap [z] TB D) by auto.
  destruct ((@hi_step_as A P Q A0 B0) _ _ _ _ _ _ _ _ (na v') Hm') as (s5 & gap5 & E5 & P5 & Hm5); [lia|].
  replace (na v' =? 0) with false in E5 by lia.
  replace (pa v' - na v' + 1) with (pa v' + 1 - na v') in E5 by lia.
  rewrite (bind_done _ _ _ _ _ E5).
  assert (Hm5' := Hm5). change [z] with ([] ++ [z]) in Hm5'.
  destruct ((@hi_step_b A P Q A0 B0) _ _ _ _ _ _ _ _ Hm5') as (s6 & gap6 & E6 & P6 & Hm6).
  simpl in E6. rewrite (bind_done _ _ _ _ _ E6).
  do 2 eexists. exists ([z] ++ RA ++ D). split; [reflexivity|]. split; [congruence|].
  destruct Hm6 as (K1 & K2 & K3 & _). zl.
  assert (gap6 = []) by (apply zlen_nil_inv; auto). subst gap6.
  split; [rewrite K1; apps|]. destruct Hg as (G1 & G2). split.
  { rewrite <- G1. rewrite !(app_assoc _ _ D). apply Permutation_app_tail. apply Permutation_app_comm. }
  intros g. split; auto. destruct (G2 g) as (S1 & S2 & S3 & z' & B' & S4 & S5).
  injection S4 as <- <-. destruct (HG g) as (W & _). split.
  - apply asc_app. split; [apply asc_one|]. split; auto.
    intros x y [<-|[]] Hy. apply in_app_or in Hy as [Hy|Hy].
    + apply lt_asym; auto.
    + apply asc_app in S3 as (_ & _ & S3). apply S3; simpl; auto.
  - eapply stable_trans; [|exact S1]. rewrite !(app_assoc _ _ D). apply stb_app; [|apply stable_refl].
    apply stb_swap; auto. intros x y [<-|[]] Hy. apply lt_not_equiv; auto.
Qed.

End Merge.
