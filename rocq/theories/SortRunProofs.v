(** merge_at, count_run, binarysort and merge_compute_minrun of
    CPythonSortModel.v. *)
From Coq Require Import ZArith List Bool Lia Sorting.Sorted Sorting.Permutation.
From Verif Require Import Base ListLemmas SortSpec SortOrderProofs CPythonSortModel SortMachineProofs
  SortMergeProofs.
Import ListNotations.
Local Open Scope Z_scope.
Local Arguments Z.of_nat : simpl never.
Local Arguments Z.to_nat : simpl never.
Local Arguments Z.mul : simpl never.
Local Arguments Z.add : simpl never.
Local Arguments Z.sub : simpl never.
Local Arguments MIN_GALLOP : simpl never.

Section Runs.
Context {A : Type}.
Variable cmp : nat -> A -> A -> option bool.
Variable grab : Z -> bool.
Variable lt : A -> A -> bool.
Notation st := (@st A).
Notation asc := (ascending lt).
Notation stb := (stable lt).
Notation sane := (sane cmp grab lt).

Lemma get_run_mid (s : st) x r y i : pend s = x ++ r :: y -> i = zlen x -> get_run i s = Done r s.
Proof. intros E1 E2. unfold get_run. rewrite E1, znth_mid by auto. reflexivity. Qed.
Lemma set_run_mid (s : st) x r y i r' : pend s = x ++ r :: y -> i = zlen x ->
  set_run i r' s = Done tt (with_pend (x ++ r' :: y) s).
Proof. intros E1 E2. unfold set_run. rewrite E1, zset_mid by auto. reflexivity. Qed.

(** ** merge_at *)

Lemma merge_at_spec (s : st) p1 ra rb p2 P SA SB Q :
  pend s = p1 ++ ra :: rb :: p2 -> zlen p2 <= 1 ->
  arr s = P ++ SA ++ SB ++ Q -> rbase ra = zlen P -> rlen ra = zlen SA ->
  rbase rb = rbase ra + rlen ra -> rlen rb = zlen SB -> 0 < zlen SA -> 0 < zlen SB ->
  2 * (zlen SA + zlen SB) + 1 <= SSIZE_MAX ->
  exists r s' C, merge_at cmp grab (zlen p1) s = Done r s' /\ arr s' = P ++ C ++ Q /\
    Permutation C (SA ++ SB) /\
    pend s' = p1 ++ mkrun (rbase ra) (rlen ra + rlen rb) (rpower ra) :: p2 /\
    (sane -> asc SA -> asc SB -> r = Some tt /\ asc C /\ stb C (SA ++ SB)).
Proof.
  intros Hp Hp2 Hs Ba La Bb Lb Pa Pb Hsz. unfold merge_at.
  rewrite (bind_done _ _ _ _ _ (get_run_mid s p1 ra (rb :: p2) _ Hp eq_refl)).
  assert (E1 : get_run (zlen p1 + 1) s = Done rb s).
  { apply (get_run_mid s (p1 ++ [ra]) rb p2); [rewrite Hp; apps|zl; lia]. }
  rewrite (bind_done _ _ _ _ _ E1). clear E1.
  rewrite (bind_done npend _ s (zlen (pend s)) s eq_refl). cbv zeta.
  set (rm := mkrun (rbase ra) (rlen ra + rlen rb) (rpower ra)).
  rewrite (bind_done _ _ _ _ _ (set_run_mid s p1 ra (rb :: p2) _ rm Hp eq_refl)).
  set (s1 := with_pend (p1 ++ rm :: rb :: p2) s).
  assert (E2 : exists s2, (if zlen p1 =? zlen (pend s) - 3
     then bind (get_run (zlen p1 + 2)) (fun r => set_run (zlen p1 + 1) r) else ret tt) s1 = Done tt s2 /\
     arr s2 = arr s /\ removelast (pend s2) = p1 ++ rm :: p2).
  { destruct p2 as [|rc p2].
    - replace (zlen p1 =? zlen (pend s) - 3) with false by (rewrite Hp; zl; lia).
      exists s1. split; [reflexivity|]. split; [reflexivity|].
      unfold s1; simpl. change (p1 ++ [rm; rb]) with (p1 ++ [rm] ++ [rb]).
      rewrite (app_assoc p1 [rm] [rb]). apply removelast_last.
    - assert (p2 = []) by (apply zlen_nil_inv; zl; zpos; lia). subst p2.
      replace (zlen p1 =? zlen (pend s) - 3) with true by (rewrite Hp; zl; lia).
      assert (E3 : get_run (zlen p1 + 2) s1 = Done rc s1).
      { apply (get_run_mid s1 (p1 ++ [rm; rb]) rc []); [unfold s1; simpl; apps|zl; lia]. }
      rewrite (bind_done _ _ _ _ _ E3).
      eexists. split; [apply (set_run_mid s1 (p1 ++ [rm]) rb [rc] _ rc); [unfold s1; simpl; apps|zl; lia]|].
      split; [reflexivity|]. simpl.
      change (rc :: [rc]) with ([rc] ++ [rc]). rewrite (app_assoc (p1 ++ [rm]) [rc] [rc]).
      rewrite removelast_last. apps. }
  destruct E2 as (s2 & E2 & A2 & P2). rewrite (bind_done _ _ _ _ _ E2). clear E2.
  rewrite (bind_done drop_run _ s2 tt (with_pend (removelast (pend s2)) s2) eq_refl).
  rewrite P2. set (s3 := with_pend (p1 ++ rm :: p2) s2).
  assert (A3 : arr s3 = P ++ SA ++ SB ++ Q) by (simpl; congruence).
  assert (P3 : pend s3 = p1 ++ rm :: p2) by reflexivity.
  clearbody s3. clear s1 s2 A2 P2.
  destruct (zlen_pos_inv SB) as (b0 & SB' & EB); [lia|].
  assert (E4 : get_arr (rbase rb) s3 = Done b0 s3).
  { apply (get_arr_mid s3 (P ++ SA) b0 (SB' ++ Q)); [rewrite A3, EB; apps|zl; lia]. }
  rewrite (bind_done _ _ _ _ _ E4).
  destruct (gallop_right_block cmp grab lt get_arr arr reads_arr s3 P SA (SB ++ Q) (rbase ra) (rlen ra) b0 0)
    as (r & s4 & E5 & Q5 & R5 & W5); auto; try (zpos; lia).
  rewrite (bind_done _ _ _ _ _ E5).
  assert (A4 : arr s4 = P ++ SA ++ SB ++ Q) by (destruct Q5; congruence).
  assert (P4 : pend s4 = p1 ++ rm :: p2) by (destruct Q5 as (_ & _ & _ & _ & Q5); congruence).
  assert (Fail : ~ (sane /\ asc SA /\ asc SB) -> forall s' : st, arr s' = P ++ SA ++ SB ++ Q ->
     pend s' = p1 ++ rm :: p2 -> exists (r : option unit) (s'' : st) C, Done None s' = Done r s'' /\ arr s'' = P ++ C ++ Q /\
       Permutation C (SA ++ SB) /\ pend s'' = p1 ++ rm :: p2 /\
       (sane -> asc SA -> asc SB -> r = Some tt /\ asc C /\ stb C (SA ++ SB))).
  { intros NG s' Hs' Hp'. do 2 eexists. exists (SA ++ SB). split; [reflexivity|].
    split; [rewrite Hs'; apps|]. split; auto. split; auto. intros; exfalso; auto. }
  destruct r as [k|].
  2:{ apply Fail; auto. intros (HS & HA & _). destruct (W5 HS HA) as (? & ? & _ & Ek & _). discriminate. }
  specialize (R5 k eq_refl). cbv zeta.
  assert (Sp : exists A1 A2, SA = A1 ++ A2 /\ zlen A1 = k /\
     (sane -> asc SA -> (forall y, In y A1 -> lt b0 y = false) /\ (forall y, In y A2 -> lt b0 y = true))).
  { destruct (zsplit_le SA k) as (u & w & E & L); [lia|]. exists u, w. split; auto. split; auto.
    intros g ha. destruct (W5 g ha) as (u' & w' & E' & Ek & F1 & F2).
    injection Ek as Ek. rewrite E in E'.
    destruct (app_split_eq u w u' w') as (-> & ->); auto. lia. }
  destruct Sp as (A1 & A2 & EA & LA1 & GA).
  assert (HbB : sane -> asc SB -> forall y, In y SB -> lt y b0 = false).
  { intros (W & _) HB y Hy. rewrite EB in *. eapply (asc_head _ W []); eauto. }
  assert (LA2 : zlen A2 = rlen ra - k) by (rewrite La, EA; zl; lia).
  destruct (rlen ra - k =? 0) eqn:C1.
  { assert (A2 = []) by (apply zlen_nil_inv; lia). subst A2. rewrite app_nil_r in EA. subst A1.
    exists (Some tt), s4, (SA ++ SB). split; [reflexivity|]. split; [rewrite A4; apps|].
    split; auto. split; auto. intros HS HA HB. split; auto. split; [|apply stable_refl].
    apply asc_app. split; auto. split; auto. intros x y Hx Hy.
    pose proof HS as (W & _). eapply le_trans; [exact W|..]; [|apply (HbB HS HB); eauto].
    apply (proj1 (GA HS HA)); auto. }
  destruct (zlen_pos_last A2) as (A2' & a2 & EA2); [zpos; lia|].
  assert (E6 : get_arr (rbase ra + k + (rlen ra - k) - 1) s4 = Done a2 s4).
  { apply (get_arr_mid s4 (P ++ A1 ++ A2') a2 (SB ++ Q)); [rewrite A4, EA, EA2; apps|].
    rewrite EA2 in LA2. zl. lia. }
  rewrite (bind_done _ _ _ _ _ E6).
  destruct (gallop_left_block cmp grab lt get_arr arr reads_arr s4 (P ++ SA) SB Q (rbase rb) (rlen rb) a2 (rlen rb - 1))
    as (r & s5 & E7 & Q7 & R7 & W7); auto; try (zl; zpos; lia).
  { rewrite A4. apps. }
  rewrite (bind_done _ _ _ _ _ E7).
  assert (A5 : arr s5 = P ++ SA ++ SB ++ Q) by (destruct Q7; congruence).
  assert (P5 : pend s5 = p1 ++ rm :: p2) by (destruct Q7 as (_ & _ & _ & _ & Q7); congruence).
  destruct r as [k2|].
  2:{ apply Fail; auto. intros (HS & _ & HB). destruct (W7 HS HB) as (? & ? & _ & Ek & _). discriminate. }
  specialize (R7 k2 eq_refl).
  assert (Sp : exists B1 B2, SB = B1 ++ B2 /\ zlen B1 = k2 /\
     (sane -> asc SB -> (forall y, In y B1 -> lt y a2 = true) /\ (forall y, In y B2 -> lt y a2 = false))).
  { destruct (zsplit_le SB k2) as (u & w & E & L); [lia|]. exists u, w. split; auto. split; auto.
    intros g ha. destruct (W7 g ha) as (u' & w' & E' & Ek & F1 & F2).
    injection Ek as Ek. rewrite E in E'.
    destruct (app_split_eq u w u' w') as (-> & ->); auto. lia. }
  destruct Sp as (B1 & B2 & EB2 & LB1 & GB).
  assert (Ea2 : sane -> asc SA -> asc SB -> In b0 B1).
  { intros HS HA HB. destruct (GB HS HB) as (_ & GB2). destruct (GA HS HA) as (_ & GA2).
    assert (lt b0 a2 = true) by (apply GA2; rewrite EA2; apply in_or_app; simpl; auto).
    destruct B1 as [|b B1].
    - simpl in EB2. rewrite (GB2 b0) in H; [discriminate|]. rewrite <- EB2, EB. simpl; auto.
    - rewrite EB in EB2. injection EB2 as -> _. simpl; auto. }
  destruct (k2 =? 0) eqn:C2.
  { exists (Some tt), s5, (SA ++ SB). split; [reflexivity|]. split; [rewrite A5; apps|].
    split; auto. split; auto. intros HS HA HB. exfalso.
    specialize (Ea2 HS HA HB). assert (B1 = []) by (apply zlen_nil_inv; lia). subst B1. contradiction. }
  set (G := sane /\ asc SA /\ asc SB).
  assert (HGs : G -> sane) by (intros (HS & _); exact HS).
  assert (Hgood : G -> asc A2 /\ asc B1 /\ (forall x y, In x A2 -> hd_error B1 = Some y -> lt y x = true) /\
        exists A' z, A2 = A' ++ [z] /\ forall y, In y B1 -> lt y z = true).
  { intros (HS & HA & HB). split; [rewrite EA in HA; apply asc_app in HA; tauto|].
    split; [rewrite EB2 in HB; apply asc_app in HB; tauto|]. split.
    - intros x y Hx Hy. assert (y = b0).
      { destruct B1; [discriminate|]. simpl in Hy. rewrite EB in EB2. simpl in EB2. congruence. }
      subst y. apply (GA HS HA); auto.
    - exists A2', a2. split; auto. apply (GB HS HB). }
  assert (Close : forall m, (exists r s' C, m s5 = Done r s' /\ pend s' = pend s5 /\
     arr s' = (P ++ A1) ++ C ++ (B2 ++ Q) /\ Permutation C (A2 ++ B1) /\
     (G -> r = Some tt /\ asc C /\ stb C (A2 ++ B1))) ->
     exists r s' C, m s5 = Done r s' /\ arr s' = P ++ C ++ Q /\
    Permutation C (SA ++ SB) /\ pend s' = p1 ++ rm :: p2 /\
    (sane -> asc SA -> asc SB -> r = Some tt /\ asc C /\ stb C (SA ++ SB))).
  { intros m (r & s' & C & E & P6 & A6 & Pm & GC). exists r, s', (A1 ++ C ++ B2).
    split; auto. split; [rewrite A6; apps|]. split.
    { rewrite EA, EB2, Pm. rewrite <- !app_assoc. reflexivity. }
    split; [congruence|]. intros HS HA HB. destruct GC as (Er & C3 & C4); [split; auto|].
    pose proof HS as (W & _). split; auto. split.
    - assert (HA' := HA). assert (HB' := HB). rewrite EA in HA'. rewrite EB2 in HB'.
      apply asc_app in HA' as (S1 & S2 & S3). apply asc_app in HB' as (S4 & S5 & S6).
      assert (InC : forall x, In x C -> In x A2 \/ In x B1).
      { intros x Hx. apply in_app_or. eapply Permutation_in; eauto. }
      destruct (GA HS HA) as (GA1 & GA2). destruct (GB HS HB) as (GB1 & GB2).
      assert (AB : forall x y, In x A1 -> In y SB -> lt y x = false).
      { intros x y Hx Hy. eapply le_trans; [exact W|..]; [apply GA1; exact Hx|apply (HbB HS HB); auto]. }
      assert (A2B2 : forall x y, In x A2 -> In y B2 -> lt y x = false).
      { intros x y Hx Hy. eapply le_trans; [exact W|..]; [|apply GB2; exact Hy].
        rewrite EA2 in *. eapply asc_last; eauto. }
      apply asc_app. split; auto. split.
      + apply asc_app. split; auto. split; auto. intros x y Hx Hy.
        destruct (InC x Hx); auto.
      + intros x y Hx Hy. apply in_app_or in Hy as [Hy|Hy].
        * destruct (InC y Hy); auto. apply AB; auto. rewrite EB2. apply in_or_app; auto.
        * apply AB; auto. rewrite EB2. apply in_or_app; auto.
    - rewrite EA, EB2. rewrite <- app_assoc. apply stb_app; [apply stable_refl|].
      rewrite (app_assoc A2 B1 B2). apply stb_app; [exact C4|apply stable_refl]. }
  assert (A5' : arr s5 = (P ++ A1) ++ A2 ++ B1 ++ (B2 ++ Q)) by (rewrite A5, EA, EB2; apps).
  assert (Sz2 : 2 * (zlen A2 + zlen B1) + 1 <= SSIZE_MAX) by (rewrite EA, EB2 in Hsz; zl; zpos; lia).
  destruct (rlen ra - k <=? k2) eqn:C3.
  - apply Close. apply (merge_lo_spec cmp grab lt G HGs (P ++ A1) (B2 ++ Q) A2 B1 Sz2); auto; try lia; zl; zpos; lia.
  - apply Close. apply (merge_hi_spec cmp grab lt G HGs (P ++ A1) (B2 ++ Q) A2 B1 Sz2); auto; try lia; zl; zpos; lia.
Qed.

(** ** count_run *)

Lemma ascend_spec fuel : forall (s : st) P S1 S2 Q lo nrem n,
  arr s = P ++ S1 ++ S2 ++ Q -> lo = zlen P -> n = zlen S1 -> nrem = n + zlen S2 -> 0 < n ->
  nrem - n <= Z.of_nat fuel ->
  exists r s', ascend cmp fuel lo nrem n s = Done r s' /\ quiet s s' /\
    (forall m, r = Some m -> n <= m <= nrem) /\
    (sane -> asc S1 -> exists E R, S2 = E ++ R /\ r = Some (n + zlen E) /\ asc (S1 ++ E) /\
       (R = [] \/ exists L x y R', S1 ++ E = L ++ [x] /\ R = y :: R' /\ lt y x = true)).
Proof.
  induction fuel; intros s P S1 S2 Q lo nrem n Hs Hlo Hn Hr Hp Hf.
  - assert (S2 = []) by (apply zlen_nil_inv; zpos; lia). subst S2. cbn [ascend].
    rewrite zlen_nil in Hr. replace (n <? nrem) with false by lia.
    do 2 eexists. split; [reflexivity|]. split; [apply quiet_refl|].
    split; [intros m [= <-]; lia|].
    intros _ Ha. exists [], []. rewrite !app_nil_r. split; auto. split; [f_equal; zl; lia|]. auto.
  - cbn [ascend]. destruct (n <? nrem) eqn:C1.
    + destruct (zlen_pos_inv S2) as (x & S2' & ->); [lia|].
      destruct (zlen_pos_last S1) as (S1' & y & E1); [lia|].
      assert (G1 : get_arr (lo + n) s = Done x s).
      { apply (get_arr_mid s (P ++ S1) x (S2' ++ Q)); [rewrite Hs; apps|zl; lia]. }
      rewrite (bind_done _ _ _ _ _ G1).
      assert (G2 : get_arr (lo + n - 1) s = Done y s).
      { apply (get_arr_mid s (P ++ S1') y (x :: S2' ++ Q)); [rewrite Hs, E1; apps|].
        rewrite Hn, E1. zl. lia. }
      rewrite (bind_done _ _ _ _ _ G2).
      destruct (islt_spec cmp grab lt x y s) as (r & s1 & E2 & Q1 & W1).
      rewrite (bind_done _ _ _ _ _ E2).
      destruct r as [[]|].
      * do 2 eexists. split; [reflexivity|]. split; auto. split; [intros m [= <-]; lia|].
        intros HS Ha. exists [], (x :: S2'). split; auto. split; [f_equal; zl; lia|].
        rewrite app_nil_r. split; auto. right. exists S1', y, x, S2'. repeat split; auto.
        specialize (W1 HS). congruence.
      * destruct (IHfuel s1 P (S1 ++ [x]) S2' Q lo nrem (n + 1)) as (r & s2 & E3 & Q2 & R2 & W2);
          auto; try (zl; lia).
        { destruct Q1 as (-> & _). rewrite Hs. apps. }
        exists r, s2. split; auto. split; [eapply quiet_trans; eauto|].
        split; [intros m Hm; specialize (R2 m Hm); lia|].
        intros HS Ha. destruct W2 as (E & R & -> & -> & Ha2 & HR); auto.
        { rewrite E1 in *. apply asc_snoc; [apply HS|auto|]. specialize (W1 HS). congruence. }
        exists (x :: E), R. split; auto. split; [f_equal; zl; lia|].
        change (x :: E) with ([x] ++ E). rewrite app_assoc. auto.
      * do 2 eexists. split; [reflexivity|]. split; auto. split; [discriminate|].
        intros HS _. specialize (W1 HS). discriminate.
    + assert (S2 = []) by (apply zlen_nil_inv; zpos; lia). subst S2.
      do 2 eexists. split; [reflexivity|]. split; [apply quiet_refl|].
      split; [intros m [= <-]; zl; lia|].
      intros _ Ha. exists [], []. rewrite !app_nil_r. split; auto. split; [f_equal; zl; lia|]. auto.
Qed.

(** While descending: [Y] holds the finished groups, each already reversed,
    [Gp] the current group of equal elements. *)
Definition dinv (Y Gp X0 : list A) : Prop :=
  asc (rev Y) /\ (forall x y, In x Gp -> In y Gp -> lt x y = false) /\
  (forall g y, In g Gp -> In y Y -> lt g y = true) /\ stb (rev Y ++ Gp) X0.

Lemma reverse_last_neq_spec (s : st) P Y Gp R lo n neq :
  arr s = P ++ Y ++ Gp ++ R -> lo = zlen P -> n = zlen Y + zlen Gp -> zlen Gp = neq + 1 ->
  exists s', reverse_last_neq lo n neq s = Done tt s' /\ still s s' /\ arr s' = P ++ Y ++ rev Gp ++ R.
Proof.
  intros Hs Hl Hn Hg. unfold reverse_last_neq. destruct (neq =? 0) eqn:E.
  - destruct (zlen_one_inv Gp) as (g & ->); [lia|]. exists s. split; [reflexivity|].
    split; [apply still_refl|]. exact Hs.
  - destruct (reverse_slice_spec s (P ++ Y) Gp R (lo + (n - (neq + 1))) (neq + 1)) as (s' & E1 & S1 & _ & A1).
    + rewrite Hs. apps.
    + zl. lia.
    + lia.
    + exists s'. split; auto. split; auto. rewrite A1. apps.
Qed.

Lemma rev_perm_app (Y Gp : list A) : Permutation (Y ++ rev Gp) (Y ++ Gp).
Proof. apply Permutation_app_head. symmetry. apply Permutation_rev. Qed.

Lemma in_last (L : list A) x : In x (L ++ [x]).
Proof. apply in_or_app; simpl; auto. Qed.

Lemma descend_spec fuel : forall (s : st) P Y Gp S2 Q X0 lo nrem n neq,
  arr s = P ++ Y ++ Gp ++ S2 ++ Q -> lo = zlen P -> n = zlen Y + zlen Gp -> nrem = n + zlen S2 ->
  zlen Gp = neq + 1 -> 0 <= neq -> nrem - n <= Z.of_nat fuel ->
  Permutation (Y ++ Gp) X0 ->
  exists r s' Y' Gp' E R, descend cmp fuel lo nrem n neq s = Done r s' /\ still s s' /\
    arr s' = P ++ Y' ++ Gp' ++ R ++ Q /\ S2 = E ++ R /\ Permutation (Y' ++ Gp') (X0 ++ E) /\
    (forall m q, r = Some (m, q) -> m = zlen Y' + zlen Gp' /\ zlen Gp' = q + 1 /\ 0 <= q) /\
    (sane -> dinv Y Gp X0 -> (exists m q, r = Some (m, q)) /\ dinv Y' Gp' (X0 ++ E)).
Proof.
  induction fuel; intros s P Y Gp S2 Q X0 lo nrem n neq Hs Hlo Hn Hr Hg Hq Hf Hp.
  - assert (S2 = []) by (apply zlen_nil_inv; zpos; lia). subst S2. cbn [descend].
    rewrite zlen_nil in Hr. replace (n <? nrem) with false by lia.
    do 2 eexists. exists Y, Gp, [], []. split; [reflexivity|]. split; [apply still_refl|].
    split; auto. split; auto. rewrite app_nil_r. split; auto.
    split; [intros m q [= <- <-]; auto|]. intros _ Hd. split; eauto.
  - cbn [descend]. destruct (n <? nrem) eqn:C1.
    2:{ assert (S2 = []) by (apply zlen_nil_inv; zpos; lia). subst S2.
        do 2 eexists. exists Y, Gp, [], []. split; [reflexivity|]. split; [apply still_refl|].
        split; auto. split; auto. rewrite app_nil_r. split; auto.
        split; [intros m q [= <- <-]; auto|]. intros _ Hd. split; eauto. }
    destruct (zlen_pos_inv S2) as (x & S2' & ->); [lia|].
    destruct (zlen_pos_last Gp) as (Gp1 & y & EG); [lia|].
    assert (G1 : get_arr (lo + n) s = Done x s).
    { apply (get_arr_mid s (P ++ Y ++ Gp) x (S2' ++ Q)); [rewrite Hs; apps|zl; lia]. }
    rewrite (bind_done _ _ _ _ _ G1).
    assert (G2 : get_arr (lo + n - 1) s = Done y s).
    { apply (get_arr_mid s (P ++ Y ++ Gp1) y (x :: S2' ++ Q)); [rewrite Hs, EG; apps|].
      rewrite Hn, EG. zl. lia. }
    rewrite (bind_done _ _ _ _ _ G2).
    destruct (islt_spec cmp grab lt x y s) as (r & s1 & E2 & Q1 & W1).
    rewrite (bind_done _ _ _ _ _ E2).
    assert (A1 : arr s1 = P ++ Y ++ Gp ++ x :: S2' ++ Q) by (destruct Q1 as (-> & _); rewrite Hs; apps).
    assert (S1 : still s s1) by (apply quiet_still; auto).
    destruct r as [[]|].
    + destruct (reverse_last_neq_spec s1 P Y Gp (x :: S2' ++ Q) lo n neq A1 Hlo Hn Hg) as (s2 & E3 & S3 & A2).
      rewrite (bind_done _ _ _ _ _ E3).
      destruct (IHfuel s2 P (Y ++ rev Gp) [x] S2' Q (X0 ++ [x]) lo nrem (n + 1) 0)
        as (r & s' & Y' & Gp' & E & R & E4 & S4 & A4 & EE & P4 & R4 & W4); auto; try (zl; try rewrite zlen_rev; lia).
      { rewrite A2. apps. }
      { apply Permutation_app_tail. rewrite rev_perm_app. auto. }
      exists r, s', Y', Gp', (x :: E), R. split; auto.
      split; [eapply still_trans; [|eapply still_trans]; eauto|]. split; auto.
      split; [rewrite EE; reflexivity|]. rewrite <- app_assoc in P4. split; auto. split; auto.
      intros HS (D1 & D2 & D3 & D4). rewrite <- app_assoc in W4. apply W4; auto.
      pose proof HS as (W & _). specialize (W1 HS). injection W1 as W1.
      assert (XG : forall g, In g Gp -> lt x g = true).
      { intros g Hin. eapply lt_le_trans; [exact W|..]; [symmetry; exact W1|].
        apply D2; auto. rewrite EG. apply in_last. }
      split; [|split; [|split]].
      * rewrite rev_app_distr, rev_involutive. apply asc_app. split; [apply asc_all_equal; intros; apply D2; auto|].
        split; auto. intros g z Hin Hz. apply lt_asym; auto. apply D3; auto. apply in_rev; auto.
      * intros u w [<-|[]] [<-|[]]. apply lt_irr; auto.
      * intros u w [<-|[]] Hw. apply in_app_or in Hw as [Hw|Hw]; [|apply XG, in_rev; auto].
        eapply le_lt_trans; [exact W|..]; [apply lt_asym; [exact W|]; apply (XG y); rewrite EG; apply in_last|].
        apply D3; auto. rewrite EG. apply in_last.
      * apply stb_app; [|apply stable_refl]. rewrite rev_app_distr, rev_involutive.
        eapply stable_trans; [|exact D4]. apply stb_swap; auto.
        intros g z Hin Hz. apply lt_not_equiv. apply D3; auto. apply in_rev; auto.
    + destruct (islt_spec cmp grab lt y x s1) as (r & s2 & E3 & Q2 & W2).
      rewrite (bind_done _ _ _ _ _ E3).
      assert (A2 : arr s2 = P ++ Y ++ Gp ++ x :: S2' ++ Q) by (destruct Q2 as (-> & _); exact A1).
      assert (S2 : still s s2) by (eapply still_trans; [exact S1|apply quiet_still; auto]).
      destruct r as [[]|].
      * do 2 eexists. exists Y, Gp, [], (x :: S2'). split; [reflexivity|]. split; auto.
        split; [rewrite A2; apps|]. split; auto. rewrite app_nil_r. split; auto.
        split; [intros m q [= <- <-]; auto|]. intros _ Hd. split; eauto.
      * destruct (IHfuel s2 P Y (Gp ++ [x]) S2' Q (X0 ++ [x]) lo nrem (n + 1) (neq + 1))
          as (r & s' & Y' & Gp' & E & R & E4 & S4 & A4 & EE & P4 & R4 & W4); auto; try (zl; lia).
        { rewrite A2. apps. }
        { rewrite app_assoc. apply Permutation_app_tail. auto. }
        exists r, s', Y', Gp', (x :: E), R. split; auto.
        split; [eapply still_trans; eauto|]. split; auto.
        split; [rewrite EE; reflexivity|]. rewrite <- app_assoc in P4. split; auto. split; auto.
        intros HS (D1 & D2 & D3 & D4). rewrite <- app_assoc in W4. apply W4; auto.
        pose proof HS as (W & _). specialize (W1 HS). specialize (W2 HS).
        injection W1 as W1. injection W2 as W2. symmetry in W1, W2.
        assert (Yin : In y Gp) by (rewrite EG; apply in_last).
        split; [|split; [|split]]; auto.
        -- intros u w Hu Hw. apply in_app_or in Hu as [Hu|[<-|[]]]; apply in_app_or in Hw as [Hw|[<-|[]]]; auto.
           ++ eapply (le_trans _ W x y u); auto.
           ++ eapply (le_trans _ W w y x); auto.
           ++ apply lt_irr; auto.
        -- intros u w Hu Hw. apply in_app_or in Hu as [Hu|[<-|[]]]; auto.
           eapply le_lt_trans; [exact W|..]; [exact W2|]. apply D3; auto.
        -- rewrite app_assoc. apply stb_app; [auto|apply stable_refl].
      * do 2 eexists. exists Y, Gp, [], (x :: S2'). split; [reflexivity|]. split; auto.
        split; [rewrite A2; apps|]. split; auto. rewrite app_nil_r. split; auto.
        split; [discriminate|]. intros HS _. specialize (W2 HS). discriminate.
    + do 2 eexists. exists Y, Gp, [], (x :: S2'). split; [reflexivity|]. split; auto.
      split; [rewrite A1; apps|]. split; auto. rewrite app_nil_r. split; auto.
      split; [discriminate|]. intros HS _. specialize (W1 HS). discriminate.
Qed.

Lemma count_run_spec (s : st) P S Q lo nrem :
  arr s = P ++ S ++ Q -> lo = zlen P -> nrem = zlen S -> 0 < nrem ->
  exists r s' T T0 R, count_run cmp lo nrem s = Done r s' /\ still s s' /\
    arr s' = P ++ T ++ R ++ Q /\ S = T0 ++ R /\ Permutation T T0 /\
    (forall m, r = Some m -> m = zlen T /\ 0 < m) /\
    (sane -> (exists m, r = Some m) /\ asc T /\ stb T T0).
Proof.
  intros Hs Hlo Hr Hpos. unfold count_run. cbv zeta.
  destruct (zlen_pos_inv S) as (x0 & S' & ES); [lia|].
  destruct (ascend_spec (Z.to_nat nrem) s P [x0] S' Q lo nrem 1) as (r & s1 & E1 & Q1 & R1 & W1); auto;
    try (rewrite Hr, ES; zl; zpos; lia).
  { rewrite Hs, ES. apps. }
  all: try (zl; zpos; lia).
  rewrite (bind_done _ _ _ _ _ E1).
  assert (A1 : arr s1 = P ++ S ++ Q) by (destruct Q1 as (-> & _); exact Hs).
  assert (S1 : still s s1) by (apply quiet_still; auto).
  destruct r as [n|].
  2:{ exists None, s1, S, S, []. split; [reflexivity|]. split; auto. split; [rewrite A1; apps|].
      rewrite app_nil_r. split; auto. split; auto. split; [discriminate|].
      intros HS. destruct (W1 HS) as (? & ? & _ & Ek & _); [apply asc_one|discriminate]. }
  specialize (R1 n eq_refl).
  assert (Sp : exists T R, S = T ++ R /\ zlen T = n /\
     (sane -> asc T /\ (R = [] \/ exists L x y R', T = L ++ [x] /\ R = y :: R' /\ lt y x = true))).
  { destruct (zsplit_le S n) as (u & w & E & L); [lia|]. exists u, w. split; auto. split; auto.
    intros HS. destruct (W1 HS) as (e & r' & E' & Ek & F1 & F2); [apply asc_one|].
    injection Ek as Ek. assert (EE : u ++ w = (x0 :: e) ++ r') by (rewrite <- E, ES, E'; reflexivity).
    apply app_split_eq in EE as (-> & ->); auto. zl. lia. }
  destruct Sp as (T & R & EST & LT & WT).
  destruct (n =? nrem) eqn:C1.
  { assert (R = []) by (apply zlen_nil_inv; rewrite EST in Hr; zl; lia). subst R.
    rewrite app_nil_r in EST. subst T.
    exists (Some n), s1, S, S, []. split; [reflexivity|]. split; auto. split; [rewrite A1; apps|].
    rewrite app_nil_r. split; auto. split; auto. split; [intros m [= <-]; lia|].
    intros HS. split; [eauto|]. split; [apply WT; auto|apply stable_refl]. }
  assert (NR : 0 < zlen R) by (rewrite EST in Hr; zl; zpos; lia).
  destruct (zlen_pos_inv R) as (y & R' & ER); [auto|].
  (* the descending part, from an array whose first n slots are T' *)
  assert (Desc : forall (s2 : st) T', still s s2 -> arr s2 = P ++ T' ++ [y] ++ R' ++ Q -> Permutation T' T ->
    (sane -> dinv T' [y] (T ++ [y])) ->
    exists r s' T1 T0 R1, bind (descend cmp (Z.to_nat nrem) lo nrem (n + 1) 0) (fun d =>
          match d with
          | None => ret None
          | Some (n, neq) =>
              bind (reverse_last_neq lo n neq) (fun _ =>
              bind (reverse_slice lo n) (fun _ =>
              ascend cmp (Z.to_nat nrem) lo nrem n))
          end) s2 = Done r s' /\ still s s' /\
    arr s' = P ++ T1 ++ R1 ++ Q /\ S = T0 ++ R1 /\ Permutation T1 T0 /\
    (forall m, r = Some m -> m = zlen T1 /\ 0 < m) /\
    (sane -> (exists m, r = Some m) /\ asc T1 /\ stb T1 T0)).
  { intros s2 T' S2 A2 P2 D2.
    assert (LT' : zlen T' = n).
    { apply Permutation_length in P2. unfold zlen in *. lia. }
    destruct (descend_spec (Z.to_nat nrem) s2 P T' [y] R' Q (T ++ [y]) lo nrem (n + 1) 0)
      as (r & s3 & Y & Gp & E & R2 & E3 & S3 & A3 & EE & P3 & R3 & W3); auto; try (zl; lia).
    { rewrite Hr, EST, ER. zl. lia. }
    { apply Permutation_app_tail. auto. }
    rewrite (bind_done _ _ _ _ _ E3).
    destruct r as [(m, q)|].
    2:{ exists None, s3, (Y ++ Gp ++ R2), S, []. split; [reflexivity|].
        split; [eapply still_trans; eauto|]. split; [rewrite A3; apps|].
        split; [rewrite app_nil_r; reflexivity|]. split.
        { rewrite app_assoc, P3, EST, ER, EE. apps. }
        split; [discriminate|]. intros HS. destruct W3 as ((? & ? & ?) & _); auto. discriminate. }
    destruct (R3 m q eq_refl) as (Em & Eg & Hq0).
    destruct (reverse_last_neq_spec s3 P Y Gp (R2 ++ Q) lo m q A3 Hlo Em Eg) as (s4 & E4 & S4 & A4).
    rewrite (bind_done _ _ _ _ _ E4).
    destruct (reverse_slice_spec s4 P (Y ++ rev Gp) (R2 ++ Q) lo m) as (s5 & E5 & S5 & _ & A5); auto.
    { rewrite A4. apps. }
    { zl. rewrite zlen_rev. lia. }
    rewrite (bind_done _ _ _ _ _ E5).
    rewrite rev_app_distr, rev_involutive in A5.
    assert (P5 : Permutation (Gp ++ rev Y) (T ++ [y] ++ E)).
    { rewrite Permutation_app_comm. rewrite <- (Permutation_rev Y). rewrite P3. apps. }
    assert (ESf : S = (T ++ [y] ++ E) ++ R2) by (rewrite EST, ER, EE; apps).
    destruct (ascend_spec (Z.to_nat nrem) s5 P (Gp ++ rev Y) R2 Q lo nrem m) as (r & s6 & E6 & Q6 & R6 & W6); auto.
    { zl. rewrite zlen_rev. lia. }
    { rewrite Hr, ESf, Em. apply Permutation_length in P3. unfold zlen. rewrite !app_length in *. simpl in *. lia. }
    { zpos. lia. }
    { zpos. lia. }
    rewrite E6.
    assert (Sf : still s s6).
    { eapply still_trans; [exact S2|]. eapply still_trans; [exact S3|]. eapply still_trans; [exact S4|].
      eapply still_trans; [exact S5|]. apply quiet_still; auto. }
    assert (A6 : arr s6 = P ++ (Gp ++ rev Y) ++ R2 ++ Q) by (destruct Q6 as (-> & _); auto).
    destruct r as [m2|].
    - specialize (R6 m2 eq_refl).
      assert (Hm2 : m2 - m <= zlen R2).
      { rewrite Hr, ESf in R6. apply Permutation_length in P3. unfold zlen in *. rewrite !app_length in *. simpl in *. lia. }
      destruct (zsplit_le R2 (m2 - m)) as (F & R3' & EF & LF); [lia|].
      exists (Some m2), s6, ((Gp ++ rev Y) ++ F), ((T ++ [y] ++ E) ++ F), R3'.
      split; [reflexivity|]. split; auto. split; [rewrite A6, EF; apps|].
      split; [rewrite ESf, EF; apps|]. split; [apply Permutation_app_tail; auto|].
      split; [intros k [= <-]; split; [zl; rewrite zlen_rev; lia|zpos; lia]|].
      intros HS. split; [eauto|]. destruct W3 as (_ & (D1 & D3 & D4 & D5)); auto.
      pose proof HS as (W & _).
      assert (AscT : asc (Gp ++ rev Y)).
      { apply asc_app. split; [apply asc_all_equal; auto|]. split; auto.
        intros g z Hg Hz. apply lt_asym; auto. apply D4; auto. apply in_rev; auto. }
      destruct (W6 HS AscT) as (F' & R4 & EF' & Em2 & AF & _).
      injection Em2 as Em2. rewrite EF in EF'.
      apply app_split_eq in EF' as (<- & <-); [|lia].
      split; auto. apply stb_app; [|apply stable_refl].
      eapply stable_trans; [apply stb_swap; auto|].
      { intros g z Hg Hz. apply lt_not_equiv, D4; auto. apply in_rev; auto. }
      rewrite <- app_assoc in D5. exact D5.
    - exists None, s6, (Gp ++ rev Y), (T ++ [y] ++ E), R2.
      split; [reflexivity|]. split; auto. split; auto. split; auto. split; auto.
      split; [discriminate|]. intros HS. destruct W3 as (_ & (D1 & D3 & D4 & D5)); auto.
      pose proof HS as (W & _). destruct W6 as (? & ? & _ & Ek & _); auto; [|discriminate].
      apply asc_app. split; [apply asc_all_equal; auto|]. split; auto.
      intros g z Hg Hz. apply lt_asym; auto. apply D4; auto. apply in_rev; auto. }
  assert (A1' : arr s1 = P ++ T ++ [y] ++ R' ++ Q) by (rewrite A1, EST, ER; apps).
  destruct (1 <? n) eqn:C2.
  - destruct (zlen_pos_inv T) as (tx & T' & ET); [lia|].
    destruct (zlen_pos_last T) as (T'' & tz & ET'); [lia|].
    assert (G1 : get_arr lo s1 = Done tx s1).
    { apply (get_arr_mid s1 P tx (T' ++ [y] ++ R' ++ Q)); [rewrite A1', ET; apps|auto]. }
    rewrite (bind_done _ _ _ _ _ G1).
    assert (G2 : get_arr (lo + n - 1) s1 = Done tz s1).
    { apply (get_arr_mid s1 (P ++ T'') tz ([y] ++ R' ++ Q)); [rewrite A1', ET'; apps|].
      rewrite <- LT, ET'. zl. lia. }
    rewrite (bind_done _ _ _ _ _ G2).
    destruct (islt_spec cmp grab lt tx tz s1) as (r & s2 & E2 & Q2 & W2).
    rewrite (bind_done _ _ _ _ _ E2).
    assert (A2 : arr s2 = P ++ T ++ [y] ++ R' ++ Q) by (destruct Q2 as (-> & _); auto).
    assert (S2 : still s s2) by (eapply still_trans; [exact S1|apply quiet_still; auto]).
    destruct r as [[]|].
    + exists (Some n), s2, T, T, R. split; [reflexivity|]. split; auto. split; [rewrite A2, ER; apps|].
      split; auto. split; auto. split; [intros m [= <-]; lia|].
      intros HS. split; [eauto|]. split; [apply WT; auto|apply stable_refl].
    + destruct (reverse_slice_spec s2 P T ([y] ++ R' ++ Q) lo n) as (s3 & E3 & S3 & _ & A3); auto.
      rewrite (bind_done _ _ _ _ _ E3).
      apply (Desc s3 (rev T)); auto.
      * eapply still_trans; eauto.
      * symmetry. apply Permutation_rev.
      * intros HS. pose proof HS as (W & _). specialize (W2 HS). injection W2 as W2. symmetry in W2.
        destruct (WT HS) as (Ta & [E|(L & x & y' & R2 & E4 & E5 & E6)]); [rewrite ER in E; discriminate|].
        rewrite ET' in E4. apply app_inj_tail in E4 as (_ & <-).
        rewrite ER in E5. injection E5 as <- _.
        assert (Alle : forall u, In u T -> lt u tz = false).
        { intros u Hu. eapply (le_trans _ W tz tx u); auto. rewrite ET in *. eapply (asc_head _ W []); eauto. }
        split; [rewrite rev_involutive; auto|]. split; [intros u w [<-|[]] [<-|[]]; apply lt_irr; auto|].
        split.
        -- intros g u [<-|[]] Hu. apply in_rev in Hu. eapply lt_le_trans; eauto.
        -- rewrite rev_involutive. apply stable_refl.
    + exists None, s2, T, T, R. split; [reflexivity|]. split; auto. split; [rewrite A2, ER; apps|].
      split; auto. split; auto. split; [discriminate|].
      intros HS. specialize (W2 HS). discriminate.
  - destruct (zlen_one_inv T) as (t & ->); [lia|].
    apply (Desc s1 [t]); auto.
    intros HS. destruct (WT HS) as (Ta & [E|(L & x & y' & R2 & E4 & E5 & E6)]); [rewrite ER in E; discriminate|].
    change [t] with ([] ++ [t]) in E4. apply app_inj_tail in E4 as (_ & <-).
    rewrite ER in E5. injection E5 as <- _.
    split; [apply asc_one|]. split; [intros u w [<-|[]] [<-|[]]; apply lt_irr; apply HS|].
    split; [|apply stable_refl]. intros g u [<-|[]] [<-|[]]. auto.
Qed.

(** ** binarysort *)

Lemma bin_search_block : forall (s : st) x seg z base key fuel,
  arr s = x ++ seg ++ z -> base = zlen x -> zlen seg <= Z.of_nat fuel ->
  exists r s', bin_search fuel get_arr (probe_right cmp key) base 0 (zlen seg) s = Done r s' /\ quiet s s' /\
    (forall m, r = Some m -> 0 <= m <= zlen seg) /\
    (sane -> asc seg -> exists s1 s2, seg = s1 ++ s2 /\ r = Some (zlen s1) /\
       (forall y, In y s1 -> lt key y = false) /\ (forall y, In y s2 -> lt key y = true)).
Proof.
  intros s x seg z base key fuel Hs Hb Hf.
  assert (Hsplit : weak_order lt -> asc seg -> exists s1 s2, seg = s1 ++ s2 /\
       (forall y, In y s1 -> lt key y = false) /\ (forall y, In y s2 -> lt key y = true)).
  { intros W. clear - W. induction seg as [|y r IH]; intros H.
    - exists [], []. repeat split; auto; contradiction.
    - apply asc_cons in H as (H1 & H2). destruct (lt key y) eqn:E.
      + exists [], (y :: r). split; auto. split; [contradiction|].
        intros u [<-|Hu]; auto. eapply lt_le_trans; eauto.
      + destruct (IH H1) as (s1 & s2 & -> & Ha & Hc). exists (y :: s1), s2. split; auto.
        split; auto. intros u [<-|Hu]; auto. }
  assert (Hseg : forall i, 0 <= i < zlen seg -> znth (arr s) (base + i) = znth seg i).
  { intros i Hi. rewrite Hs. apply znth_app; lia. }
  assert (B0 : 0 <= 0 <= zlen seg) by (zpos; lia).
  assert (Bf : zlen seg - 0 <= Z.of_nat fuel) by lia.
  destruct (bin_search_spec cmp grab lt get_arr arr _ _ reads_arr (probe_right_spec cmp grab lt key)
     (arr s) seg base (zlen seg) 0 Hseg eq_refl fuel s 0 (zlen seg) eq_refl B0 (Z.le_refl _) Bf) as (r & s' & E & Q & R & _).
  exists r, s'. split; auto. split; auto. split; auto.
  intros W H. destruct (Hsplit (proj1 W) H) as (s1 & s2 & E1 & H1 & H2).
  exists s1, s2. split; auto. split; auto.
  destruct (bin_search_spec cmp grab lt get_arr arr _ _ reads_arr (probe_right_spec cmp grab lt key)
     (arr s) seg base (zlen seg) (zlen s1) Hseg eq_refl fuel s 0 (zlen seg) eq_refl B0 (Z.le_refl _) Bf) as (r' & s'' & E' & _ & _ & K).
  rewrite E in E'. injection E' as <- <-.
  assert (Hk : 0 <= zlen s1 <= zlen seg).
  { rewrite E1, zlen_app. pose proof (zlen_nonneg s1). pose proof (zlen_nonneg s2). lia. }
  apply K; auto. split; auto.
  intros i y Hy. rewrite E1 in Hy. assert (Hi := znth_some _ _ _ Hy).
  destruct (i <? zlen s1) eqn:Ei.
  - rewrite H1; auto. unfold znth in Hy. replace (i <? 0) with false in Hy by lia.
    rewrite nth_error_app1 in Hy by (unfold zlen in Ei; lia). eapply nth_error_In; eauto.
  - rewrite H2; auto. unfold znth in Hy. replace (i <? 0) with false in Hy by lia.
    rewrite nth_error_app2 in Hy by (unfold zlen in Ei; lia). eapply nth_error_In; eauto.
Qed.

Lemma slide_spec fuel : forall (s : st) P S1 S2 x Q lo m l,
  arr s = P ++ S1 ++ S2 ++ x :: Q -> lo = zlen P -> l = zlen S1 -> m = l + zlen S2 ->
  zlen S2 <= Z.of_nat fuel ->
  exists s' z, slide fuel lo m l s = Done tt s' /\ still s s' /\ arr s' = P ++ S1 ++ z :: S2 ++ Q.
Proof.
  induction fuel; intros s P S1 S2 x Q lo m l Hs Hlo Hl Hm Hf.
  - assert (S2 = []) by (apply zlen_nil_inv; zpos; lia). subst S2. cbn [slide].
    rewrite zlen_nil in Hm. replace (l <? m) with false by lia.
    exists s, x. split; [reflexivity|]. split; [apply still_refl|]. auto.
  - cbn [slide]. destruct (l <? m) eqn:C.
    + destruct (zlen_pos_last S2) as (S2' & y & ->); [lia|].
      assert (E : copy_arr_arr (lo + m) (lo + m - 1) s =
                  Done tt (with_arr ((P ++ S1 ++ S2' ++ [y]) ++ y :: Q) s)).
      { apply (copy_arr_arr_mid s (P ++ S1 ++ S2' ++ [y]) x Q (P ++ S1 ++ S2') y (x :: Q)).
        - rewrite Hs. apps.
        - zl. lia.
        - rewrite Hs. apps.
        - zl. lia. }
      rewrite (bind_done _ _ _ _ _ E).
      destruct (IHfuel (with_arr ((P ++ S1 ++ S2' ++ [y]) ++ y :: Q) s) P S1 S2' y (y :: Q) lo (m - 1) l)
        as (s' & z & E' & S' & A'); auto; try (zl; lia).
      { simpl. apps. }
      exists s', z. split; auto. split; [eapply still_trans; [apply still_arr|exact S']|].
      rewrite A'. apps.
    + assert (S2 = []) by (apply zlen_nil_inv; zpos; lia). subst S2.
      exists s, x. split; [reflexivity|]. split; [apply still_refl|]. auto.
Qed.

Lemma binarysort_loop_spec fuel : forall (s : st) P S1 S2 Q lo n ok,
  arr s = P ++ S1 ++ S2 ++ Q -> lo = zlen P -> ok = zlen S1 -> n = ok + zlen S2 ->
  zlen S2 <= Z.of_nat fuel ->
  exists r s' T, binarysort_loop cmp fuel lo n ok s = Done r s' /\ still s s' /\
    arr s' = P ++ T ++ Q /\ Permutation T (S1 ++ S2) /\
    (sane -> asc S1 -> r = Some tt /\ asc T /\ stb T (S1 ++ S2)).
Proof.
  induction fuel; intros s P S1 S2 Q lo n ok Hs Hlo Hok Hn Hf.
  - assert (S2 = []) by (apply zlen_nil_inv; zpos; lia). subst S2. cbn [binarysort_loop].
    rewrite zlen_nil in Hn. replace (ok <? n) with false by lia.
    exists (Some tt), s, S1. split; [reflexivity|]. split; [apply still_refl|]. split; auto.
    rewrite app_nil_r. split; auto. intros; split; auto. split; auto. apply stable_refl.
  - cbn [binarysort_loop]. destruct (ok <? n) eqn:C.
    + destruct (zlen_pos_inv S2) as (pv & S2' & ->); [lia|].
      assert (G1 : get_arr (lo + ok) s = Done pv s).
      { apply (get_arr_mid s (P ++ S1) pv (S2' ++ Q)); [rewrite Hs; apps|zl; lia]. }
      rewrite (bind_done _ _ _ _ _ G1).
      destruct (bin_search_block s P S1 (pv :: S2' ++ Q) lo pv (Z.to_nat n)) as (r & s1 & E1 & Q1 & R1 & W1); auto.
      { zl. zpos. lia. }
      rewrite <- Hok in E1. rewrite (bind_done _ _ _ _ _ E1).
      assert (A1 : arr s1 = P ++ S1 ++ pv :: S2' ++ Q) by (destruct Q1 as (-> & _); auto).
      destruct r as [l|].
      2:{ exists None, s1, (S1 ++ pv :: S2'). split; [reflexivity|]. split; [apply quiet_still; auto|].
          split; [rewrite A1; apps|]. split; auto. intros HS Ha.
          destruct (W1 HS Ha) as (? & ? & _ & Ek & _). discriminate. }
      specialize (R1 l eq_refl).
      assert (Sp : exists U V, S1 = U ++ V /\ zlen U = l /\
         (sane -> asc S1 -> (forall y, In y U -> lt pv y = false) /\ (forall y, In y V -> lt pv y = true))).
      { destruct (zsplit_le S1 l) as (u & w & E & L); [lia|]. exists u, w. split; auto. split; auto.
        intros g ha. destruct (W1 g ha) as (u' & w' & E' & Ek & F1 & F2).
        injection Ek as Ek. rewrite E in E'.
        destruct (app_split_eq u w u' w') as (-> & ->); auto. lia. }
      destruct Sp as (U & V & EU & LU & GU).
      destruct (slide_spec (Z.to_nat n) s1 P U V pv (S2' ++ Q) lo ok l) as (s2 & z & E2 & S2 & A2); auto.
      { rewrite A1, EU. apps. }
      { rewrite Hok, EU. zl. lia. }
      { rewrite Hn, Hok, EU. zl. zpos. lia. }
      rewrite (bind_done _ _ _ _ _ E2).
      assert (E3 : set_arr (lo + l) pv s2 = Done tt (with_arr ((P ++ U) ++ pv :: V ++ S2' ++ Q) s2)).
      { apply (set_arr_mid s2 (P ++ U) z (V ++ S2' ++ Q)); [rewrite A2; apps|zl; lia]. }
      rewrite (bind_done _ _ _ _ _ E3).
      set (s3 := with_arr ((P ++ U) ++ pv :: V ++ S2' ++ Q) s2).
      destruct (IHfuel s3 P (U ++ pv :: V) S2' Q lo n (ok + 1)) as (r & s4 & T & E4 & S4 & A4 & P4 & W4); auto.
      { simpl. apps. }
      { rewrite Hok, EU. zl. lia. }
      { zl. lia. }
      { zl. lia. }
      exists r, s4, T. split; auto.
      split. { eapply still_trans; [apply quiet_still; exact Q1|]. eapply still_trans; [exact S2|]. exact S4. }
      split; auto. split.
      { rewrite P4, EU. rewrite <- !app_assoc. apply Permutation_app_head. simpl.
        apply Permutation_middle. }
      intros HS Ha. destruct (GU HS Ha) as (G2 & G3). pose proof HS as (W & _).
      rewrite EU in Ha. apply asc_app in Ha as (Ha1 & Ha2 & Ha3).
      destruct W4 as (-> & T1 & T2); auto.
      { apply asc_app. split; auto. split.
        - apply asc_cons. split; auto. intros y Hy. apply lt_asym; auto.
        - intros x y Hx [<-|Hy]; auto. }
      split; auto. split; auto. eapply stable_trans; [exact T2|].
      rewrite EU. rewrite <- !app_assoc. apply stb_app; [apply stable_refl|].
      change ((pv :: V) ++ S2') with (([pv] ++ V) ++ S2'). change (pv :: S2') with ([pv] ++ S2').
      rewrite (app_assoc V [pv] S2'). apply stb_app; [|apply stable_refl].
      apply stb_swap; auto. intros x y [<-|[]] Hy. apply lt_not_equiv; auto.
    + assert (S2 = []) by (apply zlen_nil_inv; zpos; lia). subst S2.
      exists (Some tt), s, S1. split; [reflexivity|]. split; [apply still_refl|]. split; auto.
      rewrite app_nil_r. split; auto. intros; split; auto. split; auto. apply stable_refl.
Qed.

Lemma binarysort_spec (s : st) P S1 S2 Q lo n ok :
  arr s = P ++ S1 ++ S2 ++ Q -> lo = zlen P -> ok = zlen S1 -> n = ok + zlen S2 -> 0 < ok ->
  exists r s' T, binarysort cmp lo n ok s = Done r s' /\ still s s' /\
    arr s' = P ++ T ++ Q /\ Permutation T (S1 ++ S2) /\
    (sane -> asc S1 -> r = Some tt /\ asc T /\ stb T (S1 ++ S2)).
Proof.
  intros Hs Hlo Hok Hn Hp. unfold binarysort. replace (ok =? 0) with false by lia.
  apply binarysort_loop_spec; auto. zpos. lia.
Qed.

(** ** merge_compute_minrun *)

Lemma minrun_loop_spec fuel : forall (s : st) n r, 0 < n -> 0 <= r <= 1 -> n <= Z.of_nat fuel ->
  exists m, minrun_loop fuel n r s = Done m s /\ 0 < m <= 64.
Proof.
  induction fuel; intros s n r Hn Hr Hf; [lia|]. cbn [minrun_loop]. unfold MAX_MINRUN.
  destruct (64 <=? n) eqn:E.
  - apply IHfuel.
    + apply Z.div_str_pos. lia.
    + assert (0 <= Z.land n 1 <= 1).
      { assert (E1 : Z.land n 1 = n mod 2) by (apply (Z.land_ones n 1); lia).
        pose proof (Z.mod_pos_bound n 2). lia. }
      assert (r = 0 \/ r = 1) as [-> | ->] by lia;
      assert (Z.land n 1 = 0 \/ Z.land n 1 = 1) as [-> | ->] by lia; cbv; intuition discriminate.
    + pose proof (Z.div_lt n 2). lia.
  - exists (n + r). split; [reflexivity|lia].
Qed.

End Runs.
