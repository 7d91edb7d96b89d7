(** gfx::timsort (TimSortModel.v) sorts stably, inside its memory, for every
    strict weak order. *)
From Coq Require Import ZArith List Bool Lia Sorting.Sorted Sorting.Permutation.
From Verif Require Import Base ListLemmas SortSpec SortOrderProofs CPythonSortModel SortMachineProofs
  SortMergeProofs SortRunProofs SortMainProofs TimSortModel TimSortMergeProofs.
Import ListNotations.
Local Open Scope Z_scope.
Local Arguments Z.of_nat : simpl never.
Local Arguments Z.to_nat : simpl never.
Local Arguments Z.mul : simpl never.
Local Arguments Z.add : simpl never.
Local Arguments Z.sub : simpl never.
Local Arguments MIN_GALLOP : simpl never.

Section Runs.
Context {A : Type}.
Variable cmp : nat -> A -> A -> option bool.
Variable grab : Z -> bool.
Variable lt : A -> A -> bool.
Notation st := (@st A).
Notation asc := (ascending lt).
Notation stb := (stable lt).
Notation sane := (sane cmp grab lt).

(** ** mergeAt *)

Lemma ts_merge_at_spec (s : st) p1 ra rb p2 P SA SB Q :
  pend s = p1 ++ ra :: rb :: p2 -> zlen p2 <= 1 ->
  arr s = P ++ SA ++ SB ++ Q -> rbase ra = zlen P -> rlen ra = zlen SA ->
  rbase rb = rbase ra + rlen ra -> rlen rb = zlen SB -> 0 < zlen SA -> 0 < zlen SB ->
  2 * (zlen SA + zlen SB) + 1 <= SSIZE_MAX ->
  exists r s' C, ts_merge_at cmp (zlen p1) s = Done r s' /\ arr s' = P ++ C ++ Q /\
    Permutation C (SA ++ SB) /\
    pend s' = p1 ++ mkrun (rbase ra) (rlen ra + rlen rb) (rpower ra) :: p2 /\
    (sane -> asc SA -> asc SB -> r = Some tt /\ asc C /\ stb C (SA ++ SB)).
Proof.
  intros Hp Hp2 Hs Ba La Bb Lb Pa Pb Hsz. unfold ts_merge_at.
  rewrite (bind_done npend _ s (zlen (pend s)) s eq_refl).
  rewrite (bind_done _ _ _ _ _ (get_run_mid s p1 ra (rb :: p2) _ Hp eq_refl)).
  assert (E1 : get_run (zlen p1 + 1) s = Done rb s).
  { apply (get_run_mid s (p1 ++ [ra]) rb p2); [rewrite Hp; apps|zl; lia]. }
  rewrite (bind_done _ _ _ _ _ E1). clear E1.
  cbv zeta.
  set (rm := mkrun (rbase ra) (rlen ra + rlen rb) (rpower ra)).
  rewrite (bind_done _ _ _ _ _ (set_run_mid s p1 ra (rb :: p2) _ rm Hp eq_refl)).
  set (s1 := with_pend (p1 ++ rm :: rb :: p2) s).
  assert (E2 : exists s2, (if zlen p1 =? zlen (pend s) - 3
     then bind (get_run (zlen p1 + 2)) (fun r => set_run (zlen p1 + 1) r) else ret tt) s1 = Done tt s2 /\
     arr s2 = arr s /\ removelast (pend s2) = p1 ++ rm :: p2).
  { destruct p2 as [|rc p2].
    - replace (zlen p1 =? zlen (pend s) - 3) with false by (rewrite Hp; zl; lia).
      exists s1. split; [reflexivity|]. split; [reflexivity|].
      unfold s1; simpl. change (p1 ++ [rm; rb]) with (p1 ++ [rm] ++ [rb]).
      rewrite (app_assoc p1 [rm] [rb]). apply removelast_last.
    - assert (p2 = []) by (apply zlen_nil_inv; zl; zpos; lia). subst p2.
      replace (zlen p1 =? zlen (pend s) - 3) with true by (rewrite Hp; zl; lia).
      assert (E3 : get_run (zlen p1 + 2) s1 = Done rc s1).
      { apply (get_run_mid s1 (p1 ++ [rm; rb]) rc []); [unfold s1; simpl; apps|zl; lia]. }
      rewrite (bind_done _ _ _ _ _ E3).
      eexists. split; [apply (set_run_mid s1 (p1 ++ [rm]) rb [rc] _ rc); [unfold s1; simpl; apps|zl; lia]|].
      split; [reflexivity|]. simpl.
      change (rc :: [rc]) with ([rc] ++ [rc]). rewrite (app_assoc (p1 ++ [rm]) [rc] [rc]).
      rewrite removelast_last. apps. }
  destruct E2 as (s2 & E2 & A2 & P2). rewrite (bind_done _ _ _ _ _ E2). clear E2.
  rewrite (bind_done drop_run _ s2 tt (with_pend (removelast (pend s2)) s2) eq_refl).
  rewrite P2. set (s3 := with_pend (p1 ++ rm :: p2) s2).
  assert (A3 : arr s3 = P ++ SA ++ SB ++ Q) by (simpl; congruence).
  assert (P3 : pend s3 = p1 ++ rm :: p2) by reflexivity.
  clearbody s3. clear s1 s2 A2 P2.
  destruct (zlen_pos_inv SB) as (b0 & SB' & EB); [lia|].
  assert (E4 : get_arr (rbase rb) s3 = Done b0 s3).
  { apply (get_arr_mid s3 (P ++ SA) b0 (SB' ++ Q)); [rewrite A3, EB; apps|zl; lia]. }
  rewrite (bind_done _ _ _ _ _ E4).
  destruct (gallop_right_block cmp grab lt get_arr arr reads_arr s3 P SA (SB ++ Q) (rbase ra) (rlen ra) b0 0)
    as (r & s4 & E5 & Q5 & R5 & W5); auto; try (zpos; lia).
  rewrite (bind_done _ _ _ _ _ E5).
  assert (A4 : arr s4 = P ++ SA ++ SB ++ Q) by (destruct Q5; congruence).
  assert (P4 : pend s4 = p1 ++ rm :: p2) by (destruct Q5 as (_ & _ & _ & _ & Q5); congruence).
  assert (Fail : ~ (sane /\ asc SA /\ asc SB) -> forall s' : st, arr s' = P ++ SA ++ SB ++ Q ->
     pend s' = p1 ++ rm :: p2 -> exists (r : option unit) (s'' : st) C, Done None s' = Done r s'' /\ arr s'' = P ++ C ++ Q /\
       Permutation C (SA ++ SB) /\ pend s'' = p1 ++ rm :: p2 /\
       (sane -> asc SA -> asc SB -> r = Some tt /\ asc C /\ stb C (SA ++ SB))).
  { intros NG s' Hs' Hp'. do 2 eexists. exists (SA ++ SB). split; [reflexivity|].
    split; [rewrite Hs'; apps|]. split; auto. split; auto. intros; exfalso; auto. }
  destruct r as [k|].
  2:{ apply Fail; auto. intros (HS & HA & _). destruct (W5 HS HA) as (? & ? & _ & Ek & _). discriminate. }
  specialize (R5 k eq_refl). cbv zeta.
  assert (Sp : exists A1 A2, SA = A1 ++ A2 /\ zlen A1 = k /\
     (sane -> asc SA -> (forall y, In y A1 -> lt b0 y = false) /\ (forall y, In y A2 -> lt b0 y = true))).
  { destruct (zsplit_le SA k) as (u & w & E & L); [lia|]. exists u, w. split; auto. split; auto.
    intros g ha. destruct (W5 g ha) as (u' & w' & E' & Ek & F1 & F2).
    injection Ek as Ek. rewrite E in E'.
    destruct (app_split_eq u w u' w') as (-> & ->); auto. lia. }
  destruct Sp as (A1 & A2 & EA & LA1 & GA).
  assert (HbB : sane -> asc SB -> forall y, In y SB -> lt y b0 = false).
  { intros (W & _) HB y Hy. rewrite EB in *. eapply (asc_head _ W []); eauto. }
  assert (LA2 : zlen A2 = rlen ra - k) by (rewrite La, EA; zl; lia).
  destruct (rlen ra - k =? 0) eqn:C1.
  { assert (A2 = []) by (apply zlen_nil_inv; lia). subst A2. rewrite app_nil_r in EA. subst A1.
    exists (Some tt), s4, (SA ++ SB). split; [reflexivity|]. split; [rewrite A4; apps|].
    split; auto. split; auto. intros HS HA HB. split; auto. split; [|apply stable_refl].
    apply asc_app. split; auto. split; auto. intros x y Hx Hy.
    pose proof HS as (W & _). eapply le_trans; [exact W|..]; [|apply (HbB HS HB); eauto].
    apply (proj1 (GA HS HA)); auto. }
  destruct (zlen_pos_last A2) as (A2' & a2 & EA2); [zpos; lia|].
  assert (E6 : get_arr (rbase ra + k + (rlen ra - k) - 1) s4 = Done a2 s4).
  { apply (get_arr_mid s4 (P ++ A1 ++ A2') a2 (SB ++ Q)); [rewrite A4, EA, EA2; apps|].
    rewrite EA2 in LA2. zl. lia. }
  rewrite (bind_done _ _ _ _ _ E6).
  destruct (gallop_left_block cmp grab lt get_arr arr reads_arr s4 (P ++ SA) SB Q (rbase rb) (rlen rb) a2 (rlen rb - 1))
    as (r & s5 & E7 & Q7 & R7 & W7); auto; try (zl; zpos; lia).
  { rewrite A4. apps. }
  rewrite (bind_done _ _ _ _ _ E7).
  assert (A5 : arr s5 = P ++ SA ++ SB ++ Q) by (destruct Q7; congruence).
  assert (P5 : pend s5 = p1 ++ rm :: p2) by (destruct Q7 as (_ & _ & _ & _ & Q7); congruence).
  destruct r as [k2|].
  2:{ apply Fail; auto. intros (HS & _ & HB). destruct (W7 HS HB) as (? & ? & _ & Ek & _). discriminate. }
  specialize (R7 k2 eq_refl).
  assert (Sp : exists B1 B2, SB = B1 ++ B2 /\ zlen B1 = k2 /\
     (sane -> asc SB -> (forall y, In y B1 -> lt y a2 = true) /\ (forall y, In y B2 -> lt y a2 = false))).
  { destruct (zsplit_le SB k2) as (u & w & E & L); [lia|]. exists u, w. split; auto. split; auto.
    intros g ha. destruct (W7 g ha) as (u' & w' & E' & Ek & F1 & F2).
    injection Ek as Ek. rewrite E in E'.
    destruct (app_split_eq u w u' w') as (-> & ->); auto. lia. }
  destruct Sp as (B1 & B2 & EB2 & LB1 & GB).
  assert (Ea2 : sane -> asc SA -> asc SB -> In b0 B1).
  { intros HS HA HB. destruct (GB HS HB) as (_ & GB2). destruct (GA HS HA) as (_ & GA2).
    assert (lt b0 a2 = true) by (apply GA2; rewrite EA2; apply in_or_app; simpl; auto).
    destruct B1 as [|b B1].
    - simpl in EB2. rewrite (GB2 b0) in H; [discriminate|]. rewrite <- EB2, EB. simpl; auto.
    - rewrite EB in EB2. injection EB2 as -> _. simpl; auto. }
  destruct (k2 =? 0) eqn:C2.
  { exists (Some tt), s5, (SA ++ SB). split; [reflexivity|]. split; [rewrite A5; apps|].
    split; auto. split; auto. intros HS HA HB. exfalso.
    specialize (Ea2 HS HA HB). assert (B1 = []) by (apply zlen_nil_inv; lia). subst B1. contradiction. }
  set (G := sane /\ asc SA /\ asc SB).
  assert (HGs : G -> sane) by (intros (HS & _); exact HS).
  assert (Hgood : G -> asc A2 /\ asc B1 /\ (forall x y, In x A2 -> hd_error B1 = Some y -> lt y x = true) /\
        exists A' z, A2 = A' ++ [z] /\ forall y, In y B1 -> lt y z = true).
  { intros (HS & HA & HB). split; [rewrite EA in HA; apply asc_app in HA; tauto|].
    split; [rewrite EB2 in HB; apply asc_app in HB; tauto|]. split.
    - intros x y Hx Hy. assert (y = b0).
      { destruct B1; [discriminate|]. simpl in Hy. rewrite EB in EB2. simpl in EB2. congruence. }
      subst y. apply (GA HS HA); auto.
    - exists A2', a2. split; auto. apply (GB HS HB). }
  assert (Close : forall m, (exists r s' C, m s5 = Done r s' /\ pend s' = pend s5 /\
     arr s' = (P ++ A1) ++ C ++ (B2 ++ Q) /\ Permutation C (A2 ++ B1) /\
     (G -> r = Some tt /\ asc C /\ stb C (A2 ++ B1))) ->
     exists r s' C, m s5 = Done r s' /\ arr s' = P ++ C ++ Q /\
    Permutation C (SA ++ SB) /\ pend s' = p1 ++ rm :: p2 /\
    (sane -> asc SA -> asc SB -> r = Some tt /\ asc C /\ stb C (SA ++ SB))).
  { intros m (r & s' & C & E & P6 & A6 & Pm & GC). exists r, s', (A1 ++ C ++ B2).
    split; auto. split; [rewrite A6; apps|]. split.
    { rewrite EA, EB2, Pm. rewrite <- !app_assoc. reflexivity. }
    split; [congruence|]. intros HS HA HB. destruct GC as (Er & C3 & C4); [split; auto|].
    pose proof HS as (W & _). split; auto. split.
    - assert (HA' := HA). assert (HB' := HB). rewrite EA in HA'. rewrite EB2 in HB'.
      apply asc_app in HA' as (S1 & S2 & S3). apply asc_app in HB' as (S4 & S5 & S6).
      assert (InC : forall x, In x C -> In x A2 \/ In x B1).
      { intros x Hx. apply in_app_or. eapply Permutation_in; eauto. }
      destruct (GA HS HA) as (GA1 & GA2). destruct (GB HS HB) as (GB1 & GB2).
      assert (AB : forall x y, In x A1 -> In y SB -> lt y x = false).
      { intros x y Hx Hy. eapply le_trans; [exact W|..]; [apply GA1; exact Hx|apply (HbB HS HB); auto]. }
      assert (A2B2 : forall x y, In x A2 -> In y B2 -> lt y x = false).
      { intros x y Hx Hy. eapply le_trans; [exact W|..]; [|apply GB2; exact Hy].
        rewrite EA2 in *. eapply asc_last; eauto. }
      apply asc_app. split; auto. split.
      + apply asc_app. split; auto. split; auto. intros x y Hx Hy.
        destruct (InC x Hx); auto.
      + intros x y Hx Hy. apply in_app_or in Hy as [Hy|Hy].
        * destruct (InC y Hy); auto. apply AB; auto. rewrite EB2. apply in_or_app; auto.
        * apply AB; auto. rewrite EB2. apply in_or_app; auto.
    - rewrite EA, EB2. rewrite <- app_assoc. apply stb_app; [apply stable_refl|].
      rewrite (app_assoc A2 B1 B2). apply stb_app; [exact C4|apply stable_refl]. }
  assert (A5' : arr s5 = (P ++ A1) ++ A2 ++ B1 ++ (B2 ++ Q)) by (rewrite A5, EA, EB2; apps).
  assert (Sz2 : 2 * (zlen A2 + zlen B1) + 1 <= SSIZE_MAX) by (rewrite EA, EB2 in Hsz; zl; zpos; lia).
  destruct (rlen ra - k <=? k2) eqn:C3.
  - apply Close. apply (ts_merge_lo_spec cmp grab lt G HGs (P ++ A1) (B2 ++ Q) A2 B1 Sz2); auto; try lia; zl; zpos; lia.
  - apply Close. apply (ts_merge_hi_spec cmp grab lt G HGs (P ++ A1) (B2 ++ Q) A2 B1 Sz2); auto; try lia; zl; zpos; lia.
Qed.

Lemma ts_merge_at_tiles (s : st) p1 ra rb p2 Ss Rest : pend s = p1 ++ ra :: rb :: p2 -> zlen p2 <= 1 ->
  tiles 0 (pend s) Ss -> arr s = concat Ss ++ Rest -> 2 * zlen (arr s) + 1 <= SSIZE_MAX ->
  exists r s' Ss', ts_merge_at cmp (zlen p1) s = Done r s' /\
    pend s' = p1 ++ mkrun (rbase ra) (rlen ra + rlen rb) (rpower ra) :: p2 /\
    tiles 0 (pend s') Ss' /\ arr s' = concat Ss' ++ Rest /\ Permutation (concat Ss') (concat Ss) /\
    (sane -> Forall asc Ss -> r = Some tt /\ Forall asc Ss' /\ stb (concat Ss') (concat Ss)).
Proof.
  intros Hp H2 Ht Hs Hm. rewrite Hp in Ht.
  apply tiles_app in Ht as (S1 & S2 & -> & T1 & T2). simpl in T2.
  destruct S2 as [|SA [|SB S2]]; try contradiction; [destruct T2 as (_ & _ & _ & []) |].
  destruct T2 as (B1 & L1 & N1 & B2 & L2 & N2 & T2).
  rewrite concat_app3 in Hs. cbn [concat] in Hs.
  destruct (ts_merge_at_spec s p1 ra rb p2 (concat S1) SA SB (concat S2 ++ Rest))
    as (r & s' & C & E & A' & Pm & P' & W); auto; try lia.
  { rewrite Hs. apps. }
  { rewrite Hs in Hm. zl. zpos. lia. }
  assert (LC : zlen C = zlen SA + zlen SB) by (apply Permutation_length in Pm; unfold zlen; rewrite app_length in Pm; lia).
  exists r, s', (S1 ++ C :: S2). split; auto. split; auto.
  split. { rewrite P'. apply tiles_app_intro; auto. simpl. repeat split; auto; try lia. rewrite LC, Z.add_assoc. auto. }
  rewrite !concat_app3. cbn [concat].
  split; [rewrite A'; apps|]. split.
  { apply Permutation_app_head. rewrite (app_assoc SA). apply Permutation_app_tail. auto. }
  intros HS Fa. apply Forall_app in Fa as (F1 & F2). inversion F2 as [|? ? F3 F4]; subst.
  inversion F4 as [|? ? F5 F6]; subst. destruct (W HS F3 F5) as (-> & W2 & W3).
  split; auto. split; [apply Forall_app; auto|].
  apply stb_app; [apply stable_refl|]. rewrite (app_assoc SA). apply stb_app; auto. apply stable_refl.
Qed.

Lemma run_len_mid (s : st) x r y i : pend s = x ++ r :: y -> i = zlen x -> run_len i s = Done (rlen r) s.
Proof. intros E1 E2. unfold run_len. rewrite (bind_done _ _ _ _ _ (get_run_mid s x r y i E1 E2)). reflexivity. Qed.

Lemma ts_force_collapse_spec fuel : forall (s : st) Ss Rest,
  tiles 0 (pend s) Ss -> arr s = concat Ss ++ Rest -> 2 * zlen (arr s) + 1 <= SSIZE_MAX ->
  zlen (pend s) <= Z.of_nat fuel ->
  exists r s' Ss', ts_force_collapse cmp fuel s = Done r s' /\
    tiles 0 (pend s') Ss' /\ arr s' = concat Ss' ++ Rest /\
    Permutation (concat Ss') (concat Ss) /\
    (r = Some tt -> zlen Ss' <= 1) /\
    (sane -> Forall asc Ss -> r = Some tt /\ Forall asc Ss' /\ stb (concat Ss') (concat Ss)).
Proof.
  induction fuel; intros s Ss Rest Ht Hs Hm Hf.
  - cbn [ts_force_collapse]. rewrite (bind_done npend _ s (zlen (pend s)) s eq_refl).
    replace (1 <? zlen (pend s)) with false by lia.
    exists (Some tt), s, Ss. split; [reflexivity|]. split; auto. split; auto. split; auto.
    split; [rewrite <- (tiles_length _ _ _ Ht); lia|]. intros; split; auto. split; auto. apply stable_refl.
  - cbn [ts_force_collapse]. rewrite (bind_done npend _ s (zlen (pend s)) s eq_refl). cbv zeta.
    destruct (1 <? zlen (pend s)) eqn:C1.
    2:{ exists (Some tt), s, Ss. split; [reflexivity|]. split; auto. split; auto. split; auto.
        split; [rewrite <- (tiles_length _ _ _ Ht); lia|]. intros; split; auto. split; auto. apply stable_refl. }
    assert (HI : exists p1 ra rb p2, pend s = p1 ++ ra :: rb :: p2 /\ zlen p2 <= 1 /\
       (if 0 <? zlen (pend s) - 2
        then bind (run_len (zlen (pend s) - 2 - 1)) (fun p =>
             bind (run_len (zlen (pend s) - 2 + 1)) (fun q =>
               ret (if p <? q then zlen (pend s) - 2 - 1 else zlen (pend s) - 2)))
        else ret (zlen (pend s) - 2)) s = Done (zlen p1) s).
    { destruct (zlen_pos_last (pend s)) as (u & rz & E1); [lia|].
      destruct (zlen_pos_last u) as (w & ry & E2); [rewrite E1 in C1; zl; lia|].
      assert (E3 : pend s = w ++ ry :: rz :: []) by (rewrite E1, E2; apps).
      destruct (0 <? zlen (pend s) - 2) eqn:C2.
      - destruct (zlen_pos_last w) as (v & rx & E4); [assert (Lp : zlen (pend s) = zlen w + 2) by (rewrite E3, zlen_app, !zlen_cons, zlen_nil; lia); lia|].
        assert (E5 : pend s = v ++ rx :: ry :: [rz]) by (rewrite E3, E4; apps).
        assert (E5' : pend s = (v ++ [rx; ry]) ++ rz :: []) by (rewrite E5; apps).
        rewrite (bind_done _ _ _ _ _ (run_len_mid s v rx [ry; rz] (zlen (pend s) - 2 - 1) E5 ltac:(rewrite E5; zl; lia))).
        rewrite (bind_done _ _ _ _ _ (run_len_mid s (v ++ [rx; ry]) rz [] (zlen (pend s) - 2 + 1) E5' ltac:(rewrite E5; zl; lia))).
        destruct (rlen rx <? rlen rz).
        + exists v, rx, ry, [rz]. split; auto. split; [zl; lia|]. unfold ret. f_equal. rewrite E5. zl. lia.
        + exists w, ry, rz, []. split; auto. split; [zl; lia|]. unfold ret. f_equal. rewrite E3. zl. lia.
      - exists w, ry, rz, []. split; auto. split; [zl; lia|]. unfold ret. f_equal. rewrite E3. zl. lia. }
    destruct HI as (p1 & ra & rb & p2 & Hp & Hp2 & HI).
    rewrite (bind_done _ _ _ _ _ HI).
    destruct (ts_merge_at_tiles s p1 ra rb p2 Ss Rest) as (r & s1 & Ss1 & E1 & P1 & T1 & A1 & Pm & W1); auto.
    rewrite (bind_done _ _ _ _ _ E1).
    destruct r as [[]|].
    + destruct (IHfuel s1 Ss1 Rest) as (r & s2 & Ss2 & E2 & T2 & A2 & Pm2 & L2 & W2); auto.
      { assert (zlen (arr s1) = zlen (arr s)) by (rewrite A1, Hs; zl; rewrite (perm_zlen _ _ Pm); reflexivity). lia. }
      { rewrite P1. rewrite Hp in Hf. zl. lia. }
      exists r, s2, Ss2. split; auto. split; auto. split; auto. split; [rewrite Pm2; auto|]. split; auto.
      intros HS Fa. destruct (W1 HS Fa) as (_ & F1 & S1). destruct (W2 HS F1) as (F2 & F3 & F4).
      split; auto. split; auto. eapply stable_trans; eauto.
    + exists None, s1, Ss1. split; [reflexivity|]. split; auto. split; auto. split; auto. split; [discriminate|].
      intros HS Fa. destruct (W1 HS Fa) as (F & _). discriminate.
Qed.

(** ** mergeCollapse *)

Lemma ts_collapse_spec fuel : forall (s : st) Ss Rest,
  tiles 0 (pend s) Ss -> arr s = concat Ss ++ Rest -> 2 * zlen (arr s) + 1 <= SSIZE_MAX ->
  zlen (pend s) <= Z.of_nat fuel ->
  exists r s' Ss', ts_collapse cmp fuel s = Done r s' /\
    tiles 0 (pend s') Ss' /\ arr s' = concat Ss' ++ Rest /\
    Permutation (concat Ss') (concat Ss) /\
    (sane -> Forall asc Ss -> r = Some tt /\ Forall asc Ss' /\ stb (concat Ss') (concat Ss)).
Proof.
  induction fuel; intros s Ss Rest Ht Hs Hm Hf.
  - cbn [ts_collapse]. rewrite (bind_done npend _ s (zlen (pend s)) s eq_refl).
    replace (1 <? zlen (pend s)) with false by lia.
    exists (Some tt), s, Ss. split; [reflexivity|]. split; auto. split; auto. split; auto.
    intros; split; auto. split; auto. apply stable_refl.
  - cbn [ts_collapse]. rewrite (bind_done npend _ s (zlen (pend s)) s eq_refl). cbv zeta.
    destruct (1 <? zlen (pend s)) eqn:C1.
    2:{ exists (Some tt), s, Ss. split; [reflexivity|]. split; auto. split; auto. split; auto.
        intros; split; auto. split; auto. apply stable_refl. }
    set (n := zlen (pend s) - 2) in *.
    assert (RL : forall i, 0 <= i < zlen (pend s) -> exists z, run_len i s = Done z s).
    { intros i Hi. destruct (zsplit (pend s) i Hi) as (x & r & y & Ep & El).
      exists (rlen r). eapply run_len_mid; eauto. }
    assert (Step : forall i, i = n \/ i = n - 1 /\ 0 < n -> exists r s' Ss',
      bind (ts_merge_at cmp i) (fun m => match m with None => ret None | Some _ => ts_collapse cmp fuel end) s = Done r s' /\
      tiles 0 (pend s') Ss' /\ arr s' = concat Ss' ++ Rest /\ Permutation (concat Ss') (concat Ss) /\
      (sane -> Forall asc Ss -> r = Some tt /\ Forall asc Ss' /\ stb (concat Ss') (concat Ss))).
    { intros i Hi.
      assert (HI : exists p1 ra rb p2, pend s = p1 ++ ra :: rb :: p2 /\ zlen p2 <= 1 /\ i = zlen p1).
      { destruct (zsplit (pend s) i) as (x & ra & y & Ep & El); [lia|].
        destruct y as [|rb y]; [assert (zlen (pend s) = zlen x + 1) by (rewrite Ep; zl; lia); lia|].
        assert (zlen (pend s) = zlen x + 2 + zlen y) by (rewrite Ep; zl; lia).
        exists x, ra, rb, y. split; auto. split; lia. }
      destruct HI as (p1 & ra & rb & p2 & Hp & Hp2 & ->).
      destruct (ts_merge_at_tiles s p1 ra rb p2 Ss Rest) as (r & s1 & Ss1 & E1 & P1 & T1 & A1 & Pm & W1); auto.
      rewrite (bind_done _ _ _ _ _ E1).
      destruct r as [[]|].
      - destruct (IHfuel s1 Ss1 Rest) as (r & s2 & Ss2 & E2 & T2 & A2 & Pm2 & W2); auto.
        { assert (zlen (arr s1) = zlen (arr s)) by (rewrite A1, Hs; zl; rewrite (perm_zlen _ _ Pm); reflexivity). lia. }
        { rewrite P1. rewrite Hp in Hf. zl. lia. }
        exists r, s2, Ss2. split; auto. split; auto. split; auto. split; [rewrite Pm2; auto|].
        intros HS Fa. destruct (W1 HS Fa) as (_ & F1 & S1). destruct (W2 HS F1) as (F2 & F3 & F4).
        split; auto. split; auto. eapply stable_trans; eauto.
      - exists None, s1, Ss1. split; [reflexivity|]. split; [exact T1|]. split; [exact A1|]. split; [exact Pm|].
        intros HS Fa. destruct (W1 HS Fa) as (F & _). discriminate. }
    assert (B1 : exists c1 : bool, (if 0 <? n
       then bind (run_len (n - 1)) (fun a => bind (run_len n) (fun b => bind (run_len (n + 1)) (fun c => ret (a <=? b + c))))
       else ret false) s = Done c1 s /\ (c1 = true -> 0 < n)).
    { destruct (0 <? n) eqn:C2; [|exists false; split; [reflexivity|discriminate]].
      destruct (RL (n - 1)) as (a & Ea); [lia|]. destruct (RL n) as (b & Eb); [lia|].
      destruct (RL (n + 1)) as (c & Ec); [lia|].
      rewrite (bind_done _ _ _ _ _ Ea), (bind_done _ _ _ _ _ Eb), (bind_done _ _ _ _ _ Ec).
      eexists. split; [reflexivity|lia]. }
    destruct B1 as (c1 & E1 & H1). rewrite (bind_done _ _ _ _ _ E1).
    assert (B2 : exists c2 : bool, (if c1 then ret true else if 1 <? n
       then bind (run_len (n - 2)) (fun a => bind (run_len (n - 1)) (fun b => bind (run_len n) (fun c => ret (a <=? b + c))))
       else ret false) s = Done c2 s /\ (c2 = true -> 0 < n)).
    { destruct c1; [exists true; split; [reflexivity|auto]|].
      destruct (1 <? n) eqn:C2; [|exists false; split; [reflexivity|discriminate]].
      destruct (RL (n - 2)) as (a & Ea); [lia|]. destruct (RL (n - 1)) as (b & Eb); [lia|].
      destruct (RL n) as (c & Ec); [lia|].
      rewrite (bind_done _ _ _ _ _ Ea), (bind_done _ _ _ _ _ Eb), (bind_done _ _ _ _ _ Ec).
      eexists. split; [reflexivity|lia]. }
    destruct B2 as (c2 & E2 & H2). rewrite (bind_done _ _ _ _ _ E2).
    destruct c2.
    + specialize (H2 eq_refl).
      destruct (RL (n - 1)) as (a & Ea); [lia|]. destruct (RL (n + 1)) as (c & Ec); [lia|].
      rewrite (bind_done _ _ _ _ _ Ea), (bind_done _ _ _ _ _ Ec).
      apply Step. destruct (a <? c); auto.
    + destruct (RL n) as (a & Ea); [lia|]. destruct (RL (n + 1)) as (c & Ec); [lia|].
      rewrite (bind_done _ _ _ _ _ Ea), (bind_done _ _ _ _ _ Ec).
      destruct (a <=? c); [apply Step; auto|].
      exists (Some tt), s, Ss. split; [reflexivity|]. split; auto. split; auto. split; auto.
      intros; split; auto. split; auto. apply stable_refl.
Qed.

(** ** countRunAndMakeAscending *)

Lemma ts_descend_spec fuel : forall (s : st) P S1 S2 Q lo nrem n,
  arr s = P ++ S1 ++ S2 ++ Q -> lo = zlen P -> n = zlen S1 -> nrem = n + zlen S2 -> 0 < n ->
  nrem - n <= Z.of_nat fuel ->
  exists r s', ts_descend cmp fuel lo nrem n s = Done r s' /\ quiet s s' /\
    (forall m, r = Some m -> n <= m <= nrem) /\
    (sane -> asc (rev S1) -> stb (rev S1) S1 ->
       exists E R, S2 = E ++ R /\ r = Some (n + zlen E) /\ asc (rev (S1 ++ E)) /\ stb (rev (S1 ++ E)) (S1 ++ E)).
Proof.
  induction fuel; intros s P S1 S2 Q lo nrem n Hs Hlo Hn Hr Hp Hf.
  - assert (S2 = []) by (apply zlen_nil_inv; zpos; lia). subst S2. cbn [ts_descend].
    rewrite zlen_nil in Hr. replace (n <? nrem) with false by lia.
    do 2 eexists. split; [reflexivity|]. split; [apply quiet_refl|].
    split; [intros m [= <-]; lia|].
    intros _ Ha Hb. exists [], []. rewrite !app_nil_r. split; auto. split; [f_equal; zl; lia|]. auto.
  - cbn [ts_descend]. destruct (n <? nrem) eqn:C1.
    + destruct (zlen_pos_inv S2) as (x & S2' & ->); [lia|].
      destruct (zlen_pos_last S1) as (S1' & y & E1); [lia|].
      assert (G1 : get_arr (lo + n) s = Done x s).
      { apply (get_arr_mid s (P ++ S1) x (S2' ++ Q)); [rewrite Hs; apps|zl; lia]. }
      rewrite (bind_done _ _ _ _ _ G1).
      assert (G2 : get_arr (lo + n - 1) s = Done y s).
      { apply (get_arr_mid s (P ++ S1') y (x :: S2' ++ Q)); [rewrite Hs, E1; apps|].
        rewrite Hn, E1. zl. lia. }
      rewrite (bind_done _ _ _ _ _ G2).
      destruct (islt_spec cmp grab lt x y s) as (r & s1 & E2 & Q1 & W1).
      rewrite (bind_done _ _ _ _ _ E2).
      destruct r as [[]|].
      * destruct (IHfuel s1 P (S1 ++ [x]) S2' Q lo nrem (n + 1)) as (r & s2 & E3 & Q2 & R2 & W2);
          auto; try (zl; lia).
        { destruct Q1 as (-> & _). rewrite Hs. apps. }
        exists r, s2. split; auto. split; [eapply quiet_trans; eauto|].
        split; [intros m Hm; specialize (R2 m Hm); lia|].
        intros HS Ha Hb. pose proof HS as (W & _).
        assert (Lx : forall w, In w (rev S1) -> lt x w = true).
        { intros w Hw. specialize (W1 HS). assert (lt x y = true) by congruence.
          eapply lt_le_trans; eauto. rewrite E1 in Ha, Hw. rewrite rev_app_distr in Ha, Hw. simpl in Ha, Hw.
          eapply (asc_head _ W []); eauto. }
        destruct W2 as (E & R & -> & -> & Ha2 & HR); auto.
        { rewrite rev_app_distr. simpl. apply asc_cons. split; auto.
          intros w Hw. apply lt_asym; auto. }
        { rewrite rev_app_distr. apply (stable_trans lt _ (rev S1 ++ [x])).
          - apply stb_swap; auto. intros u w [<-|[]] Hw. apply lt_not_equiv; auto.
          - apply stb_app; auto. apply stable_refl. }
        exists (x :: E), R. split; auto. split; [f_equal; zl; lia|].
        change (x :: E) with ([x] ++ E). rewrite app_assoc. auto.
      * do 2 eexists. split; [reflexivity|]. split; auto. split; [intros m [= <-]; lia|].
        intros HS Ha Hb. exists [], (x :: S2'). split; auto. split; [f_equal; zl; lia|].
        rewrite app_nil_r. auto.
      * do 2 eexists. split; [reflexivity|]. split; auto. split; [discriminate|].
        intros HS _. specialize (W1 HS). discriminate.
    + assert (S2 = []) by (apply zlen_nil_inv; zpos; lia). subst S2.
      do 2 eexists. split; [reflexivity|]. split; [apply quiet_refl|].
      split; [intros m [= <-]; zl; lia|].
      intros _ Ha Hb. exists [], []. rewrite !app_nil_r. split; auto. split; [f_equal; zl; lia|]. auto.
Qed.

Lemma ts_count_run_spec (s : st) P S Q lo nrem :
  arr s = P ++ S ++ Q -> lo = zlen P -> nrem = zlen S -> 0 < nrem ->
  exists r s' T T0 R, ts_count_run cmp lo nrem s = Done r s' /\ still s s' /\
    arr s' = P ++ T ++ R ++ Q /\ S = T0 ++ R /\ Permutation T T0 /\
    (forall m, r = Some m -> m = zlen T /\ 0 < m) /\
    (sane -> (exists m, r = Some m) /\ asc T /\ stb T T0).
Proof.
  intros Hs Hlo Hr Hpos. unfold ts_count_run.
  destruct (nrem =? 1) eqn:C1.
  { destruct (zlen_one_inv S) as (x & ->); [lia|].
    exists (Some 1), s, [x], [x], []. split; [reflexivity|]. split; [apply still_refl|].
    split; auto. split; auto. split; auto. split; [intros m [= <-]; zl; lia|].
    intros; split; eauto. split; [apply asc_one|apply stable_refl]. }
  destruct S as [|y [|x S]]; try (zl; lia).
  assert (G1 : get_arr (lo + 1) s = Done x s).
  { apply (get_arr_mid s (P ++ [y]) x (S ++ Q)); [rewrite Hs; apps|zl; lia]. }
  rewrite (bind_done _ _ _ _ _ G1).
  assert (G2 : get_arr lo s = Done y s).
  { apply (get_arr_mid s P y (x :: S ++ Q)); [rewrite Hs; apps|auto]. }
  rewrite (bind_done _ _ _ _ _ G2).
  destruct (islt_spec cmp grab lt x y s) as (r & s1 & E2 & Q1 & W1).
  rewrite (bind_done _ _ _ _ _ E2).
  assert (A1 : arr s1 = P ++ [y; x] ++ S ++ Q) by (destruct Q1 as (-> & _); rewrite Hs; reflexivity).
  pose proof (quiet_still _ _ Q1) as St1.
  destruct r as [[]|].
  - destruct (ts_descend_spec (Z.to_nat nrem) s1 P [y; x] S Q lo nrem 2) as (r & s2 & E3 & Q2 & R2 & W2);
      auto; try (zl; zpos; lia).
    rewrite (bind_done _ _ _ _ _ E3).
    assert (A2 : arr s2 = P ++ [y; x] ++ S ++ Q) by (destruct Q2 as (-> & _); auto).
    assert (St2 := still_trans _ _ _ St1 (quiet_still _ _ Q2)).
    assert (W3 : sane -> exists E R, S = E ++ R /\ r = Some (2 + zlen E) /\
       asc (rev ([y; x] ++ E)) /\ stb (rev ([y; x] ++ E)) ([y; x] ++ E)).
    { intros HS. pose proof HS as (W & _). specialize (W1 HS). assert (lt x y = true) by congruence.
      apply W2; auto; simpl.
      - apply asc_cons. split; [apply asc_one|]. intros w [<-|[]]. apply lt_asym; auto.
      - apply (stb_swap lt W [x] [y]). intros u w [<-|[]] [<-|[]]. apply lt_not_equiv; auto. }
    destruct r as [n|].
    2:{ exists None, s2, (y :: x :: S), (y :: x :: S), []. split; [reflexivity|]. split; [exact St2|].
        split; [rewrite A2; apps|]. split; [rewrite app_nil_r; auto|]. split; auto. split; [discriminate|].
        intros HS. destruct (W3 HS) as (? & ? & _ & F & _). discriminate. }
    specialize (R2 n eq_refl).
    destruct (zsplit_le S (n - 2)) as (E & R & ES & LE); [zl; lia|].
    destruct (reverse_slice_spec s2 P ([y; x] ++ E) (R ++ Q) lo n) as (s3 & E4 & S3 & _ & A3); auto.
    { rewrite A2, ES. apps. }
    { zl. lia. }
    rewrite (bind_done _ _ _ _ _ E4).
    exists (Some n), s3, (rev ([y; x] ++ E)), ([y; x] ++ E), R.
    split; [reflexivity|]. split; [eapply still_trans; eauto|].
    split; auto. split; [rewrite ES; reflexivity|]. split; [symmetry; apply Permutation_rev|].
    split; [intros m [= <-]; rewrite zlen_rev; zl; lia|].
    intros HS. split; eauto. destruct (W3 HS) as (E' & R' & EE & F & U1 & U2). injection F as F.
    rewrite ES in EE. destruct (app_split_eq E R E' R') as (-> & ->); auto. lia.
  - destruct (ascend_spec cmp grab lt (Z.to_nat nrem) s1 P [y; x] S Q lo nrem 2) as (r & s2 & E3 & Q2 & R2 & W2);
      auto; try (zl; zpos; lia).
    assert (A2 : arr s2 = P ++ [y; x] ++ S ++ Q) by (destruct Q2 as (-> & _); auto).
    assert (St2 := still_trans _ _ _ St1 (quiet_still _ _ Q2)).
    assert (W3 : sane -> exists E R, S = E ++ R /\ r = Some (2 + zlen E) /\ asc ([y; x] ++ E)).
    { intros HS. pose proof HS as (W & _). specialize (W1 HS). assert (lt x y = false) by congruence.
      destruct W2 as (E & R & U1 & U2 & U3 & _); auto.
      - apply asc_cons. split; [apply asc_one|]. intros w [<-|[]]. auto.
      - eauto. }
    destruct r as [n|].
    2:{ exists None, s2, (y :: x :: S), (y :: x :: S), []. split; [exact E3|]. split; [exact St2|].
        split; [rewrite A2; apps|]. split; [rewrite app_nil_r; auto|]. split; auto. split; [discriminate|].
        intros HS. destruct (W3 HS) as (? & ? & _ & F & _). discriminate. }
    specialize (R2 n eq_refl).
    destruct (zsplit_le S (n - 2)) as (E & R & ES & LE); [zl; lia|].
    exists (Some n), s2, ([y; x] ++ E), ([y; x] ++ E), R.
    split; [exact E3|]. split; [exact St2|]. split; [rewrite A2, ES; apps|]. split; [rewrite ES; reflexivity|].
    split; auto. split; [intros m [= <-]; zl; zpos; lia|].
    intros HS. split; eauto. destruct (W3 HS) as (E' & R' & EE & F & U1). injection F as F.
    rewrite ES in EE. destruct (app_split_eq E R E' R') as (-> & ->); auto; [lia|].
    split; auto. apply stable_refl.
  - exists None, s1, (y :: x :: S), (y :: x :: S), []. split; [reflexivity|]. split; [exact St1|].
    split; [rewrite A1; apps|]. split; [rewrite app_nil_r; auto|]. split; auto. split; [discriminate|].
    intros HS. specialize (W1 HS). discriminate.
Qed.

(** ** sort *)

Lemma ts_march_spec fuel : forall (s : st) Ss Rest O O1 minrun lo nrem,
  tiles 0 (pend s) Ss -> arr s = concat Ss ++ Rest ->
  O = O1 ++ Rest -> Permutation (concat Ss) O1 ->
  2 * zlen O + 1 <= SSIZE_MAX -> 0 < minrun ->
  lo = zlen (concat Ss) -> nrem = zlen Rest -> 0 < nrem -> nrem <= Z.of_nat fuel ->
  exists r s', ts_march cmp fuel minrun lo nrem s = Done r s' /\ Permutation (arr s') O /\
    (r = Some tt -> exists Ss', tiles 0 (pend s') Ss' /\ arr s' = concat Ss' /\
       (sane -> Forall asc Ss -> Forall asc Ss')) /\
    (sane -> Forall asc Ss -> stb (concat Ss) O1 -> r = Some tt /\ stb (arr s') O).
Proof.
  induction fuel; intros s Ss Rest O O1 minrun lo nrem Ht Hs HO Hperm Hm Hmin Hlo Hrem Hpos Hf; [lia|].
  cbn [ts_march].
  destruct (ts_count_run_spec s (concat Ss) Rest [] lo nrem) as (r & s1 & T & T0 & R & E1 & S1 & A1 & ER & PT & R1 & W1);
    auto.
  { rewrite Hs, app_nil_r. reflexivity. }
  rewrite (bind_done _ _ _ _ _ E1). rewrite app_nil_r in A1.
  assert (P1 : pend s1 = pend s) by apply S1.
  destruct r as [n|].
  2:{ exists None, s1. split; [reflexivity|]. split.
      { rewrite A1, HO, ER, Hperm, PT. reflexivity. }
      split; [discriminate|]. intros HS Fa _. destruct (W1 HS) as ((? & ?) & _). discriminate. }
  destruct (R1 n eq_refl) as (En & Hn).
  assert (HB : exists b s2 T2 T02 R2,
     (if n <? minrun
      then bind (binarysort cmp lo (Z.min nrem minrun) n) (fun x =>
             ret (option_map (fun _ => Z.min nrem minrun) x))
      else ret (Some n)) s1 = Done b s2 /\ pend s2 = pend s /\ arr s2 = concat Ss ++ T2 ++ R2 /\
     Rest = T02 ++ R2 /\ Permutation T2 T02 /\ (forall m, b = Some m -> m = zlen T2 /\ 0 < m) /\
     (sane -> (exists m, b = Some m) /\ asc T2 /\ stb T2 T02)).
  { destruct (n <? minrun) eqn:C1.
    - set (force := Z.min nrem minrun).
      assert (LT : zlen T = zlen T0) by (apply perm_zlen; auto).
      assert (Hforce : n <= force <= nrem).
      { assert (n <= nrem) by (rewrite Hrem, ER; zl; zpos; lia). unfold force. lia. }
      destruct (zsplit_le R (force - n)) as (Ra & Rb & ERb & LRa).
      { rewrite Hrem, ER in Hforce. zl. lia. }
      destruct (binarysort_spec cmp grab lt s1 (concat Ss) T Ra Rb lo force n) as (x & s2 & T2 & E2 & S2 & A2 & P2 & W2);
        auto; try lia.
      { rewrite A1, ERb. reflexivity. }
      rewrite (bind_done _ _ _ _ _ E2).
      exists (option_map (fun _ => force) x), s2, T2, (T0 ++ Ra), Rb.
      split; [reflexivity|]. split; [destruct S2 as (_ & _ & _ & ->); auto|]. split; auto.
      split; [rewrite ER, ERb; apps|]. split; [rewrite P2, PT; reflexivity|].
      split.
      { intros m Hm'. destruct x; [|discriminate]. injection Hm' as <-. split; [|lia].
        rewrite (perm_zlen _ _ P2). zl. lia. }
      intros HS. destruct (W1 HS) as (_ & W3 & W4). destruct (W2 HS W3) as (-> & W5 & W6).
      split; [simpl; eauto|]. split; auto. eapply stable_trans; [exact W6|].
      apply stb_app; [auto|apply stable_refl].
    - exists (Some n), s1, T, T0, R. split; [reflexivity|]. split; [auto|]. split; [auto|]. split; [auto|]. split; [auto|].
      split; [intros m [= <-]; auto|]. intros HS. destruct (W1 HS) as (_ & W3 & W4). split; eauto. }
  destruct HB as (b & s2 & T2 & T02 & R2 & E2 & P2 & A2 & ER2 & PT2 & Rb & W2).
  rewrite (bind_done _ _ _ _ _ E2).
  destruct b as [n2|].
  2:{ exists None, s2. split; [reflexivity|]. split.
      { rewrite A2, HO, ER2, Hperm, PT2. reflexivity. }
      split; [discriminate|]. intros HS Fa _. destruct (W2 HS) as ((? & ?) & _). discriminate. }
  destruct (Rb n2 eq_refl) as (En2 & Hn2).
  assert (LT2 : zlen T2 = zlen T02) by (apply perm_zlen; auto).
  rewrite (bind_done (ts_push (mkrun lo n2 0)) _ s2 tt (with_pend (pend s2 ++ [mkrun lo n2 0]) s2) eq_refl).
  set (s3 := with_pend (pend s2 ++ [mkrun lo n2 0]) s2).
  rewrite (bind_done npend _ s3 (zlen (pend s3)) s3 eq_refl).
  assert (C3 : concat (Ss ++ [T2]) = concat Ss ++ T2) by (rewrite concat_app; simpl; rewrite app_nil_r; reflexivity).
  assert (T3 : tiles 0 (pend s3) (Ss ++ [T2])).
  { simpl. rewrite P2. apply tiles_app_intro; auto. simpl. repeat split; auto; lia. }
  assert (A3 : arr s3 = concat (Ss ++ [T2]) ++ R2) by (simpl; rewrite A2, C3; apps).
  assert (L3 : zlen (arr s3) = zlen O).
  { simpl. rewrite HO, A2, ER2. zl. rewrite (perm_zlen _ _ Hperm). lia. }
  destruct (ts_collapse_spec (Z.to_nat (zlen (pend s3))) s3 (Ss ++ [T2]) R2) as (r & s4 & Ss4 & E4 & T4 & A4 & P4 & W4); auto.
  { rewrite L3. lia. }
  { zpos. lia. }
  rewrite (bind_done _ _ _ _ _ E4).
  assert (Pm4 : Permutation (concat Ss4) (O1 ++ T02)) by (rewrite P4, C3, Hperm, PT2; reflexivity).
  assert (F3 : sane -> Forall asc Ss -> Forall asc (Ss ++ [T2])).
  { intros HS Fa. apply Forall_app. split; auto. constructor; [|constructor]. apply (W2 HS). }
  destruct r as [[]|].
  2:{ exists None, s4. split; [reflexivity|]. split.
      { rewrite A4, HO, ER2, Pm4. apps. }
      split; [discriminate|]. intros HS Fa _. destruct (W4 HS (F3 HS Fa)) as (? & _). discriminate. }
  assert (W5 : sane -> Forall asc Ss -> stb (concat Ss) O1 -> Forall asc Ss4 /\ stb (concat Ss4) (O1 ++ T02)).
  { intros HS Fa Hstb. destruct (W4 HS (F3 HS Fa)) as (_ & F4 & F5). split; auto.
    eapply stable_trans; [exact F5|]. rewrite C3. apply stb_app; auto. apply (W2 HS). }
  assert (LR2 : nrem - n2 = zlen R2) by (rewrite Hrem, ER2; zl; lia).
  destruct (nrem - n2 =? 0) eqn:C2.
  - assert (R2 = []) by (apply zlen_nil_inv; lia). subst R2. rewrite app_nil_r in *.
    exists (Some tt), s4. split; [reflexivity|].
    split; [rewrite A4, HO, ER2; exact Pm4|].
    split.
    + intros _. exists Ss4. split; auto. split; auto. intros HS Fa. apply (W4 HS (F3 HS Fa)).
    + intros HS Fa Hstb. split; auto. rewrite A4, HO, ER2. apply W5; auto.
  - destruct (IHfuel s4 Ss4 R2 O (O1 ++ T02) minrun (lo + n2) (nrem - n2))
      as (r & s5 & E5 & P5 & R5 & W6); auto; try lia.
    { rewrite HO, ER2. apps. }
    { rewrite (perm_zlen _ _ P4), C3. zl. lia. }
    { zpos. lia. }
    exists r, s5. split; auto. split; auto. split.
    + intros Hr. destruct (R5 Hr) as (Ss' & U1 & U2 & U3). exists Ss'. split; auto. split; auto.
      intros HS Fa. apply U3; auto. apply (W4 HS (F3 HS Fa)).
    + intros HS Fa Hstb. destruct (W5 HS Fa Hstb) as (F1 & F2). apply W6; auto.
Qed.

Lemma ts_sort_spec (s : st) n : n = zlen (arr s) -> pend s = [] -> 2 * n + 1 <= SSIZE_MAX ->
  exists r s', ts_sort cmp n s = Done r s' /\ Permutation (arr s') (arr s) /\
    (sane -> r = Some tt /\ asc (arr s') /\ stb (arr s') (arr s)).
Proof.
  intros Hn Hp Hm. unfold ts_sort. destruct (n <? 2) eqn:C0.
  { exists (Some tt), s. split; [reflexivity|]. split; auto. intros HS. split; auto.
    split; [|apply stable_refl].
    destruct (arr s) as [|x [|y l]] eqn:E; [constructor| |zl; zpos; lia].
    constructor; constructor. }
  destruct (n <? MIN_MERGE) eqn:C1.
  { destruct (ts_count_run_spec s [] (arr s) [] 0 n) as (r & s1 & T & T0 & R & E1 & S1 & A1 & ER & PT & R1 & W1);
      auto; [rewrite app_nil_r; auto|lia|].
    rewrite (bind_done _ _ _ _ _ E1). rewrite app_nil_r in A1. simpl in A1.
    destruct r as [k|].
    2:{ exists None, s1. split; [reflexivity|]. split; [rewrite A1, ER, PT; reflexivity|].
        intros HS. destruct (W1 HS) as ((? & ?) & _). discriminate. }
    destruct (R1 k eq_refl) as (Ek & Hk).
    destruct (binarysort_spec cmp grab lt s1 [] T R [] 0 n k) as (x & s2 & T2 & E2 & S2 & A2 & P2 & W2); auto.
    { rewrite A1, app_nil_r. reflexivity. }
    { assert (zlen T = zlen T0) by (apply perm_zlen; auto). rewrite Hn, ER. zl. lia. }
    simpl in A2. rewrite app_nil_r in A2.
    exists x, s2. split; auto. split; [rewrite A2, P2, ER, PT; reflexivity|].
    intros HS. destruct (W1 HS) as (_ & W3 & W4). destruct (W2 HS W3) as (-> & W5 & W6).
    split; auto. rewrite A2. split; auto. eapply stable_trans; [exact W6|]. rewrite ER.
    apply stb_app; auto. apply stable_refl. }
  destruct (minrun_loop_spec cmp grab (Z.to_nat n) s n 0) as (mr & E2 & Hmr); try lia.
  unfold merge_compute_minrun. rewrite (bind_done _ _ _ _ _ E2).
  destruct (ts_march_spec (Z.to_nat n) s [] (arr s) (arr s) [] mr 0 n) as (r & s2 & E3 & P3 & R3 & W3); auto; try lia.
  { rewrite Hp. simpl. auto. }
  rewrite (bind_done _ _ _ _ _ E3).
  destruct r as [[]|].
  - destruct (R3 eq_refl) as (Ss & T2 & A2 & F2).
    rewrite (bind_done npend _ s2 (zlen (pend s2)) s2 eq_refl).
    destruct (ts_force_collapse_spec (Z.to_nat (zlen (pend s2))) s2 Ss []) as (r' & s3 & Ss3 & E4 & T4 & A4 & P4 & L4 & W4); auto.
    { rewrite app_nil_r. auto. }
    { rewrite (perm_zlen _ _ P3). lia. }
    { zpos. lia. }
    rewrite app_nil_r in A4.
    exists r', s3. split; auto. split; [rewrite A4, P4, <- A2; auto|].
    intros HS. destruct (W4 HS) as (-> & F4 & S4); [apply F2; auto|].
    destruct (W3 HS) as (_ & S3); [constructor|apply stable_refl|].
    split; auto. specialize (L4 eq_refl). split.
    + rewrite A4. destruct Ss3 as [|S0 [|]]; [constructor| |zl; zpos; lia].
      simpl. rewrite app_nil_r. inversion F4; auto.
    + rewrite A4. eapply stable_trans; [exact S4|]. rewrite <- A2. auto.
  - exists None, s2. split; [reflexivity|]. split; auto. intros HS.
    destruct (W3 HS) as (? & _); [constructor|apply stable_refl|discriminate].
Qed.
End Runs.

Theorem timsort_safe {V} (lt : V -> V -> bool) l : 2 * zlen l + 1 <= SSIZE_MAX ->
  exists l', timsort lt l = inl l' /\ Permutation l' l.
Proof.
  intros H. unfold timsort.
  destruct (ts_sort_spec (fun _ x y => Some (lt x y)) (fun _ => true) lt (mkst l [] 0 MIN_GALLOP [] 0) (zlen l))
    as (r & s' & E & P & _); auto.
  rewrite E. eauto.
Qed.

Theorem timsort_correct {V} (lt : V -> V -> bool) l : 2 * zlen l + 1 <= SSIZE_MAX -> weak_order lt ->
  exists l', timsort lt l = inl l' /\ Permutation l' l /\ ascending lt l' /\ stable lt l' l.
Proof.
  intros H W. unfold timsort.
  destruct (ts_sort_spec (fun _ x y => Some (lt x y)) (fun _ => true) lt (mkst l [] 0 MIN_GALLOP [] 0) (zlen l))
    as (r & s' & E & P & S); auto.
  rewrite E. destruct S as (_ & S1 & S2); [|eauto]. repeat split; auto; apply W.
Qed.
