(** The merge stack, the main loop and the entry points of CPythonSortModel.v. *)
From Coq Require Import ZArith List Bool Lia Sorting.Sorted Sorting.Permutation.
From Verif Require Import Base ListLemmas SortSpec SortOrderProofs CPythonSortModel SortMachineProofs
  SortMergeProofs SortRunProofs.
Import ListNotations.
Local Open Scope Z_scope.
Local Arguments Z.of_nat : simpl never.
Local Arguments Z.to_nat : simpl never.
Local Arguments Z.mul : simpl never.
Local Arguments Z.add : simpl never.
Local Arguments Z.sub : simpl never.
Local Arguments Z.pow : simpl never.
Local Arguments Z.div : simpl never.
Local Arguments MIN_GALLOP : simpl never.

(** ** The node power *)

Section Power.
Context {A : Type}.
Notation st := (@st A).

Lemma sz_ok (z : Z) (s : st) : SSIZE_MIN <= z <= SSIZE_MAX -> sz z s = Done z s.
Proof. intros H. unfold sz. replace ((SSIZE_MIN <=? z) && (z <=? SSIZE_MAX)) with true by lia. reflexivity. Qed.

(** [power_loop] returns the first bit in which [a/2n] and [b/2n] differ. *)
Lemma power_loop_spec n : 0 < n -> 4 * n <= SSIZE_MAX -> forall fuel (s : st) a b result,
  0 <= a < b -> b < 2 * n -> 2 * n <= (b - a) * 2 ^ Z.of_nat fuel ->
  exists p q, power_loop fuel a b n result s = Done p s /\ result < p /\
    a * 2 ^ (p - result - 1) / n = 2 * q /\ b * 2 ^ (p - result - 1) / n = 2 * q + 1.
Proof.
  intros Hn Hmax. induction fuel; intros s a b result Hab Hb Hf.
  - exfalso. change (2 ^ Z.of_nat 0) with 1 in Hf. lia.
  - cbn [power_loop]. cbv zeta.
    assert (Hf' : 2 * n <= (2 * (b - a)) * 2 ^ Z.of_nat fuel).
    { rewrite Nat2Z.inj_succ, Z.pow_succ_r in Hf by lia. lia. }
    assert (Mn : SSIZE_MIN <= 0) by (cbv; discriminate).
    destruct (n <=? a) eqn:C1; [|destruct (n <=? b) eqn:C2].
    + rewrite (bind_done _ _ _ _ _ (sz_ok (2 * (a - n)) s ltac:(lia))).
      rewrite (bind_done _ _ _ _ _ (sz_ok (2 * (b - n)) s ltac:(lia))).
      destruct (IHfuel s (2 * (a - n)) (2 * (b - n)) (result + 1)) as (p & q & E & Hp & E1 & E2); try lia.
      exists p, (q + 2 ^ (p - (result + 1) - 1)). split; auto. split; [lia|].
      replace (p - result - 1) with (Z.succ (p - (result + 1) - 1)) by lia.
      set (j := p - (result + 1) - 1) in *. rewrite Z.pow_succ_r by (unfold j; lia).
      split.
      * replace (a * (2 * 2 ^ j)) with (2 * (a - n) * 2 ^ j + (2 * 2 ^ j) * n) by ring.
        rewrite Z.div_add by lia. lia.
      * replace (b * (2 * 2 ^ j)) with (2 * (b - n) * 2 ^ j + (2 * 2 ^ j) * n) by ring.
        rewrite Z.div_add by lia. lia.
    + exists (result + 1), 0. split; [reflexivity|]. split; [lia|].
      replace (result + 1 - result - 1) with 0 by lia. rewrite Z.pow_0_r, !Z.mul_1_r. split.
      * apply Z.div_small. lia.
      * symmetry. apply Z.div_unique with (b - n); lia.
    + rewrite (bind_done _ _ _ _ _ (sz_ok (2 * a) s ltac:(lia))).
      rewrite (bind_done _ _ _ _ _ (sz_ok (2 * b) s ltac:(lia))).
      destruct (IHfuel s (2 * a) (2 * b) (result + 1)) as (p & q & E & Hp & E1 & E2); try lia.
      exists p, q. split; auto. split; [lia|].
      replace (p - result - 1) with (Z.succ (p - (result + 1) - 1)) by lia.
      rewrite Z.pow_succ_r by lia. rewrite !Z.mul_assoc. rewrite (Z.mul_comm a 2), (Z.mul_comm b 2). auto.
Qed.

(** The bit at position [p] of the binary expansion of [m / 2n]. *)
Definition bit (n m p : Z) : Z := m * 2 ^ (p - 1) / n.

Lemma bit_prefix n m m' p i : 0 < n -> 1 <= i -> i < p ->
  bit n m p / 2 = bit n m' p / 2 -> bit n m i = bit n m' i.
Proof.
  intros Hn Hi Hp H. unfold bit in *.
  assert (R : forall x, x * 2 ^ (p - 1) / n / 2 / 2 ^ (p - 1 - i) = x * 2 ^ (i - 1) / n).
  { intros x. rewrite Z.div_div by (try lia; apply Z.pow_pos_nonneg; lia).
    replace (2 * 2 ^ (p - 1 - i)) with (2 ^ (p - i)).
    2:{ rewrite <- Z.pow_succ_r by lia. f_equal. lia. }
    rewrite Z.div_div by (try lia; apply Z.pow_pos_nonneg; lia).
    replace (2 ^ (p - 1)) with (2 ^ (i - 1) * 2 ^ (p - i)) by (rewrite <- Z.pow_add_r by lia; f_equal; lia).
    rewrite Z.mul_assoc. rewrite Z.div_mul_cancel_r; auto; [lia|].
    pose proof (Z.pow_pos_nonneg 2 (p - i)). lia. }
  rewrite <- (R m), <- (R m'), H. reflexivity.
Qed.

Lemma powerloop_spec (s : st) s1 n1 n2 n : 0 <= s1 -> 0 < n1 -> 0 < n2 -> s1 + n1 + n2 <= n ->
  8 * n <= SSIZE_MAX ->
  exists p q, powerloop s1 n1 n2 n s = Done p s /\ 1 <= p <= 60 /\
    bit n (2 * s1 + n1) p = 2 * q /\ bit n (2 * (s1 + n1) + n2) p = 2 * q + 1.
Proof.
  intros H1 H2 H3 H4 Hm. unfold powerloop.
  assert (Mn : SSIZE_MIN <= 0) by (cbv; discriminate).
  rewrite (bind_done _ _ _ _ _ (sz_ok (2 * s1 + n1) s ltac:(lia))).
  rewrite (bind_done _ _ _ _ _ (sz_ok (2 * s1 + n1 + n1 + n2) s ltac:(lia))).
  destruct (power_loop_spec n ltac:(lia) ltac:(lia) (Z.to_nat n) s (2 * s1 + n1) (2 * s1 + n1 + n1 + n2) 0)
    as (p & q & E & Hp & E1 & E2); try lia.
  { assert (n < 2 ^ n) by (apply Z.pow_gt_lin_r; lia).
    rewrite Z2Nat.id by lia. nia. }
  exists p, q. split; auto. rewrite Z.sub_0_r in E1, E2. unfold bit.
  replace (2 * (s1 + n1) + n2) with (2 * s1 + n1 + n1 + n2) by lia. split; [|auto].
  split; [lia|]. destruct (Z_le_gt_dec p 60) as [L|L]; auto. exfalso.
  assert (P : 0 < 2 ^ (p - 1)) by (apply Z.pow_pos_nonneg; lia).
  assert (B : 2 ^ 60 <= 2 ^ (p - 1)) by (apply Z.pow_le_mono_r; lia).
  assert (L1 := Z.mul_div_le ((2 * s1 + n1) * 2 ^ (p - 1)) n ltac:(lia)).
  assert (L2 := Z.mul_succ_div_gt ((2 * s1 + n1 + n1 + n2) * 2 ^ (p - 1)) n ltac:(lia)).
  rewrite E1 in L1. rewrite E2 in L2.
  assert (8 * n < 2 ^ 63) by (unfold SSIZE_MAX in Hm; lia).
  assert (n < 2 ^ 60) by (change (2 ^ 63) with (8 * 2 ^ 60) in H; lia).
  set (w := 2 ^ (p - 1)) in *. nia.
Qed.
End Power.

(** ** Runs tile the sorted part of the array *)

Section Main.
Context {A : Type}.
Variable cmp : nat -> A -> A -> option bool.
Variable grab : Z -> bool.
Variable lt : A -> A -> bool.
Notation st := (@st A).
Notation asc := (ascending lt).
Notation stb := (stable lt).
Notation sane := (sane cmp grab lt).

Fixpoint tiles (b : Z) (rs : list run) (Ss : list (list A)) : Prop :=
  match rs, Ss with
  | [], [] => True
  | r :: rs, T :: Ss => rbase r = b /\ rlen r = zlen T /\ 0 < zlen T /\ tiles (b + zlen T) rs Ss
  | _, _ => False
  end.

Lemma tiles_app rs1 : forall b rs2 Ss, tiles b (rs1 ++ rs2) Ss ->
  exists S1 S2, Ss = S1 ++ S2 /\ tiles b rs1 S1 /\ tiles (b + zlen (concat S1)) rs2 S2.
Proof.
  induction rs1; intros b rs2 Ss H; simpl in *.
  - exists [], Ss. split; auto. split; auto. simpl. rewrite zlen_nil, Z.add_0_r. auto.
  - destruct Ss as [|S0 Ss]; [contradiction|]. destruct H as (H1 & H2 & H3 & H4).
    destruct (IHrs1 _ _ _ H4) as (S1 & S2 & -> & T1 & T2).
    exists (S0 :: S1), S2. split; auto. split; [repeat split; auto|]. simpl. rewrite zlen_app.
    rewrite Z.add_assoc. auto.
Qed.
Lemma tiles_app_intro rs1 : forall b rs2 S1 S2, tiles b rs1 S1 -> tiles (b + zlen (concat S1)) rs2 S2 ->
  tiles b (rs1 ++ rs2) (S1 ++ S2).
Proof.
  induction rs1; intros b rs2 S1 S2 H1 H2; destruct S1; simpl in *; try contradiction.
  - rewrite zlen_nil, Z.add_0_r in H2. auto.
  - destruct H1 as (K1 & K2 & K3 & K4). repeat split; auto. apply IHrs1; auto.
    rewrite zlen_app, Z.add_assoc in H2. auto.
Qed.
Lemma tiles_length b rs Ss : tiles b rs Ss -> zlen rs = zlen Ss.
Proof.
  revert b Ss. induction rs; destruct Ss; simpl; intros H; try contradiction; auto.
  zl. destruct H as (_ & _ & _ & H). rewrite (IHrs _ _ H). auto.
Qed.

Lemma concat_app3 (x y : list (list A)) : concat (x ++ y) = concat x ++ concat y.
Proof. apply concat_app. Qed.

Lemma merge_at_tiles (s : st) p1 ra rb p2 Ss Rest : pend s = p1 ++ ra :: rb :: p2 -> zlen p2 <= 1 ->
  tiles 0 (pend s) Ss -> arr s = concat Ss ++ Rest -> 2 * zlen (arr s) + 1 <= SSIZE_MAX ->
  exists r s' Ss', merge_at cmp grab (zlen p1) s = Done r s' /\
    pend s' = p1 ++ mkrun (rbase ra) (rlen ra + rlen rb) (rpower ra) :: p2 /\
    tiles 0 (pend s') Ss' /\ arr s' = concat Ss' ++ Rest /\ Permutation (concat Ss') (concat Ss) /\
    (sane -> Forall asc Ss -> r = Some tt /\ Forall asc Ss' /\ stb (concat Ss') (concat Ss)).
Proof.
  intros Hp H2 Ht Hs Hm. rewrite Hp in Ht.
  apply tiles_app in Ht as (S1 & S2 & -> & T1 & T2). simpl in T2.
  destruct S2 as [|SA [|SB S2]]; try contradiction; [destruct T2 as (_ & _ & _ & []) |].
  destruct T2 as (B1 & L1 & N1 & B2 & L2 & N2 & T2).
  rewrite concat_app3 in Hs. cbn [concat] in Hs.
  destruct (merge_at_spec cmp grab lt s p1 ra rb p2 (concat S1) SA SB (concat S2 ++ Rest))
    as (r & s' & C & E & A' & Pm & P' & W); auto; try lia.
  { rewrite Hs. apps. }
  { rewrite Hs in Hm. zl. zpos. lia. }
  assert (LC : zlen C = zlen SA + zlen SB) by (apply Permutation_length in Pm; unfold zlen; rewrite app_length in Pm; lia).
  exists r, s', (S1 ++ C :: S2). split; auto. split; auto.
  split. { rewrite P'. apply tiles_app_intro; auto. simpl. repeat split; auto; try lia. rewrite LC, Z.add_assoc. auto. }
  rewrite !concat_app3. cbn [concat].
  split; [rewrite A'; apps|]. split.
  { apply Permutation_app_head. rewrite (app_assoc SA). apply Permutation_app_tail. auto. }
  intros HS Fa. apply Forall_app in Fa as (F1 & F2). inversion F2 as [|? ? F3 F4]; subst.
  inversion F4 as [|? ? F5 F6]; subst. destruct (W HS F3 F5) as (-> & W2 & W3).
  split; auto. split; [apply Forall_app; auto|].
  apply stb_app; [apply stable_refl|]. rewrite (app_assoc SA). apply stb_app; auto. apply stable_refl.
Qed.

Lemma perm_zlen (a b : list A) : Permutation a b -> zlen a = zlen b.
Proof. intros H. unfold zlen. rewrite (Permutation_length H). reflexivity. Qed.

Definition powers (l : list run) : list Z := map rpower l.

Lemma collapse_loop_spec power fuel : forall (s : st) ps top Ss Rest,
  pend s = ps ++ [top] -> tiles 0 (pend s) Ss -> arr s = concat Ss ++ Rest ->
  2 * zlen (arr s) + 1 <= SSIZE_MAX -> zlen ps <= Z.of_nat fuel ->
  exists r s' ps1 ps2 top' Ss', collapse_loop cmp grab fuel power s = Done r s' /\
    ps = ps1 ++ ps2 /\ pend s' = ps1 ++ [top'] /\ tiles 0 (pend s') Ss' /\ arr s' = concat Ss' ++ Rest /\
    Permutation (concat Ss') (concat Ss) /\
    (forall u x, ps1 = u ++ [x] -> r = Some tt -> rpower x <= power) /\
    (sane -> Forall asc Ss -> r = Some tt /\ Forall asc Ss' /\ stb (concat Ss') (concat Ss)).
Proof.
  induction fuel; intros s ps top Ss Rest Hp Ht Hs Hm Hf.
  - assert (ps = []) by (apply zlen_nil_inv; zpos; lia). subst ps. cbn [collapse_loop].
    rewrite (bind_done npend _ s (zlen (pend s)) s eq_refl). replace (1 <? zlen (pend s)) with false by (rewrite Hp; reflexivity).
    exists (Some tt), s, [], [], top, Ss. split; [reflexivity|]. split; [auto|]. split; [auto|].
    split; [auto|]. split; [auto|]. split; [auto|].
    split; [intros u x E; destruct u; discriminate|].
    intros; split; auto. split; auto. apply stable_refl.
  - cbn [collapse_loop]. rewrite (bind_done npend _ s (zlen (pend s)) s eq_refl).
    destruct (1 <? zlen (pend s)) eqn:C1.
    2:{ assert (ps = []) by (apply zlen_nil_inv; rewrite Hp in C1; zl; zpos; lia). subst ps.
        exists (Some tt), s, [], [], top, Ss. split; [reflexivity|]. split; [auto|]. split; [auto|].
        split; [auto|]. split; [auto|]. split; [auto|].
        split; [intros u x E; destruct u; discriminate|].
        intros; split; auto. split; auto. apply stable_refl. }
    destruct (zlen_pos_last ps) as (u & x & ->); [rewrite Hp in C1; zl; zpos; lia|].
    assert (Hp' : pend s = u ++ x :: [top]) by (rewrite Hp; apps).
    assert (El : zlen (pend s) - 2 = zlen u) by (rewrite Hp'; zl; lia).
    rewrite El.
    rewrite (bind_done _ _ _ _ _ (get_run_mid s u x [top] (zlen u) Hp' eq_refl)).
    destruct (power <? rpower x) eqn:C2.
    + destruct (merge_at_tiles s u x top [] Ss Rest) as (r & s1 & Ss1 & E1 & P1 & T1 & A1 & Pm & W1); auto.
      { zl. lia. }
      rewrite (bind_done _ _ _ _ _ E1).
      destruct r as [[]|].
      * destruct (IHfuel s1 u (mkrun (rbase x) (rlen x + rlen top) (rpower x)) Ss1 Rest)
          as (r & s2 & ps1 & ps2 & top' & Ss' & E2 & Ep & P2 & T2 & A2 & Pm2 & L2 & W2); auto.
        { assert (zlen (arr s1) = zlen (arr s)) by (rewrite A1, Hs; zl; rewrite (perm_zlen _ _ Pm); reflexivity). lia. }
        { zl. lia. }
        exists r, s2, ps1, (ps2 ++ [x]), top', Ss'. split; auto.
        split; [rewrite Ep; apps|]. split; auto. split; auto. split; auto.
        split; [rewrite Pm2; auto|]. split; auto.
        intros HS Fa. destruct (W1 HS Fa) as (_ & F1 & S1). destruct (W2 HS F1) as (F2 & F3 & F4).
        split; auto. split; auto. eapply stable_trans; eauto.
      * exists None, s1, u, [x], (mkrun (rbase x) (rlen x + rlen top) (rpower x)), Ss1.
        split; [reflexivity|]. split; auto. split; auto. split; auto. split; auto. split; auto.
        split; [discriminate|]. intros HS Fa. destruct (W1 HS Fa) as (F & _). discriminate.
    + exists (Some tt), s, (u ++ [x]), [], top, Ss. split; [reflexivity|].
      rewrite app_nil_r. split; auto. split; auto. split; auto. split; auto. split; auto.
      split. { intros u' x' E _. apply app_inj_tail in E as (_ & <-). lia. }
      intros; split; auto. split; auto. apply stable_refl.
Qed.

(** The stack between two runs: powers below the top increase strictly, and
    each of them is a 1-bit of the midpoint of the top run. *)
Definition stacked (n : Z) (rs : list run) : Prop :=
  rs = [] \/ exists ps top, rs = ps ++ [top] /\
    StronglySorted Z.lt (powers ps) /\ Forall (fun p => 1 <= p <= 60) (powers ps) /\
    Forall (fun p => exists k, bit n (2 * rbase top + rlen top) p = 2 * k + 1) (powers ps).

Lemma sorted_bounded k : forall l, StronglySorted Z.lt l -> Forall (fun p => k < p <= 60) l -> k <= 60 -> zlen l <= 60 - k.
Proof.
  intros l. revert k. induction l; intros k H1 H2 Hk; [zl; lia|].
  inversion H1; subst. inversion H2; subst. zl.
  assert (zlen l <= 60 - a).
  { apply IHl; auto; [|lia]. rewrite Forall_forall in *. intros p Hp. specialize (H4 p Hp). specialize (H6 p Hp). lia. }
  lia.
Qed.

Lemma sorted_app_le l1 l2 : StronglySorted Z.lt (l1 ++ l2) -> StronglySorted Z.lt l1.
Proof.
  induction l1; simpl; intros H; [constructor|]. inversion H as [|? ? H1 H2]; subst.
  constructor; auto. apply Forall_app in H2. tauto.
Qed.

Lemma sorted_snoc l p : StronglySorted Z.lt l -> (forall x, In x l -> x < p) -> StronglySorted Z.lt (l ++ [p]).
Proof.
  induction l; simpl; intros H1 H2; [constructor; constructor|].
  inversion H1; subst. constructor; auto. apply Forall_app. split; auto.
Qed.

Lemma sorted_last l x : StronglySorted Z.lt (l ++ [x]) -> forall y, In y (l ++ [x]) -> y <= x.
Proof.
  induction l; simpl; intros H y Hy.
  - destruct Hy as [<-|[]]. lia.
  - inversion H as [|? ? H1 H2]; subst. destruct Hy as [<-|Hy]; auto.
    rewrite Forall_forall in H2. specialize (H2 x). assert (In x (l ++ [x])) by (apply in_or_app; simpl; auto).
    specialize (H2 H0). lia.
Qed.

Lemma found_new_run_spec (s : st) Ss Rest listlen n2 :
  tiles 0 (pend s) Ss -> arr s = concat Ss ++ Rest -> stacked listlen (pend s) ->
  listlen = zlen (arr s) -> 8 * listlen <= SSIZE_MAX -> 0 < n2 <= zlen Rest ->
  exists r s' Ss', found_new_run cmp grab listlen n2 s = Done r s' /\
    tiles 0 (pend s') Ss' /\ arr s' = concat Ss' ++ Rest /\
    Permutation (concat Ss') (concat Ss) /\
    (r = Some tt -> stacked listlen (pend s' ++ [mkrun (zlen (concat Ss')) n2 0])) /\
    (sane -> Forall asc Ss -> r = Some tt /\ Forall asc Ss' /\ stb (concat Ss') (concat Ss)).
Proof.
  intros Ht Hs Hst Hl Hm Hn2. unfold found_new_run.
  rewrite (bind_done npend _ s (zlen (pend s)) s eq_refl).
  destruct (zlen (pend s) =? 0) eqn:C0.
  { assert (E : pend s = []) by (apply zlen_nil_inv; lia).
    exists (Some tt), s, Ss. split; [reflexivity|]. split; auto. split; auto. split; auto. split.
    - intros _. right. exists [], (mkrun (zlen (concat Ss)) n2 0). rewrite E. repeat split; constructor.
    - intros; split; auto. split; auto. apply stable_refl. }
  destruct Hst as [E|(ps & top & Hp & St1 & St2 & St3)]; [rewrite E in C0; zl; lia|].
  assert (Hp' : pend s = ps ++ top :: []) by auto.
  rewrite (bind_done _ _ _ _ _ (get_run_mid s ps top [] (zlen (pend s) - 1) Hp' ltac:(rewrite Hp; zl; lia))).
  assert (Htop : rbase top + rlen top = zlen (concat Ss) /\ 0 < rlen top /\ 0 <= rbase top).
  { rewrite Hp in Ht. apply tiles_app in Ht as (S1 & S2 & -> & _ & T2). simpl in T2.
    destruct S2 as [|St [|? ?]]; try contradiction; [|destruct T2 as (_ & _ & _ & [])].
    destruct T2 as (B1 & B2 & B3 & _). rewrite concat_app3. simpl. zl. zpos. lia. }
  assert (Hlen : zlen (arr s) = zlen (concat Ss) + zlen Rest) by (rewrite Hs; zl; lia).
  destruct (powerloop_spec s (rbase top) (rlen top) n2 listlen) as (p & q & E1 & Hpr & Bt & Bn); try lia.
  rewrite (bind_done _ _ _ _ _ E1).
  destruct (collapse_loop_spec p (Z.to_nat (zlen (pend s))) s ps top Ss Rest)
    as (r & s2 & ps1 & ps2 & top' & Ss' & E2 & Ep & P2 & T2 & A2 & Pm2 & L2 & W2); auto; try lia.
  { rewrite Hp. zl. zpos. lia. }
  rewrite (bind_done _ _ _ _ _ E2).
  destruct r as [[]|].
  2:{ exists None, s2, Ss'. split; [reflexivity|]. split; auto. split; auto. split; auto. split; [discriminate|]. auto. }
  rewrite (bind_done npend _ s2 (zlen (pend s2)) s2 eq_refl).
  rewrite (bind_done _ _ _ _ _ (get_run_mid s2 ps1 top' [] (zlen (pend s2) - 1) P2 ltac:(rewrite P2; zl; lia))).
  set (top'' := mkrun (rbase top') (rlen top') p).
  rewrite (bind_done _ _ _ _ _ (set_run_mid s2 ps1 top' [] (zlen (pend s2) - 1) top'' P2 ltac:(rewrite P2; zl; lia))).
  set (s3 := with_pend (ps1 ++ [top'']) s2).
  exists (Some tt), s3, Ss'. split; [reflexivity|].
  assert (P3 : pend s3 = ps1 ++ [top'']) by reflexivity.
  split. { rewrite P3. rewrite P2 in T2. apply tiles_app in T2 as (S1 & S2 & -> & U1 & U2).
           apply tiles_app_intro; auto. }
  split; auto. split; auto. split; auto.
  intros _. right. exists (ps1 ++ [top'']), (mkrun (zlen (concat Ss')) n2 0).
  split; [rewrite P3; reflexivity|].
  rewrite Ep in St1, St2, St3. unfold powers in *. rewrite map_app in *. cbn [map] in *.
  apply sorted_app_le in St1. apply Forall_app in St2 as (St2 & _). apply Forall_app in St3 as (St3 & _).
  assert (Bmid : bit listlen (2 * zlen (concat Ss') + n2) p = 2 * q + 1).
  { rewrite (perm_zlen _ _ Pm2). destruct Htop as (<- & _). exact Bn. }
  assert (Lt : forall x, In x (map rpower ps1) -> x < p).
  { intros x Hx. assert (x <= p).
    { destruct ps1 as [|y u _] using rev_ind; [contradiction|].
      specialize (L2 u y eq_refl eq_refl). rewrite map_app in *. simpl in *.
      pose proof (sorted_last _ _ St1 x Hx). lia. }
    assert (x <> p); [|lia]. intros ->. rewrite Forall_forall in St3. destruct (St3 p Hx) as (k & Hk). lia. }
  split; [apply sorted_snoc; auto|]. split; [apply Forall_app; split; auto|].
  apply Forall_app. split; [|constructor; [simpl; eauto|constructor]].
  rewrite Forall_forall in *. intros x Hx. simpl. destruct (St3 x Hx) as (k & Hk).
  exists k. rewrite <- Hk. symmetry. apply bit_prefix with p; auto; try lia.
  - specialize (St2 x Hx). lia.
  - rewrite Bmid, Bt. rewrite Z.mul_comm, Z.div_mul by lia.
    apply Z.div_unique with 1; lia.
Qed.

Lemma stacked_room n rs : stacked n rs -> zlen rs <= 61.
Proof.
  intros [->|(ps & top & -> & H1 & H2 & _)]; [zl; lia|].
  assert (zlen (powers ps) <= 60 - 0).
  { apply sorted_bounded; auto; [|lia]. eapply Forall_impl; [|exact H2]. simpl; intros; lia. }
  unfold powers, zlen in *. rewrite map_length in H. rewrite app_length. simpl. lia.
Qed.

Lemma force_collapse_spec fuel : forall (s : st) Ss Rest,
  tiles 0 (pend s) Ss -> arr s = concat Ss ++ Rest -> 2 * zlen (arr s) + 1 <= SSIZE_MAX ->
  zlen (pend s) <= Z.of_nat fuel ->
  exists r s' Ss', force_collapse cmp grab fuel s = Done r s' /\
    tiles 0 (pend s') Ss' /\ arr s' = concat Ss' ++ Rest /\
    Permutation (concat Ss') (concat Ss) /\
    (r = Some tt -> zlen Ss' <= 1) /\
    (sane -> Forall asc Ss -> r = Some tt /\ Forall asc Ss' /\ stb (concat Ss') (concat Ss)).
Proof.
  induction fuel; intros s Ss Rest Ht Hs Hm Hf.
  - cbn [force_collapse]. rewrite (bind_done npend _ s (zlen (pend s)) s eq_refl).
    replace (1 <? zlen (pend s)) with false by lia.
    exists (Some tt), s, Ss. split; [reflexivity|]. split; auto. split; auto. split; auto.
    split; [rewrite <- (tiles_length _ _ _ Ht); lia|]. intros; split; auto. split; auto. apply stable_refl.
  - cbn [force_collapse]. rewrite (bind_done npend _ s (zlen (pend s)) s eq_refl). cbv zeta.
    destruct (1 <? zlen (pend s)) eqn:C1.
    2:{ exists (Some tt), s, Ss. split; [reflexivity|]. split; auto. split; auto. split; auto.
        split; [rewrite <- (tiles_length _ _ _ Ht); lia|]. intros; split; auto. split; auto. apply stable_refl. }
    assert (HI : exists p1 ra rb p2, pend s = p1 ++ ra :: rb :: p2 /\ zlen p2 <= 1 /\
       (if 0 <? zlen (pend s) - 2
        then bind (get_run (zlen (pend s) - 2 - 1)) (fun p =>
             bind (get_run (zlen (pend s) - 2 + 1)) (fun q =>
               ret (if rlen p <? rlen q then zlen (pend s) - 2 - 1 else zlen (pend s) - 2)))
        else ret (zlen (pend s) - 2)) s = Done (zlen p1) s).
    { destruct (zlen_pos_last (pend s)) as (u & rz & E1); [lia|].
      destruct (zlen_pos_last u) as (w & ry & E2); [rewrite E1 in C1; zl; lia|].
      assert (E3 : pend s = w ++ ry :: rz :: []) by (rewrite E1, E2; apps).
      destruct (0 <? zlen (pend s) - 2) eqn:C2.
      - destruct (zlen_pos_last w) as (v & rx & E4); [assert (Lp : zlen (pend s) = zlen w + 2) by (rewrite E3, zlen_app, !zlen_cons, zlen_nil; lia); lia|].
        assert (E5 : pend s = v ++ rx :: ry :: [rz]) by (rewrite E3, E4; apps).
        assert (E5' : pend s = (v ++ [rx; ry]) ++ rz :: []) by (rewrite E5; apps).
        rewrite (bind_done _ _ _ _ _ (get_run_mid s v rx [ry; rz] (zlen (pend s) - 2 - 1) E5 ltac:(rewrite E5; zl; lia))).
        rewrite (bind_done _ _ _ _ _ (get_run_mid s (v ++ [rx; ry]) rz [] (zlen (pend s) - 2 + 1) E5' ltac:(rewrite E5; zl; lia))).
        destruct (rlen rx <? rlen rz).
        + exists v, rx, ry, [rz]. split; auto. split; [zl; lia|]. unfold ret. f_equal. rewrite E5. zl. lia.
        + exists w, ry, rz, []. split; auto. split; [zl; lia|]. unfold ret. f_equal. rewrite E3. zl. lia.
      - exists w, ry, rz, []. split; auto. split; [zl; lia|]. unfold ret. f_equal. rewrite E3. zl. lia. }
    destruct HI as (p1 & ra & rb & p2 & Hp & Hp2 & HI).
    rewrite (bind_done _ _ _ _ _ HI).
    destruct (merge_at_tiles s p1 ra rb p2 Ss Rest) as (r & s1 & Ss1 & E1 & P1 & T1 & A1 & Pm & W1); auto.
    rewrite (bind_done _ _ _ _ _ E1).
    destruct r as [[]|].
    + destruct (IHfuel s1 Ss1 Rest) as (r & s2 & Ss2 & E2 & T2 & A2 & Pm2 & L2 & W2); auto.
      { assert (zlen (arr s1) = zlen (arr s)) by (rewrite A1, Hs; zl; rewrite (perm_zlen _ _ Pm); reflexivity). lia. }
      { rewrite P1. rewrite Hp in Hf. zl. lia. }
      exists r, s2, Ss2. split; auto. split; auto. split; auto. split; [rewrite Pm2; auto|]. split; auto.
      intros HS Fa. destruct (W1 HS Fa) as (_ & F1 & S1). destruct (W2 HS F1) as (F2 & F3 & F4).
      split; auto. split; auto. eapply stable_trans; eauto.
    + exists None, s1, Ss1. split; [reflexivity|]. split; auto. split; auto. split; auto. split; [discriminate|].
      intros HS Fa. destruct (W1 HS Fa) as (F & _). discriminate.
Qed.

Lemma march_spec fuel : forall (s : st) Ss Rest O O1 listlen minrun lo nrem,
  tiles 0 (pend s) Ss -> arr s = concat Ss ++ Rest -> stacked listlen (pend s) ->
  O = O1 ++ Rest -> Permutation (concat Ss) O1 ->
  listlen = zlen O -> 8 * listlen <= SSIZE_MAX -> 0 < minrun ->
  lo = zlen (concat Ss) -> nrem = zlen Rest -> 0 < nrem -> nrem <= Z.of_nat fuel ->
  exists r s', march cmp grab fuel listlen minrun lo nrem s = Done r s' /\ Permutation (arr s') O /\
    (r = Some tt -> exists Ss', tiles 0 (pend s') Ss' /\ arr s' = concat Ss' /\
       (sane -> Forall asc Ss -> Forall asc Ss')) /\
    (sane -> Forall asc Ss -> stb (concat Ss) O1 -> r = Some tt /\ stb (arr s') O).
Proof.
  induction fuel; intros s Ss Rest O O1 listlen minrun lo nrem Ht Hs Hst HO Hperm Hl Hm Hmin Hlo Hrem Hpos Hf; [lia|].
  cbn [march].
  destruct (count_run_spec cmp grab lt s (concat Ss) Rest [] lo nrem) as (r & s1 & T & T0 & R & E1 & S1 & A1 & ER & PT & R1 & W1);
    auto.
  { rewrite Hs, app_nil_r. reflexivity. }
  rewrite (bind_done _ _ _ _ _ E1). rewrite app_nil_r in A1.
  assert (P1 : pend s1 = pend s) by apply S1.
  destruct r as [n|].
  2:{ exists None, s1. split; [reflexivity|]. split.
      { rewrite A1, HO, ER, Hperm, PT. reflexivity. }
      split; [discriminate|]. intros HS Fa _. destruct (W1 HS) as ((? & ?) & _). discriminate. }
  destruct (R1 n eq_refl) as (En & Hn).
  (* after boosting: a run T2 of n2 slots, the rest R2 *)
  assert (HB : exists b s2 T2 T02 R2,
     (if n <? minrun
      then bind (binarysort cmp lo (if nrem <=? minrun then nrem else minrun) n) (fun x =>
             ret (option_map (fun _ => if nrem <=? minrun then nrem else minrun) x))
      else ret (Some n)) s1 = Done b s2 /\ pend s2 = pend s /\ arr s2 = concat Ss ++ T2 ++ R2 /\
     Rest = T02 ++ R2 /\ Permutation T2 T02 /\ (forall m, b = Some m -> m = zlen T2 /\ 0 < m) /\
     (sane -> (exists m, b = Some m) /\ asc T2 /\ stb T2 T02)).
  { destruct (n <? minrun) eqn:C1.
    - set (force := if nrem <=? minrun then nrem else minrun).
      assert (LT : zlen T = zlen T0) by (apply perm_zlen; auto).
      assert (Hforce : n <= force <= nrem).
      { assert (n <= nrem) by (rewrite Hrem, ER; zl; zpos; lia).
        unfold force. destruct (nrem <=? minrun) eqn:C2; lia. }
      destruct (zsplit_le R (force - n)) as (Ra & Rb & ERb & LRa).
      { rewrite Hrem, ER in Hforce. zl. lia. }
      destruct (binarysort_spec cmp grab lt s1 (concat Ss) T Ra Rb lo force n) as (x & s2 & T2 & E2 & S2 & A2 & P2 & W2);
        auto; try lia.
      { rewrite A1, ERb. reflexivity. }
      rewrite (bind_done _ _ _ _ _ E2).
      exists (option_map (fun _ => force) x), s2, T2, (T0 ++ Ra), Rb.
      split; [reflexivity|]. split; [destruct S2 as (_ & _ & _ & ->); auto|]. split; auto.
      split; [rewrite ER, ERb; apps|]. split; [rewrite P2, PT; reflexivity|].
      split.
      { intros m Hm'. destruct x; [|discriminate]. injection Hm' as <-. split; [|lia].
        rewrite (perm_zlen _ _ P2). zl. lia. }
      intros HS. destruct (W1 HS) as (_ & W3 & W4). destruct (W2 HS W3) as (-> & W5 & W6).
      split; [simpl; eauto|]. split; auto. eapply stable_trans; [exact W6|].
      apply stb_app; [auto|apply stable_refl].
    - exists (Some n), s1, T, T0, R. split; [reflexivity|]. split; [auto|]. split; [auto|]. split; [auto|]. split; [auto|].
      split; [intros m [= <-]; auto|]. intros HS. destruct (W1 HS) as (_ & W3 & W4). split; eauto. }
  destruct HB as (b & s2 & T2 & T02 & R2 & E2 & P2 & A2 & ER2 & PT2 & Rb & W2).
  rewrite (bind_done _ _ _ _ _ E2).
  destruct b as [n2|].
  2:{ exists None, s2. split; [reflexivity|]. split.
      { rewrite A2, HO, ER2, Hperm, PT2. reflexivity. }
      split; [discriminate|]. intros HS Fa _. destruct (W2 HS) as ((? & ?) & _). discriminate. }
  destruct (Rb n2 eq_refl) as (En2 & Hn2).
  assert (LT2 : zlen T2 = zlen T02) by (apply perm_zlen; auto).
  assert (Larr : zlen (arr s2) = listlen).
  { rewrite Hl, HO, A2, ER2. zl. rewrite (perm_zlen _ _ Hperm). lia. }
  destruct (found_new_run_spec s2 Ss (T2 ++ R2) listlen n2) as (r & s3 & Ss3 & E3 & T3 & A3 & P3 & St3 & W3); auto.
  { rewrite P2; auto. }
  { rewrite P2; auto. }
  { zl. zpos. lia. }
  rewrite (bind_done _ _ _ _ _ E3).
  destruct r as [[]|].
  2:{ exists None, s3. split; [reflexivity|]. split.
      { rewrite A3, HO, ER2, P3, Hperm, PT2. reflexivity. }
      split; [discriminate|]. intros HS Fa _. destruct (W3 HS Fa) as (? & _). discriminate. }
  specialize (St3 eq_refl).
  assert (L3 : zlen (concat Ss3) = lo) by (rewrite (perm_zlen _ _ P3); auto).
  rewrite L3 in St3.
  assert (Hpush : push_run (mkrun lo n2 0) s3 = Done tt (with_pend (pend s3 ++ [mkrun lo n2 0]) s3)).
  { unfold push_run. pose proof (stacked_room _ _ St3) as Hr. zl.
    replace (zlen (pend s3) <? MAX_MERGE_PENDING) with true by (unfold MAX_MERGE_PENDING; lia). reflexivity. }
  rewrite (bind_done _ _ _ _ _ Hpush).
  set (s4 := with_pend (pend s3 ++ [mkrun lo n2 0]) s3).
  assert (T4 : tiles 0 (pend s4) (Ss3 ++ [T2])).
  { simpl. apply tiles_app_intro; auto. simpl. repeat split; auto; lia. }
  assert (A4 : arr s4 = concat (Ss3 ++ [T2]) ++ R2).
  { simpl. rewrite A3, concat_app3. simpl. rewrite app_nil_r. apps. }
  assert (C4 : concat (Ss3 ++ [T2]) = concat Ss3 ++ T2) by (rewrite concat_app3; simpl; rewrite app_nil_r; reflexivity).
  assert (P4 : Permutation (concat (Ss3 ++ [T2])) (O1 ++ T02)).
  { rewrite C4, P3, Hperm, PT2. reflexivity. }
  assert (LR2 : nrem - n2 = zlen R2) by (rewrite Hrem, ER2; zl; lia).
  assert (W4 : sane -> Forall asc Ss -> stb (concat Ss) O1 ->
      Forall asc (Ss3 ++ [T2]) /\ stb (concat (Ss3 ++ [T2])) (O1 ++ T02)).
  { intros HS Fa Hstb. destruct (W3 HS Fa) as (_ & F3 & F4). destruct (W2 HS) as (_ & F5 & F6).
    split; [apply Forall_app; auto|]. rewrite C4. apply stb_app; auto. eapply stable_trans; eauto. }
  destruct (nrem - n2 =? 0) eqn:C2.
  - assert (R2 = []) by (apply zlen_nil_inv; lia). subst R2. rewrite app_nil_r in *.
    exists (Some tt), s4. split; [reflexivity|].
    split; [rewrite A4, HO, ER2; exact P4|].
    split.
    + intros _. exists (Ss3 ++ [T2]). split; auto. split; auto.
      intros HS Fa. destruct (W3 HS Fa) as (_ & F3 & F4). destruct (W2 HS) as (_ & F5 & F6).
      apply Forall_app; auto.
    + intros HS Fa Hstb. split; auto. rewrite A4, HO, ER2. apply W4; auto.
  - destruct (IHfuel s4 (Ss3 ++ [T2]) R2 O (O1 ++ T02) listlen minrun (lo + n2) (nrem - n2))
      as (r & s5 & E5 & P5 & R5 & W5); auto; try lia.
    { rewrite HO, ER2. apps. }
    { rewrite C4. zl. lia. }
    { zpos. lia. }
    exists r, s5. split; auto. split; auto. split.
    + intros Hr. destruct (R5 Hr) as (Ss' & U1 & U2 & U3). exists Ss'. split; auto. split; auto.
      intros HS Fa. apply U3; auto.
      destruct (W3 HS Fa) as (_ & F3 & F4). destruct (W2 HS) as (_ & F5 & F6). apply Forall_app; auto.
    + intros HS Fa Hstb. destruct (W4 HS Fa Hstb) as (F1 & F2). apply W5; auto.
Qed.

Lemma sort_slots_spec (s : st) n reverse : n = zlen (arr s) -> pend s = [] -> 8 * n <= SSIZE_MAX ->
  exists r s', sort_slots cmp grab n reverse s = Done r s' /\ Permutation (arr s') (arr s) /\
    (sane -> r = Some tt /\ (if reverse then descending lt (arr s') else asc (arr s')) /\ stb (arr s') (arr s)).
Proof.
  intros Hn Hp Hm. unfold sort_slots. destruct (n <? 2) eqn:C0.
  { exists (Some tt), s. split; [reflexivity|]. split; auto. intros HS. split; auto.
    split; [|apply stable_refl].
    destruct (arr s) as [|x [|y l]] eqn:E; [destruct reverse; constructor| |zl; zpos; lia].
    destruct reverse; constructor; constructor. }
  set (O := if reverse then rev (arr s) else arr s).
  assert (HR : exists s1, (if reverse then reverse_slice 0 n else ret tt) s = Done tt s1 /\ arr s1 = O /\ pend s1 = []).
  { unfold O. destruct reverse.
    - destruct (reverse_slice_spec s [] (arr s) [] 0 n) as (s1 & E1 & S1 & _ & A1); auto; [rewrite app_nil_r; auto|].
      exists s1. split; auto. rewrite app_nil_r in A1. split; auto. destruct S1 as (_ & _ & _ & ->). auto.
    - exists s. auto. }
  destruct HR as (s1 & E1 & A1 & P1). rewrite (bind_done _ _ _ _ _ E1).
  assert (LO : zlen O = n) by (unfold O; destruct reverse; rewrite ?zlen_rev; auto).
  destruct (minrun_loop_spec cmp grab (Z.to_nat n) s1 n 0) as (mr & E2 & Hmr); try lia.
  unfold merge_compute_minrun. rewrite (bind_done _ _ _ _ _ E2).
  destruct (march_spec (Z.to_nat n) s1 [] O O [] n mr 0 n) as (r & s2 & E3 & P3 & R3 & W3); auto; try lia.
  { rewrite P1. simpl. auto. }
  { rewrite P1. left. auto. }
  rewrite (bind_done _ _ _ _ _ E3).
  assert (HF : exists r' s3, match r with
         | None => ret None
         | Some _ => bind npend (fun c => force_collapse cmp grab (Z.to_nat c))
         end s2 = Done r' s3 /\ Permutation (arr s3) O /\ (sane -> r' = Some tt /\ asc (arr s3) /\ stb (arr s3) O)).
  { destruct r as [[]|].
    - destruct (R3 eq_refl) as (Ss & T2 & A2 & F2).
      rewrite (bind_done npend _ s2 (zlen (pend s2)) s2 eq_refl).
      destruct (force_collapse_spec (Z.to_nat (zlen (pend s2))) s2 Ss []) as (r' & s3 & Ss3 & E4 & T4 & A4 & P4 & L4 & W4); auto.
      { rewrite app_nil_r. auto. }
      { rewrite (perm_zlen _ _ P3). lia. }
      { zpos. lia. }
      rewrite app_nil_r in A4.
      exists r', s3. split; auto. split; [rewrite A4, P4, <- A2; auto|].
      intros HS. destruct (W4 HS) as (-> & F4 & S4); [apply F2; auto|].
      destruct (W3 HS) as (_ & S3); [constructor|apply stable_refl|].
      split; auto. specialize (L4 eq_refl). split.
      + rewrite A4. destruct Ss3 as [|S0 [|]]; [constructor| |zl; zpos; lia].
        simpl. rewrite app_nil_r. inversion F4; auto.
      + rewrite A4. eapply stable_trans; [exact S4|]. rewrite <- A2. auto.
    - exists None, s2. split; [reflexivity|]. split; auto. intros HS.
      destruct (W3 HS) as (? & _); [constructor|apply stable_refl|discriminate]. }
  destruct HF as (r' & s3 & E4 & P4 & W4). rewrite (bind_done _ _ _ _ _ E4).
  assert (L3 : zlen (arr s3) = n) by (rewrite (perm_zlen _ _ P4); auto).
  unfold O in *. destruct reverse.
  - destruct (reverse_slice_spec s3 [] (arr s3) [] 0 n) as (s5 & E5 & _ & _ & A5); auto; [rewrite app_nil_r; auto|].
    rewrite app_nil_r in A5. simpl in A5.
    rewrite (bind_done _ _ _ _ _ E5). exists r', s5. split; [reflexivity|].
    split. { rewrite A5, <- Permutation_rev, P4, <- Permutation_rev. reflexivity. }
    intros HS. destruct (W4 HS) as (-> & Ha & Hst). split; auto. rewrite A5. split; [apply asc_rev_desc; auto|].
    apply stable_rev. rewrite rev_involutive. auto.
  - rewrite (bind_done _ _ _ _ _ (eq_refl : ret tt s3 = Done tt s3)). exists r', s3. split; [reflexivity|]. auto.
Qed.
End Main.

(** ** The entry points *)

Theorem plain_sort_safe {V} (cmp : nat -> V -> V -> option bool) grab l reverse :
  8 * zlen l <= SSIZE_MAX ->
  exists l', Permutation l' l /\
    (CPython_sort_plain cmp grab l reverse = SortOk l' \/ CPython_sort_plain cmp grab l reverse = SortErr l').
Proof.
  intros H. unfold CPython_sort_plain.
  destruct (sort_slots_spec cmp grab (fun _ _ => false) (merge_init l false) (zlen l) reverse) as (r & s' & E & P & _); auto.
  rewrite E. exists (arr s'). split; auto. destruct r; auto.
Qed.

Theorem plain_sort_correct {V} (cmp : nat -> V -> V -> option bool) lt grab l reverse :
  8 * zlen l <= SSIZE_MAX -> sane cmp grab lt ->
  exists l', CPython_sort_plain cmp grab l reverse = SortOk l' /\ Permutation l' l /\
    (if reverse then descending lt l' else ascending lt l') /\ stable lt l' l.
Proof.
  intros H HS. unfold CPython_sort_plain.
  destruct (sort_slots_spec cmp grab lt (merge_init l false) (zlen l) reverse) as (r & s' & E & P & W); auto.
  destruct (W HS) as (-> & W1 & W2). rewrite E. exists (arr s'). auto.
Qed.

Lemma compute_keys_length {V K} (keyf : nat -> V -> option K) l : forall i ks,
  compute_keys keyf i l = Some ks -> length ks = length l.
Proof.
  induction l; simpl; intros i ks H; [injection H as <-; auto|].
  destruct (keyf i a); [|discriminate]. destruct (compute_keys keyf (S i) l) eqn:E; [|discriminate].
  injection H as <-. simpl. f_equal. eauto.
Qed.
Lemma map_snd_combine {K V} (ks : list K) (l : list V) : length ks = length l -> map snd (combine ks l) = l.
Proof. revert l. induction ks; destruct l; simpl; intros; try discriminate; auto. f_equal. auto. Qed.
Lemma zlen_combine {K V} (ks : list K) (l : list V) : length ks = length l -> zlen (combine ks l) = zlen l.
Proof. intros H. unfold zlen. rewrite combine_length. lia. Qed.

Theorem key_sort_safe {V K} (keyf : nat -> V -> option K) cmp grab l reverse :
  8 * zlen l <= SSIZE_MAX ->
  exists l', Permutation l' l /\
    (CPython_sort_key keyf cmp grab l reverse = SortOk l' \/ CPython_sort_key keyf cmp grab l reverse = SortErr l').
Proof.
  intros H. unfold CPython_sort_key.
  destruct (_ && _); [exists l; auto|].
  destruct (compute_keys keyf 0 l) as [ks|] eqn:Ek; [|exists l; auto].
  apply compute_keys_length in Ek.
  destruct (sort_slots_spec (fun t x y => cmp t (fst x) (fst y)) grab (fun _ _ => false)
     (merge_init (combine ks l) true) (zlen l) reverse) as (r & s' & E & P & _); auto.
  { simpl. rewrite zlen_combine; auto. }
  rewrite E. exists (map snd (arr s')). split.
  - rewrite (Permutation_map snd P). simpl. rewrite map_snd_combine; auto.
  - destruct r; auto.
Qed.

(** For a key function that always answers [key v] and a weak order on keys. *)
Lemma compute_keys_fun {V K} (keyf : nat -> V -> option K) (key : V -> K) l :
  (forall i v, keyf i v = Some (key v)) -> forall i, compute_keys keyf i l = Some (map key l).
Proof. intros H. induction l; intros i; simpl; auto. rewrite H, IHl. reflexivity. Qed.

Lemma combine_map {V K} (key : V -> K) l : combine (map key l) l = map (fun v => (key v, v)) l.
Proof. induction l; simpl; congruence. Qed.

Lemma sane_key {V K} (cmp : nat -> K -> K -> option bool) grab (lt : K -> K -> bool) : sane cmp grab lt ->
  sane (A := K * V) (fun t x y => cmp t (fst x) (fst y)) grab (fun x y => lt (fst x) (fst y)).
Proof.
  intros ((H1 & H2) & H3 & H4). split; [split|split]; auto.
  intros x y z. apply H2.
Qed.

Lemma filter_map_key {V K} (lt : K -> K -> bool) (key : V -> K) k v l :
  filter (equiv (fun x y : K * V => lt (fst x) (fst y)) (k, v)) (map (fun v => (key v, v)) l)
  = map (fun v => (key v, v)) (filter (fun w => equiv lt k (key w)) l).
Proof.
  induction l; [reflexivity|]. cbn [map filter].
  change (equiv (fun x y : K * V => lt (fst x) (fst y)) (k, v) (key a, a)) with (equiv lt k (key a)).
  destruct (equiv lt k (key a)); cbn [map]; rewrite IHl; reflexivity.
Qed.

Lemma sorted_map {V W} (R : W -> W -> Prop) (f : V -> W) l :
  StronglySorted R (map f l) -> StronglySorted (fun x y => R (f x) (f y)) l.
Proof.
  induction l; simpl; intros H; [constructor|]. inversion H as [|? ? H1 H2]; subst. constructor; auto.
  rewrite Forall_forall in *. intros x Hx. apply H2. apply in_map. auto.
Qed.

Theorem key_sort_correct {V K} (keyf : nat -> V -> option K) (key : V -> K) cmp lt grab l reverse :
  8 * zlen l <= SSIZE_MAX -> (forall i v, keyf i v = Some (key v)) -> sane cmp grab lt ->
  exists l', CPython_sort_key keyf cmp grab l reverse = SortOk l' /\ Permutation l' l /\
    (if reverse then descending (fun x y => lt (key x) (key y)) l'
     else ascending (fun x y => lt (key x) (key y)) l') /\
    stable (fun x y => lt (key x) (key y)) l' l.
Proof.
  intros H Hk HS. unfold CPython_sort_key. pose proof HS as (_ & _ & Hg). rewrite Hg, andb_false_r.
  rewrite (compute_keys_fun keyf key l Hk), combine_map.
  destruct (sort_slots_spec (fun t x y => cmp t (fst x) (fst y)) grab (fun x y => lt (fst x) (fst y))
     (merge_init (map (fun v => (key v, v)) l) true) (zlen l) reverse) as (r & s' & E & P & W); auto.
  { simpl. unfold zlen. rewrite map_length. reflexivity. }
  destruct (W (sane_key _ _ _ HS)) as (-> & W1 & W2). rewrite E.
  simpl in P, W2. assert (Q := Permutation_map snd P). rewrite map_map in Q. simpl in Q. rewrite map_id in Q.
  assert (EA : arr s' = map (fun v => (key v, v)) (map snd (arr s'))).
  { assert (F : forall p, In p (arr s') -> fst p = key (snd p)).
    { intros p Hp. apply (Permutation_in p P) in Hp. apply in_map_iff in Hp as (v & <- & _). reflexivity. }
    rewrite map_map. symmetry. rewrite <- (map_id (arr s')) at 2. apply map_ext_in.
    intros (k, v) Hin. rewrite <- (F _ Hin). reflexivity. }
  set (l' := map snd (arr s')) in *. exists l'. split; auto. split; auto.
  rewrite EA in W1, W2. split.
  - destruct reverse; unfold ascending, descending in *; apply (sorted_map _ (fun v => (key v, v))) in W1; exact W1.
  - intros v. specialize (W2 (key v, v)).
    rewrite !filter_map_key in W2. apply (f_equal (map snd)) in W2. rewrite !map_map in W2. simpl in W2.
    rewrite !map_id in W2. exact W2.
Qed.
