(** The invariant is kept by placing, shifting down and renaming. *)
From Coq Require Import ZArith List Bool Lia.
From Verif Require Import Base HashModel HashCoreProofs HashInvProofs.
Import ListNotations.
Local Open Scope Z_scope.
Local Arguments Z.pow : simpl never.
Local Arguments Z.mul : simpl never.
Local Arguments Z.add : simpl never.
Local Arguments Z.sub : simpl never.
Local Arguments Z.modulo : simpl never.
Local Arguments Z.div : simpl never.

Section Step.
Context {V : Type}.
Variable hash : Z -> Z.
Hypothesis hash_range : forall k, 0 <= hash k < 2 ^ 64.
Notation Inv := (@Inv V hash).
Definition below (c i : Z) : Prop := 0 <= i < c.

Lemma mod_plus : forall N x y k, 0 < N -> x mod N = y mod N -> (x + k) mod N = (y + k) mod N.
Proof. intros N x y k HN E. rewrite <- (Zplus_mod_idemp_l x), E, Zplus_mod_idemp_l. reflexivity. Qed.

(** Every position is [p + k] for an offset [k]. *)
Lemma offset : forall N p x, 0 < N -> exists k, 0 <= k < N /\ x mod N = (p + k) mod N.
Proof.
  intros N p x HN. exists ((x - p) mod N). split; [apply Z.mod_pos_bound; lia|].
  rewrite Zplus_mod_idemp_r. f_equal; lia.
Qed.
Lemma off_inj : forall N p a b, 0 <= a < N -> 0 <= b < N -> (p + a) mod N = (p + b) mod N -> a = b.
Proof.
  intros N p a b Ha Hb E.
  assert (Q : (a - b) mod N = 0).
  { replace (a - b) with ((p + a) - (p + b)) by lia. rewrite Zminus_mod, E, Z.sub_diag. apply Z.mod_0_l; lia. }
  assert (Q2 : (b - a) mod N = 0).
  { replace (b - a) with ((p + b) - (p + a)) by lia. rewrite Zminus_mod, E, Z.sub_diag. apply Z.mod_0_l; lia. }
  destruct (Z_lt_le_dec a b) as [L|L].
  - rewrite Z.mod_small in Q2 by lia. lia.
  - rewrite Z.mod_small in Q by lia. lia.
Qed.

Section Place.
Variables (vs : list (Z * V)) (bs : list bucket) (s c : Z).
Hypothesis I : Inv vs bs s c (below c).
Variables (key : Z) (v : V) (e : Z).
Hypothesis new : nthv vs c = Some (key, v).
Hypothesis room : c + 1 < size_of bs /\ c + 1 <= limit.
Hypothesis He : 1 <= e <= c + 1.
Hypothesis Hge : daf (bk bs (home hash s key + e - 1)) <= 256 * e + fp hash key.
Hypothesis Hprev : e >= 2 -> daf (bk bs (home hash s key + e - 2)) >= 256 * (e - 1) + fp hash key.

Lemma place_inv : exists bs',
  place (fuel bs) bs (Bk (256 * e + fp hash key) c) (pos hash bs s key e) = Ok bs' /\ Inv vs bs' s (c + 1) (below (c + 1)).
Proof.
  set (p := pos hash bs s key e).
  pose proof (N_bounds hash vs bs s c _ I) as NB.
  pose proof (pos_range hash vs bs s c _ I key e) as PR. fold p in PR.
  pose proof (fp_range hash key) as F. pose proof (i_c _ _ _ _ _ _ I) as C.
  assert (PM : p mod size_of bs = (home hash s key + e - 1) mod size_of bs) by (unfold p, pos; apply Z.mod_mod; lia).
  destruct (free_from hash vs bs s c _ I p) as (e0 & He0 & Ee0).
  destruct (least (fun i => daf (bk bs (p + i)) =? 0) (Z.to_nat (size_of bs))) as (j & Hj & Fj & Lj).
  { exists e0. split; [lia|]. apply Z.eqb_eq; exact Ee0. }
  apply Z.eqb_eq in Fj.
  assert (Lj' : forall i, 0 <= i < Z.of_nat j -> daf (bk bs (p + i)) <> 0) by (intros i Hi; apply Z.eqb_neq, Lj; exact Hi).
  clear Lj. set (J := Z.of_nat j) in *.
  destruct (place_ok j (fuel bs) bs (Bk (256 * e + fp hash key) c) p PR ltac:(lia) Lj' Fj ltac:(unfold J in *; lia)
              ltac:(unfold fuel; unfold size_of in *; lia)) as (bs' & E1 & E2 & E3 & E4 & E5).
  fold J in E4, E5. exists bs'. split; [exact E1|].
  assert (JN : 0 <= J < size_of bs) by (unfold J in *; lia).
  assert (Bp : daf (bk bs p) <= 256 * e + fp hash key) by (rewrite (bk_cong bs _ _ PM); exact Hge).
  (* contents by offset *)
  assert (CUT : forall x, exists k, 0 <= k < size_of bs /\ x mod size_of bs = (p + k) mod size_of bs /\
     ((k = 0 /\ bk bs' x = Bk (256 * e + fp hash key) c) \/
      (1 <= k <= J /\ bk bs' x = up (bk bs (p + k - 1)) /\ daf (bk bs (p + k - 1)) <> 0 /\ daf (up (bk bs (p + k - 1))) = daf (bk bs (p + k - 1)) + 256) \/
      (J < k /\ bk bs' x = bk bs (p + k)))).
  { intros x. destruct (offset (size_of bs) p x ltac:(lia)) as (k & Hk & Ek). exists k. split; [exact Hk|]. split; [exact Ek|].
    assert (Bx : bk bs' x = bk bs' (p + k)) by (apply bk_cong; rewrite E2; exact Ek). rewrite Bx.
    destruct (Z.eq_dec k 0) as [->|Nk]; [left; split; [reflexivity|]; replace (p + 0) with p by lia; exact E3|].
    destruct (Z_le_gt_dec k J) as [L|G]; [right; left|right; right].
    - split; [lia|]. split; [apply E4; lia|]. assert (O : daf (bk bs (p + k - 1)) <> 0) by (replace (p + k - 1) with (p + (k - 1)) by lia; apply Lj'; lia).
      split; [exact O|].
      pose proof (daf_le hash vs bs s c _ I (p + k - 1)) as Le. pose proof (daf_nonneg hash vs bs s c _ I (p + k - 1)).
      cbn [up daf]. unfold dist_inc, wrap32, dist_step. unfold limit in room. apply Z.mod_small. lia.
    - split; [lia|]. apply E5; lia. }
  constructor.
  - apply (i_s _ _ _ _ _ _ I).
  - rewrite E2. apply (i_N _ _ _ _ _ _ I).
  - rewrite E2. unfold nthv in new. destruct (c <? 0) eqn:Ec; [discriminate|].
    assert (nth_error vs (Z.to_nat c) <> None) by congruence. apply nth_error_Some in H. lia.
  - unfold below; intros i Hi; lia.
  - apply (i_keys _ _ _ _ _ _ I).
  - (* loc *)
    intros x. destruct (CUT x) as (k & Hk & Ek & Ck).
    assert (Sx : bk bs' (x + 1) = bk bs' (p + (k + 1))).
    { apply bk_cong. rewrite E2. replace (p + (k + 1)) with (p + k + 1) by lia. apply mod_plus; [lia|exact Ek]. }
    rewrite Sx. destruct (Z.eq_dec (k + 1) (size_of bs)) as [W|W].
    + (* x + 1 is p *)
      assert (Q : bk bs' (p + (k + 1)) = Bk (256 * e + fp hash key) c).
      { rewrite <- E3. apply bk_cong. rewrite E2, W. replace (p + size_of bs) with (p + 1 * size_of bs) by lia. apply Z_mod_plus_full. }
      rewrite Q. cbn [daf]. destruct (Z_le_gt_dec e 1) as [L|G]; [left; lia|]. right.
      assert (PP : bk bs (p + k) = bk bs (home hash s key + e - 2)).
      { apply bk_cong. replace (p + k) with (p + -1 + 1 * size_of bs) by lia. rewrite Z_mod_plus_full.
        replace (home hash s key + e - 2) with (home hash s key + e - 1 + -1) by lia. apply mod_plus; [lia|exact PM]. }
      specialize (Hprev ltac:(lia)).
      destruct Ck as [(K0 & _)|[(K1 & Bx & _)|(K1 & Bx)]]; [lia| |rewrite Bx, PP; lia].
      exfalso. assert (k = J) by lia. subst k. rewrite PP in Fj. lia.
    + destruct (CUT (p + (k + 1))) as (k' & Hk' & Ek' & Ck').
      apply off_inj in Ek'; [|lia|lia]. subst k'.
      destruct Ck' as [(K0 & _)|[(K1' & Bx' & O' & U')|(K1' & Bx')]]; [lia| |].
      * rewrite Bx', U'. replace (p + (k + 1) - 1) with (p + k) in * by lia. right.
        destruct Ck as [(K0 & Bx)|[(K1 & Bx & O & U)|(K1 & Bx)]]; [| |lia]; rewrite Bx.
        -- subst k. replace (p + 0) with p by lia. cbn [daf]. lia.
        -- rewrite U. pose proof (i_loc _ _ _ _ _ _ I (p + k - 1)) as L.
           replace (p + k - 1 + 1) with (p + k) in L by lia. pose proof (daf_pos hash vs bs s c _ I _ O). lia.
      * rewrite Bx'. pose proof (i_loc _ _ _ _ _ _ I (p + k)) as L. replace (p + k + 1) with (p + (k + 1)) in L by lia.
        destruct (Z.eq_dec k J) as [->|Nk]; [left; lia|].
        destruct Ck as [(K0 & Bx)|[(K1 & Bx & O & U)|(K1 & Bx)]]; [lia|lia|]. rewrite Bx. exact L.
  - (* empty *)
    intros x. destruct (CUT x) as (k & Hk & Ek & [(K0 & Bx)|[(K1 & Bx & O & U)|(K1 & Bx)]]); rewrite Bx; cbn [daf vidx].
    + lia.
    + intros Z0. pose proof (daf_nonneg hash vs bs s c _ I (p + k - 1)). lia.
    + apply (i_emp _ _ _ _ _ _ I).
  - (* entries *)
    intros x Dx. destruct (CUT x) as (k & Hk & Ek & [(K0 & Bx)|[(K1 & Bx & O & U)|(K1 & Bx)]]); rewrite Bx in *; rewrite E2.
    + exists key, v, e. cbn [vidx daf]. split; [exact new|]. split; [unfold below; lia|]. split; [lia|]. split; [reflexivity|].
      rewrite Ek. subst k. replace (p + 0) with p by lia. symmetry; exact PM.
    + destruct (i_ent _ _ _ _ _ _ I _ O) as (k0 & v0 & D & En & L & HD & Ed & M).
      exists k0, v0, (D + 1). cbn [up vidx]. split; [exact En|]. split; [unfold below in *; lia|]. split; [lia|].
      fold (up (bk bs (p + k - 1))). split; [rewrite U; lia|].
      rewrite Ek. replace (home hash s k0 + (D + 1) - 1) with (home hash s k0 + D - 1 + 1) by lia.
      replace (p + k) with (p + k - 1 + 1) by lia. apply mod_plus; [lia|exact M].
    + destruct (i_ent _ _ _ _ _ _ I _ Dx) as (k0 & v0 & D & En & L & HD & Ed & M).
      exists k0, v0, D. split; [exact En|]. split; [unfold below in *; lia|]. split; [lia|]. split; [exact Ed|].
      rewrite Ek; exact M.
  - (* unique *)
    assert (LV : forall x, daf (bk bs x) <> 0 -> 0 <= vidx (bk bs x) < c).
    { intros x Dx. destruct (i_ent _ _ _ _ _ _ I _ Dx) as (? & ? & ? & _ & L & _). exact L. }
    intros x y Dx Dy Exy. rewrite E2.
    destruct (CUT x) as (k & Hk & Ek & Ck). destruct (CUT y) as (h & Hh & Eh & Ch).
    rewrite Ek, Eh. assert (Q : k = h); [|subst; reflexivity].
    destruct Ck as [(K0 & Bx)|[(K1 & Bx & O & U)|(K1 & Bx)]]; destruct Ch as [(H0 & By)|[(H1 & By & P & W)|(H1 & By)]];
      rewrite Bx in *; rewrite By in *; cbn [up vidx] in Exy.
    + lia.
    + pose proof (LV _ P). lia.
    + pose proof (LV _ Dy). lia.
    + pose proof (LV _ O). lia.
    + assert (M := i_uniq _ _ _ _ _ _ I _ _ O P Exy).
      replace (p + k - 1) with (p + (k - 1)) in M by lia. replace (p + h - 1) with (p + (h - 1)) in M by lia.
      apply off_inj in M; lia.
    + assert (M := i_uniq _ _ _ _ _ _ I _ _ O Dy Exy).
      replace (p + k - 1) with (p + (k - 1)) in M by lia. apply off_inj in M; lia.
    + pose proof (LV _ Dx). lia.
    + assert (M := i_uniq _ _ _ _ _ _ I _ _ Dx P Exy).
      replace (p + h - 1) with (p + (h - 1)) in M by lia. apply off_inj in M; lia.
    + assert (M := i_uniq _ _ _ _ _ _ I _ _ Dx Dy Exy). apply off_inj in M; lia.
  - (* all *)
    intros i Hi. unfold below in Hi. destruct (Z.eq_dec i c) as [->|Ni].
    + exists p. rewrite E3. cbn [daf vidx]. split; [lia|reflexivity].
    + destruct (i_all _ _ _ _ _ _ I i) as (x & Dx & Vx); [unfold below; lia|].
      destruct (offset (size_of bs) p x ltac:(lia)) as (k & Hk & Ek).
      rewrite (bk_cong bs _ _ Ek) in Dx, Vx.
      destruct (Z_lt_le_dec k J) as [L|L].
      * exists (p + (k + 1)). destruct (CUT (p + (k + 1))) as (h & Hh & Eh & Ch).
        apply off_inj in Eh; [|lia|lia]. subst h.
        destruct Ch as [(H0 & By)|[(H1 & By & P & W)|(H1 & By)]]; [lia| |lia].
        replace (p + (k + 1) - 1) with (p + k) in * by lia. rewrite By. split; [|exact Vx].
        rewrite W. pose proof (daf_nonneg hash vs bs s c _ I (p + k)). lia.
      * assert (k <> J) by (intros ->; contradiction).
        exists (p + k). rewrite E5 by lia. split; assumption.
Qed.
End Place.

(** More values behind: nothing changes. *)
Lemma extend_inv : forall vs bs s c key v, Inv vs bs s c (below c) -> c = Z.of_nat (length vs) ->
  (forall i w, nthv vs i <> Some (key, w)) -> Inv (vs ++ [(key, v)]) bs s c (below c).
Proof.
  intros vs bs s c key v I Ec Ab.
  assert (NT : forall i k w, nthv (vs ++ [(key, v)]) i = Some (k, w) -> nthv vs i = Some (k, w) \/ (i = c /\ k = key /\ w = v)).
  { intros i k w. unfold nthv. destruct (i <? 0) eqn:E; [discriminate|]. apply Z.ltb_ge in E. intros H.
    destruct (Z_lt_le_dec i c) as [L|L].
    - rewrite nth_error_app1 in H by lia. left; exact H.
    - rewrite nth_error_app2 in H by lia. destruct (Z.to_nat i - length vs)%nat as [|m] eqn:M; cbn in H.
      + injection H as -> ->. right. split; [lia|]. split; reflexivity.
      + destruct m; discriminate. }
  assert (TN : forall i k w, nthv vs i = Some (k, w) -> nthv (vs ++ [(key, v)]) i = Some (k, w)).
  { intros i k w. unfold nthv. destruct (i <? 0); [discriminate|]. intros H. rewrite nth_error_app1; [exact H|].
    apply nth_error_Some; congruence. }
  constructor.
  - apply (i_s _ _ _ _ _ _ I).
  - apply (i_N _ _ _ _ _ _ I).
  - pose proof (i_c _ _ _ _ _ _ I). rewrite app_length. lia.
  - apply (i_live _ _ _ _ _ _ I).
  - intros i j k w1 w2 H1 H2. apply NT in H1. apply NT in H2.
    destruct H1 as [H1|(A1 & B1 & _)]; destruct H2 as [H2|(A2 & B2 & _)].
    + eapply (i_keys _ _ _ _ _ _ I); eassumption.
    + exfalso. subst k. eapply Ab; exact H1.
    + exfalso. subst k. eapply Ab; exact H2.
    + lia.
  - apply (i_loc _ _ _ _ _ _ I).
  - apply (i_emp _ _ _ _ _ _ I).
  - intros x Dx. destruct (i_ent _ _ _ _ _ _ I x Dx) as (k & w & D & H & R). exists k, w, D. split; [apply TN; exact H|exact R].
  - apply (i_uniq _ _ _ _ _ _ I).
  - apply (i_all _ _ _ _ _ _ I).
Qed.

(** Replacing the values (not the keys) of the list. *)
Lemma values_inv : forall vs vs' bs s c live, Inv vs bs s c live -> map fst vs' = map fst vs -> Inv vs' bs s c live.
Proof.
  intros vs vs' bs s c live I E.
  assert (LE : length vs' = length vs) by (rewrite <- (map_length fst vs'), E, map_length; reflexivity).
  assert (K : forall a b : list (Z * V), map fst a = map fst b -> forall i k w, nthv a i = Some (k, w) -> exists u, nthv b i = Some (k, u)).
  { intros a b Eab i k w. unfold nthv. destruct (i <? 0); [discriminate|]. intros H.
    assert (H' : nth_error (map fst b) (Z.to_nat i) = Some k) by (rewrite <- Eab, nth_error_map, H; reflexivity).
    rewrite nth_error_map in H'. destruct (nth_error b (Z.to_nat i)) as [[k' u]|]; [|discriminate].
    injection H' as ->. eexists; reflexivity. }
  constructor.
  - apply (i_s _ _ _ _ _ _ I).
  - apply (i_N _ _ _ _ _ _ I).
  - rewrite LE. apply (i_c _ _ _ _ _ _ I).
  - apply (i_live _ _ _ _ _ _ I).
  - intros i j k w1 w2 H1 H2. apply (K _ vs E) in H1. apply (K _ vs E) in H2. destruct H1 as (u1 & H1). destruct H2 as (u2 & H2).
    eapply (i_keys _ _ _ _ _ _ I); eassumption.
  - apply (i_loc _ _ _ _ _ _ I).
  - apply (i_emp _ _ _ _ _ _ I).
  - intros x Dx. destruct (i_ent _ _ _ _ _ _ I x Dx) as (k & w & D & H & R).
    destruct (K vs vs' (eq_sym E) _ _ _ H) as (u & Hu). exists k, u, D. split; [exact Hu|exact R].
  - apply (i_uniq _ _ _ _ _ _ I).
  - apply (i_all _ _ _ _ _ _ I).
Qed.

(** Buckets that are all empty. *)
Lemma empty_inv : forall vs bs s, 32 <= s <= 62 -> size_of bs = 2 ^ (64 - s) -> (forall x, bk bs x = Bk 0 0) ->
  (forall i j k v w, nthv vs i = Some (k, v) -> nthv vs j = Some (k, w) -> i = j) -> Inv vs bs s 0 (below 0).
Proof.
  intros vs bs s Hs HN Hb Hk. constructor; auto; unfold below; try (intros; lia).
  - rewrite HN. assert (0 < 2 ^ (64 - s)) by (apply Z.pow_pos_nonneg; lia). unfold limit. lia.
  - intros x. rewrite Hb. left; cbn; lia.
  - intros x _. rewrite Hb. reflexivity.
  - intros x Dx. rewrite Hb in Dx. cbn in Dx. congruence.
  - intros x y Dx. rewrite Hb in Dx. cbn in Dx. congruence.
Qed.

Section Erase.
Variables (vs : list (Z * V)) (bs : list bucket) (s c : Z).
Hypothesis I : Inv vs bs s c (below c).
Variables (key r D : Z).
Hypothesis St : stored hash vs bs s c (below c) key r D.

Lemma shift_down_inv : exists bs',
  shift_down (fuel bs) bs (pos hash bs s key D) (next bs (pos hash bs s key D)) = Ok bs' /\
  size_of bs' = size_of bs /\ Inv vs bs' s c (fun i => below c i /\ i <> r).
Proof.
  set (p := pos hash bs s key D).
  pose proof (N_bounds hash vs bs s c _ I) as NB.
  pose proof (pos_range hash vs bs s c _ I key D) as PR. fold p in PR.
  pose proof (i_c _ _ _ _ _ _ I) as C. pose proof (fp_range hash key) as F.
  destruct St as (Lr & (v & Ev) & HD & Ed & Vr).
  rewrite <- (bk_pos hash vs bs s c _ I) in Ed, Vr. fold p in Ed, Vr.
  destruct (free_from hash vs bs s c _ I (p + 1)) as (e0 & He0 & Ee0).
  destruct (least (fun i => daf (bk bs (p + 1 + i)) <? 512) (Z.to_nat (size_of bs - 1))) as (j & Hj & Fj & Lj).
  { exists e0. split; [|apply Z.ltb_lt; lia]. split; [lia|]. destruct (Z.eq_dec e0 (size_of bs - 1)) as [->|]; [|lia]. exfalso.
    assert (Q : bk bs (p + 1 + (size_of bs - 1)) = bk bs p) by (apply bk_cong; replace (p + 1 + (size_of bs - 1)) with (p + 1 * size_of bs) by lia; apply Z_mod_plus_full).
    rewrite Q in Ee0. lia. }
  apply Z.ltb_lt in Fj.
  assert (Lj' : forall i, 0 <= i < Z.of_nat j -> 512 <= daf (bk bs (p + 1 + i))) by (intros i Hi; specialize (Lj i Hi); cbv beta in Lj; apply Z.ltb_ge in Lj; lia).
  clear Lj. set (J := Z.of_nat j) in *.
  destruct (shift_down_ok j (fuel bs) bs p PR ltac:(lia) Lj' Fj ltac:(unfold J in *; lia) ltac:(unfold fuel; unfold size_of in *; lia))
    as (bs' & E1 & E2 & E3 & E4 & E5).
  fold J in E3, E4, E5. exists bs'. split; [exact E1|]. split; [exact E2|].
  assert (JN : 0 <= J < size_of bs - 1) by (unfold J in *; lia).
  assert (CUT : forall x, exists k, 0 <= k < size_of bs /\ x mod size_of bs = (p + k) mod size_of bs /\
     ((k = J /\ bk bs' x = Bk 0 0) \/
      (k < J /\ bk bs' x = down (bk bs (p + k + 1)) /\ 512 <= daf (bk bs (p + k + 1)) /\ daf (down (bk bs (p + k + 1))) = daf (bk bs (p + k + 1)) - 256) \/
      (J < k /\ bk bs' x = bk bs (p + k)))).
  { intros x. destruct (offset (size_of bs) p x ltac:(lia)) as (k & Hk & Ek). exists k. split; [exact Hk|]. split; [exact Ek|].
    assert (Bx : bk bs' x = bk bs' (p + k)) by (apply bk_cong; rewrite E2; exact Ek). rewrite Bx.
    destruct (Z.lt_trichotomy k J) as [L|[->|G]]; [right; left|left|right; right].
    - split; [exact L|]. split; [apply E3; lia|]. assert (O : 512 <= daf (bk bs (p + k + 1))) by (replace (p + k + 1) with (p + 1 + k) by lia; apply Lj'; lia).
      split; [exact O|]. pose proof (daf_le hash vs bs s c _ I (p + k + 1)) as Le.
      cbn [down daf]. unfold dist_dec, wrap32, dist_step. unfold limit in C. apply Z.mod_small. lia.
    - split; [reflexivity|exact E4].
    - split; [exact G|]. apply E5; lia. }
  constructor.
  - apply (i_s _ _ _ _ _ _ I).
  - rewrite E2. apply (i_N _ _ _ _ _ _ I).
  - rewrite E2. exact C.
  - intros i (Hi & _). exact Hi.
  - apply (i_keys _ _ _ _ _ _ I).
  - (* loc *)
    intros x. destruct (CUT x) as (k & Hk & Ek & Ck).
    assert (Sx : bk bs' (x + 1) = bk bs' (p + (k + 1))).
    { apply bk_cong. rewrite E2. replace (p + (k + 1)) with (p + k + 1) by lia. apply mod_plus; [lia|exact Ek]. }
    rewrite Sx. destruct (CUT (p + (k + 1))) as (k' & Hk' & Ek' & Ck').
    destruct (Z.eq_dec (k + 1) (size_of bs)) as [W|W].
    + (* x + 1 is p *)
      assert (k' = 0). { apply (off_inj (size_of bs) p); [lia|lia|]. rewrite <- Ek', W. replace (p + size_of bs) with (p + 0 + 1 * size_of bs) by lia. apply Z_mod_plus_full. }
      subst k'. destruct Ck as [(K0 & Bx)|[(K1 & Bx & O & U)|(K1 & Bx)]]; [lia|lia|].
      pose proof (i_loc _ _ _ _ _ _ I (p + k)) as L.
      assert (Q : bk bs (p + k + 1) = bk bs p) by (apply bk_cong; replace (p + k + 1) with (p + 1 * size_of bs) by lia; apply Z_mod_plus_full).
      rewrite Q in L. rewrite Bx.
      destruct Ck' as [(K0' & Bx')|[(K1' & Bx' & O' & U')|(K1' & Bx')]]; [| |lia]; rewrite Bx'; [left; cbn; lia|].
      rewrite U'. pose proof (i_loc _ _ _ _ _ _ I p) as L2. replace (p + 0 + 1) with (p + 1) in * by lia. lia.
    + apply off_inj in Ek'; [|lia|lia]. subst k'.
      pose proof (i_loc _ _ _ _ _ _ I (p + k)) as L. pose proof (i_loc _ _ _ _ _ _ I (p + k + 1)) as L2.
      destruct Ck' as [(K0' & Bx')|[(K1' & Bx' & O' & U')|(K1' & Bx')]]; rewrite Bx'.
      * left; cbn; lia.
      * rewrite U'. replace (p + (k + 1) + 1) with (p + k + 1 + 1) in * by lia.
        destruct Ck as [(K0 & Bx)|[(K1 & Bx & O & U)|(K1 & Bx)]]; [lia| |lia]. rewrite Bx, U. lia.
      * replace (p + (k + 1)) with (p + k + 1) by lia.
        destruct Ck as [(K0 & Bx)|[(K1 & Bx & O & U)|(K1 & Bx)]]; [|lia|rewrite Bx; exact L].
        subst k. left. replace (p + J + 1) with (p + 1 + J) by lia. exact Fj.
  - (* empty *)
    intros x. destruct (CUT x) as (k & Hk & Ek & [(K0 & Bx)|[(K1 & Bx & O & U)|(K1 & Bx)]]); rewrite Bx.
    + reflexivity.
    + rewrite U. lia.
    + apply (i_emp _ _ _ _ _ _ I).
  - (* entries *)
    assert (NR : forall k, 0 < k < size_of bs -> daf (bk bs (p + k)) <> 0 -> vidx (bk bs (p + k)) <> r).
    { intros k Hk Dk Vk. assert (M := i_uniq _ _ _ _ _ _ I (p + k) p Dk ltac:(lia) ltac:(lia)).
      replace p with (p + 0) in M at 2 by lia. apply off_inj in M; lia. }
    intros x Dx. destruct (CUT x) as (k & Hk & Ek & [(K0 & Bx)|[(K1 & Bx & O & U)|(K1 & Bx)]]); rewrite Bx in *; rewrite E2.
    + cbn in Dx; congruence.
    + destruct (i_ent _ _ _ _ _ _ I (p + k + 1) ltac:(lia)) as (k0 & v0 & D0 & En & L & HD0 & Ed0 & M).
      pose proof (fp_range hash k0) as F0.
      exists k0, v0, (D0 - 1). cbn [down vidx]. split; [exact En|]. split.
      { split; [exact L|]. replace (p + k + 1) with (p + (k + 1)) in * by lia. apply NR; lia. }
      split; [lia|]. fold (down (bk bs (p + k + 1))). split; [rewrite U; lia|].
      rewrite Ek. replace (home hash s k0 + (D0 - 1) - 1) with (home hash s k0 + D0 - 1 + -1) by lia.
      replace (p + k) with (p + k + 1 + -1) by lia. apply mod_plus; [lia|exact M].
    + destruct (i_ent _ _ _ _ _ _ I _ Dx) as (k0 & v0 & D0 & En & L & HD0 & Ed0 & M).
      exists k0, v0, D0. split; [exact En|]. split; [split; [exact L|apply NR; [lia|exact Dx]]|].
      split; [lia|]. split; [exact Ed0|]. rewrite Ek; exact M.
  - (* unique *)
    intros x y Dx Dy Exy. rewrite E2.
    destruct (CUT x) as (k & Hk & Ek & Ck). destruct (CUT y) as (h & Hh & Eh & Ch).
    rewrite Ek, Eh. assert (Q : k = h); [|subst; reflexivity].
    destruct Ck as [(K0 & Bx)|[(K1 & Bx & O & U)|(K1 & Bx)]]; destruct Ch as [(H0 & By)|[(H1 & By & P & W)|(H1 & By)]];
      rewrite Bx in *; rewrite By in *; cbn [down vidx] in Exy; try (cbn in Dx; congruence); try (cbn in Dy; congruence).
    + assert (M := i_uniq _ _ _ _ _ _ I _ _ (ltac:(lia) : daf (bk bs (p + k + 1)) <> 0) (ltac:(lia) : daf (bk bs (p + h + 1)) <> 0) Exy).
      replace (p + k + 1) with (p + (k + 1)) in M by lia. replace (p + h + 1) with (p + (h + 1)) in M by lia.
      apply off_inj in M; lia.
    + assert (M := i_uniq _ _ _ _ _ _ I _ _ (ltac:(lia) : daf (bk bs (p + k + 1)) <> 0) Dy Exy).
      replace (p + k + 1) with (p + (k + 1)) in M by lia. apply off_inj in M; lia.
    + assert (M := i_uniq _ _ _ _ _ _ I _ _ Dx (ltac:(lia) : daf (bk bs (p + h + 1)) <> 0) Exy).
      replace (p + h + 1) with (p + (h + 1)) in M by lia. apply off_inj in M; lia.
    + assert (M := i_uniq _ _ _ _ _ _ I _ _ Dx Dy Exy). apply off_inj in M; lia.
  - (* all *)
    intros i (Hi & Nr). destruct (i_all _ _ _ _ _ _ I i Hi) as (x & Dx & Vx).
    destruct (offset (size_of bs) p x ltac:(lia)) as (k & Hk & Ek).
    rewrite (bk_cong bs _ _ Ek) in Dx, Vx.
    destruct (Z.eq_dec k 0) as [->|Nk]; [exfalso; replace (p + 0) with p in Vx by lia; congruence|].
    destruct (Z_le_gt_dec k J) as [L|L].
    + exists (p + (k - 1)). destruct (CUT (p + (k - 1))) as (h & Hh & Eh & Ch).
      apply off_inj in Eh; [|lia|lia]. subst h.
      destruct Ch as [(H0 & By)|[(H1 & By & P & W)|(H1 & By)]]; [lia| |lia].
      replace (p + (k - 1) + 1) with (p + k) in * by lia. rewrite By. split; [lia|exact Vx].
    + exists (p + k). rewrite E5 by lia. split; assumption.
Qed.
End Erase.

(** The last value takes the place of the removed one. *)
Lemma nthv_set : forall (vs : list (Z * V)) r e i, 0 <= r < Z.of_nat (length vs) ->
  nthv (set_nth vs (Z.to_nat r) e) i = if i =? r then Some e else nthv vs i.
Proof.
  intros vs r e i Hr. unfold nthv. destruct (i <? 0) eqn:E.
  - destruct (i =? r) eqn:E2; [apply Z.eqb_eq in E2; apply Z.ltb_lt in E; lia|reflexivity].
  - apply Z.ltb_ge in E. destruct (i =? r) eqn:E2.
    + apply Z.eqb_eq in E2; subst i. apply set_nth_same; lia.
    + apply Z.eqb_neq in E2. apply set_nth_other; lia.
Qed.
Lemma nth_error_removelast : forall A (l : list A) i, (i < length l - 1)%nat -> nth_error (removelast l) i = nth_error l i.
Proof.
  induction l as [|x l IH]; intros i Hi; [reflexivity|]. destruct l as [|y l]; [cbn in Hi; lia|].
  change (removelast (x :: y :: l)) with (x :: removelast (y :: l)). destruct i as [|i]; [reflexivity|].
  cbn [nth_error]. apply IH. cbn [length] in *; lia.
Qed.
Lemma length_removelast : forall A (l : list A), length (removelast l) = (length l - 1)%nat.
Proof.
  induction l as [|x l IH]; [reflexivity|]. destruct l as [|y l]; [reflexivity|].
  change (removelast (x :: y :: l)) with (x :: removelast (y :: l)). cbn [length]. rewrite IH. cbn [length]. lia.
Qed.
Lemma nthv_removelast : forall (vs : list (Z * V)) i,
  nthv (removelast vs) i = if i <? Z.of_nat (length vs) - 1 then nthv vs i else None.
Proof.
  intros vs i. unfold nthv. destruct (i <? 0) eqn:E.
  - destruct (i <? Z.of_nat (length vs) - 1); reflexivity.
  - apply Z.ltb_ge in E. destruct (i <? Z.of_nat (length vs) - 1) eqn:E2.
    + apply Z.ltb_lt in E2. apply nth_error_removelast. lia.
    + apply Z.ltb_ge in E2. apply nth_error_None. rewrite length_removelast. lia.
Qed.

Lemma drop_last_inv : forall vs bs s c, Inv vs bs s c (fun i => below c i /\ i <> c - 1) -> c = Z.of_nat (length vs) -> 1 <= c ->
  Inv (removelast vs) bs s (c - 1) (below (c - 1)).
Proof.
  intros vs bs s c I Ec H1. pose proof (i_c _ _ _ _ _ _ I) as C. constructor.
  - apply (i_s _ _ _ _ _ _ I).
  - apply (i_N _ _ _ _ _ _ I).
  - rewrite length_removelast. lia.
  - unfold below; intros; lia.
  - intros i j k v w. rewrite !nthv_removelast. destruct (i <? _); [|discriminate]. destruct (j <? _); [|discriminate]. apply (i_keys _ _ _ _ _ _ I).
  - apply (i_loc _ _ _ _ _ _ I).
  - apply (i_emp _ _ _ _ _ _ I).
  - intros x Dx. destruct (i_ent _ _ _ _ _ _ I x Dx) as (k & v & D & En & (L & Nl) & R). exists k, v, D.
    unfold below in *. split; [|split; [lia|exact R]]. rewrite nthv_removelast.
    destruct (vidx (bk bs x) <? Z.of_nat (length vs) - 1) eqn:E; [exact En|apply Z.ltb_ge in E; lia].
  - apply (i_uniq _ _ _ _ _ _ I).
  - intros i Hi. apply (i_all _ _ _ _ _ _ I). unfold below in *; lia.
Qed.

Lemma rename_inv : forall vs bs s c r key v D,
  Inv vs bs s c (fun i => below c i /\ i <> r) -> c = Z.of_nat (length vs) -> 0 <= r < c - 1 ->
  nthv vs (c - 1) = Some (key, v) -> stored hash vs bs s c (fun i => below c i /\ i <> r) key (c - 1) D ->
  Inv (removelast (set_nth vs (Z.to_nat r) (key, v)))
      (set_nth bs (Z.to_nat (pos hash bs s key D)) (Bk (daf (bk bs (pos hash bs s key D))) r)) s (c - 1) (below (c - 1)).
Proof.
  intros vs bs s c r key v D I Ec Hr Ev St. set (p := pos hash bs s key D).
  pose proof (i_c _ _ _ _ _ _ I) as C. pose proof (N_bounds hash _ _ _ _ _ I) as NB.
  pose proof (pos_range hash _ _ _ _ _ I key D) as PR. fold p in PR.
  pose proof St as (Ls & _ & HD & Ed & Vd). rewrite <- (bk_pos hash _ _ _ _ _ I) in Ed, Vd. fold p in Ed, Vd.
  pose proof (fp_range hash key) as F.
  set (vs' := removelast _). set (bs' := set_nth _ _ _).
  assert (S1 : size_of bs' = size_of bs) by apply size_set.
  assert (BX : forall x, bk bs' x = if x mod size_of bs =? p then Bk (daf (bk bs p)) r else bk bs x) by (intros x; apply bk_set; exact PR).
  assert (AT : forall x, x mod size_of bs = p -> bk bs x = bk bs p) by (intros x Hx; apply bk_cong; rewrite Hx; symmetry; apply Z.mod_small; exact PR).
  assert (DX : forall x, daf (bk bs' x) = daf (bk bs x)).
  { intros x. rewrite BX. destruct (x mod size_of bs =? p) eqn:E; [|reflexivity]. apply Z.eqb_eq in E. rewrite (AT x E). reflexivity. }
  assert (NV : forall i, nthv vs' i = if i <? c - 1 then (if i =? r then Some (key, v) else nthv vs i) else None).
  { intros i. unfold vs'. rewrite nthv_removelast, set_nth_length, <- Ec. rewrite nthv_set by lia. reflexivity. }
  assert (VB : forall x, daf (bk bs x) <> 0 -> x mod size_of bs <> p -> vidx (bk bs x) <> c - 1 /\ vidx (bk bs x) <> r /\ 0 <= vidx (bk bs x) < c).
  { intros x Dx Nx. destruct (i_ent _ _ _ _ _ _ I x Dx) as (k & w & D0 & _ & (L & Nr) & _). split; [|split; [exact Nr|exact L]].
    intros Q. apply Nx. rewrite <- (Z.mod_small p (size_of bs)) by exact PR.
    apply (i_uniq _ _ _ _ _ _ I); [exact Dx|lia|congruence]. }
  constructor.
  - apply (i_s _ _ _ _ _ _ I).
  - rewrite S1. apply (i_N _ _ _ _ _ _ I).
  - rewrite S1. unfold vs'. rewrite length_removelast, set_nth_length. lia.
  - unfold below; intros; lia.
  - intros i j k w1 w2. rewrite !NV. destruct (i <? c - 1) eqn:Ei; [|discriminate]. destruct (j <? c - 1) eqn:Ej; [|discriminate].
    apply Z.ltb_lt in Ei, Ej. destruct (i =? r) eqn:Fi; destruct (j =? r) eqn:Fj; intros H1 H2.
    + apply Z.eqb_eq in Fi, Fj; lia.
    + injection H1 as <- <-. assert (Q := i_keys _ _ _ _ _ _ I _ _ _ _ _ Ev H2). lia.
    + injection H2 as <- <-. assert (Q := i_keys _ _ _ _ _ _ I _ _ _ _ _ Ev H1). lia.
    + exact (i_keys _ _ _ _ _ _ I _ _ _ _ _ H1 H2).
  - intros x. rewrite !DX. apply (i_loc _ _ _ _ _ _ I).
  - intros x Z0. rewrite DX in Z0. rewrite BX. destruct (x mod size_of bs =? p) eqn:E.
    + apply Z.eqb_eq in E. rewrite (AT x E) in Z0. lia.
    + apply (i_emp _ _ _ _ _ _ I); exact Z0.
  - intros x Dx. rewrite DX in Dx. rewrite DX, S1. rewrite BX. destruct (x mod size_of bs =? p) eqn:E.
    + apply Z.eqb_eq in E. exists key, v, D. cbn [vidx]. split.
      { rewrite NV. destruct (r <? c - 1) eqn:Er; [|apply Z.ltb_ge in Er; lia]. rewrite Z.eqb_refl. reflexivity. }
      split; [unfold below; lia|]. split; [lia|]. rewrite (AT x E). split; [exact Ed|]. rewrite E. reflexivity.
    + apply Z.eqb_neq in E. destruct (VB x Dx E) as (N1 & N2 & R0).
      destruct (i_ent _ _ _ _ _ _ I x Dx) as (k & w & D0 & En & (L & Nr) & R). exists k, w, D0. split.
      { rewrite NV. destruct (vidx (bk bs x) <? c - 1) eqn:Er; [|apply Z.ltb_ge in Er; lia].
        destruct (vidx (bk bs x) =? r) eqn:E2; [apply Z.eqb_eq in E2; lia|exact En]. }
      split; [unfold below; lia|exact R].
  - intros x y Dx Dy. rewrite DX in Dx, Dy. rewrite !BX, S1.
    destruct (x mod size_of bs =? p) eqn:Ex; destruct (y mod size_of bs =? p) eqn:Ey; cbn [vidx].
    + apply Z.eqb_eq in Ex, Ey. congruence.
    + apply Z.eqb_neq in Ey. destruct (VB y Dy Ey) as (_ & N2 & _). congruence.
    + apply Z.eqb_neq in Ex. destruct (VB x Dx Ex) as (_ & N2 & _). congruence.
    + apply (i_uniq _ _ _ _ _ _ I); assumption.
  - unfold below. intros i Hi. destruct (Z.eq_dec i r) as [->|Nr].
    + exists p. rewrite DX, BX. rewrite Z.mod_small, Z.eqb_refl by exact PR. split; [lia|reflexivity].
    + destruct (i_all _ _ _ _ _ _ I i) as (x & Dx & Vx); [unfold below; split; [lia|exact Nr]|].
      exists x. rewrite DX, BX. split; [exact Dx|]. destruct (x mod size_of bs =? p) eqn:E; [|exact Vx].
      apply Z.eqb_eq in E. rewrite (AT x E) in Vx. lia.
Qed.
End Step.
