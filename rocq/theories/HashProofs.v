(** The hash table refines a finite map. *)
From Coq Require Import ZArith List Bool Lia Permutation.
From Verif Require Import Base HashModel HashSpec HashRun HashCoreProofs HashInvProofs HashStepProofs.
Import ListNotations.
Local Open Scope Z_scope.
Local Arguments Z.pow : simpl never.
Local Arguments Z.mul : simpl never.
Local Arguments Z.add : simpl never.
Local Arguments Z.sub : simpl never.
Local Arguments Z.modulo : simpl never.
Local Arguments Z.div : simpl never.

(** ** Arithmetic of wyhash *)
Lemma mum_portable_ok : forall a b, 0 <= a < 2 ^ 64 -> 0 <= b < 2 ^ 64 -> mum_portable a b = mum a b.
Proof.
  intros a b Ha Hb. unfold mum_portable, mum.
  pose proof (Z.div_mod a (2 ^ 32) ltac:(lia)) as Da. pose proof (Z.div_mod b (2 ^ 32) ltac:(lia)) as Db.
  pose proof (Z.mod_pos_bound a (2 ^ 32) ltac:(lia)) as Ra. pose proof (Z.mod_pos_bound b (2 ^ 32) ltac:(lia)) as Rb.
  assert (Qa : 0 <= a / 2 ^ 32 < 2 ^ 32) by (split; [apply Z.div_pos; lia|apply Z.div_lt_upper_bound; lia]).
  assert (Qb : 0 <= b / 2 ^ 32 < 2 ^ 32) by (split; [apply Z.div_pos; lia|apply Z.div_lt_upper_bound; lia]).
  set (ha := a / 2 ^ 32) in *. set (hb := b / 2 ^ 32) in *. set (la := a mod 2 ^ 32) in *. set (lb := b mod 2 ^ 32) in *.
  assert (PR : forall x y, 0 <= x < 2 ^ 32 -> 0 <= y < 2 ^ 32 -> 0 <= x * y <= (2 ^ 32 - 1) * (2 ^ 32 - 1)).
  { intros x y Hx Hy. split; [apply Z.mul_nonneg_nonneg; lia|]. apply Z.mul_le_mono_nonneg; lia. }
  pose proof (PR ha hb Qa Qb) as Phh. pose proof (PR ha lb Qa Rb) as Phl. pose proof (PR hb la Qb Ra) as Plh. pose proof (PR la lb Ra Rb) as Pll.
  rewrite (Z.mod_small (ha * hb)), (Z.mod_small (ha * lb)), (Z.mod_small (hb * la)), (Z.mod_small (la * lb)) by lia.
  assert (E : a * b = ha * hb * 2 ^ 64 + (ha * lb + hb * la) * 2 ^ 32 + la * lb) by (rewrite Da, Db; change (2 ^ 64) with (2 ^ 32 * 2 ^ 32); ring).
  rewrite E. clear E. set (hh := ha * hb) in *. set (m0 := ha * lb) in *. set (m1 := hb * la) in *. set (ll := la * lb) in *.
  clearbody hh m0 m1 ll. clear Da Db Ra Rb Qa Qb PR ha hb la lb.
  (* low halves of the middle products *)
  assert (SH : forall m, (m * 2 ^ 32) mod 2 ^ 64 = (m mod 2 ^ 32) * 2 ^ 32).
  { intros m. change (2 ^ 64) with (2 ^ 32 * 2 ^ 32). apply Z.mul_mod_distr_r; lia. }
  rewrite !SH.
  pose proof (Z.div_mod m0 (2 ^ 32) ltac:(lia)) as D0. pose proof (Z.mod_pos_bound m0 (2 ^ 32) ltac:(lia)) as R0.
  pose proof (Z.div_mod m1 (2 ^ 32) ltac:(lia)) as D1. pose proof (Z.mod_pos_bound m1 (2 ^ 32) ltac:(lia)) as R1.
  set (q0 := m0 / 2 ^ 32) in *. set (r0 := m0 mod 2 ^ 32) in *. set (q1 := m1 / 2 ^ 32) in *. set (r1 := m1 mod 2 ^ 32) in *.
  assert (AD : forall x y, 0 <= x < 2 ^ 64 -> 0 <= y < 2 ^ 64 ->
    exists c, (c = 0 \/ c = 1) /\ (x + y) mod 2 ^ 64 = x + y - c * 2 ^ 64 /\ (if (x + y) mod 2 ^ 64 <? x then 1 else 0) = c).
  { intros x y Hx Hy. destruct (Z_lt_le_dec (x + y) (2 ^ 64)) as [L|L].
    - exists 0. split; [lia|]. rewrite Z.mod_small by lia. split; [lia|]. destruct (x + y <? x) eqn:Q; [apply Z.ltb_lt in Q; lia|reflexivity].
    - exists 1. split; [lia|]. replace (x + y) with ((x + y - 2 ^ 64) + 1 * 2 ^ 64) by lia. rewrite Z_mod_plus_full, Z.mod_small by lia.
      split; [lia|]. destruct (x + y - 2 ^ 64 <? x) eqn:Q; [reflexivity|apply Z.ltb_ge in Q; lia]. }
  assert (B0 : 0 <= r0 * 2 ^ 32 < 2 ^ 64) by lia. assert (B1 : 0 <= r1 * 2 ^ 32 < 2 ^ 64) by lia.
  destruct (AD ll (r0 * 2 ^ 32) ltac:(lia) B0) as (c0 & C0 & T0 & I0). rewrite I0.
  set (t := (ll + r0 * 2 ^ 32) mod 2 ^ 64) in *.
  assert (Tr : 0 <= t < 2 ^ 64) by (apply Z.mod_pos_bound; lia).
  destruct (AD t (r1 * 2 ^ 32) Tr B1) as (c1 & C1 & T1 & I1). rewrite I1.
  set (lo := (t + r1 * 2 ^ 32) mod 2 ^ 64) in *.
  assert (Lr : 0 <= lo < 2 ^ 64) by (apply Z.mod_pos_bound; lia).
  assert (Tot : hh * 2 ^ 64 + (m0 + m1) * 2 ^ 32 + ll = lo + (hh + q0 + q1 + (c0 + c1)) * 2 ^ 64).
  { change (2 ^ 64) with (2 ^ 32 * 2 ^ 32) in *. lia. }
  rewrite Tot. f_equal.
  - rewrite Z_mod_plus_full, Z.mod_small by lia. reflexivity.
  - rewrite Z.div_add by lia. rewrite (Z.div_small lo) by lia. f_equal. rewrite (Z.mod_small (c0 + c1)) by lia. lia.
Qed.

Lemma wyhash_range : forall x, 0 <= wyhash x < 2 ^ 64.
Proof.
  intros x. unfold wyhash, mix, mum.
  set (u := _ mod 2 ^ 64). set (w := _ / 2 ^ 64 mod 2 ^ 64).
  assert (Hu : 0 <= u < 2 ^ 64) by (apply Z.mod_pos_bound; lia).
  assert (Hw : 0 <= w < 2 ^ 64) by (apply Z.mod_pos_bound; lia).
  assert (Nn : 0 <= Z.lxor u w) by (apply Z.lxor_nonneg; lia). split; [exact Nn|].
  destruct (Z.eq_dec (Z.lxor u w) 0) as [->|Nz]; [lia|]. apply Z.log2_lt_pow2; [lia|].
  apply Z.le_lt_trans with (Z.max (Z.log2 u) (Z.log2 w)); [apply Z.log2_lxor; lia|].
  apply Z.max_lub_lt.
  - destruct (Z.eq_dec u 0) as [->|]; [cbn; lia|]. apply Z.log2_lt_pow2; lia.
  - destruct (Z.eq_dec w 0) as [->|]; [cbn; lia|]. apply Z.log2_lt_pow2; lia.
Qed.

(** ** Lists of bindings *)
Section Lists.
Context {V : Type}.
Definition has (vs : list (Z * V)) (k : Z) (v : V) : Prop := exists i, nthv vs i = Some (k, v).
Definition uniq_keys (vs : list (Z * V)) : Prop :=
  forall i j k v w, nthv vs i = Some (k, v) -> nthv vs j = Some (k, w) -> i = j.

Lemma nthv_range : forall (vs : list (Z * V)) i e, nthv vs i = Some e -> 0 <= i < Z.of_nat (length vs).
Proof.
  intros vs i e. unfold nthv. destruct (i <? 0) eqn:E; [discriminate|]. apply Z.ltb_ge in E. intros H.
  assert (nth_error vs (Z.to_nat i) <> None) by congruence. apply nth_error_Some in H0. lia.
Qed.
Lemma nthv_ex : forall (vs : list (Z * V)) i, 0 <= i < Z.of_nat (length vs) -> exists k v, nthv vs i = Some (k, v).
Proof.
  intros vs i H. unfold nthv. destruct (i <? 0) eqn:E; [apply Z.ltb_lt in E; lia|].
  destruct (nth_error vs (Z.to_nat i)) as [[k v]|] eqn:N; [eauto|]. apply nth_error_None in N; lia.
Qed.
Lemma has_in : forall vs k v, has vs k v <-> In (k, v) vs.
Proof.
  intros vs k v; split.
  - intros (i & H). unfold nthv in H. destruct (i <? 0); [discriminate|]. eapply nth_error_In; exact H.
  - intros H. apply In_nth_error in H. destruct H as (n & Hn). exists (Z.of_nat n). unfold nthv.
    destruct (Z.of_nat n <? 0) eqn:E; [apply Z.ltb_lt in E; lia|]. rewrite Nat2Z.id; exact Hn.
Qed.
Lemma uniq_nodup : forall vs, uniq_keys vs -> NoDup (map fst vs).
Proof.
  intros vs U. apply NoDup_nth_error. intros i j Hi E. rewrite map_length in Hi.
  rewrite !nth_error_map in E.
  destruct (nth_error vs i) as [[k v]|] eqn:Ei; [|apply nth_error_None in Ei; lia].
  destruct (nth_error vs j) as [[k' w]|] eqn:Ej; [|discriminate]. cbn in E. injection E as <-.
  assert (Q : Z.of_nat i = Z.of_nat j); [|lia].
  apply (U _ _ k v w); unfold nthv.
  - destruct (Z.of_nat i <? 0) eqn:Q; [apply Z.ltb_lt in Q; lia|]. rewrite Nat2Z.id; exact Ei.
  - destruct (Z.of_nat j <? 0) eqn:Q; [apply Z.ltb_lt in Q; lia|]. rewrite Nat2Z.id; exact Ej.
Qed.
Lemma lookup_in : forall (l : list (Z * V)) k v, lookup l k = Some v -> In (k, v) l.
Proof.
  induction l as [|[k' v'] l IH]; intros k v H; cbn in *; [discriminate|].
  destruct (k =? k') eqn:E; [apply Z.eqb_eq in E; injection H as <-; subst; left; reflexivity|right; auto].
Qed.
Lemma in_lookup : forall (l : list (Z * V)) k v, NoDup (map fst l) -> In (k, v) l -> lookup l k = Some v.
Proof.
  induction l as [|[k' v'] l IH]; intros k v ND H; cbn in *; [contradiction|]. inversion ND as [|? ? Nx ND']; subst.
  destruct H as [H|H].
  - injection H as -> ->. rewrite Z.eqb_refl; reflexivity.
  - destruct (k =? k') eqn:E; [|apply IH; assumption]. apply Z.eqb_eq in E; subst k'. exfalso. apply Nx.
    apply in_map_iff. exists (k, v); split; [reflexivity|exact H].
Qed.
Lemma lookup_none : forall (l : list (Z * V)) k, lookup l k = None <-> forall v, ~ In (k, v) l.
Proof.
  intros l k; split.
  - induction l as [|[k' v'] l IH]; intros H v Hin; cbn in *; [contradiction|].
    destruct (k =? k') eqn:E; [discriminate|]. apply Z.eqb_neq in E. destruct Hin as [Q|Q]; [congruence|]. eapply IH; eassumption.
  - intros H. destruct (lookup l k) eqn:E; [|reflexivity]. apply lookup_in in E. exfalso; eapply H; exact E.
Qed.
Lemma without_in : forall (l : list (Z * V)) k k' v, In (k', v) (without l k) <-> In (k', v) l /\ k' <> k.
Proof.
  intros l k k' v. unfold without. rewrite filter_In. cbn [fst]. rewrite negb_true_iff, Z.eqb_neq. reflexivity.
Qed.
Lemma without_nodup : forall (l : list (Z * V)) k, NoDup (map fst l) -> NoDup (map fst (without l k)).
Proof.
  induction l as [|[k' v'] l IH]; intros k ND; cbn; [constructor|]. inversion ND as [|? ? Nx ND']; subst.
  destruct (k' =? k); cbn; [apply IH; exact ND'|]. constructor; [|apply IH; exact ND'].
  intros Hin. apply Nx. apply in_map_iff in Hin. destruct Hin as ([k2 v2] & E & H). cbn in E; subst k2.
  apply without_in in H. apply in_map_iff. exists (k', v2). split; [reflexivity|apply H].
Qed.
Lemma without_none : forall (l : list (Z * V)) k, lookup l k = None -> without l k = l.
Proof.
  induction l as [|[k' v'] l IH]; intros k H; cbn in *; [reflexivity|].
  rewrite Z.eqb_sym. destruct (k =? k'); [discriminate|]. cbn. f_equal. apply IH; exact H.
Qed.
Lemma without_length : forall (l : list (Z * V)) k v, NoDup (map fst l) -> lookup l k = Some v ->
  S (length (without l k)) = length l.
Proof.
  induction l as [|[k' v'] l IH]; intros k v ND H; cbn in *; [discriminate|]. inversion ND as [|? ? Nx ND']; subst.
  rewrite Z.eqb_sym. destruct (k =? k') eqn:E; cbn.
  - apply Z.eqb_eq in E; subst k'. f_equal. fold (without l k). rewrite without_none; [reflexivity|].
    apply lookup_none. intros w Hw. apply Nx. apply in_map_iff. exists (k, w); split; [reflexivity|exact Hw].
  - f_equal. apply (IH k v); assumption.
Qed.
End Lists.

Section Table.
Context {V : Type}.
Variable hash : Z -> Z.
Hypothesis hash_range : forall k, 0 <= hash k < 2 ^ 64.
Notation Inv := (@Inv V hash).

Definition len (vs : list (Z * V)) : Z := Z.of_nat (length vs).
Record TInv (t : table V) : Prop := mkT {
  t_inv : Inv (m_values t) (m_buckets t) (m_shifts t) (len (m_values t)) (below (len (m_values t)));
  t_s : 39 <= m_shifts t;
  t_cap : m_cap t = capacity (size_of (m_buckets t));
  t_full : len (m_values t) <= m_cap t }.

Lemma cap_eq : forall s, 39 <= s <= 62 -> capacity (2 ^ (64 - s)) = 2 ^ (64 - s) * 13421773 / 2 ^ 24.
Proof.
  intros s Hs. unfold capacity, max_bucket_count, wrap32.
  assert (L : 4 <= 2 ^ (64 - s) <= 2 ^ 25).
  { split; [change 4 with (2 ^ 2); apply Z.pow_le_mono_r; lia|apply Z.pow_le_mono_r; lia]. }
  destruct (2 ^ (64 - s) =? 2 ^ 32) eqn:E; [apply Z.eqb_eq in E; lia|].
  apply Z.mod_small. split; [apply Z.div_pos; lia|]. apply Z.div_lt_upper_bound; lia.
Qed.
Lemma cap_bounds : forall s, 39 <= s <= 62 -> 3 <= capacity (2 ^ (64 - s)) < 2 ^ (64 - s).
Proof.
  intros s Hs. rewrite cap_eq by exact Hs.
  assert (L : 4 <= 2 ^ (64 - s) <= 2 ^ 25).
  { split; [change 4 with (2 ^ 2); apply Z.pow_le_mono_r; lia|apply Z.pow_le_mono_r; lia]. }
  split; [apply Z.div_le_lower_bound; lia|apply Z.div_lt_upper_bound; lia].
Qed.
Lemma cap_grow : forall s, 40 <= s <= 62 -> capacity (2 ^ (64 - s)) + 1 <= capacity (2 ^ (64 - (s - 1))).
Proof.
  intros s Hs. pose proof (cap_bounds s ltac:(lia)) as B. rewrite !cap_eq in * by lia.
  replace (64 - (s - 1)) with (64 - s + 1) by lia. rewrite Z.pow_add_r by lia. change (2 ^ 1) with 2.
  set (n := 2 ^ (64 - s)) in *. 
  assert (Q : 2 * (n * 13421773 / 2 ^ 24) <= n * 2 * 13421773 / 2 ^ 24).
  { apply Z.div_le_lower_bound; [lia|]. pose proof (Z.mul_div_le (n * 13421773) (2 ^ 24) ltac:(lia)). lia. }
  lia.
Qed.
Lemma cap_limit : capacity (2 ^ (64 - 39)) > limit.
Proof. reflexivity. Qed.

Lemma t_lt : forall t, TInv t -> m_cap t < size_of (m_buckets t) /\ 3 <= m_cap t /\ size_of (m_buckets t) = 2 ^ (64 - m_shifts t) /\ 39 <= m_shifts t <= 62.
Proof.
  intros t T. pose proof (i_s _ _ _ _ _ _ (t_inv _ T)) as S0. pose proof (t_s _ T) as S1.
  pose proof (i_N _ _ _ _ _ _ (t_inv _ T)) as EN. rewrite (t_cap _ T), EN. pose proof (cap_bounds (m_shifts t) ltac:(lia)). lia.
Qed.

(** ** Building the buckets anew *)
Lemma fill_ok : forall r vs pre bs s, vs = pre ++ r -> Inv vs bs s (len pre) (below (len pre)) ->
  len vs < size_of bs -> len vs <= limit ->
  exists bs', fill hash r bs s (len pre) = Ok bs' /\ size_of bs' = size_of bs /\ Inv vs bs' s (len vs) (below (len vs)).
Proof.
  induction r as [|[k v] r IH]; intros vs pre bs s E I HN HL; cbn [fill].
  - rewrite app_nil_r in E; subst vs. exists bs. split; [reflexivity|]. split; [reflexivity|exact I].
  - destruct (less_ok hash hash_range _ _ _ _ _ I k) as (e & E1 & He & Hle & Hprev & _). rewrite E1. cbn [rbind].
    assert (Lv : len vs = len pre + 1 + len r) by (subst vs; unfold len; rewrite app_length; cbn [length]; lia).
    assert (0 <= len r) by (unfold len; lia).
    assert (NV : nthv vs (len pre) = Some (k, v)).
    { unfold nthv, len. destruct (Z.of_nat (length pre) <? 0) eqn:Q; [apply Z.ltb_lt in Q; lia|].
      subst vs. rewrite Nat2Z.id, nth_error_app2, Nat.sub_diag by lia. reflexivity. }
    destruct (place_inv hash vs bs s (len pre) I k v e NV ltac:(lia) He Hle Hprev) as (bs' & E2 & I2).
    rewrite E2. cbn [rbind].
    assert (SZ : size_of bs' = size_of bs) by (rewrite (i_N _ _ _ _ _ _ I2), (i_N _ _ _ _ _ _ I); reflexivity).
    destruct (IH vs (pre ++ [(k, v)]) bs' s) as (bs'' & E3 & S3 & I3).
    + rewrite <- app_assoc; exact E.
    + replace (len (pre ++ [(k, v)])) with (len pre + 1) by (unfold len; rewrite app_length; cbn [length]; lia). exact I2.
    + lia.
    + exact HL.
    + replace (len (pre ++ [(k, v)])) with (len pre + 1) in E3 by (unfold len; rewrite app_length; cbn [length]; lia).
      exists bs''. split; [exact E3|]. split; [lia|exact I3].
Qed.

Lemma bk_repeat : forall n x, bk (repeat (Bk 0 0) n) x = Bk 0 0.
Proof. intros n x. unfold bk. rewrite nth_of_error. destruct (nth_error _ _) eqn:E; [|reflexivity]. apply nth_error_In, repeat_spec in E. exact E. Qed.
Lemma calc_num : forall s, 32 <= s <= 62 -> calc_num_buckets s = 2 ^ (64 - s).
Proof. intros s Hs. unfold calc_num_buckets, max_bucket_count. apply Z.min_r. apply Z.pow_le_mono_r; lia. Qed.
Lemma fresh_size : forall s, 32 <= s <= 62 -> size_of (fresh_buckets s) = 2 ^ (64 - s).
Proof.
  intros s Hs. unfold size_of, fresh_buckets. rewrite repeat_length, calc_num by exact Hs.
  assert (0 < 2 ^ (64 - s)) by (apply Z.pow_pos_nonneg; lia). lia.
Qed.

Lemma increase_ok : forall t, uniq_keys (m_values t) -> 40 <= m_shifts t <= 62 -> m_cap t = capacity (2 ^ (64 - m_shifts t)) ->
  len (m_values t) = m_cap t + 1 -> len (m_values t) <= limit ->
  exists t', increase_size hash t = Ok t' /\ TInv t' /\ m_values t' = m_values t.
Proof.
  intros t U Hs Hc Hl Hlim. unfold increase_size.
  pose proof (cap_bounds (m_shifts t) ltac:(lia)) as CB. pose proof (cap_grow (m_shifts t) Hs) as CG.
  pose proof (cap_bounds (m_shifts t - 1) ltac:(lia)) as CB2.
  destruct (m_cap t =? max_bucket_count) eqn:E; [apply Z.eqb_eq in E; unfold max_bucket_count in E; unfold limit in Hlim; lia|].
  rewrite (Z.mod_small (m_shifts t - 1) 256) by lia. set (s := m_shifts t - 1) in *.
  assert (SZ := fresh_size s ltac:(lia)).
  destruct (fill_ok (m_values t) (m_values t) [] (fresh_buckets s) s eq_refl) as (bs' & E1 & S1 & I1).
  - apply empty_inv; [lia|exact SZ|intros x; apply bk_repeat|exact U].
  - lia.
  - exact Hlim.
  - change (len []) with 0 in E1. rewrite E1. cbn [rbind]. eexists; split; [reflexivity|]. split; [|reflexivity].
    constructor; cbn [m_values m_buckets m_shifts m_cap].
    + exact I1.
    + lia.
    + rewrite S1, SZ, calc_num by lia. reflexivity.
    + rewrite calc_num by lia. lia.
Qed.

(** ** A new entry *)
Lemma place_last_ok : forall t key v e, TInv t -> (forall i w, nthv (m_values t) i <> Some (key, w)) ->
  len (m_values t) + 1 <= limit -> 1 <= e <= len (m_values t) + 1 ->
  daf (bk (m_buckets t) (home hash (m_shifts t) key + e - 1)) <= 256 * e + fp hash key ->
  (e >= 2 -> daf (bk (m_buckets t) (home hash (m_shifts t) key + e - 2)) >= 256 * (e - 1) + fp hash key) ->
  exists t', place_last hash (mk_table (m_values t ++ [(key, v)]) (m_buckets t) (m_shifts t) (m_cap t))
      (256 * e + fp hash key) (pos hash (m_buckets t) (m_shifts t) key e) = Ok t' /\ TInv t' /\ m_values t' = m_values t ++ [(key, v)].
Proof.
  intros t key v e T Ab Hlim He Hle Hprev. destruct (t_lt t T) as (TL & T3 & TN & TS).
  set (vs := m_values t ++ [(key, v)]).
  assert (Lv : len vs = len (m_values t) + 1) by (unfold vs, len; rewrite app_length; cbn [length]; lia).
  assert (I2 := extend_inv hash _ _ _ _ key v (t_inv _ T) eq_refl Ab). fold vs in I2.
  assert (NV : nthv vs (len (m_values t)) = Some (key, v)).
  { unfold nthv, len. destruct (Z.of_nat (length (m_values t)) <? 0) eqn:Q; [apply Z.ltb_lt in Q; lia|].
    unfold vs. rewrite Nat2Z.id, nth_error_app2, Nat.sub_diag by lia. reflexivity. }
  unfold place_last. cbn [m_values m_buckets m_shifts m_cap]. fold vs. fold (len vs).
  pose proof (t_full _ T) as Fu.
  destruct (m_cap t <? len vs) eqn:Q.
  - apply Z.ltb_lt in Q.
    assert (S40 : m_shifts t <> 39).
    { intros S39. pose proof cap_limit as CL. rewrite <- S39, <- TN, <- (t_cap _ T) in CL. lia. }
    destruct (increase_ok (mk_table vs (m_buckets t) (m_shifts t) (m_cap t))) as (t' & E1 & T1 & V1); cbn [m_values m_buckets m_shifts m_cap] in *.
    + exact (i_keys _ _ _ _ _ _ I2).
    + lia.
    + rewrite (t_cap _ T), TN. reflexivity.
    + lia.
    + lia.
    + exists t'. split; [exact E1|]. split; [exact T1|exact V1].
  - apply Z.ltb_ge in Q.
    assert (W : wrap32 (len vs - 1) = len (m_values t)).
    { unfold wrap32. rewrite Lv. unfold limit in Hlim. rewrite Z.mod_small; [lia|]. unfold len in *; lia. }
    rewrite W.
    destruct (place_inv hash vs (m_buckets t) (m_shifts t) _ I2 key v e NV ltac:(lia) He Hle Hprev) as (bs' & E1 & I3).
    rewrite E1. cbn [rbind]. eexists; split; [reflexivity|]. split; [|reflexivity].
    constructor; cbn [m_values m_buckets m_shifts m_cap].
    + rewrite Lv. exact I3.
    + apply (t_s _ T).
    + rewrite (t_cap _ T), (i_N _ _ _ _ _ _ I3), TN. reflexivity.
    + lia.
Qed.

Definition missing (t : table V) (key : Z) : Prop := forall i w, nthv (m_values t) i <> Some (key, w).
Lemma absent_missing : forall t key, TInv t -> absent (m_values t) (below (len (m_values t))) key -> missing t key.
Proof. intros t key T A i w H. pose proof (nthv_range _ _ _ H). apply (A i w); [exact H0|exact H]. Qed.

Lemma value_at_nthv : forall (t : table V) i k v, nthv (m_values t) i = Some (k, v) -> value_at t i = Ok v.
Proof. intros t i k v; unfold nthv, value_at. destruct (i <? 0); [discriminate|]. intros ->; reflexivity. Qed.

(** Searching for an insertion. *)
Lemma search_ok : forall t key, TInv t ->
  (exists i v, nthv (m_values t) i = Some (key, v) /\
     try_loop (fuel (m_buckets t)) (m_values t) (m_buckets t) key (daf_of (hash key)) (idx_of (m_shifts t) (hash key)) = Ok (Found i)) \/
  (missing t key /\ exists e,
     try_loop (fuel (m_buckets t)) (m_values t) (m_buckets t) key (daf_of (hash key)) (idx_of (m_shifts t) (hash key))
       = Ok (Vacant (256 * e + fp hash key) (pos hash (m_buckets t) (m_shifts t) key e)) /\
     1 <= e <= len (m_values t) + 1 /\
     daf (bk (m_buckets t) (home hash (m_shifts t) key + e - 1)) <= 256 * e + fp hash key /\
     (e >= 2 -> daf (bk (m_buckets t) (home hash (m_shifts t) key + e - 2)) >= 256 * (e - 1) + fp hash key)).
Proof.
  intros t key T. pose proof (t_inv _ T) as I. rewrite daf_of_eq, (pos_1 hash hash_range _ _ _ _ _ I).
  pose proof (i_c _ _ _ _ _ _ I) as C. unfold size_of in C.
  destruct (try_loop_ok hash _ _ _ _ _ I (fuel (m_buckets t)) key 1) as [(i & (v & Ev) & L & E)|(A & e & E & He & Hl & Hp)].
  - apply stored_1.
  - lia.
  - lia.
  - unfold fuel; lia.
  - left. exists i, v. split; assumption.
  - right. split; [apply absent_missing; assumption|]. exists e. split; [exact E|]. split; [lia|]. split; [lia|exact Hp].
Qed.

Lemma try_emplace_ok : forall t key v, TInv t ->
  (exists i w, nthv (m_values t) i = Some (key, w) /\ try_emplace hash t key v = Ok (t, i, false)) \/
  (missing t key /\ (len (m_values t) + 1 <= limit -> exists t', try_emplace hash t key v = Ok (t', len (m_values t), true) /\
     TInv t' /\ m_values t' = m_values t ++ [(key, v)])).
Proof.
  intros t key v T. unfold try_emplace. destruct (search_ok t key T) as [(i & w & Ei & E)|(M & e & E & He & Hl & Hp)]; rewrite E; cbn [rbind].
  - left. exists i, w. split; [exact Ei|reflexivity].
  - right. split; [exact M|]. intros Hlim. destruct (place_last_ok t key v e T M Hlim He Hl Hp) as (t' & E2 & T2 & V2).
    rewrite E2. cbn [rbind]. exists t'. split; [reflexivity|]. split; assumption.
Qed.

Lemma emplace_try : forall n (vs : list (Z * V)) bs key d i, emplace_loop n vs bs key d i = try_loop n vs bs key d i.
Proof.
  induction n as [|n IH]; intros vs bs key d i; [reflexivity|]. cbn [emplace_loop try_loop].
  destruct (at_ bs i) as [b| | |]; cbn [rbind]; try reflexivity.
  destruct (d =? daf b) eqn:E.
  - apply Z.eqb_eq in E. destruct (d <=? daf b) eqn:E2; [|apply Z.leb_gt in E2; lia].
    destruct (key_at vs (vidx b)); cbn [rbind]; try reflexivity. rewrite IH; reflexivity.
  - apply Z.eqb_neq in E. destruct (d <=? daf b) eqn:E2; destruct (daf b <? d) eqn:E3; try reflexivity.
    + apply Z.leb_le in E2; apply Z.ltb_lt in E3; lia.
    + apply IH.
    + apply Z.leb_gt in E2; apply Z.ltb_ge in E3; lia.
Qed.
Lemma try_more : forall n (vs x : list (Z * V)) bs key d i r, try_loop n vs bs key d i = Ok r -> try_loop n (vs ++ x) bs key d i = Ok r.
Proof.
  induction n as [|n IH]; intros vs x bs key d i r; [discriminate|]. cbn [try_loop].
  destruct (at_ bs i) as [b| | |]; cbn [rbind]; try discriminate.
  destruct (d =? daf b); [|destruct (daf b <? d); [auto|apply IH]].
  destruct (key_at vs (vidx b)) as [k| | |] eqn:K; cbn [rbind]; try discriminate.
  assert (K2 : key_at (vs ++ x) (vidx b) = Ok k).
  { unfold key_at in *. destruct (vidx b <? 0); [discriminate|]. destruct (nth_error vs (Z.to_nat (vidx b))) as [[k0 v0]|] eqn:N; [|discriminate].
    rewrite nth_error_app1 by (apply nth_error_Some; congruence). rewrite N. exact K. }
  rewrite K2. cbn [rbind]. destruct (key =? k); [auto|apply IH].
Qed.

Lemma emplace_ok : forall t key v, TInv t ->
  (exists i w, nthv (m_values t) i = Some (key, w) /\ emplace hash t key v = Ok (t, i, false)) \/
  (missing t key /\ (len (m_values t) + 1 <= limit -> exists t', emplace hash t key v = Ok (t', len (m_values t), true) /\
     TInv t' /\ m_values t' = m_values t ++ [(key, v)])).
Proof.
  intros t key v T. unfold emplace. rewrite emplace_try.
  destruct (search_ok t key T) as [(i & w & Ei & E)|(M & e & E & He & Hl & Hp)]; rewrite (try_more _ _ [(key, v)] _ _ _ _ _ E); cbn [rbind].
  - left. exists i, w. split; [exact Ei|]. rewrite removelast_last. destruct t; reflexivity.
  - right. split; [exact M|]. intros Hlim. destruct (place_last_ok t key v e T M Hlim He Hl Hp) as (t' & E2 & T2 & V2).
    rewrite E2. cbn [rbind]. exists t'. split; [|split; assumption].
    replace (Z.of_nat (length (m_values t ++ [(key, v)])) - 1) with (len (m_values t)); [reflexivity|].
    unfold len. rewrite app_length; cbn [length]; lia.
Qed.

(** ** Lookup *)
Lemma find_ok : forall t key, TInv t ->
  (exists i v, nthv (m_values t) i = Some (key, v) /\ find hash t key = Ok (Some i)) \/ (missing t key /\ find hash t key = Ok None).
Proof.
  intros t key T. pose proof (t_inv _ T) as I. unfold find.
  destruct (m_values t) as [|e0 r0] eqn:Ev.
  - right. split; [|reflexivity]. intros i w H. rewrite Ev in H. apply nthv_range in H. cbn in H. lia.
  - rewrite <- Ev in *. pose proof (fp_range hash key) as F. pose proof (i_c _ _ _ _ _ _ I) as C.
    pose proof (N_bounds hash _ _ _ _ _ I) as NB.
    rewrite daf_of_eq, (pos_1 hash hash_range _ _ _ _ _ I).
    assert (E2 : dist_inc (256 * 1 + fp hash key) = 256 * (1 + 1) + fp hash key) by (apply inc_ok; lia).
    assert (E3 : dist_inc (256 * (1 + 1) + fp hash key) = 256 * (1 + 1 + 1) + fp hash key) by (apply inc_ok; lia).
    rewrite E2, E3. rewrite !(next_pos hash _ _ _ _ _ I).
    match goal with |- context[find_step _ _ _ _ _ (find_step _ _ _ _ _ ?X)] => set (L3 := X) end.
    match goal with |- context[find_step _ _ _ (256 * 1 + _) _ ?X] => set (L2 := X) end.
    destruct (find_step_ok hash _ _ _ _ _ I key 1 L2) as [(i & v & En & L & E)|(E & H2)];
      [apply stored_1|lia|left; exists i, v; split; assumption|]. rewrite E. unfold L2.
    destruct (find_step_ok hash _ _ _ _ _ I key (1 + 1) L3 H2) as [(i & v & En & L & E')|(E' & H3)];
      [lia|left; exists i, v; split; assumption|]. rewrite E'. unfold L3.
    destruct (find_loop_ok hash _ _ _ _ _ I (fuel (m_buckets t)) key (1 + 1 + 1) H3) as [(i & (v & En) & L & Ef)|(A & Ef)].
    + lia.
    + unfold fuel, size_of in *. lia.
    + left. exists i, v. split; assumption.
    + right. split; [apply absent_missing; assumption|exact Ef].
Qed.

(** ** Removal *)
Lemma erase_ok : forall t key, TInv t ->
  (missing t key /\ erase hash t key = Ok (t, 0)) \/
  (exists i v t', nthv (m_values t) i = Some (key, v) /\ erase hash t key = Ok (t', 1) /\ TInv t' /\
     len (m_values t') = len (m_values t) - 1 /\
     (forall k w, has (m_values t') k w <-> has (m_values t) k w /\ k <> key)).
Proof.
  intros t key T. pose proof (t_inv _ T) as I. unfold erase.
  destruct (m_values t) as [|e0 r0] eqn:Ev.
  - left. split; [|reflexivity]. intros i w H. rewrite Ev in H. apply nthv_range in H. cbn in H. lia.
  - rewrite <- Ev in *. pose proof (fp_range hash key) as F. pose proof (i_c _ _ _ _ _ _ I) as C.
    pose proof (N_bounds hash _ _ _ _ _ I) as NB.
    assert (C1 : 1 <= len (m_values t)) by (unfold len; rewrite Ev; cbn [length]; lia).
    destruct (less_ok hash hash_range _ _ _ _ _ I key) as (e & E1 & He & Hle & _ & Hst). rewrite E1. cbn [rbind].
    destruct (erase_loop_ok hash _ _ _ _ _ I (fuel (m_buckets t)) key e Hst ltac:(lia) Hle ltac:(unfold fuel, size_of in *; lia))
      as (d & _ & E2 & R). rewrite E2. cbn [rbind].
    rewrite (at_pos hash _ _ _ _ _ I). cbn [rbind].
    destruct R as [(r & St)|(A & Ne)].
    + right. pose proof St as (Lr & (v & Er) & HD & Ed & Vr). rewrite Ed, Z.eqb_refl.
      destruct (shift_down_inv hash _ _ _ _ I key r d St) as (bs' & S1 & SZ & I').
      unfold do_erase. rewrite (at_pos hash _ _ _ _ _ I). cbn [rbind]. rewrite Vr, S1. cbn [rbind].
      change (Z.of_nat (length (m_values t))) with (len (m_values t)).
      set (c := len (m_values t)) in *. unfold below in Lr.
      destruct (r <? 0) eqn:B1; [apply Z.ltb_lt in B1; lia|]. destruct (c - 1 <? r) eqn:B2; [apply Z.ltb_lt in B2; lia|]. cbn [orb].
      exists r, v. destruct (r =? c - 1) eqn:B3.
      * apply Z.eqb_eq in B3. eexists. split; [exact Er|]. split; [cbn [rbind]; reflexivity|].
        assert (I2 : Inv (removelast (m_values t)) bs' (m_shifts t) (c - 1) (below (c - 1))).
        { apply drop_last_inv; [|reflexivity|lia]. rewrite <- B3. exact I'. }
        assert (Lr' : len (removelast (m_values t)) = c - 1) by (unfold len; rewrite length_removelast; unfold c, len in *; lia).
        split; [|split].
        -- constructor; cbn [m_values m_buckets m_shifts m_cap].
           ++ rewrite Lr'. exact I2.
           ++ apply (t_s _ T).
           ++ rewrite SZ. apply (t_cap _ T).
           ++ pose proof (t_full _ T). fold c in H. lia.
        -- exact Lr'.
        -- cbn [m_values]. intros k w. split.
           ++ intros (i & Hi). rewrite nthv_removelast in Hi. fold (len (m_values t)) in Hi. fold c in Hi.
              destruct (i <? c - 1) eqn:Q; [|discriminate]. apply Z.ltb_lt in Q. split; [exists i; exact Hi|].
              intros ->. assert (Q2 := i_keys _ _ _ _ _ _ I _ _ _ _ _ Hi Er). lia.
           ++ intros ((i & Hi) & Nk). exists i. rewrite nthv_removelast. fold (len (m_values t)). fold c.
              pose proof (nthv_range _ _ _ Hi) as Ri. fold (len (m_values t)) in Ri. fold c in Ri.
              destruct (i <? c - 1) eqn:Q; [exact Hi|]. apply Z.ltb_ge in Q. exfalso. assert (i = r) by lia. subst i. congruence.
      * apply Z.eqb_neq in B3.
        destruct (nthv_ex (m_values t) (c - 1)) as (kb & vb & Eb); [fold (len (m_values t)); fold c; lia|].
        assert (Eb' : nth_error (m_values t) (Z.to_nat (c - 1)) = Some (kb, vb)).
        { unfold nthv in Eb. destruct (c - 1 <? 0); [discriminate|exact Eb]. }
        rewrite Eb'. cbn [fst].
        destruct (stored_ex hash _ _ _ _ _ I' kb (c - 1) vb) as (D & StB); [unfold below; split; lia|exact Eb|].
        pose proof StB as (_ & _ & HDb & Edb & Vdb).
        assert (W : wrap32 (c - 1) = c - 1) by (unfold wrap32; unfold limit in C; apply Z.mod_small; lia). rewrite W.
        rewrite (pos_1 hash hash_range _ _ _ _ _ I').
        rewrite (seek_ok hash _ _ _ _ _ I' (fuel bs') kb (c - 1) D 1 StB) by (unfold fuel, size_of in *; lia).
        cbn [rbind]. rewrite (at_pos hash _ _ _ _ _ I'). cbn [rbind].
        rewrite set_ok by (apply (pos_range hash _ _ _ _ _ I')). cbn [rbind].
        rewrite <- (bk_pos hash _ _ _ _ _ I').
        eexists. split; [exact Er|]. split; [reflexivity|].
        assert (I2 := rename_inv hash _ _ _ _ r kb vb D I' eq_refl ltac:(lia) Eb StB).
        set (vs' := removelast (set_nth (m_values t) (Z.to_nat r) (kb, vb))) in *.
        assert (Lr' : len vs' = c - 1) by (unfold len, vs'; rewrite length_removelast, set_nth_length; unfold c, len in *; lia).
        assert (NV : forall i, nthv vs' i = if i <? c - 1 then (if i =? r then Some (kb, vb) else nthv (m_values t) i) else None).
        { intros i. unfold vs'. rewrite nthv_removelast, set_nth_length. fold (len (m_values t)). fold c.
          rewrite nthv_set by (fold (len (m_values t)); fold c; lia). reflexivity. }
        split; [|split].
        -- constructor; cbn [m_values m_buckets m_shifts m_cap].
           ++ rewrite Lr'. exact I2.
           ++ apply (t_s _ T).
           ++ rewrite size_set, SZ. apply (t_cap _ T).
           ++ pose proof (t_full _ T). fold c in H. lia.
        -- exact Lr'.
        -- cbn [m_values]. intros k w. split.
           ++ intros (i & Hi). rewrite NV in Hi. destruct (i <? c - 1) eqn:Q; [|discriminate]. apply Z.ltb_lt in Q.
              destruct (i =? r) eqn:Q2.
              ** injection Hi as <- <-. split; [exists (c - 1); exact Eb|]. intros ->.
                 assert (Q3 := i_keys _ _ _ _ _ _ I _ _ _ _ _ Eb Er). lia.
              ** apply Z.eqb_neq in Q2. split; [exists i; exact Hi|]. intros ->.
                 assert (Q3 := i_keys _ _ _ _ _ _ I _ _ _ _ _ Hi Er). lia.
           ++ intros ((i & Hi) & Nk). pose proof (nthv_range _ _ _ Hi) as Ri. fold (len (m_values t)) in Ri. fold c in Ri.
              assert (i <> r) by (intros ->; congruence).
              destruct (Z.eq_dec i (c - 1)) as [->|Ni].
              ** exists r. rewrite NV. destruct (r <? c - 1) eqn:Q; [|apply Z.ltb_ge in Q; lia]. rewrite Z.eqb_refl. congruence.
              ** exists i. rewrite NV. destruct (i <? c - 1) eqn:Q; [|apply Z.ltb_ge in Q; lia].
                 destruct (i =? r) eqn:Q2; [apply Z.eqb_eq in Q2; lia|exact Hi].
    + left. split; [apply absent_missing; assumption|].
      destruct (256 * d + fp hash key =? daf (bk (m_buckets t) (home hash (m_shifts t) key + d - 1))) eqn:Q; [apply Z.eqb_eq in Q; congruence|reflexivity].
Qed.

(** ** The empty table, clear, copy, replacing a value *)
Lemma empty_keys : uniq_keys (@nil (Z * V)).
Proof. intros i j k v w H. apply nthv_range in H. cbn in H; lia. Qed.
Lemma empty_ok : TInv (@empty_table V).
Proof.
  unfold empty_table, initial_shifts. constructor; cbn [m_values m_buckets m_shifts m_cap].
  - apply empty_inv; [lia|apply fresh_size; lia|intros; apply bk_repeat|exact empty_keys].
  - lia.
  - rewrite fresh_size, calc_num by lia. reflexivity.
  - rewrite calc_num by lia. pose proof (cap_bounds 62 ltac:(lia)). cbn; lia.
Qed.
Lemma clear_ok : forall t, TInv t -> TInv (clear t) /\ m_values (clear t) = [].
Proof.
  intros t T. destruct (t_lt t T) as (TL & T3 & TN & TS). split; [|reflexivity].
  assert (SZ : size_of (repeat (Bk 0 0) (length (m_buckets t))) = size_of (m_buckets t)) by (unfold size_of; rewrite repeat_length; reflexivity).
  unfold clear. constructor; cbn [m_values m_buckets m_shifts m_cap].
  - apply empty_inv; [lia|rewrite SZ; exact TN|intros; apply bk_repeat|exact empty_keys].
  - apply (t_s _ T).
  - rewrite SZ. apply (t_cap _ T).
  - cbn; lia.
Qed.
Lemma copy_ok : forall t, TInv t -> TInv (copy t) /\ m_values (copy t) = m_values t.
Proof.
  intros t T. destruct (t_lt t T) as (TL & T3 & TN & TS). unfold copy. destruct (m_values t) as [|e r] eqn:Ev.
  - split; [exact empty_ok|reflexivity].
  - split; [|reflexivity]. rewrite <- Ev.
    assert (Q : capacity (calc_num_buckets (m_shifts t)) = m_cap t) by (rewrite (t_cap _ T), TN, calc_num by lia; reflexivity).
    constructor; cbn [m_values m_buckets m_shifts m_cap]; rewrite ?Q; apply T.
Qed.
Lemma set_value_ok : forall t i key w v, TInv t -> nthv (m_values t) i = Some (key, w) ->
  TInv (mk_table (set_nth (m_values t) (Z.to_nat i) (key, v)) (m_buckets t) (m_shifts t) (m_cap t)).
Proof.
  intros t i key w v T E. pose proof (nthv_range _ _ _ E) as R.
  assert (L : len (set_nth (m_values t) (Z.to_nat i) (key, v)) = len (m_values t)) by (unfold len; rewrite set_nth_length; reflexivity).
  assert (M : map fst (set_nth (m_values t) (Z.to_nat i) (key, v)) = map fst (m_values t)).
  { unfold nthv in E. destruct (i <? 0); [discriminate|]. revert E. generalize (Z.to_nat i) as n. generalize (m_values t) as l.
    induction l as [|[k0 v0] l IH]; intros [|n] E; cbn in *; try discriminate.
    - injection E as -> ->. reflexivity.
    - f_equal. apply IH; exact E. }
  constructor; cbn [m_values m_buckets m_shifts m_cap]; rewrite ?L.
  - eapply values_inv; [apply T|exact M].
  - apply (t_s _ T).
  - apply (t_cap _ T).
  - apply (t_full _ T).
Qed.

(** ** Refinement *)
Record R (t : table V) (l : list (Z * V)) : Prop := mkR {
  r_t : TInv t;
  r_nd : NoDup (map fst l);
  r_len : length (m_values t) = length l;
  r_in : forall k v, has (m_values t) k v <-> In (k, v) l }.

Lemma R_lookup : forall t l i k v, R t l -> nthv (m_values t) i = Some (k, v) -> lookup l k = Some v.
Proof. intros t l i k v HR E. apply in_lookup; [apply (r_nd _ _ HR)|]. apply (r_in _ _ HR). exists i; exact E. Qed.
Lemma R_missing : forall t l k, R t l -> missing t k -> lookup l k = None.
Proof. intros t l k HR M. apply lookup_none. intros v Hin. apply (r_in _ _ HR) in Hin. destruct Hin as (i & Hi). apply (M i v); exact Hi. Qed.

Lemma bind_in : forall (l : list (Z * V)) k v k' w, In (k', w) (bind l k v) <-> (k' = k /\ w = v) \/ (In (k', w) l /\ k' <> k).
Proof.
  intros l k v k' w. unfold bind. cbn [In]. rewrite without_in. split; intros [H|H]; auto.
  - injection H as <- <-. left; split; reflexivity.
  - destruct H as [-> ->]; left; reflexivity.
Qed.
Lemma bind_nodup : forall (l : list (Z * V)) k v, NoDup (map fst l) -> NoDup (map fst (bind l k v)).
Proof.
  intros l k v ND. unfold bind. cbn [map fst]. constructor; [|apply without_nodup; exact ND].
  intros Hin. apply in_map_iff in Hin. destruct Hin as ([k' w] & E & H). cbn in E; subst k'. apply without_in in H. destruct H; congruence.
Qed.

Lemma R_add : forall t l t' k v, R t l -> missing t k -> TInv t' -> m_values t' = m_values t ++ [(k, v)] -> R t' (bind l k v).
Proof.
  intros t l t' k v HR M T' E. pose proof (R_missing _ _ _ HR M) as LN. constructor.
  - exact T'.
  - apply bind_nodup, (r_nd _ _ HR).
  - rewrite E, app_length. unfold bind. rewrite without_none by exact LN. cbn [length]. rewrite (r_len _ _ HR). lia.
  - intros k' w. rewrite bind_in, has_in, E, in_app_iff. cbn [In]. rewrite <- has_in, (r_in _ _ HR). split.
    + intros [H|[H|[]]].
      * right. split; [exact H|]. intros ->. rewrite lookup_none in LN. apply (LN w); exact H.
      * injection H as <- <-. left; split; reflexivity.
    + intros [[-> ->]|[H _]]; [right; left; reflexivity|left; exact H].
Qed.
Lemma R_set : forall t l i k w v, R t l -> nthv (m_values t) i = Some (k, w) ->
  R (mk_table (set_nth (m_values t) (Z.to_nat i) (k, v)) (m_buckets t) (m_shifts t) (m_cap t)) (bind l k v).
Proof.
  intros t l i k w v HR E. pose proof (R_lookup _ _ _ _ _ HR E) as LK. pose proof (nthv_range _ _ _ E) as Ri. constructor.
  - eapply set_value_ok; [apply (r_t _ _ HR)|exact E].
  - apply bind_nodup, (r_nd _ _ HR).
  - cbn [m_values]. rewrite set_nth_length. unfold bind. cbn [length]. rewrite (without_length l k w (r_nd _ _ HR) LK). apply (r_len _ _ HR).
  - intros k' u. cbn [m_values]. rewrite bind_in. split.
    + intros (j & Hj). rewrite nthv_set in Hj by exact Ri. destruct (j =? i) eqn:Q.
      * injection Hj as <- <-. left; split; reflexivity.
      * apply Z.eqb_neq in Q. right. split; [apply (r_in _ _ HR); exists j; exact Hj|]. intros ->.
        apply Q. eapply (i_keys _ _ _ _ _ _ (t_inv _ (r_t _ _ HR))); eassumption.
    + intros [[-> ->]|[H Nk]].
      * exists i. rewrite nthv_set, Z.eqb_refl by exact Ri. reflexivity.
      * apply (r_in _ _ HR) in H. destruct H as (j & Hj). exists j. rewrite nthv_set by exact Ri.
        destruct (j =? i) eqn:Q; [|exact Hj]. apply Z.eqb_eq in Q; subst j. congruence.
Qed.

Variable dflt : V.
Lemma step_ok : forall t l o, R t l -> len l <= limit -> len (fst (spec_step dflt l o)) <= limit ->
  exists t', step hash dflt t o = Ok (t', snd (spec_step dflt l o)) /\ R t' (fst (spec_step dflt l o)).
Proof.
  intros t l o HR HL HL'. pose proof (r_t _ _ HR) as T.
  assert (LE : len (m_values t) = len l) by (unfold len; rewrite (r_len _ _ HR); reflexivity).
  assert (GROW : forall k v, missing t k -> len (bind l k v) <= limit -> len (m_values t) + 1 <= limit).
  { intros k v M H. pose proof (R_missing _ _ _ HR M) as LN. unfold bind in H. rewrite without_none in H by exact LN.
    unfold len in *. cbn [length] in H. lia. }
  destruct o as [k|k|k|k v|k v|k| | |]; cbn [step spec_step] in *.
  - destruct (find_ok t k T) as [(i & v & Ei & E)|(M & E)]; rewrite E; cbn [rbind result_of].
    + rewrite (value_at_nthv _ _ _ _ Ei). cbn [rbind fst snd]. rewrite (R_lookup _ _ _ _ _ HR Ei). eexists; split; [reflexivity|exact HR].
    + cbn [fst snd]. rewrite (R_missing _ _ _ HR M). eexists; split; [reflexivity|exact HR].
  - unfold at_key. destruct (find_ok t k T) as [(i & v & Ei & E)|(M & E)]; rewrite E; cbn [rbind].
    + rewrite (value_at_nthv _ _ _ _ Ei). cbn [fst snd]. rewrite (R_lookup _ _ _ _ _ HR Ei). eexists; split; [reflexivity|exact HR].
    + cbn [fst snd]. rewrite (R_missing _ _ _ HR M). eexists; split; [reflexivity|exact HR].
  - unfold subscript. destruct (try_emplace_ok t k dflt T) as [(i & w & Ei & E)|(M & H)].
    + rewrite E. cbn [rbind]. rewrite (value_at_nthv _ _ _ _ Ei). cbn [rbind]. rewrite (R_lookup _ _ _ _ _ HR Ei).
      eexists; split; [reflexivity|exact HR].
    + rewrite (R_missing _ _ _ HR M) in *. cbn [fst snd] in *. destruct (H (GROW _ _ M HL')) as (t' & E & T' & V').
      rewrite E. cbn [rbind].
      assert (NV : nthv (m_values t') (len (m_values t)) = Some (k, dflt)).
      { rewrite V'. unfold nthv, len. destruct (Z.of_nat (length (m_values t)) <? 0) eqn:Q; [apply Z.ltb_lt in Q; lia|].
        rewrite Nat2Z.id, nth_error_app2, Nat.sub_diag by lia. reflexivity. }
      rewrite (value_at_nthv _ _ _ _ NV). cbn [rbind]. eexists; split; [reflexivity|]. eapply R_add; eassumption.
  - unfold assign. destruct (try_emplace_ok t k dflt T) as [(i & w & Ei & E)|(M & H)].
    + rewrite E. cbn [rbind]. pose proof (nthv_range _ _ _ Ei) as Ri.
      destruct (i <? 0) eqn:Q1; [apply Z.ltb_lt in Q1; lia|]. destruct (Z.of_nat (length (m_values t)) <=? i) eqn:Q2; [apply Z.leb_le in Q2; lia|].
      cbn [orb rbind fst snd]. eexists; split; [reflexivity|]. eapply R_set; eassumption.
    + cbn [fst snd] in *. destruct (H (GROW _ _ M HL')) as (t' & E & T' & V'). rewrite E. cbn [rbind].
      assert (NV : nthv (m_values t') (len (m_values t)) = Some (k, dflt)).
      { rewrite V'. unfold nthv, len. destruct (Z.of_nat (length (m_values t)) <? 0) eqn:Q; [apply Z.ltb_lt in Q; lia|].
        rewrite Nat2Z.id, nth_error_app2, Nat.sub_diag by lia. reflexivity. }
      pose proof (nthv_range _ _ _ NV) as Ri.
      destruct (len (m_values t) <? 0) eqn:Q1; [apply Z.ltb_lt in Q1; lia|].
      destruct (Z.of_nat (length (m_values t')) <=? len (m_values t)) eqn:Q2; [apply Z.leb_le in Q2; lia|].
      cbn [orb rbind]. eexists; split; [reflexivity|].
      assert (HR' : R t' (bind l k dflt)) by (eapply R_add; eassumption).
      assert (HR2 := R_set _ _ _ _ _ v HR' NV).
      assert (EQ : bind (bind l k dflt) k v = bind l k v).
      { unfold bind, without. cbn [filter fst]. rewrite Z.eqb_refl. cbn [negb]. f_equal.
        fold (without l k). rewrite (without_none l k) by (apply (R_missing _ _ _ HR M)).
        apply without_none. apply (R_missing _ _ _ HR M). }
      rewrite EQ in HR2. exact HR2.
  - destruct (emplace_ok t k v T) as [(i & w & Ei & E)|(M & H)].
    + rewrite E. cbn [rbind]. rewrite (value_at_nthv _ _ _ _ Ei). cbn [rbind]. rewrite (R_lookup _ _ _ _ _ HR Ei).
      eexists; split; [reflexivity|exact HR].
    + rewrite (R_missing _ _ _ HR M) in *. cbn [fst snd] in *. destruct (H (GROW _ _ M HL')) as (t' & E & T' & V').
      rewrite E. cbn [rbind].
      assert (NV : nthv (m_values t') (len (m_values t)) = Some (k, v)).
      { rewrite V'. unfold nthv, len. destruct (Z.of_nat (length (m_values t)) <? 0) eqn:Q; [apply Z.ltb_lt in Q; lia|].
        rewrite Nat2Z.id, nth_error_app2, Nat.sub_diag by lia. reflexivity. }
      rewrite (value_at_nthv _ _ _ _ NV). cbn [rbind]. eexists; split; [reflexivity|]. eapply R_add; eassumption.
  - destruct (erase_ok t k T) as [(M & E)|(i & v & t' & Ei & E & T' & L' & H')].
    + rewrite E. cbn [rbind]. rewrite (R_missing _ _ _ HR M). eexists; split; [reflexivity|exact HR].
    + rewrite E. cbn [rbind]. pose proof (R_lookup _ _ _ _ _ HR Ei) as LK. rewrite LK. cbn [fst snd].
      eexists; split; [reflexivity|]. constructor.
      * exact T'.
      * apply without_nodup, (r_nd _ _ HR).
      * pose proof (without_length l k v (r_nd _ _ HR) LK). pose proof (r_len _ _ HR). unfold len in L'. lia.
      * intros k' w. rewrite H', without_in, (r_in _ _ HR). reflexivity.
  - destruct (clear_ok t T) as (T' & E). eexists; split; [reflexivity|]. cbn [fst]. constructor.
    + exact T'.
    + constructor.
    + rewrite E; reflexivity.
    + intros k v. rewrite has_in, E. reflexivity.
  - destruct (copy_ok t T) as (T' & E). eexists; split; [reflexivity|]. cbn [fst]. constructor.
    + exact T'.
    + apply (r_nd _ _ HR).
    + rewrite E; apply (r_len _ _ HR).
    + intros k v. rewrite E. apply (r_in _ _ HR).
  - cbn [snd fst]. rewrite <- (r_len _ _ HR). eexists; split; [reflexivity|exact HR].
Qed.

Lemma steps_ok : forall os t l, R t l -> stays_below limit dflt l os ->
  exists t', steps hash dflt t os = Ok (t', snd (spec_run dflt l os)) /\ R t' (fst (spec_run dflt l os)).
Proof.
  induction os as [|o os IH]; intros t l HR SB; cbn [steps spec_run].
  - exists t. split; [reflexivity|exact HR].
  - cbn [stays_below] in SB. destruct SB as (SB1 & SB2).
    assert (SB3 : len (fst (spec_step dflt l o)) <= limit) by (destruct os; cbn [stays_below] in SB2; apply SB2).
    destruct (step_ok t l o HR SB1 SB3) as (t1 & E1 & R1). rewrite E1. cbn [rbind].
    destruct (IH t1 _ R1 SB2) as (t2 & E2 & R2). rewrite E2. cbn [rbind].
    destruct (spec_step dflt l o) as [l1 a]. cbn [fst snd] in *. destruct (spec_run dflt l1 os) as [l2 b]. cbn [fst snd] in *.
    exists t2. split; [reflexivity|exact R2].
Qed.

Lemma R_empty : R empty_table [].
Proof. constructor; [exact empty_ok|constructor|reflexivity|]. intros k v. rewrite has_in. reflexivity. Qed.

Lemma R_perm : forall t l, R t l -> Permutation (m_values t) l.
Proof.
  intros t l HR. pose proof (i_keys _ _ _ _ _ _ (t_inv _ (r_t _ _ HR))) as U. apply uniq_nodup in U.
  apply NoDup_Permutation.
  - eapply NoDup_map_inv; exact U.
  - eapply NoDup_map_inv; apply (r_nd _ _ HR).
  - intros [k v]. rewrite <- has_in. apply (r_in _ _ HR).
Qed.

(** operator== *)
Lemma all_in_ok : forall (same : V -> V -> bool) t l b, R t l ->
  all_in hash same t b = Ok (forallb (fun e => match lookup l (fst e) with Some w => same (snd e) w | None => false end) b).
Proof.
  intros same t l b HR. induction b as [|[k v] b IH]; [reflexivity|]. cbn [all_in forallb fst snd].
  destruct (find_ok t k (r_t _ _ HR)) as [(i & w & Ei & E)|(M & E)]; rewrite E; cbn [rbind].
  - rewrite (value_at_nthv _ _ _ _ Ei). cbn [rbind]. rewrite (R_lookup _ _ _ _ _ HR Ei). destruct (same v w); [exact IH|reflexivity].
  - rewrite (R_missing _ _ _ HR M). reflexivity.
Qed.

Lemma same_map_length : forall a b : list (Z * V), NoDup (map fst a) -> NoDup (map fst b) -> same_map a b -> Permutation a b.
Proof.
  intros a b Na Nb S. apply NoDup_Permutation; [eapply NoDup_map_inv; exact Na|eapply NoDup_map_inv; exact Nb|].
  intros [k v]. split; intros H.
  - apply lookup_in. rewrite <- S. apply in_lookup; assumption.
  - apply lookup_in. rewrite S. apply in_lookup; assumption.
Qed.

Lemma equal_ok : forall (same : V -> V -> bool) t1 l1 t2 l2, (forall v w, same v w = true <-> v = w) -> R t1 l1 -> R t2 l2 ->
  exists b, equal_tables hash same t1 t2 = Ok b /\ (b = true <-> same_map l1 l2).
Proof.
  intros same t1 l1 t2 l2 HS R1 R2. unfold equal_tables.
  destruct (Nat.eqb (length (m_values t1)) (length (m_values t2))) eqn:E.
  - apply Nat.eqb_eq in E. rewrite (all_in_ok same t1 l1 _ R1). eexists; split; [reflexivity|]. rewrite forallb_forall.
    assert (P2 := R_perm _ _ R2). split.
    + intros H. assert (INC : incl l2 l1).
      { intros [k v] Hin. assert (Q : In (k, v) (m_values t2)) by (eapply Permutation_in; [symmetry; exact P2|exact Hin]).
        apply H in Q. cbn [fst snd] in Q. destruct (lookup l1 k) as [w|] eqn:LK; [|discriminate]. apply HS in Q; subst w. apply lookup_in; exact LK. }
      assert (ND2 : NoDup l2) by (eapply NoDup_map_inv; apply (r_nd _ _ R2)).
      assert (INC2 : incl l1 l2).
      { apply NoDup_length_incl; [exact ND2| |exact INC]. rewrite <- (r_len _ _ R1), <- (r_len _ _ R2). lia. }
      intros k. destruct (lookup l1 k) as [v|] eqn:A; destruct (lookup l2 k) as [w|] eqn:B; try reflexivity.
      * apply lookup_in in A. apply INC2 in A. apply (in_lookup _ _ _ (r_nd _ _ R2)) in A. congruence.
      * apply lookup_in in A. apply INC2 in A. apply (in_lookup _ _ _ (r_nd _ _ R2)) in A. congruence.
      * apply lookup_in in B. apply INC in B. apply (in_lookup _ _ _ (r_nd _ _ R1)) in B. congruence.
    + intros S [k v] Hin. cbn [fst snd]. rewrite S.
      assert (Q : In (k, v) l2) by (eapply Permutation_in; [exact P2|exact Hin]).
      rewrite (in_lookup _ _ _ (r_nd _ _ R2) Q). apply HS; reflexivity.
  - apply Nat.eqb_neq in E. eexists; split; [reflexivity|]. split; [discriminate|]. intros S. exfalso. apply E.
    rewrite (r_len _ _ R1), (r_len _ _ R2). apply Permutation_length. apply same_map_length; [apply R1|apply R2|exact S].
Qed.
End Table.

(** ** The theorems *)
Lemma finite_map_thm : forall (V : Type) (hash : Z -> Z) (dflt : V) (os : list (op V)),
  (forall k, 0 <= hash k < 2 ^ 64) -> stays_below (2 ^ 24 - 2) dflt [] os ->
  exists t, steps hash dflt empty_table os = Ok (t, snd (spec_run dflt [] os)) /\
    Permutation (m_values t) (fst (spec_run dflt [] os)) /\ NoDup (map fst (m_values t)).
Proof.
  intros V hash dflt os Hh SB. destruct (steps_ok hash Hh dflt os _ _ (R_empty hash) SB) as (t & E & HR).
  exists t. split; [exact E|]. split; [apply (R_perm hash); exact HR|].
  apply uniq_nodup. exact (i_keys _ _ _ _ _ _ (t_inv _ _ (r_t _ _ _ HR))).
Qed.

Lemma equality_thm : forall (V : Type) (hash : Z -> Z) (dflt : V) (same : V -> V -> bool) (os1 os2 : list (op V)) t1 a1 t2 a2,
  (forall k, 0 <= hash k < 2 ^ 64) -> (forall v w, same v w = true <-> v = w) ->
  stays_below (2 ^ 24 - 2) dflt [] os1 -> stays_below (2 ^ 24 - 2) dflt [] os2 ->
  steps hash dflt empty_table os1 = Ok (t1, a1) -> steps hash dflt empty_table os2 = Ok (t2, a2) ->
  exists b, equal_tables hash same t1 t2 = Ok b /\
    (b = true <-> same_map (fst (spec_run dflt [] os1)) (fst (spec_run dflt [] os2))).
Proof.
  intros V hash dflt same os1 os2 t1 a1 t2 a2 Hh HS B1 B2 E1 E2.
  destruct (steps_ok hash Hh dflt os1 _ _ (R_empty hash) B1) as (u1 & F1 & R1).
  destruct (steps_ok hash Hh dflt os2 _ _ (R_empty hash) B2) as (u2 & F2 & R2).
  rewrite E1 in F1. rewrite E2 in F2. injection F1 as <- _. injection F2 as <- _.
  exact (equal_ok hash Hh same _ _ _ _ HS R1 R2).
Qed.

Lemma hash_thm : forall k, 0 <= hash_int k < 2 ^ 64.
Proof. exact (fun k => wyhash_range (k mod 2 ^ 64)). Qed.

Lemma product_thm : forall a b, 0 <= a < 2 ^ 64 -> 0 <= b < 2 ^ 64 ->
  mum_portable a b = mum a b /\ fst (mum a b) + snd (mum a b) * 2 ^ 64 = a * b.
Proof.
  intros a b Ha Hb. split; [apply mum_portable_ok; assumption|].
  unfold mum. cbn [fst snd].
  assert (Q : 0 <= a * b < 2 ^ 64 * 2 ^ 64) by (split; [apply Z.mul_nonneg_nonneg; lia|apply Z.mul_lt_mono_nonneg; lia]).
  rewrite (Z.mod_small (a * b / 2 ^ 64)) by (split; [apply Z.div_pos; lia|apply Z.div_lt_upper_bound; lia]).
  pose proof (Z.div_mod (a * b) (2 ^ 64) ltac:(lia)). lia.
Qed.

Lemma distance_bits_thm : forall d f, 0 <= f < 256 -> 0 <= d -> 
  (dist_inc (256 * d + f) = 256 * (d + 1) + f <-> d <= 2 ^ 24 - 2) /\ dist_inc (256 * (2 ^ 24 - 1) + 0) = 0.
Proof.
  intros d f Hf Hd. split; [|reflexivity]. split.
  - intros H. destruct (Z_le_gt_dec d (2 ^ 24 - 2)) as [L|G]; [exact L|]. exfalso.
    unfold dist_inc, wrap32, dist_step in H. pose proof (Z.mod_pos_bound (256 * d + f + 256) (2 ^ 32) ltac:(lia)). lia.
  - intros L. apply inc_ok; lia.
Qed.
