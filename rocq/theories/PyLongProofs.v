From Coq Require Import ZArith List Bool Lia Znumtheory.
From Verif Require Import Base PyLongModel.
Import ListNotations.
Local Open Scope Z_scope.

(** * wrap *)
Lemma pow2_pos b : 0 <= b -> 0 < 2 ^ b.
Proof. intros; apply Z.pow_pos_nonneg; lia. Qed.

Lemma pow2_half b : 1 <= b -> 2 ^ b = 2 * 2 ^ (b - 1).
Proof. intros. rewrite <- Z.pow_succ_r by lia. f_equal; lia. Qed.

Lemma wrap_range b z : 1 <= b -> in_sbits b (wrap b z).
Proof.
  intros H. unfold in_sbits, wrap. rewrite (pow2_half b H).
  pose proof (Z.mod_pos_bound (z + 2 ^ (b - 1)) (2 * 2 ^ (b - 1))).
  pose proof (pow2_pos (b - 1)). lia.
Qed.

Lemma wrap_id b z : 1 <= b -> in_sbits b z -> wrap b z = z.
Proof.
  unfold in_sbits, wrap; intros H Hz.
  rewrite Z.mod_small; [lia|]. rewrite (pow2_half b H). lia.
Qed.

Lemma wrap_cong b z : 1 <= b -> exists k, wrap b z = z + k * 2 ^ b.
Proof.
  intros H. unfold wrap. exists (- ((z + 2 ^ (b - 1)) / 2 ^ b)).
  rewrite Z.mod_eq by (pose proof (pow2_pos b); lia). lia.
Qed.

Lemma wrap_shift b z k : 1 <= b -> wrap b (z + k * 2 ^ b) = wrap b z.
Proof.
  intros H. unfold wrap.
  replace (z + k * 2 ^ b + 2 ^ (b - 1)) with (z + 2 ^ (b - 1) + k * 2 ^ b) by lia.
  rewrite Z.mod_add; [lia|]. pose proof (pow2_pos b); lia.
Qed.

Lemma wrap_unique b z v :
  1 <= b -> in_sbits b v -> (exists k, v = z + k * 2 ^ b) -> wrap b z = v.
Proof.
  intros H Hv [k ->]. rewrite <- (wrap_id b (z + k * 2 ^ b)) by assumption.
  symmetry; apply wrap_shift; lia.
Qed.

Lemma in_sbits_b_spec b z : in_sbits_b b z = true <-> in_sbits b z.
Proof.
  unfold in_sbits_b, in_sbits. rewrite andb_true_iff, Z.leb_le, Z.ltb_lt. tauto.
Qed.

Lemma in_sbits_b_false b z : in_sbits_b b z = false <-> ~ in_sbits b z.
Proof.
  rewrite <- in_sbits_b_spec. destruct (in_sbits_b b z); intuition congruence.
Qed.

(** * Canonical digits *)
Lemma base_pos : 0 < PyLong_BASE. Proof. reflexivity. Qed.

Lemma digits_fuel_val fuel z :
  0 <= z < 2 ^ Z.of_nat fuel -> digits_val (digits_fuel fuel z) = z.
Proof.
  revert z; induction fuel as [|f IH]; intros z Hz.
  - cbn in *. lia.
  - cbn [digits_fuel]. destruct (Z.leb_spec z 0).
    + cbn. lia.
    + cbn [digits_val]. rewrite IH.
      * pose proof base_pos. pose proof (Z.div_mod z PyLong_BASE). lia.
      * split; [apply Z.div_pos; [lia|reflexivity]|].
        apply Z.div_lt_upper_bound; [reflexivity|].
        rewrite Nat2Z.inj_succ, Z.pow_succ_r in Hz by lia.
        unfold PyLong_BASE. assert (2 <= 2 ^ 30) by (cbv; congruence).
        pose proof (pow2_pos (Z.of_nat f)). nia.
Qed.

Lemma digits_of_val z : 0 <= z -> digits_val (digits_of z) = z.
Proof.
  intros Hz. unfold digits_of. apply digits_fuel_val. split; [lia|].
  destruct (Z.eq_dec z 0) as [->|].
  - cbn. lia.
  - pose proof (Z.log2_nonneg z).
    replace (Z.of_nat (Z.to_nat (Z.log2 z) + 1)) with (Z.succ (Z.log2 z)) by lia.
    apply Z.log2_spec; lia.
Qed.

Lemma digits_fuel_forall fuel z :
  Forall (fun d => 0 <= d < PyLong_BASE) (digits_fuel fuel z).
Proof.
  revert z; induction fuel as [|f IH]; intros z; cbn [digits_fuel]; [constructor|].
  destruct (z <=? 0); constructor; [|apply IH].
  apply Z.mod_pos_bound; reflexivity.
Qed.

Lemma digits_fuel_last fuel z l d :
  0 <= z < 2 ^ Z.of_nat fuel ->
  digits_fuel fuel z = l ++ [d] -> d <> 0.
Proof.
  revert z l; induction fuel as [|f IH]; intros z l Hz; cbn [digits_fuel].
  - destruct l; discriminate.
  - destruct (Z.leb_spec z 0) as [|Hpos]; [destruct l; discriminate|].
    assert (Hq : 0 <= z / PyLong_BASE < 2 ^ Z.of_nat f).
    { split; [apply Z.div_pos; [lia|reflexivity]|].
      apply Z.div_lt_upper_bound; [reflexivity|].
      rewrite Nat2Z.inj_succ, Z.pow_succ_r in Hz by lia.
      unfold PyLong_BASE. assert (2 <= 2 ^ 30) by (cbv; congruence).
      pose proof (pow2_pos (Z.of_nat f)). nia. }
    destruct l as [|x l]; cbn [app]; intros E; injection E as E1 E2.
    + intros ->.
      pose proof (digits_fuel_val f _ Hq) as V. rewrite E2 in V. cbn [digits_val] in V.
      pose proof (Z.div_mod z PyLong_BASE). pose proof base_pos. lia.
    + eapply IH; eauto.
Qed.

Lemma mk_pylong_val z : pl_val (mk_pylong z) = z.
Proof.
  unfold pl_val, mk_pylong; cbn. rewrite digits_of_val by lia.
  destruct (Z.ltb_spec z 0); lia.
Qed.

Lemma mk_pylong_wf z : pl_wf (mk_pylong z).
Proof.
  unfold pl_wf, mk_pylong; cbn. repeat split.
  - apply digits_fuel_forall.
  - intros l d E. unfold digits_of in E. eapply digits_fuel_last; [|exact E].
    split; [lia|]. destruct (Z.eq_dec z 0) as [->|]; [cbn; lia|].
    pose proof (Z.log2_nonneg (Z.abs z)).
    replace (Z.of_nat (Z.to_nat (Z.log2 (Z.abs z)) + 1)) with (Z.succ (Z.log2 (Z.abs z))) by lia.
    apply Z.log2_spec; lia.
  - intros E. pose proof (digits_of_val (Z.abs z)). rewrite E in H; cbn in H. 
    apply Z.ltb_ge. lia.
Qed.

(** * Well-formed representations are unique *)
Lemma digits_val_nonneg ds :
  Forall (fun d => 0 <= d < PyLong_BASE) ds -> 0 <= digits_val ds.
Proof.
  induction 1; cbn [digits_val]; [lia|]. pose proof base_pos. nia.
Qed.

Lemma digits_val_top_pos ds :
  Forall (fun d => 0 <= d < PyLong_BASE) ds ->
  (forall l d, ds = l ++ [d] -> d <> 0) -> ds <> [] -> 0 < digits_val ds.
Proof.
  induction ds as [|d r IH]; [congruence|]. intros F T _.
  inversion F; subst. cbn [digits_val]. pose proof base_pos.
  destruct r as [|d' r'].
  - specialize (T [] d eq_refl). cbn. lia.
  - enough (0 < digits_val (d' :: r')) by nia.
    apply IH; [assumption| |discriminate].
    intros l e E. apply (T (d :: l)). rewrite E. reflexivity.
Qed.

Lemma digits_val_inj a b :
  Forall (fun d => 0 <= d < PyLong_BASE) a ->
  Forall (fun d => 0 <= d < PyLong_BASE) b ->
  (forall l d, a = l ++ [d] -> d <> 0) ->
  (forall l d, b = l ++ [d] -> d <> 0) ->
  digits_val a = digits_val b -> a = b.
Proof.
  revert b; induction a as [|x a IH]; intros [|y b] Fa Fb Ta Tb E; [reflexivity| | |].
  - pose proof (digits_val_top_pos _ Fb Tb). cbn in E, H. specialize (H ltac:(discriminate)). lia.
  - pose proof (digits_val_top_pos _ Fa Ta). cbn in E, H. specialize (H ltac:(discriminate)). lia.
  - inversion Fa; inversion Fb; subst. cbn [digits_val] in E. pose proof base_pos.
    assert (x = y /\ digits_val a = digits_val b) as [-> E'].
    { assert (digits_val a = digits_val b) by (destruct (Z.lt_trichotomy (digits_val a) (digits_val b)) as [?|[?|?]]; nia).
      split; lia. }
    f_equal. apply IH; try assumption.
    + intros l d ->. apply (Ta (y :: l)). reflexivity.
    + intros l d ->. apply (Tb (y :: l)). reflexivity.
Qed.

Lemma pl_wf_unique p q : pl_wf p -> pl_wf q -> pl_val p = pl_val q -> p = q.
Proof.
  intros (Fp & Tp & Zp) (Fq & Tq & Zq) E.
  unfold pl_val in E. destruct p as [np dp], q as [nq dq]; cbn in *.
  assert (D : digits_val dp = digits_val dq /\ (dp <> [] -> np = nq)).
  { pose proof (digits_val_nonneg _ Fp). pose proof (digits_val_nonneg _ Fq).
    destruct (list_eq_dec Z.eq_dec dp []) as [->|Np].
    - rewrite (Zp eq_refl) in E. cbn in E.
      split; [|congruence]. destruct nq; cbn; lia.
    - pose proof (digits_val_top_pos _ Fp Tp Np).
      destruct np, nq; split; auto; lia. }
  destruct D as [D S]. pose proof (digits_val_inj _ _ Fp Fq Tp Tq D) as ->.
  f_equal. destruct (list_eq_dec Z.eq_dec dq []) as [->|N]; [|auto].
  rewrite Zp, Zq by reflexivity. reflexivity.
Qed.

Lemma pl_wf_canonical p : pl_wf p -> p = mk_pylong (pl_val p).
Proof.
  intros; apply pl_wf_unique; auto using mk_pylong_wf.
  symmetry; apply mk_pylong_val.
Qed.

Lemma digits_eqb_eq a b : digits_eqb a b = true <-> a = b.
Proof.
  revert b; induction a as [|x a IH]; intros [|y b]; cbn; try (split; congruence).
  rewrite andb_true_iff, Z.eqb_eq, IH. split; [intros [-> ->]; auto|].
  intros E; injection E; auto.
Qed.

(** On canonical objects the interpreter's [==] is equality of values. *)
Lemma pl_eqb_wf p q : pl_wf p -> pl_wf q -> (pl_eqb p q = true <-> pl_val p = pl_val q).
Proof.
  intros Wp Wq. unfold pl_eqb. destruct (pl_compact p && pl_compact q).
  - apply Z.eqb_eq.
  - rewrite andb_true_iff, Z.eqb_eq, digits_eqb_eq. split.
    + intros [S D]. unfold pl_val. unfold pl_size in S. rewrite D in *.
      destruct (pl_neg p), (pl_neg q); try reflexivity;
        destruct (pl_digits q) as [|d r] eqn:E; cbn [length] in S; try reflexivity; lia.
    + intros V. rewrite (pl_wf_unique p q) by assumption. auto.
Qed.

(** * First digit *)
Lemma digits_of_first z : 0 <= z -> first_digit {| pl_neg := false; pl_digits := digits_of z |} = z mod PyLong_BASE.
Proof.
  intros Hz. unfold first_digit; cbn. unfold digits_of.
  rewrite Nat.add_1_r. cbn [digits_fuel].
  destruct (Z.leb_spec z 0); [|reflexivity].
  replace z with 0 by lia. reflexivity.
Qed.

Lemma digits_of_nil z : 0 <= z -> digits_of z = [] <-> z = 0.
Proof.
  intros Hz. split.
  - intros E. pose proof (digits_of_val z Hz). rewrite E in H; cbn in H. lia.
  - intros ->. reflexivity.
Qed.

Lemma pl_size_sign z :
  (z < 0 -> pl_size (mk_pylong z) < 0) /\
  (z = 0 -> pl_size (mk_pylong z) = 0) /\
  (0 < z -> 0 < pl_size (mk_pylong z)).
Proof.
  unfold pl_size, mk_pylong; cbn.
  assert (L : forall n, n <> 0 -> (0 < length (digits_of (Z.abs n)))%nat).
  { intros n Hn. destruct (digits_of (Z.abs n)) eqn:E; cbn; [|lia].
    apply digits_of_nil in E; lia. }
  repeat split; intros.
  - destruct (Z.ltb_spec z 0); [|lia]. specialize (L z). lia.
  - subst; reflexivity.
  - destruct (Z.ltb_spec z 0); [lia|]. specialize (L z). lia.
Qed.

(** * C18: reading an element back *)
Lemma from_int_old v : PyFast_FromInt false v = mk_pylong v.
Proof. reflexivity. Qed.

Lemma mk_pylong_small v : 1 <= v < 2 ^ 30 -> mk_pylong v = {| pl_neg := false; pl_digits := [v] |}.
Proof.
  intros H. symmetry. apply pl_wf_unique.
  - split; [|split]; cbn [pl_digits pl_neg].
    + constructor; [|constructor]. unfold PyLong_BASE. lia.
    + intros l d E. destruct l as [|? [|? ?]]; cbn in E; injection E; intros; subst; try discriminate; lia.
    + discriminate.
  - apply mk_pylong_wf.
  - rewrite mk_pylong_val. unfold pl_val; cbn. lia.
Qed.

Lemma from_int_312_iff v : in_sbits 32 v ->
  (PyFast_FromInt true v = mk_pylong v <-> 1 <= v < 2 ^ 30).
Proof.
  intros R. unfold in_sbits in R. split.
  - intros E. pose proof (mk_pylong_wf v) as W. rewrite <- E in W.
    destruct W as (F & T & _).
    change (pl_digits (PyFast_FromInt true v)) with [u32 v] in F, T.
    specialize (T [] (u32 v) eq_refl). apply Forall_inv in F. unfold PyLong_BASE in F.
    assert (V : pl_val (PyFast_FromInt true v) = v) by (rewrite E; apply mk_pylong_val).
    unfold pl_val in V; cbn [PyFast_FromInt pl_neg pl_digits digits_val] in V.
    unfold u32 in *. destruct (Z.ltb_spec v 0).
    + rewrite <- (Z.mod_add v 1 (2 ^ 32)) in F by lia.
      rewrite Z.mod_small in F by lia. lia.
    + rewrite Z.mod_small in * by lia. lia.
  - intros H. rewrite mk_pylong_small by assumption. cbn.
    destruct (Z.ltb_spec v 0); [lia|]. unfold u32. rewrite Z.mod_small by lia. reflexivity.
Qed.

Lemma from_int_312_value v : in_sbits 32 v ->
  pl_val (PyFast_FromInt true v) = if v <? 0 then - (2 ^ 32 + v) else v.
Proof.
  unfold in_sbits; intros R. unfold pl_val; cbn [PyFast_FromInt pl_neg pl_digits digits_val].
  unfold u32. destruct (Z.ltb_spec v 0).
  - rewrite <- (Z.mod_add v 1 (2 ^ 32)) by lia. rewrite Z.mod_small by lia. lia.
  - rewrite Z.mod_small by lia. lia.
Qed.

(** What user code observes: [==] with the true integer, and truthiness. *)
Lemma from_int_312_eq v : in_sbits 32 v ->
  (pl_eqb (PyFast_FromInt true v) (mk_pylong v) = true <-> 0 <= v < 2 ^ 30).
Proof.
  intros R. unfold in_sbits in R.
  assert (C1 : pl_compact (PyFast_FromInt true v) = true) by reflexivity.
  unfold pl_eqb. rewrite C1. cbn [andb].
  pose proof (from_int_312_value v R) as V.
  destruct (pl_compact (mk_pylong v)) eqn:C2.
  - rewrite V, mk_pylong_val, Z.eqb_eq.
    assert (Z.abs v < 2 ^ 30).
    { unfold pl_compact in C2. apply Nat.leb_le in C2.
      pose proof (mk_pylong_wf v) as (F & _ & _). pose proof (mk_pylong_val v) as W.
      unfold pl_val in W. destruct (pl_digits (mk_pylong v)) as [|d [|? ?]];
        cbn [digits_val length] in W, C2; [| |lia].
      - destruct (pl_neg (mk_pylong v)); lia.
      - apply Forall_inv in F. unfold PyLong_BASE in F.
        destruct (pl_neg (mk_pylong v)); lia. }
    destruct (Z.ltb_spec v 0); lia.
  - rewrite andb_true_iff, Z.eqb_eq, digits_eqb_eq. split.
    + intros [_ D]. exfalso. unfold pl_compact in C2. rewrite <- D in C2. discriminate.
    + intros H. exfalso. destruct (Z.eq_dec v 0) as [->|]; [discriminate|].
      rewrite mk_pylong_small in C2 by lia. discriminate.
Qed.

Lemma from_int_312_truthy v : pl_truthy (PyFast_FromInt true v) = true.
Proof.
  unfold pl_truthy, pl_size; cbn. destruct (v <? 0); reflexivity.
Qed.

Lemma mk_pylong_truthy v : pl_truthy (mk_pylong v) = negb (v =? 0).
Proof.
  unfold pl_truthy. pose proof (pl_size_sign v) as (A & B & C).
  destruct (Z.eqb_spec v 0); [rewrite B by assumption; reflexivity|].
  destruct (Z.eqb_spec (pl_size (mk_pylong v)) 0); [|reflexivity].
  assert (v < 0 \/ 0 < v) as [?|?] by lia; [specialize (A H)|specialize (C H)]; lia.
Qed.

(** * C19: fast extraction *)
Lemma as_int_312 z :
  PyFast_AsInt true (mk_pylong z) =
  if in_sbits_b 32 z then Ret z else RetPending (-1) OverflowError.
Proof. unfold PyFast_AsInt. rewrite mk_pylong_val. reflexivity. Qed.

Lemma first_digit_mk z : first_digit (mk_pylong z) = Z.abs z mod PyLong_BASE.
Proof. rewrite <- digits_of_first by lia. reflexivity. Qed.

Lemma wrap32_digit d : 0 <= d < PyLong_BASE -> wrap 32 d = d.
Proof. intros; apply wrap_id; [lia|]. unfold in_sbits, PyLong_BASE in *. lia. Qed.

Lemma as_int_old z :
  PyFast_AsInt false (mk_pylong z) = Ret (Z.sgn z * (Z.abs z mod PyLong_BASE)).
Proof.
  unfold PyFast_AsInt, Py_SIZE. pose proof (pl_size_sign z) as (A & B & C).
  rewrite first_digit_mk, wrap32_digit by (apply Z.mod_pos_bound; reflexivity).
  destruct (Z.eqb_spec (pl_size (mk_pylong z)) 0).
  - assert (z = 0) as -> by (destruct (Z.lt_trichotomy z 0) as [H|[H|H]]; [specialize (A H)|lia|specialize (C H)]; lia).
    reflexivity.
  - destruct (Z.ltb_spec (pl_size (mk_pylong z)) 0).
    + assert (z < 0) by (destruct (Z.lt_trichotomy z 0) as [H'|[H'|H']]; [lia|specialize (B H')|specialize (C H')]; lia).
      f_equal. rewrite Z.sgn_neg by lia. lia.
    + assert (0 < z) by (destruct (Z.lt_trichotomy z 0) as [H'|[H'|H']]; [specialize (A H')|specialize (B H')|]; lia).
      f_equal. rewrite Z.sgn_pos by lia. lia.
Qed.

Lemma as_int_old_iff z :
  PyFast_AsInt false (mk_pylong z) = Ret z <-> Z.abs z < 2 ^ 30.
Proof.
  rewrite as_int_old. unfold PyLong_BASE.
  pose proof (Z.mod_pos_bound (Z.abs z) (2 ^ 30) eq_refl). split.
  - intros E; injection E as E. destruct (Z.sgn_spec z) as [[? S]|[[? S]|[? S]]]; rewrite S in E; lia.
  - intros H'. rewrite Z.mod_small by lia. f_equal. rewrite Z.mul_comm. apply Z.abs_sgn.
Qed.

Lemma wrap_mod b m z : 1 <= b -> b <= m -> wrap b (z mod 2 ^ m) = wrap b z.
Proof.
  intros Hb Hm. rewrite Z.mod_eq by (pose proof (pow2_pos m); lia).
  replace (2 ^ m) with (2 ^ (m - b) * 2 ^ b)
    by (rewrite <- Z.pow_add_r by lia; f_equal; lia).
  replace (z - 2 ^ (m - b) * 2 ^ b * (z / (2 ^ (m - b) * 2 ^ b)))
    with (z + (- (2 ^ (m - b) * (z / (2 ^ (m - b) * 2 ^ b)))) * 2 ^ b) by lia.
  apply wrap_shift; lia.
Qed.

Lemma wrap_opp_cong b x y : 1 <= b -> wrap b x = wrap b y -> wrap b (- x) = wrap b (- y).
Proof.
  intros Hb E. destruct (wrap_cong b x Hb) as [k Hk], (wrap_cong b y Hb) as [k' Hk'].
  replace (- y) with (- x + (k' - k) * 2 ^ b) by lia. rewrite wrap_shift by lia. reflexivity.
Qed.

Lemma as_small_old bits z : 1 <= bits <= 30 ->
  PyFast_AsSmall bits false (mk_pylong z) = wrap bits z.
Proof.
  intros Hb. unfold PyFast_AsSmall, Py_SIZE. pose proof (pl_size_sign z) as (A & B & C).
  rewrite first_digit_mk, wrap32_digit by (apply Z.mod_pos_bound; reflexivity).
  destruct (Z.eqb_spec (pl_size (mk_pylong z)) 0).
  - assert (z = 0) as -> by (destruct (Z.lt_trichotomy z 0) as [H|[H|H]]; [specialize (A H)|lia|specialize (C H)]; lia).
    symmetry. apply wrap_id; [lia|]. unfold in_sbits. pose proof (pow2_pos (bits - 1)). lia.
  - destruct (Z.ltb_spec (pl_size (mk_pylong z)) 0).
    + assert (z < 0) by (destruct (Z.lt_trichotomy z 0) as [H'|[H'|H']]; [lia|specialize (B H')|specialize (C H')]; lia).
      replace z with (- (Z.abs z)) at 2 by lia. apply wrap_opp_cong; [lia|].
      apply wrap_mod; lia.
    + assert (0 < z) by (destruct (Z.lt_trichotomy z 0) as [H'|[H'|H']]; [specialize (A H')|specialize (B H')|]; lia).
      rewrite Z.abs_eq by lia. apply wrap_mod; lia.
Qed.

Lemma as_small_312 bits z : 1 <= bits <= 30 ->
  PyFast_AsSmall bits true (mk_pylong z) = wrap bits (Z.abs z).
Proof.
  intros Hb. unfold PyFast_AsSmall.
  assert (0 < Py_SIZE true (mk_pylong z)).
  { unfold Py_SIZE. destruct (pl_neg (mk_pylong z)); [lia|].
    destruct (Z.eqb_spec (Z.of_nat (length (pl_digits (mk_pylong z)))) 0); lia. }
  destruct (Z.eqb_spec (Py_SIZE true (mk_pylong z)) 0); [lia|].
  destruct (Z.ltb_spec (Py_SIZE true (mk_pylong z)) 0); [lia|].
  rewrite first_digit_mk. apply wrap_mod; lia.
Qed.

Arguments wrap : simpl never.
Arguments mk_pylong : simpl never.
Arguments PyFast_FromInt : simpl never.
