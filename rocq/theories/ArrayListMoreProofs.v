(** repr, from_range, repetition and iterators of array lists. *)
From Coq Require Import ZArith List Bool Lia Arith.
From Verif Require Import Base PyLongModel PyLongProofs MemModel MemSpec MemProofs SimdCopyModel SimdCopyProofs
  QReverseModel PyListSpec ListLemmas ArrayListModel ArrayListProofs ArrayListSpec ArrayListFacts ArrayListMoreModel.
Import ListNotations.
Local Open Scope Z_scope.
Local Arguments Z.pow : simpl never.
Local Arguments Z.of_nat : simpl never.
Local Arguments Z.to_nat : simpl never.
Local Arguments Z.modulo : simpl never.
Local Arguments Z.div : simpl never.
Local Arguments Z.mul : simpl never.
Local Arguments Z.add : simpl never.

(** ** repr *)
Lemma dec_value_snoc ds d : dec_value (ds ++ [d]) = 10 * dec_value ds + d.
Proof. unfold dec_value. rewrite fold_left_app. reflexivity. Qed.

Lemma dec_digits_spec f n acc : 0 <= n < 2 ^ Z.of_nat (S f) ->
  exists ds, dec_digits (S f) n acc = map (fun d => 48 + d) ds ++ acc /\
    Forall (fun d => 0 <= d <= 9) ds /\ ds <> [] /\ (forall r, ds = 0 :: r -> r = []) /\ dec_value ds = n /\
    (forall j, 1 <= j -> n < 10 ^ j -> Z.of_nat (length ds) <= j).
Proof.
  revert n acc. induction f as [|f IH]; intros n acc H.
  - cbn [dec_digits]. change (Z.of_nat 1) with 1 in H. change (2 ^ 1) with 2 in H.
    destruct (Z.ltb_spec n 10); [|lia]. exists [n]. split; [reflexivity|].
    split; [repeat constructor; lia|]. split; [discriminate|]. split; [intros r E; injection E; auto|].
    split; [unfold dec_value; cbn; lia|]. cbn. intros; lia.
  - cbn [dec_digits]. destruct (Z.ltb_spec n 10).
    + exists [n]. split; [reflexivity|]. split; [repeat constructor; lia|]. split; [discriminate|].
      split; [intros r E; injection E; auto|]. split; [unfold dec_value; cbn; lia|]. cbn. intros; lia.
    + assert (E2 : 2 ^ Z.of_nat (S (S f)) = 2 * 2 ^ Z.of_nat (S f)).
      { rewrite <- Z.pow_succ_r by lia. f_equal. lia. }
      pose proof (Z.div_mod n 10 ltac:(lia)) as DM. pose proof (Z.mod_pos_bound n 10 ltac:(lia)) as MB.
      destruct (IH (n / 10) (48 + n mod 10 :: acc)) as (ds & E & F & N & Z0 & V & L); [lia|].
      exists (ds ++ [n mod 10]). change (dec_digits (S f) (n / 10) (48 + n mod 10 :: acc)) with (dec_digits (S f) (n / 10) (48 + n mod 10 :: acc)) in E.
      split; [cbn [dec_digits] in E |- *; rewrite E, map_app, <- app_assoc; reflexivity|].
      split; [apply Forall_app; split; [assumption|repeat constructor; lia]|].
      split; [destruct ds; discriminate|].
      split.
      { intros r Er. destruct ds as [|d ds]; [contradiction|]. cbn [app] in Er. injection Er as -> Er.
        specialize (Z0 ds eq_refl). subst ds. unfold dec_value in V. cbn in V. lia. }
      split; [rewrite dec_value_snoc, V; lia|].
      intros j J1 J2. rewrite app_length. cbn [length].
      assert (1 < j). { destruct (Z.eq_dec j 1) as [->|]; [change (10 ^ 1) with 10 in J2; lia|lia]. }
      assert (n / 10 < 10 ^ (j - 1)).
      { apply Z.div_lt_upper_bound; [lia|]. rewrite <- Z.pow_succ_r by lia. replace (Z.succ (j - 1)) with j by lia. exact J2. }
      specialize (L (j - 1) ltac:(lia) ltac:(assumption)). lia.
Qed.

Lemma format_int_text v : decimal_text v (format_int v) /\
  (Z.abs v < 10 ^ 30 -> (length (format_int v) < 32)%nat).
Proof.
  unfold format_int. set (n := Z.abs v).
  destruct (dec_digits_spec (Z.to_nat (Z.log2 n)) n []) as (ds & E & F & N & Z0 & V & L).
  { split; [lia|]. replace (Z.of_nat (S (Z.to_nat (Z.log2 n)))) with (Z.succ (Z.log2 n)) by (pose proof (Z.log2_nonneg n); lia).
    destruct (Z.eq_dec n 0) as [->|]; [reflexivity|]. apply Z.log2_spec. lia. }
  rewrite E, app_nil_r. split.
  - exists ds. split; [assumption|]. split; [assumption|]. split; [assumption|]. split; [exact V|reflexivity].
  - intros H. specialize (L 30 ltac:(lia) H). rewrite app_length, map_length. destruct (v <? 0); cbn [length]; lia.
Qed.

Lemma append_int_ok k v : in_range k v -> append_int v = Ret (format_int v).
Proof.
  intros R. unfold append_int. destruct (Nat.ltb_spec (length (format_int v)) 32); [reflexivity|].
  exfalso. pose proof (proj2 (format_int_text v)) as L. apply in_range_64 in R. unfold in_sbits in R.
  change (2 ^ (64 - 1)) with 9223372036854775808 in R.
  assert (10 ^ 30 = 1000000000000000000000000000000) by reflexivity. specialize (L ltac:(lia)). lia.
Qed.

Lemma repr_loop_ok k s str : s <> [] -> Forall (in_range k) s ->
  exists t, repr_loop s str = Ret (str ++ t ++ [93]) /\ items_text s t.
Proof.
  intros N F. revert str. induction F as [|v s R F IH]; intros str; [contradiction|].
  cbn [repr_loop]. rewrite (append_int_ok k v R). cbn [obind]. destruct s as [|w s].
  - exists (format_int v). split; [reflexivity|]. constructor. apply format_int_text.
  - destruct (IH ltac:(discriminate) (str ++ format_int v ++ [44; 32])) as (t & E & T).
    exists (format_int v ++ [44; 32] ++ t). split.
    + cbn [repr_loop] in *. rewrite E. rewrite <- !app_assoc. reflexivity.
    + constructor; [apply format_int_text|exact T].
Qed.

Lemma repr_ok k s : Forall (in_range k) s -> exists t, repr_ s = Ret t /\ list_text s t.
Proof.
  intros F. destruct s as [|v s].
  - exists [91; 93]. split; [reflexivity|constructor].
  - destruct (repr_loop_ok k (v :: s) [91] ltac:(discriminate) F) as (t & E & T).
    exists ([91] ++ t ++ [93]). split; [exact E|constructor; exact T].
Qed.

(** Decimal texts are unique. *)
Lemma dec_value_nonneg ds : Forall (fun d => 0 <= d <= 9) ds -> 0 <= dec_value ds.
Proof.
  induction ds as [|d ds IH] using rev_ind; intros F; [unfold dec_value; cbn; lia|].
  rewrite dec_value_snoc. apply Forall_app in F. destruct F as [F1 F2]. inversion F2; subst. specialize (IH F1). lia.
Qed.
Lemma dec_zero ds : Forall (fun d => 0 <= d <= 9) ds -> (forall r, ds = 0 :: r -> r = []) ->
  dec_value ds = 0 -> ds = [] \/ ds = [0].
Proof.
  induction ds as [|d ds IH] using rev_ind; intros F Z0 V; [auto|].
  rewrite dec_value_snoc in V. apply Forall_app in F. destruct F as [F1 F2]. inversion F2; subst.
  pose proof (dec_value_nonneg ds F1). assert (d = 0) by lia. assert (V0 : dec_value ds = 0) by lia. subst d. right.
  destruct ds as [|x ds]; [reflexivity|]. exfalso.
  assert (H0 : forall r, x :: ds = 0 :: r -> r = []).
  { intros r E. injection E as -> ->. specialize (Z0 (r ++ [0]) eq_refl). destruct r; discriminate. }
  destruct (IH F1 H0 V0) as [E|E]; [discriminate|]. injection E as -> ->. specialize (Z0 [0] eq_refl). discriminate.
Qed.
Lemma dec_unique ds : forall es, Forall (fun d => 0 <= d <= 9) ds -> Forall (fun d => 0 <= d <= 9) es ->
  (forall r, ds = 0 :: r -> r = []) -> (forall r, es = 0 :: r -> r = []) -> ds <> [] -> es <> [] ->
  dec_value ds = dec_value es -> ds = es.
Proof.
  induction ds as [|x a IH] using rev_ind; intros es F G Z1 Z2 N1 N2 V; [contradiction|].
  destruct es as [|y b _] using rev_ind; [contradiction|].
  rewrite !dec_value_snoc in V. apply Forall_app in F. destruct F as [F1 F2]. inversion F2; subst.
  apply Forall_app in G. destruct G as [G1 G2]. inversion G2; subst.
  assert (x = y) by lia. assert (Va : dec_value a = dec_value b) by lia. subst y.
  assert (L : forall c, (forall r, c ++ [x] = 0 :: r -> r = []) -> forall r, c = 0 :: r -> r = []).
  { intros c Hc r ->. specialize (Hc (r ++ [x]) eq_refl). destruct r; discriminate. }
  destruct a as [|a0 a]; destruct b as [|b0 b]; [reflexivity| | |].
  - exfalso. symmetry in Va. destruct (dec_zero (b0 :: b) G1 (L _ Z2) Va) as [E|E]; [discriminate|].
    injection E as -> ->. specialize (Z2 [x] eq_refl). discriminate.
  - exfalso. destruct (dec_zero (a0 :: a) F1 (L _ Z1) Va) as [E|E]; [discriminate|].
    injection E as -> ->. specialize (Z1 [x] eq_refl). discriminate.
  - f_equal. apply IH; [exact F1|exact G1|exact (L _ Z1)|exact (L _ Z2)|discriminate|discriminate|exact Va].
Qed.
Lemma decimal_unique v t t' : decimal_text v t -> decimal_text v t' -> t = t'.
Proof.
  intros (ds & F & N & Z0 & V & ->) (es & G & M & Z1 & W & ->). do 2 f_equal.
  apply dec_unique; auto; congruence.
Qed.
Lemma items_text_unique vs t : items_text vs t -> forall t', items_text vs t' -> t = t'.
Proof.
  induction 1 as [v t D|v t vs ts D T IH]; intros t' H; inversion H; subst.
  - eapply decimal_unique; eauto.
  - inversion H4.
  - inversion T.
  - f_equal; [eapply decimal_unique; eauto|]. f_equal. apply IH. assumption.
Qed.
Lemma list_text_unique vs t t' : list_text vs t -> list_text vs t' -> t = t'.
Proof.
  intros H H'. inversion H; subst; inversion H'; subst; auto.
  - inversion H0.
  - inversion H0.
  - rewrite (items_text_unique _ _ H0 _ H1). reflexivity.
Qed.

(** Parsing. *)
Lemma parse_digits ds rest neg a : Forall (fun d => 0 <= d <= 9) ds ->
  parse_items (map (fun d => 48 + d) ds ++ rest) neg (Some a)
  = parse_items rest neg (Some (fold_left (fun a d => 10 * a + d) ds a)).
Proof.
  intros F. revert a. induction F as [|d ds D F IH]; intros a; [reflexivity|].
  cbn [map app parse_items fold_left]. rewrite (proj2 (Z.leb_le 48 (48 + d))), (proj2 (Z.leb_le (48 + d) 57)) by lia.
  cbn [andb]. replace (10 * a + (48 + d - 48)) with (10 * a + d) by lia. apply IH.
Qed.
Lemma parse_digits0 ds rest neg : Forall (fun d => 0 <= d <= 9) ds -> ds <> [] ->
  parse_items (map (fun d => 48 + d) ds ++ rest) neg None = parse_items rest neg (Some (dec_value ds)).
Proof.
  intros F N. destruct F as [|d ds D F]; [contradiction|].
  cbn [map app parse_items]. rewrite (proj2 (Z.leb_le 48 (48 + d))), (proj2 (Z.leb_le (48 + d) 57)) by lia.
  cbn [andb]. rewrite parse_digits by assumption. unfold dec_value. cbn [fold_left]. do 3 f_equal. lia.
Qed.
Lemma parse_decimal v t rest : decimal_text v t ->
  exists neg a, parse_items (t ++ rest) false None = parse_items rest neg (Some a) /\ (if neg then - a else a) = v.
Proof.
  intros (ds & F & N & _ & V & ->). destruct (Z.ltb_spec v 0).
  - exists true, (dec_value ds). split; [|lia]. cbn [app parse_items].
    change ((48 <=? 45) && (45 <=? 57)) with false. change ((45 =? 45) && negb false) with true. cbv iota.
    apply parse_digits0; assumption.
  - exists false, (dec_value ds). split; [|lia]. cbn [app]. apply parse_digits0; assumption.
Qed.
Lemma parse_items_ok vs t : items_text vs t -> parse_items (t ++ [93]) false None = Some vs.
Proof.
  induction 1 as [v t D|v t vs ts D T IH].
  - destruct (parse_decimal v t [93] D) as (neg & a & -> & <-). reflexivity.
  - rewrite <- !app_assoc. destruct (parse_decimal v t ([44; 32] ++ ts ++ [93]) D) as (neg & a & -> & <-).
    cbn [app]. cbn [parse_items]. change ((48 <=? 44) && (44 <=? 57)) with false. change (44 =? 93) with false.
    change (44 =? 44) with true. change (32 =? 32) with true. cbv iota. rewrite IH. reflexivity.
Qed.
Lemma decimal_nonempty v t : decimal_text v t -> t <> [].
Proof. intros (ds & _ & N & _ & _ & ->). destruct (v <? 0); [discriminate|]. destruct ds; [contradiction|discriminate]. Qed.
Lemma parse_list_ok vs t : list_text vs t -> parse_list t = Some vs.
Proof.
  intros H. inversion H; subst; [reflexivity|]. cbn [app parse_list]. change (91 =? 91) with true. cbv iota.
  assert (N : exists c r, t0 ++ [93] = c :: r /\ r <> []).
  { assert (t0 <> []) by (inversion H0; subst; intros E; [eapply decimal_nonempty; eauto|destruct t; discriminate]).
    destruct t0 as [|c t0]; [contradiction|]. exists c, (t0 ++ [93]). split; [reflexivity|destruct t0; discriminate]. }
  pose proof (parse_items_ok _ _ H0) as P. destruct N as (c & r & E & Nr). rewrite E in *.
  destruct r; [contradiction|]. exact P.
Qed.

Lemma repr_full k s : Forall (in_range k) s ->
  exists t, repr_ s = Ret t /\ list_text s t /\ (forall t', list_text s t' -> t' = t) /\ parse_list t = Some s.
Proof.
  intros F. destruct (repr_ok k s F) as (t & E & T). exists t. split; [exact E|]. split; [exact T|].
  split; [intros t' T'; eapply list_text_unique; eauto|]. apply parse_list_ok. exact T.
Qed.
Lemma repr_injective k s s' : Forall (in_range k) s -> Forall (in_range k) s' -> repr_ s = repr_ s' -> s = s'.
Proof.
  intros F F' E. destruct (repr_full k s F) as (t & E1 & _ & _ & P). destruct (repr_full k s' F') as (t' & E2 & _ & _ & P').
  rewrite E1, E2 in E. injection E as ->. congruence.
Qed.

(** ** from_range *)
Lemma fill_range_ok k n cur step :
  (forall j, 0 <= j <= Z.of_nat n -> SSIZE_MIN <= cur + j * step <= SSIZE_MAX) ->
  fill_range k n cur step = Ret (map (fun i => wrap (bits k) (cur + step * Z.of_nat i)) (seq 0 n)).
Proof.
  revert cur. induction n as [|n IH]; intros cur H; [reflexivity|]. cbn [fill_range].
  rewrite ssz_ok by (specialize (H 1 ltac:(lia)); lia). cbn [obind].
  rewrite IH by (intros j Hj; specialize (H (j + 1) ltac:(lia)); lia). cbn [obind seq map].
  f_equal. f_equal; [f_equal; lia|]. rewrite <- seq_shift, map_map. apply map_ext. intros i. f_equal. lia.
Qed.

Lemma nth_error_seq_map {A} (f : nat -> A) n i v :
  nth_error (map f (seq 0 n)) i = Some v <-> (i < n)%nat /\ v = f i.
Proof.
  rewrite nth_error_map. destruct (Nat.lt_ge_cases i n) as [L|L].
  - rewrite (nth_error_nth' _ 0%nat) by (rewrite seq_length; assumption). rewrite seq_nth by assumption.
    cbn. split; [intros E; injection E; auto|intros [_ ->]; reflexivity].
  - rewrite (proj2 (nth_error_None _ i)) by (rewrite seq_length; lia). cbn. split; [discriminate|lia].
Qed.

Lemma range_list start stop step n :
  (forall i, 0 <= i -> (i < Z.of_nat n <-> if 0 <? step then start + step * i < stop else stop < start + step * i)) ->
  is_range start stop step (map (fun i => start + step * Z.of_nat i) (seq 0 n)).
Proof.
  intros H i v. rewrite nth_error_seq_map. specialize (H (Z.of_nat i) ltac:(lia)).
  split; intros [A B].
  - subst v. split; [reflexivity|]. apply H. lia.
  - subst v. split; [|reflexivity]. apply H in B. lia.
Qed.

Lemma is_range_unique start stop step L L' : is_range start stop step L -> is_range start stop step L' -> L = L'.
Proof.
  intros H H'. assert (E : forall i, nth_error L i = nth_error L' i).
  { intros i. destruct (nth_error L i) as [v|] eqn:E.
    - apply H in E. apply H' in E. congruence.
    - destruct (nth_error L' i) as [v|] eqn:E'; [|reflexivity]. apply H' in E'. apply H in E'. congruence. }
  clear H H'. revert L' E. induction L as [|x L IH]; intros [|y L'] E; auto.
  - specialize (E 0%nat). discriminate.
  - specialize (E 0%nat). discriminate.
  - f_equal; [specialize (E 0%nat); cbn in E; congruence|]. apply IH. intros i. apply (E (S i)).
Qed.

Definition small (z : Z) : Prop := Z.abs z <= 2 ^ 61.

Lemma small_ssz z : small z -> in_sbits_b 64 z = true /\ z <> SSIZE_MAX.
Proof.
  intros H. unfold small in H. assert (2 ^ 61 = 2305843009213693952) by reflexivity. destruct ssize_consts as [A _].
  split; [|rewrite A; lia]. apply in_sbits_b_spec. unfold in_sbits. change (2 ^ (64 - 1)) with 9223372036854775808. lia.
Qed.

Lemma eval_range3 start stop step : small start -> small stop -> small step -> step <> 0 ->
  eval_range (PInt start) (Some (PInt stop)) (Some (PInt step)) = Ret (start, stop, step).
Proof.
  intros H1 H2 H3 N. destruct (small_ssz _ H1) as [A1 B1]. destruct (small_ssz _ H2) as [A2 B2]. destruct (small_ssz _ H3) as [A3 B3].
  unfold eval_range, parse_n, as_long. rewrite A1, A2, A3. cbn [obind].
  destruct (Z.eqb_spec stop SSIZE_MAX); [contradiction|]. destruct (Z.eqb_spec step SSIZE_MAX); [contradiction|].
  destruct (Z.eqb_spec step 0); [contradiction|]. reflexivity.
Qed.

Lemma forall2_reduced k (f : nat -> Z) n :
  Forall2 (reduced (bits k)) (map f (seq 0 n)) (map (fun i => wrap (bits k) (f i)) (seq 0 n)).
Proof. generalize (seq 0 n). intros l. induction l; cbn [map]; constructor; auto. apply reduced_wrap. reflexivity. Qed.

Lemma from_range_pos k start stop step : small start -> small stop -> small step -> 0 < step ->
  exists R L, from_range k (PInt start) (Some (PInt stop)) (Some (PInt step)) = Ret (VNewList L) /\
    is_range start stop step R /\ Forall2 (reduced (bits k)) R L.
Proof.
  intros H1 H2 H3 P. unfold from_range. rewrite eval_range3 by (auto; lia). cbn [obind].
  destruct (Z.ltb_spec 0 step); [|lia].
  assert (C : 2 ^ 61 = 2305843009213693952) by reflexivity. unfold small in *. rewrite C in *. destruct ssize_consts as [EA EB].
  destruct (Z.leb_spec stop start) as [Le|Gt].
  - exists [], []. split; [reflexivity|]. split; [|constructor].
    apply (range_list start stop step 0). intros i Hi. destruct (Z.ltb_spec 0 step); [|lia]. nia.
  - rewrite ssz_ok by lia. cbn [obind]. rewrite ssz_ok by lia. cbn [obind]. rewrite ssz_ok by lia. cbn [obind].
    rewrite Z.quot_div_nonneg by lia. set (q := (stop - start + step - 1) / step).
    pose proof (Z.div_mod (stop - start + step - 1) step ltac:(lia)) as DM.
    pose proof (Z.mod_pos_bound (stop - start + step - 1) step ltac:(lia)) as MB. fold q in DM.
    assert (Q0 : 0 <= q) by (apply Z.div_pos; lia).
    rewrite fill_range_ok.
    + cbn [obind]. exists (map (fun i => start + step * Z.of_nat i) (seq 0 (Z.to_nat q))). eexists. split; [reflexivity|].
      split; [|apply forall2_reduced].
      apply range_list. intros i Hi. destruct (Z.ltb_spec 0 step); [|lia]. rewrite Z2Nat.id by lia. nia.
    + intros j Hj. rewrite Z2Nat.id in Hj by lia. rewrite EA, EB. nia.
Qed.

Lemma removelast_seq_map {A} (f : nat -> A) n : removelast (map f (seq 0 (S n))) = map f (seq 0 n).
Proof. rewrite seq_S, map_app. cbn [map Nat.add]. apply removelast_last. Qed.

Lemma from_range_neg k start stop step : small start -> small stop -> small step -> step < 0 ->
  exists R L, from_range k (PInt start) (Some (PInt stop)) (Some (PInt step)) = Ret (VNewList L) /\
    is_range start stop step R /\
    (start <= stop \/ (start - stop) mod (- step) = 0 -> Forall2 (reduced (bits k)) R L) /\
    (stop < start -> (start - stop) mod (- step) <> 0 -> R <> [] /\ Forall2 (reduced (bits k)) (removelast R) L).
Proof.
  intros H1 H2 H3 P. unfold from_range. rewrite eval_range3 by (auto; lia). cbn [obind].
  destruct (Z.ltb_spec 0 step); [lia|].
  assert (C : 2 ^ 61 = 2305843009213693952) by reflexivity. unfold small in *. rewrite C in *. destruct ssize_consts as [EA EB].
  destruct (Z.leb_spec start stop) as [Le|Gt].
  - exists [], []. split; [reflexivity|]. split; [|split; [constructor|lia]].
    apply (range_list start stop step 0). intros i Hi. destruct (Z.ltb_spec 0 step); [lia|]. nia.
  - rewrite ssz_ok by lia. cbn [obind]. rewrite ssz_ok by lia. cbn [obind].
    rewrite Z.quot_div_nonneg by lia. set (q := (start - stop) / - step).
    pose proof (Z.div_mod (start - stop) (- step) ltac:(lia)) as DM.
    pose proof (Z.mod_pos_bound (start - stop) (- step) ltac:(lia)) as MB. fold q in DM.
    assert (Q0 : 0 <= q) by (apply Z.div_pos; lia).
    rewrite fill_range_ok by (intros j Hj; rewrite Z2Nat.id in Hj by lia; rewrite EA, EB; nia).
    cbn [obind]. destruct (Z.eq_dec ((start - stop) mod - step) 0) as [M|M].
    + exists (map (fun i => start + step * Z.of_nat i) (seq 0 (Z.to_nat q))). eexists. split; [reflexivity|].
      split; [|split; [intros _; apply forall2_reduced|contradiction]].
      apply range_list. intros i Hi. destruct (Z.ltb_spec 0 step); [lia|]. rewrite Z2Nat.id by lia. nia.
    + exists (map (fun i => start + step * Z.of_nat i) (seq 0 (S (Z.to_nat q)))). eexists. split; [reflexivity|].
      split; [|split; [intros [X|X]; [lia|contradiction]|]].
      * apply range_list. intros i Hi. destruct (Z.ltb_spec 0 step); [lia|].
        replace (Z.of_nat (S (Z.to_nat q))) with (q + 1) by lia. nia.
      * intros _ _. split; [discriminate|]. rewrite removelast_seq_map. apply forall2_reduced.
Qed.

Lemma from_range_zero k start stop : small start -> small stop ->
  from_range k (PInt start) (Some (PInt stop)) (Some (PInt 0)) = Raise ValueError.
Proof.
  intros H1 H2. destruct (small_ssz _ H1) as [A1 B1]. destruct (small_ssz _ H2) as [A2 B2].
  unfold from_range, eval_range, parse_n, as_long. rewrite A1, A2. change (in_sbits_b 64 0) with true. cbn [obind].
  destruct (Z.eqb_spec stop SSIZE_MAX); [contradiction|]. reflexivity.
Qed.

(** The short forms. *)
Lemma from_range_short k start stop : small start -> small stop ->
  from_range k (PInt start) (Some (PInt stop)) None = from_range k (PInt start) (Some (PInt stop)) (Some (PInt 1)) /\
  from_range k (PInt stop) None None = from_range k (PInt 0) (Some (PInt stop)) (Some (PInt 1)).
Proof.
  intros H1 H2. assert (S1 : small 1) by (unfold small; lia). assert (S0 : small 0) by (unfold small; lia).
  destruct (small_ssz _ H1) as [A1 B1]. destruct (small_ssz _ H2) as [A2 B2].
  unfold from_range. rewrite !eval_range3 by (auto; lia). split; f_equal.
  - unfold eval_range, parse_n, as_long. rewrite A1, A2. cbn [obind].
    destruct (Z.eqb_spec stop SSIZE_MAX); [contradiction|]. reflexivity.
  - unfold eval_range, parse_n, as_long. rewrite A2. reflexivity.
Qed.

(** The largest ssize value as stop or step reads as "absent". *)
Lemma from_range_sentinel k a b : 
  from_range k a (Some (PInt SSIZE_MAX)) None = from_range k a None None /\
  from_range k a (Some b) (Some (PInt SSIZE_MAX)) = from_range k a (Some b) None.
Proof.
  unfold from_range, eval_range. change (parse_n (PInt SSIZE_MAX)) with (@Ret Z SSIZE_MAX). split; reflexivity.
Qed.

(** ** Iterators *)
Lemma skipn_nth_cons {A} (s : list A) : forall k x, nth_error s k = Some x -> skipn k s = x :: skipn (S k) s.
Proof.
  induction s as [|y s IH]; intros [|k] x E; try discriminate.
  - injection E as ->. reflexivity.
  - cbn [nth_error] in E. cbn [skipn]. rewrite (IH k x E). reflexivity.
Qed.
Lemma firstn_S_nth {A} (s : list A) : forall k x, nth_error s k = Some x -> firstn (S k) s = firstn k s ++ [x].
Proof.
  induction s as [|y s IH]; intros [|k] x E; try discriminate.
  - injection E as ->. reflexivity.
  - cbn [nth_error] in E. cbn [firstn app]. f_equal. exact (IH k x E).
Qed.
Definition fwd (k : nat) : iter := {| it_index := Z.of_nat k; it_rev := false |}.
Definition bwd (i : Z) : iter := {| it_index := i; it_rev := true |}.

Lemma fwd_next k s :
  iter_next (fwd k) s = match nth_error s k with
    | Some x => (Ret x, fwd (S k)) | None => (Raise StopIteration, fwd k) end.
Proof.
  unfold iter_next, fwd. cbn [it_rev it_index]. destruct s as [|x s].
  - destruct k; reflexivity.
  - set (l := x :: s). destruct (Z.leb_spec (zlen l) (Z.of_nat k)) as [H|H].
    + rewrite (proj2 (nth_error_None l k)) by (unfold zlen in H; lia). reflexivity.
    + unfold znth. destruct (Z.ltb_spec (Z.of_nat k) 0); [lia|]. rewrite Nat2Z.id.
      destruct (nth_error l k) eqn:E; [|apply nth_error_None in E; unfold zlen in H; lia].
      cbn [or_ub]. do 2 f_equal. lia.
Qed.

Lemma fwd_run vs : forall k, iter_run (fwd k) vs = resuming_run k vs.
Proof.
  induction vs as [|s vs IH]; intros k; [reflexivity|]. cbn [iter_run resuming_run]. rewrite fwd_next.
  destruct (nth_error s k); rewrite IH; reflexivity.
Qed.

Lemma fwd_for_loop vs : forall k,
  for_loop (iter_run (fwd k) vs) = for_loop (map shown (py_iter_run (Some k) vs)).
Proof.
  induction vs as [|s vs IH]; intros k; [reflexivity|]. cbn [iter_run py_iter_run]. rewrite fwd_next.
  destruct (nth_error s k); cbn [map shown for_loop]; [rewrite IH; reflexivity|reflexivity].
Qed.

Lemma fwd_const s : forall j k, (k + j = length s)%nat -> forall n,
  iter_run (fwd k) (repeat s (j + n)) = map Ret (skipn k s) ++ repeat (Raise StopIteration) n.
Proof.
  induction j as [|j IH]; intros k H n; cbn [Nat.add].
  - rewrite skipn_all2 by lia. cbn [map app]. induction n as [|n IHn]; [reflexivity|].
    cbn [repeat iter_run]. rewrite fwd_next. rewrite (proj2 (nth_error_None s k)) by lia. rewrite IHn. reflexivity.
  - cbn [repeat iter_run]. rewrite fwd_next. destruct (nth_error s k) as [x|] eqn:E;
      [|apply nth_error_None in E; lia].
    rewrite IH by lia. rewrite (skipn_nth_cons s k x E). reflexivity.
Qed.

(** Reverse: [i] is the index about to be read. *)
Lemma bwd_next i s : 0 <= i < SIZE_MAX -> s <> [] ->
  iter_next (bwd i) s = (or_ub OutOfBounds (znth s i), bwd (if i =? 0 then SIZE_MAX else i - 1)).
Proof.
  intros H N. unfold iter_next, bwd. cbn [it_rev it_index]. destruct s as [|x s]; [contradiction|].
  destruct (Z.eqb_spec i 0); [reflexivity|]. destruct (Z.eqb_spec i SIZE_MAX); [lia|reflexivity].
Qed.
Lemma bwd_done s : iter_next (bwd SIZE_MAX) s = (Raise StopIteration, bwd SIZE_MAX).
Proof. destruct s; reflexivity. Qed.
Lemma bwd_empty i : iter_next (bwd i) [] = (Raise StopIteration, bwd i).
Proof. reflexivity. Qed.

Lemma bwd_run_done vs : forall j, (j < length vs)%nat ->
  nth_error (iter_run (bwd SIZE_MAX) vs) j = Some (Raise StopIteration).
Proof.
  induction vs as [|s vs IH]; intros j H; cbn [length] in H; [lia|]. cbn [iter_run]. rewrite bwd_done.
  destruct j; [reflexivity|]. cbn [nth_error]. apply IH. lia.
Qed.

Lemma bwd_trace vs : forall (i : Z) (j : nat) s, 0 <= i < SIZE_MAX -> nth_error vs j = Some s ->
  (forall p t, (p < j)%nat -> nth_error vs p = Some t -> t <> []) ->
  nth_error (iter_run (bwd i) vs) j =
  Some (match s with
        | [] => Raise StopIteration
        | _ => if i <? Z.of_nat j then Raise StopIteration else or_ub OutOfBounds (znth s (i - Z.of_nat j))
        end).
Proof.
  induction vs as [|t vs IH]; intros i j s H E NE; [destruct j; discriminate|].
  destruct j as [|j].
  - injection E as ->. cbn [iter_run]. destruct s as [|x s].
    + rewrite bwd_empty. reflexivity.
    + rewrite bwd_next by (auto; discriminate). cbn [nth_error]. change (Z.of_nat 0) with 0.
      destruct (Z.ltb_spec i 0); [lia|]. rewrite Z.sub_0_r. reflexivity.
  - cbn [nth_error] in E. assert (Nt : t <> []) by (apply (NE 0%nat t); [lia|reflexivity]).
    cbn [iter_run]. rewrite bwd_next by assumption.
    cbn [nth_error]. destruct (Z.eqb_spec i 0) as [->|N].
    + rewrite bwd_run_done by (apply nth_error_Some; congruence). destruct s; [reflexivity|].
      destruct (Z.ltb_spec 0 (Z.of_nat (S j))); [reflexivity|lia].
    + rewrite (IH (i - 1) j s) by (first [lia | assumption | intros p u Hp Hu; apply (NE (S p) u); [lia|exact Hu]]).
      destruct s; [reflexivity|].
      destruct (Z.ltb_spec (i - 1) (Z.of_nat j)); destruct (Z.ltb_spec i (Z.of_nat (S j))); try lia; try reflexivity.
      do 3 f_equal. lia.
Qed.

Lemma bwd_for_loop vs : forall i, (Z.of_nat i < SIZE_MAX) -> Forall (fun s => (i < length s)%nat) vs ->
  for_loop (iter_run (bwd (Z.of_nat i)) vs) = for_loop (map shown (py_rev_run (Some i) vs)).
Proof.
  induction vs as [|s vs IH]; intros i Hi F; [reflexivity|]. inversion F as [|? ? L F']; subst.
  cbn [iter_run py_rev_run]. rewrite bwd_next by (first [lia | destruct s; [cbn in L; lia|discriminate]]).
  unfold znth. destruct (Z.ltb_spec (Z.of_nat i) 0); [lia|]. rewrite Nat2Z.id.
  destruct (nth_error s i) as [x|] eqn:E; [|apply nth_error_None in E; lia].
  cbn [or_ub map shown for_loop]. destruct i as [|i].
  - change (Z.of_nat 0 =? 0) with true. cbv iota. f_equal.
    clear. destruct vs as [|t vs]; [reflexivity|]. cbn [iter_run py_rev_run]. rewrite bwd_done. reflexivity.
  - destruct (Z.eqb_spec (Z.of_nat (S i)) 0); [lia|]. replace (Z.of_nat (S i) - 1) with (Z.of_nat i) by lia.
    f_equal. apply IH; [lia|]. eapply Forall_impl; [|exact F']. cbn. intros; lia.
Qed.

Lemma bwd_const_done s n : iter_run (bwd SIZE_MAX) (repeat s n) = repeat (Raise StopIteration) n.
Proof. induction n as [|n IH]; [reflexivity|]. cbn [repeat iter_run]. rewrite bwd_done, IH. reflexivity. Qed.

Lemma bwd_const s : forall i n, (i < length s)%nat -> Z.of_nat i < SIZE_MAX ->
  iter_run (bwd (Z.of_nat i)) (repeat s (S i + n)) = map Ret (rev (firstn (S i) s)) ++ repeat (Raise StopIteration) n.
Proof.
  induction i as [|i IH]; intros n H B.
  - cbn [Nat.add]. cbn [repeat iter_run]. rewrite bwd_next by (first [lia | destruct s; [cbn in H; lia|discriminate]]).
    change (Z.of_nat 0 =? 0) with true. cbv iota. rewrite bwd_const_done.
    destruct s as [|x s]; [cbn in H; lia|]. reflexivity.
  - change (repeat s (S (S i) + n)) with (s :: repeat s (S i + n)). cbn [iter_run].
    rewrite bwd_next by (first [lia | destruct s; [cbn in H; lia|discriminate]]).
    destruct (Z.eqb_spec (Z.of_nat (S i)) 0); [lia|]. replace (Z.of_nat (S i) - 1) with (Z.of_nat i) by lia.
    rewrite (IH n) by lia.
    unfold znth. destruct (Z.ltb_spec (Z.of_nat (S i)) 0); [lia|]. rewrite Nat2Z.id.
    destruct (nth_error s (S i)) as [x|] eqn:E; [|apply nth_error_None in E; lia].
    rewrite (firstn_S_nth s (S i) x E), rev_app_distr. reflexivity.
Qed.

Lemma rev_create s : s <> [] -> zlen s <= SSIZE_MAX ->
  exists i, length s = S i /\ iter_create true s = bwd (Z.of_nat i) /\ Z.of_nat i < SIZE_MAX.
Proof.
  intros N L. destruct s as [|x s]; [contradiction|]. exists (length s). split; [reflexivity|].
  rewrite (proj1 ssize_consts) in L. unfold iter_create, bwd, zlen in *. cbn [length] in *. split.
  - f_equal. lia.
  - change SIZE_MAX with 18446744073709551615. lia.
Qed.

Lemma rev_unmodified s n : s <> [] -> zlen s <= SSIZE_MAX ->
  iter_run (iter_create true s) (repeat s (length s + n)) = map Ret (rev s) ++ repeat (Raise StopIteration) n.
Proof.
  intros N L. destruct (rev_create s N L) as (i & Li & -> & B). rewrite Li.
  rewrite bwd_const by lia. rewrite <- Li, firstn_all. reflexivity.
Qed.

Lemma rev_trace s0 vs j s : s0 <> [] -> zlen s0 <= SSIZE_MAX -> nth_error vs j = Some s ->
  (forall p t, (p < j)%nat -> nth_error vs p = Some t -> t <> []) ->
  nth_error (iter_run (iter_create true s0) vs) j =
  Some (match s with
        | [] => Raise StopIteration
        | _ => if zlen s0 - 1 <? Z.of_nat j then Raise StopIteration
               else match nth_error s (length s0 - 1 - j) with Some x => Ret x | None => Undef OutOfBounds end
        end).
Proof.
  intros N L E NE. destruct (rev_create s0 N L) as (i & Li & -> & B).
  rewrite (bwd_trace vs (Z.of_nat i) j s) by (try assumption; lia). f_equal. destruct s as [|x s]; [reflexivity|].
  replace (zlen s0 - 1) with (Z.of_nat i) by (unfold zlen; lia).
  destruct (Z.ltb_spec (Z.of_nat i) (Z.of_nat j)); [reflexivity|]. unfold znth.
  destruct (Z.ltb_spec (Z.of_nat i - Z.of_nat j) 0); [lia|].
  replace (Z.to_nat (Z.of_nat i - Z.of_nat j)) with (length s0 - 1 - j)%nat by lia. reflexivity.
Qed.

Lemma rev_for_loop s0 vs : s0 <> [] -> zlen s0 <= SSIZE_MAX ->
  Forall (fun s => (length s0 <= length s)%nat) vs ->
  for_loop (iter_run (iter_create true s0) vs) = for_loop (map shown (py_rev_run (Some (length s0 - 1)%nat) vs)).
Proof.
  intros N L F. destruct (rev_create s0 N L) as (i & Li & -> & B). rewrite Li. cbn [Nat.sub]. rewrite Nat.sub_0_r.
  apply bwd_for_loop; [exact B|]. eapply Forall_impl; [|exact F]. cbn. intros; lia.
Qed.

Lemma rev_shrunk s0 s : s <> [] -> (length s < length s0)%nat -> zlen s0 <= SSIZE_MAX ->
  iter_run (iter_create true s0) [s] = [Undef OutOfBounds] /\
  map shown (py_rev_run (Some (length s0 - 1)%nat) [s]) = [Raise StopIteration].
Proof.
  intros N Ls L. assert (N0 : s0 <> []) by (destruct s0; [cbn in Ls; lia|discriminate]).
  destruct (rev_create s0 N0 L) as (i & Li & -> & B). rewrite Li. cbn [Nat.sub]. rewrite Nat.sub_0_r.
  assert (E : nth_error s i = None) by (apply nth_error_None; lia).
  cbn [iter_run py_rev_run]. rewrite bwd_next by (assumption || lia).
  unfold znth. destruct (Z.ltb_spec (Z.of_nat i) 0); [lia|]. rewrite Nat2Z.id, E. split; reflexivity.
Qed.

Lemma buffer_ok k s : Forall (in_range k) s ->
  let v := get_buffer k s in
  v_len v = Z.of_nat (length (v_buf v)) /\ v_len v = v_shape v * v_itemsize v /\
  v_itemsize v = match k with KInt => 4 | KBig => 8 end /\
  map le_sval (chunk_n (Z.to_nat (v_itemsize v)) (Z.to_nat (v_shape v)) (v_buf v)) = s.
Proof.
  intros F v. unfold v, get_buffer; cbn [v_len v_buf v_shape v_itemsize]. split.
  - assert (E : length (encode k s) = (length s * esize k)%nat).
    { unfold encode. clear. induction s as [|x s IH]; [reflexivity|]. cbn [map concat length].
      rewrite app_length, IH, le_bytes_length. reflexivity. }
    rewrite E. unfold zlen. lia.
  - split; [reflexivity|]. split; [destruct k; reflexivity|]. rewrite Nat2Z.id.
    replace (Z.to_nat (zlen s)) with (length s) by (unfold zlen; lia). apply decode_encode. exact F.
Qed.
