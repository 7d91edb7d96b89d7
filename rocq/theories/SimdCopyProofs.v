From Coq Require Import ZArith List Bool Arith Lia.
From Verif Require Import Base MemSpec MemModel MemProofs SimdCopyModel.
Import ListNotations.

(** * List extensionality *)
Lemma nth_error_ext {A} (a b : list A) : (forall i, nth_error a i = nth_error b i) -> a = b.
Proof.
  revert b; induction a as [|x a IH]; intros [|y b] H; [reflexivity|specialize (H 0); discriminate|specialize (H 0); discriminate|].
  f_equal; [specialize (H 0); cbn in H; congruence|]. apply IH. intros i. apply (H (S i)).
Qed.

Lemma nth_error_firstn {A} (l : list A) n i : nth_error (firstn n l) i = if i <? n then nth_error l i else None.
Proof.
  revert l i; induction n as [|n IH]; intros [|x l] [|i]; cbn [firstn nth_error]; try reflexivity.
  - destruct (_ <? _); reflexivity.
  - rewrite IH. destruct (Nat.ltb_spec i n), (Nat.ltb_spec (S i) (S n)); try reflexivity; lia.
Qed.

Lemma nth_error_skipn {A} (l : list A) n i : nth_error (skipn n l) i = nth_error l (n + i).
Proof.
  revert l; induction n as [|n IH]; intros [|x l]; cbn [skipn plus nth_error]; try reflexivity.
  - destruct i; reflexivity.
  - apply IH.
Qed.

Lemma nth_error_app {A} (a b : list A) i :
  nth_error (a ++ b) i = if i <? length a then nth_error a i else nth_error b (i - length a).
Proof.
  destruct (Nat.ltb_spec i (length a)); [apply nth_error_app1|apply nth_error_app2]; lia.
Qed.


Lemma copied_length m from to k : from + k <= length m -> to + k <= length m ->
  length (copied m from to k) = length m.
Proof.
  intros. unfold copied. rewrite !app_length, !firstn_length, !skipn_length. lia.
Qed.

Lemma copied_nth m from to k i : from + k <= length m -> to + k <= length m ->
  nth_error (copied m from to k) i =
  if (to <=? i) && (i <? to + k) then nth_error m (from + (i - to)) else nth_error m i.
Proof.
  intros H1 H2. unfold copied. rewrite nth_error_app, firstn_length, Nat.min_l by lia.
  rewrite nth_error_firstn.
  destruct (Nat.ltb_spec i to); destruct (Nat.leb_spec to i); try lia; cbn [andb]; [reflexivity|].
  rewrite nth_error_app, firstn_length, skipn_length, nth_error_firstn, !nth_error_skipn.
  replace (Nat.min k (length m - from)) with k by lia.
  destruct (Nat.ltb_spec (i - to) k), (Nat.ltb_spec i (to + k)); try lia; [reflexivity|].
  f_equal. lia.
Qed.

Lemma copied_0 m from to : from <= length m -> to <= length m -> copied m from to 0 = m.
Proof.
  intros. unfold copied. cbn. rewrite Nat.add_0_r. apply firstn_skipn.
Qed.


Lemma disjoint_b_spec a b n : disjoint_b a b n = true <-> disj a b n.
Proof.
  unfold disjoint_b, disj. rewrite !orb_true_iff, Nat.eqb_eq, !Nat.leb_le. tauto.
Qed.

Lemma mload_eq m a n : a + n <= length m -> mload m a n = Ret (firstn n (skipn a m)).
Proof. intros. unfold mload. destruct (Nat.leb_spec (a + n) (length m)); [reflexivity|lia]. Qed.

Lemma load_copied m from to k w K :
  from + K <= length m -> to + K <= length m -> disj to from K -> k + w <= K ->
  mload (copied m from to k) (from + k) w = Ret (firstn w (skipn (from + k) m)).
Proof.
  intros H1 H2 D Hk. rewrite mload_eq by (rewrite copied_length; lia). f_equal.
  apply nth_error_ext; intros i. rewrite !nth_error_firstn, !nth_error_skipn.
  destruct (Nat.ltb_spec i w); [|reflexivity].
  rewrite copied_nth by lia.
  destruct (Nat.leb_spec to (from + k + i)), (Nat.ltb_spec (from + k + i) (to + k)); cbn [andb]; try reflexivity.
  unfold disj in D. lia.
Qed.

Lemma store_copied m from to k w K :
  from + K <= length m -> to + K <= length m -> disj to from K -> k + w <= K ->
  mstore (copied m from to k) (to + k) (firstn w (skipn (from + k) m)) = Ret (copied m from to (k + w)).
Proof.
  intros H1 H2 D Hk.
  assert (L : length (firstn w (skipn (from + k) m)) = w) by (rewrite firstn_length, skipn_length; lia).
  unfold mstore. rewrite L, copied_length by lia.
  destruct (Nat.leb_spec (to + k + w) (length m)); [|lia]. f_equal.
  apply nth_error_ext; intros i.
  rewrite nth_error_app, firstn_length, copied_length, Nat.min_l by lia.
  rewrite nth_error_firstn, nth_error_app, L, nth_error_firstn, !nth_error_skipn, !copied_nth by lia.
  repeat match goal with
  | |- context [?a <? ?b] => destruct (Nat.ltb_spec a b)
  | |- context [?a <=? ?b] => destruct (Nat.leb_spec a b)
  end; cbn [andb]; try lia; try reflexivity; f_equal; lia.
Qed.

Lemma memcpy_copied m from to n :
  from + n <= length m -> to + n <= length m -> disj to from n ->
  memcpy m to from n = Ret (copied m from to n).
Proof.
  intros H1 H2 D. unfold memcpy. rewrite (proj2 (disjoint_b_spec _ _ _) D).
  rewrite mload_eq by assumption. cbn [obind].
  assert (L : length (firstn n (skipn from m)) = n) by (rewrite firstn_length, skipn_length; lia).
  unfold mstore. rewrite L. destruct (Nat.leb_spec (to + n) (length m)); [reflexivity|lia].
Qed.

Lemma copied_idem m from to k : from + k <= length m -> to + k <= length m -> disj to from k ->
  copied (copied m from to k) from to k = copied m from to k.
Proof.
  intros H1 H2 D. apply nth_error_ext; intros i.
  rewrite copied_nth by (rewrite copied_length; lia). rewrite !copied_nth by lia.
  unfold disj in D.
  repeat match goal with
  | |- context [?a <? ?b] => destruct (Nat.ltb_spec a b)
  | |- context [?a <=? ?b] => destruct (Nat.leb_spec a b)
  end; cbn [andb]; try lia; try reflexivity; f_equal; lia.
Qed.

(** * Block loops *)

Lemma mod_add_mult w a b : 0 < w -> b mod w = 0 -> (a + b) mod w = a mod w.
Proof.
  intros H Hb. apply Nat.mod_divides in Hb; [|lia]. destruct Hb as [c ->].
  rewrite Nat.mul_comm. apply Nat.mod_add. lia.
Qed.

(** Elements copied so far by a block stage. *)
Definition stage (es count : nat) (en : bool) (w c : nat) : nat :=
  if en && (w / es <=? count - c) then c + (count - c) / (w / es) * (w / es) else c.

(** The stage executes at least one vector instruction. *)
Definition uses (es count : nat) (en : bool) (w c : nat) : bool := en && (w / es <=? count - c).

Lemma stage_le es count en w c : 0 < w / es -> c <= count -> c <= stage es count en w c <= count.
Proof.
  intros H Hc. unfold stage. destruct (en && _) eqn:E; [|lia].
  pose proof (Nat.mul_div_le (count - c) (w / es) ltac:(lia)). lia.
Qed.

Lemma stage_mod es count en w w' c : 0 < es -> 0 < w -> w mod es = 0 -> es <= w -> (c * es) mod w = 0 -> 0 < w' -> w mod w' = 0 ->
  (stage es count en w c * es) mod w' = 0.
Proof.
  intros Hes Hw Hwe Hew Hc Hw' Hww.
  assert (We : w / es * es = w) by (pose proof (Nat.div_mod w es ltac:(lia)); lia).
  assert (M : (stage es count en w c * es) mod w = 0).
  { unfold stage. destruct (en && _); [|exact Hc].
    rewrite Nat.mul_add_distr_r, <- Nat.mul_assoc, We.
    rewrite mod_add_mult; [exact Hc|assumption|]. apply Nat.mod_mul. lia. }
  apply Nat.mod_divides in M; [|lia]. destruct M as [k ->].
  apply Nat.mod_divides in Hww; [|lia]. destruct Hww as [j ->].
  rewrite <- Nat.mul_assoc, Nat.mul_comm. apply Nat.mod_mul. lia.
Qed.
Section Copy.
Variables (m : bytes) (from to es count : nat).
Hypothesis Hes : 0 < es.
Hypothesis Hfrom : from + count * es <= length m.
Hypothesis Hto : to + count * es <= length m.
Hypothesis D : disj to from (count * es).

Lemma vec_loop_ok al w n c :
  0 < w -> w mod es = 0 -> (c * es) mod w = 0 -> (c + n * (w / es)) <= count ->
  (al = true -> n <> 0 -> aligned_to w from to) ->
  vec_loop al w es n from to c (copied m from to (c * es))
  = Ret (copied m from to ((c + n * (w / es)) * es), c + n * (w / es)).
Proof.
  intros Hw Hwe. revert c; induction n as [|n IH]; intros c Hc Hle Hal.
  - cbn. rewrite Nat.add_0_r. reflexivity.
  - cbn [vec_loop].
    assert (We : w / es * es = w).
    { pose proof (Nat.div_mod w es ltac:(lia)). lia. }
    assert (Hb : c * es + w <= count * es).
    { rewrite <- We. rewrite <- Nat.mul_add_distr_r. apply Nat.mul_le_mono_r. cbn in Hle. lia. }
    assert (A : al && negb ((from + c * es) mod w =? 0) = false /\ al && negb ((to + c * es) mod w =? 0) = false).
    { destruct al; [|auto]. destruct (Hal eq_refl ltac:(lia)) as [A1 A2].
      rewrite !mod_add_mult, A1, A2 by assumption. auto. }
    unfold vload, vstore. rewrite (proj1 A), (proj2 A).
    rewrite (load_copied m from to (c * es) w (count * es)) by assumption. cbn [obind].
    rewrite (store_copied m from to (c * es) w (count * es)) by assumption. cbn [obind].
    replace (c * es + w) with ((c + w / es) * es) by (rewrite Nat.mul_add_distr_r; lia).
    rewrite IH.
    + f_equal. f_equal; [f_equal; f_equal; cbn; lia|cbn; lia].
    + rewrite Nat.mul_add_distr_r, We. rewrite mod_add_mult; [exact Hc|lia|apply Nat.mod_same; lia].
    + cbn in Hle. lia.
    + intros E _. apply Hal; [exact E|lia].
Qed.

Lemma vec_loop_misaligned w n c :
  0 < w -> w mod es = 0 -> (c * es) mod w = 0 -> (c + n * (w / es)) <= count -> n <> 0 ->
  ~ aligned_to w from to ->
  vec_loop true w es n from to c (copied m from to (c * es)) = Undef Misaligned.
Proof.
  intros Hw Hwe Hc Hle Hn Hal. destruct n as [|n]; [lia|]. cbn [vec_loop].
  assert (We : w / es * es = w).
  { pose proof (Nat.div_mod w es ltac:(lia)). lia. }
  assert (Hb : c * es + w <= count * es).
  { rewrite <- We. rewrite <- Nat.mul_add_distr_r. apply Nat.mul_le_mono_r. cbn in Hle. lia. }
  unfold vload, vstore. rewrite !mod_add_mult by assumption. cbn [andb].
  destruct (Nat.eqb_spec (from mod w) 0) as [E1|]; cbn [negb obind]; [|reflexivity].
  rewrite (load_copied m from to (c * es) w (count * es)) by assumption. cbn [obind].
  destruct (Nat.eqb_spec (to mod w) 0) as [E2|]; cbn [negb]; [|reflexivity].
  exfalso; apply Hal; split; assumption.
Qed.

Lemma scalar_loop_ok n c : c + n <= count ->
  scalar_loop es n from to c (copied m from to (c * es)) = Ret (copied m from to ((c + n) * es)).
Proof.
  revert c; induction n as [|n IH]; intros c Hle.
  - cbn. rewrite Nat.add_0_r. reflexivity.
  - cbn [scalar_loop].
    assert (Hb : c * es + es <= count * es).
    { replace (c * es + es) with ((c + 1) * es) by lia. apply Nat.mul_le_mono_r. lia. }
    rewrite (load_copied m from to (c * es) es (count * es)) by assumption. cbn [obind].
    rewrite (store_copied m from to (c * es) es (count * es)) by assumption. cbn [obind].
    replace (c * es + es) with (S c * es) by lia. rewrite IH by lia. do 2 f_equal. lia.
Qed.

Lemma vec_block_ok en al w c :
  0 < w -> w mod es = 0 -> es <= w -> (c * es) mod w = 0 -> c <= count ->
  (al = true -> uses es count en w c = true -> aligned_to w from to) ->
  vec_block en al w es count from to (copied m from to (c * es), c)
  = Ret (copied m from to (stage es count en w c * es), stage es count en w c).
Proof.
  intros Hw Hwe Hew Hc Hle Hal. unfold vec_block, stage, uses in *.
  destruct (en && (w / es <=? count - c)) eqn:E; [|reflexivity].
  assert (0 < w / es) by (apply Nat.div_str_pos; lia).
  apply vec_loop_ok; auto.
  pose proof (Nat.mul_div_le (count - c) (w / es) ltac:(lia)). lia.
Qed.

Lemma vec_block_misaligned en w c :
  0 < w -> w mod es = 0 -> es <= w -> (c * es) mod w = 0 -> c <= count ->
  uses es count en w c = true -> ~ aligned_to w from to ->
  vec_block en true w es count from to (copied m from to (c * es), c) = Undef Misaligned.
Proof.
  intros Hw Hwe Hew Hc Hle Hu Hal. unfold vec_block. unfold uses in Hu. rewrite Hu.
  assert (0 < w / es) by (apply Nat.div_str_pos; lia).
  apply andb_true_iff in Hu. destruct Hu as [_ Hu]. apply Nat.leb_le in Hu.
  pose proof (Nat.mul_div_le (count - c) (w / es) ltac:(lia)).
  assert (0 < (count - c) / (w / es)) by (apply Nat.div_str_pos; lia).
  apply vec_loop_misaligned; auto; lia.
Qed.

End Copy.


Definition c1 (f : cpu) es count := stage es count (avx512 f) 64 0.
Definition c2 (f : cpu) es count := stage es count (avx2 f) 32 (c1 f es count).
Definition c3 (f : cpu) es count := stage es count (sse41 f) 16 (c2 f es count).

(** Alignment needed by the aligned copy: each vector width that is used. *)
Definition align_ok (f : cpu) (es count from to : nat) : Prop :=
  (uses es count (avx512 f) 64 0 = true -> aligned_to 64 from to) /\
  (uses es count (avx2 f) 32 (c1 f es count) = true -> aligned_to 32 from to) /\
  (uses es count (sse41 f) 16 (c2 f es count) = true -> aligned_to 16 from to).

Lemma simd_memcpy_ok f al es from to count m :
  elem_size es -> from + count * es <= length m -> to + count * es <= length m ->
  disj to from (count * es) ->
  (al = true -> align_ok f es count from to) ->
  simd_memcpy f al es from to count m = Ret (copied m from to (count * es)).
Proof.
  intros Hes Hf Ht D Hal. unfold simd_memcpy.
  rewrite (proj2 (disjoint_b_spec _ _ _) D). cbn [negb].
  assert (E0 : exists m0, (if negb (avx512 f) && negb (avx2 f) && negb (sse41 f) || (count <? 8)
            then memcpy m to from (count * es) else Ret m) = Ret m0 /\
            length m0 = length m /\ copied m0 from to (count * es) = copied m from to (count * es)).
  { destruct (_ || _).
    - exists (copied m from to (count * es)). rewrite memcpy_copied by assumption.
      repeat split; [apply copied_length; assumption|apply copied_idem; assumption].
    - exists m. auto. }
  destruct E0 as (m0 & -> & L & Em). cbn [obind]. rewrite <- Em. rewrite <- L in Hf, Ht. clear Em L m.
  assert (W : 0 < es /\ es <= 16 /\ 64 mod es = 0 /\ 32 mod es = 0 /\ 16 mod es = 0)
    by (destruct Hes as [->|[->|[->|[->| ->]]]]; cbn; lia).
  destruct W as (W0 & W1 & W64 & W32 & W16).
  assert (B0 : (m0, 0) = (copied m0 from to (0 * es), 0)) by (cbn; rewrite copied_0 by lia; reflexivity).
  rewrite B0.
  assert (P64 : 0 < 64 / es) by (apply Nat.div_str_pos; lia).
  assert (P32 : 0 < 32 / es) by (apply Nat.div_str_pos; lia).
  assert (P16 : 0 < 16 / es) by (apply Nat.div_str_pos; lia).
  pose proof (stage_le es count (avx512 f) 64 0 P64 ltac:(lia)) as B1.
  fold (c1 f es count) in B1.
  pose proof (stage_le es count (avx2 f) 32 (c1 f es count) P32 ltac:(lia)) as B2.
  fold (c2 f es count) in B2.
  pose proof (stage_le es count (sse41 f) 16 (c2 f es count) P16 ltac:(lia)) as B3.
  fold (c3 f es count) in B3.
  assert (M1 : (c1 f es count * es) mod 32 = 0) by (apply stage_mod; cbn; auto; lia).
  assert (M2 : (c2 f es count * es) mod 16 = 0) by (apply stage_mod; cbn; auto; lia).
  rewrite vec_block_ok; auto; try lia.
  2: { intros E. apply Hal in E. apply E. }
  cbn [obind]. fold (c1 f es count).
  rewrite vec_block_ok; auto; try lia.
  2: { intros E. apply Hal in E. apply E. }
  cbn [obind]. fold (c2 f es count).
  rewrite vec_block_ok; auto; try lia.
  2: { intros E. apply Hal in E. apply E. }
  cbn [obind fst snd]. fold (c3 f es count).
  rewrite (scalar_loop_ok m0 from to es count) by (auto; lia).
  do 2 f_equal. f_equal. lia.
Qed.

Lemma simd_memcpy_misaligned f es from to count m :
  elem_size es -> from + count * es <= length m -> to + count * es <= length m ->
  disj to from (count * es) -> ~ align_ok f es count from to ->
  simd_memcpy f true es from to count m = Undef Misaligned.
Proof.
  intros Hes Hf Ht D Hal. unfold simd_memcpy.
  rewrite (proj2 (disjoint_b_spec _ _ _) D). cbn [negb].
  assert (E0 : exists m0, (if negb (avx512 f) && negb (avx2 f) && negb (sse41 f) || (count <? 8)
            then memcpy m to from (count * es) else Ret m) = Ret m0 /\
            length m0 = length m).
  { destruct (_ || _).
    - exists (copied m from to (count * es)). rewrite memcpy_copied by assumption.
      split; [reflexivity|apply copied_length; assumption].
    - exists m. auto. }
  destruct E0 as (m0 & -> & L). cbn [obind]. rewrite <- L in Hf, Ht. clear L m.
  assert (W : 0 < es /\ es <= 16 /\ 64 mod es = 0 /\ 32 mod es = 0 /\ 16 mod es = 0)
    by (destruct Hes as [->|[->|[->|[->| ->]]]]; cbn; lia).
  destruct W as (W0 & W1 & W64 & W32 & W16).
  assert (B0 : (m0, 0) = (copied m0 from to (0 * es), 0)) by (cbn; rewrite copied_0 by lia; reflexivity).
  rewrite B0.
  assert (P64 : 0 < 64 / es) by (apply Nat.div_str_pos; lia).
  assert (P32 : 0 < 32 / es) by (apply Nat.div_str_pos; lia).
  assert (P16 : 0 < 16 / es) by (apply Nat.div_str_pos; lia).
  pose proof (stage_le es count (avx512 f) 64 0 P64 ltac:(lia)) as B1.
  fold (c1 f es count) in B1.
  pose proof (stage_le es count (avx2 f) 32 (c1 f es count) P32 ltac:(lia)) as B2.
  fold (c2 f es count) in B2.
  assert (M1 : (c1 f es count * es) mod 32 = 0) by (apply stage_mod; cbn; auto; lia).
  assert (M2 : (c2 f es count * es) mod 16 = 0) by (apply stage_mod; cbn; auto; lia).
  assert (DA : forall w, {aligned_to w from to} + {~ aligned_to w from to}).
  { intros w. unfold aligned_to. destruct (Nat.eq_dec (from mod w) 0), (Nat.eq_dec (to mod w) 0); tauto. }
  destruct (uses es count (avx512 f) 64 0) eqn:U1; [destruct (DA 64) as [A1|A1]|];
    [|rewrite vec_block_misaligned; auto; lia|].
  all: rewrite vec_block_ok; auto; try lia; try congruence; cbn [obind]; fold (c1 f es count).
  all: destruct (uses es count (avx2 f) 32 (c1 f es count)) eqn:U2; [destruct (DA 32) as [A2|A2]|];
    [|rewrite vec_block_misaligned; auto; lia|].
  all: rewrite vec_block_ok; auto; try lia; try congruence; cbn [obind]; fold (c2 f es count).
  all: destruct (uses es count (sse41 f) 16 (c2 f es count)) eqn:U3; [destruct (DA 16) as [A3|A3]|];
    [|rewrite vec_block_misaligned; auto; lia|].
  all: exfalso; apply Hal; unfold align_ok; rewrite U1, U2, U3; repeat split; try (intros; discriminate);
    first [apply A1|apply A2|apply A3|tauto].
Qed.

(** 64-byte aligned pointers are always fine. *)
Lemma align64_ok f es count from to : from mod 64 = 0 -> to mod 64 = 0 -> align_ok f es count from to.
Proof.
  intros H1 H2.
  assert (forall w, (exists k, 64 = w * k) -> w <> 0 -> aligned_to w from to).
  { intros w [k Hk] Hw. apply Nat.mod_divides in H1; [|lia]. apply Nat.mod_divides in H2; [|lia].
    destruct H1 as [a ->], H2 as [b ->]. unfold aligned_to. rewrite Hk.
    rewrite <- !Nat.mul_assoc. rewrite !(Nat.mul_comm w), !Nat.mod_mul by assumption. auto. }
  split; [|split]; intros _; [apply H|apply H|apply H]; try lia; [exists 1|exists 2|exists 4]; reflexivity.
Qed.

Lemma fast_memcpy_ok f dst src n m :
  src + n <= length m -> dst + n <= length m -> disj dst src n ->
  fast_memcpy f dst src n m = Ret (copied m src dst n).
Proof.
  intros H1 H2 D. unfold fast_memcpy.
  destruct (Nat.eqb_spec n 0) as [->|]; [rewrite copied_0 by lia; reflexivity|].
  destruct (n <=? 32); [apply memcpy_copied; assumption|].
  assert (E1 : n * 1 = n) by lia.
  destruct ((src mod 64 =? 0) && (dst mod 64 =? 0)) eqn:E.
  - apply andb_true_iff in E. destruct E as [A B]. apply Nat.eqb_eq in A, B.
    rewrite simd_memcpy_ok; rewrite ?E1; auto; [left; reflexivity|].
    intros _. apply align64_ok; assumption.
  - rewrite simd_memcpy_ok; rewrite ?E1; auto; [left; reflexivity|discriminate].
Qed.

(** * The alignment condition in bytes *)
Lemma uses_bytes es count en w c : 0 < es -> w mod es = 0 -> c <= count ->
  uses es count en w c = true <-> en = true /\ w <= (count - c) * es.
Proof.
  intros H0 Hw Hc. unfold uses. rewrite andb_true_iff, Nat.leb_le.
  assert (We : w = w / es * es) by (pose proof (Nat.div_mod w es ltac:(lia)); lia).
  split; intros [A B]; split; auto.
  - rewrite We. apply Nat.mul_le_mono_r. exact B.
  - rewrite We in B. apply Nat.mul_le_mono_pos_r in B; lia.
Qed.

Lemma stage_bytes es count en w c : 0 < es -> 0 < w -> w mod es = 0 -> es <= w -> c <= count ->
  (count - stage es count en w c) * es =
  if en then ((count - c) * es) mod w else (count - c) * es.
Proof.
  intros H0 Hw0 Hw He Hc.
  assert (We : w / es * es = w) by (pose proof (Nat.div_mod w es ltac:(lia)); lia).
  assert (P : 0 < w / es) by (apply Nat.div_str_pos; lia).
  unfold stage. destruct en; cbn [andb]; [|reflexivity].
  assert (R : ((count - c) * es) mod w = ((count - c) mod (w / es)) * es).
  { rewrite <- We at 1. rewrite Nat.mul_mod_distr_r by lia. reflexivity. }
  rewrite R. destruct (Nat.leb_spec (w / es) (count - c)).
  - f_equal. pose proof (Nat.div_mod (count - c) (w / es) ltac:(lia)). lia.
  - rewrite Nat.mod_small by lia. reflexivity.
Qed.

Lemma align_ok_spec f es count from to : elem_size es ->
  align_ok f es count from to <-> align_spec f (count * es) from to.
Proof.
  intros Hes.
  assert (W : 0 < es /\ es <= 16 /\ 64 mod es = 0 /\ 32 mod es = 0 /\ 16 mod es = 0)
    by (destruct Hes as [->|[->|[->|[->| ->]]]]; cbn; lia).
  destruct W as (W0 & W1 & W64 & W32 & W16).
  assert (P64 : 0 < 64 / es) by (apply Nat.div_str_pos; lia).
  assert (P32 : 0 < 32 / es) by (apply Nat.div_str_pos; lia).
  pose proof (stage_le es count (avx512 f) 64 0 P64 ltac:(lia)) as B1.
  fold (c1 f es count) in B1.
  pose proof (stage_le es count (avx2 f) 32 (c1 f es count) P32 ltac:(lia)) as B2.
  fold (c2 f es count) in B2.
  unfold align_ok, align_spec. rewrite !uses_bytes by (auto; lia).
  assert (E1 : (count - c1 f es count) * es = left512 f (count * es)).
  { unfold c1, left512. rewrite stage_bytes by (auto; lia). rewrite Nat.sub_0_r. reflexivity. }
  assert (E2 : (count - c2 f es count) * es = left256 f (count * es)).
  { unfold c2, left256. rewrite stage_bytes by (auto; lia). rewrite E1. reflexivity. }
  rewrite E1, E2, Nat.sub_0_r. tauto.
Qed.

Lemma simd_memcpy_aligned_iff f es from to count m :
  elem_size es -> from + count * es <= length m -> to + count * es <= length m ->
  disj to from (count * es) ->
  (align_spec f (count * es) from to ->
     simd_memcpy f true es from to count m = Ret (copied m from to (count * es))) /\
  (~ align_spec f (count * es) from to ->
     simd_memcpy f true es from to count m = Undef Misaligned).
Proof.
  intros. rewrite <- (align_ok_spec f es count from to) by assumption. split; intros.
  - apply simd_memcpy_ok; auto.
  - apply simd_memcpy_misaligned; auto.
Qed.

Lemma copied_pointwise m from to k i : from + k <= length m -> to + k <= length m ->
  (to <= i < to + k -> nth_error (copied m from to k) i = nth_error m (from + (i - to))) /\
  (~ (to <= i < to + k) -> nth_error (copied m from to k) i = nth_error m i) /\
  length (copied m from to k) = length m.
Proof.
  intros. rewrite copied_nth by assumption. split; [|split]; [| |apply copied_length; assumption];
  destruct (Nat.leb_spec to i), (Nat.ltb_spec i (to + k)); cbn; intros; auto; lia.
Qed.
