(** Repetition of array lists. *)
From Coq Require Import ZArith List Bool Lia Arith.
From Verif Require Import Base PyLongModel PyLongProofs MemModel MemSpec MemProofs SimdCopyModel SimdCopyProofs
  QReverseModel PyListSpec ListLemmas ArrayListModel ArrayListProofs ArrayListSpec ArrayListFacts ArrayListMoreModel.
Import ListNotations.
Local Open Scope nat_scope.
Local Arguments Nat.div : simpl never.
Local Arguments Nat.modulo : simpl never.
Local Arguments Nat.mul : simpl never.
Local Arguments Nat.add : simpl never.

Definition reps {A} (n : nat) (l : list A) : list A := concat (repeat l n).
Lemma reps_S {A} n (l : list A) : reps (S n) l = l ++ reps n l.
Proof. reflexivity. Qed.
Lemma reps_snoc {A} n (l : list A) : reps (S n) l = reps n l ++ l.
Proof.
  induction n as [|n IH]; [unfold reps; cbn; rewrite app_nil_r; reflexivity|].
  rewrite reps_S, IH at 1. rewrite app_assoc, <- reps_S, IH. reflexivity.
Qed.
Lemma reps_length {A} n (l : list A) : length (reps n l) = n * length l.
Proof. induction n as [|n IH]; [reflexivity|]. rewrite reps_S, app_length, IH. lia. Qed.

Lemma firstn_len {A} (a b : list A) : firstn (length a) (a ++ b) = a.
Proof. rewrite firstn_app, Nat.sub_diag, firstn_all. cbn [firstn]. apply app_nil_r. Qed.
Lemma skipn_len {A} (a b : list A) : skipn (length a) (a ++ b) = b.
Proof. rewrite skipn_app, Nat.sub_diag, skipn_all. reflexivity. Qed.
Lemma copied_split (a b c d : bytes) : length c = length a ->
  copied (a ++ b ++ c ++ d) 0 (length (a ++ b)) (length a) = a ++ b ++ a ++ d.
Proof.
  intros H. unfold copied. cbn [skipn].
  rewrite (firstn_len a). replace (a ++ b ++ c ++ d) with ((a ++ b) ++ c ++ d) by (rewrite <- app_assoc; reflexivity).
  rewrite (firstn_len (a ++ b)). rewrite <- H, <- app_length, (app_assoc (a ++ b) c d), skipn_len, <- app_assoc.
  reflexivity.
Qed.

Lemma mul_loop_ok f es (src pad : bytes) size : elem_size es -> length src = size * es ->
  forall n i, (forall j, i <= j < i + n -> align_spec f (size * es) 0 (length (src ++ pad) + size * j * es)) ->
  mul_loop f es size (length (src ++ pad)) n i (src ++ pad ++ reps i src ++ repeat 0%Z (n * (size * es)))
  = Ret (src ++ pad ++ reps (i + n) src).
Proof.
  intros Hes Hl. induction n as [|n IH]; intros i Hal.
  - cbn [mul_loop]. change (0 * (size * es)) with 0. cbn [repeat]. rewrite app_nil_r, Nat.add_0_r. reflexivity.
  - cbn [mul_loop]. set (m := src ++ pad ++ reps i src ++ repeat 0%Z (S n * (size * es))).
    assert (EM : m = src ++ (pad ++ reps i src) ++ repeat 0%Z (size * es) ++ repeat 0%Z (n * (size * es))).
    { unfold m. replace (S n * (size * es)) with (size * es + n * (size * es)) by lia.
      rewrite repeat_app, <- !app_assoc. reflexivity. }
    assert (LM : length m = size * es + length pad + i * (size * es) + size * es + n * (size * es)).
    { rewrite EM, !app_length, reps_length, !repeat_length, Hl. lia. }
    assert (LT : length (src ++ pad) + size * i * es = length (src ++ pad ++ reps i src)).
    { rewrite !app_length, reps_length, Hl. lia. }
    destruct (simd_memcpy_aligned_iff f es 0 (length (src ++ pad) + size * i * es) size m) as [K _].
    { exact Hes. } { lia. } { rewrite LT, !app_length, reps_length, Hl. lia. }
    { unfold disj. right. rewrite app_length. lia. }
    rewrite K by (apply Hal; lia). cbn [obind].
    replace (copied m 0 (length (src ++ pad) + size * i * es) (size * es))
      with (src ++ pad ++ reps (S i) src ++ repeat 0%Z (n * (size * es))).
    + replace (i + S n) with (S i + n) by lia. apply IH. intros j Hj. apply Hal. lia.
    + rewrite EM, LT, <- Hl. rewrite copied_split by (rewrite repeat_length; lia).
      rewrite reps_snoc, <- !app_assoc. reflexivity.
Qed.

(** A buffer of [n] copies of [b] bytes can be written with the vector
    instructions used for a copy of [b] bytes. *)
Lemma align_from0 f b to : align_spec f b 0 to <->
  (avx512 f = true -> 64 <= b -> to mod 64 = 0) /\
  (avx2 f = true -> 32 <= left512 f b -> to mod 32 = 0) /\
  (sse41 f = true -> 16 <= left256 f b -> to mod 16 = 0).
Proof.
  unfold align_spec, aligned_to.
  split; intros (A & B & C); (split; [|split]); intros; try apply A; try apply B; try apply C; auto;
    split; auto.
Qed.

Lemma mod_of_64 w x y : w <> 0 -> 64 mod w = 0 -> x mod 64 = 0 -> (x + y) mod w = y mod w.
Proof.
  intros W H X. apply Nat.mod_divides in H; [|assumption]. apply Nat.mod_divides in X; [|lia].
  destruct H as [c Hc]. destruct X as [d Hd]. subst x. rewrite Hc. 
  replace (w * c * d + y) with (y + c * d * w) by lia. apply Nat.mod_add. assumption.
Qed.
Lemma mod_mul0 w b j : w <> 0 -> b mod w = 0 -> (j * b) mod w = 0.
Proof. intros W H. rewrite Nat.mul_mod, H, Nat.mul_0_r by assumption. apply Nat.mod_0_l. assumption. Qed.

Lemma rep_align_all f b D j : D mod 64 = 0 -> rep_align f b -> align_spec f b 0 (D + j * b).
Proof.
  intros HD (A & B & C). apply align_from0.
  split; [|split]; intros X Y; rewrite mod_of_64 by (try assumption; try discriminate; reflexivity);
    apply mod_mul0; auto.
Qed.
Lemma rep_align_zero f b D : D mod 64 = 0 -> align_spec f b 0 D.
Proof.
  intros HD. apply align_from0. rewrite <- (Nat.add_0_r D).
  split; [|split]; intros _ _; rewrite mod_of_64 by (try assumption; try discriminate; reflexivity); reflexivity.
Qed.
Lemma rep_align_one f b D : D mod 64 = 0 -> align_spec f b 0 (D + b) -> rep_align f b.
Proof.
  intros HD H. apply align_from0 in H. destruct H as (A & B & C).
  split; [|split]; intros X Y.
  - rewrite <- (mod_of_64 64 D) by (try assumption; try discriminate; reflexivity). auto.
  - rewrite <- (mod_of_64 32 D) by (try assumption; try discriminate; reflexivity). auto.
  - rewrite <- (mod_of_64 16 D) by (try assumption; try discriminate; reflexivity). auto.
Qed.

Lemma round64_spec n : n <= round64 n /\ round64 n mod 64 = 0.
Proof.
  unfold round64. split; [|apply Nat.mod_mul; discriminate].
  pose proof (Nat.div_mod (n + 63) 64 ltac:(discriminate)). pose proof (Nat.mod_upper_bound (n + 63) 64 ltac:(discriminate)). lia.
Qed.

Lemma encode_length k s : length (encode k s) = length s * esize k.
Proof.
  unfold encode. induction s as [|x s IH]; [reflexivity|]. cbn [map concat length].
  rewrite app_length, IH, le_bytes_length. lia.
Qed.
Lemma encode_app k s t : encode k (s ++ t) = encode k s ++ encode k t.
Proof. unfold encode. rewrite map_app, concat_app. reflexivity. Qed.
Lemma encode_reps k s n : encode k (reps n s) = reps n (encode k s).
Proof. induction n as [|n IH]; [reflexivity|]. rewrite !reps_S, encode_app, IH. reflexivity. Qed.
Lemma reps_forall {A} (P : A -> Prop) n s : Forall P s -> Forall P (reps n s).
Proof. intros F. induction n as [|n IH]; [constructor|]. rewrite reps_S. apply Forall_app. auto. Qed.
Lemma esize_elem k : elem_size (esize k).
Proof. destruct k; unfold elem_size; cbn; auto. Qed.

Lemma mul_ok cfg k n s : Forall (in_range k) s -> (1 <= n)%Z -> (n = 1%Z \/ rep_align (feat cfg) (length s * esize k)) ->
  mul cfg k n s = (Ret (VNewList (reps (Z.to_nat n) s)), s).
Proof.
  intros F N A. unfold mul. destruct (Z.ltb_spec n 0); [lia|]. destruct (Z.eqb_spec n 0); [lia|].
  set (c := Z.to_nat n). set (src := encode k s). set (D := round64 (length src)).
  pose proof (round64_spec (length src)) as [RL RM]. fold D in RL, RM.
  set (pad := repeat 0%Z (D - length src)).
  assert (LD : length (src ++ pad) = D) by (unfold pad; rewrite app_length, repeat_length; lia).
  pose proof (mul_loop_ok (feat cfg) (esize k) src pad (length s) (esize_elem k) (encode_length k s) c 0) as K.
  rewrite LD in K. change (reps 0 src) with (@nil Z) in K. cbn [app] in K.
  replace (length s * c * esize k) with (c * (length s * esize k)) by lia. rewrite K.
  - cbn [with_]. do 2 f_equal. rewrite app_assoc, <- LD, skipn_len. cbn [Nat.add]. unfold src.
    f_equal. rewrite <- encode_reps.
    replace (length s * c) with (length (reps c s)) by (rewrite reps_length; lia).
    apply decode_encode. apply reps_forall. exact F.
  - intros j Hj. replace (length s * j * esize k) with (j * (length s * esize k)) by lia.
    destruct A as [A|A].
    + assert (j = 0) by lia. subst j. rewrite Nat.mul_0_l, Nat.add_0_r. apply rep_align_zero. exact RM.
    + apply rep_align_all; assumption.
Qed.

Lemma mul_misaligned cfg k n s : Forall (in_range k) s -> (2 <= n)%Z -> ~ rep_align (feat cfg) (length s * esize k) ->
  mul cfg k n s = (Undef Misaligned, s).
Proof.
  intros F N A. unfold mul. destruct (Z.ltb_spec n 0); [lia|]. destruct (Z.eqb_spec n 0); [lia|].
  set (src := encode k s). set (D := round64 (length src)).
  pose proof (round64_spec (length src)) as [RL RM]. fold D in RL, RM.
  set (pad := repeat 0%Z (D - length src)).
  assert (LD : length (src ++ pad) = D) by (unfold pad; rewrite app_length, repeat_length; lia).
  assert (LS : length src = length s * esize k) by apply encode_length.
  destruct (Z.to_nat n) as [|[|c]] eqn:EC; [lia|lia|].
  replace (length s * S (S c) * esize k) with (S (S c) * (length s * esize k)) by lia.
  set (m := src ++ pad ++ repeat 0%Z (S (S c) * (length s * esize k))).
  assert (LM : length m = D + S (S c) * (length s * esize k)).
  { unfold m. rewrite app_assoc, app_length, LD, repeat_length. reflexivity. }
  cbn [mul_loop]. rewrite Nat.mul_0_r, Nat.mul_0_l, Nat.add_0_r.
  destruct (simd_memcpy_aligned_iff (feat cfg) (esize k) 0 D (length s) m) as [K _];
    [apply esize_elem|lia|lia|unfold disj; lia|].
  rewrite K by (apply rep_align_zero; exact RM). cbn [obind].
  set (m1 := copied m 0 D (length s * esize k)).
  assert (LM1 : length m1 = length m) by (apply copied_length; lia).
  rewrite Nat.mul_1_r.
  destruct (simd_memcpy_aligned_iff (feat cfg) (esize k) 0 (D + length s * esize k) (length s) m1) as [_ K2];
    [apply esize_elem|lia|lia|unfold disj; lia|].
  rewrite K2; [reflexivity|]. intros X. apply A. apply rep_align_one in X; assumption.
Qed.

Lemma mul_nonpos cfg k n s : (n <= 0)%Z -> mul cfg k n s = (Ret (VNewList []), s).
Proof.
  intros H. unfold mul. destruct (Z.ltb_spec n 0); [reflexivity|]. destruct (Z.eqb_spec n 0); [reflexivity|lia].
Qed.

(** ** In-place repetition *)
Definition bounded {A} (o : outcome A) (P : A -> Prop) : Prop :=
  match o with Ret x => P x | Undef _ => True | _ => False end.
Lemma bounded_bind {A B} (o : outcome A) (f : A -> outcome B) P Q :
  bounded o P -> (forall x, P x -> bounded (f x) Q) -> bounded (obind o f) Q.
Proof. destruct o; cbn; intros H K; auto; contradiction. Qed.

Lemma mload_bounded m a n : bounded (mload m a n) (fun v => a + n <= length m /\ length v = n).
Proof.
  unfold mload. destruct (Nat.leb_spec (a + n) (length m)); cbn; [|exact I].
  split; [assumption|]. rewrite firstn_length, skipn_length. lia.
Qed.
Lemma mstore_bounded m a v : bounded (mstore m a v) (fun m' => a + length v <= length m /\ length m' = length m).
Proof.
  unfold mstore. destruct (Nat.leb_spec (a + length v) (length m)); cbn; [|exact I].
  split; [assumption|]. rewrite !app_length, firstn_length, skipn_length. lia.
Qed.
Lemma vload_bounded al w m a : bounded (vload al w m a) (fun v => a + w <= length m /\ length v = w).
Proof. unfold vload. destruct (al && _); [exact I|apply mload_bounded]. Qed.
Lemma vstore_bounded al w m a v : bounded (vstore al w m a v) (fun m' => a + length v <= length m /\ length m' = length m).
Proof. unfold vstore. destruct (al && _); [exact I|apply mstore_bounded]. Qed.

(** The range written so far lies inside the memory. *)
Definition inside (L es to : nat) (m : bytes) (c : nat) : Prop := length m = L /\ (c = 0 \/ to + c * es <= L).

Lemma vec_loop_bounded al w es L from to : w / es * es = w -> forall n c m, inside L es to m c ->
  bounded (vec_loop al w es n from to c m) (fun st => inside L es to (fst st) (snd st) /\ snd st = c + n * (w / es)).
Proof.
  intros W. induction n as [|n IH]; intros c m I; cbn [vec_loop].
  - cbn. split; [exact I|lia].
  - eapply bounded_bind; [apply vload_bounded|]. intros v [_ Lv].
    eapply bounded_bind; [apply vstore_bounded|]. intros m' [B Lm']. destruct I as [I _].
    assert (I' : inside L es to m' (c + w / es)).
    { split; [congruence|]. right. rewrite Nat.mul_add_distr_r, W. lia. }
    specialize (IH _ _ I'). destruct (vec_loop _ _ _ _ _ _ _ _); cbn in *; auto. destruct IH as [IH1 IH2].
    split; [exact IH1|]. lia.
Qed.
Lemma vec_block_bounded e al w es L count from to m c : es <> 0 -> w / es * es = w -> w / es <> 0 ->
  inside L es to m c -> c <= count ->
  bounded (vec_block e al w es count from to (m, c)) (fun st => inside L es to (fst st) (snd st) /\ snd st <= count).
Proof.
  intros E W W0 I C. unfold vec_block. destruct (e && _) eqn:B; [|cbn; auto].
  pose proof (vec_loop_bounded al w es L from to W ((count - c) / (w / es)) c m I) as V.
  destruct (vec_loop _ _ _ _ _ _ _ _); cbn in *; auto. destruct V as [V1 V2]. split; [exact V1|].
  rewrite V2. pose proof (Nat.mul_div_le (count - c) (w / es) W0). lia.
Qed.
Lemma scalar_bounded es L from to : forall n c m, inside L es to m c ->
  bounded (scalar_loop es n from to c m) (fun m' => inside L es to m' (c + n)).
Proof.
  induction n as [|n IH]; intros c m I; cbn [scalar_loop].
  - cbn. rewrite Nat.add_0_r. exact I.
  - eapply bounded_bind; [apply mload_bounded|]. intros v [_ Lv].
    eapply bounded_bind; [apply mstore_bounded|]. intros m' [B Lm']. destruct I as [I _].
    replace (c + S n) with (S c + n) by lia. apply IH. split; [congruence|right; lia].
Qed.
Lemma simd_memcpy_bounded f al es from to count m : elem_size es -> 0 < count ->
  bounded (simd_memcpy f al es from to count m) (fun m' => length m' = length m /\ to + count * es <= length m).
Proof.
  intros Hes C. unfold simd_memcpy. destruct (negb _); [exact I|].
  assert (W : es <> 0 /\ 64 / es * es = 64 /\ 32 / es * es = 32 /\ 16 / es * es = 16 /\ 64 / es <> 0 /\ 32 / es <> 0 /\ 16 / es <> 0)
    by (destruct Hes as [->|[->|[->|[->| ->]]]]; cbv; repeat split; discriminate).
  destruct W as (W0 & W1 & W2 & W3 & W4 & W5 & W6).
  eapply bounded_bind with (P := fun m0 => inside (length m) es to m0 0).
  { destruct (_ || _); [|cbn; unfold inside; auto]. unfold memcpy. destruct (disjoint_b _ _ _); [|exact I].
    eapply bounded_bind; [apply mload_bounded|]. intros v [_ Lv].
    pose proof (mstore_bounded m to v) as M. destruct (mstore _ _ _); cbn in *; auto. unfold inside. split; [apply M|auto]. }
  intros m0 I0. eapply bounded_bind; [apply (vec_block_bounded _ _ 64 es (length m)); auto; lia|].
  intros [m1 c1] [I1 C1]. eapply bounded_bind; [apply (vec_block_bounded _ _ 32 es (length m)); auto; lia|].
  intros [m2 c2] [I2 C2]. eapply bounded_bind; [apply (vec_block_bounded _ _ 16 es (length m)); auto; lia|].
  intros [m3 c3] [I3 C3]. cbn [fst snd] in *.
  pose proof (scalar_bounded es (length m) from to (count - c3) c3 m3 I3) as S.
  destruct (scalar_loop _ _ _ _ _ _); cbn in *; auto. destruct S as [S1 S2]. split; [exact S1|].
  replace (c3 + (count - c3)) with count in S2 by lia. destruct S2; [lia|assumption].
Qed.

Lemma imp_dec (b : bool) (P Q : Prop) : (P \/ ~ P) -> (Q \/ ~ Q) -> (b = true -> P -> Q) \/ ~ (b = true -> P -> Q).
Proof. destruct b; intros [p|p] [q|q]; try tauto; left; intros X; discriminate. Qed.
Lemma align_dec f b to : align_spec f b 0 to \/ ~ align_spec f b 0 to.
Proof.
  rewrite align_from0.
  assert (LE : forall x y, x <= y \/ ~ x <= y) by (intros; lia).
  assert (EQ : forall x y : nat, x = y \/ ~ x = y) by (intros; lia).
  destruct (imp_dec (avx512 f) (64 <= b) (to mod 64 = 0) (LE _ _) (EQ _ _)) as [A|A];
  destruct (imp_dec (avx2 f) (32 <= left512 f b) (to mod 32 = 0) (LE _ _) (EQ _ _)) as [B|B];
  destruct (imp_dec (sse41 f) (16 <= left256 f b) (to mod 16 = 0) (LE _ _) (EQ _ _)) as [C|C]; tauto.
Qed.

(** Any copy of the loop that returns leaves the bytes before its target alone. *)
Lemma imul_loop_bounded f es size : elem_size es -> 0 < size -> forall n i m, 1 <= i ->
  size * es <= length m ->
  bounded (imul_loop f es size n i m) (fun m' => length m' = length m /\
    firstn (size * es * es) m' = firstn (size * es * es) m /\
    (n <> 0 -> size * es * (i + n - 1) * es + size * es <= length m)).
Proof.
  intros Hes S0. assert (E0 : 0 < es) by (destruct Hes as [->|[->|[->|[->| ->]]]]; lia).
  induction n as [|n IH]; intros i m Hi Lm; cbn [imul_loop].
  { cbn. split; [reflexivity|]. split; [reflexivity|]. intros H. contradiction. }
  set (to := size * es * i * es).
  assert (T : size * es * es <= to) by (unfold to; nia). assert (T2 : size * es <= size * es * es) by nia.
  pose proof (simd_memcpy_bounded f true es 0 to size m Hes S0) as B.
  destruct (simd_memcpy f true es 0 to size m) as [m1| | |u] eqn:E; cbn in B; try contradiction; [|exact I].
  destruct B as [L1 B1]. cbn [obind].
  destruct (simd_memcpy_aligned_iff f es 0 to size m Hes) as [K1 K2]; [lia|lia|unfold disj; lia|].
  assert (M1 : m1 = copied m 0 to (size * es)).
  { destruct (align_dec f (size * es) to) as [A|A]; [rewrite (K1 A) in E|rewrite (K2 A) in E]; congruence. }
  assert (F1 : firstn (size * es * es) m1 = firstn (size * es * es) m).
  { rewrite M1. unfold copied. rewrite firstn_app, firstn_firstn, firstn_length.
    replace (size * es * es - Nat.min to (length m)) with 0 by lia. cbn [firstn]. rewrite app_nil_r.
    f_equal. lia. }
  specialize (IH (S i) m1 ltac:(lia) ltac:(lia)).
  destruct (imul_loop f es size n (S i) m1); cbn in *; auto. destruct IH as (I1 & I2 & I3).
  split; [congruence|]. split; [congruence|]. intros _. destruct n as [|n].
  - replace (i + 1 - 1) with i by lia. fold to. lia.
  - specialize (I3 ltac:(discriminate)). replace (i + S (S n) - 1) with (S i + S n - 1) by lia. lia.
Qed.

Lemma decode_firstn k n b j : j <= n -> firstn j (decode k n b) = decode k j b.
Proof.
  unfold decode. intros H. rewrite firstn_map. f_equal. revert n b H.
  induction j as [|j IH]; intros n b H; [reflexivity|]. destruct n as [|n]; [lia|].
  cbn [chunk_n firstn]. f_equal. apply IH. lia.
Qed.
Lemma chunk_n_firstn es j b : chunk_n es j (firstn (j * es) b) = chunk_n es j b.
Proof.
  revert b. induction j as [|j IH]; intros b; [reflexivity|]. cbn [chunk_n].
  rewrite firstn_firstn. f_equal; [f_equal; lia|].
  rewrite skipn_firstn_comm. replace (S j * es - es) with (j * es) by lia. apply IH.
Qed.
Lemma le_bytes_zero n : le_bytes n 0 = repeat 0%Z n.
Proof. induction n as [|n IH]; [reflexivity|]. cbn [le_bytes repeat]. rewrite <- IH. reflexivity. Qed.
Lemma encode_zeros k n : encode k (repeat 0%Z n) = repeat 0%Z (n * esize k).
Proof.
  induction n as [|n IH]; [reflexivity|]. cbn [repeat]. change (0%Z :: repeat 0%Z n) with ([0%Z] ++ repeat 0%Z n).
  rewrite encode_app, IH. replace (S n * esize k) with (esize k + n * esize k) by lia. rewrite repeat_app. f_equal.
  unfold encode. cbn [map concat]. rewrite app_nil_r. apply le_bytes_zero.
Qed.

Lemma imul_many cfg k n spare s : Forall (in_range k) s -> s <> [] -> (2 <= n)%Z ->
  match imul cfg k n spare s with
  | (Ret r, s') => r = VSelf /\ length s' = length s * Z.to_nat n /\
      firstn (2 * length s) s' = s ++ repeat 0%Z (length s) /\
      length s * esize k * (Z.to_nat n - 1) * esize k + length s * esize k
        <= length s * Z.to_nat n * esize k + length spare
  | (Undef _, _) => True
  | _ => False
  end.
Proof.
  intros F NE N. unfold imul. destruct (Z.ltb_spec n 0); [lia|]. destruct (Z.eqb_spec n 0); [lia|].
  destruct (Z.to_nat n) as [|[|c]] eqn:EC; [lia|lia|].
  assert (S0 : 0 < length s) by (destruct s; [contradiction|cbn; lia]).
  assert (E4 : 4 <= esize k) by (destruct k; cbn; lia).
  set (m := encode k s ++ repeat 0%Z ((length s * S (S c) - length s) * esize k) ++ spare).
  assert (LM : length m = length s * S (S c) * esize k + length spare).
  { unfold m. rewrite !app_length, repeat_length, encode_length. nia. }
  pose proof (imul_loop_bounded (feat cfg) (esize k) (length s) (esize_elem k) S0 (S (S c) - 1) 1 m ltac:(lia) ltac:(lia)) as B.
  destruct (imul_loop _ _ _ _ _ m) as [m'| | |]; cbn in B |- *; try contradiction; [|exact I].
  destruct B as (B1 & B2 & B3). split; [reflexivity|]. split; [|split].
  - unfold decode. rewrite map_length.
    clear. generalize (length s * S (S c)). intros x. revert m'. induction x as [|x IH]; intros m'; [reflexivity|].
    cbn [chunk_n length]. rewrite IH. reflexivity.
  - rewrite decode_firstn by nia.
    assert (P : firstn (2 * length s * esize k) m' = encode k (s ++ repeat 0%Z (length s))).
    { assert (Q : forall x : bytes, firstn (2 * length s * esize k) x = firstn (2 * length s * esize k) (firstn (length s * esize k * esize k) x)).
      { intros x. rewrite firstn_firstn. f_equal. nia. }
      rewrite Q, B2, <- Q. unfold m. rewrite encode_app, encode_zeros.
      replace ((length s * S (S c) - length s) * esize k) with (length s * esize k + length s * c * esize k) by nia.
      rewrite repeat_app, <- !app_assoc, app_assoc.
      replace (2 * length s * esize k) with (length (encode k s ++ repeat 0%Z (length s * esize k)))
        by (rewrite app_length, encode_length, repeat_length; lia).
      apply firstn_len. }
    unfold decode. rewrite <- chunk_n_firstn, P. 
    replace (2 * length s) with (length (s ++ repeat 0%Z (length s))) by (rewrite app_length, repeat_length; lia).
    apply decode_encode. apply Forall_app. split; [exact F|]. apply Forall_forall. intros z Hz.
    apply repeat_spec in Hz. subst z. apply zero_in_range.
  - specialize (B3 ltac:(lia)). replace (1 + (S (S c) - 1) - 1) with (S (S c) - 1) in B3 by lia. lia.
Qed.

Lemma imul_one cfg k spare s : Forall (in_range k) s -> imul cfg k 1 spare s = (Ret VSelf, s).
Proof.
  intros F. unfold imul. change (1 <? 0)%Z with false. cbv iota zeta. change (1 =? 0)%Z with false. cbv iota.
  change (Z.to_nat 1) with 1. change (1 - 1) with 0. cbn [imul_loop with_]. rewrite Nat.mul_1_r, Nat.sub_diag.
  cbn [Nat.mul repeat app]. rewrite Nat.mul_0_l. cbn [repeat app]. f_equal.
  unfold decode. rewrite <- chunk_n_firstn. rewrite <- (encode_length k s), firstn_len. apply decode_encode. exact F.
Qed.
Lemma imul_nonpos cfg k n spare s : (n <= 0)%Z -> imul cfg k n spare s = (Ret VSelf, []).
Proof.
  intros H. unfold imul. destruct (Z.ltb_spec n 0); [reflexivity|]. destruct (Z.eqb_spec n 0); [reflexivity|lia].
Qed.
