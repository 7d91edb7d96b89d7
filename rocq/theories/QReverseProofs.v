From Coq Require Import ZArith List Bool Arith Lia.
From Verif Require Import Base MemSpec MemModel MemProofs QReverseModel.
Import ListNotations.

(** A register transformation that reverses [w] elements of [es] bytes. *)
Definition reverses (es w : nat) (shuf : bytes -> bytes) : Prop :=
  forall L, all_len es L -> length L = w -> shuf (concat L) = concat (rev L).

Lemma mod_chain (i w w' : nat) : 0 < w -> i mod (w * w') = 0 -> i mod w = 0.
Proof.
  intros Hw H. destruct (Nat.eq_dec (w * w') 0) as [E|E].
  - assert (w' = 0) by lia. subst. rewrite Nat.mul_0_r in H. cbn in H. subst. apply Nat.mod_0_l. lia.
  - apply Nat.mod_divides in H; [|assumption]. destruct H as [k ->].
    rewrite <- Nat.mul_assoc, Nat.mul_comm. apply Nat.mod_mul. lia.
Qed.

Lemma rev_loop_ok es w shuf : reverses es w shuf -> 0 < w ->
  forall n i lo mid hi,
  all_len es (lo ++ mid ++ hi) -> length lo = i -> length hi = i ->
  2 * (n * w) <= length mid ->
  exists lo' mid' hi',
    rev_loop es w shuf (2 * i + length mid) n i (concat (rev hi ++ mid ++ rev lo))
      = Ret (concat (rev hi' ++ mid' ++ rev lo'), i + n * w) /\
    lo ++ mid ++ hi = lo' ++ mid' ++ hi' /\
    length lo' = i + n * w /\ length hi' = i + n * w /\
    length mid' + 2 * (n * w) = length mid.
Proof.
  intros R Hw n. induction n as [|n IH]; intros i lo mid hi F Hlo Hhi Hn.
  - exists lo, mid, hi. cbn. rewrite Nat.add_0_r. repeat split; auto.
  - destruct (list_split3 mid w (length mid - 2 * w) w) as (l' & m' & h' & -> & Hl & Hm & Hh).
    { cbn in Hn. lia. }
    apply all_len_app in F. destruct F as [Flo F]. apply all_len_app in F. destruct F as [Fmid Fhi].
    apply all_len_app in Fmid. destruct Fmid as [Fl Fm]. apply all_len_app in Fm. destruct Fm as [Fm Fh].
    assert (Crl : all_len es (rev lo)) by (apply all_len_rev; assumption).
    assert (Crh : all_len es (rev hi)) by (apply all_len_rev; assumption).
    rewrite !app_length in *.
    cbn [rev_loop].
    replace (2 * i + (length l' + (length m' + length h')) - i - w) with (i + w + length m') by lia.
    rewrite !concat_app.
    assert (Lhi : length (concat (rev hi)) = i * es) by (rewrite (concat_length es), rev_length by assumption; lia).
    assert (Ll : length (concat l') = w * es) by (rewrite (concat_length es) by assumption; lia).
    assert (Lh : length (concat h') = w * es) by (rewrite (concat_length es) by assumption; lia).
    assert (Lm : length (concat m') = length m' * es) by (rewrite (concat_length es) by assumption; lia).
    rewrite <- !app_assoc.
    rewrite (mload_mid (concat (rev hi)) (concat l')) by lia. cbn [obind].
    replace (concat (rev hi) ++ concat l' ++ concat m' ++ concat h' ++ concat (rev lo))
      with ((concat (rev hi) ++ concat l' ++ concat m') ++ concat h' ++ concat (rev lo))
      by (rewrite <- !app_assoc; reflexivity).
    rewrite (mload_mid (concat (rev hi) ++ concat l' ++ concat m') (concat h'))
      by (rewrite ?app_length; lia). cbn [obind].
    rewrite (R h'), (R l') by assumption.
    assert (Lrl : length (concat (rev l')) = w * es)
      by (rewrite (concat_length es), rev_length by (apply all_len_rev; assumption); lia).
    assert (Lrh : length (concat (rev h')) = w * es)
      by (rewrite (concat_length es), rev_length by (apply all_len_rev; assumption); lia).
    rewrite <- !app_assoc.
    rewrite (mstore_mid (concat (rev hi)) (concat l')) by lia. cbn [obind].
    replace (concat (rev hi) ++ concat (rev h') ++ concat m' ++ concat h' ++ concat (rev lo))
      with ((concat (rev hi) ++ concat (rev h') ++ concat m') ++ concat h' ++ concat (rev lo))
      by (rewrite <- !app_assoc; reflexivity).
    rewrite (mstore_mid _ (concat h')) by (rewrite ?app_length; lia). cbn [obind].
    specialize (IH (i + w) (lo ++ l') m' (h' ++ hi)).
    destruct IH as (lo2 & mid2 & hi2 & E & P & L1 & L2 & L3).
    { rewrite !all_len_app. tauto. }
    { rewrite app_length; lia. }
    { rewrite app_length; lia. }
    { cbn in Hn. lia. }
    exists lo2, mid2, hi2. split; [|split; [|split; [|split]]].
    + replace (2 * (i + w) + length m') with (2 * i + (length l' + (length m' + length h'))) in E by lia.
      rewrite !rev_app_distr, !concat_app, <- !app_assoc in E.
      rewrite <- !app_assoc. rewrite E. f_equal. rewrite !concat_app. f_equal. lia.
    + rewrite <- P. rewrite <- !app_assoc. reflexivity.
    + cbn. lia.
    + cbn. lia.
    + cbn. lia.
Qed.

Lemma naive_loop_as_rev es count n i m :
  naive_loop es count n i m = omap fst (rev_loop es 1 (fun v => v) count n i m).
Proof.
  unfold omap. revert i m; induction n as [|n IH]; intros i m; cbn [naive_loop rev_loop].
  - reflexivity.
  - rewrite Nat.mul_1_l, Nat.add_1_r.
    destruct (mload_cases m (i * es) es) as [[v ->]| ->]; cbn [obind]; [|reflexivity].
    destruct (mload_cases m ((count - i - 1) * es) es) as [[v' ->]| ->]; cbn [obind]; [|reflexivity].
    destruct (mstore_cases m (i * es) v') as [[m1 ->]| ->]; cbn [obind]; [|reflexivity].
    destruct (mstore_cases m1 ((count - i - 1) * es) v) as [[m2 ->]| ->]; cbn [obind]; [|reflexivity].
    apply IH.
Qed.

Lemma reverses_1 es : reverses es 1 (fun v => v).
Proof.
  intros L F H. destruct L as [|x [|? ?]]; cbn in H; try lia. reflexivity.
Qed.

(** Loop state: [i] elements swapped at both ends of the original list [E]. *)
Definition rstate (es : nat) (E : list bytes) (i : nat) (st : bytes * nat) : Prop :=
  exists lo mid hi, E = lo ++ mid ++ hi /\ length lo = i /\ length hi = i /\
    st = (concat (rev hi ++ mid ++ rev lo), i).

Lemma rstate_init es E : rstate es E 0 (concat E, 0).
Proof.
  exists [], E, []. rewrite app_nil_r. cbn. rewrite app_nil_r. auto.
Qed.

Lemma rev_block_ok en es w shuf E i st :
  reverses es w shuf -> 0 < w -> all_len es E -> rstate es E i st ->
  i mod w = 0 -> i <= length E / 2 ->
  exists i' st', rev_block en es w shuf (length E) st = Ret st' /\ rstate es E i' st' /\
    i' <= length E / 2 /\
    i' = (if en then length E / 2 / w * w else i) .
Proof.
  intros R Hw F (lo & mid & hi & HE & Hlo & Hhi & ->) Hi Hle.
  unfold rev_block. destruct en.
  - assert (HL : length E = 2 * i + length mid) by (rewrite HE, !app_length; lia).
    set (n := length E / 2 / w - i / w).
    assert (Hi' : i = i / w * w).
    { pose proof (Nat.div_mod i w ltac:(lia)). lia. }
    assert (Hq : i / w <= length E / 2 / w) by (apply Nat.div_le_mono; lia).
    assert (Hm : length E / 2 / w * w <= length E / 2).
    { rewrite Nat.mul_comm. apply Nat.mul_div_le. lia. }
    assert (Hh : 2 * (length E / 2) <= length E) by (apply Nat.mul_div_le; lia).
    assert (Hin : i + n * w = length E / 2 / w * w).
    { unfold n. rewrite Nat.mul_sub_distr_r. nia. }
    destruct (rev_loop_ok es w shuf R Hw n i lo mid hi) as (lo' & mid' & hi' & Er & P & L1 & L2 & L3);
      [rewrite <- HE; assumption|assumption|assumption|nia|].
    rewrite <- HL in Er. rewrite Er.
    exists (i + n * w), (concat (rev hi' ++ mid' ++ rev lo'), i + n * w).
    split; [reflexivity|]. split; [|split; lia].
    exists lo', mid', hi'. repeat split; auto. congruence.
  - exists i, (concat (rev hi ++ mid ++ rev lo), i). split; [reflexivity|].
    split; [|split; lia]. exists lo, mid, hi. auto.
Qed.

Lemma naive_tail_ok es E i st :
  all_len es E -> rstate es E i st -> i <= length E / 2 ->
  naive_tail es (length E) st = Ret (concat (rev E)).
Proof.
  intros F (lo & mid & hi & HE & Hlo & Hhi & ->) Hle.
  unfold naive_tail. rewrite naive_loop_as_rev.
  assert (HL : length E = 2 * i + length mid) by (rewrite HE, !app_length; lia).
  assert (Hh : 2 * (length E / 2) <= length E) by (apply Nat.mul_div_le; lia).
  assert (Hh2 : length E < 2 * S (length E / 2)) by (apply Nat.mul_succ_div_gt; lia).
  destruct (rev_loop_ok es 1 (fun v => v) (reverses_1 es) ltac:(lia) (length E / 2 - i) i lo mid hi)
    as (lo' & mid' & hi' & Er & P & L1 & L2 & L3); [rewrite <- HE; assumption|assumption|assumption|lia|].
  rewrite <- HL in Er. rewrite Er. cbn. f_equal. f_equal.
  rewrite HE, P, !rev_app_distr, <- app_assoc. f_equal. f_equal.
  assert (M1 : length mid' <= 1) by lia.
  destruct mid' as [|x [|? ?]]; try reflexivity. cbn in M1. lia.
Qed.

(** Register lemmas: destruct the register into its bytes and compute. *)

Lemma length_S_inv {A} (l : list A) n : length l = S n -> exists x r, l = x :: r /\ length r = n.
Proof. destruct l; cbn; intros H; [discriminate|]. injection H; eauto. Qed.
Lemma length_0_inv {A} (l : list A) : length l = 0 -> l = [].
Proof. destruct l; [auto|discriminate]. Qed.

Ltac split_list H :=
  match type of H with
  | length ?l = S ?n =>
      let x := fresh "x" in let r := fresh "r" in let E := fresh "E" in
      apply length_S_inv in H; destruct H as (x & r & E & H); subst l; split_list H
  | length ?l = 0 => apply length_0_inv in H; subst l
  end.

Ltac split_elems :=
  match goal with
  | F : Forall _ (?x :: _) |- _ =>
      let H := fresh "H" in
      apply Forall_cons_iff in F; destruct F as [H F]; split_list H; split_elems
  | F : Forall _ [] |- _ => clear F
  end.

Ltac reg :=
  let L := fresh "L" in let F := fresh "F" in let H := fresh "H" in
  intros L F H; unfold all_len in F; split_list H; split_elems; vm_compute; reflexivity.

Lemma rev1_512_ok : reverses 1 64 rev1_512. Proof. reg. Qed.
Lemma rev1_256_ok : reverses 1 32 rev1_256. Proof. reg. Qed.
Lemma rev1_128_ok : reverses 1 16 rev1_128. Proof. reg. Qed.
Lemma bswap8_ok : reverses 1 8 bswap. Proof. reg. Qed.
Lemma bswap4_ok : reverses 1 4 bswap. Proof. reg. Qed.
Lemma bswap2_ok : reverses 1 2 bswap. Proof. reg. Qed.
Lemma rev2_512_ok : reverses 2 32 rev2_512. Proof. reg. Qed.
Lemma rev2_256_ok : reverses 2 16 rev2_256. Proof. reg. Qed.
Lemma rev2_128_ok : reverses 2 8 rev2_128. Proof. reg. Qed.
Lemma rev4_512_ok : reverses 4 16 rev4_512. Proof. reg. Qed.
Lemma rev4_256_ok : reverses 4 8 rev4_256. Proof. reg. Qed.
Lemma rev4_128_ok : reverses 4 4 rev4_128. Proof. reg. Qed.
Lemma rev8_512_ok : reverses 8 8 rev8_512. Proof. reg. Qed.
Lemma rev8_256_ok : reverses 8 4 rev8_256. Proof. reg. Qed.
Lemma rev8_128_ok : reverses 8 2 rev8_128. Proof. reg. Qed.
Lemma rev16_512_ok : reverses 16 4 rev16_512. Proof. reg. Qed.

Ltac block R :=
  match goal with
  | S : rstate _ ?E ?i ?st |- context [rev_block ?en ?es ?w ?f (length ?E) ?st] =>
      let i' := fresh "i" in let st' := fresh "st" in let Er := fresh "Er" in
      let S' := fresh "S" in let Hle := fresh "Hle" in let Hi := fresh "Hi" in
      destruct (rev_block_ok en es w f E i st R) as (i' & st' & Er & S' & Hle & Hi);
        [lia|assumption|assumption| |lia|rewrite Er; cbn [obind]; clear Er S]
  end.

Lemma if_mod (b : bool) x i w k : i mod (w * k) = 0 -> 0 < w ->
  (if b then x / (w * k) * (w * k) else i) mod w = 0.
Proof.
  intros H Hw. apply (mod_chain _ w k Hw). destruct b; [|assumption].
  destruct (Nat.eq_dec (w * k) 0) as [->|]; [rewrite Nat.mul_0_r; reflexivity|]. apply Nat.mod_mul. assumption.
Qed.

Lemma qreverse1_ok f E : all_len 1 E -> qreverse1 f (length E) (concat E) = Ret (concat (rev E)).
Proof.
  intros F. unfold qreverse1. pose proof (rstate_init 1 E) as S0.
  block rev1_512_ok; [reflexivity|].
  block rev1_256_ok; [subst; apply (if_mod _ _ 0 32 2); [reflexivity|lia]|].
  block rev1_128_ok. { subst i0. apply (if_mod _ _ i 16 2); [|lia]. subst i. apply (if_mod _ _ 0 32 2); [reflexivity|lia]. }
  assert (i1 mod 16 = 0).
  { subst i1. apply (if_mod _ _ i0 16 1); [|lia]. subst i0. apply (if_mod _ _ i 16 2); [|lia]. subst i. apply (if_mod _ _ 0 32 2); [reflexivity|lia]. }
  clear Hi Hi0 Hi1.
  block bswap8_ok. { apply (mod_chain i1 8 2); [lia|assumption]. }
  block bswap4_ok. { subst i2. apply (if_mod true _ 0 4 2); [reflexivity|lia]. }
  block bswap2_ok. { subst i3. apply (if_mod true _ 0 2 2); [reflexivity|lia]. }
  eapply naive_tail_ok; eauto.
Qed.

Lemma qreverse2_ok f E : all_len 2 E -> qreverse2 f (length E) (concat E) = Ret (concat (rev E)).
Proof.
  intros F. unfold qreverse2. pose proof (rstate_init 2 E) as S0.
  block rev2_512_ok; [reflexivity|].
  block rev2_256_ok; [subst; apply (if_mod _ _ 0 16 2); [reflexivity|lia]|].
  block rev2_128_ok. { subst i0. apply (if_mod _ _ i 8 2); [|lia]. subst i. apply (if_mod _ _ 0 16 2); [reflexivity|lia]. }
  eapply naive_tail_ok; eauto.
Qed.

Lemma qreverse4_ok f E : all_len 4 E -> qreverse4 f (length E) (concat E) = Ret (concat (rev E)).
Proof.
  intros F. unfold qreverse4. pose proof (rstate_init 4 E) as S0.
  block rev4_512_ok; [reflexivity|].
  block rev4_256_ok; [subst; apply (if_mod _ _ 0 8 2); [reflexivity|lia]|].
  block rev4_128_ok. { subst i0. apply (if_mod _ _ i 4 2); [|lia]. subst i. apply (if_mod _ _ 0 8 2); [reflexivity|lia]. }
  eapply naive_tail_ok; eauto.
Qed.

Lemma qreverse8_ok f E : all_len 8 E -> qreverse8 f (length E) (concat E) = Ret (concat (rev E)).
Proof.
  intros F. unfold qreverse8. pose proof (rstate_init 8 E) as S0.
  block rev8_512_ok; [reflexivity|].
  block rev8_256_ok; [subst; apply (if_mod _ _ 0 4 2); [reflexivity|lia]|].
  block rev8_128_ok. { subst i0. apply (if_mod _ _ i 2 2); [|lia]. subst i. apply (if_mod _ _ 0 4 2); [reflexivity|lia]. }
  eapply naive_tail_ok; eauto.
Qed.

(** * 16-byte elements *)
(** Register transformation that reverses and applies [g] to each element. *)
Definition reverses_map (es w : nat) (g : bytes -> bytes) (shuf : bytes -> bytes) : Prop :=
  forall L, all_len es L -> length L = w -> shuf (concat L) = concat (map g (rev L)).

Lemma all_len_map es (g : bytes -> bytes) L :
  (forall x, length x = es -> length (g x) = es) -> all_len es L -> all_len es (map g L).
Proof. intros G F. induction F; constructor; auto. Qed.

Lemma rev_loop_map es w g shuf : reverses_map es w g shuf -> 0 < w ->
  (forall x, length x = es -> length (g x) = es) ->
  forall n i A l mid h B,
  all_len es (A ++ l ++ mid ++ h ++ B) -> length A = i -> length B = i ->
  length l = n * w -> length h = n * w ->
  rev_loop es w shuf (length (A ++ l ++ mid ++ h ++ B)) n i (concat (A ++ l ++ mid ++ h ++ B))
  = Ret (concat (A ++ map g (rev h) ++ mid ++ map g (rev l) ++ B), i + n * w).
Proof.
  intros R Hw G n. induction n as [|n IH]; intros i A l mid h B F HA HB Hl Hh.
  - cbn in Hl, Hh. destruct l, h; try discriminate. cbn. rewrite Nat.add_0_r. reflexivity.
  - destruct (list_split_len l w (n * w) Hl) as (l1 & l2 & -> & L1 & L2).
    assert (Hh' : length h = n * w + w) by (rewrite Hh; cbn; lia).
    destruct (list_split_len h (n * w) w Hh') as (h2 & h1 & -> & H2 & H1).
    clear Hl Hh Hh'.
    rewrite !all_len_app in F. destruct F as (FA & (F1 & F2) & Fm & (F3 & F4) & FB).
    cbn [rev_loop].
    assert (LA : length (concat A) = i * es) by (rewrite (concat_length es) by assumption; lia).
    assert (LB : length (concat B) = i * es) by (rewrite (concat_length es) by assumption; lia).
    assert (Ll1 : length (concat l1) = w * es) by (rewrite (concat_length es) by assumption; lia).
    assert (Ll2 : length (concat l2) = n * w * es) by (rewrite (concat_length es) by assumption; lia).
    assert (Lh1 : length (concat h1) = w * es) by (rewrite (concat_length es) by assumption; lia).
    assert (Lh2 : length (concat h2) = n * w * es) by (rewrite (concat_length es) by assumption; lia).
    assert (Lm : length (concat mid) = length mid * es) by (rewrite (concat_length es) by assumption; lia).
    set (tot := length (A ++ (l1 ++ l2) ++ mid ++ (h2 ++ h1) ++ B)).
    assert (Ht : tot = i + (w + n * w) + length mid + (n * w + w) + i)
      by (unfold tot; rewrite !app_length; lia).
    replace (tot - i - w) with (i + w + n * w + length mid + n * w) by lia.
    rewrite !concat_app, <- !app_assoc.
    rewrite (mload_mid (concat A) (concat l1)) by lia. cbn [obind].
    replace (concat A ++ concat l1 ++ concat l2 ++ concat mid ++ concat h2 ++ concat h1 ++ concat B)
      with ((concat A ++ concat l1 ++ concat l2 ++ concat mid ++ concat h2) ++ concat h1 ++ concat B)
      by (rewrite <- !app_assoc; reflexivity).
    rewrite (mload_mid _ (concat h1)) by (rewrite ?app_length; lia). cbn [obind].
    rewrite (R h1), (R l1) by assumption.
    assert (Lgl : length (concat (map g (rev l1))) = w * es).
    { rewrite (concat_length es); [rewrite map_length, rev_length; lia|].
      apply all_len_map; [assumption|apply all_len_rev; assumption]. }
    assert (Lgh : length (concat (map g (rev h1))) = w * es).
    { rewrite (concat_length es); [rewrite map_length, rev_length; lia|].
      apply all_len_map; [assumption|apply all_len_rev; assumption]. }
    rewrite <- !app_assoc.
    rewrite (mstore_mid (concat A) (concat l1)) by lia. cbn [obind].
    replace (concat A ++ concat (map g (rev h1)) ++ concat l2 ++ concat mid ++ concat h2 ++ concat h1 ++ concat B)
      with ((concat A ++ concat (map g (rev h1)) ++ concat l2 ++ concat mid ++ concat h2) ++ concat h1 ++ concat B)
      by (rewrite <- !app_assoc; reflexivity).
    rewrite (mstore_mid _ (concat h1)) by (rewrite ?app_length; lia). cbn [obind].
    specialize (IH (i + w) (A ++ map g (rev h1)) l2 mid h2 (map g (rev l1) ++ B)).
    assert (Htot : length ((A ++ map g (rev h1)) ++ l2 ++ mid ++ h2 ++ map g (rev l1) ++ B) = tot).
    { rewrite Ht, !app_length, !map_length, !rev_length. lia. }
    rewrite Htot in IH.
    rewrite !concat_app, <- !app_assoc in IH. rewrite <- !app_assoc. rewrite IH.
    + f_equal. f_equal; [|cbn; lia]. rewrite !rev_app_distr, !map_app, !concat_app, <- !app_assoc. reflexivity.
    + rewrite !all_len_app. repeat split; try assumption;
        (apply all_len_map; [assumption|apply all_len_rev; assumption]).
    + rewrite app_length, map_length, rev_length. lia.
    + rewrite app_length, map_length, rev_length. lia.
    + assumption.
    + assumption.
Qed.

(** The two 64-bit halves of a 16-byte element exchanged. *)

Lemma swap_halves_len x : length x = 16 -> length (swap_halves x) = 16.
Proof. intros H. unfold swap_halves. rewrite app_length, skipn_length, firstn_length. lia. Qed.

Lemma rev16_256_map : reverses_map 16 2 swap_halves rev16_256.
Proof. reg. Qed.

Lemma reverses_as_map es w shuf : reverses es w shuf -> reverses_map es w (fun x => x) shuf.
Proof. intros R L F H. rewrite map_id. apply R; assumption. Qed.

(** Number of elements at each end handled by AVX-512, and by AVX-512 + AVX2. *)
Definition q16_i1 (f : cpu) (n : nat) : nat := if avx512 f then n / 2 / 4 * 4 else 0.
Definition q16_i2 (f : cpu) (n : nat) : nat := if avx2 f then n / 2 / 2 * 2 else q16_i1 f n.

Lemma q16_bounds f n : q16_i1 f n <= q16_i2 f n /\ 2 * q16_i2 f n <= n.
Proof.
  unfold q16_i2, q16_i1.
  pose proof (Nat.div_mod n 2 ltac:(lia)). pose proof (Nat.mod_upper_bound n 2 ltac:(lia)).
  pose proof (Nat.div_mod (n/2) 2 ltac:(lia)). pose proof (Nat.mod_upper_bound (n/2) 2 ltac:(lia)).
  pose proof (Nat.div_mod (n/2) 4 ltac:(lia)). pose proof (Nat.mod_upper_bound (n/2) 4 ltac:(lia)).
  destruct (avx512 f), (avx2 f); lia.
Qed.

Lemma qreverse16_exact f l1 l2 mid h2 h1 :
  let E := l1 ++ l2 ++ mid ++ h2 ++ h1 in
  all_len 16 E ->
  length l1 = q16_i1 f (length E) -> length h1 = length l1 ->
  length l1 + length l2 = q16_i2 f (length E) -> length h2 = length l2 ->
  qreverse16 f (length E) (concat E)
  = Ret (concat (rev h1 ++ map swap_halves (rev h2) ++ rev mid ++ map swap_halves (rev l2) ++ rev l1)).
Proof.
  intros E F H1 H2 H3 H4. unfold qreverse16.
  pose proof (q16_bounds f (length E)) as [B1 B2].
  set (n := length E) in *.
  assert (HE : n = length l1 + length l2 + length mid + length l2 + length l1).
  { unfold n, E. rewrite !app_length. lia. }
  assert (FF := F). unfold E in FF. rewrite !all_len_app in FF.
  destruct FF as (F1 & F2 & Fm & F3 & F4).
  (* AVX-512 *)
  assert (S1 : rev_block (avx512 f) 16 4 rev16_512 n (concat E, 0)
               = Ret (concat (rev h1 ++ (l2 ++ mid ++ h2) ++ rev l1), length l1)).
  { unfold rev_block. unfold q16_i1 in H1. destruct (avx512 f).
    - pose proof (rev_loop_map 16 4 (fun x => x) rev16_512 (reverses_as_map _ _ _ rev16_512_ok)
        ltac:(lia) ltac:(auto) (n / 2 / 4) 0 [] l1 (l2 ++ mid ++ h2) h1 []) as Q.
      rewrite !app_nil_r in Q. cbn [app] in Q.
      rewrite !map_id in Q.
      replace (n / 2 / 4 - 0 / 4) with (n / 2 / 4) by (cbn; lia).
      replace (l1 ++ (l2 ++ mid ++ h2) ++ h1) with E in Q by (unfold E; rewrite <- !app_assoc; reflexivity).
      fold n in Q. rewrite Q by (auto; lia). rewrite H1. reflexivity.
    - destruct l1; [|discriminate]. destruct h1; [|discriminate]. cbn. unfold E. cbn.
      rewrite !app_nil_r. reflexivity. }
  rewrite S1. cbn [obind].
  assert (S2 : rev_block (avx2 f) 16 2 rev16_256 n (concat (rev h1 ++ (l2 ++ mid ++ h2) ++ rev l1), length l1)
               = Ret (concat (rev h1 ++ map swap_halves (rev h2) ++ mid ++ map swap_halves (rev l2) ++ rev l1),
                      length l1 + length l2)).
  { unfold rev_block. unfold q16_i2 in H3.
    assert (M : length l1 / 2 * 2 = length l1).
    { rewrite H1. unfold q16_i1. destruct (avx512 f); [|reflexivity].
      replace (n / 2 / 4 * 4) with (n / 2 / 4 * 2 * 2) by lia. rewrite Nat.div_mul by lia. reflexivity. }
    destruct (avx2 f).
    - pose proof (rev_loop_map 16 2 swap_halves rev16_256 rev16_256_map ltac:(lia) swap_halves_len
        (n / 2 / 2 - length l1 / 2) (length l1) (rev h1) l2 mid h2 (rev l1)) as Q.
      replace (rev h1 ++ (l2 ++ mid ++ h2) ++ rev l1) with (rev h1 ++ l2 ++ mid ++ h2 ++ rev l1)
        by (rewrite <- !app_assoc; reflexivity).
      replace (length (rev h1 ++ l2 ++ mid ++ h2 ++ rev l1)) with n in Q
        by (rewrite !app_length, !rev_length; lia).
      rewrite Q; [f_equal; f_equal; lia| | | |lia|lia].
      + rewrite !all_len_app. repeat split; auto using (@all_len_rev Z).
      + rewrite rev_length. lia.
      + rewrite rev_length. lia.
    - assert (length l2 = 0) by lia. destruct l2; [|discriminate]. destruct h2; [|discriminate].
      cbn. rewrite app_nil_r, Nat.add_0_r. reflexivity. }
  rewrite S2. cbn [obind].
  assert (N : forall X, length X = n -> all_len 16 X ->
     forall a c b, X = a ++ c ++ b -> length a = length l1 + length l2 -> length b = length l1 + length l2 ->
     naive_tail 16 n (concat X, length l1 + length l2) = Ret (concat (a ++ rev c ++ b))).
  { intros X LX FX a c b EX La Lb. unfold naive_tail. rewrite naive_loop_as_rev.
    destruct (rev_loop_ok 16 1 (fun v => v) (reverses_1 16) ltac:(lia)
      (n / 2 - (length l1 + length l2)) (length l1 + length l2) (rev b) c (rev a))
      as (lo' & mid' & hi' & Er & P & L1 & L2 & L3).
    - rewrite EX in FX. rewrite !all_len_app in *. intuition auto using (@all_len_rev Z).
    - rewrite rev_length; lia.
    - rewrite rev_length; lia.
    - assert (length c = n - 2 * (length l1 + length l2)) by (rewrite EX, !app_length in LX; lia).
      pose proof (Nat.mul_div_le n 2 ltac:(lia)). lia.
    - rewrite !rev_involutive in Er. rewrite <- EX in Er.
      replace (2 * (length l1 + length l2) + length c) with n in Er
        by (rewrite EX, !app_length in LX; lia).
      rewrite Er. cbn. f_equal. f_equal.
      assert (Pr : rev hi' ++ rev mid' ++ rev lo' = a ++ rev c ++ b).
      { rewrite app_assoc, <- !rev_app_distr, <- P.
        rewrite !rev_app_distr, !rev_involutive, <- !app_assoc. reflexivity. }
      rewrite <- Pr. f_equal. f_equal.
      assert (M1 : length mid' <= 1).
      { pose proof (Nat.mul_succ_div_gt n 2 ltac:(lia)).
        assert (length c = n - 2 * (length l1 + length l2)) by (rewrite EX, !app_length in LX; lia). lia. }
      destruct mid' as [|x [|? ?]]; try reflexivity. cbn in M1. lia. }
  set (X := rev h1 ++ map swap_halves (rev h2) ++ mid ++ map swap_halves (rev l2) ++ rev l1).
  assert (LX : length X = n) by (unfold X; rewrite !app_length, !map_length, !rev_length; lia).
  assert (FX : all_len 16 X).
  { unfold X. rewrite !all_len_app. repeat split;
      try (apply all_len_map; [exact swap_halves_len|]); auto using (@all_len_rev Z). }
  rewrite (N X LX FX (rev h1 ++ map swap_halves (rev h2)) mid (map swap_halves (rev l2) ++ rev l1)).
  - rewrite <- !app_assoc. reflexivity.
  - unfold X. rewrite <- !app_assoc. reflexivity.
  - rewrite app_length, map_length, !rev_length. lia.
  - rewrite app_length, map_length, !rev_length. lia.
Qed.

Lemma q16_split f (E : list bytes) : exists l1 l2 mid h2 h1,
  E = l1 ++ l2 ++ mid ++ h2 ++ h1 /\
  length l1 = q16_i1 f (length E) /\ length h1 = length l1 /\
  length l1 + length l2 = q16_i2 f (length E) /\ length h2 = length l2.
Proof.
  pose proof (q16_bounds f (length E)) as [B1 B2].
  set (a := q16_i1 f (length E)) in *. set (b := q16_i2 f (length E)) in *.
  destruct (list_split_len E a (length E - a) ltac:(lia)) as (l1 & r1 & EE & H1 & H1').
  destruct (list_split_len r1 (b - a) (length E - b) ltac:(lia)) as (l2 & r2 & -> & H2 & H2').
  destruct (list_split_len r2 (length E - 2 * b) b ltac:(lia)) as (mid & r3 & -> & H3 & H3').
  destruct (list_split_len r3 (b - a) a ltac:(lia)) as (h2 & h1 & -> & H4 & H4').
  exists l1, l2, mid, h2, h1. rewrite <- EE. repeat split; lia.
Qed.

Lemma qreverse16_ok f E : all_len 16 E ->
  q16_i1 f (length E) = q16_i2 f (length E) ->
  qreverse16 f (length E) (concat E) = Ret (concat (rev E)).
Proof.
  intros F H. destruct (q16_split f E) as (l1 & l2 & mid & h2 & h1 & EE & H1 & H2 & H3 & H4).
  assert (length l2 = 0) by lia. destruct l2; [|discriminate]. destruct h2; [|discriminate].
  cbn [app] in EE.
  pose proof (qreverse16_exact f l1 [] mid [] h1) as Q. cbn [app] in Q. rewrite <- EE in Q.
  rewrite Q by assumption. cbn. rewrite EE, !rev_app_distr, <- app_assoc. reflexivity.
Qed.

Lemma concat_inj es (A B : list bytes) : 0 < es -> all_len es A -> all_len es B -> concat A = concat B -> A = B.
Proof.
  intros H FA FB E. rewrite <- (chunks_concat es A), <- (chunks_concat es B) by assumption. congruence.
Qed.

Lemma map_fixed (g : bytes -> bytes) L : map g L = L -> forall x, In x L -> g x = x.
Proof.
  induction L as [|y L IH]; cbn; [tauto|]. intros E x [->|H]; injection E; auto.
Qed.

Lemma app_inj_len {A} (a b u v : list A) : length a = length b -> a ++ u = b ++ v -> a = b /\ u = v.
Proof.
  revert b; induction a as [|x a IH]; intros [|y b] L C; cbn in *; try discriminate; auto.
  injection C as -> C. injection L as L. destruct (IH b L C) as [-> ->]. auto.
Qed.

Lemma qreverse16_wrong f E x : all_len 16 E -> avx2 f = true ->
  q16_i1 f (length E) < q16_i2 f (length E) ->
  nth_error E (q16_i1 f (length E)) = Some x -> swap_halves x <> x ->
  exists r, qreverse16 f (length E) (concat E) = Ret r /\ r <> concat (rev E).
Proof.
  intros F A2 Lt Nx Sx.
  destruct (q16_split f E) as (l1 & l2 & mid & h2 & h1 & EE & H1 & H2 & H3 & H4).
  pose proof (qreverse16_exact f l1 l2 mid h2 h1) as Q. cbv zeta in Q. rewrite <- EE in Q.
  rewrite Q by assumption. eexists; split; [reflexivity|]. intros C.
  assert (FF := F). rewrite EE in FF. rewrite !all_len_app in FF. destruct FF as (F1 & F2 & Fm & F3 & F4).
  apply (concat_inj 16) in C; [|lia| |apply all_len_rev; assumption].
  - rewrite EE in C. rewrite !rev_app_distr, <- !app_assoc in C.
    apply app_inv_head in C.
    assert (L2 : length (map swap_halves (rev h2)) = length (rev h2)) by apply map_length.
    assert (C2 : map swap_halves (rev h2) = rev h2 /\ rev mid ++ map swap_halves (rev l2) ++ rev l1 = rev mid ++ rev l2 ++ rev l1).
    { apply app_inj_len; assumption. }
    destruct C2 as [_ C2]. apply app_inv_head in C2. apply app_inv_tail in C2.
    apply Sx. apply (map_fixed swap_halves (rev l2) C2). apply -> in_rev.
    rewrite EE in Nx. rewrite nth_error_app2 in Nx by (rewrite <- EE; lia).
    rewrite <- EE in Nx. rewrite <- H1, Nat.sub_diag in Nx.
    destruct l2; [cbn in H3; lia|]. cbn in Nx. injection Nx as ->. left; reflexivity.
  - rewrite !all_len_app. repeat split;
      try (apply all_len_map; [exact swap_halves_len|]); auto using (@all_len_rev Z).
Qed.

Lemma naive_loop_ok es E : all_len es E ->
  naive_loop es (length E) (length E / 2) 0 (concat E) = Ret (concat (rev E)).
Proof.
  intros F. pose proof (naive_tail_ok es E 0 _ F (rstate_init es E)) as Q.
  unfold naive_tail in Q. rewrite Nat.sub_0_r in Q. apply Q. lia.
Qed.

(** * Summary over element widths *)
Lemma q16_bad_iff f n : avx2 f = true -> (q16_i1 f n < q16_i2 f n <-> q16_bad f n).
Proof.
  intros A. unfold q16_bad, q16_i2, q16_i1. rewrite A.
  pose proof (Nat.div_mod n 2 ltac:(lia)). pose proof (Nat.mod_upper_bound n 2 ltac:(lia)).
  pose proof (Nat.div_mod (n/2) 2 ltac:(lia)). pose proof (Nat.mod_upper_bound (n/2) 2 ltac:(lia)).
  pose proof (Nat.div_mod (n/2) 4 ltac:(lia)). pose proof (Nat.mod_upper_bound (n/2) 4 ltac:(lia)).
  destruct (avx512 f); lia.
Qed.

Lemma q16_good f n : ~ q16_bad f n -> q16_i1 f n = q16_i2 f n.
Proof.
  intros H. destruct (avx2 f) eqn:A.
  - rewrite <- q16_bad_iff in H by assumption. pose proof (q16_bounds f n). lia.
  - unfold q16_i2. rewrite A. reflexivity.
Qed.

Lemma qreverse_ok f es E : elems_of_size es E ->
  (es <> 16 \/ ~ q16_bad f (length E)) ->
  qreverse f es (length E) (concat E) = Ret (concat (rev E)).
Proof.
  intros F H. unfold elems_of_size in F. unfold qreverse.
  do 17 (destruct es as [|es]; [
    first [apply naive_loop_ok; exact F|apply qreverse1_ok; exact F|apply qreverse2_ok; exact F
          |apply qreverse4_ok; exact F|apply qreverse8_ok; exact F
          |apply qreverse16_ok; [exact F|apply q16_good; destruct H; [lia|assumption]]]|]).
  apply naive_loop_ok; exact F.
Qed.

Lemma qreverse16_bad f E x : elems_of_size 16 E -> q16_bad f (length E) ->
  nth_error E (if avx512 f then length E / 2 / 4 * 4 else 0) = Some x -> swap_halves x <> x ->
  exists r, qreverse f 16 (length E) (concat E) = Ret r /\ r <> concat (rev E).
Proof.
  intros F B Nx Sx. pose proof (proj1 B) as A. apply q16_bad_iff in B; [|exact A].
  exact (qreverse16_wrong f E x F A B Nx Sx).
Qed.

Lemma qreverse_involutive f es E : elems_of_size es E ->
  (es <> 16 \/ ~ q16_bad f (length E)) ->
  obind (qreverse f es (length E) (concat E)) (fun m => qreverse f es (length E) m) = Ret (concat E).
Proof.
  intros F H. rewrite qreverse_ok by assumption. cbn [obind].
  rewrite <- (rev_length E). rewrite qreverse_ok.
  - rewrite rev_involutive. reflexivity.
  - apply Forall_rev. exact F.
  - rewrite rev_length. exact H.
Qed.
