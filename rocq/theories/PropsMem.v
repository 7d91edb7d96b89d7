(** Properties C24 (SIMD reverse), C25 (vector copy), C26 (fast_memcpy).
    An access outside the memory or a misaligned vector access is an [Undef]
    outcome, so [= Ret ...] includes memory safety. *)
From Coq Require Import ZArith List Bool Arith Lia.
From Verif Require Import Base MemSpec MemModel SimdCopyModel QReverseModel
  SimdCopyProofs QReverseProofs.
Import ListNotations.

(** For every element width other than 16 (1, 2, 4, 8 and the generic template)
    and every CPU the array is reversed element-wise; for width 16 as well
    unless the machine/length is in [q16_bad]. *)
Theorem C24_reverse : forall f es E, elems_of_size es E ->
  (es <> 16 \/ ~ q16_bad f (length E)) ->
  qreverse f es (length E) (concat E) = Ret (concat (rev E)).
Proof. exact qreverse_ok. Qed.
Print Assumptions C24_reverse.

Theorem C24_reverse_twice : forall f es E, elems_of_size es E ->
  (es <> 16 \/ ~ q16_bad f (length E)) ->
  obind (qreverse f es (length E) (concat E)) (fun m => qreverse f es (length E) m) = Ret (concat E).
Proof. exact qreverse_involutive. Qed.
Print Assumptions C24_reverse_twice.

(** On [q16_bad] machines/lengths the result is wrong as soon as the first
    element of the AVX2 part has two different halves. *)
Theorem C24_reverse16_refuted : forall f E x, elems_of_size 16 E -> q16_bad f (length E) ->
  nth_error E (if avx512 f then length E / 2 / 4 * 4 else 0) = Some x -> swap_halves x <> x ->
  exists r, qreverse f 16 (length E) (concat E) = Ret r /\ r <> concat (rev E).
Proof. exact qreverse16_bad. Qed.
Print Assumptions C24_reverse16_refuted.

(** What exactly is computed for width 16: the outer and middle parts are
    reversed correctly, the elements of the AVX2 part get their halves swapped. *)
Theorem C24_reverse16_exact : forall f l1 l2 mid h2 h1,
  let E := l1 ++ l2 ++ mid ++ h2 ++ h1 in
  elems_of_size 16 E ->
  length l1 = q16_i1 f (length E) -> length h1 = length l1 ->
  length l1 + length l2 = q16_i2 f (length E) -> length h2 = length l2 ->
  qreverse16 f (length E) (concat E)
  = Ret (concat (rev h1 ++ map swap_halves (rev h2) ++ rev mid ++ map swap_halves (rev l2) ++ rev l1)).
Proof. exact qreverse16_exact. Qed.
Print Assumptions C24_reverse16_exact.

Definition ex_avx2 : cpu := {| avx512 := false; avx2 := true; sse41 := true; ssse3 := true |}.
Definition ex_elem (k : nat) : list Z := repeat (Z.of_nat k) 8 ++ repeat (Z.of_nat (k + 100)) 8.

Example C24_ex_bad : q16_bad ex_avx2 5 /\ elems_of_size 16 (map ex_elem (seq 0 5)) /\
  swap_halves (ex_elem 0) <> ex_elem 0.
Proof.
  split; [split; [reflexivity|cbn; lia]|split; [repeat constructor|cbn; discriminate]].
Qed.
Example C24_ex_good : exists E, length E = 37 /\ elems_of_size 4 E /\
  qreverse ex_avx2 4 37 (concat E) = Ret (concat (rev E)).
Proof.
  exists (map (fun k => [Z.of_nat k; 1; 2; 3]%Z) (seq 0 37)).
  split; [reflexivity|split; [repeat constructor|reflexivity]].
Qed.

(** What [copied] means byte by byte. *)
Theorem C25_copied_meaning : forall m from to k i, from + k <= length m -> to + k <= length m ->
  (to <= i < to + k -> nth_error (copied m from to k) i = nth_error m (from + (i - to))) /\
  (~ (to <= i < to + k) -> nth_error (copied m from to k) i = nth_error m i) /\
  length (copied m from to k) = length m.
Proof. exact copied_pointwise. Qed.
Print Assumptions C25_copied_meaning.

(** The unaligned vector copy is exact for every count, element size, address
    and CPU. *)
Theorem C25_copy_exact : forall f es from to count m,
  elem_size es -> from + count * es <= length m -> to + count * es <= length m ->
  disj to from (count * es) ->
  simd_memcpy f false es from to count m = Ret (copied m from to (count * es)).
Proof.
  exact (fun f es from to count m a b c d =>
    simd_memcpy_ok f false es from to count m a b c d
      (fun e => match diff_false_true e return _ with end)).
Qed.
Print Assumptions C25_copy_exact.

(** The aligned copy is exact when both addresses are aligned to each vector
    width it uses, and undefined otherwise. *)
Theorem C25_aligned_copy : forall f es from to count m,
  elem_size es -> from + count * es <= length m -> to + count * es <= length m ->
  disj to from (count * es) ->
  (align_spec f (count * es) from to ->
     simd_memcpy f true es from to count m = Ret (copied m from to (count * es))) /\
  (~ align_spec f (count * es) from to ->
     simd_memcpy f true es from to count m = Undef Misaligned).
Proof. exact simd_memcpy_aligned_iff. Qed.
Print Assumptions C25_aligned_copy.

Example C25_ex : 
  simd_memcpy ex_avx2 false 4 3 103 21 (map Z.of_nat (seq 0 200))
  = Ret (copied (map Z.of_nat (seq 0 200)) 3 103 84) /\
  ~ align_spec ex_avx2 84 3 103 /\ align_spec ex_avx2 84 0 96.
Proof.
  split; [reflexivity|split].
  - intros (_ & H & _). destruct (H eq_refl ltac:(cbn; lia)) as [A _]. discriminate.
  - split; [|split]; cbn; intros; try discriminate; split; reflexivity.
Qed.

(** fast_memcpy copies exactly [n] bytes. *)
Theorem C26_fast_memcpy : forall f dst src n m,
  src + n <= length m -> dst + n <= length m -> disj dst src n ->
  fast_memcpy f dst src n m = Ret (copied m src dst n).
Proof. exact fast_memcpy_ok. Qed.
Print Assumptions C26_fast_memcpy.

Example C26_ex : fast_memcpy ex_avx2 64 0 50 (map Z.of_nat (seq 0 128))
  = Ret (copied (map Z.of_nat (seq 0 128)) 0 64 50) /\ disj 64 0 50.
Proof. split; [reflexivity|right; right; cbn; lia]. Qed.
