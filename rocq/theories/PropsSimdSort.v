(** Property theorems C20 and C49: sort() of the integer array lists without a
    key function.  [zlen s * ez k <= SSIZE_MAX] says that the vector's buffer
    fits the address space.  The vocabulary is in SimdSortSpec.v. *)
From Coq Require Import ZArith List Bool Lia Arith Sorting.Sorted Sorting.Permutation.
From Verif Require Import Base PyLongModel PyListSpec ListLemmas ArrayListModel ArrayListSpec CPythonSortModel
  SortSpec SortMachineProofs SortMethodModel SortMethodProofs TimSortModel TimSortProofs
  LinkedListModel SimdSortModel SimdSortSpec SimdSortProofs SimdSortBigProofs SortReverseProofs.
Import ListNotations.
Local Open Scope Z_scope.

(** * C20 *)
(** Sorted, on every CPU and length that does not reach the vector code. *)
Theorem C20_sorts : forall cfg k r s, zlen s * ez k <= SSIZE_MAX -> ~ vector_path (feat cfg) k (zlen s) ->
  exists s', sort_nokey cfg k r s = (Ret VNone, s') /\ Permutation s' s /\ ordered (r =? 1) s'.
Proof. exact sort_nokey_sorts. Qed.
Print Assumptions C20_sorts.

(** In particular every length on a CPU without AVX2 and AVX-512 ... *)
Theorem C20_scalar_cpu : forall cfg k r s, zlen s * ez k <= SSIZE_MAX ->
  avx2 (feat cfg) = false -> avx512 (feat cfg) = false ->
  exists s', sort_nokey cfg k r s = (Ret VNone, s') /\ Permutation s' s /\ ordered (r =? 1) s'.
Proof. exact sort_nokey_scalar. Qed.
Print Assumptions C20_scalar_cpu.

(** ... and on every CPU the lengths below 9 (int) or 8 (long long). *)
Theorem C20_short : forall cfg k r s, zlen s < match k with KInt => 9 | KBig => 8 end ->
  exists s', sort_nokey cfg k r s = (Ret VNone, s') /\ Permutation s' s /\ ordered (r =? 1) s'.
Proof. exact sort_nokey_short. Qed.
Print Assumptions C20_short.

(** gfx::timsort, used above 5000 elements on such a CPU, for any order. *)
Theorem C20_timsort : forall (V : Type) (lt : V -> V -> bool) l, 2 * zlen l + 1 <= SSIZE_MAX -> weak_order lt ->
  exists l', timsort lt l = inl l' /\ Permutation l' l /\ ascending lt l' /\ stable lt l' l.
Proof. exact @timsort_correct. Qed.
Print Assumptions C20_timsort.

(** ... and no order at all is needed for it to stay inside its buffers and
    lose nothing. *)
Theorem C20_timsort_safe : forall (V : Type) (lt : V -> V -> bool) l, 2 * zlen l + 1 <= SSIZE_MAX ->
  exists l', timsort lt l = inl l' /\ Permutation l' l.
Proof. exact @timsort_safe. Qed.
Print Assumptions C20_timsort_safe.

(** Outside one corner the vector code stays inside the buffers with aligned
    accesses, keeps the length, and for int vectors invents no value. *)
Theorem C20_safe : forall cfg k r s, zlen s * ez k <= SSIZE_MAX -> no_oob (feat cfg) k (zlen s) ->
  exists s', sort_nokey cfg k r s = (Ret VNone, s') /\ length s' = length s /\ (k = KInt -> incl s' s).
Proof. exact sort_nokey_safe. Qed.
Print Assumptions C20_safe.

(** The corner: with AVX-512 and AVX2, every int vector of 9 to 15 elements is
    read beyond its end. *)
Theorem C20_out_of_bounds_refuted : forall cfg r s, avx512 (feat cfg) = true -> avx2 (feat cfg) = true ->
  9 <= zlen s <= 15 -> fst (sort_nokey cfg KInt r s) = Undef OutOfBounds.
Proof. exact sort_nokey_oob. Qed.
Print Assumptions C20_out_of_bounds_refuted.

(** What the vector path does to an int vector: an element of block [q] appears
    in the result only if it also occurs outside the block or at least eight
    elements of the block are on its other side. *)
Theorem C20_blocks : forall cfg r s q, zlen s * 4 <= SSIZE_MAX -> no_oob (feat cfg) KInt (zlen s) ->
  blocked (feat cfg) (zlen s) ->
  let K := block_len (feat cfg) (zlen s) in (K * q + K <= length s)%nat ->
  exists s', sort_nokey cfg KInt r s = (Ret VNone, s') /\ length s' = length s /\
    forall v, In v s' -> In v (outside K q s) \/ half_extreme (r =? 1) v (block K q s).
Proof. exact sort_nokey_blocks. Qed.
Print Assumptions C20_blocks.

(** So no list of distinct elements that takes the vector path is ever sorted:
    an element is lost. *)
Theorem C20_distinct_refuted : forall cfg r s, zlen s * 4 <= SSIZE_MAX -> no_oob (feat cfg) KInt (zlen s) ->
  blocked (feat cfg) (zlen s) -> NoDup s ->
  exists s', sort_nokey cfg KInt r s = (Ret VNone, s') /\ length s' = length s /\
    (exists x, In x s /\ ~ In x s') /\ ~ Permutation s' s.
Proof. exact sort_nokey_loses. Qed.
Print Assumptions C20_distinct_refuted.

(** BigIntArrayList of eight elements on an AVX2 CPU: each half becomes four
    copies of one integer, made of the least (greatest) 32-bit half. *)
Theorem C20_bigint_eight_refuted : forall cfg r b1 b2, avx2 (feat cfg) = true -> length b1 = 4%nat -> length b2 = 4%nat ->
  exists m1 m2, extreme (r =? 1) m1 (halves b1) /\ extreme (r =? 1) m2 (halves b2) /\
    sort_nokey cfg KBig r (b1 ++ b2) =
      (Ret VNone, repeat (from_halves m1 m1) 4 ++ repeat (from_halves m2 m2) 4).
Proof. exact sort_nokey_big8. Qed.
Print Assumptions C20_bigint_eight_refuted.

(** And no list of distinct long longs that takes the vector path is sorted,
    whatever its length: an element is lost. *)
Theorem C20_bigint_distinct_refuted : forall cfg r s, zlen s * 8 <= SSIZE_MAX -> vector_path (feat cfg) KBig (zlen s) ->
  Forall (in_sbits 64) s -> NoDup s ->
  exists s', sort_nokey cfg KBig r s = (Ret VNone, s') /\ length s' = length s /\
    (exists x, In x s /\ ~ In x s') /\ ~ Permutation s' s.
Proof. exact sort_nokey_big_loses. Qed.
Print Assumptions C20_bigint_distinct_refuted.

(** Concrete cases. *)
Definition cpu_avx2 : cpu := {| avx512 := false; avx2 := true; sse41 := true; ssse3 := true |}.
Definition cpu_avx512 : cpu := {| avx512 := true; avx2 := true; sse41 := true; ssse3 := true |}.
Definition cpu_old : cpu := {| avx512 := false; avx2 := false; sse41 := true; ssse3 := true |}.
Definition on (f : cpu) : config := {| py312 := true; feat := f |}.

Example C20_ex : sort_nokey (on cpu_old) KInt 0 [5; 3; 9; 1; 7; 7; 2; 8; 4; 6] =
  (Ret VNone, [1; 2; 3; 4; 5; 6; 7; 7; 8; 9]) /\
  ~ vector_path cpu_old KInt 10.
Proof. split; [vm_compute; reflexivity|]. intros (_ & [[H _]|[H _]]); discriminate. Qed.

Example C20_ex_reverse : sort_nokey (on cpu_avx512) KInt 1 [5; 3; 9; 1; 7; 7; 2; 8] =
  (Ret VNone, [9; 8; 7; 7; 5; 3; 2; 1]).
Proof. vm_compute. reflexivity. Qed.

Example C20_ex_avx2 : sort_nokey (on cpu_avx2) KInt 0 [9; 8; 7; 6; 5; 4; 3; 2; 1] =
  (Ret VNone, [1; 2; 2; 2; 2; 2; 2; 2; 2]) /\ blocked cpu_avx2 9 /\ no_oob cpu_avx2 KInt 9.
Proof.
  split; [vm_compute; reflexivity|]. split; [right; split; [reflexivity|lia]|].
  intros (_ & H & _). discriminate.
Qed.

(** The result need not even be in order. *)
Example C20_ex_unordered : sort_nokey (on cpu_avx2) KInt 0 [9; 8; 7; 6; 5; 4; 3; 2; 1; 10; 11; 12] =
  (Ret VNone, [1; 2; 2; 2; 1; 2; 2; 2; 1; 10; 11; 12]).
Proof. vm_compute. reflexivity. Qed.

Example C20_ex_oob : fst (sort_nokey (on cpu_avx512) KInt 0 [9; 8; 7; 6; 5; 4; 3; 2; 1]) = Undef OutOfBounds.
Proof. vm_compute. reflexivity. Qed.

Example C20_ex_avx512 : sort_nokey (on cpu_avx512) KInt 0 (map Z.of_nat (seq 1 17)) =
  (Ret VNone, [1; 1; 1; 1; 1; 1; 1; 1; 5; 5; 5; 5; 9; 9; 9; 9; 17]) /\
  blocked cpu_avx512 17 /\ no_oob cpu_avx512 KInt 17 /\ NoDup (map Z.of_nat (seq 1 17)).
Proof.
  split; [vm_compute; reflexivity|]. split; [left; split; [reflexivity|lia]|].
  split; [intros (_ & _ & _ & H); lia|].
  vm_compute. repeat (constructor; [cbn; intuition discriminate|]). constructor.
Qed.

Example C20_ex_bigint : sort_nokey (on cpu_avx2) KBig 0 [1; 2; 3; 4; 5; 6; 7; 8] =
  (Ret VNone, [0; 0; 0; 0; 0; 0; 0; 0]).
Proof. vm_compute. reflexivity. Qed.

(** Eight long longs come back as two runs of four equal ones, so distinct
    elements are lost. *)
Example C20_ex_bigint_reverse : sort_nokey (on cpu_avx2) KBig 1 [1; 2; 3; 4; 5; 6; 7; 8] =
  (Ret VNone, repeat (4 * 2 ^ 32 + 4) 4 ++ repeat (8 * 2 ^ 32 + 8) 4).
Proof. vm_compute. reflexivity. Qed.

Example C20_ex_bigint_distinct : sort_nokey (on cpu_avx512) KBig 1 [-5; 4; -3; 2; -1; 6; 2 ^ 40; -8; 9; -10] =
  (Ret VNone, repeat (256 * 2 ^ 32 + 256) 4 ++ repeat (4 * 2 ^ 32 + 4) 2 ++ repeat (6 * 2 ^ 32 + 6) 2 ++ repeat (256 * 2 ^ 32 + 256) 2) /\
  vector_path cpu_avx512 KBig 10 /\ NoDup [-5; 4; -3; 2; -1; 6; 2 ^ 40; -8; 9; -10] /\
  Forall (in_sbits 64) [-5; 4; -3; 2; -1; 6; 2 ^ 40; -8; 9; -10].
Proof.
  split; [vm_compute; reflexivity|]. split; [split; [lia|left; split; [reflexivity|lia]]|]. change (2 ^ 40) with 1099511627776.
  split; [repeat (constructor; [cbn [In]; intros X; repeat (destruct X as [X|X]; [discriminate X|]); exact X|]); constructor|].
  unfold in_sbits. change (2 ^ (64 - 1)) with 9223372036854775808. repeat (constructor; [lia|]). constructor.
Qed.

(** * C49 *)
(** Without a key function only [reverse=1] reverses: any other integer sorts
    like [reverse=0]. *)
Theorem C49_nokey_only_one : forall cfg k r s, r <> 1 -> sort_nokey cfg k r s = sort_nokey cfg k 0 s.
Proof. exact sort_nokey_reverse. Qed.
Print Assumptions C49_nokey_only_one.

Theorem C49_linked_only_one : forall r l, r <> 1 -> lsort r l = lsort 0 l.
Proof. exact lsort_reverse. Qed.
Print Assumptions C49_linked_only_one.

(** With a key function every non-zero integer reverses, as in Python. *)
Theorem C49_key_any_nonzero : forall (K : Type) cfg (keyf : nat -> pylong -> option K) cmp grab e r k (key : Z -> K) lt s,
  8 * zlen s <= SSIZE_MAX -> Forall (in_sbits (elem_bits k)) s -> Forall (exact cfg k) s ->
  (forall i p, keyf i p = Some (key (pl_val p))) -> sane cmp grab lt -> r <> 0 ->
  exists m, sort_key cfg k keyf cmp true grab e (Kept s) r s = (Ret VNone, m) /\
    Permutation m s /\ descending (fun x y => lt (key x) (key y)) m.
Proof. exact @sort_key_nonzero. Qed.
Print Assumptions C49_key_any_nonzero.

(** So for an integer other than 0 and 1 the keyless sort of a list with two
    different elements is not the descending list Python gives. *)
Theorem C49_nokey_refuted : forall cfg k r s x y, zlen s * ez k <= SSIZE_MAX -> ~ vector_path (feat cfg) k (zlen s) ->
  r <> 0 -> r <> 1 -> In x s -> In y s -> x <> y ->
  exists s', sort_nokey cfg k r s = (Ret VNone, s') /\ Permutation s' s /\ ~ ordered true s'.
Proof. exact sort_nokey_not_reversed. Qed.
Print Assumptions C49_nokey_refuted.

Example C49_ex : sort_nokey (on cpu_old) KInt 2 [3; 1; 2] = (Ret VNone, [1; 2; 3]) /\
  sort_nokey (on cpu_old) KInt 1 [3; 1; 2] = (Ret VNone, [3; 2; 1]) /\
  sort_key (on cpu_old) KInt (fun _ p => Some (pl_val p)) (fun _ x y => Some (x <? y)) true (fun _ => true)
    TypeError (Kept [3; 1; 2]) 2 [3; 1; 2] = (Ret VNone, [3; 2; 1]).
Proof. split; [vm_compute; reflexivity|]. split; vm_compute; reflexivity. Qed.
