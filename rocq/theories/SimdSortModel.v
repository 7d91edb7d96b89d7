(** utils/simd/BitonicSort.cpp: simdsort for int (KInt) and long long (KBig)
    vectors, on an x86 build, and IntArrayList_sort / BigIntArrayList_sort
    without a key function.

    The vector's buffer is 64-byte aligned (AlignedAllocator<T, 64>), so an
    element index [i] is at an address that is a multiple of [w] iff
    [i * sizeof(T)] is.  A vector access outside [0, size) is OutOfBounds.

    Simplifications: std::sort is the sorted list itself (the library is not
    part of the repository; the elements are integers, so there is exactly one
    sorted permutation); prefetch hints are left out; the final
    simdMemCpyAligned(temp, data) is a copy (that is theorem
    C25_aligned_copy of PropsMem.v); allocation of [temp] succeeds; index sums
    ([left + 2 * size]) do not reach 2^64 because the vector fits in memory -
    the subtractions [mid - K + 1], which can wrap, are modelled modulo 2^64. *)
From Coq Require Import ZArith List Bool.
From Verif Require Import Base MemModel PyListSpec ArrayListModel CPythonSortModel TimSortModel.
Import ListNotations.
Local Open Scope Z_scope.

Definition ez (k : kind) : Z := Z.of_nat (esize k).

(** ** Library sort *)
(** The order std::sort / gfx::timsort is called with: operator< or
    std::greater<>. *)
Definition before (reverse : bool) (x y : Z) : bool := if reverse then y <? x else x <? y.

Fixpoint insert_by (lt : Z -> Z -> bool) (x : Z) (l : list Z) : list Z :=
  match l with
  | [] => [x]
  | y :: r => if lt y x then y :: insert_by lt x r else x :: l
  end.

(** std::sort(first, last[, std::greater<>()]). *)
Definition std_sort (reverse : bool) (l : list Z) : list Z :=
  fold_right (insert_by (before reverse)) [] l.

(** ** Vector registers *)
(** A register as its signed 32-bit lanes, lowest lane first.  A long long
    occupies two lanes (little endian). *)
Definition lo32 (v : Z) : Z := wrap 32 v.
Definition hi32 (v : Z) : Z := wrap 32 (v / 2 ^ 32).
Definition pack64 (lo hi : Z) : Z := hi * 2 ^ 32 + lo mod 2 ^ 32.

Definition to_lanes (k : kind) (v : list Z) : list Z :=
  match k with
  | KInt => v
  | KBig => flat_map (fun x => [lo32 x; hi32 x]) v
  end.

Fixpoint pack_pairs (v : list Z) : list Z :=
  match v with
  | a :: b :: r => pack64 a b :: pack_pairs r
  | _ => []
  end.

Definition of_lanes (k : kind) (v : list Z) : list Z :=
  match k with KInt => v | KBig => pack_pairs v end.

(** _mm{,256,512}_{min,max}_epi32. *)
Fixpoint vop (reverse : bool) (a b : list Z) : list Z :=
  match a, b with
  | x :: a', y :: b' => (if reverse then Z.max x y else Z.min x y) :: vop reverse a' b'
  | _, _ => []
  end.

(** _mm256_permutevar8x32_epi32 / _mm512_permutexvar_epi32 with in-range
    indices. *)
Definition permute (idx : list nat) (v : list Z) : list Z := map (fun i => nth i v 0) idx.

(** _mm256_set_epi32 / _mm512_set_epi32: the first argument is the highest lane. *)
Definition set_epi32 {A} (args : list A) : list A := rev args.

(** AVX2_MARKS 27-32 and AVX512_MARKS 33-38. *)
Definition avx2_marks : list (list nat) :=
  [ set_epi32 [7; 6; 5; 4; 3; 2; 1; 0];
    set_epi32 [6; 7; 4; 5; 2; 3; 0; 1];
    set_epi32 [5; 4; 7; 6; 1; 0; 3; 2];
    set_epi32 [3; 2; 1; 0; 7; 6; 5; 4] ]%nat.
Definition avx512_marks : list (list nat) :=
  [ set_epi32 [15; 14; 13; 12; 11; 10; 9; 8; 7; 6; 5; 4; 3; 2; 1; 0];
    set_epi32 [14; 15; 12; 13; 10; 11; 8; 9; 6; 7; 4; 5; 2; 3; 0; 1];
    set_epi32 [13; 12; 15; 14; 9; 8; 11; 10; 5; 4; 7; 6; 1; 0; 3; 2];
    set_epi32 [11; 10; 9; 8; 7; 6; 5; 4; 3; 2; 1; 0; 15; 14; 13; 12] ]%nat.

(** sort8Epi32AVX2 60-72, its reversed form 77-89, sort16Epi32AVX512 94-106,
    its reversed form 111-123: four times permute and min (max). *)
Definition sort_lanes (reverse : bool) (marks : list (list nat)) (v : list Z) : list Z :=
  fold_left (fun v m => vop reverse v (permute m v)) marks v.

(** Aligned load of [w] bytes at element [i]; [w / sizeof(T)] elements. *)
Definition per (w : Z) (k : kind) : Z := w / ez k.

Definition vget (w : Z) (k : kind) (a : list Z) (i : Z) : outcome (list Z) :=
  if negb ((i * ez k) mod w =? 0) then Undef Misaligned
  else if (0 <=? i) && (i + per w k <=? zlen a)
  then Ret (firstn (Z.to_nat (per w k)) (skipn (Z.to_nat i) a))
  else Undef OutOfBounds.

(** Aligned store of a register of [w] bytes at element [i]. *)
Definition vput (w : Z) (k : kind) (a : list Z) (i : Z) (v : list Z) : outcome (list Z) :=
  if negb ((i * ez k) mod w =? 0) then Undef Misaligned
  else if (0 <=? i) && (i + per w k <=? zlen a)
  then Ret (firstn (Z.to_nat i) a ++ v ++ skipn (Z.to_nat (i + per w k)) a)
  else Undef OutOfBounds.

(** ** Block sorting, 500-515 / 519-534 (long long 613-628 / 632-647) *)
(** The loop [for (; sortedCount + K <= size; sortedCount += K)]. *)
Fixpoint block_loop (fuel : nat) (w : Z) (marks : list (list nat)) (k : kind) (reverse : bool)
    (sorted : Z) (a : list Z) : outcome (Z * list Z) :=
  if sorted + per w k <=? zlen a then
    match fuel with
    | O => Undef OutOfBounds
    | S fuel =>
        obind (vget w k a sorted) (fun v =>
        obind (vput w k a sorted (of_lanes k (sort_lanes reverse marks (to_lanes k v)))) (fun a =>
        block_loop fuel w marks k reverse (sorted + per w k) a))
    end
  else Ret (sorted, a).

(** ** doSingleMerge 125-188, 190-253; doSingleMergeReversed 255-312, 314-373 *)
(** size_t subtraction [a - K + 1]. *)
Definition usub (a K : Z) : Z := (a - K + 1) mod 2 ^ 64.

(** One vector loop (130-142 and its copies): stores the lane-wise minimum
    (maximum) of both sides, then advances [k] and [i] ([k] and [j] when
    reversed). *)
Fixpoint merge_vec (fuel : nat) (w : Z) (k : kind) (reverse : bool) (mid right : Z) (src : list Z)
    (i j kk : Z) (dst : list Z) : outcome (Z * Z * Z * list Z) :=
  if (i <=? usub mid (per w k)) && (j <=? usub right (per w k)) then
    match fuel with
    | O => Undef OutOfBounds
    | S fuel =>
        obind (vget w k src i) (fun vi =>
        obind (vget w k src j) (fun vj =>
        obind (vput w k dst kk (of_lanes k (vop reverse (to_lanes k vi) (to_lanes k vj)))) (fun dst =>
        if reverse
        then merge_vec fuel w k reverse mid right src i (j + per w k) (kk + per w k) dst
        else merge_vec fuel w k reverse mid right src (i + per w k) j (kk + per w k) dst)))
    end
  else Ret (i, j, kk, dst).

(** Element accesses src[i], dst[k]. *)
Definition eget (a : list Z) (i : Z) : outcome Z := or_ub OutOfBounds (znth a i).
Definition eput (a : list Z) (i : Z) (v : Z) : outcome (list Z) := or_ub OutOfBounds (zset a i v).

(** The scalar loop 173-179 (reversed 297-303). *)
Fixpoint merge_scalar (fuel : nat) (reverse : bool) (mid right : Z) (src : list Z)
    (i j kk : Z) (dst : list Z) : outcome (Z * Z * Z * list Z) :=
  if (i <=? mid) && (j <=? right) then
    match fuel with
    | O => Undef OutOfBounds
    | S fuel =>
        obind (eget src i) (fun x =>
        obind (eget src j) (fun y =>
        if before reverse x y
        then obind (eput dst kk x) (fun dst => merge_scalar fuel reverse mid right src (i + 1) j (kk + 1) dst)
        else obind (eput dst kk y) (fun dst => merge_scalar fuel reverse mid right src i (j + 1) (kk + 1) dst)))
    end
  else Ret (i, j, kk, dst).

(** The copying loops 181-183 and 185-187. *)
Fixpoint merge_drain (fuel : nat) (last : Z) (src : list Z) (i kk : Z) (dst : list Z)
    : outcome (Z * list Z) :=
  if i <=? last then
    match fuel with
    | O => Undef OutOfBounds
    | S fuel =>
        obind (eget src i) (fun x =>
        obind (eput dst kk x) (fun dst => merge_drain fuel last src (i + 1) (kk + 1) dst))
    end
  else Ret (kk, dst).

Definition single_merge (f : cpu) (k : kind) (reverse : bool) (left mid right : Z)
    (src dst : list Z) : outcome (list Z) :=
  let fuel := S (length src) in
  let vec (enabled : bool) (w : Z) (st : Z * Z * Z * list Z) : outcome (Z * Z * Z * list Z) :=
    let '(i, j, kk, dst) := st in
    if enabled then merge_vec fuel w k reverse mid right src i j kk dst else Ret st in
  obind (vec (avx512 f) 64 (left, mid + 1, left, dst)) (fun st =>
  obind (vec (avx2 f) 32 st) (fun st =>
  obind (vec (sse41 f) 16 st) (fun '(i, j, kk, dst) =>
  obind (merge_scalar (fuel + fuel) reverse mid right src i j kk dst) (fun '(i, j, kk, dst) =>
  obind (merge_drain fuel mid src i kk dst) (fun '(kk, dst) =>
  obind (merge_drain fuel right src j kk dst) (fun '(_, dst) =>
  Ret dst)))))).

(** ** mergeSortedBlocks 379-408, mergeSortedBlocksReversed 413-443 *)
(** The inner loop [for (; left < total; left += 2 * size)], 391-399. *)
Fixpoint merge_pass (fuel : nat) (f : cpu) (k : kind) (reverse : bool) (size left : Z)
    (src dst : list Z) : outcome (list Z) :=
  let total := zlen src in
  if left <? total then
    match fuel with
    | O => Undef OutOfBounds
    | S fuel =>
        let mid := Z.min (left + size - 1) (total - 1) in
        let right := Z.min (left + 2 * size - 1) (total - 1) in
        obind (single_merge f k reverse left mid right src dst) (fun dst =>
        merge_pass fuel f k reverse size (left + 2 * size) src dst)
    end
  else Ret dst.

(** The outer loop 387-402: [cur] is the array that holds the current contents
    ([data] when [cycle]), [other] the other one. *)
Fixpoint merge_blocks (fuel : nat) (f : cpu) (k : kind) (reverse : bool) (size : Z)
    (cur other : list Z) : outcome (list Z) :=
  if size <? zlen cur then
    match fuel with
    | O => Undef OutOfBounds
    | S fuel =>
        obind (merge_pass (length cur) f k reverse size 0 cur other) (fun other =>
        merge_blocks fuel f k reverse (size * 2) other cur)
    end
  else Ret cur.  (* 405-407: copied back to data if it is in temp *)

(** ** simdsort 453-559 (int), 566-672 (long long) *)
Definition fallback_sort (reverse : bool) (l : list Z) : outcome (list Z) :=
  if 5000 <? zlen l then
    match timsort (before reverse) l with
    | inl l' => Ret l'
    | inr (Ub u) => Undef u
    | inr NoFuel => Undef OutOfBounds
    end
  else Ret (std_sort reverse l).

Definition simdsort (f : cpu) (k : kind) (reverse : bool) (l : list Z) : outcome (list Z) :=
  let size := zlen l in
  if size <=? 1 then Ret l
  else if size <? 8 then Ret (std_sort reverse l)
  else if negb (avx2 f) && negb (avx512 f) then fallback_sort reverse l
  else
    obind (if avx512 f && (0 + per 64 k <? size)
           then block_loop (length l) 64 avx512_marks k reverse 0 l else Ret (0, l)) (fun '(sorted, a) =>
    let go2 := avx2 f && (sorted + per 32 k <? size) in
    obind (if go2 then block_loop (length l) 32 avx2_marks k reverse sorted a
           else Ret (sorted, a)) (fun '(sorted, a) =>
    let minBlockSize := if go2 then 8 else per 64 k in
    let a := if sorted <? size
             then firstn (Z.to_nat sorted) a ++ std_sort reverse (skipn (Z.to_nat sorted) a)
             else a in
    merge_blocks (length l) f k reverse minBlockSize a (map (fun _ => 0) a))).

(** ** sort() without key: IntArrayList_sort 450-467, 491-499;
    BigIntArrayList_sort 447-465, 489-497 *)
Definition sort_nokey (cfg : config) (k : kind) (reverseInt : Z) (s : list Z) : res :=
  match simdsort (feat cfg) k (reverseInt =? 1) s with
  | Ret s' => (Ret VNone, s')
  | Raise e => (Raise e, s)
  | RetPending s' e => (RetPending VNone e, s')
  | Undef u => (Undef u, s)
  end.
