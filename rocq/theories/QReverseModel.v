(** utils/include/qreverse.hpp on byte memory, x86 branches, with the vector
    instructions it uses given at byte level. *)
From Coq Require Import ZArith List Bool Arith.
From Verif Require Import Base MemModel.
Import ListNotations.

(** * Vector instructions (Intel intrinsics guide) *)
Definition byte_at (v : bytes) (i : nat) : Z := nth i v 0%Z.

(** _mm*_set_epi8/32/64: arguments from the highest lane to the lowest. *)
Definition mm_set (lane : nat) (args : list Z) : bytes :=
  concat (map (le_bytes lane) (rev args)).

(** Lane [i] of width [lane]. *)
Definition lane_of (lane : nat) (v : bytes) (i : nat) : bytes :=
  firstn lane (skipn (i * lane) v).

(** _mm{,256,512}_shuffle_epi8: byte shuffle inside each 128-bit lane. *)
Definition mm_shuffle_epi8 (v ctrl : bytes) : bytes :=
  map (fun j => let c := byte_at ctrl j in
                if (128 <=? c)%Z then 0%Z
                else byte_at v (j / 16 * 16 + Z.to_nat (c mod 16)))
      (seq 0 (length v)).

(** _mm512_permutexvar_epi{16,32,64}(idx, v). *)
Definition mm_permutexvar (lane : nat) (idx v : bytes) : bytes :=
  let n := length v / lane in
  concat (map (fun q => lane_of lane v (Z.to_nat (le_val (lane_of lane idx q) mod Z.of_nat n)))
              (seq 0 n)).

(** _mm256_permute2x128_si256(v, v, 1): exchange the two halves. *)
Definition mm_swap128 (v : bytes) : bytes := lane_of 16 v 1 ++ lane_of 16 v 0.

(** _mm{,256}_shuffle_epi32(v, imm) inside each 128-bit lane. *)
Definition mm_shuffle_epi32 (imm : nat) (v : bytes) : bytes :=
  concat (map (fun q => lane_of 4 v (q / 4 * 4 + (imm / 4 ^ (q mod 4)) mod 4))
              (seq 0 (length v / 4))).

(** _mm{,256}_alignr_epi8(v, v, 8): rotate each 128-bit lane by 8 bytes. *)
Definition mm_alignr8 (v : bytes) : bytes :=
  concat (map (fun q => lane_of 8 v (2 * q + 1) ++ lane_of 8 v (2 * q))
              (seq 0 (length v / 16))).

(** _mm256_permute4x64_epi64(v, imm). *)
Definition mm_permute4x64 (imm : nat) (v : bytes) : bytes :=
  concat (map (fun q => lane_of 8 v ((imm / 4 ^ q) mod 4)) (seq 0 4)).

(** _MM_SHUFFLE(a,b,c,d). *)
Definition MM_SHUFFLE (a b c d : nat) : nat := a * 64 + b * 16 + c * 4 + d.

(** Swap64/Swap32/Swap16: byte swap. *)
Definition bswap (v : bytes) : bytes := rev v.

(** * Per-block register transformations *)
Local Open Scope Z_scope.
(* <1> AVX-512, lines 187-213 *)
Definition rev1_512 (v : bytes) : bytes :=
  mm_permutexvar 8 (mm_set 8 [1; 0; 3; 2; 5; 4; 7; 6])
    (mm_shuffle_epi8 v (mm_set 4
      [0x00010203; 0x4050607; 0x8090a0b; 0xc0d0e0f; 0x00010203; 0x4050607; 0x8090a0b; 0xc0d0e0f;
       0x00010203; 0x4050607; 0x8090a0b; 0xc0d0e0f; 0x00010203; 0x4050607; 0x8090a0b; 0xc0d0e0f])).
(* <1> AVX2, lines 232-249 *)
Definition rev1_256 (v : bytes) : bytes :=
  mm_swap128 (mm_shuffle_epi8 v (mm_set 1
    [0;1;2;3;4;5;6;7;8;9;10;11;12;13;14;15;0;1;2;3;4;5;6;7;8;9;10;11;12;13;14;15])).
(* <1> SSSE3, lines 268-281 *)
Definition rev1_128 (v : bytes) : bytes :=
  mm_shuffle_epi8 v (mm_set 1 [0;1;2;3;4;5;6;7;8;9;10;11;12;13;14;15]).
(* <2> AVX-512, lines 405-426 *)
Definition rev2_512 (v : bytes) : bytes :=
  mm_permutexvar 2 (mm_set 8
    [0x00000100020003; 0x04000500060007; 0x080009000a000b; 0x0c000d000e000f;
     0x10001100120013; 0x14001500160017; 0x180019001a001b; 0x1c001d001e001f]) v.
(* <2> AVX2, lines 445-461 *)
Definition rev2_256 (v : bytes) : bytes :=
  mm_swap128 (mm_shuffle_epi8 v (mm_set 1
    [1;0;3;2;5;4;7;6;9;8;11;10;13;12;15;14;1;0;3;2;5;4;7;6;9;8;11;10;13;12;15;14])).
(* <2> SSSE3, lines 480-492 *)
Definition rev2_128 (v : bytes) : bytes :=
  mm_shuffle_epi8 v (mm_set 1 [1;0;3;2;5;4;7;6;9;8;11;10;13;12;15;14]).
(* <4> AVX-512, lines 564-578 *)
Definition rev4_512 (v : bytes) : bytes :=
  mm_permutexvar 4 (mm_set 4 [0;1;2;3;4;5;6;7;8;9;10;11;12;13;14;15]) v.
(* <4> AVX2, lines 605-609 *)
Definition rev4_256 (v : bytes) : bytes :=
  mm_swap128 (mm_shuffle_epi32 (MM_SHUFFLE 0 1 2 3) v).
(* <4> SSSE3, lines 636-637 *)
Definition rev4_128 (v : bytes) : bytes := mm_shuffle_epi32 (MM_SHUFFLE 0 1 2 3) v.
(* <8> AVX-512, lines 707-721 *)
Definition rev8_512 (v : bytes) : bytes :=
  mm_permutexvar 8 (mm_set 8 [0;1;2;3;4;5;6;7]) v.
(* <8> AVX2, lines 748-752 *)
Definition rev8_256 (v : bytes) : bytes := mm_swap128 (mm_alignr8 v).
(* <8> SSSE3, lines 779-780 *)
Definition rev8_128 (v : bytes) : bytes := mm_alignr8 v.
(* <16> AVX-512, lines 850-863 *)
Definition rev16_512 (v : bytes) : bytes :=
  mm_permutexvar 8 (mm_set 8 [1; 0; 3; 2; 5; 4; 7; 6]) v.
(* <16> AVX2, lines 891-892 *)
Definition rev16_256 (v : bytes) : bytes := mm_permute4x64 (MM_SHUFFLE 0 1 2 3) v.
Local Close Scope Z_scope.

(** * Loops *)
(** One block loop
    [for (j = i / W; j < (Count/2)/W; ++j) { ...; i += W; }], e.g. lines
    185-227: it runs [(Count/2)/W - i/W] times. Lower at i, Upper at
    Count - i - W, both transformed and stored at the other's place. *)
Fixpoint rev_loop (es w : nat) (shuf : bytes -> bytes) (count : nat) (n i : nat) (m : bytes)
  : outcome (bytes * nat) :=
  match n with
  | O => Ret (m, i)
  | S k =>
      obind (mload m (i * es) (w * es)) (fun lower =>
      obind (mload m ((count - i - w) * es) (w * es)) (fun upper =>
      obind (mstore m (i * es) (shuf upper)) (fun m1 =>
      obind (mstore m1 ((count - i - w) * es) (shuf lower)) (fun m2 =>
      rev_loop es w shuf count k (i + w) m2))))
  end.

Definition rev_block (enabled : bool) (es w : nat) (shuf : bytes -> bytes) (count : nat)
  (st : bytes * nat) : outcome (bytes * nat) :=
  let '(m, i) := st in
  if enabled then rev_loop es w shuf count (count / 2 / w - i / w) i m else Ret st.

(** Naive swaps [for (; i < Count/2; ++i)], e.g. lines 385-391 (the generic
    template is this loop alone, lines 167-173). *)
Fixpoint naive_loop (es count n i : nat) (m : bytes) : outcome bytes :=
  match n with
  | O => Ret m
  | S k =>
      obind (mload m (i * es) es) (fun temp =>
      obind (mload m ((count - i - 1) * es) es) (fun up =>
      obind (mstore m (i * es) up) (fun m1 =>
      obind (mstore m1 ((count - i - 1) * es) temp) (fun m2 =>
      naive_loop es count k (S i) m2))))
  end.

Definition naive_tail (es count : nat) (st : bytes * nat) : outcome bytes :=
  let '(m, i) := st in naive_loop es count (count / 2 - i) i m.

(** qReverse<1>, lines 177-392. *)
Definition qreverse1 (f : cpu) (count : nat) (m : bytes) : outcome bytes :=
  obind (rev_block (avx512 f) 1 64 rev1_512 count (m, 0)) (fun s1 =>
  obind (rev_block (avx2 f) 1 32 rev1_256 count s1) (fun s2 =>
  obind (rev_block (ssse3 f) 1 16 rev1_128 count s2) (fun s3 =>
  obind (rev_block true 1 8 bswap count s3) (fun s4 =>
  obind (rev_block true 1 4 bswap count s4) (fun s5 =>
  obind (rev_block true 1 2 bswap count s5) (fun s6 =>
  naive_tail 1 count s6)))))).

(** qReverse<2>, lines 396-552. *)
Definition qreverse2 (f : cpu) (count : nat) (m : bytes) : outcome bytes :=
  obind (rev_block (avx512 f) 2 32 rev2_512 count (m, 0)) (fun s1 =>
  obind (rev_block (avx2 f) 2 16 rev2_256 count s1) (fun s2 =>
  obind (rev_block (ssse3 f) 2 8 rev2_128 count s2) (fun s3 =>
  naive_tail 2 count s3))).

(** qReverse<4>, lines 555-695. *)
Definition qreverse4 (f : cpu) (count : nat) (m : bytes) : outcome bytes :=
  obind (rev_block (avx512 f) 4 16 rev4_512 count (m, 0)) (fun s1 =>
  obind (rev_block (avx2 f) 4 8 rev4_256 count s1) (fun s2 =>
  obind (rev_block (ssse3 f) 4 4 rev4_128 count s2) (fun s3 =>
  naive_tail 4 count s3))).

(** qReverse<8>, lines 698-835. *)
Definition qreverse8 (f : cpu) (count : nat) (m : bytes) : outcome bytes :=
  obind (rev_block (avx512 f) 8 8 rev8_512 count (m, 0)) (fun s1 =>
  obind (rev_block (avx2 f) 8 4 rev8_256 count s1) (fun s2 =>
  obind (rev_block (ssse3 f) 8 2 rev8_128 count s2) (fun s3 =>
  naive_tail 8 count s3))).

(** qReverse<16>, lines 838-918. *)
Definition qreverse16 (f : cpu) (count : nat) (m : bytes) : outcome bytes :=
  obind (rev_block (avx512 f) 16 4 rev16_512 count (m, 0)) (fun s1 =>
  obind (rev_block (avx2 f) 16 2 rev16_256 count s1) (fun s2 =>
  naive_tail 16 count s2)).

(** Dispatch of qReverse<ElementSize>: specialisations or the generic
    template, lines 152-174. *)
Definition qreverse (f : cpu) (es count : nat) (m : bytes) : outcome bytes :=
  match es with
  | 1 => qreverse1 f count m
  | 2 => qreverse2 f count m
  | 4 => qreverse4 f count m
  | 8 => qreverse8 f count m
  | 16 => qreverse16 f count m
  | _ => naive_loop es count (count / 2) 0 m
  end.
