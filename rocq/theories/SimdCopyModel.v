(** utils/simd/SIMDUtils.h: simdMemCpy, simdMemCpyAligned;
    utils/memory/FastMemcpy.h: fast_memcpy. x86 branch (the #else of line 35).
    Prefetch hints have no observable effect and are left out. *)
From Coq Require Import ZArith List Bool Arith.
From Verif Require Import Base MemModel.
Import ListNotations.

(** One vector block loop, SIMDUtils.h 52-61 / 64-73 / 76-85 (unaligned) and
    123-132 / 135-144 / 147-156 (aligned): the loop
    [for (; count - copied >= E; copied += E)] runs [(count - copied) / E]
    times, [E] = width / sizeof(T). *)
Fixpoint vec_loop (al : bool) (w es : nat) (n : nat) (from to copied : nat) (m : bytes)
  : outcome (bytes * nat) :=
  match n with
  | O => Ret (m, copied)
  | S k =>
      obind (vload al w m (from + copied * es)) (fun v =>
      obind (vstore al w m (to + copied * es) v) (fun m' =>
      vec_loop al w es k from to (copied + w / es) m'))
  end.

Definition vec_block (enabled al : bool) (w es count from to : nat) (st : bytes * nat)
  : outcome (bytes * nat) :=
  let '(m, copied) := st in
  if enabled && (w / es <=? count - copied)%nat
  then vec_loop al w es ((count - copied) / (w / es)) from to copied m
  else Ret st.

(** Scalar tail, SIMDUtils.h 88-91 / 159-162. *)
Fixpoint scalar_loop (es : nat) (n : nat) (from to copied : nat) (m : bytes) : outcome bytes :=
  match n with
  | O => Ret m
  | S k =>
      obind (mload m (from + copied * es) es) (fun v =>
      obind (mstore m (to + copied * es) v) (fun m' =>
      scalar_loop es k from to (S copied) m'))
  end.

(** simdMemCpy (al = false, SIMDUtils.h 34-93) and simdMemCpyAligned
    (al = true, 105-164) for elements of [es] bytes. The memcpy of lines 38-40 /
    109-111 does not return, so the loops below run after it as well. The
    operands are [__restrict]: overlapping ranges are undefined. *)
Definition simd_memcpy (f : cpu) (al : bool) (es : nat) (from to count : nat) (m : bytes)
  : outcome bytes :=
  if negb (disjoint_b to from (count * es)) then Undef Overlap else
  obind (if (negb (avx512 f) && negb (avx2 f) && negb (sse41 f)) || (count <? 8)%nat
         then memcpy m to from (count * es) else Ret m) (fun m0 =>
  obind (vec_block (avx512 f) al 64 es count from to (m0, 0%nat)) (fun st1 =>
  obind (vec_block (avx2 f) al 32 es count from to st1) (fun st2 =>
  obind (vec_block (sse41 f) al 16 es count from to st2) (fun st3 =>
  scalar_loop es (count - snd st3) from to (snd st3) (fst st3))))).

(** fast_memcpy, FastMemcpy.h 12-120: sizes 0..32 go to a fixed-size memcpy,
    others to the aligned copy if both addresses are multiples of 64, else to
    the unaligned copy, on chars. *)
Definition fast_memcpy (f : cpu) (dst src size : nat) (m : bytes) : outcome bytes :=
  if (size =? 0)%nat then Ret m
  else if (size <=? 32)%nat then memcpy m dst src size
  else if ((src mod 64 =? 0) && (dst mod 64 =? 0))%nat
       then simd_memcpy f true 1 src dst size m
       else simd_memcpy f false 1 src dst size m.
