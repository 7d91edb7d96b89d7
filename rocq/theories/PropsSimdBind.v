(** Property theorems C45, C58: the Python-visible functions of unsafe/SIMD.cpp. *)
From Coq Require Import ZArith List Bool Arith Lia.
From Verif Require Import Base MemModel MemSpec QReverseModel QReverseProofs UnsafeModel UnsafeSpec SimdBindModel SimdBindSpec SimdBindProofs.
Import ListNotations.
Local Open Scope Z_scope.

(** * C45 *)
(** The register image is written at the address and nothing else changes; the
    last argument is in lane 0; the call returns None, from Python 3.12 with an
    error pending when a 32-bit setter got an argument outside 32 bits. *)
Theorem C45_places : forall py w k a args h, In (w, k) setters -> length args = (w / k)%nat -> heap_ok h -> accessible h a (Z.of_nat w) ->
  0 <= a < 2 ^ 64 -> a mod Z.of_nat w = 0 ->
  exists v h', simd_set py w k (PInt a) args h = ((if overflows py k args then RetPending UNone OverflowError else Ret UNone), h') /\
    overwritten h h' a v /\ length v = w /\
    forall i z, nth_error args i = Some z -> le_sval (lane k v (w / k - 1 - i)) = stored py k z.
Proof. exact set_places. Qed.
Print Assumptions C45_places.

(** When a lane holds its argument reduced to the lane width. *)
Theorem C45_reduced_iff : forall py k z, In k [4; 2; 1]%nat ->
  (stored py k z = wrap (8 * Z.of_nat k) z <->
  match py, Nat.eqb k 4 with
  | true, true => - 2 ^ 31 <= z < 2 ^ 31 \/ wrap 32 z = -1
  | false, true => Z.abs z mod 2 ^ 32 < 2 ^ 30
  | true, false => 0 <= z \/ (2 * z) mod 2 ^ (8 * Z.of_nat k) = 0
  | false, false => True
  end).
Proof. exact stored_exact. Qed.
Print Assumptions C45_reduced_iff.

Theorem C45_count : forall py w k ptr args h, length args <> (w / k)%nat -> simd_set py w k ptr args h = (Raise TypeError, h).
Proof. exact set_count. Qed.
Print Assumptions C45_count.

(** An address that is no number, null, not a multiple of the register width, or
    without [w] accessible bytes: undefined. *)
Theorem C45_undefined : forall py w k ptr args h, In (w, k) setters -> length args = (w / k)%nat ->
  (forall a, as_ptr ptr = Ret a -> a = 0 \/ a mod Z.of_nat w <> 0 \/ ~ accessible h a (Z.of_nat w)) ->
  exists u, simd_set py w k ptr args h = (Undef u, h).
Proof. exact set_undefined. Qed.
Print Assumptions C45_undefined.

Definition ex_vec : heap := [{| b_al := true; b_base := 4096; b_data := repeat 7 96 |}].
Example C45_ex_hyps : heap_ok ex_vec /\ accessible ex_vec 4128 32 /\ 4128 mod 32 = 0 /\ In (32, 4)%nat setters.
Proof.
  split; [|split; [|split]].
  - split; repeat constructor; vm_compute; intuition discriminate.
  - eexists. split; [left; reflexivity|]. vm_compute. intuition discriminate.
  - reflexivity.
  - vm_compute. auto 10.
Qed.
Example C45_ex : simd_set false 32 4 (PInt 4128) [1; -2; 2 ^ 30; 2 ^ 30 + 5; 300; -1; 0; 258] ex_vec =
  (Ret UNone, [{| b_al := true; b_base := 4096; b_data := repeat 7 32 ++ [2; 1; 0; 0; 0; 0; 0; 0; 255; 255; 255; 255; 44; 1; 0; 0; 5; 0; 0; 0; 0; 0; 0; 0; 254; 255; 255; 255; 1; 0; 0; 0] ++ repeat 7 32 |}]) /\
  fst (simd_set true 32 4 (PInt 4128) [1; -2; 2 ^ 31; 2 ^ 30 + 5; 300; -1; 0; 258] ex_vec) = RetPending UNone OverflowError /\
  fst (simd_set true 32 4 (PInt 4112) [1; -2; 3; 4; 5; 6; 7; 8] ex_vec) = Undef Misaligned /\
  stored true 2 (-1) = 1 /\ stored true 1 200 = -56 /\ stored false 1 (-1) = -1.
Proof. vm_compute. auto 10. Qed.

(** * C58 *)
(** memcpyX and memcpyXAligned ([al]) with ints inside memory. *)
Theorem C58_memcpy : forall f es m a b c, 0 <= a -> 0 <= b -> 0 <= c -> elem_size es -> zlen m < 2 ^ 64 ->
  a + c * Z.of_nat es <= zlen m -> b + c * Z.of_nat es <= zlen m -> disj (Z.to_nat b) (Z.to_nat a) (Z.to_nat c * es) ->
  simd_memcpy_py f false es [PInt a; PInt b; PInt c] m = Ret (tt, copied m (Z.to_nat a) (Z.to_nat b) (Z.to_nat c * es)) /\
  (align_spec f (Z.to_nat c * es) (Z.to_nat a) (Z.to_nat b) ->
   simd_memcpy_py f true es [PInt a; PInt b; PInt c] m = Ret (tt, copied m (Z.to_nat a) (Z.to_nat b) (Z.to_nat c * es))) /\
  (~ align_spec f (Z.to_nat c * es) (Z.to_nat a) (Z.to_nat b) ->
   simd_memcpy_py f true es [PInt a; PInt b; PInt c] m = Undef Misaligned).
Proof. exact memcpy_py. Qed.
Print Assumptions C58_memcpy.

Theorem C58_reverse : forall f es pre E post m, m = pre ++ concat E ++ post -> elems_of_size es E -> (1 <= es)%nat -> zlen m < 2 ^ 64 ->
  (es <> 16%nat \/ ~ q16_bad f (length E)) ->
  simd_reverse_py f es [PInt (zlen pre); PInt (zlen E)] m = Ret (tt, pre ++ concat (rev E) ++ post).
Proof. exact reverse_py. Qed.
Print Assumptions C58_reverse.

(** reverseLongDouble on the machines and counts of C24 is wrong, but stays in
    its range. *)
Theorem C58_reverse_long_double_refuted : forall f pre E post x, elems_of_size 16 E -> zlen (pre ++ concat E ++ post) < 2 ^ 64 -> q16_bad f (length E) ->
  nth_error E (if avx512 f then length E / 2 / 4 * 4 else 0)%nat = Some x -> swap_halves x <> x ->
  exists r, simd_reverse_py f 16 [PInt (zlen pre); PInt (zlen E)] (pre ++ concat E ++ post) = Ret (tt, pre ++ r ++ post) /\ r <> concat (rev E).
Proof. exact reverse16_py. Qed.
Print Assumptions C58_reverse_long_double_refuted.

Theorem C58_argument_count : forall f al es args m,
  (length args <> 3%nat -> simd_memcpy_py f al es args m = Raise TypeError) /\
  (length args <> 2%nat -> simd_reverse_py f es args m = Raise TypeError).
Proof. exact (fun f al es args m => conj (memcpy_argc f al es args m) (reverse_argc f es args m)). Qed.
Print Assumptions C58_argument_count.

(** "A bad argument raises" is false: the conversion errors are not looked at.
    A bad count is undefined; a bad address is undefined, or with count 0 the
    call returns None with the error pending. *)
Theorem C58_memcpy_bad_count_refuted : forall f al es m from to n, zlen m < 2 ^ 64 - 1 -> (1 <= es)%nat -> not_size n ->
  exists u, simd_memcpy_py f al es [from; to; n] m = Undef u.
Proof. exact memcpy_bad_count. Qed.
Print Assumptions C58_memcpy_bad_count_refuted.
Theorem C58_memcpy_bad_address_refuted : forall f al es m from to c, zlen m < 2 ^ 64 - 1 -> (1 <= es)%nat -> bad_addr al from \/ bad_addr al to -> 0 <= c < 2 ^ 64 ->
  (c <> 0 -> exists u, simd_memcpy_py f al es [from; to; PInt c] m = Undef u) /\
  (c = 0 -> exists e, simd_memcpy_py f al es [from; to; PInt c] m = RetPending (tt, m) e).
Proof. exact memcpy_bad_addr. Qed.
Print Assumptions C58_memcpy_bad_address_refuted.
Theorem C58_reverse_bad_refuted : forall f es m a n, zlen m < 2 ^ 64 - 1 -> (1 <= es)%nat ->
  (not_size n -> exists u, simd_reverse_py f es [a; n] m = Undef u) /\
  (not_address a -> (forall c, n = PInt c -> 0 < c < 2 ^ 64 -> exists u, simd_reverse_py f es [a; n] m = Undef u) /\
                    (n = PInt 0 -> exists e, simd_reverse_py f es [a; n] m = RetPending (tt, m) e)).
Proof. exact reverse_bad. Qed.
Print Assumptions C58_reverse_bad_refuted.
(** With no elements nothing is touched, and the error of the last address that
    cannot be read stays set. *)
Theorem C58_nothing : forall f al es m from to,
  simd_memcpy_py f al es [from; to; PInt 0] m = still_set m (last_of [refusal (if al then Pointer else Size) from; refusal (if al then Pointer else Size) to]) /\
  simd_reverse_py f es [from; PInt 0] m = still_set m (refusal Pointer from).
Proof. intros f al es m from to. split; [apply memcpy_nothing | apply reverse_nothing]. Qed.
Print Assumptions C58_nothing.
Example C58_nothing_ex : last_of [refusal Size (PObj 7); refusal Size (PInt (-1))] = Some OverflowError /\ refusal Pointer (PObj 7) = Some TypeError /\
  refusal Pointer (PInt (-1)) = None.
Proof. vm_compute. split; [|split]; reflexivity. Qed.

Definition ex_avx2' : cpu := {| avx512 := false; avx2 := true; sse41 := true; ssse3 := true |}.
Example C58_ex : let m := map Z.of_nat (seq 0 200) in
  simd_memcpy_py ex_avx2' false 4 [PInt 3; PInt 103; PInt 21] m = Ret (tt, copied m 3 103 84) /\
  simd_memcpy_py ex_avx2' true 4 [PInt 3; PInt 103; PInt 21] m = Undef Misaligned /\
  simd_memcpy_py ex_avx2' true 4 [PInt 0; PInt 96; PInt 21] m = Ret (tt, copied m 0 96 84) /\
  simd_reverse_py ex_avx2' 2 [PInt 5; PInt 3] m = Ret (tt, firstn 5 m ++ [9; 10; 7; 8; 5; 6] ++ skipn 11 m) /\
  simd_memcpy_py ex_avx2' false 4 [PInt 3; PInt 103; PInt (-1)] m = Undef OutOfBounds /\
  simd_memcpy_py ex_avx2' false 4 [PObj 3; PInt 103; PInt 0] m = RetPending (tt, m) TypeError.
Proof. vm_compute. auto 10. Qed.
