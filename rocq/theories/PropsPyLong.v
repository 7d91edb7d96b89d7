(** Properties C18 and C19: conversion between stored C integers and Python
    integer objects. [mk_pylong z] is the canonical object of the integer [z]
    ([pl_wf_canonical]: it is the only well-formed object with that value). *)
From Coq Require Import ZArith List Bool Lia.
From Verif Require Import Base PyLongModel PyLongProofs.
Import ListNotations.
Local Open Scope Z_scope.

(** The representation is faithful: one well-formed object per integer. *)
Theorem C18_canonical_object : forall z,
  pl_wf (mk_pylong z) /\ pl_val (mk_pylong z) = z /\
  (forall p, pl_wf p -> pl_val p = z -> p = mk_pylong z).
Proof.
  exact (fun z => conj (mk_pylong_wf z) (conj (mk_pylong_val z)
    (fun p W V => eq_trans (pl_wf_canonical p W) (f_equal mk_pylong V)))).
Qed.
Print Assumptions C18_canonical_object.

(** Before 3.12 every 32-bit element reads back as its own integer. *)
Theorem C18_old_exact : forall v, PyFast_FromInt false v = mk_pylong v.
Proof. exact from_int_old. Qed.
Print Assumptions C18_old_exact.

(** From 3.12 on the object is the right one exactly for 1 .. 2^30-1. *)
Theorem C18_312_canonical_iff : forall v, in_sbits 32 v ->
  (PyFast_FromInt true v = mk_pylong v <-> 1 <= v < 2 ^ 30).
Proof. exact from_int_312_iff. Qed.
Print Assumptions C18_312_canonical_iff.

(** ... it compares equal to the right integer exactly for 0 .. 2^30-1 ... *)
Theorem C18_312_equal_iff : forall v, in_sbits 32 v ->
  (pl_eqb (PyFast_FromInt true v) (mk_pylong v) = true <-> 0 <= v < 2 ^ 30).
Proof. exact from_int_312_eq. Qed.
Print Assumptions C18_312_equal_iff.

(** ... arithmetic sees [-(2^32+v)] for every negative [v] ... *)
Theorem C18_312_value : forall v, in_sbits 32 v ->
  pl_val (PyFast_FromInt true v) = if v <? 0 then - (2 ^ 32 + v) else v.
Proof. exact from_int_312_value. Qed.
Print Assumptions C18_312_value.

(** ... and every element, zero included, is true in a boolean context. *)
Theorem C18_312_truthy : forall v,
  pl_truthy (PyFast_FromInt true v) = true /\ pl_truthy (mk_pylong v) = negb (v =? 0).
Proof. exact (fun v => conj (from_int_312_truthy v) (mk_pylong_truthy v)). Qed.
Print Assumptions C18_312_truthy.

Example C18_ex_negative :
  in_sbits 32 (-5) /\ pl_val (PyFast_FromInt true (-5)) = -4294967291 /\
  PyFast_FromInt false (-5) = {| pl_neg := true; pl_digits := [5] |}.
Proof. split; [unfold in_sbits; lia|split; reflexivity]. Qed.
Example C18_ex_good : in_sbits 32 1000 /\ PyFast_FromInt true 1000 = mk_pylong 1000.
Proof. split; [unfold in_sbits; lia|reflexivity]. Qed.

(** PyFast_AsInt from 3.12 on: exact with a range check. *)
Theorem C19_asint_312 : forall z,
  PyFast_AsInt true (mk_pylong z) =
  if in_sbits_b 32 z then Ret z else RetPending (-1) OverflowError.
Proof. exact as_int_312. Qed.
Print Assumptions C19_asint_312.

(** PyFast_AsInt before 3.12: right exactly below 2^30; otherwise the low 30
    bits of the magnitude with the sign, silently. *)
Theorem C19_asint_old_iff : forall z,
  PyFast_AsInt false (mk_pylong z) = Ret z <-> Z.abs z < 2 ^ 30.
Proof. exact as_int_old_iff. Qed.
Print Assumptions C19_asint_old_iff.

Theorem C19_asint_old_value : forall z,
  PyFast_AsInt false (mk_pylong z) = Ret (Z.sgn z * (Z.abs z mod 2 ^ 30)).
Proof. exact as_int_old. Qed.
Print Assumptions C19_asint_old_value.

(** PyFast_AsShort / PyFast_AsChar: reduction before 3.12, reduction of the
    absolute value from 3.12 on. *)
Theorem C19_assmall_old : forall bits z, 1 <= bits <= 30 ->
  PyFast_AsSmall bits false (mk_pylong z) = wrap bits z.
Proof. exact as_small_old. Qed.
Print Assumptions C19_assmall_old.

Theorem C19_assmall_312 : forall bits z, 1 <= bits <= 30 ->
  PyFast_AsSmall bits true (mk_pylong z) = wrap bits (Z.abs z).
Proof. exact as_small_312. Qed.
Print Assumptions C19_assmall_312.

Example C19_ex_old : PyFast_AsInt false (mk_pylong (2 ^ 30 + 7)) = Ret 7.
Proof. reflexivity. Qed.
Example C19_ex_short :
  PyFast_AsSmall 16 false (mk_pylong (-3)) = -3 /\ PyFast_AsSmall 16 true (mk_pylong (-3)) = 3.
Proof. split; reflexivity. Qed.
