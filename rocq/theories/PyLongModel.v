(** Python integer objects as sign + list of 30-bit digits, and the fast
    conversion helpers of utils/PythonUtils.h. *)
From Coq Require Import ZArith List Bool.
From Verif Require Import Base.
Import ListNotations.
Local Open Scope Z_scope.

Definition PyLong_BASE : Z := 2 ^ 30.

(** Memory representation: sign flag and little-endian digits. CPython's
    canonical zero has no digits. *)
Record pylong := { pl_neg : bool; pl_digits : list Z }.

Fixpoint digits_val (ds : list Z) : Z :=
  match ds with
  | [] => 0
  | d :: r => d + PyLong_BASE * digits_val r
  end.

(** The number CPython's arithmetic reads from the representation. *)
Definition pl_val (p : pylong) : Z :=
  if pl_neg p then - digits_val (pl_digits p) else digits_val (pl_digits p).

(** Invariant CPython requires of every int object: digits in [0,2^30), top
    digit non-zero, zero not negative. *)
Definition pl_wf (p : pylong) : Prop :=
  Forall (fun d => 0 <= d < PyLong_BASE) (pl_digits p) /\
  (forall l d, pl_digits p = l ++ [d] -> d <> 0) /\
  (pl_digits p = [] -> pl_neg p = false).

(** Canonical object for [z] (PyLong_FromLong, PyLong_FromLongLong, ...). *)
Fixpoint digits_fuel (fuel : nat) (z : Z) : list Z :=
  match fuel with
  | O => []
  | S f => if z <=? 0 then []
           else (z mod PyLong_BASE) :: digits_fuel f (z / PyLong_BASE)
  end.

Definition digits_of (z : Z) : list Z :=
  digits_fuel (Z.to_nat (Z.log2 z) + 1) z.

Definition mk_pylong (z : Z) : pylong :=
  {| pl_neg := z <? 0; pl_digits := digits_of (Z.abs z) |}.

(** Digit count signed by the sign (Py_SIZE before 3.12, the signed digit
    count from 3.12 on). *)
Definition pl_size (p : pylong) : Z :=
  if pl_neg p then - Z.of_nat (length (pl_digits p))
  else Z.of_nat (length (pl_digits p)).

Fixpoint digits_eqb (a b : list Z) : bool :=
  match a, b with
  | [], [] => true
  | x :: a', y :: b' => (x =? y) && digits_eqb a' b'
  | _, _ => false
  end.

(** [==] of two int objects as CPython 3.12's long_compare computes it: two
    compact (at most one digit) numbers by value, anything else by signed
    digit count and then digit by digit. (On canonical objects this is
    equality of values, as in every version; proved in PyLongProofs.) *)
Definition pl_compact (p : pylong) : bool := (length (pl_digits p) <=? 1)%nat.

Definition pl_eqb (a b : pylong) : bool :=
  if pl_compact a && pl_compact b then pl_val a =? pl_val b
  else (pl_size a =? pl_size b) && digits_eqb (pl_digits a) (pl_digits b).

(** Truth value of an int object: [!_PyLong_IsZero], i.e. digit count (sign
    field) not zero. *)
Definition pl_truthy (p : pylong) : bool := negb (pl_size p =? 0).

(** Unsigned 32-bit bit pattern of a C int. *)
Definition u32 (z : Z) : Z := z mod 2 ^ 32.

(** PyFast_FromInt, utils/PythonUtils.h 149-155.
    >= 3.12: [_PyLong_FromDigits(value < 0, 1, (digit * )&value)]: one digit,
    the raw 32-bit pattern, sign from the comparison.
    < 3.12: PyLong_FromLong. *)
Definition PyFast_FromInt (py312 : bool) (v : Z) : pylong :=
  if py312 then {| pl_neg := v <? 0; pl_digits := [u32 v] |}
  else mk_pylong v.

(** First digit of the object; canonical zero still has a stored digit 0. *)
Definition first_digit (p : pylong) : Z :=
  match pl_digits p with [] => 0 | d :: _ => d end.

(** Py_SIZE(obj) of an int object. Before 3.12: signed digit count. From 3.12
    on the field is lv_tag = (ndigits << 3) | sign bits (0 positive, 1 zero,
    2 negative). *)
Definition Py_SIZE (py312 : bool) (p : pylong) : Z :=
  if py312 then
    8 * Z.of_nat (length (pl_digits p)) +
    (if pl_neg p then 2 else if Z.of_nat (length (pl_digits p)) =? 0 then 1 else 0)
  else pl_size p.

(** PyFast_AsInt, utils/PythonUtils.h 108-125.
    >= 3.12 (_PyLong_AsInt / PyLong_AsInt): the value with a range check,
    -1 with OverflowError outside the int range.
    < 3.12: first digit with the sign of the size field. A stored digit is a
    uint32_t, converted to int. *)
Definition PyFast_AsInt (py312 : bool) (p : pylong) : outcome Z :=
  if py312 then
    if in_sbits_b 32 (pl_val p) then Ret (pl_val p)
    else RetPending (-1) OverflowError
  else
    let size := Py_SIZE false p in
    if size =? 0 then Ret 0
    else if size <? 0 then Ret (- wrap 32 (first_digit p))
    else Ret (wrap 32 (first_digit p)).

(** PyFast_AsShort, utils/PythonUtils.h 127-136 ([bits] = 16) and
    PyFast_AsChar, 138-147 ([bits] = 8): Py_SIZE in both layouts. *)
Definition PyFast_AsSmall (bits : Z) (py312 : bool) (p : pylong) : Z :=
  let size := Py_SIZE py312 p in
  if size =? 0 then 0
  else if size <? 0 then wrap bits (- wrap 32 (first_digit p))
  else wrap bits (first_digit p).
