(** When from_range's arithmetic leaves Py_ssize_t. *)
From Coq Require Import ZArith.
From Verif Require Import Base.
Local Open Scope Z_scope.

Definition ssize (z : Z) : Prop := SSIZE_MIN <= z <= SSIZE_MAX.
(** Going up: the distance plus the step is too large, or the first value not
    below the stop is. Going down: the distance is too large, or the step has no
    negation. *)
Definition overflows (start stop step : Z) : Prop :=
  (0 < step /\ start < stop /\
     (SSIZE_MAX < stop - start + step \/
      exists n, start + (n - 1) * step < stop <= start + n * step /\ SSIZE_MAX < start + n * step)) \/
  (step < 0 /\ stop < start /\ (SSIZE_MAX < start - stop \/ step = SSIZE_MIN)).
