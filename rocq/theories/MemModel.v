(** Flat byte memory: a list of bytes, an address is a position. Every access
    is bounds checked; an access outside is undefined behaviour. *)
From Coq Require Import ZArith List Bool Arith.
From Verif Require Import Base.
Import ListNotations.

Notation bytes := (list Z).

Definition mload (m : bytes) (a n : nat) : outcome bytes :=
  if (a + n <=? length m)%nat then Ret (firstn n (skipn a m))
  else Undef OutOfBounds.

Definition mstore (m : bytes) (a : nat) (v : bytes) : outcome bytes :=
  if (a + length v <=? length m)%nat
  then Ret (firstn a m ++ v ++ skipn (a + length v) m)
  else Undef OutOfBounds.

(** Vector register load/store of [w] bytes. [al] selects the aligned
    instruction, which is undefined at an address that is not a multiple of
    the register width. *)
Definition vload (al : bool) (w : nat) (m : bytes) (a : nat) : outcome bytes :=
  if al && negb (a mod w =? 0)%nat then Undef Misaligned else mload m a w.

Definition vstore (al : bool) (w : nat) (m : bytes) (a : nat) (v : bytes) : outcome bytes :=
  if al && negb (a mod w =? 0)%nat then Undef Misaligned else mstore m a v.

(** libc memcpy: overlapping operands are undefined. *)
Definition disjoint_b (a b n : nat) : bool :=
  ((n =? 0) || (a + n <=? b) || (b + n <=? a))%nat.

Definition memcpy (m : bytes) (dst src n : nat) : outcome bytes :=
  if disjoint_b dst src n then obind (mload m src n) (fun v => mstore m dst v)
  else Undef Overlap.

(** Little-endian encoding of the low [n] bytes of an integer, and back. *)
Fixpoint le_bytes (n : nat) (z : Z) : bytes :=
  match n with
  | O => []
  | S k => (z mod 256)%Z :: le_bytes k (z / 256)%Z
  end.

Fixpoint le_val (b : bytes) : Z :=
  match b with
  | [] => 0%Z
  | x :: r => (x + 256 * le_val r)%Z
  end.

(** Signed reading of a C integer stored in [b]. *)
Definition le_sval (b : bytes) : Z := wrap (8 * Z.of_nat (length b)) (le_val b).

(** Split a byte string into elements of [es] bytes. *)
Fixpoint chunk_n (es n : nat) (b : bytes) : list bytes :=
  match n with
  | O => []
  | S k => firstn es b :: chunk_n es k (skipn es b)
  end.

Definition chunks (es : nat) (b : bytes) : list bytes := chunk_n es (length b / es) b.
