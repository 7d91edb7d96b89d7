(** Specification vocabulary for the SIMD bindings. *)
From Coq Require Import ZArith List Bool Arith.
From Verif Require Import Base MemModel.
Import ListNotations.
Local Open Scope Z_scope.

(** The setters: register width and lane width in bytes. *)
Definition setters : list (nat * nat) := [(64, 4); (64, 2); (64, 1); (32, 4); (32, 2); (32, 1)]%nat.

(** Lane [i] of the register image [v]. *)
Definition lane (k : nat) (v : list Z) (i : nat) : list Z := firstn k (skipn (i * k) v).

(** What a lane of [k] bytes holds for the argument [z]. *)
Definition stored (py312 : bool) (k : nat) (z : Z) : Z :=
  if Nat.eqb k 4 then
    if py312 then (if (- 2 ^ 31 <=? z) && (z <? 2 ^ 31) then z else -1)
    else Z.sgn z * (Z.abs z mod 2 ^ 30)
  else wrap (8 * Z.of_nat k) (if py312 then Z.abs z else z).

(** Some argument does not fit and leaves an error behind. *)
Definition overflows (py312 : bool) (k : nat) (zs : list Z) : bool :=
  py312 && Nat.eqb k 4 && existsb (fun z => negb ((- 2 ^ 31 <=? z) && (z <? 2 ^ 31))) zs.

(** Not convertible to an unsigned 64-bit number. *)
Definition not_size (o : pyobj) : Prop := match o with PInt z => z < 0 \/ 2 ^ 64 <= z | PObj _ => True end.
(** Not convertible to an address. *)
Definition not_address (o : pyobj) : Prop := match o with PInt z => z < - 2 ^ 63 \/ 2 ^ 64 <= z | PObj _ => True end.
(** What the unaligned copy and the other wrappers reject as an address. *)
Definition bad_addr (al : bool) (o : pyobj) : Prop := if al then not_address o else not_size o.

(** The call returns None with the memory as given, and with the error set if there is one. *)
Definition still_set (m : bytes) (e : option exn) : outcome (unit * bytes) := match e with Some x => RetPending (tt, m) x | None => Ret (tt, m) end.
