(** Specification vocabulary for the JIT function table. *)
From Coq Require Import ZArith List Bool Arith.
From Verif Require Import Base UnsafeModel AsmModel.
Import ListNotations.
Local Open Scope Z_scope.

(** Between lock() and unlock() of makeFunction and freeFunction. *)
Definition inside (p : apc) : bool :=
  match p with
  | PMakeInsert _ _ | PMakeUnlock _ | PFreeLookup _ | PFreeProtect _ | PFreeRelease _ | PFreeErase _ | PFreeUnlock _ => true
  | _ => false
  end.
(** About to call lock(). *)
Definition waiting (p : apc) : bool := match p with PMakeLock _ _ | PFreeLock _ => true | _ => false end.
(** About to read or write the table. *)
Definition at_table (p : apc) : bool :=
  match p with PMakeInsert _ _ | PFreeLookup _ | PFreeErase _ | PFastInsert _ _ | PFastLookup _ | PFastErase _ => true | _ => false end.

(** Executions that use only makeFunction and freeFunction. *)
Definition locking (x : act) : bool := match x with CallMakeFast _ _ _ | CallFreeFast _ => false | _ => true end.
Definition only_locking (es : list (nat * act)) : Prop := Forall (fun e => locking (snd e) = true) es.

(** A call of freeFunction that came back with an error. *)
Definition failed_free (e : nat * acall * aret) : bool :=
  match e with (_, CFree _, RErr _) => true | _ => false end.
Definition no_failed_free (s : astate) : Prop := Forall (fun e => failed_free e = false) (tr s).

(** How often [a] was handed out and taken back. *)
Definition made (s : astate) (a : Z) : Z := zlen (filter (fun e => match e with (_, CMake, RPtr b) => b =? a | _ => false end) (tr s)).
Definition freed (s : astate) (a : Z) : Z := zlen (filter (fun e => match e with (_, CFree b, RDone) => b =? a | _ => false end) (tr s)).

(** No thread is between lock() and unlock(). *)
Definition quiet (s : astate) : Prop := forall t, inside (pc s t) = false.

(** What can still return: makeFunction before it locks, and the fast variants. *)
Definition unlocked_return (e : nat * acall * aret) : bool :=
  match e with (_, CMake, RErr _) => true | (_, CMakeFast, _) => true | (_, CFreeFast _, _) => true | _ => false end.

(** The address an argument of freeFunction stands for: null for what is not
    an int of 64 bits. *)
Definition points (addr : pyobj) (p : Z) : Prop :=
  match addr with
  | PInt z => -2 ^ 63 <= z < 2 ^ 64 /\ p = z mod 2 ^ 64 \/ ~ (-2 ^ 63 <= z < 2 ^ 64) /\ p = 0
  | PObj _ => p = 0
  end.
