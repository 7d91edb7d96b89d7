(** Common vocabulary of the models: outcomes of a call, Python exceptions,
    kinds of undefined behaviour, C integer conversions, configuration. *)
From Coq Require Import ZArith List Bool Lia.
Import ListNotations.
Local Open Scope Z_scope.

(** Python exception classes that the modelled functions can raise. *)
Inductive exn :=
| TypeError | ValueError | IndexError | OverflowError | RuntimeError
| MemoryError | NotImplementedError | SystemError | StopIteration
| UserError (tag : Z).           (* raised by user code: iterator, key, __lt__ ... *)

(** Kinds of undefined behaviour the models distinguish. *)
Inductive ub :=
| OutOfBounds        (* access outside a buffer *)
| Misaligned         (* aligned vector access at a misaligned address *)
| UseAfterFree       (* access to a released list node / object / block *)
| NullDeref          (* null pointer dereference *)
| IterBeforeBegin    (* --begin() / dereferencing end() of a std::list *)
| SignedOverflow     (* overflow of a signed C integer *)
| Overlap            (* overlapping restrict / memcpy operands *)
| BadFree            (* free of a pointer that is not a live block *)
| Dangling.          (* use of a local object after its scope ended *)

(** Result of a C function seen by the interpreter.
    [RetPending v e] is a normal return of [v] while the error indicator is
    still set to [e]. *)
Inductive outcome (A : Type) :=
| Ret (a : A)
| Raise (e : exn)
| RetPending (a : A) (e : exn)
| Undef (u : ub).
Arguments Ret {A} a.
Arguments Raise {A} e.
Arguments RetPending {A} a e.
Arguments Undef {A} u.

Definition obind {A B} (o : outcome A) (f : A -> outcome B) : outcome B :=
  match o with
  | Ret a => f a
  | Raise e => Raise e
  | RetPending a e =>
      match f a with
      | Ret b => RetPending b e
      | Raise e' => Raise e'
      | RetPending b e' => RetPending b e'
      | Undef u => Undef u
      end
  | Undef u => Undef u
  end.

Definition omap {A B} (f : A -> B) (o : outcome A) : outcome B :=
  obind o (fun a => Ret (f a)).

(** Two's complement reduction to [b] bits, the C conversion to a signed type
    of [b] bits (implementation-defined before C++20, modular on every
    supported compiler). *)
Definition wrap (b : Z) (z : Z) : Z :=
  (z + 2 ^ (b - 1)) mod 2 ^ b - 2 ^ (b - 1).

Definition in_sbits (b z : Z) : Prop := - 2 ^ (b - 1) <= z < 2 ^ (b - 1).

Definition in_sbits_b (b z : Z) : bool :=
  (- 2 ^ (b - 1) <=? z) && (z <? 2 ^ (b - 1)).

(** Platform constants (LP64). *)
Definition SSIZE_MAX : Z := 2 ^ 63 - 1.
Definition SSIZE_MIN : Z := - 2 ^ 63.

(** CPU feature flags, utils/simd/SIMDHelper.h 12-16. *)
Record cpu := { avx512 : bool; avx2 : bool; sse41 : bool; ssse3 : bool }.

(** Build/run configuration: interpreter layout and CPU. *)
Record config := { py312 : bool; feat : cpu }.

(** A Python object passed to an integer parameter: an int, or anything that
    has no [__index__]. *)
Inductive pyobj :=
| PInt (z : Z)
| PObj (id : Z).

(** PyLong_AsLong / PyLong_AsLongLong / PyLong_AsSsize_t on LP64: all three
    accept exactly the 64-bit range. *)
Definition as_long (o : pyobj) : outcome Z :=
  match o with
  | PInt z => if in_sbits_b 64 z then Ret z else Raise OverflowError
  | PObj _ => Raise TypeError
  end.

(** PyNumber_AsSsize_t(o, PyExc_IndexError). *)
Definition as_index (o : pyobj) : outcome Z :=
  match o with
  | PInt z => if in_sbits_b 64 z then Ret z else Raise IndexError
  | PObj _ => Raise TypeError
  end.

(** List access by a C index. *)
Definition znth {A} (l : list A) (i : Z) : option A :=
  if i <? 0 then None else nth_error l (Z.to_nat i).

Fixpoint nset {A} (l : list A) (i : nat) (v : A) : option (list A) :=
  match l, i with
  | [], _ => None
  | _ :: r, O => Some (v :: r)
  | x :: r, S j => option_map (cons x) (nset r j v)
  end.

Definition zset {A} (l : list A) (i : Z) (v : A) : option (list A) :=
  if i <? 0 then None else nset l (Z.to_nat i) v.

(** vector::insert(begin()+i, v); [None] when i is not in [0,size]. *)
Fixpoint ninsert {A} (l : list A) (i : nat) (v : A) : option (list A) :=
  match i, l with
  | O, _ => Some (v :: l)
  | S _, [] => None
  | S j, x :: r => option_map (cons x) (ninsert r j v)
  end.

Definition zinsert {A} (l : list A) (i : Z) (v : A) : option (list A) :=
  if i <? 0 then None else ninsert l (Z.to_nat i) v.

(** vector::erase(begin()+i). *)
Fixpoint nerase {A} (l : list A) (i : nat) : option (list A) :=
  match l, i with
  | [], _ => None
  | _ :: r, O => Some r
  | x :: r, S j => option_map (cons x) (nerase r j)
  end.

Definition zerase {A} (l : list A) (i : Z) : option (list A) :=
  if i <? 0 then None else nerase l (Z.to_nat i).

Definition zlen {A} (l : list A) : Z := Z.of_nat (length l).

(** vector::erase(begin()+a, begin()+b). *)
Definition zerase_range {A} (l : list A) (a b : Z) : option (list A) :=
  if (0 <=? a) && (a <=? b) && (b <=? zlen l)
  then Some (firstn (Z.to_nat a) l ++ skipn (Z.to_nat b) l)
  else None.

(** Turn an absent access into undefined behaviour. *)
Definition or_ub {A} (u : ub) (o : option A) : outcome A :=
  match o with Some a => Ret a | None => Undef u end.
