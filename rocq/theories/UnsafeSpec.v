(** Specification vocabulary for raw memory: what is at an address, which
    ranges may be accessed, what a write changes. *)
From Coq Require Import ZArith List Bool.
From Verif Require Import Base UnsafeModel.
Import ListNotations.
Local Open Scope Z_scope.

(** The byte at address [x], if [x] is in a live block. *)
Fixpoint cell (h : heap) (x : Z) : option Z :=
  match h with
  | [] => None
  | b :: r => if (b_base b <=? x) && (x <? b_base b + b_size b) then nth_error (b_data b) (Z.to_nat (x - b_base b)) else cell r x
  end.
Definition cells (h : heap) (a n : Z) : list (option Z) := map (fun i => cell h (a + Z.of_nat i)) (seq 0 (Z.to_nat n)).

(** The blocks without their contents. *)
Definition layout (h : heap) : list (bool * Z * Z) := map (fun b => (b_al b, b_base b, b_size b)) h.

(** [a, a+n) lies in one live block. *)
Definition accessible (h : heap) (a n : Z) : Prop :=
  exists b, In b h /\ b_base b <= a /\ a + n <= b_base b + b_size b.

(** Live blocks do not meet and lie in the address space above null. *)
Definition separate (b c : block) : Prop :=
  b_base b + Z.max 1 (b_size b) <= b_base c \/ b_base c + Z.max 1 (b_size c) <= b_base b.
Definition heap_ok (h : heap) : Prop :=
  ForallOrdPairs separate h /\ Forall (fun b => 0 < b_base b /\ b_base b + Z.max 1 (b_size b) <= 2 ^ 64) h.

(** [h'] is [h] with the bytes [v] at [a] and nothing else changed. *)
Definition overwritten (h h' : heap) (a : Z) (v : list Z) : Prop :=
  layout h' = layout h /\
  forall x, cell h' x = if (a <=? x) && (x <? a + zlen v) then nth_error v (Z.to_nat (x - a)) else cell h x.

(** [h'] is [h] plus a block of [n] bytes at [p]. *)
Definition added (h h' : heap) (al : bool) (p n : Z) : Prop :=
  layout h' = (al, p, n) :: layout h /\ (forall x, p <= x < p + n -> cell h x = None) /\
  forall x, ~ p <= x < p + n -> cell h' x = cell h x.

(** [h'] is [h] without the block of [n] bytes at [p]. *)
Definition removed (h h' : heap) (p n : Z) : Prop :=
  layout h' = filter (fun t => negb (snd (fst t) =? p)) (layout h) /\
  forall x, cell h' x = if (p <=? x) && (x <? p + n) then None else cell h x.

(** Calls that leave [a, a+n) of the block at [p] alone: no write meeting the
    range, no release of the block. Addresses are as passed, modulo 2^64. *)
Definition addr_of (o : pyobj) : Z := match o with PInt z => z mod 2 ^ 64 | PObj _ => 0 end.
Definition apart_from (a n c m : Z) : Prop := c + m <= a \/ a + n <= c.
Definition num_of (o : pyobj) : Z := match o with PInt z => z | PObj _ => 0 end.
Definition leaves (p a n : Z) (op : uop) : Prop :=
  match op with
  | UFree q | UAlignedFree q | URealloc q _ _ => addr_of q <> p
  | USet q (Some v) => apart_from a n (addr_of q) (zlen v)
  | UMemcpy _ q m | UMemset q _ m | UCall _ q m => apart_from a n (addr_of q) (num_of m)
  | _ => True
  end.

(** What an allocator may answer for [n] bytes: memory above null, inside the
    address space, apart from every live block. *)
Definition usable (h : heap) (n a : Z) (init : list Z) : Prop :=
  0 < a /\ a + Z.max 1 n <= 2 ^ 64 /\ zlen init = n /\
  Forall (fun b => a + Z.max 1 n <= b_base b \/ b_base b + Z.max 1 (b_size b) <= a) h.

(** The blocks other than the one at [p]. *)
Definition without (p : Z) (h : heap) : heap := filter (fun b => negb (b_base b =? p)) h.

(** How an argument is read, and the error for one that cannot be. *)
Inductive form := AnyInt | Size | Pointer | Long.
Definition refusal (f : form) (o : pyobj) : option exn :=
  match o with
  | PObj _ => Some TypeError
  | PInt z =>
      match f with
      | AnyInt => None
      | Size => if (z <? 0) || (2 ^ 64 <=? z) then Some OverflowError else None
      | Pointer => if (z <? - 2 ^ 63) || (2 ^ 64 <=? z) then Some OverflowError else None
      | Long => if (z <? - 2 ^ 63) || (2 ^ 63 <=? z) then Some OverflowError else None
      end
  end.
Definition first_of (l : list (option exn)) : option exn := fold_right (fun e r => match e with Some _ => e | None => r end) None l.
Definition last_of (l : list (option exn)) : option exn := first_of (rev l).
(** memcpy, memset and call read all their arguments before they look for an
    error, so that the last one counts. *)
Definition argument_error (op : uop) : option exn :=
  match op with
  | UMalloc n _ => refusal Size n
  | UFree a | UAlignedFree a => refusal Size a
  | UCalloc x y _ => first_of [refusal AnyInt x; refusal AnyInt y]
  | URealloc a n _ => first_of [refusal AnyInt a; refusal AnyInt n]
  | UAlignedMalloc n al _ => first_of [refusal AnyInt n; refusal AnyInt al]
  | UGet a n _ => first_of [refusal AnyInt a; refusal AnyInt n]
  | USet a v => first_of [refusal AnyInt a; match v with None => Some TypeError | Some _ => None end]
  | UMemcpy s d n => last_of [refusal Pointer s; refusal Pointer d; refusal Size n]
  | UMemset a v n => last_of [refusal Pointer a; refusal Long v; refusal Size n]
  | UCall _ a n => last_of [refusal Pointer a; refusal Size n]
  end.
(** With arguments in order only memory may be missing, or a bytes object be too
    long. *)
Definition other_error (op : uop) (e : exn) : Prop :=
  match op with
  | UMalloc _ _ | UCalloc _ _ _ | URealloc _ _ _ | UAlignedMalloc _ _ _ => e = MemoryError
  | UGet _ _ _ => e = MemoryError \/ e = OverflowError \/ e = SystemError
  | _ => False
  end.
