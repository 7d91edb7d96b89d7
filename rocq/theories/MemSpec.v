(** Specification vocabulary for the memory helpers: what a copy is, when two
    ranges are disjoint, which alignments an aligned vector copy needs, and on
    which inputs the 16-byte reverse is wrong. Nothing here mentions how the
    code works. *)
From Coq Require Import ZArith List Bool Arith.
From Verif Require Import Base.
Import ListNotations.

(** Memory [m] after its [k] bytes at [from] have been copied to [to]. *)
Definition copied (m : list Z) (from to k : nat) : list Z :=
  firstn to m ++ firstn k (skipn from m) ++ skipn (to + k) m.

(** The ranges [a,a+n) and [b,b+n) do not meet. *)
Definition disj (a b n : nat) : Prop := n = 0 \/ a + n <= b \/ b + n <= a.

(** Both addresses are multiples of [w]. *)
Definition aligned_to (w from to : nat) : Prop := from mod w = 0 /\ to mod w = 0.

(** Element sizes of the copied arrays. *)
Definition elem_size (es : nat) : Prop := es = 1 \/ es = 2 \/ es = 4 \/ es = 8 \/ es = 16.

(** Which vector widths a copy of [n] bytes uses: the widest enabled one first,
    each narrower one on what is left. *)
Definition left512 (f : cpu) (n : nat) : nat := if avx512 f then n mod 64 else n.
Definition left256 (f : cpu) (n : nat) : nat := if avx2 f then left512 f n mod 32 else left512 f n.

Definition align_spec (f : cpu) (n from to : nat) : Prop :=
  (avx512 f = true -> 64 <= n -> aligned_to 64 from to) /\
  (avx2 f = true -> 32 <= left512 f n -> aligned_to 32 from to) /\
  (sse41 f = true -> 16 <= left256 f n -> aligned_to 16 from to).

(** Consecutive copies of [b] bytes: every vector width such a copy uses divides [b]. *)
Definition rep_align (f : cpu) (b : nat) : Prop :=
  (avx512 f = true -> 64 <= b -> b mod 64 = 0) /\
  (avx2 f = true -> 32 <= left512 f b -> b mod 32 = 0) /\
  (sse41 f = true -> 16 <= left256 f b -> b mod 16 = 0).

(** Every element of the array has [es] bytes. *)
Definition elems_of_size (es : nat) (E : list (list Z)) : Prop := Forall (fun x => length x = es) E.

(** A 16-byte element with its 8-byte halves exchanged. *)
Definition swap_halves (x : list Z) : list Z := skipn 8 x ++ firstn 8 x.

(** Machines and lengths on which the 16-byte reverse is wrong. *)
Definition q16_bad (f : cpu) (n : nat) : Prop :=
  avx2 f = true /\ (if avx512 f then 2 <= (n / 2) mod 4 else 4 <= n).
