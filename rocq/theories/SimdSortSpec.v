(** What sort() without key should do, and vocabulary to say what it does
    instead. *)
From Coq Require Import ZArith List Bool Sorting.Sorted.
From Verif Require Import Base ArrayListModel.
Import ListNotations.
Local Open Scope Z_scope.

(** The result wanted from sort(): ascending, or descending when reversed. *)
Definition ordered (reverse : bool) (l : list Z) : Prop :=
  StronglySorted (if reverse then Z.ge else Z.le) l.

(** The lengths at which an int vector is handled with an out-of-bounds access
    are excluded. *)
Definition no_oob (f : cpu) (k : kind) (n : Z) : Prop :=
  ~ (k = KInt /\ avx512 f = true /\ avx2 f = true /\ 9 <= n <= 15).

(** [v] is one of the elements of [b], and at least eight elements of [b] are
    not smaller (not greater, when reversed) than [v]. *)
Definition half_extreme (rv : bool) (v : Z) (b : list Z) : Prop :=
  In v b /\ (8 <= length (filter (fun x => (if rv then x <=? v else v <=? x)%Z) b))%nat.

(** The elements of [l] outside block [q] of [K] elements, and the block. *)
Definition outside (K q : nat) (l : list Z) : list Z := firstn (K * q) l ++ skipn (K * q + K) l.
Definition block (K q : nat) (l : list Z) : list Z := firstn K (skipn (K * q) l).

(** The number of elements per sorted block for an int vector of [n] elements. *)
Definition block_len (f : cpu) (n : Z) : nat := if avx512 f && (16 <? n) then 16%nat else 8%nat.

(** Vectors that take the block path. *)
Definition blocked (f : cpu) (n : Z) : Prop :=
  (avx512 f = true /\ 16 < n) \/ (avx2 f = true /\ 8 < n).

(** The CPU has vector code and the list is long enough to reach it. *)
Definition vector_path (f : cpu) (k : kind) (n : Z) : Prop :=
  8 <= n /\
  match k with
  | KInt => (avx512 f = true /\ 16 < n) \/ (avx2 f = true /\ 8 < n)
  | KBig => (avx512 f = true /\ 8 < n) \/ (avx2 f = true /\ 4 < n)
  end.

(** The 32-bit halves of 64-bit integers, and the integer made of two. *)
Definition halves (b : list Z) : list Z := flat_map (fun x => [wrap 32 x; wrap 32 (x / 2 ^ 32)]) b.
Definition from_halves (lo hi : Z) : Z := hi * 2 ^ 32 + lo mod 2 ^ 32.

(** [m] is the least (greatest, when reversed) element of [b]. *)
Definition extreme (reverse : bool) (m : Z) (b : list Z) : Prop :=
  In m b /\ Forall (fun x => if reverse then x <= m else m <= x) b.
