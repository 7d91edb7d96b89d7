(** utils/include/UnorderedDense.h: the hash table behind IntIntHashMap and the
    table of the ASM module (detail::table with bucket_type::standard and a
    std::vector of pairs). Keys are machine integers or addresses. Refused
    memory is in HashMemModel; reserve, rehash, max_load_factor and the iterator forms
    of insert and erase are not used by the extension and are left out. *)
From Coq Require Import ZArith List Bool.
From Verif Require Import Base.
Import ListNotations.
Local Open Scope Z_scope.

(** bucket_type::standard, 418-424: both fields uint32_t. *)
Record bucket := Bk { daf : Z; vidx : Z }.
Definition dist_step : Z := 256.
Definition wrap32 (x : Z) : Z := x mod 2 ^ 32.

(** Result of a function: a value, undefined behaviour, a loop that went once
    around all buckets without ending, or a C++ exception. *)
Inductive run (A : Type) := Ok (a : A) | Bad (u : ub) | Loops | Throws.
Arguments Ok {A} _. Arguments Bad {A} _. Arguments Loops {A}. Arguments Throws {A}.
Definition rbind {A B} (r : run A) (f : A -> run B) : run B :=
  match r with Ok a => f a | Bad u => Bad u | Loops => Loops | Throws => Throws end.

(** ** wyhash, 158-268 *)
(** mum with 128-bit arithmetic, 166-170. *)
Definition mum (a b : Z) : Z * Z := ((a * b) mod 2 ^ 64, (a * b) / 2 ^ 64 mod 2 ^ 64).
(** mum without, 174-192: all variables are uint64_t. *)
Definition mum_portable (a b : Z) : Z * Z :=
  let w x := x mod 2 ^ 64 in
  let ha := a / 2 ^ 32 in let hb := b / 2 ^ 32 in
  let la := a mod 2 ^ 32 in let lb := b mod 2 ^ 32 in
  let rh := w (ha * hb) in let rm0 := w (ha * lb) in let rm1 := w (hb * la) in let rl := w (la * lb) in
  let t := w (rl + w (rm0 * 2 ^ 32)) in
  let c := if t <? rl then 1 else 0 in
  let lo := w (t + w (rm1 * 2 ^ 32)) in
  let c := w (c + if lo <? t then 1 else 0) in
  let hi := w (rh + rm0 / 2 ^ 32 + rm1 / 2 ^ 32 + c) in
  (lo, hi).
(** mix, 196-199, and hash of a 64-bit value, 266-268. *)
Definition mix (a b : Z) : Z := let '(x, y) := mum a b in Z.lxor x y.
Definition wyhash (x : Z) : Z := mix x 11400714819323198485.
(** hash<int> (376-390, 403: conversion to uint64_t) and hash<T*> (296-303). *)
Definition hash_int (k : Z) : Z := wyhash (k mod 2 ^ 64).

Section Table.
Context {V : Type}.
Variable hash : Z -> Z.   (* mixed_hash, 872-886: a uint64_t *)

Record table := mk_table { m_values : list (Z * V); m_buckets : list bucket; m_shifts : Z; m_cap : Z }.

Definition initial_shifts : Z := 62.
Definition max_bucket_count : Z := 2 ^ 32.

(** at, 858-860, and operator[] of the vector of values. *)
Definition at_ (bs : list bucket) (i : Z) : run bucket :=
  if i <? 0 then Bad OutOfBounds else match nth_error bs (Z.to_nat i) with Some b => Ok b | None => Bad OutOfBounds end.
Definition key_at (vs : list (Z * V)) (i : Z) : run Z :=
  if i <? 0 then Bad OutOfBounds else match nth_error vs (Z.to_nat i) with Some (k, _) => Ok k | None => Bad OutOfBounds end.
Fixpoint set_nth {A} (l : list A) (i : nat) (x : A) : list A :=
  match l, i with [], _ => [] | _ :: r, O => x :: r | y :: r, S i' => y :: set_nth r i' x end.
Definition set_ (bs : list bucket) (i : Z) (b : bucket) : run (list bucket) :=
  if (i <? 0) || (Z.of_nat (length bs) <=? i) then Bad OutOfBounds else Ok (set_nth bs (Z.to_nat i) b).

(** next, 851-855; in uint32_t. *)
Definition next (bs : list bucket) (i : Z) : Z :=
  if wrap32 (i + 1) =? Z.of_nat (length bs) then 0 else wrap32 (i + 1).
(** dist_inc, dist_dec, 863-869. *)
Definition dist_inc (x : Z) : Z := wrap32 (x + dist_step).
Definition dist_dec (x : Z) : Z := wrap32 (x - dist_step).
(** dist_and_fingerprint_from_hash, 889-891; bucket_idx_from_hash, 893-895. *)
Definition daf_of (h : Z) : Z := Z.lor dist_step (Z.land (wrap32 h) 255).
Definition idx_of (shifts h : Z) : Z := wrap32 (Z.shiftr h shifts).

(** The loops take as fuel one more than the number of buckets. *)
Definition fuel (bs : list bucket) : nat := S (length bs).

(** next_while_less, 905-915. *)
Fixpoint less_loop (n : nat) (bs : list bucket) (d i : Z) : run (Z * Z) :=
  match n with
  | O => Loops
  | S n' => rbind (at_ bs i) (fun b => if d <? daf b then less_loop n' bs (dist_inc d) (next bs i) else Ok (d, i))
  end.
Definition next_while_less (bs : list bucket) (shifts key : Z) : run (Z * Z) :=
  less_loop (fuel bs) bs (daf_of (hash key)) (idx_of shifts (hash key)).

(** place_and_shift_up, 918-925. *)
Fixpoint place (n : nat) (bs : list bucket) (b : bucket) (i : Z) : run (list bucket) :=
  match n with
  | O => Loops
  | S n' => rbind (at_ bs i) (fun o =>
      if daf o =? 0 then set_ bs i b
      else rbind (set_ bs i b) (fun bs' => place n' bs' (Bk (dist_inc (daf o)) (vidx o)) (next bs i)))
  end.

(** calc_num_buckets, 927-929. *)
Definition calc_num_buckets (shifts : Z) : Z := Z.min max_bucket_count (2 ^ (64 - shifts)).
(** m_max_bucket_capacity, 970-980: num * 0.8F, rounded down; the float is
    13421773 / 2^24 and the product with a power of two is exact. *)
Definition capacity (num : Z) : Z := if num =? max_bucket_count then max_bucket_count else wrap32 (num * 13421773 / 2 ^ 24).
(** allocate_buckets_from_shift followed by clear_buckets, 970-986. *)
Definition fresh_buckets (shifts : Z) : list bucket := repeat (Bk 0 0) (Z.to_nat (calc_num_buckets shifts)).

(** clear_and_fill_buckets_from_values, 988-998; [i]: value_idx. *)
Fixpoint fill (vs : list (Z * V)) (bs : list bucket) (shifts i : Z) : run (list bucket) :=
  match vs with
  | [] => Ok bs
  | (k, _) :: r =>
      rbind (next_while_less bs shifts k) (fun '(d, j) =>
      rbind (place (fuel bs) bs (Bk d i) j) (fun bs' => fill r bs' shifts (i + 1)))
  end.

(** increase_size, 1000-1010; the values include the new one. *)
Definition increase_size (t : table) : run table :=
  if m_cap t =? max_bucket_count then Throws
  else let s := (m_shifts t - 1) mod 256 in
       rbind (fill (m_values t) (fresh_buckets s) s 0) (fun bs => Ok (mk_table (m_values t) bs s (capacity (calc_num_buckets s)))).

(** After the new value is at the back: 1554-1564 and 1082-1091. *)
Definition place_last (t : table) (d i : Z) : run table :=
  let value_idx := wrap32 (Z.of_nat (length (m_values t)) - 1) in
  if m_cap t <? Z.of_nat (length (m_values t)) then increase_size t
  else rbind (place (fuel (m_buckets t)) (m_buckets t) (Bk d value_idx) i) (fun bs => Ok (mk_table (m_values t) bs (m_shifts t) (m_cap t))).

(** The search loop of do_try_emplace, 1099-1115: where the key is, or where it
    goes. *)
Inductive spot := Found (i : Z) | Vacant (d i : Z).
Fixpoint try_loop (n : nat) (vs : list (Z * V)) (bs : list bucket) (key d i : Z) : run spot :=
  match n with
  | O => Loops
  | S n' => rbind (at_ bs i) (fun b =>
      if d =? daf b then rbind (key_at vs (vidx b)) (fun k =>
        if key =? k then Ok (Found (vidx b)) else try_loop n' vs bs key (dist_inc d) (next bs i))
      else if daf b <? d then Ok (Vacant d i)
      else try_loop n' vs bs key (dist_inc d) (next bs i))
  end.
(** do_try_emplace, 1093-1116, with do_place_element, 1075-1091. The result is
    the table, the index of the value and whether it is new. *)
Definition try_emplace (t : table) (key : Z) (v : V) : run (table * Z * bool) :=
  rbind (try_loop (fuel (m_buckets t)) (m_values t) (m_buckets t) key (daf_of (hash key)) (idx_of (m_shifts t) (hash key))) (fun s =>
  match s with
  | Found i => Ok (t, i, false)
  | Vacant d i =>
      rbind (place_last (mk_table (m_values t ++ [(key, v)]) (m_buckets t) (m_shifts t) (m_cap t)) d i) (fun t' =>
      Ok (t', Z.of_nat (length (m_values t)), true))
  end).

(** The search loop of emplace, 1545-1553. *)
Fixpoint emplace_loop (n : nat) (vs : list (Z * V)) (bs : list bucket) (key d i : Z) : run spot :=
  match n with
  | O => Loops
  | S n' => rbind (at_ bs i) (fun b =>
      if d <=? daf b then
        if d =? daf b then rbind (key_at vs (vidx b)) (fun k =>
          if key =? k then Ok (Found (vidx b)) else emplace_loop n' vs bs key (dist_inc d) (next bs i))
        else emplace_loop n' vs bs key (dist_inc d) (next bs i)
      else Ok (Vacant d i))
  end.
(** emplace, 1536-1565: the value is put at the back first. *)
Definition emplace (t : table) (key : Z) (v : V) : run (table * Z * bool) :=
  let vs := m_values t ++ [(key, v)] in
  rbind (emplace_loop (fuel (m_buckets t)) vs (m_buckets t) key (daf_of (hash key)) (idx_of (m_shifts t) (hash key))) (fun s =>
  match s with
  | Found i => Ok (mk_table (removelast vs) (m_buckets t) (m_shifts t) (m_cap t), i, false)
  | Vacant d i =>
      rbind (place_last (mk_table vs (m_buckets t) (m_shifts t) (m_cap t)) d i) (fun t' =>
      Ok (t', Z.of_nat (length vs) - 1, true))
  end).

(** do_find, 1117-1155: two steps without a look at the distance, then the loop.
    [None] is end(). *)
Fixpoint find_loop (n : nat) (vs : list (Z * V)) (bs : list bucket) (key d i : Z) : run (option Z) :=
  match n with
  | O => Loops
  | S n' => rbind (at_ bs i) (fun b =>
      if d =? daf b then rbind (key_at vs (vidx b)) (fun k =>
        if key =? k then Ok (Some (vidx b)) else find_loop n' vs bs key (dist_inc d) (next bs i))
      else if daf b <? d then Ok None
      else find_loop n' vs bs key (dist_inc d) (next bs i))
  end.
Definition find_step (vs : list (Z * V)) (bs : list bucket) (key d i : Z) (otherwise : run (option Z)) : run (option Z) :=
  rbind (at_ bs i) (fun b =>
    if d =? daf b then rbind (key_at vs (vidx b)) (fun k => if key =? k then Ok (Some (vidx b)) else otherwise) else otherwise).
Definition find (t : table) (key : Z) : run (option Z) :=
  match m_values t with
  | [] => Ok None
  | _ =>
      let d := daf_of (hash key) in let i := idx_of (m_shifts t) (hash key) in
      let vs := m_values t in let bs := m_buckets t in
      find_step vs bs key d i (
      find_step vs bs key (dist_inc d) (next bs i) (
      find_loop (fuel bs) vs bs key (dist_inc (dist_inc d)) (next bs (next bs i))))
  end.

(** The loop of do_erase_key, 1053-1057. *)
Fixpoint erase_loop (n : nat) (vs : list (Z * V)) (bs : list bucket) (key d i : Z) : run (Z * Z) :=
  match n with
  | O => Loops
  | S n' => rbind (at_ bs i) (fun b =>
      if d =? daf b then rbind (key_at vs (vidx b)) (fun k =>
        if key =? k then Ok (d, i) else erase_loop n' vs bs key (dist_inc d) (next bs i))
      else Ok (d, i))
  end.
(** Shifting down in do_erase, 1017-1023. *)
Fixpoint shift_down (n : nat) (bs : list bucket) (i nx : Z) : run (list bucket) :=
  match n with
  | O => Loops
  | S n' => rbind (at_ bs nx) (fun b =>
      if 2 * dist_step <=? daf b
      then rbind (set_ bs i (Bk (dist_dec (daf b)) (vidx b))) (fun bs' => shift_down n' bs' nx (next bs nx))
      else set_ bs i (Bk 0 0))
  end.
(** The search for the bucket of the value that is moved, 1036-1040. *)
Fixpoint seek (n : nat) (bs : list bucket) (back i : Z) : run Z :=
  match n with
  | O => Loops
  | S n' => rbind (at_ bs i) (fun b => if back =? vidx b then Ok i else seek n' bs back (next bs i))
  end.
(** do_erase, 1012-1043. *)
Definition do_erase (t : table) (i : Z) : run table :=
  rbind (at_ (m_buckets t) i) (fun b =>
  let r := vidx b in
  rbind (shift_down (fuel (m_buckets t)) (m_buckets t) i (next (m_buckets t) i)) (fun bs =>
  let back := Z.of_nat (length (m_values t)) - 1 in
  if (r <? 0) || (back <? r) then Bad OutOfBounds
  else if r =? back then Ok (mk_table (removelast (m_values t)) bs (m_shifts t) (m_cap t))
  else match nth_error (m_values t) (Z.to_nat back) with
       | None => Bad OutOfBounds
       | Some val =>
           let vs := set_nth (m_values t) (Z.to_nat r) val in
           rbind (seek (fuel bs) bs (wrap32 back) (idx_of (m_shifts t) (hash (fst val)))) (fun j =>
           rbind (at_ bs j) (fun bj =>
           rbind (set_ bs j (Bk (daf bj) r)) (fun bs' =>
           Ok (mk_table (removelast vs) bs' (m_shifts t) (m_cap t)))))
       end)).
(** do_erase_key, 1045-1064: the table and 1, or 0. *)
Definition erase (t : table) (key : Z) : run (table * Z) :=
  match m_values t with
  | [] => Ok (t, 0)
  | _ =>
      rbind (next_while_less (m_buckets t) (m_shifts t) key) (fun '(d, i) =>
      rbind (erase_loop (fuel (m_buckets t)) (m_values t) (m_buckets t) key d i) (fun '(d, i) =>
      rbind (at_ (m_buckets t) i) (fun b =>
      if d =? daf b then rbind (do_erase t i) (fun t' => Ok (t', 1)) else Ok (t, 0))))
  end.

(** table(), 1176-1192. *)
Definition empty_table : table := mk_table [] (fresh_buckets initial_shifts) initial_shifts (capacity (calc_num_buckets initial_shifts)).
(** clear, 1368-1371. *)
Definition clear (t : table) : table := mk_table [] (repeat (Bk 0 0) (length (m_buckets t))) (m_shifts t) (m_cap t).
(** operator= from another table, 1263-1274, with copy_buckets, 940-951. *)
Definition copy (other : table) : table :=
  match m_values other with
  | [] => empty_table
  | vs => mk_table vs (m_buckets other) (m_shifts other) (capacity (calc_num_buckets (m_shifts other)))
  end.

(** [map[key] = v] and reading [map[key]]: operator[], 1744-1752. *)
Definition assign (dflt : V) (t : table) (key : Z) (v : V) : run table :=
  rbind (try_emplace t key dflt) (fun '(t', i, _) =>
  if (i <? 0) || (Z.of_nat (length (m_values t')) <=? i) then Bad OutOfBounds
  else Ok (mk_table (set_nth (m_values t') (Z.to_nat i) (key, v)) (m_buckets t') (m_shifts t') (m_cap t'))).
Definition value_at (t : table) (i : Z) : run V :=
  if i <? 0 then Bad OutOfBounds else match nth_error (m_values t) (Z.to_nat i) with Some (_, v) => Ok v | None => Bad OutOfBounds end.
Definition subscript (dflt : V) (t : table) (key : Z) : run (table * V) :=
  rbind (try_emplace t key dflt) (fun '(t', i, _) => rbind (value_at t' i) (fun v => Ok (t', v))).
(** at(key), 1162-1168: std::out_of_range when the key is not there. *)
Definition at_key (t : table) (key : Z) : run V :=
  rbind (find t key) (fun o => match o with Some i => value_at t i | None => Throws end).
(** operator==, 1892-1914; [same] compares values. *)
Fixpoint all_in (same : V -> V -> bool) (a : table) (b : list (Z * V)) : run bool :=
  match b with
  | [] => Ok true
  | (k, v) :: r =>
      rbind (find a k) (fun o =>
      match o with
      | None => Ok false
      | Some i => rbind (value_at a i) (fun w => if same v w then all_in same a r else Ok false)
      end)
  end.
Definition equal_tables (same : V -> V -> bool) (a b : table) : run bool :=
  if Nat.eqb (length (m_values a)) (length (m_values b)) then all_in same a (m_values b) else Ok false.
End Table.
Arguments table V : clear implicits.
