(** The hash table of utils/include/UnorderedDense.h when memory is refused.
    Growth and operator= release the buckets first (deallocate_buckets,
    960-968) and then ask for new ones (allocate_buckets_from_shift, 970-980); if
    these are refused std::bad_alloc leaves the table with m_buckets null.

    Each operation is given two answers of the allocator: [gv] to the vector of
    values (asked at an emplace_back or a copy; a vector with room does not ask)
    and [gb] to the request for buckets. emplace_back and the copy of the vector
    that fail leave it as it was. *)
From Coq Require Import ZArith List Bool.
From Verif Require Import Base HashModel HashSpec HashRun.
Import ListNotations.
Local Open Scope Z_scope.

Section Mem.
Context {V : Type}.
Variable hash : Z -> Z.
Variable dflt : V.

(** [Null]: m_buckets is null and m_max_bucket_capacity 0. *)
Inductive mtab := Live (t : table V) | Null (vs : list (Z * V)) (shifts : Z).

(** do_place_element 1082-1090 and emplace 1555-1564 with the value at the back:
    the table and whether the call went on; increase_size 1000-1010. *)
Definition place_last_m (gb : bool) (t : table V) (d i : Z) : run (mtab * bool) :=
  let value_idx := wrap32 (Z.of_nat (length (m_values t)) - 1) in
  if m_cap t <? Z.of_nat (length (m_values t)) then
    if m_cap t =? max_bucket_count then Throws
    else if gb then rbind (increase_size hash t) (fun t' => Ok (Live t', true))
    else Ok (Null (m_values t) ((m_shifts t - 1) mod 256), false)
  else rbind (place (fuel (m_buckets t)) (m_buckets t) (Bk d value_idx) i) (fun bs =>
       Ok (Live (mk_table (m_values t) bs (m_shifts t) (m_cap t)), true)).

(** do_try_emplace, 1093-1116: the value is put at the back once the place is
    found. [None]: std::bad_alloc. *)
Definition try_emplace_m (gv gb : bool) (t : table V) (key : Z) (v : V) : run (mtab * option (Z * bool)) :=
  rbind (try_loop (fuel (m_buckets t)) (m_values t) (m_buckets t) key (daf_of (hash key)) (idx_of (m_shifts t) (hash key))) (fun s =>
  match s with
  | Found i => Ok (Live t, Some (i, false))
  | Vacant d i =>
      if gv then rbind (place_last_m gb (mk_table (m_values t ++ [(key, v)]) (m_buckets t) (m_shifts t) (m_cap t)) d i) (fun '(s, ok) =>
                 Ok (s, if ok : bool then Some (Z.of_nat (length (m_values t)), true) else None))
      else Ok (Live t, None)
  end).
(** emplace, 1536-1565: the value is put at the back before the search. *)
Definition emplace_m (gv gb : bool) (t : table V) (key : Z) (v : V) : run (mtab * option (Z * bool)) :=
  if gv then
    let vs := m_values t ++ [(key, v)] in
    rbind (emplace_loop (fuel (m_buckets t)) vs (m_buckets t) key (daf_of (hash key)) (idx_of (m_shifts t) (hash key))) (fun s =>
    match s with
    | Found i => Ok (Live (mk_table (removelast vs) (m_buckets t) (m_shifts t) (m_cap t)), Some (i, false))
    | Vacant d i =>
        rbind (place_last_m gb (mk_table vs (m_buckets t) (m_shifts t) (m_cap t)) d i) (fun '(s, ok) =>
        Ok (s, if ok : bool then Some (Z.of_nat (length vs) - 1, true) else None))
    end)
  else Ok (Live t, None).

(** operator= (1263-1274, copy_buckets 940-951) of a table without entries from
    another; an empty vector asks for no memory. memcpy from null is undefined. *)
Definition copy_m (gv gb : bool) (other : mtab) : run (mtab * bool) :=
  let vs := match other with Live t => m_values t | Null vs _ => vs end in
  match vs with
  | [] => if gb then Ok (Live empty_table, true) else Ok (Null [] initial_shifts, false)
  | _ =>
      if negb gv then Ok (Null [] initial_shifts, false)
      else let shifts := match other with Live t => m_shifts t | Null _ s => s end in
           if negb gb then Ok (Null vs shifts, false)
           else match other with
                | Live t => Ok (Live (mk_table vs (m_buckets t) shifts (capacity (calc_num_buckets shifts))), true)
                | Null _ _ => Bad NullDeref
                end
  end.

(** The answer of an operation; [None]: it threw std::bad_alloc. *)
Definition entered (r : run (mtab * option (Z * bool))) (f : table V -> Z -> bool -> run (table V * ans V)) : run (mtab * option (ans V)) :=
  rbind r (fun '(s, o) =>
  match s, o with
  | Live t, Some (i, b) => rbind (f t i b) (fun '(t', a) => Ok (Live t', Some a))
  | _, _ => Ok (s, None)
  end).
Definition live_step (gv gb : bool) (t : table V) (o : op V) : run (mtab * option (ans V)) :=
  match o with
  | OGet k => entered (try_emplace_m gv gb t k dflt) (fun t' i _ => rbind (value_at t' i) (fun v => Ok (t', AVal (Some v))))
  | OSet k v => entered (try_emplace_m gv gb t k dflt) (fun t' i _ =>
      if (i <? 0) || (Z.of_nat (length (m_values t')) <=? i) then Bad OutOfBounds
      else Ok (mk_table (set_nth (m_values t') (Z.to_nat i) (k, v)) (m_buckets t') (m_shifts t') (m_cap t'), ANone))
  | OEmplace k v => entered (emplace_m gv gb t k v) (fun t' i b => rbind (value_at t' i) (fun w => Ok (t', AFlag b (Some w))))
  | OCopy => rbind (copy_m gv gb (Live t)) (fun '(s, ok) => Ok (s, if ok : bool then Some ANone else None))
  | OFind _ | OAt _ | OErase _ | OClear | OSize => rbind (step hash dflt t o) (fun '(t', a) => Ok (Live t', Some a))
  end.
(** find 1120-1122 and erase 1047-1049 look at the buckets only if there are
    values, insertions always; clear leaves null buckets alone (982-986). *)
Definition null_step (gv gb : bool) (vs : list (Z * V)) (shifts : Z) (o : op V) : run (mtab * option (ans V)) :=
  let same a := Ok (Null vs shifts, Some a) in
  match o with
  | OFind _ => match vs with [] => same (AVal None) | _ => Bad NullDeref end
  | OAt _ => match vs with [] => same AThrow | _ => Bad NullDeref end
  | OErase _ => match vs with [] => same (ACount 0) | _ => Bad NullDeref end
  | OGet _ | OSet _ _ => Bad NullDeref
  | OEmplace _ _ => if gv then Bad NullDeref else Ok (Null vs shifts, None)
  | OClear => Ok (Null [] shifts, Some ANone)
  | OCopy => rbind (copy_m gv gb (Null vs shifts)) (fun '(s, ok) => Ok (s, if ok : bool then Some ANone else None))
  | OSize => same (ACount (Z.of_nat (length vs)))
  end.
Definition mem_step (gv gb : bool) (s : mtab) (o : op V) : run (mtab * option (ans V)) :=
  match s with Live t => live_step gv gb t o | Null vs shifts => null_step gv gb vs shifts o end.
Fixpoint mem_steps (s : mtab) (os : list (bool * bool * op V)) : run (mtab * list (option (ans V))) :=
  match os with
  | [] => Ok (s, [])
  | (gv, gb, o) :: r => rbind (mem_step gv gb s o) (fun '(s1, a) => rbind (mem_steps s1 r) (fun '(s2, b) => Ok (s2, a :: b)))
  end.

(** IntIntHashMap_init, IntIntHashMap.cpp 19-247, the first time and from a dict
    whose items are ints: the map is made outside the try block (20); the loop of
    87-96 puts the entries in; catch (241-244) sets RuntimeError. [grants]: the
    allocator's answers to the entries. *)
Inductive init_result :=
| IEscapes                          (* the exception leaves the C function *)
| IRaises (s : mtab)                (* RuntimeError; the map as it is then *)
| IMade (s : mtab).
Fixpoint put_all (s : mtab) (es : list (Z * V)) (grants : nat -> bool * bool) (n : nat) : run init_result :=
  match es with
  | [] => Ok (IMade s)
  | (k, v) :: r =>
      rbind (mem_step (fst (grants n)) (snd (grants n)) s (OEmplace k v)) (fun '(s', a) =>
      match a with None => Ok (IRaises s') | Some _ => put_all s' r grants (S n) end)
  end.
Definition init_dict (g0 : bool) (es : list (Z * V)) (grants : nat -> bool * bool) : run init_result :=
  if g0 then put_all (Live empty_table) es grants 0 else Ok IEscapes.
End Mem.
Arguments init_result V : clear implicits.
Arguments mtab V : clear implicits.
