(** C89: the hash table of utils/include/UnorderedDense.h when memory is refused. *)
From Coq Require Import ZArith List Bool Lia Permutation.
From Verif Require Import Base HashModel HashSpec HashRun HashProofs HashMemModel HashMemSpec HashMemProofs.
Import ListNotations.
Local Open Scope Z_scope.

(** Every history, with any answers of the allocator and any 64-bit hash
    function: the table answers and holds what the specification says, and a
    null pointer is followed exactly where the specification has no answer. *)
Theorem C89_history : forall (V : Type) (hash : Z -> Z) (dflt : V) os,
  (forall k, 0 <= hash k < 2 ^ 64) -> stays_small (2 ^ 24 - 2) dflt (Working [] 2) os ->
  match spec_mems dflt (Working [] 2) os with
  | None => mem_steps hash dflt (Live empty_table) os = Bad NullDeref
  | Some (st, a) => exists s, mem_steps hash dflt (Live empty_table) os = Ok (s, a) /\ holds s st
  end.
Proof. exact history_thm. Qed.
Print Assumptions C89_history.
(** If nothing is refused it is a finite map. *)
Theorem C89_granted : forall (V : Type) (hash : Z -> Z) (dflt : V) os,
  (forall k, 0 <= hash k < 2 ^ 64) -> stays_below (2 ^ 24 - 2) dflt [] os ->
  exists t, mem_steps hash dflt (Live empty_table) (map (fun o => (true, true, o)) os) = Ok (Live t, map Some (snd (spec_run dflt [] os))) /\
    Permutation (m_values t) (fst (spec_run dflt [] os)).
Proof. exact granted_thm. Qed.
Print Assumptions C89_granted.
(** A place in the vector of values refused: the table stays as it is. emplace
    needs that place even for a key that is there. *)
Theorem C89_refused_value : forall (V : Type) (hash : Z -> Z) (dflt : V) os l k a x v gb,
  (forall k, 0 <= hash k < 2 ^ 64) -> stays_small (2 ^ 24 - 2) dflt (Working [] 2) os -> spec_mems dflt (Working [] 2) os = Some (Working l k, a) ->
  exists t, mem_steps hash dflt (Live empty_table) os = Ok (Live t, a) /\
    mem_step hash dflt false gb (Live t) (OEmplace x v) = Ok (Live t, None) /\
    mem_step hash dflt false gb (Live t) (OGet x) = Ok (Live t, option_map (fun w => AVal (Some w)) (lookup l x)) /\
    (lookup l x = None -> mem_step hash dflt false gb (Live t) (OSet x v) = Ok (Live t, None)).
Proof. exact refused_value_thm. Qed.
Print Assumptions C89_refused_value.
(** Buckets refused at a growth: the exception leaves a table that counts the new
    entry and whose every lookup, removal, insertion or copy follows a null
    pointer. *)
Theorem C89_refused_buckets_refuted : forall (V : Type) (hash : Z -> Z) (dflt : V) os l k a x v,
  (forall k, 0 <= hash k < 2 ^ 64) -> stays_small (2 ^ 24 - 2) dflt (Working [] 2) os -> spec_mems dflt (Working [] 2) os = Some (Working l k, a) ->
  lookup l x = None -> count l = room k ->
  exists vs sh, mem_steps hash dflt (Live empty_table) (os ++ [(true, false, OEmplace x v)]) = Ok (Null vs sh, a ++ [None]) /\ Permutation vs ((x, v) :: l) /\
    forall gv gb y w, mem_step hash dflt gv gb (Null vs sh) (OFind y) = Bad NullDeref /\ mem_step hash dflt gv gb (Null vs sh) (OAt y) = Bad NullDeref /\
      mem_step hash dflt gv gb (Null vs sh) (OErase y) = Bad NullDeref /\ mem_step hash dflt gv gb (Null vs sh) (OGet y) = Bad NullDeref /\
      mem_step hash dflt gv gb (Null vs sh) (OSet y w) = Bad NullDeref /\ mem_step hash dflt true gb (Null vs sh) (OEmplace y w) = Bad NullDeref /\
      mem_step hash dflt true true (Null vs sh) OCopy = Bad NullDeref /\
      mem_step hash dflt gv gb (Null vs sh) OSize = Ok (Null vs sh, Some (ACount (count l + 1))).
Proof. exact refused_growth_thm. Qed.
Print Assumptions C89_refused_buckets_refuted.
(** clear brings no buckets back: lookups answer again, insertions do not; a
    copy of the cleared table has buckets. *)
Theorem C89_cleared_refuted : forall (V : Type) (hash : Z -> Z) (dflt : V) vs sh gv gb x v,
  mem_steps hash dflt (Null vs sh) [(gv, gb, OClear); (gv, gb, OFind x); (gv, gb, OErase x); (gv, gb, OSize)] = Ok (Null [] sh, [Some ANone; Some (AVal None); Some (ACount 0); Some (ACount 0)]) /\
  mem_steps hash dflt (Null vs sh) [(gv, gb, OClear); (true, true, OEmplace x v)] = Bad NullDeref /\
  mem_steps hash dflt (Null vs sh) [(gv, gb, OClear); (true, true, OSet x v)] = Bad NullDeref /\
  mem_steps hash dflt (Null vs sh) [(gv, gb, OClear); (gv, true, OCopy)] = Ok (Live empty_table, [Some ANone; Some ANone]).
Proof. intros. split; [reflexivity|]. split; [reflexivity|]. split; reflexivity. Qed.
Print Assumptions C89_cleared_refuted.
(** IntIntHashMap(dict): no null pointer is followed. Either all entries are in,
    or RuntimeError at the first entry that cannot be put in; the entries before
    it are in the map, and with refused buckets - asked for behind 3, 6, 12, 25,
    ... entries - the entry itself too, without buckets. *)
Theorem C89_init : forall (V : Type) (hash : Z -> Z) (dflt : V) grants es,
  (forall k, 0 <= hash k < 2 ^ 64) -> NoDup (map fst es) -> count es <= 2 ^ 24 - 2 ->
  exists r, init_dict hash dflt true es grants = Ok r /\ init_ok es grants r.
Proof. exact init_thm. Qed.
Print Assumptions C89_init.
(** If the first four buckets are refused the exception leaves tp_init: the map
    is made outside the try block. *)
Theorem C89_init_escapes_refuted : forall (V : Type) (hash : Z -> Z) (dflt : V) grants es, init_dict hash dflt false es grants = Ok IEscapes.
Proof. reflexivity. Qed.
Print Assumptions C89_init_escapes_refuted.

(** Three entries fill four buckets; the fourth grows. *)
Definition C89_three : list (bool * bool * op Z) := [(true, false, OSet 1 10); (true, false, OSet 2 20); (false, false, OSet 9 90); (true, false, OEmplace 3 30); (false, true, OEmplace 3 31); (false, false, OGet 2)].
Example C89_three_ex : spec_mems 0 (Working [] 2) C89_three = Some (Working [(3, 30); (2, 20); (1, 10)] 2, [Some ANone; Some ANone; None; Some (AFlag true (Some 30)); None; Some (AVal (Some 20))]) /\
  stays_small (2 ^ 24 - 2) 0 (Working [] 2) C89_three /\ count [(3, 30); (2, 20); (1, 10)] = room 2.
Proof. vm_compute. split; [reflexivity|]. split; [|reflexivity]. repeat split; discriminate. Qed.
Example C89_growth_ex :
  match mem_steps hash_int 0 (Live empty_table) (C89_three ++ [(true, false, OEmplace 4 40); (true, true, OSize)]) with
  | Ok (Null vs sh, a) => Some (vs, sh, skipn 6 a) | _ => None end = Some ([(1, 10); (2, 20); (3, 30); (4, 40)], 61, [None; Some (ACount 4)]) /\
  mem_steps hash_int 0 (Live empty_table) (C89_three ++ [(true, false, OSet 4 40); (true, true, OFind 1)]) = Bad NullDeref /\
  match mem_steps hash_int 0 (Live empty_table) (C89_three ++ [(true, true, OSet 4 40); (false, false, OFind 1)]) with
  | Ok (Live t, a) => Some (length (m_buckets t), skipn 6 a) | _ => None end = Some (8%nat, [Some ANone; Some (AVal (Some 10))]).
Proof. vm_compute. split; [reflexivity|]. split; reflexivity. Qed.
(** A copy whose buckets are refused, of a table with entries. *)
Example C89_copy_ex :
  match mem_steps hash_int 0 (Live empty_table) (C89_three ++ [(true, false, OCopy); (true, true, OSize)]) with
  | Ok (Null vs _, a) => Some (vs, skipn 6 a) | _ => None end = Some ([(1, 10); (2, 20); (3, 30)], [None; Some (ACount 3)]) /\
  match mem_steps hash_int 0 (Live empty_table) (C89_three ++ [(false, true, OCopy); (true, true, OSize)]) with
  | Ok (Null vs _, a) => Some (vs, skipn 6 a) | _ => None end = Some ([], [None; Some (ACount 0)]).
Proof. vm_compute. split; reflexivity. Qed.
Example C89_grows_ex : grows 3 /\ grows 6 /\ grows 12 /\ grows 25.
Proof. split; [exists 2|split; [exists 3|split; [exists 4|exists 5]]]; (split; [discriminate|reflexivity]). Qed.
Example C89_init_ex :
  match init_dict hash_int 0 true [(1, 10); (2, 20); (3, 30); (4, 40); (5, 50)] (fun n => (true, negb (Nat.eqb n 3))) with
  | Ok (IRaises (Null vs _)) => vs | _ => [] end = [(1, 10); (2, 20); (3, 30); (4, 40)] /\
  match init_dict hash_int 0 true [(1, 10); (2, 20); (3, 30); (4, 40); (5, 50)] (fun n => (negb (Nat.eqb n 3), true)) with
  | Ok (IRaises (Live t)) => m_values t | _ => [] end = [(1, 10); (2, 20); (3, 30)] /\
  match init_dict hash_int 0 true [(1, 10); (2, 20); (3, 30); (4, 40); (5, 50)] (fun _ => (true, true)) with
  | Ok (IMade (Live t)) => m_values t | _ => [] end = [(1, 10); (2, 20); (3, 30); (4, 40); (5, 50)].
Proof. vm_compute. split; [reflexivity|]. split; reflexivity. Qed.
