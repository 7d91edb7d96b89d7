(** C64: the hash table of utils/include/UnorderedDense.h is a finite map. *)
From Coq Require Import ZArith List Bool Lia Permutation.
From Verif Require Import Base HashModel HashSpec HashRun HashProofs.
Import ListNotations.
Local Open Scope Z_scope.

(** Every history of lookups, insertions, removals, clears and copies, with any
    64-bit hash function, ends without undefined behaviour or endless loop and
    gives the answers of a finite map; the values stored at the end are its
    bindings, each once. At most 2^24 - 2 entries at any time. *)
Theorem C64_finite_map : forall (V : Type) (hash : Z -> Z) (dflt : V) (os : list (op V)),
  (forall k, 0 <= hash k < 2 ^ 64) -> stays_below (2 ^ 24 - 2) dflt [] os ->
  exists t, steps hash dflt empty_table os = Ok (t, snd (spec_run dflt [] os)) /\
    Permutation (m_values t) (fst (spec_run dflt [] os)) /\ NoDup (map fst (m_values t)).
Proof. exact finite_map_thm. Qed.

(** Two tables made by two histories compare equal exactly when they hold the
    same bindings, whatever the order of insertion. *)
Theorem C64_equality : forall (V : Type) (hash : Z -> Z) (dflt : V) (same : V -> V -> bool) (os1 os2 : list (op V)) t1 a1 t2 a2,
  (forall k, 0 <= hash k < 2 ^ 64) -> (forall v w, same v w = true <-> v = w) ->
  stays_below (2 ^ 24 - 2) dflt [] os1 -> stays_below (2 ^ 24 - 2) dflt [] os2 ->
  steps hash dflt empty_table os1 = Ok (t1, a1) -> steps hash dflt empty_table os2 = Ok (t2, a2) ->
  exists b, equal_tables hash same t1 t2 = Ok b /\
    (b = true <-> same_map (fst (spec_run dflt [] os1)) (fst (spec_run dflt [] os2))).
Proof. exact equality_thm. Qed.

(** The hash function the extension uses is a 64-bit value, and the two ways to
    compute the 128-bit product agree. *)
Theorem C64_hash : forall k, 0 <= hash_int k < 2 ^ 64.
Proof. exact hash_thm. Qed.
Theorem C64_product : forall a b, 0 <= a < 2 ^ 64 -> 0 <= b < 2 ^ 64 ->
  mum_portable a b = mum a b /\ fst (mum a b) + snd (mum a b) * 2 ^ 64 = a * b.
Proof. exact product_thm. Qed.

(** The bound is where the 24 bits kept for the distance end: one step more and
    the distance is 0, the mark of a bucket that holds nothing. *)
Theorem C64_distance_bits : forall d f, 0 <= f < 256 -> 0 <= d -> 
  (dist_inc (256 * d + f) = 256 * (d + 1) + f <-> d <= 2 ^ 24 - 2) /\ dist_inc (256 * (2 ^ 24 - 1) + 0) = 0.
Proof. exact distance_bits_thm. Qed.

(** A history with growth, collisions of all keys, removal from the middle of a
    run of buckets, an overwritten and a refused insertion, a throwing lookup. *)
Definition C64_history : list (op Z) :=
  [OSet 1 10; OSet 2 20; OSet 3 30; OSet 4 40; OSet 5 50; OErase 2; OFind 2; OFind 5; OSet 3 31; OEmplace 3 99; OEmplace 6 60;
   OGet 7; OAt 8; OCopy; OErase 1; OSize; OFind 3].
Example C64_ex_bound : stays_below (2 ^ 24 - 2) 0 [] C64_history.
Proof. vm_compute. repeat split; discriminate. Qed.
Example C64_ex : let answers := [ANone; ANone; ANone; ANone; ANone; ACount 1; AVal None; AVal (Some 50); ANone; AFlag false (Some 31); AFlag true (Some 60);
    AVal (Some 0); AThrow; ANone; ACount 1; ACount 5; AVal (Some 31)] in
  match steps (fun _ => 77) 0 empty_table C64_history with Ok (t, a) => (a, m_values t, List.length (m_buckets t)) | _ => ([], [], 0%nat) end
    = (answers, [(7, 0); (5, 50); (3, 31); (4, 40); (6, 60)], 8%nat) /\
  match steps hash_int 0 empty_table C64_history with Ok (t, a) => a | _ => [] end = answers.
Proof. vm_compute. split; reflexivity. Qed.
Example C64_ex_equal :
  match steps hash_int 0 empty_table [OSet 1 10; OSet 2 20; OSet 3 30; OErase 1], steps hash_int 0 empty_table [OSet 3 30; OSet 2 20] with
  | Ok (t1, _), Ok (t2, _) => (equal_tables hash_int Z.eqb t1 t2, m_values t1, m_values t2)
  | _, _ => (Throws, [], [])
  end = (Ok true, [(3, 30); (2, 20)], [(3, 30); (2, 20)]).
Proof. vm_compute. reflexivity. Qed.

Print Assumptions C64_finite_map.
Print Assumptions C64_equality.
Print Assumptions C64_hash.
Print Assumptions C64_product.
Print Assumptions C64_distance_bits.
