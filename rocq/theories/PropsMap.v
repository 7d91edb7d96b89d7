(** C71: construction and copy of the int to int map. *)
From Coq Require Import ZArith List Bool Lia Permutation.
From Verif Require Import Base PyLongProofs HashModel HashSpec HashRun MapModel MapSpec MapProofs.
Import ListNotations.
Local Open Scope Z_scope.

(** The first construction in a process, from a dict of plain ints. *)
Theorem C71_from_dict : forall cfg kvs,
  Forall (fun kv => plain (m_py312 cfg) (fst kv) /\ plain (m_py312 cfg) (snd kv)) kvs -> NoDup (map fst kvs) ->
  Z.of_nat (length kvs) <= 2 ^ 24 - 2 ->
  exists t, init cfg false (one (ADict (map (fun '(k, v) => (PInt k, PInt v)) kvs))) = (Ok (Ret t), true) /\ Permutation (m_values t) kvs.
Proof. exact from_dict. Qed.
Print Assumptions C71_from_dict.

(** From any dict: the last failing conversion is raised; otherwise each key is
    stored as the int it is turned into, the first one if several are turned
    into the same. The second argument makes no difference. *)
Theorem C71_from_dict_exact : forall cfg items again, Z.of_nat (length items) <= 2 ^ 24 - 2 ->
  exists t, init cfg false {| positional := [ADict items]; kw_map := None; kw_iterable := again; kw_other := false |} =
    (Ok (match last_error (flat_map (errors cfg) items) with Some e => Raise e | None => Ret t end), true) /\
    Permutation (m_values t) (keep_all (map (ints cfg) items) []).
Proof. exact from_dict_exact. Qed.
Print Assumptions C71_from_dict_exact.

(** From another map: the same bindings, in the same order. *)
Theorem C71_from_map : forall cfg os t a again, stays_below (2 ^ 24 - 2) 0 [] os -> steps hash_int 0 empty_table os = Ok (t, a) ->
  exists t', init cfg false {| positional := [AMap t]; kw_map := None; kw_iterable := again; kw_other := false |} = (Ok (Ret t'), true) /\
    m_values t' = m_values t.
Proof. exact from_map. Qed.
Print Assumptions C71_from_map.

(** From an iterator of pairs of plain ints: pairs that are lists replace an
    earlier binding, all others do not. An error of the iterator is left set
    while the new object is returned. *)
Theorem C71_from_iterator : forall cfg es rs tail, goods (m_py312 cfg) es rs -> Z.of_nat (length es) <= 2 ^ 24 - 2 ->
  exists t, init cfg false (one (AIter es tail)) = (Ok (match tail with Some e => RetPending t e | None => Ret t end), true) /\
    Permutation (m_values t) (fold_left enter rs []).
Proof. exact from_iter. Qed.
Print Assumptions C71_from_iterator.

(** That is dict(pairs) if no key occurs twice, and may differ if one does. *)
Theorem C71_from_iterator_distinct : forall cfg es rs, goods (m_py312 cfg) es rs -> NoDup (map fst (map snd rs)) ->
  Z.of_nat (length es) <= 2 ^ 24 - 2 ->
  exists t, init cfg false (one (AIter es None)) = (Ok (Ret t), true) /\ Permutation (m_values t) (py_dict (map snd rs)).
Proof. exact from_iter_distinct. Qed.
Print Assumptions C71_from_iterator_distinct.

Theorem C71_last_pair_wins_refuted : forall cfg k v w, plain (m_py312 cfg) k -> plain (m_py312 cfg) v -> plain (m_py312 cfg) w -> v <> w ->
  exists t, init cfg false (one (AIter [ETuple [PInt k; PInt v]; ETuple [PInt k; PInt w]] None)) = (Ok (Ret t), true) /\
    m_values t = [(k, v)] /\ py_dict [(k, v); (k, w)] = [(k, w)].
Proof. exact from_iter_first. Qed.
Print Assumptions C71_last_pair_wins_refuted.

(** The first entry that is not a pair or does not convert ends it; an entry
    that is not iterable is undefined behaviour. *)
Theorem C71_from_iterator_stops : forall cfg es rs e rest tail x, goods (m_py312 cfg) es rs -> Z.of_nat (length es) < 2 ^ 24 - 2 ->
  stop_of cfg e = Some x -> init cfg false (one (AIter (es ++ e :: rest) tail)) = (Ok x, true).
Proof. exact from_iter_stop. Qed.
Print Assumptions C71_from_iterator_stops.

(** From an object that is both a list (or tuple) and an iterator: the same
    without pairs that are lists; such a pair is read outside its fields. *)
Theorem C71_from_sequence : forall cfg es rs, goods (m_py312 cfg) es rs -> no_lists es -> Z.of_nat (length es) <= 2 ^ 24 - 2 ->
  exists t, init cfg false (one (ASeqIter es)) = (Ok (Ret t), true) /\ Permutation (m_values t) (fold_left enter rs []).
Proof. exact from_seq. Qed.
Print Assumptions C71_from_sequence.
Theorem C71_from_sequence_stops : forall cfg es rs e rest x, goods (m_py312 cfg) es rs -> no_lists es -> Z.of_nat (length es) < 2 ^ 24 - 2 ->
  (if match e with EList [_; _] => true | _ => false end then x = Undef OutOfBounds else stop_of cfg e = Some x) ->
  init cfg false (one (ASeqIter (es ++ e :: rest))) = (Ok x, true).
Proof. exact from_seq_stop. Qed.
Print Assumptions C71_from_sequence_stops.

(** From any other mapping, as the first argument or beside an iterator, it is
    undefined unless an item cannot be read. *)
Theorem C71_from_mapping_refuted : forall cfg a b m again,
  parse {| positional := [a]; kw_map := None; kw_iterable := again; kw_other := false |} = Some (Some a, again) ->
  (a = AMapping (inl m) \/ ((exists es tail, a = AIter es tail) \/ (exists es, a = ASeqIter es)) /\ again = Some b /\ keys_of b = inl m) ->
  Z.of_nat (length m) <= 2 ^ 24 - 2 -> answers m ->
  init cfg false {| positional := [a]; kw_map := None; kw_iterable := again; kw_other := false |} =
    (Ok (match first_error m with Some e => Raise e | None => Undef NullDeref end), true).
Proof. exact from_mapping_exact. Qed.
Print Assumptions C71_from_mapping_refuted.

(** __iterable given alone is ignored. *)
Theorem C71_iterable_ignored : forall cfg a,
  init cfg false {| positional := []; kw_map := None; kw_iterable := a; kw_other := false |} = (Ok (Ret empty_table), true).
Proof. exact iterable_alone. Qed.
Print Assumptions C71_iterable_ignored.

(** Refused arguments raise TypeError, in every construction. *)
Theorem C71_refused : forall cfg b c, ~ accepted c -> init cfg b c = (Ok (Raise TypeError), b).
Proof. exact refused. Qed.
Print Assumptions C71_refused.

(** Every construction with accepted arguments after the first such one reads a
    variable of the first one's frame; so does every copy. *)
Theorem C71_first_captures : forall cfg b c, accepted c -> snd (init cfg b c) = true.
Proof. exact accepted_captures. Qed.
Print Assumptions C71_first_captures.
Theorem C71_second_refuted : forall cfg c, accepted c -> init cfg true c = (Ok (Undef Dangling), true).
Proof. exact second. Qed.
Print Assumptions C71_second_refuted.
Theorem C71_copy_refuted : forall cfg b c t, fst (init cfg b c) = Ok (Ret t) ->
  copy_method cfg (snd (init cfg b c)) t = (Ok (Undef Dangling), true).
Proof. exact copy_undefined. Qed.
Print Assumptions C71_copy_refuted.

(** ** Cases *)
Definition ex_m312 : mapcfg := {| m_py312 := true; key_first := false |}.
Definition ex_mold : mapcfg := {| m_py312 := false; key_first := true |}.
Definition held (r : run (outcome (table Z)) * bool) : run (outcome (list (Z * Z))) :=
  rbind (fst r) (fun o => Ok (omap (fun t => m_values t) o)).
Definition ex_pairs : list entry :=
  [ETuple [PInt 7; PInt 70]; EList [PInt 8; PInt 80]; EIter [PInt (-9); PInt 90; PInt 4]; ETuple [PInt 7; PInt 71]; EList [PInt 8; PInt 81]].
Example C71_goods_ex : goods true ex_pairs [(false, (7, 70)); (true, (8, 80)); (false, (-9, 90)); (false, (7, 71)); (true, (8, 81))] /\
  goods false ex_pairs [(false, (7, 70)); (true, (8, 80)); (false, (-9, 90)); (false, (7, 71)); (true, (8, 81))].
Proof. split; repeat constructor; vm_compute; discriminate. Qed.
Example C71_iter_ex :
  held (init ex_m312 false (one (AIter ex_pairs None))) = Ok (Ret [(7, 70); (8, 81); (-9, 90)]) /\
  held (init ex_m312 false (one (AIter ex_pairs (Some (UserError 3))))) = Ok (RetPending [(7, 70); (8, 81); (-9, 90)] (UserError 3)) /\
  held (init ex_m312 false (one (AIter [ETuple [PInt 1]] None))) = Ok (Raise ValueError) /\
  held (init ex_m312 false (one (AIter [ETuple [PInt 1; PInt 2]; ENone] None))) = Ok (Undef NullDeref) /\
  (* outside the int range: a tuple raises, a list is cut *)
  held (init ex_m312 false (one (AIter [ETuple [PInt (2 ^ 32 + 5); PInt 2]] None))) = Ok (Raise OverflowError) /\
  held (init ex_m312 false (one (AIter [EList [PInt (2 ^ 32 + 5); PInt 2]] None))) = Ok (Ret [(5, 2)]) /\
  (* a list that is its own iterator *)
  held (init ex_m312 false (one (ASeqIter [ETuple [PInt 1; PInt 2]]))) = Ok (Ret [(1, 2)]) /\
  held (init ex_m312 false (one (ASeqIter [EList [PInt 1; PInt 2]]))) = Ok (Undef OutOfBounds).
Proof. vm_compute. auto 10. Qed.
Example C71_dict_ex :
  held (init ex_m312 false (one (ADict [(PInt 1, PInt 10); (PInt 2, PInt 20)]))) = Ok (Ret [(1, 10); (2, 20)]) /\
  (* both of these objects fail; the last conversion is the one reported *)
  held (init ex_m312 false (one (ADict [(PObj 1, PInt (2 ^ 40)); (PInt 2, PInt 20)]))) = Ok (Raise TypeError) /\
  held (init {| m_py312 := true; key_first := true |} false (one (ADict [(PObj 1, PInt (2 ^ 40))]))) = Ok (Raise OverflowError) /\
  held (init ex_mold false (one (ADict [(PInt (2 ^ 30 + 1), PInt 10); (PInt 1, PInt 20)]))) = Ok (Ret [(1, 10)]).
Proof. vm_compute. auto 10. Qed.
Example C71_mapping_ex :
  held (init ex_m312 false (one (AMapping (inl [(PInt 1, Ret (PInt 2))])))) = Ok (Undef NullDeref) /\
  held (init ex_m312 false (one (AMapping (inl [(PInt 1, Ret (PInt 2)); (PInt 3, Raise (UserError 5))])))) = Ok (Raise (UserError 5)) /\
  held (init ex_m312 false {| positional := [AIter [] None]; kw_map := None; kw_iterable := Some (ADict [(PInt 1, PInt 2)]); kw_other := false |}) = Ok (Undef NullDeref) /\
  held (init ex_m312 false (one (AMapping (inr (UserError 6))))) = Ok (Raise (UserError 6)) /\
  answers [(PInt 1, Ret (PInt 2)); (PInt 3, Raise (UserError 5))].
Proof. split; [reflexivity|]. split; [reflexivity|]. split; [reflexivity|]. split; [reflexivity|]. repeat constructor. Qed.
Example C71_second_ex :
  accepted no_args /\ accepted (one (ADict [])) /\ ~ accepted (one AOther) /\
  ~ accepted {| positional := [ADict []; ADict []]; kw_map := None; kw_iterable := None; kw_other := false |} /\
  ~ accepted {| positional := [ADict []]; kw_map := Some (ADict []); kw_iterable := None; kw_other := false |} /\
  init ex_m312 (snd (init ex_m312 false no_args)) no_args = (Ok (Undef Dangling), true).
Proof.
  split; [split; [reflexivity|left; split; [reflexivity|discriminate]]|].
  split; [split; [reflexivity|right; exists (ADict []); split; [reflexivity|split; [reflexivity|discriminate]]]|].
  split; [intros (_ & [(E & _)|(a & E & _ & N)]); [discriminate|injection E as <-; congruence]|].
  split; [intros (_ & [(E & _)|(a & E & _)]); discriminate|].
  split; [intros (_ & [(E & _)|(a & _ & E & _)]); discriminate|reflexivity].
Qed.
Example C71_sequence_ex :
  goods true [ETuple [PInt 1; PInt 2]; EIter [PInt 3; PInt 4; PInt 5]] [(false, (1, 2)); (false, (3, 4))] /\
  no_lists [ETuple [PInt 1; PInt 2]; EIter [PInt 3; PInt 4; PInt 5]] /\
  held (init ex_m312 false (one (ASeqIter [ETuple [PInt 1; PInt 2]; EList [PInt 3; PInt 4]]))) = Ok (Undef OutOfBounds).
Proof.
  assert (P : plain true 1 /\ plain true 2 /\ plain true 3 /\ plain true 4) by (unfold plain, in_sbits; lia). destruct P as (P1 & P2 & P3 & P4).
  split; [constructor; [constructor; assumption|constructor; [constructor; assumption|constructor]]|]. split; [intros k v [E|[E|[]]]; discriminate|reflexivity].
Qed.
