(** Proofs for C71. *)
From Coq Require Import ZArith List Bool Lia Permutation.
From Verif Require Import Base PyLongModel PyLongProofs HashModel HashSpec HashRun HashProofs MapModel MapSpec.
Import ListNotations.
Local Open Scope Z_scope.
Local Arguments Z.pow : simpl never.
Local Arguments Z.add : simpl never.
Local Arguments Z.sub : simpl never.
Local Arguments Z.mul : simpl never.
Local Arguments wrap : simpl never.

Notation HR := (@R Z hash_int).
Definition small (n : nat) : Prop := Z.of_nat n <= 2 ^ 24 - 2.

Lemma convert_eq cfg o : convert cfg o = (int_of (m_py312 cfg) o, error_of (m_py312 cfg) o).
Proof.
  destruct o as [z|i]; [|reflexivity]. cbn [convert int_of error_of]. destruct (m_py312 cfg).
  - rewrite as_int_312. destruct (in_sbits_b 32 z); reflexivity.
  - rewrite as_int_old. reflexivity.
Qed.

Lemma filter_short {A} (f : A -> bool) l : (length (filter f l) <= length l)%nat.
Proof. induction l as [|x l IH]; cbn; [lia|]. destruct (f x); cbn; lia. Qed.
Lemma keep_len l k v : (length (keep l k v) <= S (length l))%nat.
Proof.
  unfold keep. destruct (lookup l k); [lia|]. unfold bind. cbn [length]. unfold without.
  assert (K := filter_short (fun e : Z * Z => negb (fst e =? k)) l). lia.
Qed.
Lemma bind_len (l : list (Z * Z)) k v : (length (bind l k v) <= S (length l))%nat.
Proof.
  unfold bind. cbn [length]. unfold without.
  assert (K := filter_short (fun e : Z * Z => negb (fst e =? k)) l). lia.
Qed.

Lemma emplace_keep t l k v : HR t l -> small (S (length l)) ->
  exists t' i b, emplace hash_int t k v = Ok (t', i, b) /\ HR t' (keep l k v).
Proof.
  intros H S. pose proof (keep_len l k v) as KL.
  assert (E : fst (spec_step 0 l (OEmplace k v)) = keep l k v) by (unfold keep; cbn [spec_step]; destruct (lookup l k); reflexivity).
  destruct (step_ok hash_int hash_thm 0 t l (OEmplace k v) H) as (t' & Es & R').
  - unfold small in S. unfold len, HashInvProofs.limit. lia.
  - rewrite E. unfold small in S. unfold len, HashInvProofs.limit. lia.
  - rewrite E in R'. cbn [step] in Es. destruct (emplace hash_int t k v) as [[[t1 i] b]| | |]; try discriminate. cbn [rbind] in Es.
    destruct (value_at t1 i); try discriminate. cbn [rbind] in Es. injection Es as -> _. eauto 6.
Qed.
Lemma assign_bind t l k v : HR t l -> small (S (length l)) ->
  exists t', assign hash_int 0 t k v = Ok t' /\ HR t' (bind l k v).
Proof.
  intros H S. pose proof (bind_len l k v) as KL.
  destruct (step_ok hash_int hash_thm 0 t l (OSet k v) H) as (t' & Es & R').
  - unfold small in S. unfold len, HashInvProofs.limit. lia.
  - cbn [spec_step fst]. unfold small in S. unfold len, HashInvProofs.limit. lia.
  - cbn [step] in Es. destruct (assign hash_int 0 t k v); try discriminate. cbn [rbind] in Es. injection Es as ->. eauto.
Qed.

Lemma put_ok cfg t p l k v : HR t l -> small (S (length l)) ->
  exists t', put cfg (t, p) k v = Ok (t', fold_left later (errors cfg (k, v)) p) /\
    HR t' (keep l (int_of (m_py312 cfg) k) (int_of (m_py312 cfg) v)).
Proof.
  intros H S. destruct (emplace_keep t l (int_of (m_py312 cfg) k) (int_of (m_py312 cfg) v) H S) as (t' & i & b & E & R').
  exists t'. split; [|exact R']. unfold put, errors. rewrite !convert_eq. cbn [fst snd]. rewrite E. cbn [rbind].
  destruct (key_first cfg); reflexivity.
Qed.

Lemma dict_ok cfg : forall items t l p, HR t l -> small (length l + length items) ->
  exists t', dict_loop cfg items (t, p) = Ok (t', fold_left later (flat_map (errors cfg) items) p) /\
    HR t' (keep_all (map (ints cfg) items) l).
Proof.
  induction items as [|[k v] r IH]; intros t l p H S; cbn [dict_loop flat_map map length] in *; [eauto|].
  destruct (put_ok cfg t p l k v H) as (t1 & E & R1); [unfold small in *; lia|]. rewrite E. cbn [rbind].
  destruct (IH t1 _ (fold_left later (errors cfg (k, v)) p) R1) as (t2 & E2 & R2).
  { pose proof (keep_len l (int_of (m_py312 cfg) k) (int_of (m_py312 cfg) v)). unfold small in *. lia. }
  exists t2. split; [rewrite E2, fold_left_app; reflexivity|exact R2].
Qed.

(** ** The theorems on dicts *)
Lemma HR_values t l : HR t l -> Permutation (m_values t) l.
Proof. apply R_perm. Qed.

Lemma last_later : forall es p, fold_left later es p = match last_error es with Some x => Some x | None => p end.
Proof.
  induction es as [|e r IH]; intros p; cbn [fold_left last_error]; [reflexivity|]. rewrite IH. destruct (last_error r); [reflexivity|]. destruct e; reflexivity.
Qed.
Lemma from_dict_exact cfg items again : Z.of_nat (length items) <= 2 ^ 24 - 2 ->
  exists t, init cfg false {| positional := [ADict items]; kw_map := None; kw_iterable := again; kw_other := false |} =
    (Ok (match last_error (flat_map (errors cfg) items) with Some e => Raise e | None => Ret t end), true) /\
    Permutation (m_values t) (keep_all (map (ints cfg) items) []).
Proof.
  intros S. destruct (dict_ok cfg items empty_table [] None (R_empty hash_int)) as (t & E & R'); [exact S|].
  exists t. split; [|apply HR_values, R']. unfold init, parse, fill. cbn [positional kw_other kw_map kw_iterable]. rewrite E. cbn [rbind].
  unfold checked. cbn [fst snd]. rewrite last_later. destruct (last_error _); reflexivity.
Qed.

Lemma plain_int py z : plain py z -> int_of py (PInt z) = z /\ error_of py (PInt z) = None.
Proof.
  unfold plain. destruct py; cbn [int_of error_of andb].
  - intros H. rewrite (proj2 (in_sbits_b_spec 32 z) H). auto.
  - intros H. split; [|reflexivity]. rewrite Z.mod_small by lia. rewrite Z.mul_comm. apply Z.abs_sgn.
Qed.
Lemma keep_all_nodup : forall kvs l, NoDup (map fst l ++ map fst kvs) -> Permutation (keep_all kvs l) (l ++ kvs).
Proof.
  induction kvs as [|[k v] r IH]; intros l N; cbn [keep_all fold_left map fst] in *; [rewrite app_nil_r; reflexivity|].
  assert (K : ~ In k (map fst l)). { intros K. apply NoDup_remove_2 in N. apply N, in_or_app. auto. }
  assert (L : lookup l k = None). { apply lookup_none. intros w Hw. apply K. apply (in_map fst) in Hw. exact Hw. }
  unfold keep at 2. rewrite L. unfold bind. rewrite (without_none l k L). change (fold_left _ r ((k, v) :: l)) with (keep_all r ((k, v) :: l)).
  rewrite IH.
  - cbn [app]. rewrite <- Permutation_middle. reflexivity.
  - cbn [map fst app]. eapply Permutation_NoDup; [|exact N]. symmetry. apply Permutation_middle.
Qed.
Lemma from_dict cfg kvs : Forall (fun kv => plain (m_py312 cfg) (fst kv) /\ plain (m_py312 cfg) (snd kv)) kvs -> NoDup (map fst kvs) ->
  Z.of_nat (length kvs) <= 2 ^ 24 - 2 ->
  exists t, init cfg false (one (ADict (map (fun '(k, v) => (PInt k, PInt v)) kvs))) = (Ok (Ret t), true) /\ Permutation (m_values t) kvs.
Proof.
  intros P N L. destruct (from_dict_exact cfg (map (fun '(k, v) => (PInt k, PInt v)) kvs) None) as (t & E & K); [rewrite map_length; exact L|].
  exists t. assert (E1 : map (ints cfg) (map (fun '(k, v) => (PInt k, PInt v)) kvs) = kvs).
  { clear -P. induction P as [|[k v] r [A B] P IH]; [reflexivity|]. cbn [map fst snd] in *. rewrite IH. unfold ints. cbn [fst snd].
    rewrite (proj1 (plain_int _ _ A)), (proj1 (plain_int _ _ B)). reflexivity. }
  assert (E2 : last_error (flat_map (errors cfg) (map (fun '(k, v) => (PInt k, PInt v)) kvs)) = None).
  { clear -P. induction P as [|[k v] r [A B] P IH]; [reflexivity|]. cbn [map flat_map fst snd] in *.
    unfold errors at 1. cbn [fst snd]. rewrite (proj2 (plain_int _ _ A)), (proj2 (plain_int _ _ B)). destruct (key_first cfg); cbn [app last_error]; rewrite IH; reflexivity. }
  rewrite E2 in E. split; [exact E|]. rewrite K, E1. apply (keep_all_nodup kvs []). exact N.
Qed.

(** ** Iterators *)
Lemma plain_long py z : plain py z -> as_int (PInt z) = (z, None).
Proof.
  intros H. assert (B : in_sbits 32 z). { unfold plain in H. destruct py; [exact H|]. unfold in_sbits. lia. }
  unfold as_int, as_long. rewrite (proj2 (in_sbits_b_spec 64 z)) by (unfold in_sbits in *; lia). cbn [conv].
  rewrite wrap_id; [reflexivity|lia|exact B].
Qed.
Lemma iter_goods cfg rest tail : forall es rs, goods (m_py312 cfg) es rs -> forall t l, HR t l -> small (length l + length es) ->
  exists t', iter_loop cfg (es ++ rest) tail (t, None) = iter_loop cfg rest tail (t', None) /\ HR t' (fold_left enter rs l) /\
    (length (fold_left enter rs l) <= length l + length es)%nat.
Proof.
  induction 1 as [|e b k v es rs G Gs IH]; intros t l H S; cbn [length app] in *; [exists t; split; [reflexivity|split; [exact H|cbn; lia]]|].
  assert (S1 : small (Datatypes.S (length l))) by (unfold small in *; lia).
  assert (K : exists t1, iter_loop cfg (e :: es ++ rest) tail (t, None) = iter_loop cfg (es ++ rest) tail (t1, None) /\ HR t1 (enter l (b, (k, v))) /\
    (length (enter l (b, (k, v))) <= Datatypes.S (length l))%nat).
  { destruct G as [k v A B|k v A B|k v more A B]; cbn [iter_loop enter].
    - unfold put_last. rewrite (plain_long _ _ A), (plain_long _ _ B). cbn [fst snd].
      destruct (assign_bind t l k v H S1) as (t1 & E & R1). rewrite E. cbn [rbind fst snd later]. exists t1. split; [reflexivity|]. split; [exact R1|apply bind_len].
    - destruct (put_ok cfg t None l (PInt k) (PInt v) H S1) as (t1 & E & R1). unfold errors in E. cbn [fst snd] in E.
      rewrite (proj2 (plain_int _ _ A)), (proj2 (plain_int _ _ B)) in E. rewrite (proj1 (plain_int _ _ A)), (proj1 (plain_int _ _ B)) in R1.
      rewrite E. exists t1. split; [destruct (key_first cfg); reflexivity|]. split; [exact R1|apply keep_len].
    - destruct (put_ok cfg t None l (PInt k) (PInt v) H S1) as (t1 & E & R1). unfold errors in E. cbn [fst snd] in E.
      rewrite (proj2 (plain_int _ _ A)), (proj2 (plain_int _ _ B)) in E. rewrite (proj1 (plain_int _ _ A)), (proj1 (plain_int _ _ B)) in R1.
      rewrite E. exists t1. split; [destruct (key_first cfg); reflexivity|]. split; [exact R1|apply keep_len]. }
  destruct K as (t1 & E & R1 & L1). rewrite E. destruct (IH t1 _ R1) as (t2 & E2 & R2 & L2); [unfold small in *; lia|].
  exists t2. split; [exact E2|]. split; [exact R2|]. cbn [fold_left]. lia.
Qed.

Lemma long_of o : exists z, as_int o = (z, long_error o).
Proof. destruct o as [z|i]; unfold as_int, as_long, long_error; [destruct (in_sbits_b 64 z)|]; eexists; reflexivity. Qed.
Lemma iter_stop cfg e rest tail t l x : HR t l -> small (S (length l)) -> stop_of cfg e = Some x ->
  iter_loop cfg (e :: rest) tail (t, None) = Ok x.
Proof.
  intros H S E.
  assert (P : forall k v, (let ke := error_of (m_py312 cfg) k in let ve := error_of (m_py312 cfg) v in
                 if key_first cfg then option_map Raise (last_error [ke; ve]) else option_map Raise (last_error [ve; ke])) = Some x ->
      rbind (put cfg (t, None) k v) (fun s => match snd s with Some e => Ok (Raise e) | None => iter_loop cfg rest tail s end) = Ok x).
  { intros k v K. destruct (put_ok cfg t None l k v H S) as (t1 & E1 & _). rewrite E1. cbn [rbind snd]. unfold errors. cbn [fst snd].
    cbv zeta in K. destruct (key_first cfg); cbn [fold_left]; cbn [later last_error] in *;
      destruct (error_of (m_py312 cfg) k), (error_of (m_py312 cfg) v); cbn [later option_map] in *; congruence. }
  destruct e as [[|k [|v [|w l']]]|[|k [|v [|w l']]]|[|k [|v l']]|]; cbn [stop_of iter_loop] in *; try congruence.
  - destruct (long_of k) as (kz & Ek). destruct (long_of v) as (vz & Ev). unfold put_last. rewrite Ek, Ev. cbn [fst snd].
    destruct (assign_bind t l kz vz H S) as (t1 & E1 & _). rewrite E1. cbn [rbind snd later].
    destruct (long_error k), (long_error v); cbn [later last_error option_map] in *; congruence.
  - apply P; assumption.
  - apply P; assumption.
Qed.

Lemma from_iter cfg es rs tail : goods (m_py312 cfg) es rs -> Z.of_nat (length es) <= 2 ^ 24 - 2 ->
  exists t, init cfg false (one (AIter es tail)) = (Ok (match tail with Some e => RetPending t e | None => Ret t end), true) /\
    Permutation (m_values t) (fold_left enter rs []).
Proof.
  intros G L. destruct (iter_goods cfg [] tail es rs G empty_table [] (R_empty hash_int) L) as (t & E & R' & _).
  exists t. split; [|apply HR_values, R']. unfold init, parse, fill, one. cbn [positional kw_other kw_map kw_iterable].
  rewrite app_nil_r in E. rewrite E. cbn [iter_loop fst]. destruct tail; reflexivity.
Qed.
Lemma from_iter_stop cfg es rs e rest tail x : goods (m_py312 cfg) es rs -> Z.of_nat (length es) < 2 ^ 24 - 2 -> stop_of cfg e = Some x ->
  init cfg false (one (AIter (es ++ e :: rest) tail)) = (Ok x, true).
Proof.
  intros G L E. destruct (iter_goods cfg (e :: rest) tail es rs G empty_table [] (R_empty hash_int)) as (t & E1 & R' & L'); [unfold small; cbn; lia|].
  unfold init, parse, fill, one. cbn [positional kw_other kw_map kw_iterable]. rewrite E1.
  rewrite (iter_stop cfg e rest tail t _ x R'); [reflexivity| |exact E]. cbn [length] in L'. unfold small. lia.
Qed.

(** A list or tuple that is an iterator. *)
Lemma fast_goods cfg rest : forall es rs, goods (m_py312 cfg) es rs -> no_lists es -> forall t l, HR t l -> small (length l + length es) ->
  exists t', fast_loop cfg (es ++ rest) (t, None) = fast_loop cfg rest (t', None) /\ HR t' (fold_left enter rs l) /\
    (length (fold_left enter rs l) <= length l + length es)%nat.
Proof.
  induction 1 as [|e b k v es rs G Gs IH]; intros NL t l H S; cbn [length app] in *; [exists t; split; [reflexivity|split; [exact H|cbn; lia]]|].
  assert (S1 : small (Datatypes.S (length l))) by (unfold small in *; lia).
  assert (K : exists t1, fast_loop cfg (e :: es ++ rest) (t, None) = fast_loop cfg (es ++ rest) (t1, None) /\ HR t1 (enter l (b, (k, v))) /\
    (length (enter l (b, (k, v))) <= Datatypes.S (length l))%nat).
  { destruct G as [k v A B|k v A B|k v more A B]; cbn [fast_loop enter].
    - exfalso. eapply NL. left. reflexivity.
    - destruct (put_ok cfg t None l (PInt k) (PInt v) H S1) as (t1 & E & R1). unfold errors in E. cbn [fst snd] in E.
      rewrite (proj2 (plain_int _ _ A)), (proj2 (plain_int _ _ B)) in E. rewrite (proj1 (plain_int _ _ A)), (proj1 (plain_int _ _ B)) in R1.
      rewrite E. exists t1. split; [destruct (key_first cfg); reflexivity|]. split; [exact R1|apply keep_len].
    - destruct (put_ok cfg t None l (PInt k) (PInt v) H S1) as (t1 & E & R1). unfold errors in E. cbn [fst snd] in E.
      rewrite (proj2 (plain_int _ _ A)), (proj2 (plain_int _ _ B)) in E. rewrite (proj1 (plain_int _ _ A)), (proj1 (plain_int _ _ B)) in R1.
      rewrite E. exists t1. split; [destruct (key_first cfg); reflexivity|]. split; [exact R1|apply keep_len]. }
  destruct K as (t1 & E & R1 & L1). rewrite E. destruct (IH ltac:(intros k' v' I; eapply NL; right; exact I) t1 _ R1) as (t2 & E2 & R2 & L2); [unfold small in *; lia|].
  exists t2. split; [exact E2|]. split; [exact R2|]. cbn [fold_left]. lia.
Qed.
Lemma from_seq cfg es rs : goods (m_py312 cfg) es rs -> no_lists es -> Z.of_nat (length es) <= 2 ^ 24 - 2 ->
  exists t, init cfg false (one (ASeqIter es)) = (Ok (Ret t), true) /\ Permutation (m_values t) (fold_left enter rs []).
Proof.
  intros G NL L. destruct (fast_goods cfg [] es rs G NL empty_table [] (R_empty hash_int) L) as (t & E & R' & _).
  exists t. split; [|apply HR_values, R']. unfold init, parse, fill, one. cbn [positional kw_other kw_map kw_iterable].
  rewrite app_nil_r in E. rewrite E. reflexivity.
Qed.
Lemma from_seq_stop cfg es rs e rest x : goods (m_py312 cfg) es rs -> no_lists es -> Z.of_nat (length es) < 2 ^ 24 - 2 ->
  (if match e with EList [_; _] => true | _ => false end then x = Undef OutOfBounds else stop_of cfg e = Some x) ->
  init cfg false (one (ASeqIter (es ++ e :: rest))) = (Ok x, true).
Proof.
  intros G NL L E. destruct (fast_goods cfg (e :: rest) es rs G NL empty_table [] (R_empty hash_int)) as (t & E1 & R' & L'); [unfold small; cbn; lia|].
  unfold init, parse, fill, one. cbn [positional kw_other kw_map kw_iterable]. rewrite E1. f_equal. cbn [length] in L'.
  assert (S : small (Datatypes.S (length (fold_left enter rs [])))) by (unfold small; lia).
  assert (P : forall k v, (let ke := error_of (m_py312 cfg) k in let ve := error_of (m_py312 cfg) v in
                 if key_first cfg then option_map Raise (last_error [ke; ve]) else option_map Raise (last_error [ve; ke])) = Some x ->
      rbind (put cfg (t, None) k v) (fun s => match snd s with Some e => Ok (Raise e) | None => fast_loop cfg rest s end) = Ok x).
  { intros k v K. destruct (put_ok cfg t None _ k v R' S) as (t1 & E2 & _). rewrite E2. cbn [rbind snd]. unfold errors. cbn [fst snd].
    cbv zeta in K. destruct (key_first cfg); cbn [fold_left]; cbn [later last_error] in *;
      destruct (error_of (m_py312 cfg) k), (error_of (m_py312 cfg) v); cbn [later option_map] in *; congruence. }
  destruct e as [[|k [|v [|w l']]]|[|k [|v [|w l']]]|[|k [|v l']]|]; cbn [stop_of fast_loop snd] in *;
    try (injection E as <-; reflexivity); try (subst x; reflexivity); rewrite P by assumption; reflexivity.
Qed.

(** Distinct keys: the dict of the pairs. *)
Lemma py_dict_nodup : forall kvs (l : list (Z * Z)), NoDup (map fst l ++ map fst kvs) -> Permutation (fold_left (fun l '(k, v) => bind l k v) kvs l) (l ++ kvs).
Proof.
  induction kvs as [|[k v] r IH]; intros l N; cbn [fold_left map fst] in *; [rewrite app_nil_r; reflexivity|].
  assert (K : ~ In k (map fst l)). { intros K. apply NoDup_remove_2 in N. apply N, in_or_app. auto. }
  assert (L : lookup l k = None). { apply lookup_none. intros w Hw. apply K. apply (in_map fst) in Hw. exact Hw. }
  unfold bind at 2. rewrite (without_none l k L). rewrite IH.
  - cbn [app]. rewrite <- Permutation_middle. reflexivity.
  - cbn [map fst app]. eapply Permutation_NoDup; [|exact N]. symmetry. apply Permutation_middle.
Qed.
Lemma enter_nodup : forall rs l, NoDup (map fst l ++ map fst (map snd rs)) -> Permutation (fold_left enter rs l) (l ++ map snd rs).
Proof.
  induction rs as [|[b [k v]] r IH]; intros l N; cbn [fold_left map fst snd] in *; [rewrite app_nil_r; reflexivity|].
  assert (K : ~ In k (map fst l)). { intros K. apply NoDup_remove_2 in N. apply N, in_or_app. auto. }
  assert (L : lookup l k = None). { apply lookup_none. intros w Hw. apply K. apply (in_map fst) in Hw. exact Hw. }
  assert (E : enter l (b, (k, v)) = (k, v) :: l).
  { unfold enter, keep, bind. rewrite L, (without_none l k L). destruct b; reflexivity. }
  rewrite E, IH.
  - cbn [app]. rewrite <- Permutation_middle. reflexivity.
  - cbn [map fst app]. eapply Permutation_NoDup; [|exact N]. symmetry. apply Permutation_middle.
Qed.
Lemma from_iter_distinct cfg es rs : goods (m_py312 cfg) es rs -> NoDup (map fst (map snd rs)) -> Z.of_nat (length es) <= 2 ^ 24 - 2 ->
  exists t, init cfg false (one (AIter es None)) = (Ok (Ret t), true) /\ Permutation (m_values t) (py_dict (map snd rs)).
Proof.
  intros G N L. destruct (from_iter cfg es rs None G L) as (t & E & P). exists t. split; [exact E|]. rewrite P.
  rewrite (enter_nodup rs [] N). symmetry. apply (py_dict_nodup (map snd rs) []). exact N.
Qed.
(** Tuples: the first binding of a key stays, where dict takes the last. *)
Lemma from_iter_first cfg k v w : plain (m_py312 cfg) k -> plain (m_py312 cfg) v -> plain (m_py312 cfg) w -> v <> w ->
  exists t, init cfg false (one (AIter [ETuple [PInt k; PInt v]; ETuple [PInt k; PInt w]] None)) = (Ok (Ret t), true) /\
    m_values t = [(k, v)] /\ py_dict [(k, v); (k, w)] = [(k, w)].
Proof.
  intros Pk Pv Pw N.
  destruct (from_iter cfg [ETuple [PInt k; PInt v]; ETuple [PInt k; PInt w]] [(false, (k, v)); (false, (k, w))] None) as (t & E & P).
  - repeat constructor; assumption.
  - vm_compute. discriminate.
  - exists t. split; [exact E|]. split.
    + assert (X : fold_left enter [(false, (k, v)); (false, (k, w))] [] = [(k, v)]).
      { cbn [fold_left enter]. unfold keep, bind, without. cbn [lookup filter]. rewrite Z.eqb_refl. reflexivity. }
      rewrite X in P. symmetry in P. apply Permutation_length_1_inv in P. exact P.
    + unfold py_dict. cbn [fold_left]. unfold bind, without. cbn [filter fst]. rewrite Z.eqb_refl. reflexivity.
Qed.

(** ** Mappings *)
Lemma mapping_end cfg : forall items t l p, HR t l -> small (length l + length items) -> answers items ->
  mapping_loop cfg items (t, p) = Ok (match first_error items with Some e => Raise e | None => Undef NullDeref end).
Proof.
  induction items as [|[k [v|e|v e|u]] r IH]; intros t l p H S A; cbn [mapping_loop first_error length] in *; try reflexivity;
    apply Forall_cons_iff in A as [A1 A]; cbn [snd] in A1; try contradiction.
  destruct (put_ok cfg t p l k v H) as (t1 & E & R1); [unfold small in *; lia|]. rewrite E. cbn [rbind].
  apply (IH t1 _ _ R1); [|exact A]. pose proof (keep_len l (int_of (m_py312 cfg) k) (int_of (m_py312 cfg) v)). unfold small in *. lia.
Qed.
Lemma from_mapping_exact cfg a b m again : parse {| positional := [a]; kw_map := None; kw_iterable := again; kw_other := false |} = Some (Some a, again) ->
  (a = AMapping (inl m) \/ ((exists es tail, a = AIter es tail) \/ (exists es, a = ASeqIter es)) /\ again = Some b /\ keys_of b = inl m) ->
  Z.of_nat (length m) <= 2 ^ 24 - 2 -> answers m ->
  init cfg false {| positional := [a]; kw_map := None; kw_iterable := again; kw_other := false |} =
    (Ok (match first_error m with Some e => Raise e | None => Undef NullDeref end), true).
Proof.
  intros P K L A. pose proof (mapping_end cfg m empty_table [] None (R_empty hash_int) L A) as E.
  unfold init. rewrite P. destruct K as [->|([(es & tail & ->)|(es & ->)] & -> & K)]; unfold fill, from_mapping; cbn [keys_of]; rewrite ?K, E;
    destruct (first_error m); reflexivity.
Qed.

(** ** Arguments that are ignored or refused *)
Lemma iterable_alone cfg a : init cfg false {| positional := []; kw_map := None; kw_iterable := a; kw_other := false |} = (Ok (Ret empty_table), true).
Proof. reflexivity. Qed.
Lemma from_map cfg os t a again : stays_below (2 ^ 24 - 2) 0 [] os -> steps hash_int 0 empty_table os = Ok (t, a) ->
  exists t', init cfg false {| positional := [AMap t]; kw_map := None; kw_iterable := again; kw_other := false |} = (Ok (Ret t'), true) /\ m_values t' = m_values t.
Proof.
  intros B E. destruct (steps_ok hash_int hash_thm 0 os _ _ (R_empty hash_int) B) as (u & E2 & H).
  rewrite E2 in E. injection E as -> _. exists (copy t). split; [reflexivity|]. apply (copy_ok hash_int), H.
Qed.
Lemma accepted_iff c : accepted c <-> match parse c with None => False | Some (Some AOther, _) => False | Some _ => True end.
Proof.
  unfold accepted, parse. destruct c as [p m i o]. cbn [positional kw_map kw_iterable kw_other].
  destruct p as [|a [|a' p]]; destruct o; try (split; [intros [? ?]; discriminate|contradiction]).
  - split.
    + intros (_ & [[_ H]|(a & H & _)]); [|discriminate]. destruct m as [[]|]; try exact I. congruence.
    + intros H. split; [reflexivity|]. left. split; [reflexivity|]. destruct m as [[]|]; try discriminate. contradiction.
  - split.
    + intros (_ & [[H _]|(x & H & M & N)]); [discriminate|]. injection H as ->. rewrite M. destruct x; try exact I. congruence.
    + intros H. split; [reflexivity|]. right. destruct m; [contradiction|]. exists a. split; [reflexivity|]. split; [reflexivity|]. destruct a; try discriminate. contradiction.
  - split; [|contradiction]. intros (_ & [[H _]|(x & H & _)]); discriminate.
Qed.
Lemma refused cfg b c : ~ accepted c -> init cfg b c = (Ok (Raise TypeError), b).
Proof.
  rewrite accepted_iff. unfold init. destruct (parse c) as [[[[]|] ?]|]; intros K; try reflexivity; exfalso; apply K; exact I.
Qed.
Lemma second cfg c : accepted c -> init cfg true c = (Ok (Undef Dangling), true).
Proof. rewrite accepted_iff. unfold init. destruct (parse c) as [[[[]|] ?]|]; intros K; try reflexivity; contradiction. Qed.
Lemma accepted_captures cfg b c : accepted c -> snd (init cfg b c) = true.
Proof. rewrite accepted_iff. unfold init. destruct (parse c) as [[[[]|] ?]|]; intros K; destruct b; try reflexivity; contradiction. Qed.
Lemma copy_undefined cfg b c t : fst (init cfg b c) = Ok (Ret t) -> copy_method cfg (snd (init cfg b c)) t = (Ok (Undef Dangling), true).
Proof.
  intros E. assert (A : accepted c).
  { rewrite accepted_iff. unfold init in E. destruct (parse c) as [[[[]|] ?]|]; try exact I; discriminate. }
  rewrite (accepted_captures cfg b c A). reflexivity.
Qed.
