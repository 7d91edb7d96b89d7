(** Property theorems C27-C34: IntLinkedList and its iterators. [lwf]: the node
    identities of the list are distinct; construction establishes it and every
    covered call keeps it (C28). *)
From Coq Require Import ZArith List Bool Arith Lia Permutation Sorted.
From Verif Require Import Base PyLongModel PyListSpec ListLemmas ArrayListModel ArrayListProofs ArrayListSpec
  ArrayListFacts ArrayListMoreModel ArrayListCmpProofs ArrayListMoreProofs ArrayListMulProofs ArrayWorldProofs
  StdListModel StdListProofs LinkedListSpec LinkedListModel LinkedListProofs LinkedListFacts LinkedListIterProofs PropsArrayList.
Import ListNotations.
Local Open Scope Z_scope.

Definition ex_list (vs : list Z) : ll := new_list (copy_of vs).
Lemma ex_list_wf vs : lwf (ex_list vs) /\ vals (ex_list vs) = vs.
Proof. apply copy_of_ok. Qed.

(** * C27 *)
(** [at] answers an iterator to the i-th node, whose value is the i-th value,
    in at most half the size plus one steps; end() from the size on. *)
Theorem C27_seek : forall (l : slist Z) i, wf l ->
  exists it c, at_steps l i = Ret (it, c) /\ (c <= size l / 2 + 1)%nat /\
    (forall v, nth_error (values l) i = Some v -> it = nth_error (ids l) i /\ deref l it = Ret v) /\
    ((length (values l) <= i)%nat -> it = end_).
Proof.
  intros l i W. destruct (at_steps_ok l i W) as (c & E & B). exists (itpos l i), c. split; [exact E|]. split; [exact B|]. split.
  - intros v N. split; [apply itpos_nth|apply deref_pos; assumption].
  - intros H. apply itpos_end. rewrite size_values. exact H.
Qed.
Print Assumptions C27_seek.
Example C27_ex : let l := copy_of [10; 20; 30; 40; 50] in
  at_steps l 1 = Ret (Some 1%nat, 1%nat) /\ at_steps l 4 = Ret (Some 4%nat, 1%nat) /\ at_steps l 3 = Ret (Some 3%nat, 2%nat) /\
  at_steps l 5 = Ret (None, 0%nat).
Proof. repeat split. Qed.

(** * C28 *)
(** [expected] only names the result in the model's vocabulary. *)
Theorem C28_history_refines_python_list : forall cfg cs l, lwf l -> Forall (in_range KInt) (vals l) -> lhistory_ok cs (vals l) ->
  fst (lrun cfg cs l) = map (expected cfg KInt) (fst (py_calls cs (vals l))) /\
  vals (snd (lrun cfg cs l)) = snd (py_calls cs (vals l)) /\ lwf (snd (lrun cfg cs l)).
Proof. exact lrun_refines. Qed.
Print Assumptions C28_history_refines_python_list.

(** The specification of sort: a permutation in the requested order. *)
Theorem C28_sort_specification : forall r s, Permutation (py_sort r s) s /\ StronglySorted (if r then Z.ge else Z.le) (py_sort r s).
Proof. intros r s. split; [apply py_sort_perm|apply py_sort_sorted]. Qed.
Print Assumptions C28_sort_specification.

Theorem C28_construction : forall a items vs, (a = AList items \/ a = AIter items None) -> Forall2 (stores 32) items vs ->
  exists l, linit (IArg a) = Ret l /\ lwf l /\ vals l = vs /\ modc l = 0.
Proof. exact linit_stores. Qed.
Print Assumptions C28_construction.
Theorem C28_construction_fails : forall a items vs o e rest,
  (a = AList (items ++ o :: rest) \/ exists fin, a = AIter (items ++ o :: rest) fin) ->
  Forall2 (stores 32) items vs -> rejected o e -> linit (IArg a) = Raise RuntimeError.
Proof. exact linit_bad. Qed.
Print Assumptions C28_construction_fails.
Theorem C28_construction_iterator : forall items vs e, Forall2 (stores 32) items vs -> linit (IArg (AIter items (Some e))) = Raise e.
Proof. exact linit_iter_fails. Qed.
Print Assumptions C28_construction_iterator.
(** What is not iterable is TypeError and changes nothing. *)
Theorem C28_not_iterable : forall l, linit (IArg AOther) = Raise TypeError /\ lextend AOther l = (Raise TypeError, l) /\ liadd AOther l = (Raise TypeError, l).
Proof. intros l. split; [|split]; reflexivity. Qed.
Print Assumptions C28_not_iterable.

(** repr is the text of the Python list of the contents. *)
Theorem C28_repr : forall l, lwf l -> Forall (in_range KInt) (vals l) ->
  exists t, lrepr l = Ret t /\ list_text (vals l) t.
Proof. intros l W F. rewrite lrepr_ok by exact W. apply (repr_ok KInt). exact F. Qed.
Print Assumptions C28_repr.

Definition ex_calls : list lcall :=
  [LCall (OInsert (-1) 9); LCall (OAppend 3); LCall (ORemove 7); LSort true; LCall (OPop None); LCall (OSet (-1) 8);
   LCall (OSetSlice (mk_slice (Some 1) (Some 2) None) [5; 6; -4]); LCall (ODel 0); LCall (OIndex 8 None None);
   LCall (OGetSlice (mk_slice None None (Some (-1)))); LCall (OExtend FromIterator [1; 2]); LSort false; LCall OReverse; LCall (OGet 99)].
Ltac in_rng := repeat first [exact I | apply Forall_cons | apply Forall_nil | split | (vm_compute; discriminate) | discriminate].
Ltac run_hist := match goal with
  | |- lhistory_ok [] _ => exact I
  | |- lhistory_ok (?c :: ?r) ?s =>
      change (lcall_ok s c /\ zlen s <= SSIZE_MAX /\ lhistory_ok r (snd (py_call c s)));
      split; [in_rng|split; [vm_compute; discriminate|]];
      let s' := eval vm_compute in (snd (py_call c s)) in change (lhistory_ok r s'); run_hist
  end.
Example C28_ex_calls : lwf (ex_list [7; 3; -2]) /\ Forall (in_range KInt) (vals (ex_list [7; 3; -2])) /\
  lhistory_ok ex_calls (vals (ex_list [7; 3; -2])) /\
  py_calls ex_calls [7; 3; -2] =
  ([SRet SNone; SRet SNone; SRet SNone; SRet SNone; SRet (SElem (-2)); SRet SNone; SRet SNone; SRet SNone; SRet (SNum 3);
    SRet (SList [8; -4; 6; 5]); SRet SNone; SRet SNone; SRet SNone; SRaise IndexError], [8; 6; 5; 2; 1; -4]).
Proof.
  split; [apply ex_list_wf|]. rewrite (proj2 (ex_list_wf _)). split; [|split; [|vm_compute; reflexivity]].
  - in_rng.
  - unfold ex_calls. run_hist.
Qed.

(** * C29 *)
Theorem C29_pop_index : forall cfg i l, lwf l -> in_ssize i = true -> vals l <> [] ->
  let p := rel (zlen (vals l)) i in
  (0 <= p < zlen (vals l) -> exists l', lpop cfg (Some (PInt i)) l = (Undef UseAfterFree, l')) /\
  (~ 0 <= p < zlen (vals l) -> lpop cfg (Some (PInt i)) l = (Raise IndexError, l)).
Proof. exact lpop_index. Qed.
Print Assumptions C29_pop_index.
Theorem C29_pop_empty : forall cfg a l, vals l = [] -> lpop cfg a l = (Raise IndexError, l).
Proof. exact lpop_empty. Qed.
Print Assumptions C29_pop_empty.
Example C29_ex : fst (lpop ex_cfg (Some (PInt (-3))) (ex_list [4; 5; 6])) = Undef UseAfterFree /\
  fst (lpop ex_cfg (Some (PInt 3)) (ex_list [4; 5; 6])) = Raise IndexError /\
  fst (lpop ex_cfg None (ex_list [4; 5; 6])) = Ret (VElem (from_elem ex_cfg KInt 6)).
Proof. repeat split. Qed.

(** * C30 *)
Theorem C30_append : forall o e l, lwf l -> rejected o e ->
  exists l', lappend o l = (RetPending VNone e, l') /\ vals l' = vals l ++ [-1] /\ lwf l' /\ modc l' = modc l + 1.
Proof. exact lappend_rejected. Qed.
Print Assumptions C30_append.
(** [inplace] selects += over extend; [fin] is the iterator's own error. *)
Theorem C30_extend : forall inplace items vs o e rest fin a l, lwf l -> Forall2 (stores 32) items vs -> rejected o e ->
  ((a = AList (items ++ o :: rest) /\ fin = None) \/ a = AIter (items ++ o :: rest) fin) ->
  exists l', (if inplace : bool then liadd a l else lextend a l) =
    (Raise (match rest, fin with [], Some e' => e' | _, _ => e end), l') /\
    vals l' = vals l ++ vs ++ [-1] /\ lwf l' /\
    modc l' = modc l + (match rest with [] => if inplace then 0 else 1 | _ => 0 end).
Proof. exact lextend_fails. Qed.
Print Assumptions C30_extend.
(** Convertible arguments are stored. *)
Theorem C30_append_converts : forall o v l, lwf l -> stores 32 o v ->
  exists l', lappend o l = (Ret VNone, l') /\ vals l' = vals l ++ [v] /\ lwf l' /\ modc l' = modc l + 1.
Proof. exact lappend_stores. Qed.
Print Assumptions C30_append_converts.
(** += with in-range integers appends them; from a list of the class it answers
    None instead of the list. *)
Theorem C30_iadd_values : forall how vs l, lwf l -> Forall (in_range KInt) vs ->
  exists l', liadd (match how with FromList => AList (map PInt vs) | FromIterator => AIter (map PInt vs) None | FromSameType => ASame vs end) l
    = (Ret (match how with FromSameType => VNone | _ => VSelf end), l') /\
  vals l' = vals l ++ vs /\ lwf l' /\ modc l' = modc l.
Proof. exact liadd_ok. Qed.
Print Assumptions C30_iadd_values.
Example C30_ex : rejected (PInt (2 ^ 63)) OverflowError /\ rejected (PObj 5) TypeError /\
  fst (lappend (PObj 5) (ex_list [1])) = RetPending VNone TypeError /\ vals (snd (lappend (PObj 5) (ex_list [1]))) = [1; -1] /\
  let r := lextend (AList [PInt 2; PInt (2 ^ 63); PInt 3]) (ex_list [1]) in
  fst r = Raise OverflowError /\ vals (snd r) = [1; 2; -1].
Proof. repeat split; cbn; try lia. Qed.

(** * C31 *)
(** [llord_sem]: different lengths - shorter; equal lengths - the strict
    lexicographic order, also for <= and >=. *)
Theorem C31_list_operand : forall c items vs l, lwf l -> Forall2 (stores 32) items vs ->
  exists b, lcompare c (cmp_items items) l = Ret b /\
    (b = true <-> match c with Eq_ => vals l = vs | Ne_ => vals l <> vs | _ => llord_sem c (vals l) vs end).
Proof. exact lcompare_items. Qed.
Print Assumptions C31_list_operand.
(** Another linked list is read through its items; [reread] (C13) is what an
    item converts back to. *)
Theorem C31_same_class : forall cfg c ys l, lwf l -> Forall (in_range KInt) ys ->
  exists b, lcompare c (lcmp_same cfg ys) l = Ret b /\
    (b = true <-> match c with Eq_ => vals l = map (reread cfg KInt) ys | Ne_ => vals l <> map (reread cfg KInt) ys
                             | _ => llord_sem c (vals l) (map (reread cfg KInt) ys) end).
Proof. exact lcompare_same. Qed.
Print Assumptions C31_same_class.
(** Python's meaning is [cmp_sem] of C10: refuted for every pair of lists of
    different length, and for every list against itself. *)
Theorem C31_shorter_is_greater_refuted : forall xs ys l, lwf l -> vals l = xs -> Forall (in_range KInt) ys -> (length xs < length ys)%nat ->
  lcompare Lt_ (cmp_items (map PInt ys)) l = Ret true /\ lcompare Gt_ (cmp_items (map PInt ys)) l = Ret true /\
  lcompare Le_ (cmp_items (map PInt ys)) l = Ret true /\ lcompare Ge_ (cmp_items (map PInt ys)) l = Ret true.
Proof.
  intros xs ys l W V F H.
  assert (S : Forall2 (stores 32) (map PInt ys) ys).
  { clear - F. induction F as [|v ys R F IH]; cbn [map]; constructor; [|exact IH].
    apply (stores_elem KInt). apply as_elem_ok. exact R. }
  assert (Q : forall c, match c with Eq_ | Ne_ => False | _ => True end -> lcompare c (cmp_items (map PInt ys)) l = Ret true).
  { intros c Hc. destruct (lcompare_items c (map PInt ys) ys l W S) as (b & E & B). rewrite E. f_equal.
    assert (X : llord_sem c (vals l) ys) by (unfold llord_sem; rewrite V; destruct (Nat.eqb_spec (length xs) (length ys)); [lia|exact H]).
    destruct c; try contradiction; apply B; exact X. }
  repeat split; apply Q; exact I.
Qed.
Print Assumptions C31_shorter_is_greater_refuted.
Theorem C31_not_reflexive_refuted : forall l, lwf l -> Forall (in_range KInt) (vals l) ->
  lcompare Le_ (cmp_items (map PInt (vals l))) l = Ret false /\ lcompare Ge_ (cmp_items (map PInt (vals l))) l = Ret false.
Proof.
  intros l W F.
  assert (S : Forall2 (stores 32) (map PInt (vals l)) (vals l)).
  { clear W. induction F as [|v ys R F IH]; cbn [map]; constructor; [|exact IH].
    apply (stores_elem KInt). apply as_elem_ok. exact R. }
  assert (N : forall c, llord_sem c (vals l) (vals l) -> False).
  { intros c H. unfold llord_sem in H. rewrite Nat.eqb_refl in H. destruct c; eapply lex_irrefl; exact H. }
  split; [destruct (lcompare_items Le_ _ _ l W S) as (b & E & B)|destruct (lcompare_items Ge_ _ _ l W S) as (b & E & B)];
    rewrite E; destruct b; try reflexivity; exfalso; eapply N; apply B; reflexivity.
Qed.
Print Assumptions C31_not_reflexive_refuted.
(** From Python 3.12 on a list with a negative element other than -2^31 is not
    equal to a copy of itself. *)
Theorem C31_copy_unequal_312_refuted : forall cfg l v, py312 cfg = true -> lwf l -> Forall (in_range KInt) (vals l) ->
  In v (vals l) -> v < 0 -> v <> - 2 ^ 31 -> lcompare Eq_ (lcmp_same cfg (vals l)) l = Ret false.
Proof.
  intros cfg l v P W F I N M. destruct (lcompare_same cfg Eq_ (vals l) l W F) as (b & E & B). rewrite E. destruct b; [|reflexivity].
  exfalso. pose proof (proj1 B eq_refl) as X. clear B E.
  rewrite Forall_forall in F. specialize (F v I). apply In_nth_error in I. destruct I as (k & K).
  assert (K' : nth_error (map (reread cfg KInt) (vals l)) k = Some v) by (rewrite <- X; exact K).
  rewrite nth_error_map, K in K'. cbn in K'. injection K' as K'. rewrite (reread_312_neg cfg v P F N) in K'.
  destruct (Z.eqb_spec v (- 2 ^ 31)); [contradiction|]. lia.
Qed.
Print Assumptions C31_copy_unequal_312_refuted.
Example C31_ex : lcompare Lt_ (cmp_items [PInt 1; PInt 2; PInt 0]) (ex_list [9; 9]) = Ret true /\
  lcompare Gt_ (cmp_items [PInt 1; PInt 2; PInt 0]) (ex_list [9; 9]) = Ret true /\
  lcompare Le_ (cmp_items [PInt 1; PInt 5]) (ex_list [1; 3]) = Ret true /\
  lcompare Ge_ (cmp_items [PInt 1; PInt 5]) (ex_list [1; 5]) = Ret false /\
  lcompare Eq_ (lcmp_same ex_cfg312 [1; -5]) (ex_list [1; -5]) = Ret false /\
  lcompare Eq_ (lcmp_same ex_cfg [1; -5]) (ex_list [1; -5]) = Ret true.
Proof. repeat split. Qed.

(** * C32 *)
Theorem C32_mul : forall n l, lmul n l = (Ret (VNewList (concat (repeat (vals l) (Z.to_nat n)))), l).
Proof. exact lmul_ok. Qed.
Print Assumptions C32_mul.
Theorem C32_imul : forall n l, lwf l -> exists l', limul n l = (Ret VSelf, l') /\ lwf l' /\ modc l' = modc l /\
  vals l' = if n <=? 0 then [] else concat (repeat (vals l) (2 ^ (Z.to_nat n - 1))).
Proof. exact limul_ok. Qed.
Print Assumptions C32_imul.
(** Not n copies as soon as n > 2. *)
Theorem C32_imul_refuted : forall n l, lwf l -> vals l <> [] -> 2 < n ->
  length (vals (snd (limul n l))) <> length (concat (repeat (vals l) (Z.to_nat n))).
Proof.
  intros n l W NE H. destruct (limul_ok n l W) as (l' & E & _ & _ & V). rewrite E. cbn [snd]. rewrite V.
  destruct (Z.leb_spec n 0); [lia|]. fold (reps (Z.to_nat n) (vals l)). rewrite !reps_length.
  assert (LP : (0 < length (vals l))%nat) by (destruct (vals l); [contradiction|cbn; lia]).
  assert (G : forall m, (m + 3 < 2 ^ (m + 2))%nat) by (induction m as [|m IH]; cbn in *; lia).
  specialize (G (Z.to_nat n - 3)%nat). replace (Z.to_nat n - 3 + 2)%nat with (Z.to_nat n - 1)%nat in G by lia.
  intros X. apply Nat.mul_cancel_r in X; lia.
Qed.
Print Assumptions C32_imul_refuted.
Example C32_ex : vals (snd (limul 4 (ex_list [1; 2]))) = concat (repeat [1; 2] 8) /\ vals (snd (limul 2 (ex_list [1; 2]))) = [1; 2; 1; 2] /\
  vals (snd (limul (-1) (ex_list [1; 2]))) = [].
Proof. repeat split. Qed.

(** Concatenation: a Python list of the elements, as reading them gives them,
    and the items; before 3.12 the elements are the integers themselves. *)
Theorem C32_add : forall cfg items l, lwf l -> exists ps, ladd cfg (AddList items) l = (Ret (VConcat ps items), l) /\
  Forall2 (fun p v => p = from_elem cfg KInt v) ps (vals l) /\ (py312 cfg = false -> Forall2 (fun p v => p = mk_pylong v) ps (vals l)).
Proof. exact ladd_list. Qed.
Print Assumptions C32_add.
Theorem C32_add_fails : forall cfg l, (forall ys, ladd cfg (AddSame ys) l = (Raise MemoryError, l)) /\ ladd cfg AddOther l = (Raise TypeError, l).
Proof. exact ladd_fails. Qed.
Print Assumptions C32_add_fails.
Example C32_add_ex : ladd ex_cfg (AddList [PInt 7; PObj 3]) (ex_list [1; -5]) = (Ret (VConcat [mk_pylong 1; mk_pylong (-5)] [PInt 7; PObj 3]), ex_list [1; -5]).
Proof. reflexivity. Qed.

(** * C33 *)
(** Every interleaving of covered calls - except item deletion, clear and slice
    assignment - with next() behaves like the position counter of
    [reseek_play]. *)
Theorem C33_interleavings : forall cfg es l, lwf l -> Forall (in_range KInt) (vals l) -> levents_ok es (vals l) ->
  exists it, liter_create false l = Ret it /\ lplay cfg es it l = reseek_play es false 0 0 (vals l).
Proof. exact forward_play. Qed.
Print Assumptions C33_interleavings.
(** Unmodified: the contents once in order, then StopIteration for ever. *)
Theorem C33_unmodified : forall cfg l n, lwf l -> Forall (in_range KInt) (vals l) -> zlen (vals l) <= SSIZE_MAX ->
  exists it, liter_create false l = Ret it /\
  lplay cfg (repeat EvNext n) it l = firstn n (map Ret (vals l)) ++ repeat (Raise StopIteration) (n - length (vals l)).
Proof. exact forward_all. Qed.
Print Assumptions C33_unmodified.
(** Interleaved with reads, item assignment and reverse: Python's iterator. *)
Theorem C33_quiet_calls : forall cfg es l, lwf l -> Forall (in_range KInt) (vals l) -> levents_ok es (vals l) -> quiet es (vals l) ->
  exists it, liter_create false l = Ret it /\ lplay cfg es it l = py_play es (Some 0%nat) (vals l).
Proof. exact forward_quiet. Qed.
Print Assumptions C33_quiet_calls.
(** One noticed call after k items, with at least two items of the new contents
    s' left: the last one is never delivered. *)
Theorem C33_modified_drops_last : forall cfg l c k n, lwf l -> Forall (in_range KInt) (vals l) ->
  levents_ok (repeat EvNext k ++ EvCall c :: repeat EvNext n) (vals l) ->
  (k <= length (vals l))%nat -> noticed c (vals l) = true ->
  let s' := snd (py_call c (vals l)) in (k + 1 < length s')%nat ->
  exists it, liter_create false l = Ret it /\
  lplay cfg (repeat EvNext k ++ EvCall c :: repeat EvNext n) it l =
  map Ret (firstn k (vals l)) ++ firstn n (map Ret (removelast (skipn k s'))) ++ repeat (Raise StopIteration) (n - (length s' - k - 1)).
Proof.
  intros cfg l c k n W F H Hk N s' Hs. destruct (forward_play cfg _ l W F H) as (it & E & P). exists it. split; [exact E|].
  rewrite P. apply reseek_noticed; assumption.
Qed.
Print Assumptions C33_modified_drops_last.
Theorem C33_modified_at_end : forall cfg l c k n, lwf l -> Forall (in_range KInt) (vals l) ->
  levents_ok (repeat EvNext k ++ EvCall c :: repeat EvNext n) (vals l) ->
  (k <= length (vals l))%nat -> noticed c (vals l) = true ->
  let s' := snd (py_call c (vals l)) in (length s' <= k + 1)%nat ->
  exists it, liter_create false l = Ret it /\
  lplay cfg (repeat EvNext k ++ EvCall c :: repeat EvNext n) it l =
  map Ret (firstn k (vals l)) ++ firstn n (map Ret (skipn k s')) ++ repeat (Raise StopIteration) (n - (length s' - k)).
Proof.
  intros cfg l c k n W F H Hk N s' Hs. destruct (forward_play cfg _ l W F H) as (it & E & P). exists it. split; [exact E|].
  rewrite P. apply reseek_noticed_last; assumption.
Qed.
Print Assumptions C33_modified_at_end.
(** Deleting the item the iterator stands on: freed node, for every list and
    position with a later item. *)
Theorem C33_del_use_after_free : forall cfg l k, lwf l -> zlen (vals l) <= SSIZE_MAX -> (k + 1 < length (vals l))%nat ->
  exists it, liter_create false l = Ret it /\
  lplay cfg (repeat EvNext k ++ [EvCall (LCall (ODel (Z.of_nat k))); EvNext]) it l
  = map Ret (firstn k (vals l)) ++ [Undef UseAfterFree].
Proof. exact del_under_iterator. Qed.
Print Assumptions C33_del_use_after_free.
(** += after the iterator was exhausted: the end position is dereferenced. *)
Theorem C33_iadd_derefs_end : forall l vs v n, lwf l -> zlen (vals l) <= SSIZE_MAX -> (length (vals l) <= n)%nat ->
  exists it, liter_create false l = Ret it /\
    fst (liter_next (after_nexts n it l) (snd (liadd (ASame (v :: vs)) l))) = Undef IterBeforeBegin.
Proof. exact iadd_after_end. Qed.
Print Assumptions C33_iadd_derefs_end.
Ltac run_events := match goal with
  | |- levents_ok [] _ => in_rng
  | |- levents_ok (EvCall ?c :: ?r) ?s =>
      change (zlen s <= SSIZE_MAX /\ lcall_ok s c /\ calm c = true /\ levents_ok r (snd (py_call c s)));
      split; [vm_compute; discriminate|split; [in_rng|split; [reflexivity|]]];
      let s' := eval vm_compute in (snd (py_call c s)) in change (levents_ok r s'); run_events
  | |- levents_ok (EvNext :: ?r) ?s =>
      change (zlen s <= SSIZE_MAX /\ levents_ok r s); split; [vm_compute; discriminate|run_events]
  end.
(** So the iterator is not Python's. *)
Theorem C33_python_iterator_refuted : exists es l it, lwf l /\ levents_ok es (vals l) /\ liter_create false l = Ret it /\
  lplay ex_cfg es it l <> py_play es (Some 0%nat) (vals l).
Proof.
  exists [EvNext; EvCall (LCall (OAppend 4)); EvNext; EvNext; EvNext], (ex_list [1; 2; 3]). eexists.
  split; [apply ex_list_wf|]. rewrite (proj2 (ex_list_wf _)). split.
  - run_events.
  - split; [reflexivity|]. vm_compute. discriminate.
Qed.
Print Assumptions C33_python_iterator_refuted.
Definition ex_events : list levent :=
  [EvNext; EvCall (LCall (OSet 2 7)); EvCall (LCall OReverse); EvNext; EvCall (LCall (OInsert 0 8)); EvNext; EvNext; EvNext].
Example C33_ex : levents_ok ex_events [1; 2; 3; 4; 5] /\
  reseek_play ex_events false 0 0 [1; 2; 3; 4; 5] = [Ret 1; Ret 4; Ret 4; Ret 7; Ret 2] /\
  (forall it, liter_create false (ex_list [1; 2; 3; 4; 5]) = Ret it ->
     lplay ex_cfg ex_events it (ex_list [1; 2; 3; 4; 5]) = [Ret 1; Ret 4; Ret 4; Ret 7; Ret 2]) /\
  reseek_play (ex_events ++ [EvNext; EvNext]) false 0 0 [1; 2; 3; 4; 5] = [Ret 1; Ret 4; Ret 4; Ret 7; Ret 2; Raise StopIteration; Raise StopIteration].
Proof.
  split; [|split; [reflexivity|split; [|reflexivity]]].
  - unfold ex_events. run_events.
  - intros it [= <-]. vm_compute. reflexivity.
Qed.
Example C33_ex_quiet : let es := [EvNext; EvCall (LCall (OSet 2 7)); EvCall (LCall OReverse); EvNext; EvNext; EvNext; EvCall (LCall (OGet 0)); EvNext] in
  quiet es [1; 2; 3] /\ levents_ok es [1; 2; 3] /\ py_play es (Some 0%nat) [1; 2; 3] = [Ret 1; Ret 2; Ret 1; Raise StopIteration; Raise StopIteration].
Proof. split; [|split; [run_events|reflexivity]]. cbn. repeat split. Qed.

(** * C34 *)
Theorem C34_reversed : forall l n, lwf l -> zlen (vals l) <= SSIZE_MAX -> vals l <> [] ->
  exists it, liter_create true l = Ret it /\
  liter_run it (repeat l n) = firstn n (map Ret (rev (tl (vals l)) ++ [last (vals l) 0])) ++ repeat (Raise StopIteration) (n - length (vals l)).
Proof. exact reversed_run. Qed.
Print Assumptions C34_reversed.
Theorem C34_empty : forall l, vals l = [] -> liter_create true l = Undef IterBeforeBegin.
Proof. exact reversed_empty. Qed.
Print Assumptions C34_empty.
(** Wrong exactly when the first and last elements differ. *)
Theorem C34_reversed_refuted : forall l it, lwf l -> zlen (vals l) <= SSIZE_MAX -> hd 0 (vals l) <> last (vals l) 0 ->
  liter_create true l = Ret it -> liter_run it (repeat l (length (vals l))) <> map Ret (rev (vals l)).
Proof.
  intros l it W L H C. destruct (vals l) as [|x s] eqn:V; [cbn in H; contradiction|].
  destruct (reversed_run l (length (vals l)) W) as (it' & E & R); [rewrite V; exact L|rewrite V; discriminate|].
  rewrite C in E. injection E as <-. rewrite V in R. rewrite R, Nat.sub_diag. cbn [tl repeat hd] in *. rewrite app_nil_r.
  rewrite firstn_all2 by (rewrite map_length, app_length, rev_length; cbn; lia). cbn [rev].
  rewrite !map_app. intros X. apply app_inv_head in X. cbn [map] in X.
  assert (Y : last (x :: s) 0 = x) by congruence. apply H. symmetry. exact Y.
Qed.
Print Assumptions C34_reversed_refuted.
Example C34_ex : match liter_create true (ex_list [1; 2; 3]) with
  | Ret it => liter_run it (repeat (ex_list [1; 2; 3]) 5) = [Ret 3; Ret 2; Ret 3; Raise StopIteration; Raise StopIteration]
  | _ => False end /\
  match liter_create true (ex_list [6]) with
  | Ret it => liter_run it (repeat (ex_list [6]) 2) = [Ret 6; Raise StopIteration]
  | _ => False end.
Proof. split; reflexivity. Qed.
