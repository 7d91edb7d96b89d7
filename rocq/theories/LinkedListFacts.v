(** The property-level facts about IntLinkedList. *)
From Coq Require Import ZArith List Bool Arith Lia Permutation Sorted.
From Verif Require Import Base PyLongModel PyLongProofs PyListSpec ListLemmas ArrayListModel ArrayListProofs ArrayListSpec
  ArrayListFacts ArrayListMoreModel ArrayListCmpProofs ArrayListMoreProofs ArrayListMulProofs ArrayWorldProofs
  StdListModel StdListProofs LinkedListSpec LinkedListModel LinkedListProofs.
Import ListNotations.
Local Open Scope Z_scope.
Local Arguments Z.pow : simpl never.
Local Arguments Z.of_nat : simpl never.
Local Arguments Z.to_nat : simpl never.
Local Arguments Z.modulo : simpl never.

(** ** One call *)
(** Calls covered: everything but resize (no such method) and pop(i). *)
Definition linked (c : lcall) : Prop :=
  match c with LCall (OResize _) | LCall (OPop (Some _)) => False | _ => True end.
Definition lcall_ok (s : list Z) (c : lcall) : Prop :=
  linked c /\ match c with LCall o => op_ok KInt s o | LSort _ => True end.

Lemma lstep_sim cfg o l : lwf l -> Forall (in_range KInt) (vals l) -> zlen (vals l) <= SSIZE_MAX ->
  lcall_ok (vals l) (LCall o) ->
  sim (lstep cfg o l) (expected cfg KInt (fst (py_step o (vals l))), snd (py_step o (vals l))).
Proof.
  intros W F L [K H]. rewrite <- step_refines by assumption. destruct o; cbn [lstep step linked op_ok] in *.
  - apply append_sim; assumption.
  - pose proof (extend_sim how vs l W H) as S.
    pose proof (step_refines cfg KInt (OExtend how vs) (vals l) F L H) as SR. cbn [step py_step fst snd expected] in SR.
    rewrite SR. exact S.
  - apply insert_sim; assumption.
  - destruct i; [contradiction|]. apply pop_sim; assumption.
  - apply remove_sim; assumption.
  - apply reverse_sim; assumption.
  - apply clear_sim; assumption.
  - contradiction.
  - apply len_sim; assumption.
  - apply subscript_sim; assumption.
  - apply ass_subscript_sim; [assumption|]. intros o [= <-]. exists v. apply as_elem_ok. assumption.
  - apply ass_subscript_sim; [assumption|]. discriminate.
  - apply getitem_slice_sim; assumption.
  - destruct H as [H1 H2]. pose proof (step_refines cfg KInt (OSetSlice sl vs) (vals l) F L (conj H1 H2)) as SR.
    cbn [step] in SR. rewrite SR.
    assert (G : Forall good (map PInt vs)).
    { apply Forall_map. eapply Forall_impl; [|exact H1]. intros v R. exists v. split; [reflexivity|]. apply (in_range_64 KInt). exact R. }
    destruct (lsetitem_slice_ok sl (map PInt vs) l W L H2 G) as (s' & E & W' & V'). rewrite E.
    cbn [py_step]. assert (St : (step_of sl =? 1) = true) by (apply Z.eqb_eq; exact H2).
    cbn [expected fst snd]. split; [reflexivity|]. split; [|exact W']. unfold vals at 1. cbn [put lst snd]. rewrite V'. f_equal.
    rewrite map_map. rewrite <- (map_id vs) at 2. apply map_ext_in. intros v I. rewrite Forall_forall in H1.
    cbn [elem_val]. apply wrap_id; [apply bits_ge|]. apply H1. exact I.
  - apply index_sim; assumption.
  - apply count_sim; assumption.
  - apply contains_sim; assumption.
  - apply to_list_sim; assumption.
  - apply copy_sim; assumption.
Qed.

(** ** Sorting *)
Definition dir (r : bool) : Z -> Z -> Prop := if r then Z.ge else Z.le.

Lemma put_in_perm le x s : Permutation (put_in le x s) (x :: s).
Proof.
  induction s as [|y s IH]; cbn [put_in]; [reflexivity|]. destruct (le x y); [reflexivity|].
  rewrite IH. apply perm_swap.
Qed.
Lemma py_sort_perm r s : Permutation (py_sort r s) s.
Proof. induction s as [|x s IH]; [reflexivity|]. cbn [py_sort fold_right]. rewrite put_in_perm. constructor. exact IH. Qed.
Lemma put_in_sorted r x s : StronglySorted (dir r) s -> StronglySorted (dir r) (put_in (if r then Z.geb else Z.leb) x s).
Proof.
  induction s as [|y s IH]; intros H; cbn [put_in]; [repeat constructor|].
  inversion H as [|? ? S F]; subst.
  destruct ((if r then Z.geb else Z.leb) x y) eqn:E.
  - assert (D : dir r x y) by (destruct r; cbn in *; [apply Z.geb_le in E|apply Z.leb_le in E]; lia).
    constructor; [exact H|]. constructor; [exact D|]. eapply Forall_impl; [|exact F]. intros z Hz. destruct r; cbn in *; lia.
  - assert (D : dir r y x).
    { destruct r; cbn in *; [rewrite Z.geb_leb in E|]; apply Z.leb_gt in E; lia. }
    constructor; [apply IH; exact S|]. rewrite Forall_forall in F |- *. intros z Hz.
    apply (Permutation_in _ (put_in_perm _ x s)) in Hz. destruct Hz as [<-|Hz]; [exact D|apply F; exact Hz].
Qed.
Lemma py_sort_sorted r s : StronglySorted (dir r) (py_sort r s).
Proof. induction s as [|x s IH]; [constructor|]. cbn [py_sort fold_right]. apply put_in_sorted. exact IH. Qed.

Lemma sorted_unique r a : forall b, Permutation a b -> StronglySorted (dir r) a -> StronglySorted (dir r) b -> a = b.
Proof.
  induction a as [|x a IH]; intros b P Sa Sb.
  - apply Permutation_nil in P. congruence.
  - destruct b as [|y b]; [symmetry in P; apply Permutation_nil in P; discriminate|].
    inversion Sa as [|? ? Sa' Fa]; inversion Sb as [|? ? Sb' Fb]; subst. rewrite Forall_forall in Fa, Fb.
    assert (E : x = y).
    { assert (I1 : In x (y :: b)) by (eapply Permutation_in; [exact P|left; reflexivity]).
      assert (I2 : In y (x :: a)) by (eapply Permutation_in; [symmetry; exact P|left; reflexivity]).
      destruct I1 as [->|I1]; [reflexivity|]. destruct I2 as [->|I2]; [reflexivity|].
      apply Fb in I1. apply Fa in I2. destruct r; cbn in *; lia. }
    subst. f_equal. apply IH; auto. eapply Permutation_cons_inv. exact P.
Qed.

Lemma sorted_mono {A} (R R' : A -> A -> Prop) s : (forall x y, R x y -> R' x y) -> StronglySorted R s -> StronglySorted R' s.
Proof. intros H. induction 1 as [|x s S IH F]; constructor; [exact IH|]. eapply Forall_impl; [|exact F]. intros. apply H. assumption. Qed.

Lemma lsort_ok (r : bool) l : lwf l -> exists s', lsort (if r then 1 else 0) l = (Ret VNone, bump l s') /\ wf s' /\
  values s' = py_sort r (vals l) /\ Permutation (ids s') (ids (lst l)).
Proof.
  intros W. unfold lsort. eexists. split; [reflexivity|]. set (lt := if (if r then 1 else 0) =? 1 then Z.gtb else Z.ltb).
  assert (El : lt = if r then Z.gtb else Z.ltb) by (destruct r; reflexivity). clearbody lt. subst lt.
  set (lt := if r then Z.gtb else Z.ltb).
  assert (D : forall x y, lt y x = false <-> dir r x y).
  { intros x y. unfold lt, dir. destruct r; [rewrite Z.gtb_ltb|]; rewrite Z.ltb_ge; lia. }
  destruct (list_sort_ok lt (lst l)) as (W' & P & O & I).
  - intros x y z H1 H2. rewrite D in *. destruct r; cbn in *; lia.
  - intros x y H. apply D. destruct r; unfold lt in H; [rewrite Z.gtb_ltb in H|]; apply Z.ltb_lt in H; cbn; lia.
  - exact W.
  - split; [exact W'|]. split; [|exact I].
    apply (sorted_unique r); [rewrite P; symmetry; apply py_sort_perm| |apply py_sort_sorted].
    eapply sorted_mono; [|exact O]. intros x y. apply D.
Qed.

Lemma lcall_sim cfg c l : lwf l -> Forall (in_range KInt) (vals l) -> zlen (vals l) <= SSIZE_MAX ->
  lcall_ok (vals l) c ->
  sim (lcall_step cfg c l) (expected cfg KInt (fst (py_call c (vals l))), snd (py_call c (vals l))).
Proof.
  intros W F L K. destruct c as [o|r]; cbn [lcall_step py_call].
  - apply lstep_sim; assumption.
  - destruct (lsort_ok r l W) as (s' & E & W' & V & _). rewrite E. cbn [fst snd expected].
    split; [reflexivity|]. split; [exact V|exact W'].
Qed.
Lemma py_call_range c s : Forall (in_range KInt) s -> lcall_ok s c -> Forall (in_range KInt) (snd (py_call c s)).
Proof.
  intros F [K H]. destruct c as [o|r]; cbn [py_call snd].
  - apply py_step_range; assumption.
  - eapply Permutation_Forall; [symmetry; apply py_sort_perm|exact F].
Qed.

(** ** Histories *)
Fixpoint lhistory_ok (cs : list lcall) (s : list Z) : Prop :=
  match cs with
  | [] => True
  | c :: r => lcall_ok s c /\ zlen s <= SSIZE_MAX /\ lhistory_ok r (snd (py_call c s))
  end.

Theorem lrun_refines cfg cs : forall l, lwf l -> Forall (in_range KInt) (vals l) -> lhistory_ok cs (vals l) ->
  fst (lrun cfg cs l) = map (expected cfg KInt) (fst (py_calls cs (vals l))) /\
  vals (snd (lrun cfg cs l)) = snd (py_calls cs (vals l)) /\ lwf (snd (lrun cfg cs l)).
Proof.
  induction cs as [|c cs IH]; intros l W F H; cbn [lrun py_calls]; [repeat split; auto; apply W|].
  destruct H as (K & L & H). pose proof (py_call_range c _ F K) as F'.
  destruct (lcall_sim cfg c l W F L K) as (S1 & S2 & S3).
  destruct (lcall_step cfg c l) as [x l1] eqn:E. cbn [fst snd] in *.
  destruct (py_call c (vals l)) as [y s1] eqn:E'. cbn [fst snd] in *. subst s1.
  destruct (IH l1 S3 F' H) as (I1 & I2 & I3).
  destruct (lrun cfg cs l1) as [xs l2]. destruct (py_calls cs (vals l1)) as [ys s2]. cbn [fst snd map] in *.
  split; [congruence|]. split; assumption.
Qed.

(** Construction. *)
Lemma linit_items_ok items vs : Forall2 (stores 32) items vs -> forall s, wf s ->
  exists s', linit_items items s = Ret s' /\ wf s' /\ values s' = values s ++ vs.
Proof.
  induction 1 as [|o v items vs H F IH]; intros s W; cbn [linit_items].
  - exists s. rewrite app_nil_r. auto.
  - assert (E : as_elem KInt o = Ret v) by (apply (stores_elem KInt); exact H). rewrite E. destruct (push_back_ok s v W) as (W' & V' & _).
    destruct (IH _ W') as (s' & E' & W2 & V2). exists s'. rewrite E', V2, V', <- app_assoc. auto.
Qed.

Lemma linit_stores a items vs : (a = AList items \/ a = AIter items None) -> Forall2 (stores 32) items vs ->
  exists l, linit (IArg a) = Ret l /\ lwf l /\ vals l = vs /\ modc l = 0.
Proof.
  intros H F. destruct (linit_items_ok items vs F empty wf_empty) as (s' & E & W & V).
  exists (new_list s'). destruct H as [-> | ->]; cbn [linit]; rewrite E; cbn [omap obind]; auto.
Qed.
Lemma linit_same ys : exists l, linit (IArg (ASame ys)) = Ret l /\ lwf l /\ vals l = ys /\ modc l = 0.
Proof. destruct (@copy_of_ok Z ys) as [W V]. eexists. split; [reflexivity|]. auto. Qed.
Lemma linit_bad a items vs o e rest : (a = AList (items ++ o :: rest) \/ exists fin, a = AIter (items ++ o :: rest) fin) ->
  Forall2 (stores 32) items vs -> rejected o e -> linit (IArg a) = Raise RuntimeError.
Proof.
  intros H F R.
  assert (E : forall s, linit_items (items ++ o :: rest) s = Raise RuntimeError).
  { clear H. induction F as [|o' v items vs H F IH]; intros s; cbn [app linit_items].
    - apply (rejected_elem KInt) in R. rewrite R. reflexivity.
    - assert (E : as_elem KInt o' = Ret v) by (apply (stores_elem KInt); exact H). rewrite E. apply IH. }
  destruct H as [-> | (fin & ->)]; cbn [linit]; rewrite E; reflexivity.
Qed.

Lemma linit_iter_fails items vs e : Forall2 (stores 32) items vs -> linit (IArg (AIter items (Some e))) = Raise e.
Proof. intros F. destruct (linit_items_ok items vs F empty wf_empty) as (s' & E & _). cbn [linit]. rewrite E. reflexivity. Qed.

(** ** pop(i) *)
Lemma deref_gone (s : slist Z) i : ~ In i (ids s) -> deref s (Some i) = Undef UseAfterFree.
Proof. intros N. cbn. rewrite (proj2 (pos_of_none (nodes s) i)); [reflexivity|exact N]. Qed.

Lemma lpop_index cfg i l : lwf l -> in_ssize i = true -> vals l <> [] ->
  let p := rel (zlen (vals l)) i in
  (0 <= p < zlen (vals l) -> exists l', lpop cfg (Some (PInt i)) l = (Undef UseAfterFree, l')) /\
  (~ 0 <= p < zlen (vals l) -> lpop cfg (Some (PInt i)) l = (Raise IndexError, l)).
Proof.
  intros W S NE p. unfold lpop. destruct (nodes (lst l)) as [|n ns] eqn:E.
  { exfalso. apply NE. apply nodes_vals. exact E. }
  clear n ns E. cbn [as_long]. unfold in_ssize in S. rewrite S. cbn [lwith]. rewrite lsize_vals.
  change (if i <? 0 then i + zlen (vals l) else i) with p. rewrite idx_test. split; intros B.
  - rewrite (proj2 (rel_bounds_dec _ p) B). cbn [negb]. rewrite at_pos by exact W. cbn [lwith]. unfold zlen in B.
    assert (Hp : (Z.to_nat p < size (lst l))%nat) by (rewrite size_vals; lia).
    destruct (erase_pos (lst l) (Z.to_nat p) W Hp) as (s' & A & W' & V' & _ & _ & N). rewrite A. cbn [lwith].
    destruct (itpos_some (lst l) _ Hp) as (j & J). rewrite J. rewrite deref_gone by (apply N; exact J). cbn [lwith].
    eexists. reflexivity.
  - destruct (_ && _) eqn:C; [apply rel_bounds_dec in C; contradiction|]. reflexivity.
Qed.
Lemma lpop_empty cfg a l : vals l = [] -> lpop cfg a l = (Raise IndexError, l).
Proof. intros H. unfold lpop. rewrite (proj2 (nodes_vals l) H). reflexivity. Qed.

(** ** Failed conversions *)
Lemma lappend_rejected o e l : lwf l -> rejected o e ->
  exists l', lappend o l = (RetPending VNone e, l') /\ vals l' = vals l ++ [-1] /\ lwf l' /\ modc l' = modc l + 1.
Proof.
  intros W R. unfold lappend. rewrite (conv_rejected KInt o e R). cbn [ret_with].
  destruct (push_back_ok (lst l) (-1) W) as (W' & V' & _). eexists. split; [reflexivity|]. auto.
Qed.
Lemma lappend_stores o v l : lwf l -> stores 32 o v ->
  exists l', lappend o l = (Ret VNone, l') /\ vals l' = vals l ++ [v] /\ lwf l' /\ modc l' = modc l + 1.
Proof.
  intros W R. unfold lappend. rewrite (conv_stores KInt o v R). cbn [ret_with].
  destruct (push_back_ok (lst l) v W) as (W' & V' & _). eexists. split; [reflexivity|]. auto.
Qed.

Lemma lextend_rejected after items vs o e rest fin : Forall2 (stores 32) items vs -> rejected o e ->
  forall l, lwf l -> exists l',
  lextend_items after (items ++ o :: rest) fin None l =
    (Raise (match rest, fin with [], Some e' => e' | _, _ => e end), match rest with [] => after l' | _ => l' end) /\
  vals l' = vals l ++ vs ++ [-1] /\ lwf l' /\ modc l' = modc l.
Proof.
  intros F R. induction F as [|o' v items vs H F IH]; intros l W; cbn [app lextend_items].
  - rewrite (conv_rejected KInt o e R). destruct (push_back_ok (lst l) (-1) W) as (W' & V' & _).
    exists (put l (push_back (lst l) (-1))). split; [|auto]. destruct rest as [|x rest]; [destruct fin|]; reflexivity.
  - rewrite (conv_stores KInt o' v H). destruct (push_back_ok (lst l) v W) as (W' & V' & _).
    destruct (IH (put l (push_back (lst l) v)) W') as (l' & E & V & W2 & M). exists l'. split; [exact E|]. split; [|auto].
    rewrite V. unfold vals at 1. cbn [put lst]. rewrite V', <- app_assoc. reflexivity.
Qed.
Lemma lextend_stores after items vs fin : Forall2 (stores 32) items vs ->
  forall l, lwf l -> exists l',
  lextend_items after items fin None l = (match fin with None => Ret tt | Some e => Raise e end, after l') /\
  vals l' = vals l ++ vs /\ lwf l' /\ modc l' = modc l.
Proof.
  intros F. induction F as [|o v items vs H F IH]; intros l W; cbn [lextend_items].
  - exists l. rewrite app_nil_r. destruct fin; auto.
  - rewrite (conv_stores KInt o v H). destruct (push_back_ok (lst l) v W) as (W' & V' & _).
    destruct (IH (put l (push_back (lst l) v)) W') as (l' & E & V & W2 & M). exists l'. split; [exact E|]. split; [|auto].
    rewrite V. unfold vals at 1. cbn [put lst]. rewrite V', <- app_assoc. reflexivity.
Qed.

(** What the last consumed item decides: extend bumps the counter only when the
    loop ran to its end. *)
Lemma lextend_fails inplace items vs o e rest fin a l : lwf l -> Forall2 (stores 32) items vs -> rejected o e ->
  ((a = AList (items ++ o :: rest) /\ fin = None) \/ a = AIter (items ++ o :: rest) fin) ->
  exists l', (if inplace : bool then liadd a l else lextend a l) =
    (Raise (match rest, fin with [], Some e' => e' | _, _ => e end), l') /\
    vals l' = vals l ++ vs ++ [-1] /\ lwf l' /\
    modc l' = modc l + (match rest with [] => if inplace then 0 else 1 | _ => 0 end).
Proof.
  intros W F R A. destruct inplace.
  - destruct (lextend_rejected (fun l => l) items vs o e rest fin F R l W) as (l' & E & V & W' & M).
    exists l'. split; [|split; [exact V|split; [exact W'|destruct rest; lia]]].
    destruct A as [[-> ->] | ->]; cbn [liadd]; rewrite E; destruct rest; reflexivity.
  - destruct (lextend_rejected (fun l => bump l (lst l)) items vs o e rest fin F R l W) as (l' & E & V & W' & M).
    destruct rest as [|x rest].
    + exists (bump l' (lst l')). cbn [modc bump]. split; [|split; [exact V|split; [exact W'|lia]]].
      destruct A as [[-> ->] | ->]; cbn [lextend]; rewrite E; reflexivity.
    + exists l'. split; [|split; [exact V|split; [exact W'|lia]]].
      destruct A as [[-> ->] | ->]; cbn [lextend]; rewrite E; reflexivity.
Qed.
Lemma liadd_ok how vs l : lwf l -> Forall (in_range KInt) vs ->
  exists l', liadd (match how with FromList => AList (map PInt vs) | FromIterator => AIter (map PInt vs) None | FromSameType => ASame vs end) l
    = (Ret (match how with FromSameType => VNone | _ => VSelf end), l') /\
  vals l' = vals l ++ vs /\ lwf l' /\ modc l' = modc l.
Proof.
  intros W F. destruct how; cbn [liadd].
  1,2: destruct (lextend_ok (fun l => l) vs None (fun l => conj eq_refl (fun H => H)) F l W) as (l' & E & W' & V' & M');
    rewrite E; exists l'; auto.
  destruct (append_range_ok vs (lst l) W) as (W' & V' & _). eexists. split; [reflexivity|]. auto.
Qed.

(** ** Comparison *)
Lemma leq_loop_ok items vs l : lwf l -> Forall2 (stores 32) items vs -> forall pre a xs,
  vals l = a ++ xs -> length xs = length items -> length pre = length a ->
  exists b, leq_loop (get_items (pre ++ items)) (length items) (Z.of_nat (length pre)) (itpos (lst l) (length pre)) (lst l) = Ret b /\
    (b = true <-> xs = vs).
Proof.
  intros W F. induction F as [|o v items vs H F IH]; intros pre a xs V L P.
  - destruct xs; [|discriminate]. exists true. split; [reflexivity|tauto].
  - destruct xs as [|x xs]; [discriminate|]. cbn [length leq_loop]. unfold get_items at 1.
    rewrite znth_mid by reflexivity.
    assert (N : nth_error (vals l) (length pre) = Some x) by (rewrite V, P, nth_error_app2, Nat.sub_diag by lia; reflexivity).
    rewrite (deref_pos (lst l) _ x W N). cbn [obind]. rewrite (conv_stores KInt o v H).
    destruct (Z.eqb_spec x v) as [->|Ne]; cbn [negb].
    + rewrite next_pos; [|exact W|rewrite size_vals; apply nth_error_Some; congruence]. cbn [obind].
      destruct (IH (pre ++ [o]) (a ++ [v]) xs) as (b & Eb & B); [rewrite V, <- app_assoc; reflexivity|cbn in L; lia|rewrite !app_length, P; reflexivity|].
      rewrite <- app_assoc in Eb. cbn [app] in Eb. rewrite app_length in Eb. cbn [length] in Eb.
      exists b. split.
      * rewrite <- Eb. f_equal; [lia|f_equal; lia].
      * rewrite B. split; [intros ->; reflexivity|intros E; injection E; auto].
    + exists false. split; [reflexivity|]. split; [discriminate|intros E; injection E; intros; contradiction].
Qed.

Lemma lord_loop_ok r items vs l : lwf l -> Forall2 (stores 32) items vs -> forall pre a xs,
  vals l = a ++ xs -> length xs = length items -> length pre = length a ->
  lord_loop r (get_items (pre ++ items)) (length items) (Z.of_nat (length pre)) (itpos (lst l) (length pre)) None (lst l)
  = Ret (lexf r false xs vs).
Proof.
  intros W F. induction F as [|o v items vs H F IH]; intros pre a xs V L P.
  - destruct xs; [|discriminate]. reflexivity.
  - destruct xs as [|x xs]; [discriminate|]. cbn [length lord_loop lexf]. unfold get_items at 1.
    rewrite znth_mid by reflexivity.
    assert (N : nth_error (vals l) (length pre) = Some x) by (rewrite V, P, nth_error_app2, Nat.sub_diag by lia; reflexivity).
    rewrite (deref_pos (lst l) _ x W N). cbn [obind]. rewrite (conv_stores KInt o v H). cbv zeta.
    destruct (Z.eqb_spec x v) as [->|Ne]; cbn [negb]; [|reflexivity].
    rewrite next_pos; [|exact W|rewrite size_vals; apply nth_error_Some; congruence]. cbn [obind].
    specialize (IH (pre ++ [o]) (a ++ [v]) xs). rewrite <- !app_assoc in IH. cbn [app] in IH. rewrite !app_length in IH. cbn [length] in IH.
    rewrite <- IH; [|assumption|cbn in L; lia|lia]. f_equal; [lia|f_equal; lia].
Qed.

Lemma lexf_le_lt xs : forall ys, lexf Z.leb false xs ys = lexf Z.ltb false xs ys.
Proof.
  induction xs as [|x xs IH]; intros [|y ys]; cbn [lexf]; try reflexivity.
  destruct (Z.eqb_spec x y); [apply IH|]. destruct (Z.leb_spec x y), (Z.ltb_spec x y); try reflexivity; lia.
Qed.
Lemma lexf_ge_gt xs : forall ys, lexf Z.geb false xs ys = lexf Z.gtb false xs ys.
Proof.
  induction xs as [|x xs IH]; intros [|y ys]; cbn [lexf]; try reflexivity.
  destruct (Z.eqb_spec x y); [apply IH|]. rewrite Z.geb_leb, Z.gtb_ltb. destruct (Z.leb_spec y x), (Z.ltb_spec y x); try reflexivity; lia.
Qed.

(** What the four order operators answer. *)
Definition llord_sem (c : cmp_op) (s ys : list Z) : Prop :=
  if (length s =? length ys)%nat
  then match c with Lt_ | Le_ => lex_lt s ys | _ => lex_lt ys s end
  else (length s < length ys)%nat.

Lemma lcompare_items c items vs l : lwf l -> Forall2 (stores 32) items vs ->
  exists b, lcompare c (cmp_items items) l = Ret b /\
    (b = true <-> match c with Eq_ => vals l = vs | Ne_ => vals l <> vs | _ => llord_sem c (vals l) vs end).
Proof.
  intros W F. pose proof (Forall2_len _ _ _ F) as Lf.
  assert (E : exists b, leq (cmp_items items) l = Ret b /\ (b = true <-> vals l = vs)).
  { unfold leq, cmp_items. cbn [seq_size]. rewrite lsize_vals.
    destruct (Z.eqb_spec (zlen items) (zlen (vals l))) as [Ls|Ls]; cbn [negb].
    - replace (Z.to_nat (zlen items)) with (length items) by (unfold zlen; lia).
      apply (leq_loop_ok items vs l W F [] [] (vals l)); [reflexivity|unfold zlen in Ls; lia|reflexivity].
    - eexists. split; [reflexivity|]. split; [discriminate|]. intros X. unfold zlen in Ls. rewrite Lf, X in Ls. contradiction. }
  assert (O : forall r, lord r (cmp_items items) l =
    Ret (if (length (vals l) =? length vs)%nat then lexf r false (vals l) vs else (length (vals l) <? length vs)%nat)).
  { intros r. unfold lord, cmp_items. rewrite lsize_vals. unfold zlen at 1 2. rewrite eqb_of_nat, Lf.
    destruct (Nat.eqb_spec (length (vals l)) (length vs)) as [Ls|Ls]; cbn [negb].
    - replace (Z.to_nat (zlen items)) with (length items) by (unfold zlen; lia).
      apply (lord_loop_ok r items vs l W F [] [] (vals l)); [reflexivity|lia|reflexivity].
    - f_equal. unfold zlen. rewrite Lf. destruct (Nat.ltb_spec (length (vals l)) (length vs)), (Z.ltb_spec (Z.of_nat (length (vals l))) (Z.of_nat (length vs))); try reflexivity; lia. }
  assert (Q : forall c, is_ord c -> (if (length (vals l) =? length vs)%nat then lexf (op_rel c) false (vals l) vs else (length (vals l) <? length vs)%nat) = true
              <-> llord_sem c (vals l) vs).
  { intros c' Hc. unfold llord_sem. destruct (Nat.eqb_spec (length (vals l)) (length vs)) as [Ls|Ls]; [|apply Nat.ltb_lt].
    assert (Z1 : (zlen (vals l) <? zlen vs) = false) by (unfold zlen; apply Z.ltb_ge; lia).
    assert (Z2 : (zlen vs <? zlen (vals l)) = false) by (unfold zlen; apply Z.ltb_ge; lia).
    pose proof (lexf_ltb (vals l) vs) as LT. rewrite Z1 in LT.
    pose proof (lexf_flip (vals l) vs) as FL. rewrite Z.gtb_ltb, Z2 in FL.
    pose proof (lexf_ltb vs (vals l)) as GT. rewrite Z2 in GT.
    destruct c'; cbn [is_ord op_rel] in *; try contradiction.
    - exact LT.
    - rewrite lexf_le_lt. exact LT.
    - rewrite FL. exact GT.
    - rewrite lexf_ge_gt, FL. exact GT. }
  destruct c; cbn [lcompare].
  - exact E.
  - destruct E as (b & E & B). unfold lne. rewrite E. eexists. split; [reflexivity|].
    rewrite negb_true_iff, <- not_true_iff_false, B. reflexivity.
  - eexists. split; [apply O|]. apply (Q Lt_). exact I.
  - eexists. split; [apply O|]. apply (Q Le_). exact I.
  - eexists. split; [apply O|]. apply (Q Gt_). exact I.
  - eexists. split; [apply O|]. apply (Q Ge_). exact I.
Qed.

Lemma lcmp_same_items cfg c ys l :
  lcompare c (lcmp_same cfg ys) l = lcompare c (cmp_items (map (fun v => PInt (pl_val (from_elem cfg KInt v))) ys)) l.
Proof.
  assert (G : forall i, get_as_int cfg KInt ys i = get_items (map (fun v => PInt (pl_val (from_elem cfg KInt v))) ys) i).
  { intros i. unfold get_as_int, get_items. rewrite znth_map. destruct (znth ys i); reflexivity. }
  assert (G1 : forall n i it s, leq_loop (get_as_int cfg KInt ys) n i it s
             = leq_loop (get_items (map (fun v => PInt (pl_val (from_elem cfg KInt v))) ys)) n i it s).
  { induction n as [|n IH]; intros i it s; cbn [leq_loop]; [reflexivity|]. rewrite G. destruct (get_items _ i); try reflexivity.
    destruct (deref s it); cbn [obind]; try reflexivity; destruct (conv_pending KInt a) as [v [?|]]; try reflexivity;
    (destruct (negb _); [reflexivity|]); destruct (it_next s it); cbn [obind]; rewrite ?IH; reflexivity. }
  assert (G2 : forall r n i it p s, lord_loop r (get_as_int cfg KInt ys) n i it p s
             = lord_loop r (get_items (map (fun v => PInt (pl_val (from_elem cfg KInt v))) ys)) n i it p s).
  { intros r. induction n as [|n IH]; intros i it p s; cbn [lord_loop]; [reflexivity|]. rewrite G. destruct (get_items _ i); try reflexivity.
    destruct (deref s it); cbn [obind]; try reflexivity; destruct (conv_pending KInt a) as [v ?]; cbv zeta;
    (destruct (negb _); [reflexivity|]); destruct (it_next s it); cbn [obind]; rewrite ?IH; reflexivity. }
  assert (Z : zlen ys = zlen (map (fun v => PInt (pl_val (from_elem cfg KInt v))) ys)) by (unfold zlen; rewrite map_length; reflexivity).
  assert (E : leq (lcmp_same cfg ys) l = leq (cmp_items (map (fun v => PInt (pl_val (from_elem cfg KInt v))) ys)) l).
  { unfold leq, lcmp_same, cmp_items. cbn [seq_size]. rewrite <- Z. destruct (negb _); [reflexivity|]. apply G1. }
  assert (O : forall r, lord r (lcmp_same cfg ys) l = lord r (cmp_items (map (fun v => PInt (pl_val (from_elem cfg KInt v))) ys)) l).
  { intros r. unfold lord, lcmp_same, cmp_items. rewrite <- Z. destruct (negb _); [reflexivity|]. apply G2. }
  destruct c; cbn [lcompare]; unfold lne; rewrite ?E, ?O; reflexivity.
Qed.
Lemma reread_stores cfg v : in_range KInt v -> stores 32 (PInt (pl_val (from_elem cfg KInt v))) (reread cfg KInt v).
Proof.
  intros R. apply (stores_elem KInt). rewrite as_elem_int.
  rewrite (proj2 (in_sbits_b_spec 64 _)) by (apply from_elem_range; exact R). reflexivity.
Qed.
Lemma lcompare_same cfg c ys l : lwf l -> Forall (in_range KInt) ys ->
  exists b, lcompare c (lcmp_same cfg ys) l = Ret b /\
    (b = true <-> match c with Eq_ => vals l = map (reread cfg KInt) ys | Ne_ => vals l <> map (reread cfg KInt) ys
                             | _ => llord_sem c (vals l) (map (reread cfg KInt) ys) end).
Proof.
  intros W F. rewrite lcmp_same_items. apply lcompare_items; [exact W|].
  induction F as [|v ys R F IH]; cbn [map]; constructor; [apply reread_stores; exact R|exact IH].
Qed.

(** ** repr *)
Lemma lrepr_loop_ok l : lwf l -> forall mid pre v str, vals l = pre ++ mid ++ [v] ->
  obind (lrepr_loop (lst l) (length mid) (itpos (lst l) (length pre)) str) (fun str' =>
  obind (append_int v) (fun t => Ret (str' ++ t ++ [93]))) = repr_loop (mid ++ [v]) str.
Proof.
  intros W. induction mid as [|x mid IH]; intros pre v str V; cbn [length lrepr_loop app].
  - reflexivity.
  - assert (N : nth_error (vals l) (length pre) = Some x) by (rewrite V, nth_error_app2, Nat.sub_diag by lia; reflexivity).
    rewrite (deref_pos (lst l) _ x W N). cbn [obind].
    rewrite next_pos; [|exact W|rewrite size_vals; apply nth_error_Some; congruence].
    specialize (IH (pre ++ [x]) v). rewrite app_length in IH. cbn [length] in IH. rewrite Nat.add_1_r in IH.
    rewrite <- app_assoc in IH. cbn [app] in IH.
    assert (RL : repr_loop (x :: mid ++ [v]) str = obind (append_int x) (fun t => repr_loop (mid ++ [v]) (str ++ t ++ [44; 32]))).
    { destruct mid; reflexivity. }
    rewrite RL. assert (A : (exists t, append_int x = Ret t) \/ exists u, append_int x = Undef u).
    { unfold append_int. destruct (_ <? _)%nat; eauto. }
    destruct A as [[t A] | [u A]]; rewrite A; cbn [obind]; [|reflexivity]. apply IH. exact V.
Qed.
Lemma lrepr_ok l : lwf l -> lrepr l = repr_ (vals l).
Proof.
  intros W. unfold lrepr, repr_. pose proof (nodes_vals l) as NV. destruct (nodes (lst l)) as [|n ns] eqn:E.
  - rewrite (proj1 NV eq_refl). reflexivity.
  - assert (NE : vals l <> []) by (intros X; apply NV in X; discriminate). clear NV E n ns.
    destruct (exists_last NE) as (s & v & EV).
    assert (L : (size (lst l) - 1)%nat = length s) by (rewrite size_vals, EV, app_length; cbn; lia). rewrite L.
    rewrite at_pos by exact W. cbn [obind].
    assert (N : nth_error (vals l) (length s) = Some v) by (rewrite EV, nth_error_app2, Nat.sub_diag by lia; reflexivity).
    rewrite (deref_pos (lst l) _ v W N). cbn [obind].
    pose proof (lrepr_loop_ok l W s [] v [91] EV) as Q. cbn [length] in Q. change (begin_ (lst l)) with (itpos (lst l) 0). rewrite Q.
    rewrite EV. destruct s; reflexivity.
Qed.

(** ** Repetition *)
Lemma mul_copies_ok vs n : forall s, wf s -> wf (mul_copies n vs s) /\ values (mul_copies n vs s) = values s ++ reps n vs.
Proof.
  induction n as [|n IH]; intros s W; cbn [mul_copies].
  - unfold reps. cbn. rewrite app_nil_r. auto.
  - destruct (append_range_ok vs s W) as (W' & V' & _). destruct (IH _ W') as [W2 V2]. split; [exact W2|].
    rewrite V2, V', <- app_assoc. reflexivity.
Qed.
Lemma lmul_ok n l : lmul n l = (Ret (VNewList (reps (Z.to_nat n) (vals l))), l).
Proof.
  unfold lmul. destruct (Z.ltb_spec n 0).
  - replace (Z.to_nat n) with 0%nat by lia. reflexivity.
  - destruct (Z.eqb_spec n 0) as [->|]; [reflexivity|].
    destruct (mul_copies_ok (values (lst l)) (Z.to_nat n) empty wf_empty) as [_ V]. rewrite V. reflexivity.
Qed.
Lemma reps_add {A} a b (s : list A) : reps (a + b) s = reps a s ++ reps b s.
Proof. induction a as [|a IH]; [reflexivity|]. cbn [Nat.add]. rewrite !reps_S, IH, app_assoc. reflexivity. Qed.
Lemma imul_rounds_ok v n : forall s m, wf s -> values s = reps m v -> wf (imul_rounds n s) /\ values (imul_rounds n s) = reps (2 ^ n * m) v.
Proof.
  induction n as [|n IH]; intros s m W V; cbn [imul_rounds].
  - rewrite Nat.pow_0_r, Nat.mul_1_l. auto.
  - destruct (append_range_ok (values s) s W) as (W' & V' & _). destruct (IH (append_range s (values s)) (m + m)%nat W') as [W2 V2].
    + rewrite V', V, <- reps_add. reflexivity.
    + split; [exact W2|]. rewrite V2. f_equal. cbn [Nat.pow]. lia.
Qed.
Lemma limul_ok n l : lwf l -> exists l', limul n l = (Ret VSelf, l') /\ lwf l' /\ modc l' = modc l /\
  vals l' = if n <=? 0 then [] else reps (2 ^ (Z.to_nat n - 1)) (vals l).
Proof.
  intros W. unfold limul.
  assert (C : (if n <? 0 then 0 else n) =? 0 = (n <=? 0)).
  { destruct (Z.ltb_spec n 0), (Z.leb_spec n 0); try reflexivity; lia. }
  cbv zeta. rewrite C. destruct (Z.leb_spec n 0) as [H|H].
  - eexists. split; [reflexivity|]. split; [apply clear_ok|]. split; reflexivity.
  - destruct (Z.ltb_spec n 0); [lia|]. eexists. split; [reflexivity|].
    destruct (imul_rounds_ok (vals l) (Z.to_nat n - 1) (lst l) 1%nat W) as [W' V'].
    + unfold reps. cbn. rewrite app_nil_r. reflexivity.
    + rewrite Nat.mul_1_r in V'. split; [exact W'|]. split; [reflexivity|exact V'].
Qed.

(** * Concatenation *)
Lemma ladd_list cfg items l : lwf l -> exists ps, ladd cfg (AddList items) l = (Ret (VConcat ps items), l) /\
  Forall2 (fun p v => p = from_elem cfg KInt v) ps (vals l) /\ (py312 cfg = false -> Forall2 (fun p v => p = mk_pylong v) ps (vals l)).
Proof.
  intros W. exists (map (from_elem cfg KInt) (vals l)). split.
  - unfold ladd. rewrite begin_pos, read_all_ok by (auto; lia). cbn [lwith skipn]. rewrite firstn_all2 by (rewrite size_values; lia). reflexivity.
  - split; [|intros H]; induction (vals l); constructor; auto. apply elements_canonical. auto.
Qed.
Lemma ladd_fails cfg l : (forall ys, ladd cfg (AddSame ys) l = (Raise MemoryError, l)) /\ ladd cfg AddOther l = (Raise TypeError, l).
Proof. split; reflexivity. Qed.
