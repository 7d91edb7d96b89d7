(** Programs over several array lists refine Python's. *)
From Coq Require Import ZArith List Bool Lia Arith.
From Verif Require Import Base PyLongModel PyLongProofs MemModel QReverseModel PyListSpec PyHeapSpec
  ListLemmas ArrayListModel ArrayListProofs ArrayListSpec ArrayListFacts ArrayWorldModel.
Import ListNotations.
Local Open Scope Z_scope.
Local Arguments Z.pow : simpl never.
Local Arguments Z.of_nat : simpl never.
Local Arguments Z.to_nat : simpl never.

(** ** Slice assignment from another array list *)
Lemma assign_loop_ext k s1 s2 n i start s :
  (forall s i, src_get s1 s i = src_get s2 s i) ->
  assign_loop k s1 n i start s = assign_loop k s2 n i start s.
Proof.
  intros H. revert i s. induction n as [|n IH]; intros i s; [reflexivity|]. cbn [assign_loop]. rewrite H.
  destruct (src_get s2 s i); try reflexivity. destruct (as_long a); destruct (zset s (start + i) _); try reflexivity; apply IH.
Qed.
Lemma insert_loop_ext k s1 s2 n i start s :
  (forall s i, src_get s1 s i = src_get s2 s i) ->
  insert_loop k s1 n i start s = insert_loop k s2 n i start s.
Proof.
  intros H. revert i s. induction n as [|n IH]; intros i s; [reflexivity|]. cbn [insert_loop]. rewrite H.
  destruct (src_get s2 s i); try reflexivity. destruct (as_long a); destruct (zinsert s (start + i) _); try reflexivity; apply IH.
Qed.
Lemma setitem_slice_ext k sl s1 s2 s :
  (forall s, src_len s1 s = src_len s2 s) -> (forall s i, src_get s1 s i = src_get s2 s i) ->
  setitem_slice k sl (AssSeq s1) s = setitem_slice k sl (AssSeq s2) s.
Proof.
  intros HL HG. unfold setitem_slice. destruct (PySlice_Unpack sl) as [[[a b] c]| | |]; try reflexivity.
  cbn [with_]. destruct (PySlice_AdjustIndices (zlen s) a b c) as [[x y] z]. rewrite HL.
  destruct (src_len s2 s); rewrite !(assign_loop_ext k s1 s2) by assumption;
  destruct (negb (c =? 1)); try reflexivity;
  match goal with |- context [if ?a =? ?b then _ else _] => destruct (a =? b) end; try reflexivity;
  match goal with |- context [if ?a <? ?b then _ else _] => destruct (a <? b) end; try reflexivity;
  destruct (assign_loop k s2 (Z.to_nat z) 0 x s) as [[| | |] s']; cbn [fst snd]; try reflexivity;
  rewrite !(insert_loop_ext k s1 s2) by assumption; reflexivity.
Qed.

Lemma znth_map {A B} (f : A -> B) l i : znth (map f l) i = option_map f (znth l i).
Proof. unfold znth. destruct (i <? 0); [reflexivity|]. apply nth_error_map. Qed.

Lemma src_same_items cfg k t sl s :
  setitem_slice k sl (AssSeq (src_same cfg k t)) s =
  setitem_slice k sl (AssSeq (src_items (map (fun v => PInt (pl_val (from_elem cfg k v))) t))) s.
Proof.
  apply setitem_slice_ext; intros; cbn [src_len src_get src_same src_items].
  - unfold zlen. rewrite map_length. reflexivity.
  - unfold get_as_int. rewrite znth_map. destruct (znth t i); reflexivity.
Qed.

Lemma from_elem_range cfg k v : in_range k v -> - 2 ^ 63 <= pl_val (from_elem cfg k v) < 2 ^ 63.
Proof.
  intros R. destruct k; cbn [from_elem].
  - destruct (py312 cfg).
    + rewrite from_int_312_value by exact R. unfold in_range, in_sbits in R. change (2 ^ (bits KInt - 1)) with (2 ^ 31) in R.
      assert (2 ^ 31 = 2147483648) by reflexivity. assert (2 ^ 32 = 4294967296) by reflexivity.
      assert (2 ^ 63 = 9223372036854775808) by reflexivity. destruct (Z.ltb_spec v 0); lia.
    + rewrite from_int_old, mk_pylong_val. unfold in_range, in_sbits in R. change (2 ^ (bits KInt - 1)) with (2 ^ 31) in R.
      assert (2 ^ 31 = 2147483648) by reflexivity. assert (2 ^ 63 = 9223372036854775808) by reflexivity. lia.
  - rewrite mk_pylong_val. exact R.
Qed.

(** What a slice assignment from another list of the class stores for [v]. *)
Definition reread (cfg : config) (k : kind) (v : Z) : Z := wrap (bits k) (pl_val (from_elem cfg k v)).

Lemma setslice_same cfg k sl t s : zlen s <= SSIZE_MAX -> step_of sl = 1 -> Forall (in_range k) t ->
  setitem_slice k sl (AssSeq (src_same cfg k t)) s = (Ret VNone, py_setslice s sl (map (reread cfg k) t)).
Proof.
  intros L S F. rewrite src_same_items. apply setslice_stores; [assumption|assumption|].
  clear S. induction F as [|v t R F IH]; cbn [map]; constructor; [|assumption].
  apply stores_elem. rewrite as_elem_int.
  rewrite (proj2 (in_sbits_b_spec 64 _)) by (apply from_elem_range; exact R). reflexivity.
Qed.

Lemma reread_exact cfg k v : in_range k v -> exact_reads cfg k v -> reread cfg k v = v.
Proof. intros R E. unfold reread. rewrite E. apply wrap_id; [apply bits_ge|exact R]. Qed.

Lemma exact_reads_old cfg k v : py312 cfg = false -> exact_reads cfg k v.
Proof.
  intros H. unfold exact_reads. destruct k; cbn [from_elem]; [rewrite H, from_int_old|]; apply mk_pylong_val.
Qed.
Lemma exact_reads_nonneg cfg k v : in_range k v -> 0 <= v -> exact_reads cfg k v.
Proof.
  intros R P. unfold exact_reads. destruct k; cbn [from_elem]; [|apply mk_pylong_val].
  destruct (py312 cfg); [|rewrite from_int_old; apply mk_pylong_val].
  rewrite from_int_312_value by exact R. destruct (Z.ltb_spec v 0); lia.
Qed.

(** From 3.12 on, every negative element changes sign (-2^31 stays). *)
Lemma reread_312_neg cfg v : py312 cfg = true -> in_range KInt v -> v < 0 ->
  reread cfg KInt v = if v =? - 2 ^ 31 then v else - v.
Proof.
  intros H R N. unfold reread. cbn [from_elem]. rewrite H, from_int_312_value by exact R.
  destruct (Z.ltb_spec v 0); [|lia]. unfold in_range, in_sbits in R.
  change (bits KInt) with 32 in *. unfold wrap. change (2 ^ (32 - 1)) with (2 ^ 31) in *.
  assert (E1 : 2 ^ 31 = 2147483648) by reflexivity. assert (E2 : 2 ^ 32 = 4294967296) by reflexivity.
  rewrite E1 in R. rewrite E1, E2.
  change (- (2147483648)) with (-2147483648) in *. destruct (Z.eqb_spec v (-2147483648)) as [->|].
  - reflexivity.
  - replace (- (4294967296 + v) + 2147483648) with (- v + 2147483648 + (-1) * 4294967296) by lia.
    rewrite Z.mod_add by lia. rewrite Z.mod_small by lia. lia.
Qed.

(** ** Worlds *)
Definition wf (k : kind) (w : world) : Prop := Forall (Forall (in_range k)) (heap w).

Definition stmt_ok (cfg : config) (k : kind) (w : world) (st : stmt) : Prop :=
  match st with
  | SNew _ vs | SIaddList _ vs => Forall (in_range k) vs
  | SFrom _ _ | SCopy _ _ | SAlias _ _ => True
  | SCall x o => forall i s, lookup w x = Some (i, s) -> zlen s <= SSIZE_MAX /\ op_ok k s o
  | SExtend x y => forall i s j t, lookup w x = Some (i, s) -> lookup w y = Some (j, t) -> i <> j
  | SIadd _ _ => False
  | SSetSlice x sl y => step_of sl = 1 /\
      forall i s j t, lookup w x = Some (i, s) -> lookup w y = Some (j, t) ->
        i <> j /\ zlen s <= SSIZE_MAX /\ Forall (exact_reads cfg k) t
  end.

Lemma put_ext {A} (l : list A) i d v : nth_error l i <> None -> put l i d v = firstn i l ++ v :: skipn (S i) l.
Proof.
  revert l. induction i as [|i IH]; intros [|x l] H; cbn in *; try congruence.
  rewrite IH by assumption. reflexivity.
Qed.

Lemma lookup_nth w x i s : lookup w x = Some (i, s) -> nth_error (heap w) i = Some s.
Proof.
  unfold lookup. destruct (nth x (env w) RNone) as [|j]; [discriminate|].
  destruct (nth_error (heap w) j) eqn:E; cbn; [|discriminate]. intros H; injection H as <- <-. exact E.
Qed.

Lemma wf_lookup k w x i s : wf k w -> lookup w x = Some (i, s) -> Forall (in_range k) s.
Proof. intros W L. apply lookup_nth in L. apply nth_error_In in L. unfold wf in W. rewrite Forall_forall in W. auto. Qed.

Lemma wf_set k w i s s0 : wf k w -> nth_error (heap w) i = Some s0 -> Forall (in_range k) s -> wf k (set_obj w i s).
Proof.
  intros W N F. unfold wf, set_obj; cbn [heap]. rewrite put_ext by congruence.
  apply Forall_app. split; [apply Forall_firstn; exact W|]. constructor; [exact F|apply Forall_skipn; exact W].
Qed.

Lemma wf_alloc k w x s : wf k w -> Forall (in_range k) s -> wf k (alloc w x s).
Proof. intros W F. unfold wf, alloc; cbn. apply Forall_app. split; [exact W|]. constructor; [exact F|constructor]. Qed.

Lemma py_setslice_range k s sl vs : Forall (in_range k) s -> Forall (in_range k) vs -> Forall (in_range k) (py_setslice s sl vs).
Proof. intros A B. unfold py_setslice. repeat (apply Forall_app; split); auto using Forall_firstn, Forall_skipn. Qed.

Lemma range_stores k vs : Forall (in_range k) vs -> Forall2 (stores (bits k)) (map PInt vs) vs.
Proof. induction 1; cbn [map]; constructor; [|assumption]. apply stores_elem. apply as_elem_ok. assumption. Qed.

Lemma exec_refines cfg k st w : wf k w -> stmt_ok cfg k w st ->
  exec cfg k st w = (expected cfg k (fst (py_exec st w)), snd (py_exec st w)) /\ wf k (snd (py_exec st w)).
Proof.
  intros W H. destruct st; cbn [exec py_exec stmt_ok] in *.
  - cbn [init]. rewrite (init_items_good k _ vs) by (apply range_stores; assumption). cbn. split; [reflexivity|].
    apply wf_alloc; assumption.
  - destruct (lookup w y) as [[j t]|] eqn:L; cbn; [|split; [reflexivity|assumption]]. split; [reflexivity|].
    apply wf_alloc; [assumption|]. eapply wf_lookup; eauto.
  - destruct (lookup w y) as [[j t]|] eqn:L; cbn; [|split; [reflexivity|assumption]]. split; [reflexivity|].
    apply wf_alloc; [assumption|]. eapply wf_lookup; eauto.
  - split; [reflexivity|exact W].
  - destruct (lookup w x) as [[i s]|] eqn:L; [|split; [reflexivity|assumption]].
    destruct (H i s eq_refl) as [Hl Ho]. pose proof (wf_lookup _ _ _ _ _ W L) as F.
    rewrite step_refines by assumption. pose proof (py_step_range k o s F Ho) as F'.
    destruct (py_step o s) as [r s']. cbn [fst snd] in *. split; [reflexivity|].
    eapply wf_set; eauto. eapply lookup_nth; eauto.
  - destruct (lookup w x) as [[i s]|] eqn:L; [|split; [reflexivity|assumption]].
    destruct (lookup w y) as [[j t]|] eqn:L2; [|split; [reflexivity|assumption]].
    specialize (H i s j t eq_refl eq_refl). destruct (Nat.eqb_spec i j); [contradiction|].
    cbn. split; [reflexivity|]. eapply wf_set; eauto using lookup_nth.
    apply Forall_app; split; eapply wf_lookup; eauto.
  - contradiction.
  - destruct (lookup w x) as [[i s]|] eqn:L; [|split; [reflexivity|assumption]].
    cbn [iadd]. rewrite extend_items_ok by assumption. cbn. split; [reflexivity|].
    eapply wf_set; eauto using lookup_nth. apply Forall_app; split; [eapply wf_lookup; eauto|assumption].
  - destruct H as [Hs H]. destruct (lookup w x) as [[i s]|] eqn:L; [|split; [reflexivity|assumption]].
    destruct (lookup w y) as [[j t]|] eqn:L2; [|split; [reflexivity|assumption]].
    destruct (H i s j t eq_refl eq_refl) as (N & Hl & X). destruct (Nat.eqb_spec i j); [contradiction|].
    pose proof (wf_lookup _ _ _ _ _ W L2) as Ft.
    rewrite setslice_same by assumption.
    assert (E : map (reread cfg k) t = t).
    { rewrite <- (map_id t) at 2. apply map_ext_in. intros v I. rewrite Forall_forall in Ft, X.
      apply reread_exact; auto. }
    rewrite E. cbn. split; [reflexivity|]. eapply wf_set; eauto using lookup_nth.
    apply py_setslice_range; [eapply wf_lookup; eauto|assumption].
Qed.

Fixpoint prog_ok (cfg : config) (k : kind) (p : list stmt) (w : world) : Prop :=
  match p with
  | [] => True
  | st :: r => stmt_ok cfg k w st /\ prog_ok cfg k r (snd (py_exec st w))
  end.

Lemma prog_refines cfg k p w : wf k w -> prog_ok cfg k p w ->
  prog cfg k p w = (map (expected cfg k) (fst (py_prog p w)), snd (py_prog p w)).
Proof.
  revert w. induction p as [|st p IH]; intros w W H; [reflexivity|]. destruct H as [H1 H2].
  cbn [prog py_prog]. destruct (exec_refines cfg k st w W H1) as [-> W'].
  destruct (py_exec st w) as [r w']. cbn [fst snd] in *. rewrite IH by assumption.
  destruct (py_prog p w') as [rs w'']. reflexivity.
Qed.

(** ** Frame: a statement changes at most the object its first name denotes,
    and adds at most one object. *)
Definition target (st : stmt) : option nat :=
  match st with
  | SCall x _ | SExtend x _ | SIadd x _ | SIaddList x _ | SSetSlice x _ _ => Some x
  | _ => None
  end.

Lemma nth_put_other {A} (l : list A) i j d v : i <> j -> nth_error l i <> None ->
  nth_error (put l j d v) i = nth_error l i.
Proof.
  revert i j. induction l as [|x l IH]; intros i j N E; [destruct i; cbn in E; congruence|].
  destruct i, j; cbn in *; try congruence. apply IH; congruence.
Qed.

Lemma exec_frame cfg k st w n t : nth_error (heap w) n = Some t ->
  (forall x i s, target st = Some x -> lookup w x = Some (i, s) -> i <> n) ->
  nth_error (heap (snd (exec cfg k st w))) n = Some t.
Proof.
  intros E H.
  assert (A : forall x s, nth_error (heap (alloc w x s)) n = Some t).
  { intros. unfold alloc; cbn. rewrite nth_error_app1; [exact E|]. apply nth_error_Some. congruence. }
  assert (B : forall x o, nth_error (heap (snd (bind_new w x o))) n = Some t).
  { intros x o. unfold bind_new. destruct o as [[]| | |]; cbn [snd]; auto. }
  assert (S : forall x i s s', target st = Some x -> lookup w x = Some (i, s) ->
            nth_error (heap (set_obj w i s')) n = Some t).
  { intros x i s s' T L. unfold set_obj; cbn [heap]. rewrite nth_put_other; [exact E| |congruence].
    intros ->. eapply H; eauto. }
  destruct st; cbn [exec target] in *; auto.
  - destruct (lookup w y) as [[? ?]|]; [apply B|exact E].
  - destruct (lookup w y) as [[? ?]|]; [apply B|exact E].
  - destruct (lookup w x) as [[i s]|] eqn:L; [|exact E]. destruct (step cfg k o s). eapply S; eauto.
  - destruct (lookup w x) as [[i s]|] eqn:L; [|exact E]. destruct (lookup w y) as [[j u]|]; [|exact E].
    destruct (extend _ _ _). eapply S; eauto.
  - destruct (lookup w x) as [[i s]|] eqn:L; [|exact E]. destruct (lookup w y) as [[j u]|]; [|exact E].
    unfold bind_iadd. pose proof (fun s' => S x i s s' eq_refl L) as S'.
    destruct (fst (iadd _ _ _)) as [[]| | |]; cbn [snd]; apply S'.
  - destruct (lookup w x) as [[i s]|] eqn:L; [|exact E].
    unfold bind_iadd. pose proof (fun s' => S x i s s' eq_refl L) as S'.
    destruct (fst (iadd _ _ _)) as [[]| | |]; cbn [snd]; apply S'.
  - destruct (lookup w x) as [[i s]|] eqn:L; [|exact E]. destruct (lookup w y) as [[j u]|]; [|exact E].
    destruct (setitem_slice _ _ _ _). eapply S; eauto.
Qed.

(** [x += y] on two distinct lists: the object grows as in Python, the name is
    lost. *)
Lemma iadd_rebinds cfg k w x y i s j t : lookup w x = Some (i, s) -> lookup w y = Some (j, t) -> i <> j ->
  exec cfg k (SIadd x y) w = (Ret VNone, bind_name (set_obj w i (s ++ t)) x RNone).
Proof.
  intros L1 L2 N. cbn [exec]. rewrite L1, L2. destruct (Nat.eqb_spec i j); [contradiction|]. reflexivity.
Qed.

Lemma nth_put_same {A} (l : list A) i d v e : nth i (put l i d v) e = v.
Proof. revert l. induction i as [|i IH]; intros [|a l]; cbn; auto. Qed.

(** A fresh copy is a new object. *)
Lemma from_fresh cfg k w x y j t : lookup w y = Some (j, t) ->
  forall st, st = SFrom x y \/ st = SCopy x y ->
  exec cfg k st w = (Ret VNone, alloc w x t) /\
  lookup (alloc w x t) x = Some (length (heap w), t) /\ (j < length (heap w))%nat.
Proof.
  intros L st H. split; [|split].
  - destruct H as [-> | ->]; cbn [exec]; rewrite L; reflexivity.
  - unfold lookup, alloc. cbn [env heap bind_name]. rewrite nth_put_same.
    rewrite nth_error_app2, Nat.sub_diag by lia. reflexivity.
  - apply lookup_nth in L. apply nth_error_Some. congruence.
Qed.

(** ** Forms used by the property theorems *)
Lemma step_raise_keeps cfg k o s e s' :
  Forall (in_range k) s -> zlen s <= SSIZE_MAX -> op_ok k s o ->
  step cfg k o s = (Raise e, s') -> s' = s.
Proof.
  intros F L H E. rewrite step_refines in E by assumption. injection E as E1 <-.
  destruct o; cbn [py_step] in *;
  repeat match goal with
  | |- context [if ?c then _ else _] => destruct c
  | |- context [match ?l with [] => _ | _ :: _ => _ end] => destruct l
  end; try reflexivity; cbn in E1; discriminate.
Qed.

Lemma pop_huge_empty cfg k z : ~ in_sbits 64 z ->
  fst (step cfg k (OPop (Some z)) []) = Raise IndexError /\
  fst (py_step (OPop (Some z)) []) = SRaise OverflowError.
Proof.
  intros N. split; [reflexivity|]. cbn [py_step]. unfold in_ssize.
  destruct (in_sbits_b 64 z) eqn:E; [apply in_sbits_b_spec in E; contradiction|reflexivity].
Qed.

Lemma index_huge_bound cfg k v s z : zlen s <= SSIZE_MAX -> in_range k v -> 2 ^ 63 <= z -> In v s ->
  fst (step cfg k (OIndex v None (Some z)) s) = Raise OverflowError /\
  exists p, fst (py_step (OIndex v None (Some z)) s) = SRet (SNum p).
Proof.
  intros L R Hz I. split.
  - cbn [step option_map]. unfold index. rewrite parse_elem_ok by assumption. cbn [with_].
    unfold parse_n, as_long. destruct (in_sbits_b 64 z) eqn:E; [|reflexivity].
    apply in_sbits_b_spec in E. unfold in_sbits in E. change (64 - 1) with 63 in E. lia.
  - cbn [py_step]. fold (zlen s).
    assert (Rz : rel (zlen s) z = z). { unfold rel. destruct (Z.ltb_spec z 0); [|reflexivity]. assert (0 < 2 ^ 63) by reflexivity. lia. }
    rewrite Rz. assert (C : zlen s <= z) by (destruct ssize_consts as [A _]; rewrite A in L; assert (2 ^ 63 = 9223372036854775808) by reflexivity; lia).
    destruct (filter _ _) as [|p r] eqn:E; [|exists p; reflexivity]. exfalso.
    apply In_nth with (d := 0) in I. destruct I as (n & Hn & En).
    assert (In (Z.of_nat n) []) as []. rewrite <- E. apply filter_In. split.
    + unfold occurrences. apply filter_In. split; [apply in_positions; lia|].
        unfold get_default. rewrite Nat2Z.id, En. apply Z.eqb_refl.
    + unfold zlen in C. apply andb_true_intro. split; [apply Z.leb_le; lia|apply Z.ltb_lt; lia].
Qed.

Lemma setitem_both k o i a x c :
  zlen (a ++ x :: c) <= SSIZE_MAX -> rel (zlen (a ++ x :: c)) i = zlen a ->
  (forall v, stores (bits k) o v ->
     ass_subscript k (PInt i) (Some o) (a ++ x :: c) = (Ret VNone, a ++ v :: c)) /\
  (forall e, rejected o e ->
     ass_subscript k (PInt i) (Some o) (a ++ x :: c) = (Raise e, a ++ x :: c)).
Proof.
  intros L R. split.
  - intros v H. apply setitem_stores; assumption.
  - intros e H. apply setitem_rejects; [assumption|assumption|]. rewrite R, zlen_app, zlen_cons.
    pose proof (zlen_nonneg a). pose proof (zlen_nonneg c). lia.
Qed.

Lemma construct_items k items vs : Forall2 (stores (bits k)) items vs ->
  init k (IArg (AList items)) = Ret (VNewList vs) /\ init k (IArg (AIter items None)) = Ret (VNewList vs).
Proof. intros F. cbn [init]. rewrite (init_items_good k items vs) by assumption. split; reflexivity. Qed.

Lemma construct_iter_err k items vs e : Forall2 (stores (bits k)) items vs ->
  init k (IArg (AIter items (Some e))) = Raise e.
Proof. intros F. cbn [init]. rewrite (init_items_good k items vs) by assumption. reflexivity. Qed.

Lemma construct_bad k items e fin : Exists (fun o => rejected o e) items ->
  init k (IArg (AList items)) = Raise RuntimeError /\ init k (IArg (AIter items fin)) = Raise RuntimeError.
Proof. intros X. cbn [init]. destruct (init_items_bad k items e [] X) as [s' ->]. split; reflexivity. Qed.

Lemma construct_int k z : in_sbits 64 z -> init k (IInt z) = Ret (VNewList []).
Proof. intros H. cbn [init]. rewrite (proj2 (in_sbits_b_spec 64 z)) by assumption. reflexivity. Qed.

Lemma extend_construct k items vs s : Forall2 (stores (bits k)) items vs ->
  extend k (AList items) s = (Ret VNone, s ++ vs) /\
  extend k (AIter items None) s = (Ret VNone, s ++ vs) /\
  init k (IArg (AList items)) = Ret (VNewList vs).
Proof.
  intros F. cbn [extend]. rewrite (extend_items_good k items vs) by assumption.
  split; [reflexivity|]. split; [reflexivity|]. apply construct_items. assumption.
Qed.

Lemma iadd_items k items vs s : Forall2 (stores (bits k)) items vs ->
  iadd k (AList items) s = (Ret VSelf, s ++ vs) /\ iadd k (AIter items None) s = (Ret VSelf, s ++ vs).
Proof. intros F. cbn [iadd]. rewrite (extend_items_good k items vs) by assumption. split; reflexivity. Qed.

Lemma extend_bad k items vs o e rest fin s :
  Forall2 (stores (bits k)) items vs -> rejected o e ->
  extend k (AList (items ++ o :: rest)) s = (Raise e, s ++ vs) /\
  extend k (AIter (items ++ o :: rest) fin) s = (Raise e, s ++ vs) /\
  iadd k (AList (items ++ o :: rest)) s = (Raise e, s ++ vs) /\
  iadd k (AIter (items ++ o :: rest) fin) s = (Raise e, s ++ vs).
Proof.
  intros F R. cbn [extend iadd]. rewrite !(extend_items_bad k items vs o e) by assumption.
  repeat split.
Qed.

Lemma extend_iter_err k items vs e s : Forall2 (stores (bits k)) items vs ->
  extend k (AIter items (Some e)) s = (Raise e, s ++ vs) /\
  iadd k (AIter items (Some e)) s = (Raise e, s ++ vs).
Proof. intros F. cbn [extend iadd]. rewrite !(extend_items_good k items vs) by assumption. split; reflexivity. Qed.

Lemma insert_rejects k i z s : in_sbits 64 i -> ~ in_range k z ->
  insert k (PInt i) (PInt z) s = (Raise OverflowError, s).
Proof.
  intros I N. unfold insert, parse_n, as_long. rewrite (proj2 (in_sbits_b_spec 64 i)) by assumption. cbn [with_].
  rewrite parse_elem_rejects by assumption. reflexivity.
Qed.

Lemma index_rejects k z oa ob s : ~ in_range k z -> index k (PInt z) oa ob s = (Raise OverflowError, s).
Proof. intros N. unfold index. rewrite parse_elem_rejects by assumption. reflexivity. Qed.

Lemma false_membership z : - 2 ^ 63 <= z < 2 ^ 63 -> ~ (- 2 ^ 31 <= z < 2 ^ 31) ->
  exists v, ~ In z [v] /\ in_range KInt v /\
  contains KInt (PInt z) [v] = (Ret (VBool true), [v]) /\
  remove KInt (PInt z) [v] = (Ret VNone, []).
Proof.
  intros R N. set (v := wrap 32 z).
  assert (S : stores (bits KInt) (PInt z) v).
  { exists z. split; [reflexivity|]. split; [exact R|]. apply reduced_wrap. reflexivity. }
  exists v. split; [|split; [|split]].
  - intros [E|[]]. apply (stores_out_of_range KInt z v S); [exact N|assumption].
  - destruct S as (z' & _ & _ & Rr & _). exact Rr.
  - destruct (contains_char KInt (PInt z) v [v] S) as (b & -> & B).
    rewrite (proj2 B) by (left; reflexivity). reflexivity.
  - destruct (remove_char KInt (PInt z) v [v] S) as [[C _]|(a & c & E & Na & ->)].
    + exfalso. apply C. left. reflexivity.
    + destruct a as [|x a]; [injection E as <-; reflexivity|]. destruct a; discriminate.
Qed.

Lemma setslice_other cfg k sl t s : zlen s <= SSIZE_MAX -> step_of sl = 1 ->
  Forall (in_range k) t -> k = KBig \/ py312 cfg = false \/ Forall (fun v => 0 <= v) t ->
  setitem_slice k sl (AssSeq (src_same cfg k t)) s = (Ret VNone, py_setslice s sl t).
Proof.
  intros L S F H. rewrite setslice_same by assumption. do 2 f_equal.
  rewrite <- (map_id t) at 2. apply map_ext_in. intros v I. rewrite Forall_forall in F. specialize (F v I).
  apply reread_exact; [assumption|]. destruct H as [-> | [H | H]].
  - apply exact_reads_big. assumption.
  - apply exact_reads_old. assumption.
  - rewrite Forall_forall in H. apply exact_reads_nonneg; auto.
Qed.

Lemma setslice_other_312 cfg sl t s : py312 cfg = true ->
  zlen s <= SSIZE_MAX -> step_of sl = 1 -> Forall (in_range KInt) t ->
  setitem_slice KInt sl (AssSeq (src_same cfg KInt t)) s =
  (Ret VNone, py_setslice s sl (map (fun v => if v =? - 2 ^ 31 then v else Z.abs v) t)).
Proof.
  intros C L S F. rewrite setslice_same by assumption. do 2 f_equal.
  apply map_ext_in. intros v I. rewrite Forall_forall in F. specialize (F v I).
  destruct (Z.lt_ge_cases v 0).
  - rewrite reread_312_neg by assumption. destruct (v =? - 2 ^ 31); [reflexivity|lia].
  - rewrite reread_exact by (auto using exact_reads_nonneg).
    destruct (Z.eqb_spec v (- 2 ^ 31)); [reflexivity|lia].
Qed.

Lemma setslice_del k sl s : step_of sl <> 0 -> setitem_slice k sl AssDel s = (Undef NullDeref, s).
Proof.
  intros N. unfold setitem_slice. destruct (unpack_cases sl) as [[E _]|[_ (a & b & c & ->)]]; [contradiction|].
  cbn [with_]. destruct (PySlice_AdjustIndices (zlen s) a b c) as [[x y] z]. reflexivity.
Qed.

Lemma setslice_bad_empty k items vs o e rest s (p : Z) : zlen s <= SSIZE_MAX ->
  0 <= p <= zlen s -> Forall2 (stores (bits k)) items vs -> rejected o e ->
  snd (setitem_slice k {| sl_start := Some p; sl_stop := Some p; sl_step := None |}
        (AssSeq (src_items (items ++ o :: rest))) s)
  = firstn (Z.to_nat p) s ++ vs ++ -1 :: skipn (Z.to_nat p) s.
Proof.
  intros L P F R. set (sl := {| sl_start := Some p; sl_stop := Some p; sl_step := None |}).
  destruct (setslice_bad k sl items vs o e rest s L eq_refl F R) as (a & b & c & E & Q & ->).
  cbn [snd].
  assert (Hp : clamp (Z.of_nat (length s)) (rel (Z.of_nat (length s)) p) = p).
  { unfold zlen in P. unfold clamp, rel. destruct (Z.ltb_spec p 0); lia. }
  assert (PS : forall ws, py_setslice s sl ws = firstn (Z.to_nat p) s ++ ws ++ skipn (Z.to_nat p) s).
  { intros ws. unfold py_setslice, sl; cbn [sl_start sl_stop]. rewrite Hp, Z.max_id. reflexivity. }
  pose proof (Q []) as Q1. rewrite PS in Q1. cbn [app] in Q1. rewrite firstn_skipn in Q1.
  assert (B : b = []). { assert (length s = length (a ++ c)) by (rewrite <- Q1; reflexivity).
    rewrite E, !app_length in H. destruct b; [reflexivity|cbn in H; lia]. }
  subst b. rewrite skipn_nil. cbn [app].
  pose proof (Q (vs ++ [-1])) as Q2. rewrite PS in Q2. rewrite <- !app_assoc in Q2. cbn [app] in Q2.
  symmetry. exact Q2.
Qed.

Lemma resize_char n s : 0 <= n < 2 ^ 63 ->
  exists s', resize (PInt n) s = (Ret VNone, s') /\ zlen s' = n /\
  forall i, 0 <= i < n -> nth_error s' (Z.to_nat i) =
    Some (match nth_error s (Z.to_nat i) with Some v => v | None => 0 end).
Proof.
  intros H. unfold resize. rewrite (proj2 (in_sbits_b_spec 64 n))
    by (unfold in_sbits; change (64 - 1) with 63; assert (0 < 2 ^ 63) by reflexivity; lia).
  destruct (Z.ltb_spec n 0); [lia|]. eexists. split; [reflexivity|]. split.
  - unfold zlen. rewrite app_length, firstn_length, repeat_length. lia.
  - intros i Hi. destruct (Nat.lt_ge_cases (Z.to_nat i) (length s)) as [C|C].
    + rewrite nth_error_app1 by (rewrite firstn_length; lia).
      rewrite <- (firstn_skipn (Z.to_nat n) s) at 2. rewrite nth_error_app1 by (rewrite firstn_length; lia).
      rewrite (nth_error_nth' _ 0) by (rewrite firstn_length; lia). reflexivity.
    + rewrite nth_error_app2 by (rewrite firstn_length; lia). rewrite (proj2 (nth_error_None s (Z.to_nat i))) by lia.
      rewrite (nth_error_nth' _ 0) by (rewrite repeat_length, firstn_length; lia).
      rewrite nth_repeat. reflexivity.
Qed.

Lemma resize_rejects n s : n < 0 \/ 2 ^ 63 <= n -> resize (PInt n) s = (Raise ValueError, s).
Proof.
  intros H. unfold resize. destruct (in_sbits_b 64 n) eqn:E; [|reflexivity].
  apply in_sbits_b_spec in E. unfold in_sbits in E. change (64 - 1) with 63 in E.
  destruct (Z.ltb_spec n 0); [reflexivity|lia].
Qed.

Lemma add_list cfg k s items : exists ps,
  add cfg k (AddList items) s = (Ret (VConcat ps items), s) /\
  Forall2 (fun p v => p = from_elem cfg k v) ps s.
Proof.
  eexists. split; [reflexivity|]. induction s; cbn [map]; constructor; auto.
Qed.

Lemma elements_canonical cfg k v : k = KBig \/ py312 cfg = false -> from_elem cfg k v = mk_pylong v.
Proof. intros [-> | H]; [reflexivity|]. destruct k; cbn [from_elem]; [rewrite H; apply from_int_old|reflexivity]. Qed.
