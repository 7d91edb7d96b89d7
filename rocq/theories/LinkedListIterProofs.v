(** Iterators of IntLinkedList. *)
From Coq Require Import ZArith List Bool Arith Lia Permutation.
From Verif Require Import Base PyLongModel PyLongProofs PyListSpec ListLemmas ArrayListModel ArrayListProofs ArrayListSpec
  ArrayListFacts ArrayListMoreModel ArrayListMoreProofs SimdCopyProofs StdListModel StdListProofs LinkedListSpec LinkedListModel LinkedListProofs LinkedListFacts.
Import ListNotations.
Local Open Scope Z_scope.
Local Arguments Z.pow : simpl never.
Local Arguments Z.of_nat : simpl never.
Local Arguments Z.to_nat : simpl never.
Local Arguments Z.modulo : simpl never.

(** ** What a call does to the modification counter and the node identities *)
Definition bumps (r : lres) (l : ll) : Prop :=
  (exists v s, r = (Ret v, bump l s)) \/ (exists o, r = (o, l) /\ forall v, o <> Ret v).
Lemma bumps_with {A} (o : outcome A) l f : (forall a, bumps (f a) l) -> bumps (lwith o l f) l.
Proof. intros H. destruct o; cbn; [apply H| | |]; right; eexists; (split; [reflexivity|discriminate]). Qed.
Lemma bumps_raise e l : bumps (Raise e, l) l.
Proof. right. eexists. split; [reflexivity|discriminate]. Qed.
Lemma bumps_ret v s l : bumps (Ret v, bump l s) l.
Proof. left. eauto. Qed.

Definition keeps (r : lres) (l : ll) : Prop := snd r = l.
Lemma keeps_with {A} (o : outcome A) l f : (forall a, keeps (f a) l) -> keeps (lwith o l f) l.
Proof. intros H. destruct o; cbn; [apply H| | |]; reflexivity. Qed.

(** Calls that cannot remove a node without the counter noticing. *)
Definition calm (c : lcall) : bool :=
  match c with LCall (ODel _) | LCall OClear | LCall (OSetSlice _ _) => false | _ => true end.

Lemma linsert_bumps a b l : bumps (linsert a b l) l.
Proof. unfold linsert. repeat (apply bumps_with; intros). apply bumps_ret. Qed.
Lemma lremove_bumps o l : bumps (lremove o l) l.
Proof.
  unfold lremove. do 2 (apply bumps_with; intros). destruct (it_eqb _ _); [apply bumps_raise|].
  apply bumps_with; intros. apply bumps_ret.
Qed.
Lemma lpop_bumps cfg l : bumps (lpop cfg None l) l.
Proof. unfold lpop. destruct (nodes (lst l)); [apply bumps_raise|]. do 2 (apply bumps_with; intros). apply bumps_ret. Qed.

Ltac keep_tac := repeat (apply keeps_with; intros); repeat match goal with
  | |- context [if ?b then _ else _] => destruct b
  | |- keeps (lwith _ _ _) _ => apply keeps_with; intros
  | |- context [let '(_, _) := ?x in _] => destruct x
  end; try reflexivity.

Lemma call_effect cfg c l : lwf l -> Forall (in_range KInt) (vals l) -> zlen (vals l) <= SSIZE_MAX ->
  lcall_ok (vals l) c -> calm c = true ->
  modc (snd (lcall_step cfg c l)) = modc l + (if noticed c (vals l) then 1 else 0) /\
  (noticed c (vals l) = false -> ids (lst (snd (lcall_step cfg c l))) = ids (lst l)).
Proof.
  intros W F L K C. pose proof (lcall_sim cfg c l W F L K) as (S1 & _ & _).
  assert (BP : bumps (lcall_step cfg c l) l -> (noticed c (vals l) = match fst (py_call c (vals l)) with SRet _ => true | SRaise _ => false end) ->
    modc (snd (lcall_step cfg c l)) = modc l + (if noticed c (vals l) then 1 else 0) /\
    (noticed c (vals l) = false -> ids (lst (snd (lcall_step cfg c l))) = ids (lst l))).
  { intros B N. cbn [fst] in S1. rewrite N. destruct B as [(v & s & E) | (o & E & NR)]; rewrite E in *; cbn [fst snd] in *.
    - destruct (fst (py_call c (vals l))) as [[| | | | |]|]; cbn [expected] in S1; try discriminate S1; split; try discriminate; reflexivity.
    - destruct (fst (py_call c (vals l))) as [x|]; [exfalso; destruct x; cbn [expected] in S1; eapply NR; eauto|]. split; [lia|reflexivity]. }
  assert (KP : keeps (lcall_step cfg c l) l -> noticed c (vals l) = false ->
    modc (snd (lcall_step cfg c l)) = modc l + (if noticed c (vals l) then 1 else 0) /\
    (noticed c (vals l) = false -> ids (lst (snd (lcall_step cfg c l))) = ids (lst l))).
  { intros Kp N. rewrite N, Kp. split; [lia|reflexivity]. }
  clear S1. destruct c as [o|r]; [|cbn; split; [lia|discriminate]].
  destruct K as [K1 K2]. destruct o; cbn [calm linked op_ok] in *; try discriminate C; try contradiction.
  - clear BP KP. cbn [lcall_step lstep noticed]. unfold lappend. destruct (conv_pending _ _). cbn [snd bump modc]. split; [lia|discriminate].
  - clear BP KP. cbn [lcall_step lstep noticed]. split; [|discriminate]. destruct how; cbn [lextend].
    1,2: destruct (lextend_ok (fun l => bump l (lst l)) vs None (fun l => conj eq_refl (fun H => H)) K2 l W) as (l' & E & W' & V' & M');
      rewrite E; cbn; lia.
    reflexivity.
  - apply BP; [apply linsert_bumps|reflexivity].
  - destruct i; [contradiction|]. apply BP; [apply lpop_bumps|reflexivity].
  - apply BP; [apply lremove_bumps|reflexivity].
  - clear BP KP. cbn [lcall_step lstep noticed]. destruct (lreverse_ok l W) as (s & E & V & I & _). rewrite E. cbn [snd put modc lst]. split; [lia|auto].
  - apply KP; reflexivity.
  - apply KP; [|reflexivity]. cbn [lcall_step lstep]. unfold lsubscript, lgetitem. keep_tac.
  - clear BP KP. cbn [lcall_step lstep noticed]. unfold lass_subscript.
    destruct (as_index (PInt i)); cbn [lwith snd]; try (split; [lia|reflexivity]).
    unfold lsetitem. cbv zeta. rewrite lsize_vals. set (p := if a <? 0 then _ else _). rewrite idx_test.
    destruct (_ && _) eqn:B; cbn [negb]; [|split; [cbn; lia|reflexivity]]. apply rel_bounds_dec in B.
    rewrite at_pos by exact W. cbn [lwith]. unfold zlen in B. destruct (conv_pending _ _) as [x e].
    destruct (assign_pos (lst l) (Z.to_nat p) x W) as (s' & A & W' & I & _); [rewrite size_vals; lia|]. rewrite A. cbn [lwith snd put modc lst].
    split; [lia|auto].
  - apply KP; [|reflexivity]. cbn [lcall_step lstep]. unfold lgetitem_slice. apply keeps_with. intros [[st sp] k].
    destruct (PySlice_AdjustIndices _ _ _ _) as [[? ?] ?]. apply keeps_with. reflexivity.
  - apply KP; [|reflexivity]. cbn [lcall_step lstep]. unfold lindex. keep_tac.
  - apply KP; [|reflexivity]. cbn [lcall_step lstep]. unfold lcount. keep_tac.
  - apply KP; [|reflexivity]. cbn [lcall_step lstep]. unfold lcontains. keep_tac.
  - apply KP; [|reflexivity]. cbn [lcall_step lstep]. unfold lto_list. keep_tac.
  - apply KP; reflexivity.
Qed.

(** ** The forward iterator *)
Fixpoint levents_ok (es : list levent) (s : list Z) : Prop :=
  zlen s <= SSIZE_MAX /\
  match es with
  | [] => True
  | EvCall c :: r => lcall_ok s c /\ calm c = true /\ levents_ok r (snd (py_call c s))
  | EvNext :: r => levents_ok r s
  end.

Definition it_inv (it : liter) (l : ll) (dirty : bool) (count pos : nat) : Prop :=
  li_rev it = false /\ li_index it = Z.of_nat count /\ (pos <= count)%nat /\ li_mod it <= modc l /\
  dirty = negb (li_mod it =? modc l) /\ (dirty = false -> li_cache it = itpos (lst l) pos).

Lemma usize_small z : 0 <= z < 2 ^ 64 -> usize z = z.
Proof. intros H. unfold usize. apply Z.mod_small. exact H. Qed.
Lemma ssize_room (s : list Z) (n : nat) : zlen s <= SSIZE_MAX -> (n <= length s)%nat -> Z.of_nat n + 2 < 2 ^ 64.
Proof.
  unfold zlen. intros H1 H2. assert (E : SSIZE_MAX = 9223372036854775807) by reflexivity. rewrite E in H1.
  assert (E2 : 2 ^ 64 = 18446744073709551616) by reflexivity. lia.
Qed.

Lemma next_spec it l dirty count pos : lwf l -> zlen (vals l) <= SSIZE_MAX -> it_inv it l dirty count pos ->
  if (length (vals l) <=? count)%nat then liter_next it l = (Raise StopIteration, it)
  else let p := if dirty then count else pos in
       exists it', liter_next it l = (Ret (nth p (vals l) 0), it') /\
         it_inv it' l false (if dirty then S (S count) else S count) (S p).
Proof.
  intros W L (R & I & P & M & D & C). unfold liter_next. rewrite R, lsize_vals, I.
  pose proof (nodes_vals l) as NV. unfold zlen.
  destruct (Nat.leb_spec (length (vals l)) count) as [H|H].
  - destruct (nodes (lst l)); [reflexivity|]. destruct (Z.leb_spec (Z.of_nat (length (vals l))) (Z.of_nat count)); [reflexivity|lia].
  - destruct (nodes (lst l)) as [|n ns] eqn:EN.
    { rewrite (proj1 NV eq_refl) in H. cbn in H. lia. }
    clear NV EN n ns. destruct (Z.leb_spec (Z.of_nat (length (vals l))) (Z.of_nat count)); [lia|].
    pose proof (ssize_room (vals l) count L ltac:(lia)) as Rm. cbv zeta.
    unfold update_cache. destruct dirty.
    + destruct (Z.eqb_spec (li_mod it) (modc l)) as [|Ne]; [cbn in D; discriminate|]. cbn [negb] in *.
      unfold at_z. rewrite I. destruct (Z.ltb_spec (Z.of_nat count) 0); [lia|]. rewrite Nat2Z.id, at_pos by exact W. cbn [obind li_cache li_index li_mod].
      rewrite (deref_pos (lst l) count (nth count (vals l) 0) W) by (apply nth_error_nth'; exact H). cbn [obind].
      rewrite next_pos by (auto; rewrite size_vals; lia). cbn [obind]. eexists. split; [reflexivity|].
      rewrite R. rewrite (usize_small (Z.of_nat count + 1)) by lia. rewrite usize_small by lia.
      unfold it_inv. cbn [li_rev li_index li_mod li_cache]. rewrite Z.eqb_refl. split; [reflexivity|]. split; [lia|]. split; [lia|]. split; [lia|]. split; reflexivity.
    + destruct (Z.eqb_spec (li_mod it) (modc l)) as [Em|Ne]; [|cbn in D; discriminate]. cbn [obind].
      rewrite (C eq_refl).
      rewrite (deref_pos (lst l) pos (nth pos (vals l) 0) W) by (apply nth_error_nth'; lia). cbn [obind].
      rewrite next_pos by (auto; rewrite size_vals; lia). cbn [obind]. eexists. split; [reflexivity|].
      rewrite I. rewrite usize_small by lia.
      unfold it_inv. cbn [li_rev li_index li_mod li_cache]. rewrite Em, Z.eqb_refl. split; [reflexivity|]. split; [lia|]. split; [lia|]. split; [lia|]. split; reflexivity.
Qed.

Theorem lplay_reseek cfg es : forall it l dirty count pos, lwf l -> Forall (in_range KInt) (vals l) ->
  it_inv it l dirty count pos -> levents_ok es (vals l) ->
  lplay cfg es it l = reseek_play es dirty count pos (vals l).
Proof.
  induction es as [|[c|] es IH]; intros it l dirty count pos W F Inv [L H]; cbn [lplay reseek_play]; [reflexivity| |].
  - destruct H as (K & Cm & H). pose proof (lcall_sim cfg c l W F L K) as (_ & S2 & S3). cbn [snd] in S2.
    destruct (call_effect cfg c l W F L K Cm) as [E1 E2]. set (l' := snd (lcall_step cfg c l)) in *.
    rewrite <- S2 in *. apply IH; auto.
    + rewrite S2. apply py_call_range; assumption.
    + destruct Inv as (R & I & P & M & D & C). unfold it_inv. split; [exact R|]. split; [exact I|]. split; [exact P|].
      rewrite E1. destruct (noticed c (vals l)).
      * split; [lia|]. split; [|intros X; rewrite orb_true_r in X; discriminate].
        rewrite orb_true_r. destruct (Z.eqb_spec (li_mod it) (modc l + 1)); [lia|reflexivity].
      * rewrite Z.add_0_r, orb_false_r. split; [exact M|]. split; [exact D|]. intros X. rewrite (C X). apply itpos_ids. symmetry. auto.
  - pose proof (next_spec it l dirty count pos W L Inv) as N. destruct (Nat.leb_spec (length (vals l)) count) as [Hc|Hc].
    + rewrite N. f_equal. apply IH; auto.
    + cbv zeta in N. destruct N as (it' & -> & Inv'). f_equal. apply IH; auto.
Qed.

Lemma create_inv l : exists it, liter_create false l = Ret it /\ it_inv it l false 0 0.
Proof.
  eexists. split; [reflexivity|]. unfold it_inv. cbn. rewrite Z.eqb_refl. repeat split; lia.
Qed.

Theorem forward_play cfg es l : lwf l -> Forall (in_range KInt) (vals l) -> levents_ok es (vals l) ->
  exists it, liter_create false l = Ret it /\ lplay cfg es it l = reseek_play es false 0 0 (vals l).
Proof.
  intros W F H. destruct (create_inv l) as (it & E & I). exists it. split; [exact E|]. apply lplay_reseek; assumption.
Qed.

(** ** Consequences *)
(** No noticed modification: Python's iterator. *)
Fixpoint quiet (es : list levent) (s : list Z) : Prop :=
  match es with
  | [] => True
  | EvCall c :: r => noticed c s = false /\ length (snd (py_call c s)) = length s /\ quiet r (snd (py_call c s))
  | EvNext :: r => quiet r s
  end.
Lemma reseek_quiet es : forall s pos, quiet es s ->
  reseek_play es false pos pos s = py_play es (if (length s <? pos)%nat then None else Some pos) s /\
  (length s <= pos -> reseek_play es false pos pos s = py_play es None s)%nat.
Proof.
  induction es as [|[c|] es IH]; intros s pos H; cbn [reseek_play py_play]; [auto| |].
  - destruct H as (N & Ln & H). rewrite N. cbn [orb]. destruct (IH _ pos H) as [I1 I2]. rewrite Ln in *. auto.
  - cbn [quiet] in H. destruct (Nat.leb_spec (length s) pos) as [G|G].
    + assert (X : Raise StopIteration :: reseek_play es false pos pos s = Raise StopIteration :: py_play es None s)
        by (f_equal; apply IH; assumption).
      split; [|auto]. rewrite X. destruct (Nat.ltb_spec (length s) pos); [reflexivity|].
      rewrite (proj2 (nth_error_None s pos)) by lia. reflexivity.
    + split; [|lia]. destruct (Nat.ltb_spec (length s) pos); [lia|]. rewrite (nth_error_nth' s 0) by exact G.
      f_equal. destruct (IH s (S pos) H) as [I1 _]. rewrite I1. destruct (Nat.ltb_spec (length s) (S pos)); [lia|reflexivity].
Qed.
Theorem forward_quiet cfg es l : lwf l -> Forall (in_range KInt) (vals l) -> levents_ok es (vals l) -> quiet es (vals l) ->
  exists it, liter_create false l = Ret it /\ lplay cfg es it l = py_play es (Some 0%nat) (vals l).
Proof.
  intros W F H Q. destruct (forward_play cfg es l W F H) as (it & E & P). exists it. split; [exact E|]. rewrite P.
  apply (reseek_quiet es (vals l) 0 Q).
Qed.

(** next() calls only. *)
Lemma reseek_nexts s n : forall count pos, (pos <= count)%nat ->
  reseek_play (repeat EvNext n) false count pos s =
  firstn n (map Ret (firstn (length s - count) (skipn pos s))) ++ repeat (Raise StopIteration) (n - (length s - count)).
Proof.
  induction n as [|n IH]; intros count pos H; cbn [repeat reseek_play]; [reflexivity|].
  destruct (Nat.leb_spec (length s) count) as [G|G].
  - rewrite IH by lia. replace (length s - count)%nat with 0%nat by lia. cbn [firstn map]. rewrite !firstn_nil, !Nat.sub_0_r. reflexivity.
  - rewrite IH by lia. replace (length s - count)%nat with (S (length s - S count)) by lia.
    assert (N : nth_error s pos = Some (nth pos s 0)) by (apply nth_error_nth'; lia).
    rewrite (StdListProofs.skipn_nth _ _ _ N). cbn [firstn map app Nat.sub]. reflexivity.
Qed.
Lemma lnexts_ok s n : zlen s <= SSIZE_MAX -> levents_ok (repeat EvNext n) s.
Proof. intros H. induction n; cbn; auto. Qed.
Lemma forward_all cfg l n : lwf l -> Forall (in_range KInt) (vals l) -> zlen (vals l) <= SSIZE_MAX ->
  exists it, liter_create false l = Ret it /\
  lplay cfg (repeat EvNext n) it l = firstn n (map Ret (vals l)) ++ repeat (Raise StopIteration) (n - length (vals l)).
Proof.
  intros W F L. destruct (forward_play cfg (repeat EvNext n) l W F (lnexts_ok _ _ L)) as (it & E & P). exists it. split; [exact E|].
  rewrite P, reseek_nexts by lia. cbn [skipn]. rewrite Nat.sub_0_r, firstn_all. reflexivity.
Qed.

(** One noticed call after [k] items: of the new contents [s'] the items
    [k .. length s' - 2] follow, then the end. *)
Lemma reseek_app_nexts s k es : forall pos, (pos + k <= length s)%nat ->
  reseek_play (repeat EvNext k ++ es) false pos pos s = map Ret (firstn k (skipn pos s)) ++ reseek_play es false (pos + k) (pos + k) s.
Proof.
  induction k as [|k IH]; intros pos H; cbn [repeat app reseek_play].
  - rewrite Nat.add_0_r. reflexivity.
  - destruct (Nat.leb_spec (length s) pos); [lia|].
    assert (N : nth_error s pos = Some (nth pos s 0)) by (apply nth_error_nth'; lia).
    rewrite (StdListProofs.skipn_nth _ _ _ N). cbn [firstn map app]. f_equal. rewrite IH by lia. do 2 f_equal; lia.
Qed.
Lemma firstn_cons_skip {A} (s : list A) k m d : (k < length s)%nat -> nth k s d :: firstn m (skipn (S k) s) = firstn (S m) (skipn k s).
Proof.
  intros H. assert (N : nth_error s k = Some (nth k s d)) by (apply nth_error_nth'; exact H).
  rewrite (StdListProofs.skipn_nth _ _ _ N). reflexivity.
Qed.
Lemma reseek_noticed s c k n : (k <= length s)%nat -> noticed c s = true ->
  let s' := snd (py_call c s) in
  (k + 1 < length s')%nat ->
  reseek_play (repeat EvNext k ++ EvCall c :: repeat EvNext n) false 0 0 s =
  map Ret (firstn k s) ++ firstn n (map Ret (removelast (skipn k s'))) ++ repeat (Raise StopIteration) (n - (length s' - k - 1)).
Proof.
  intros Hk N s' H. rewrite (reseek_app_nexts s k (EvCall c :: repeat EvNext n) 0) by lia. cbn [skipn Nat.add reseek_play]. f_equal.
  rewrite N. cbn [orb]. fold s'. destruct n as [|n]; [reflexivity|]. cbn [repeat reseek_play].
  destruct (Nat.leb_spec (length s') k); [lia|]. rewrite reseek_nexts by lia.
  rewrite (removelast_firstn_len (skipn k s')), skipn_length.
  replace (length s' - S (S k))%nat with (Nat.pred (Nat.pred (length s' - k))) by lia.
  set (m := Nat.pred (length s' - k)). assert (Em : m = S (Nat.pred m)) by (unfold m; lia).
  replace (firstn m (skipn k s')) with (nth k s' 0 :: firstn (Nat.pred m) (skipn (S k) s'))
    by (rewrite firstn_cons_skip by lia; f_equal; lia).
  cbn [map firstn app]. do 3 f_equal. unfold m. lia.
Qed.
(** When the position reached is the last one of the new contents it is read
    and the iteration ends; past the end it ends at once. *)
Lemma reseek_noticed_last s c k n : (k <= length s)%nat -> noticed c s = true ->
  let s' := snd (py_call c s) in
  (length s' <= k + 1)%nat ->
  reseek_play (repeat EvNext k ++ EvCall c :: repeat EvNext n) false 0 0 s =
  map Ret (firstn k s) ++ firstn n (map Ret (skipn k s')) ++ repeat (Raise StopIteration) (n - (length s' - k)).
Proof.
  intros Hk N s' H. rewrite (reseek_app_nexts s k (EvCall c :: repeat EvNext n) 0) by lia. cbn [skipn Nat.add reseek_play]. f_equal.
  rewrite N. cbn [orb]. fold s'. destruct (Nat.eq_dec (length s') (k + 1)) as [E|E].
  - destruct n as [|n]; [reflexivity|]. cbn [repeat reseek_play].
    destruct (Nat.leb_spec (length s') k); [lia|]. rewrite reseek_nexts by lia.
    assert (Nn : nth_error s' k = Some (nth k s' 0)) by (apply nth_error_nth'; lia).
    rewrite (StdListProofs.skipn_nth _ _ _ Nn). replace (length s' - S (S k))%nat with 0%nat by lia.
    rewrite (skipn_all2 s') by lia. cbn [firstn map app]. rewrite !firstn_nil. cbn [app]. do 2 f_equal. lia.
  - rewrite (skipn_all2 s') by lia. cbn [map]. rewrite firstn_nil. cbn [app].
    replace (n - (length s' - k))%nat with n by lia. clear - H E.
    induction n as [|n IH]; cbn [repeat reseek_play]; [reflexivity|].
    destruct (Nat.leb_spec (length s') k); [|lia]. f_equal. apply IH.
Qed.

(** ** Modifications the counter misses *)
Lemma lplay_nexts cfg k es : forall it l pos, lwf l -> zlen (vals l) <= SSIZE_MAX -> it_inv it l false pos pos ->
  (pos + k <= length (vals l))%nat ->
  exists it', it_inv it' l false (pos + k) (pos + k) /\
    lplay cfg (repeat EvNext k ++ es) it l = map Ret (firstn k (skipn pos (vals l))) ++ lplay cfg es it' l.
Proof.
  induction k as [|k IH]; intros it l pos W L Inv H; cbn [repeat app lplay].
  - exists it. rewrite Nat.add_0_r. split; [exact Inv|reflexivity].
  - pose proof (next_spec it l false pos pos W L Inv) as N. destruct (Nat.leb_spec (length (vals l)) pos); [lia|].
    cbv zeta iota in N. destruct N as (it1 & E1 & I1). rewrite E1.
    destruct (IH it1 l (S pos) W L I1) as (it' & I' & E'); [lia|]. exists it'. split; [rewrite Nat.add_succ_r; exact I'|].
    rewrite E'.
    assert (Nn : nth_error (vals l) pos = Some (nth pos (vals l) 0)) by (apply nth_error_nth'; lia).
    rewrite (StdListProofs.skipn_nth _ _ _ Nn). reflexivity.
Qed.

(** del a[k] when the iterator stands before item k, with items left. *)
Lemma del_under_iterator cfg l k : lwf l -> zlen (vals l) <= SSIZE_MAX -> (k + 1 < length (vals l))%nat ->
  exists it, liter_create false l = Ret it /\
  lplay cfg (repeat EvNext k ++ [EvCall (LCall (ODel (Z.of_nat k))); EvNext]) it l
  = map Ret (firstn k (vals l)) ++ [Undef UseAfterFree].
Proof.
  intros W L H. destruct (create_inv l) as (it & E & I). exists it. split; [exact E|].
  destruct (lplay_nexts cfg k [EvCall (LCall (ODel (Z.of_nat k))); EvNext] it l 0 W L I) as (it' & I' & P); [lia|].
  cbn [skipn Nat.add] in P, I'. rewrite P. f_equal. cbn [lplay lcall_step lstep].
  unfold lass_subscript, as_index.
  assert (Sz : in_sbits_b 64 (Z.of_nat k) = true).
  { apply in_sbits_b_spec. unfold in_sbits. unfold zlen in L. assert (EM : SSIZE_MAX = 9223372036854775807) by reflexivity. rewrite EM in L.
    change (2 ^ (64 - 1)) with 9223372036854775808. lia. }
  rewrite ?Sz. cbn [lwith]. unfold lsetitem. cbv zeta. rewrite lsize_vals.
  destruct (Z.ltb_spec (Z.of_nat k) 0); [lia|]. rewrite idx_test. rewrite (proj2 (rel_bounds_dec _ _)) by (unfold zlen; lia). cbn [negb].
  rewrite Nat2Z.id, at_pos by exact W. cbn [lwith].
  destruct (erase_pos (lst l) k W) as (s' & A & W' & V' & I2 & F2 & N); [rewrite size_vals; lia|]. rewrite A. cbn [lwith snd].
  destruct I' as (R & Ix & P0 & M & D & C).
  unfold liter_next. rewrite R. cbn [put lst].
  assert (SZ : size s' = (length (vals l) - 1)%nat).
  { rewrite size_values, V', app_length, firstn_length, skipn_length. fold (vals l). lia. }
  destruct (nodes s') as [|n ns] eqn:En; [unfold size in SZ; rewrite En in SZ; cbn in SZ; lia|]. clear En n ns.
  unfold lsize. cbn [put lst]. rewrite SZ, Ix. destruct (Z.leb_spec (Z.of_nat (length (vals l) - 1)) (Z.of_nat k)); [lia|].
  unfold update_cache. cbn [put modc]. destruct (li_mod it' =? modc l); [|discriminate D]. cbn [obind].
  rewrite (C eq_refl). destruct (itpos_some (lst l) k) as (j & J); [rewrite size_vals; lia|]. rewrite J.
  rewrite deref_gone by (apply N; exact J). reflexivity.
Qed.

(** a += [...] on an exhausted iterator: it dereferences end(). *)
Fixpoint after_nexts (n : nat) (it : liter) (l : ll) : liter :=
  match n with O => it | S m => after_nexts m (snd (liter_next it l)) l end.
Lemma after_nexts_inv n : forall it l pos, lwf l -> zlen (vals l) <= SSIZE_MAX -> it_inv it l false pos pos ->
  (pos <= length (vals l))%nat -> it_inv (after_nexts n it l) l false (Nat.min (pos + n) (length (vals l))) (Nat.min (pos + n) (length (vals l))).
Proof.
  induction n as [|n IH]; intros it l pos W L I H; cbn [after_nexts].
  - rewrite Nat.add_0_r, Nat.min_l by lia. exact I.
  - pose proof (next_spec it l false pos pos W L I) as N. destruct (Nat.leb_spec (length (vals l)) pos).
    + rewrite N. cbn [snd]. specialize (IH it l pos W L I H). rewrite Nat.min_r in IH by lia. rewrite Nat.min_r by lia. exact IH.
    + cbv zeta iota in N. destruct N as (it1 & E1 & I1). rewrite E1. cbn [snd]. specialize (IH it1 l (S pos) W L I1 ltac:(lia)).
      replace (pos + S n)%nat with (S pos + n)%nat by lia. exact IH.
Qed.
Lemma iadd_after_end l vs v n : lwf l -> zlen (vals l) <= SSIZE_MAX -> (length (vals l) <= n)%nat ->
  exists it, liter_create false l = Ret it /\
    fst (liter_next (after_nexts n it l) (snd (liadd (ASame (v :: vs)) l))) = Undef IterBeforeBegin.
Proof.
  intros W L H. destruct (create_inv l) as (it & E & I). exists it. split; [exact E|].
  pose proof (after_nexts_inv n it l 0 W L I ltac:(lia)) as I'. cbn [Nat.add] in I'. rewrite Nat.min_r in I' by exact H.
  destruct I' as (R & Ix & _ & M & D & C). cbn [liadd snd].
  destruct (append_range_ok (v :: vs) (lst l) W) as (W' & V' & _). set (s' := append_range (lst l) (v :: vs)) in *.
  assert (SZ : size s' = (length (vals l) + S (length vs))%nat) by (rewrite size_values, V', app_length; reflexivity).
  unfold liter_next. cbn [put lst]. destruct (nodes s') as [|x ns] eqn:En; [unfold size in SZ; rewrite En in SZ; cbn in SZ; lia|].
  rewrite R. unfold lsize. cbn [put lst]. rewrite SZ, Ix. destruct (Z.leb_spec (Z.of_nat (length (vals l) + S (length vs))) (Z.of_nat (length (vals l)))); [lia|].
  unfold update_cache. cbn [put modc]. destruct (li_mod _ =? modc l); [|discriminate D]. cbn [obind].
  rewrite (C eq_refl), itpos_end by (rewrite size_vals; lia). reflexivity.
Qed.

(** ** reversed() *)
Lemma rev_steps l : lwf l -> zlen (vals l) <= SSIZE_MAX -> forall i it n, li_rev it = true -> li_index it = Z.of_nat i ->
  (S i <= length (vals l))%nat -> (i <> 0%nat -> li_cache it = itpos (lst l) i) -> li_mod it = modc l ->
  liter_run it (repeat l n) =
  firstn n (map Ret (rev (firstn i (skipn 1 (vals l))) ++ [last (vals l) 0])) ++ repeat (Raise StopIteration) (n - S i).
Proof.
  intros W L.
  induction i as [|i IH]; intros it n R Ix H C M.
  - destruct n as [|n]; [reflexivity|]. cbn [repeat liter_run firstn rev app map skipn].
    unfold liter_next at 1. pose proof (nodes_vals l) as NV. destruct (nodes (lst l)) as [|x ns] eqn:En.
    { rewrite (proj1 NV eq_refl) in H. cbn in H. lia. }
    clear NV. rewrite R, Ix. change (Z.of_nat 0 =? 0) with true. cbv iota.
    pose proof (prev_pos (lst l) (size (lst l) - 1) W) as P. rewrite size_vals in P. specialize (P ltac:(lia)).
    rewrite itpos_end in P by (rewrite size_vals; lia). rewrite P. cbn [obind].
    assert (LN : vals l <> []) by (intros X; rewrite X in H; cbn in H; lia).
    assert (N : nth_error (vals l) (length (vals l) - 1) = Some (last (vals l) 0)).
    { destruct (exists_last LN) as (s & v & Ev). rewrite Ev, last_last, app_length, nth_error_app2 by (cbn; lia).
      replace (length s + length [v] - 1 - length s)%nat with 0%nat by (cbn; lia). reflexivity. }
    rewrite (deref_pos (lst l) _ _ W N). cbn [Nat.sub]. rewrite Nat.sub_0_r.
    f_equal. rewrite firstn_nil. cbn [app]. clear - En. induction n as [|n IH]; [reflexivity|]. cbn [repeat liter_run].
    unfold liter_next at 1. rewrite En. cbn [li_rev li_index]. change (SIZE_MAX =? 0) with false. rewrite Z.eqb_refl. cbv iota. f_equal. exact IH.
  - destruct n as [|n]; [reflexivity|]. cbn [repeat liter_run].
    pose proof (nodes_vals l) as NV.
    assert (X : exists it', liter_next it l = (Ret (nth (S i) (vals l) 0), it') /\ li_rev it' = true /\ li_index it' = Z.of_nat i /\
              li_cache it' = itpos (lst l) i /\ li_mod it' = modc l).
    { unfold liter_next. destruct (nodes (lst l)) as [|x ns] eqn:En.
      { rewrite (proj1 NV eq_refl) in H. cbn in H. lia. }
      rewrite R, Ix. destruct (Z.eqb_spec (Z.of_nat (S i)) 0); [lia|].
      pose proof (ssize_room (vals l) (S i) L ltac:(lia)) as Rm.
      destruct (Z.eqb_spec (Z.of_nat (S i)) SIZE_MAX) as [Ex|].
      { unfold SIZE_MAX in Ex. lia. }
      unfold update_cache. rewrite M, Z.eqb_refl. cbn [obind]. rewrite (C ltac:(lia)).
      rewrite (deref_pos (lst l) (S i) (nth (S i) (vals l) 0) W) by (apply nth_error_nth'; lia). cbn [obind].
      rewrite prev_pos by (auto; rewrite size_vals; lia). cbn [obind]. eexists. split; [reflexivity|].
      cbn [li_rev li_index li_cache li_mod]. rewrite Ix, usize_small by lia. repeat split; auto. lia. }
    destruct X as (it' & E & R' & Ix' & C' & M'). rewrite E.
    rewrite (IH it' n R' Ix' ltac:(lia) (fun _ => C') M').
    assert (F : firstn (S i) (skipn 1 (vals l)) = firstn i (skipn 1 (vals l)) ++ [nth (S i) (vals l) 0]).
    { assert (N : nth_error (skipn 1 (vals l)) i = Some (nth (S i) (vals l) 0)).
      { rewrite SimdCopyProofs.nth_error_skipn. apply nth_error_nth'. lia. }
      apply firstn_S_nth. exact N. }
    rewrite F, rev_app_distr. cbn [rev app map firstn Nat.sub]. reflexivity.
Qed.
Theorem reversed_run l n : lwf l -> zlen (vals l) <= SSIZE_MAX -> vals l <> [] ->
  exists it, liter_create true l = Ret it /\
  liter_run it (repeat l n) = firstn n (map Ret (rev (tl (vals l)) ++ [last (vals l) 0])) ++ repeat (Raise StopIteration) (n - length (vals l)).
Proof.
  intros W L NE. unfold liter_create.
  assert (LP : (0 < length (vals l))%nat) by (destruct (vals l); [contradiction|cbn; lia]).
  pose proof (prev_pos (lst l) (size (lst l) - 1) W) as P. rewrite size_vals in P. specialize (P ltac:(lia)).
  rewrite itpos_end in P by (rewrite size_vals; lia). rewrite P. cbn [obind]. eexists. split; [reflexivity|].
  pose proof (nodes_vals l) as NV. destruct (nodes (lst l)) as [|x ns] eqn:En; [exfalso; apply NE, NV; reflexivity|]. clear NV En.
  rewrite (rev_steps l W L (length (vals l) - 1)); cbn [li_rev li_index li_cache li_mod]; auto.
  - replace (S (length (vals l) - 1)) with (length (vals l)) by lia. f_equal. f_equal. f_equal. f_equal.
    destruct (vals l) as [|y ys]; [contradiction|]. cbn [length skipn tl]. rewrite Nat.sub_succ, Nat.sub_0_r, firstn_all. reflexivity.
  - rewrite lsize_vals. unfold zlen. lia.
  - lia.
Qed.
Lemma reversed_empty l : vals l = [] -> liter_create true l = Undef IterBeforeBegin.
Proof. intros H. unfold liter_create, it_prev, size. cbn [end_]. rewrite (proj2 (nodes_vals l) H). reflexivity. Qed.
