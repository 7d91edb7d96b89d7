(** Proofs for IRefModel / IRefSpec: the calls. *)
From Coq Require Import ZArith List Bool Lia.
From Verif Require Import Base PyListSpec ArrayListModel ObjModel ObjSpec ObjLemmas IRefModel IRefSpec IRefProofs.
Import ListNotations.
Local Open Scope Z_scope.
Local Arguments Z.add : simpl never.
Local Arguments Z.sub : simpl never.

Section Calls.
Context (E : env) (s0 : rst) (W : sane E s0).
Notation at0 := (at_ E s0).

(** As [ends], for states reached from [s0]. *)
Definition fin (k : kind) (c : call) (r : rr value) : Prop :=
  match r with
  | Ok s' v => at0 s' (owned v ++ extra k E c s0 v) /\ holdable s0 v (extra k E c s0 v) /\ result_ok E c s0 v
  | Er s' _ => exists lost, at0 s' lost /\ lost_by k E c s0 lost
  | Bad u => u = NullDeref /\ (broken_ne c = true \/ (exists p, alloc E p = false) /\ (keyed c = true \/ k = Linked /\ reads c = true))
  | Killed => (exists n, room E n = false) /\ grows c = true
  end.

(** What most calls do: a result that owns its references, or nothing. *)
Definition clean (r : rr value) : Prop :=
  match r with
  | Ok s' v => at0 s' (owned v) /\ holdable s0 v []
  | Er s' _ => at0 s' []
  | _ => False
  end.
Definition ordinary (k : kind) (c : call) : Prop := (forall v, extra k E c s0 v = []) /\ (forall v, result_ok E c s0 v).
Lemma clean_fin k c r : ordinary k c -> clean r -> fin k c r.
Proof.
  intros (O1 & O2) C. destruct r as [s' v|s' e|u|]; simpl in *; try contradiction.
  - rewrite O1, app_nil_r. intuition.
  - exists []. split; [exact C | left; reflexivity].
Qed.

Lemma give_clean s o : at0 s [] -> lives E s0 o -> clean (give E o s).
Proof. intros A L. destruct (give_at E s0 W s [] o A L) as (s' & E1 & A' & El). rewrite E1. simpl. auto. Qed.
Lemma give_bool_clean s b : at0 s [] -> clean (give_bool E b s).
Proof. intros A. apply give_clean; auto. apply bool_lives, W. Qed.

Lemma new_clean s : at0 s [] -> clean (null (new_obj E s) (fun s o => Ok s (VObj o))).
Proof.
  intros A. pose proof (new_at E s0 W s [] A) as N. unfold null. destruct (new_obj E s) as [s' [l|]]; simpl; [split; auto; apply N | apply N].
Qed.
Lemma from_clean cache z s : at0 s [] -> (forall z o, cache z = Some o -> lives E s0 o) -> clean (null (from_cache E cache z s) (fun s o => Ok s (VObj o))).
Proof.
  intros A L. pose proof (from_cache_at E s0 W cache s [] z A L) as N. unfold null.
  destruct (from_cache E cache z s) as [s' [l|]]; simpl; [split; auto; apply N | apply N].
Qed.

(** ** Construction *)
Lemma init_seq_items_fin q : forall items s, at0 s [q] -> Forall (lives E s0) items ->
  match init_seq_items E q items s with
  | Ok s' v => v = VUnit /\ at0 s' []
  | Er s' _ => at0 s' [] \/ at0 s' [q] /\ exists n, room E n = false
  | _ => False
  end.
Proof.
  induction items as [|o items IH]; intros s A F; cbn [init_seq_items].
  - destruct (dec_at E s0 W s [] q A) as (s' & E1 & A' & _). rewrite E1. simpl. auto.
  - inversion F; subst. rewrite (as_int_at E s0 W s [q] o A (or_introl H1)). cbn [bind].
    destruct (conv E o) as [z|e].
    + destruct (room E (zlen (elems s))) eqn:R; [apply IH; auto; apply at_elems; auto | right; eauto].
    + destruct (dec_at E s0 W s [] q A) as (s' & E1 & A' & _). rewrite E1. simpl. auto.
Qed.
Lemma init_seq_fin k q items : Forall (lives E s0) (q :: items) -> fin k (KInitSeq q items) (init_seq E q items s0).
Proof.
  intros F. inversion F; subst. unfold init_seq. destruct (inc_at E s0 W s0 [] q (at_refl E s0) (or_introl H1)) as (s' & E1 & A & _).
  rewrite E1. cbn [bind]. pose proof (init_seq_items_fin q items (with_elems [] s') (at_elems _ _ _ _ _ A) H2) as I.
  destruct (init_seq_items E q items (with_elems [] s')) as [s2 v|s2 e|u|]; try contradiction; simpl.
  - destruct I as (-> & I). simpl. auto.
  - destruct I as [I|(I & R)]; [exists []; split; auto; left; auto | exists [q]; split; auto; right; auto].
Qed.

Lemma init_iter_items_fin i fi : holdable s0 i [] -> forall items s, at0 s (owned i) -> Forall (fun o => o < nxt s0) items ->
  match init_iter_items E i items fi s with
  | Ok s' v => v = VUnit /\ at0 s' []
  | Er s' _ => at0 s' [] \/ exists n o, room E n = false /\ In o items /\ at0 s' (o :: owned i)
  | _ => False
  end.
Proof.
  intros H. induction items as [|o items IH]; intros s A F; cbn [init_iter_items].
  - destruct (drop_at E s0 W i s []) as (s' & E1 & A' & _); [rewrite app_nil_r; exact A | exact H|]. rewrite E1. simpl. destruct fi; simpl; auto.
  - inversion F; subst. destruct (fetch_at E s0 s (owned i) o A H2) as (A1 & _).
    rewrite (as_int_at E s0 W _ _ o A1 (or_intror (or_introl eq_refl))). cbn [bind]. destruct (conv E o) as [z|e].
    + destruct (room E (zlen (elems (fetch E o s)))) eqn:R.
      * destruct (dec_at E s0 W (with_elems (elems (fetch E o s) ++ [z]) (fetch E o s)) (owned i) o) as (s' & E1 & A' & _); [apply at_elems; exact A1|].
        rewrite E1. cbn [bind]. specialize (IH s' A' H3). destruct (init_iter_items E i items fi s'); auto.
        destruct IH as [IH|(n & o' & R' & I & A2)]; auto. right. exists n, o'. simpl. auto.
      * right. exists (zlen (elems (fetch E o s))), o. simpl. auto.
    + destruct (drop_at E s0 W i (fetch E o s) [o]) as (s' & E1 & A' & _); [|apply hold_more; auto|].
      { apply at_mid. rewrite app_nil_r. exact A1. }
      rewrite E1. cbn [bind]. destruct (dec_at E s0 W s' [] o A') as (s2 & E2 & A2 & _). rewrite E2. simpl. auto.
Qed.
Lemma init_iter_fin k a : callable E s0 (KInitIter a) -> fin k (KInitIter a) (init_iter E a s0).
Proof.
  intros (F & Fi). simpl in F, Fi. inversion F; subst. unfold init_iter.
  pose proof (get_iter_at E s0 W a (with_elems [] s0) (at_elems _ _ _ _ _ (at_refl E s0)) H1) as G.
  destruct (get_iter E a (with_elems [] s0)) as [s i|s e|u|]; try contradiction.
  - destruct G as (A & _ & Ho & _ & Sh). cbn [bind]. pose proof (init_iter_items_fin i (it_end a) Ho (it_items a) s A Fi) as I.
    destruct (init_iter_items E i (it_items a) (it_end a) s) as [s2 v|s2 e|u|]; try contradiction; simpl.
    + destruct I as (-> & I). simpl. auto.
    + destruct I as [I|(n & o & R & Io & I)]; [exists []; split; auto; left; auto|].
      exists (o :: owned i). split; auto. right. exists n, o. split; auto. split; auto.
      destruct i as [x|x y|x y|]; simpl in *; try contradiction; subst; [left; reflexivity | right; exists x; split; [apply Ho | reflexivity]].
  - simpl. exists []. split; auto. left; auto.
Qed.

(** ** Calls with a borrowed argument *)
Lemma with_int_clean o f ret : lives E s0 o -> (forall z s, at0 s [] -> clean (ret z s)) -> clean (with_int E o f ret s0).
Proof.
  intros L R. unfold with_int. rewrite (as_int_at E s0 W s0 [] o (at_refl E s0) (or_introl L)). cbn [bind].
  destruct (conv E o) as [z|e]; [|apply at_refl]. destruct (f z (elems s0)) as [xs|e]; [|apply at_refl].
  destruct ((zlen xs <=? zlen (elems s0)) || room E (zlen (elems s0))); [apply R, at_elems, at_refl | apply at_refl].
Qed.
Lemma search_clean o f : lives E s0 o -> clean (search E o f s0).
Proof.
  intros L. unfold search. rewrite (as_int_at E s0 W s0 [] o (at_refl E s0) (or_introl L)). cbn [bind].
  destruct (conv E o) as [z|e]; [|apply at_refl]. destruct (f z (elems s0)) as [n|]; [|apply at_refl].
  apply from_clean; [apply at_refl | apply size_lives, W].
Qed.
Lemma pop_clean i : clean (pop E i s0).
Proof.
  unfold pop. destruct (nth_error (elems s0) (Z.to_nat i)) as [z|]; [|apply at_refl]. apply from_clean; [apply at_elems, at_refl | apply small_lives, W].
Qed.
Lemma next_clean i : clean (next E i s0).
Proof.
  unfold next. destruct (nth_error (elems s0) (Z.to_nat i)) as [z|]; [|apply at_refl]. apply from_clean; [apply at_refl | apply small_lives, W].
Qed.
Lemma iter_clean : clean (make_iter E s0).
Proof.
  unfold make_iter, null. pose proof (new_at E s0 W s0 [] (at_refl E s0)) as N. destruct (new_obj E s0) as [s' [l|]]; simpl.
  - destruct N as (N1 & N2 & N3 & N4 & N5 & N6).
    destruct (inc_at E s0 W s' _ (self E) N1 (or_introl (self_lives E s0 W))) as (s'' & E1 & A' & El). rewrite E1. simpl.
    split; [apply at_swap; exact A'|]. split; [exact N6|]. intros [H|[]]. pose proof (lives_old E s0 W _ (self_lives E s0 W)). lia.
  - apply N.
Qed.

(** ** Comparisons *)
Lemma compare_clean ob ans la : forall xs items s, at0 s [] -> Forall (fun o => o < nxt s0) (somes items) -> clean (compare E ob ans la xs items s).
Proof.
  induction xs as [|x xs IH]; intros [|[o|] items] s A F; cbn [compare]; try (apply give_bool_clean; auto; fail).
  - simpl in F. inversion F; subst.
    destruct (fetch_at E s0 s [] o A H1) as (A1 & _).
    rewrite (as_int_at E s0 W _ _ o A1 (or_intror (or_introl eq_refl))). cbn [bind].
    destruct (dec_at E s0 W _ [] o A1) as (s' & E1 & A' & _). rewrite E1. cbn [bind].
    destruct (conv E o) as [z|e].
    + destruct (ans x z); [apply give_bool_clean; auto | apply IH; auto].
    + destruct ob; [apply give_bool_clean; auto|]. destruct (ans x (-1)); [apply give_bool_clean; auto | apply IH; auto].
  - exact A.
Qed.
Lemma eq_clean seq items : Forall (fun o => o < nxt s0) (somes items) -> clean (py_eq E seq items s0).
Proof.
  intros F. unfold py_eq. destruct (negb seq); [apply give_bool_clean, at_refl|].
  destruct (negb _); [apply give_bool_clean, at_refl|]. apply compare_clean; auto. apply at_refl.
Qed.
Lemma order_clean rel seq items : Forall (fun o => o < nxt s0) (somes items) -> clean (order E rel seq items s0).
Proof.
  intros F. unfold order. destruct (negb seq); [apply give_bool_clean, at_refl|].
  destruct (negb _); [apply give_bool_clean, at_refl|]. apply compare_clean; auto. apply at_refl.
Qed.
Definition some_none (items : list (option Z)) : bool := existsb (fun o => match o with None => true | _ => false end) items.
Lemma give_bool_raises b s s' e : give_bool E b s = Er s' e -> False.
Proof. unfold give_bool, give, inc. destruct (alive E s (if b then tru E else fls E)); discriminate. Qed.
Lemma compare_raises ob ans la : forall xs items s s' e, compare E ob ans la xs items s = Er s' e -> some_none items = true.
Proof.
  induction xs as [|x xs IH]; intros [|[o|] items] s s' e; cbn [compare]; try (intros H; apply give_bool_raises in H; contradiction).
  - unfold as_int, dec. destruct (alive E (fetch E o s) o) eqn:L1; cbn [bind]; [|discriminate]. rewrite L1. cbn [bind].
    destruct (conv E o) as [z|e0].
    + destruct (ans x z) as [b|]; [intros H; apply give_bool_raises in H; contradiction | simpl; apply IH].
    + destruct ob; [intros H; apply give_bool_raises in H; contradiction|].
      destruct (ans x (-1)) as [b|]; [intros H; apply give_bool_raises in H; contradiction | simpl; apply IH].
  - reflexivity.
Qed.
Lemma ne_fin k seq items : Forall (fun o => o < nxt s0) (somes items) -> fin k (KNe seq items) (py_ne E seq items s0).
Proof.
  intros F. unfold py_ne. pose proof (eq_clean seq items F) as C. destruct (py_eq E seq items s0) as [s v|s e|u|] eqn:Q; simpl in C; try contradiction.
  - destruct C as (C & H). destruct (drop_at E s0 W v s []) as (s' & E1 & A' & _); [rewrite app_nil_r; exact C | exact H|].
    rewrite E1. cbn [bind]. apply clean_fin; [split; intros; destruct k; reflexivity || exact I | apply give_bool_clean; auto].
  - simpl. split; [reflexivity|]. left. unfold py_eq in Q.
    destruct (negb seq); [apply give_bool_raises in Q; contradiction|].
    destruct (negb _); [apply give_bool_raises in Q; contradiction|].
    eapply compare_raises; eauto.
Qed.

(** ** Integers handed out *)
Lemma ints_app xs os ys ps : ints_for E s0 xs os -> ints_for E s0 ys ps -> ints_for E s0 (xs ++ ys) (os ++ ps).
Proof. induction 1; simpl; intros; auto; [eapply ints_cached | eapply ints_new]; eauto. Qed.
Lemma int_for_ints z o : int_for E s0 z o -> ints_for E s0 [z] [o].
Proof. intros [H|(H1 & H2)]; [eapply ints_cached | eapply ints_new]; eauto; constructor. Qed.
Lemma ints_length xs os : ints_for E s0 xs os -> length xs = length os.
Proof. induction 1; simpl; congruence. Qed.

Lemma from_int_at s os z : at0 s os ->
  match from_int E z s with
  | (s', Some o) => at0 s' (o :: os) /\ elems s' = elems s /\ int_for E s0 z o /\ (forall l, In l os -> nxt s0 <= l -> l <> o)
  | (s', None) => at0 s' os /\ elems s' = elems s /\ exists p, alloc E p = false
  end.
Proof.
  intros A. pose proof (from_cache_at E s0 W (small E) s os z A (small_lives E s0 W)) as N. unfold from_int.
  destruct (from_cache E (small E) z s) as [s' [o|]]; auto. destruct N as (N1 & N2 & N3 & N4 & N5 & N6). repeat split; auto; try apply N1.
  intros l I L. apply N6; auto. destruct A as (_ & _ & A). rewrite Forall_forall in A. auto.
Qed.

Lemma a_fill_at l : nxt s0 <= l -> forall xs done zs s, at0 s (l :: done) -> ~ In l done -> ints_for E s0 zs done ->
  match a_fill E l xs done s with
  | Ok s' v => exists items, v = VList l items /\ at0 s' (l :: items) /\ ~ In l items /\ ints_for E s0 (zs ++ xs) items /\ elems s' = elems s
  | Er s' _ => at0 s' []
  | _ => False
  end.
Proof.
  intros L. induction xs as [|x xs IH]; intros done zs s A N F; cbn [a_fill].
  - exists done. rewrite app_nil_r. auto.
  - pose proof (from_int_at s _ x A) as G. destruct (from_int E x s) as [s' [o|]].
    + destruct G as (A1 & El & Io & Ne). specialize (IH (done ++ [o]) (zs ++ [x]) s').
      assert (A2 : at0 s' (l :: done ++ [o])).
      { eapply at_perm; [exact A1|]. intros p. simpl. rewrite occ_app. simpl. lia. }
      assert (N2 : ~ In l (done ++ [o])).
      { intros H. apply in_app_or in H. destruct H as [H|[H|[]]]; [auto|]. symmetry in H. eapply Ne; eauto. left; reflexivity. }
      specialize (IH A2 N2 (ints_app _ _ _ _ F (int_for_ints _ _ Io))).
      destruct (a_fill E l xs (done ++ [o]) s') as [s2 v|s2 e|u|]; auto.
      destruct IH as (items & I1 & I2 & I3 & I4 & I5). exists items. rewrite <- app_assoc in I4. rewrite I5, El. auto.
    + destruct G as (A1 & El & _). destruct (drop_at E s0 W (VList l done) s' []) as (s2 & E2 & A2 & _).
      { simpl. rewrite app_nil_r. exact A1. } { simpl. rewrite app_nil_r. auto. }
      rewrite E2. cbn [bind]. exact A2.
Qed.

Lemma l_fill_at l : nxt s0 <= l -> forall xs done zs s, at0 s (l :: done ++ done) -> ~ In l done -> ints_for E s0 zs done ->
  match l_fill E l xs done s with
  | Ok s' v => exists items, v = VList l items /\ at0 s' (l :: items ++ items) /\ ~ In l items /\ ints_for E s0 (zs ++ xs) items /\ elems s' = elems s
  | Bad u => u = NullDeref /\ exists p, alloc E p = false
  | _ => False
  end.
Proof.
  intros L. induction xs as [|x xs IH]; intros done zs s A N F; cbn [l_fill].
  - exists done. rewrite app_nil_r. auto.
  - pose proof (from_int_at s _ x A) as G. destruct (from_int E x s) as [s' [o|]].
    + destruct G as (A1 & El & Io & Ne). destruct (inc_at E s0 W s' _ o A1 (or_intror (or_introl eq_refl))) as (s1 & E1 & A1' & El1).
      rewrite E1. cbn [bind]. specialize (IH (done ++ [o]) (zs ++ [x]) s1).
      assert (A2 : at0 s1 (l :: (done ++ [o]) ++ done ++ [o])).
      { eapply at_perm; [exact A1'|]. intros p. simpl. rewrite !occ_app. simpl. lia. }
      assert (N2 : ~ In l (done ++ [o])).
      { intros H. apply in_app_or in H. destruct H as [H|[H|[]]]; [auto|]. symmetry in H. eapply Ne; eauto. left; reflexivity. }
      specialize (IH A2 N2 (ints_app _ _ _ _ F (int_for_ints _ _ Io))).
      destruct (l_fill E l xs (done ++ [o]) s1) as [s2 v|s2 e|u|]; auto.
      destruct IH as (items & I1 & I2 & I3 & I4 & I5). exists items. rewrite <- app_assoc in I4. rewrite I5, El1, El. auto.
    + split; [reflexivity | apply G].
Qed.

(** A list of integers for [xs], and what is left behind. *)
Definition behind (k : kind) (items : list Z) : list Z := match k with Array => [] | Linked => items end.
Definition listed (k : kind) (xs : list Z) (r : rr value) : Prop :=
  match r with
  | Ok s' v => exists l items, v = VList l items /\ at0 s' (l :: items ++ behind k items) /\ nxt s0 <= l /\ ~ In l items /\ ints_for E s0 xs items /\ elems s' = elems s0
  | Er s' _ => at0 s' []
  | Bad u => k = Linked /\ u = NullDeref /\ exists p, alloc E p = false
  | _ => False
  end.
Lemma listed_new k xs : (forall s, elems s = elems s0 -> xs s = xs s0) -> listed k (xs s0) (null (new_obj E s0) (fun s l => fill k E l (xs s) [] s)).
Proof.
  intros X. pose proof (new_at E s0 W s0 [] (at_refl E s0)) as N. unfold null. destruct (new_obj E s0) as [s' [l|]]; simpl.
  - destruct N as (N1 & N2 & N3 & N4 & N5 & N6). rewrite (X s' N2). destruct k.
    + pose proof (a_fill_at l N6 (xs s0) [] [] s' N1 N4 (ints_nil _ _)) as G. simpl.
      destruct (a_fill E l (xs s0) [] s') as [s2 v|s2 e|u|]; simpl; auto; try contradiction.
      destruct G as (items & I1 & I2 & I3 & I4 & I5). exists l, items. simpl. rewrite app_nil_r, I5, N2. auto 10.
    + pose proof (l_fill_at l N6 (xs s0) [] [] s' N1 N4 (ints_nil _ _)) as G. simpl.
      destruct (l_fill E l (xs s0) [] s') as [s2 v|s2 e|u|]; simpl; auto; try contradiction.
      destruct G as (items & I1 & I2 & I3 & I4 & I5). exists l, items. simpl. rewrite I5, N2. auto 10.
  - apply N.
Qed.
Lemma behind_notin k l items : ~ In l items -> ~ In l (items ++ behind k items).
Proof. intros N H. apply in_app_or in H. destruct H as [H|H]; auto. destruct k; simpl in H; auto. Qed.

Lemma to_list_fin k : fin k KToList (to_list k E s0).
Proof.
  pose proof (listed_new k (fun s => elems s) (fun s H => H)) as G. unfold to_list.
  destruct (null (new_obj E s0) (fun s l => fill k E l (elems s) [] s)) as [s2 v|s2 e|u|]; simpl in *; try contradiction.
  - destruct G as (l & items & -> & I2 & I3 & I4 & I5 & _). simpl.
    assert (X : extra k E KToList s0 (VList l items) = behind k items) by (destruct k; reflexivity). simpl in X. rewrite X. split; auto.
    split; [split; [exact I3 | apply behind_notin; exact I4] | exists l, items; auto].
  - exists []. split; auto. left; auto.
  - destruct G as (-> & -> & P). split; auto.
Qed.
Lemma get_slice_fin k sl : fin k (KGetSlice sl) (get_slice k E sl s0).
Proof.
  unfold get_slice. assert (Z : fin k (KGetSlice sl) (Er s0 ValueError)) by (exists []; split; [apply at_refl | left; auto]).
  destruct (PySlice_Unpack sl); auto.
  pose proof (listed_new k (fun s => py_getslice (elems s) sl) (fun s H => ltac:(simpl; rewrite H; reflexivity))) as G.
  destruct (null (new_obj E s0) (fun s l => fill k E l (py_getslice (elems s) sl) [] s)) as [s2 v|s2 e|u|]; simpl in *; try contradiction.
  - destruct G as (l & items & -> & I2 & I3 & I4 & I5 & _). simpl.
    assert (X : extra k E (KGetSlice sl) s0 (VList l items) = behind k items) by (destruct k; reflexivity). simpl in X. rewrite X. split; auto.
    split; [split; [exact I3 | apply behind_notin; exact I4] | exists l, items; auto].
  - exists []. split; auto. left; auto.
  - destruct G as (-> & -> & P). split; auto.
Qed.

Lemma at_index_eq i n : at_index (zlen (elems s0)) i = Some n -> n = (if i <? 0 then zlen (elems s0) + i else i) /\ 0 <= n < zlen (elems s0).
Proof.
  unfold at_index. destruct ((_ <? 0) || (_ <=? _)) eqn:B; [discriminate|]. intros H; inversion H; subst.
  apply orb_false_iff in B. destruct B as (B1 & B2). apply Z.ltb_ge in B1. apply Z.leb_gt in B2. auto.
Qed.
Lemma get_fin k i : fin k (KGet i) (get k E i s0).
Proof.
  assert (Z : forall e, fin k (KGet i) (Er s0 e)) by (intros; exists []; split; [apply at_refl | left; auto]).
  destruct k; cbn [get]; unfold a_get, l_get; destruct (at_index (zlen (elems s0)) i) as [n|] eqn:Hn; auto;
    pose proof (at_index_eq i n Hn) as (Hn1 & Hn2);
    (destruct (nth_error (elems s0) (Z.to_nat n)) as [z|] eqn:Hz;
       [|exfalso; apply nth_error_None in Hz; unfold zlen in Hn2; lia]);
    pose proof (from_int_at s0 [] z (at_refl E s0)) as G; unfold null; destruct (from_int E z s0) as [s' [o|]].
  - destruct G as (A & El & Io & _). simpl. split; auto. split; auto. exists z, o. rewrite Hn, <- Hn1. repeat split; auto; [discriminate | apply int_for_ints; auto].
  - simpl. exists []. split; [apply G | left; auto].
  - destruct G as (A & El & Io & _). unfold give. destruct (inc_at E s0 W s' _ o A (or_intror (or_introl eq_refl))) as (s1 & E1 & A1 & El1). rewrite E1. simpl.
    split; auto. split; auto. exists z, o. rewrite Hn, <- Hn1. repeat split; auto; [discriminate | apply int_for_ints; auto].
  - simpl. split; [reflexivity|]. right. split; [apply G | auto].
Qed.

(** ** x + other *)
Lemma add_fin k other : callable E s0 (KAdd other) -> fin k (KAdd other) (add k E other s0).
Proof.
  intros (F & _). unfold add. pose proof (listed_new k (fun s => elems s) (fun s H => H)) as G. unfold to_list.
  destruct (null (new_obj E s0) (fun s l => fill k E l (elems s) [] s)) as [s v|s e|u|]; cbn [bind]; try contradiction.
  - destruct G as (l & mine & -> & A & L & N & I & El).
    assert (Le : forall s', at0 s' (behind k mine) -> forall e, fin k (KAdd other) (Er s' e)).
    { intros s' A' e. exists (behind k mine). split; auto. destruct k; [left; auto|]. right. split; auto. }
    assert (Dr : forall s' os, at0 s' (l :: mine ++ behind k mine ++ os) -> ~ In l os ->
                 exists s'', drop E (VList l mine) s' = Ok s'' tt /\ at0 s'' (behind k mine ++ os)).
    { intros s' os A' No. destruct (drop_at E s0 W (VList l mine) s' (behind k mine ++ os)) as (s'' & E1 & A1 & _); [exact A' | | eauto].
      simpl. split; [exact L|]. rewrite app_assoc. intros H. apply in_app_or in H. destruct H as [H|H]; auto. apply (behind_notin k l mine N); auto. }
    destruct other as [ys|].
    + pose proof (new_at E s0 W s _ A) as Nw. destruct (new_obj E s) as [s' [l2|]].
      * destruct Nw as (N1 & N2 & N3 & N4 & N5 & N6).
        destruct (incs_at E s0 W (mine ++ ys) s' _ N1) as (s2 & E2 & A2 & _).
        { apply Forall_app. split; [apply Forall_forall; intros x Hx; right; right; right; apply in_or_app; auto|].
          simpl in F. eapply Forall_impl; [|exact F]. auto. }
        rewrite E2. cbn [bind]. assert (Ly : ~ In l ys).
        { intros H. simpl in F. rewrite Forall_forall in F. apply F in H. apply (lives_old E s0 W) in H. lia. }
        assert (Ly2 : ~ In l2 ys).
        { intros H. simpl in F. rewrite Forall_forall in F. apply F in H. apply (lives_old E s0 W) in H. lia. }
        assert (L2 : ~ In l2 mine) by (intros H; apply N4; right; apply in_or_app; auto).
        destruct (Dr s2 (l2 :: mine ++ ys)) as (s3 & E3 & A3).
        { eapply at_perm; [exact A2|]. intros p. simpl. rewrite !occ_app. simpl. rewrite !occ_app. lia. }
        { intros [H|H]; [apply N4; left; auto|]. apply in_app_or in H. destruct H; auto. }
        rewrite E3. cbn [bind]. simpl.
        assert (X : extra k E (KAdd (Some ys)) s0 (VList l2 (mine ++ ys)) = behind k mine).
        { destruct k; [reflexivity|]. simpl. rewrite (ints_length _ _ I), firstn_app, Nat.sub_diag, firstn_all. simpl. apply app_nil_r. }
        simpl in X. rewrite X. split; [|split; [split; [exact N6|] | exists l2, mine; auto]].
        { eapply at_perm; [exact A3|]. intros p. simpl. rewrite !occ_app. simpl. rewrite !occ_app. lia. }
        { intros H. apply in_app_or in H. destruct H as [H|H]; [apply in_app_or in H; destruct H; auto|]. destruct k; simpl in H; auto. }
      * destruct Nw as (N1 & N2 & _). destruct (Dr s' []) as (s3 & E3 & A3); [rewrite app_nil_r; exact N1 | auto|].
        rewrite E3. cbn [bind]. apply Le. rewrite app_nil_r in A3. exact A3.
    + destruct (Dr s []) as (s3 & E3 & A3); [rewrite app_nil_r; exact A | auto|]. rewrite E3. cbn [bind]. apply Le. rewrite app_nil_r in A3. exact A3.
  - simpl in *. exists []. split; auto. left; auto.
  - simpl in *. destruct G as (-> & -> & P). split; [reflexivity|]. right. split; auto.
Qed.

(** ** extend and += *)
Lemma a_extend_fin i fi ret : holdable s0 i [] -> lives E s0 ret -> forall items s, at0 s (owned i) -> Forall (fun o => o < nxt s0) items ->
  match a_extend_items E i items fi ret s with
  | Killed => exists n, room E n = false
  | r => clean r
  end.
Proof.
  intros H Lr. induction items as [|o items IH]; intros s A F; cbn [a_extend_items].
  - destruct (drop_at E s0 W i s []) as (s' & E1 & A' & _); [rewrite app_nil_r; exact A | exact H|]. rewrite E1. cbn [bind].
    destruct fi; [exact A'|]. pose proof (give_clean s' ret A' Lr) as G. destruct (give E ret s'); auto; contradiction.
  - inversion F; subst. destruct (fetch_at E s0 s (owned i) o A H2) as (A1 & _).
    rewrite (as_int_at E s0 W _ _ o A1 (or_intror (or_introl eq_refl))). cbn [bind].
    destruct (dec_at E s0 W _ (owned i) o A1) as (s' & E1 & A' & _). rewrite E1. cbn [bind]. destruct (conv E o) as [z|e].
    + destruct (room E (zlen (elems s'))) eqn:R; [|eauto]. apply IH; auto.
    + destruct (drop_at E s0 W i s' []) as (s2 & E2 & A2 & _); [rewrite app_nil_r; exact A' | exact H|]. rewrite E2. cbn [bind]. exact A2.
Qed.
Lemma l_extend_fin i fi ret : holdable s0 i [] -> lives E s0 ret -> forall items pe s, at0 s (owned i) -> Forall (fun o => o < nxt s0) items ->
  match l_extend_items E i items fi pe ret s with
  | Killed => exists n, room E n = false
  | r => clean r
  end.
Proof.
  intros H Lr. induction items as [|o items IH]; intros pe s A F; cbn [l_extend_items].
  - destruct (drop_at E s0 W i s []) as (s' & E1 & A' & _); [rewrite app_nil_r; exact A | exact H|]. rewrite E1. cbn [bind].
    destruct pe; [exact A'|]. destruct fi; [exact A'|]. pose proof (give_clean s' ret A' Lr) as G. destruct (give E ret s'); auto; contradiction.
  - inversion F; subst. destruct (fetch_at E s0 s (owned i) o A H2) as (A1 & _). destruct pe as [e|].
    + destruct (drop_at E s0 W i (fetch E o s) [o]) as (s2 & E2 & A2 & _); [|apply hold_more; auto|].
      { apply at_mid. rewrite app_nil_r. exact A1. }
      rewrite E2. cbn [bind]. destruct (dec_at E s0 W s2 [] o A2) as (s3 & E3 & A3 & _). rewrite E3. exact A3.
    + rewrite (as_int_at E s0 W _ _ o A1 (or_intror (or_introl eq_refl))). cbn [bind].
      destruct (room E (zlen (elems (fetch E o s)))) eqn:R; [|eauto]. destruct (conv E o) as [z|e].
      * destruct (dec_at E s0 W (with_elems (elems (fetch E o s) ++ [z]) (fetch E o s)) (owned i) o) as (s' & E1 & A' & _); [apply at_elems; exact A1|].
        rewrite E1. cbn [bind]. apply IH; auto.
      * destruct (dec_at E s0 W (with_elems (elems (fetch E o s) ++ [-1]) (fetch E o s)) (owned i) o) as (s' & E1 & A' & _); [apply at_elems; exact A1|].
        rewrite E1. cbn [bind]. apply IH; auto.
Qed.
Lemma extend_fin k c a ret : lives E s0 ret -> lives E s0 (it_obj a) -> Forall (fun o => o < nxt s0) (it_items a) ->
  ordinary k c -> grows c = true ->
  fin k c (bind (get_iter E a s0) (fun s i => extend_items k E i (it_items a) (it_end a) ret s)).
Proof.
  intros Lr La F O G. pose proof (get_iter_at E s0 W a s0 (at_refl E s0) La) as I.
  destruct (get_iter E a s0) as [s i|s e|u|]; cbn [bind]; try contradiction.
  - destruct I as (A & _ & H & _). assert (X : match extend_items k E i (it_items a) (it_end a) ret s with Killed => exists n, room E n = false | r => clean r end).
    { destruct k; cbn [extend_items]; [apply a_extend_fin; auto | apply l_extend_fin; auto]. }
    destruct (extend_items k E i (it_items a) (it_end a) ret s) as [s2 v|s2 e|u|] eqn:Q; try (apply clean_fin; auto; fail). simpl. auto.
  - apply clean_fin; auto.
Qed.

(** ** Slice assignment *)
Lemma a_assign_clean : forall items pre old post s, at0 s [] -> Forall (fun o => o < nxt s0) (somes items) -> clean (a_assign E items pre old post s).
Proof.
  induction items as [|[o|] items IH]; intros pre old post s A F; cbn [a_assign].
  - split; [apply at_elems; exact A | exact I].
  - simpl in F. inversion F; subst. destruct (fetch_at E s0 s [] o A H1) as (A1 & _).
    rewrite (as_int_at E s0 W _ _ o A1 (or_intror (or_introl eq_refl))). cbn [bind].
    destruct (dec_at E s0 W _ [] o A1) as (s' & E1 & A' & _). rewrite E1. cbn [bind].
    destruct old as [|x old]; [destruct (room E (zlen pre + zlen post)); [|apply at_elems; exact A']|];
      (destruct (conv E o) as [z|e]; [apply IH; auto | apply at_elems; exact A']).
  - apply at_elems; exact A.
Qed.
Lemma l_assign_fin : forall items pre old post s, at0 s [] -> Forall (fun o => o < nxt s0) (somes items) ->
  match l_assign E items pre old post s with
  | Er s' _ => at0 s' [] \/ exists n o, room E n = false /\ In (Some o) items /\ at0 s' [o]
  | r => clean r
  end.
Proof.
  induction items as [|[o|] items IH]; intros pre old post s A F; cbn [l_assign].
  - split; [apply at_elems; exact A | exact I].
  - simpl in F. inversion F; subst. destruct (fetch_at E s0 s [] o A H1) as (A1 & _).
    rewrite (as_int_at E s0 W _ _ o A1 (or_intror (or_introl eq_refl))). cbn [bind].
    destruct (dec_at E s0 W _ [] o A1) as (s' & E1 & A' & _). rewrite E1. cbn [bind].
    assert (K : forall pre old post, match l_assign E items pre old post s' with
      | Er s' _ => at0 s' [] \/ exists n o', room E n = false /\ In (Some o') (Some o :: items) /\ at0 s' [o'] | r => clean r end).
    { intros p q r. specialize (IH p q r s' A' H2). destruct (l_assign E items p q r s'); auto.
      destruct IH as [IH|(n & o' & R & In' & A2)]; auto. right. exists n, o'. simpl. auto. }
    destruct old as [|x old].
    + destruct (room E (zlen pre + zlen post)) eqn:R.
      * destruct (conv E o) as [z|e]; [apply K | left; apply at_elems; exact A'].
      * right. exists (zlen pre + zlen post), o. simpl. split; auto.
    + destruct (conv E o) as [z|e]; [apply K | left; apply at_elems; exact A'].
  - left. apply at_elems; exact A.
Qed.
Lemma set_slice_fin k sl seq items : Forall (fun o => o < nxt s0) (somes items) -> fin k (KSetSlice sl seq items) (set_slice k E sl seq items s0).
Proof.
  intros F. unfold set_slice. assert (Z : forall e, fin k (KSetSlice sl seq items) (Er s0 e)) by (intros; exists []; split; [apply at_refl | left; auto]).
  assert (O : ordinary k (KSetSlice sl seq items)) by (split; intros; destruct k; reflexivity || exact I).
  destruct (PySlice_Unpack sl) as [[[start stop] step]| | |]; auto. destruct (negb seq); auto. destruct (negb (step =? 1)); auto.
  destruct (PySlice_AdjustIndices (zlen (elems s0)) start stop step) as [[a b] n]. cbv zeta.
  set (p := firstn (Z.to_nat a) (elems s0)). set (q := firstn (Z.to_nat n) (skipn (Z.to_nat a) (elems s0))). set (r := skipn (Z.to_nat a + Z.to_nat n) (elems s0)).
  destruct k; cbn [assign_items].
  - apply clean_fin; auto. apply a_assign_clean; auto. apply at_refl.
  - pose proof (l_assign_fin items p q r s0 (at_refl E s0) F) as L.
    destruct (l_assign E items p q r s0) as [s2 v|s2 e|u|]; try (apply clean_fin; auto; fail).
    destruct L as [L|(m & o & R & In' & L)]; [exists []; split; auto; left; auto|]. exists [o]. split; auto. right. split; auto. exists m, o. auto.
Qed.

(** ** Sorting with a key *)
Lemma make_ints_at : forall xs s os, at0 s os ->
  let (s', items) := make_ints E xs s in at0 s' (somes items ++ os) /\ elems s' = elems s /\ length items = length xs /\
    (some_none items = true -> exists p, alloc E p = false).
Proof.
  induction xs as [|x xs IH]; intros s os A; cbn [make_ints]; [repeat split; auto; try apply A; discriminate|].
  pose proof (from_int_at s os x A) as G. destruct (from_int E x s) as [s' [o|]].
  - destruct G as (A1 & El & _). specialize (IH s' (o :: os) A1). destruct (make_ints E xs s') as [s2 items].
    destruct IH as (A2 & El2 & Le & Al). split; [simpl; apply at_unmid; exact A2|]. split; [congruence|]. split; [simpl; congruence | exact Al].
  - destruct G as (A1 & El & P). specialize (IH s' os A1). destruct (make_ints E xs s') as [s2 items].
    destruct IH as (A2 & El2 & Le & Al). split; [exact A2|]. split; [congruence|]. split; [simpl; congruence | auto].
Qed.
Lemma call_keys_at : forall items keys got s os, at0 s (got ++ os) -> Forall (fun o => In o os) (somes items) -> Forall (fun o => o < nxt s0) (somes keys) ->
  match call_keys E items keys got s with
  | Ok s' true => all_keys (length items) keys = true /\ at0 s' (somes (firstn (length items) keys) ++ got ++ os) /\ elems s' = elems s
  | Ok s' false => all_keys (length items) keys = false /\ at0 s' os /\ elems s' = elems s
  | Bad u => u = NullDeref /\ some_none items = true
  | _ => False
  end.
Proof.
  induction items as [|[o|] items IH]; intros keys got s os A F Fk; cbn [call_keys].
  - simpl. auto.
  - assert (D : exists s', decs E (rev got) s = Ok s' tt /\ at0 s' os /\ elems s' = elems s).
    { destruct (decs_at E s0 W (rev got) s os) as (s' & E1 & A' & El & _); [|eauto].
      eapply at_perm; [exact A|]. intros p. rewrite !occ_app. f_equal.
      clear. induction got as [|g got IH]; simpl; auto. rewrite occ_app. simpl. lia. }
    destruct D as (sd & Ed & Ad & Eld). destruct keys as [|[k|] keys].
    + rewrite Ed. simpl. auto.
    + simpl in F, Fk. inversion F; subst. inversion Fk; subst. rewrite (at_alive E s0 W s _ o A) by (right; apply in_or_app; auto).
      destruct (fetch_at E s0 s (got ++ os) k A H3) as (A1 & El1). specialize (IH keys (got ++ [k]) (fetch E k s) os).
      assert (A2 : at0 (fetch E k s) ((got ++ [k]) ++ os)) by (rewrite <- app_assoc; apply at_mid; exact A1).
      specialize (IH A2 H2 H4). simpl. fold (some_none items). destruct (call_keys E items keys (got ++ [k]) (fetch E k s)) as [s2 [|]|s2 e|u|]; auto.
      * destruct IH as (I1 & I2 & I3). split; auto. split; [|congruence]. eapply at_perm; [exact I2|]. intros p. simpl. rewrite !occ_app. simpl. lia.
      * destruct IH as (I1 & I2 & I3). split; auto. split; [auto | congruence].
    + simpl in F. inversion F; subst. rewrite (at_alive E s0 W s _ o A) by (right; apply in_or_app; auto). rewrite Ed. simpl. auto.
  - auto.
Qed.
Lemma sort_fin k keys sorted : Forall (fun o => o < nxt s0) (somes keys) -> fin k (KSortKey keys sorted) (sort_key E keys sorted s0).
Proof.
  intros F. unfold sort_key. pose proof (make_ints_at (elems s0) s0 [] (at_refl E s0)) as M.
  destruct (make_ints E (elems s0) s0) as [s items]. destruct M as (A & El & Le & Al). rewrite app_nil_r in A.
  pose proof (call_keys_at items keys [] s (somes items) A) as C. simpl in C.
  assert (Fi : Forall (fun o => In o (somes items)) (somes items)) by (apply Forall_forall; auto). specialize (C Fi F).
  destruct (call_keys E items keys [] s) as [s1 [|]|s1 e|u|]; cbn [bind]; try contradiction.
  - destruct C as (Ak & A1 & El1). destruct (decs_at E s0 W _ s1 _ A1) as (s2 & E2 & A2 & El2 & _). rewrite E2. cbn [bind].
    destruct (inc_at E s0 W s2 _ (none E) A2 (or_introl (none_lives E s0 W))) as (s3 & E3 & A3 & El3). rewrite E3. cbn [bind].
    destruct (decs_at E s0 W (somes items) s3 [none E]) as (s4 & E4 & A4 & El4 & _).
    { eapply at_perm; [exact A3|]. intros p. simpl. rewrite occ_app. simpl. lia. }
    rewrite E4. cbn [bind]. destruct (give_at E s0 W (with_elems (sorted (elems s4)) s4) [none E] (none E) (at_elems _ _ _ _ _ A4) (none_lives E s0 W)) as (s5 & E5 & A5 & _).
    rewrite E5. simpl. rewrite <- Le, Ak. auto.
  - destruct C as (Ak & A1 & El1). destruct (decs_at E s0 W (somes items) s1 []) as (s4 & E4 & A4 & El4 & _); [rewrite app_nil_r; exact A1|].
    rewrite E4. cbn [bind]. destruct (give_at E s0 W s4 [] (none E) A4 (none_lives E s0 W)) as (s5 & E5 & A5 & _).
    rewrite E5. simpl. rewrite <- Le, Ak. auto.
  - destruct C as (-> & C). simpl. split; [reflexivity|]. right. split; auto.
Qed.

(** ** All calls *)
Lemma run_fin k c : callable E s0 c -> fin k c (run k E c s0).
Proof.
  intros C. pose proof C as (B & H). assert (O : forall c', (forall v, extra k E c' s0 v = []) -> (forall v, result_ok E c' s0 v) -> forall r, clean r -> fin k c' r)
    by (intros; apply clean_fin; auto; split; auto).
  assert (Gn : forall z s, at0 s [] -> clean ((fun (_ : Z) s => give E (none E) s) z s)) by (intros; apply give_clean; auto; apply none_lives, W).
  assert (Un : forall z s, at0 s [] -> clean ((fun (_ : Z) s => Ok s VUnit) z s)) by (intros; simpl; auto).
  destruct c; simpl in B, H; cbn [run].
  - apply init_seq_fin; auto.
  - apply init_iter_fin; auto.
  - inversion B; subst. apply O; try (intros; destruct k; reflexivity || exact I). apply with_int_clean; auto.
  - inversion B; subst. apply O; try (intros; destruct k; reflexivity || exact I). apply with_int_clean; auto.
  - inversion B; subst. apply O; try (intros; destruct k; reflexivity || exact I). apply with_int_clean; auto.
  - inversion B; subst. apply O; try (intros; destruct k; reflexivity || exact I). apply with_int_clean; auto.
  - inversion B; subst. apply O; try (intros; destruct k; reflexivity || exact I). apply with_int_clean; auto.
  - inversion B; subst. apply O; try (intros; destruct k; reflexivity || exact I). apply search_clean; auto.
  - inversion B; subst. apply O; try (intros; destruct k; reflexivity || exact I). apply search_clean; auto.
  - apply O; try (intros; destruct k; reflexivity || exact I). apply pop_clean.
  - destruct a as [ys|a]; cbn [extend].
    + apply O; try (intros; destruct k; reflexivity || exact I). apply give_clean; [apply at_elems, at_refl | apply none_lives, W].
    + inversion B; subst. apply extend_fin; auto; [apply none_lives, W|]. split; intros; destruct k; reflexivity || exact I.
  - destruct a as [ys|a]; cbn [iadd].
    + apply O; try (intros; destruct k; reflexivity || exact I). apply give_clean; [apply at_elems, at_refl | apply none_lives, W].
    + inversion B; subst. apply extend_fin; auto; [apply self_lives, W|]. split; intros; destruct k; reflexivity || exact I.
  - apply to_list_fin.
  - apply get_fin.
  - apply get_slice_fin.
  - apply set_slice_fin; auto.
  - apply O; try (intros; destruct k; reflexivity || exact I). apply at_refl.
  - apply add_fin; auto.
  - apply O; try (intros; destruct k; reflexivity || exact I). apply new_clean, at_refl.
  - apply O; try (intros; destruct k; reflexivity || exact I). apply give_clean; [apply at_elems, at_refl | apply self_lives, W].
  - apply O; try (intros; destruct k; reflexivity || exact I). apply eq_clean; auto.
  - apply ne_fin; auto.
  - apply O; try (intros; destruct k; reflexivity || exact I). apply order_clean; auto.
  - apply sort_fin; auto.
  - apply O; try (intros; destruct k; reflexivity || exact I). apply iter_clean.
  - apply O; try (intros; destruct k; reflexivity || exact I). apply next_clean.
  - apply O; try (intros; destruct k; reflexivity || exact I). apply give_clean; [apply at_elems, at_refl | apply none_lives, W].
Qed.

Lemma run_ends k c : callable E s0 c -> ends k E c s0 (run k E c s0).
Proof.
  intros C. pose proof (run_fin k c C) as F. destruct (run k E c s0) as [s v|s e|u|]; simpl in *; auto.
  - split; [intros p Hp; apply F; exact Hp | apply F].
  - destruct F as (lost & A & L). exists lost. split; auto. intros p Hp. apply A. exact Hp.
Qed.
End Calls.
