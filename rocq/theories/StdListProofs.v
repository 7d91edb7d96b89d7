(** std::list facts: iterators at positions. *)
From Coq Require Import ZArith List Bool Arith Lia Permutation Sorted.
From Verif Require Import Base StdListModel.
Import ListNotations.

Section S.
Context {A : Type}.
Implicit Types (l : slist A) (ns : list (nat * A)).

Definition wf l : Prop := NoDup (ids l) /\ Forall (fun i => i < fresh l) (ids l).
Definition itpos l (p : nat) : iterator := id_at (nodes l) p.

Lemma skipn_skipn {B} (x y : nat) (s : list B) : skipn x (skipn y s) = skipn (y + x) s.
Proof.
  revert s. induction y as [|y IH]; intros s; [reflexivity|]. destruct s as [|b s]; [rewrite !skipn_nil; reflexivity|]. cbn [skipn Nat.add]. apply IH.
Qed.
Lemma skipn_nth {B} (s : list B) : forall k x, nth_error s k = Some x -> skipn k s = x :: skipn (S k) s.
Proof.
  induction s as [|y s IH]; intros [|k] x E; try discriminate.
  - injection E as ->. reflexivity.
  - cbn [nth_error] in E. cbn [skipn]. rewrite (IH k x E). reflexivity.
Qed.

Lemma size_values l : size l = length (values l).
Proof. unfold size, values. rewrite map_length. reflexivity. Qed.
Lemma size_ids l : size l = length (ids l).
Proof. unfold size, ids. rewrite map_length. reflexivity. Qed.

Lemma pos_of_spec ns : NoDup (map fst ns) -> forall p i v, nth_error ns p = Some (i, v) -> pos_of ns i = Some p.
Proof.
  induction ns as [|[j w] ns IH]; intros ND p i v E; [destruct p; discriminate|].
  cbn [map fst] in ND. inversion ND as [|? ? NI ND']; subst. destruct p as [|p]; cbn [nth_error] in E.
  - injection E as -> ->. cbn [pos_of]. rewrite Nat.eqb_refl. reflexivity.
  - cbn [pos_of]. destruct (Nat.eqb_spec j i) as [->|N].
    + exfalso. apply NI. apply nth_error_In in E. apply (in_map fst) in E. exact E.
    + rewrite (IH ND' p i v E). reflexivity.
Qed.
Lemma pos_of_none ns i : pos_of ns i = None <-> ~ In i (map fst ns).
Proof.
  induction ns as [|[j w] ns IH]; cbn [pos_of map fst In]; [tauto|].
  destruct (Nat.eqb_spec j i) as [->|N].
  - split; [discriminate|tauto].
  - destruct (pos_of ns i); cbn; split; intro H; try discriminate; try tauto.
    + exfalso. apply H. right. destruct (in_dec Nat.eq_dec i (map fst ns)); [assumption|]. exfalso. apply IH in n0. discriminate.
Qed.

Lemma nth_nodes l p : p < size l -> exists i v, nth_error (nodes l) p = Some (i, v) /\ nth_error (values l) p = Some v /\
  nth_error (ids l) p = Some i.
Proof.
  intros H. destruct (nth_error (nodes l) p) as [[i v]|] eqn:E; [|apply nth_error_None in E; unfold size in H; lia].
  exists i, v. split; [reflexivity|]. unfold values, ids. rewrite !nth_error_map, E. split; reflexivity.
Qed.
Lemma itpos_some l p : p < size l -> exists i, itpos l p = Some i.
Proof. intros H. destruct (nth_nodes l p H) as (i & v & E & _). exists i. unfold itpos, id_at. rewrite E. reflexivity. Qed.
Lemma itpos_end l p : size l <= p -> itpos l p = end_.
Proof. intros H. unfold itpos, id_at. rewrite (proj2 (nth_error_None (nodes l) p)) by exact H. reflexivity. Qed.

Lemma pos_of_itpos l p : wf l -> p < size l -> exists i v,
  itpos l p = Some i /\ pos_of (nodes l) i = Some p /\ nth_error (nodes l) p = Some (i, v) /\ nth_error (values l) p = Some v.
Proof.
  intros [ND _] H. destruct (nth_nodes l p H) as (i & v & E & V & _). exists i, v.
  split; [unfold itpos, id_at; rewrite E; reflexivity|]. split; [eapply pos_of_spec; eauto|]. split; assumption.
Qed.

Lemma next_pos l p : wf l -> p < size l -> it_next l (itpos l p) = Ret (itpos l (S p)).
Proof. intros W H. destruct (pos_of_itpos l p W H) as (i & v & E & P & _). unfold it_next. rewrite E, P. reflexivity. Qed.
Lemma prev_pos l p : wf l -> S p <= size l -> it_prev l (itpos l (S p)) = Ret (itpos l p).
Proof.
  intros W H. unfold it_prev. destruct (Nat.eq_dec (S p) (size l)) as [E|E].
  - rewrite itpos_end by lia. cbn [end_]. rewrite <- E. reflexivity.
  - destruct (pos_of_itpos l (S p) W ltac:(lia)) as (i & v & I & P & _). rewrite I, P. reflexivity.
Qed.
Lemma prev_begin l : wf l -> it_prev l (itpos l 0) = Undef IterBeforeBegin.
Proof.
  intros W. unfold it_prev. destruct (Nat.eq_dec (size l) 0) as [E|E].
  - rewrite itpos_end by lia. cbn. rewrite E. reflexivity.
  - destruct (pos_of_itpos l 0 W ltac:(lia)) as (i & v & I & P & _). rewrite I, P. reflexivity.
Qed.
Lemma deref_pos l p v : wf l -> nth_error (values l) p = Some v -> deref l (itpos l p) = Ret v.
Proof.
  intros W H. assert (L : p < size l) by (rewrite size_values; apply nth_error_Some; congruence).
  destruct (pos_of_itpos l p W L) as (i & w & I & P & E & V). unfold deref. rewrite I, P, E. congruence.
Qed.
Lemma itpos_eqb l p q : wf l -> p <= size l -> q <= size l -> it_eqb (itpos l p) (itpos l q) = (p =? q).
Proof.
  intros W Hp Hq. destruct (Nat.eqb_spec p q) as [->|N].
  - destruct (itpos l q); [apply Nat.eqb_refl|reflexivity].
  - destruct (Nat.eq_dec p (size l)) as [E|E]; destruct (Nat.eq_dec q (size l)) as [E'|E']; [lia| | |].
    + rewrite (itpos_end l p) by lia. destruct (itpos_some l q ltac:(lia)) as [i ->]. reflexivity.
    + rewrite (itpos_end l q) by lia. destruct (itpos_some l p ltac:(lia)) as [i ->]. reflexivity.
    + destruct (pos_of_itpos l p W ltac:(lia)) as (i & v & I & P & _).
      destruct (pos_of_itpos l q W ltac:(lia)) as (j & w & J & Q & _). rewrite I, J. cbn [it_eqb].
      apply Nat.eqb_neq. intros ->. congruence.
Qed.

(** ** Updates *)
Lemma wf_nodes ns f : NoDup (map fst ns) -> Forall (fun i => i < f) (map fst ns) -> wf {| nodes := ns; fresh := f |}.
Proof. intros; split; assumption. Qed.

Lemma assign_pos l p v : wf l -> p < size l ->
  exists l', assign l (itpos l p) v = Ret l' /\ wf l' /\ ids l' = ids l /\
    values l' = firstn p (values l) ++ v :: skipn (S p) (values l) /\ fresh l' = fresh l.
Proof.
  intros W H. destruct (pos_of_itpos l p W H) as (i & w & I & P & E & V). unfold assign. rewrite I, P.
  eexists. split; [reflexivity|]. unfold set_node. rewrite E.
  assert (EI : ids {| nodes := firstn p (nodes l) ++ (i, v) :: skipn (S p) (nodes l); fresh := fresh l |} = ids l).
  { unfold ids. cbn [nodes]. rewrite map_app. cbn [map fst]. rewrite <- (firstn_skipn p (nodes l)) at 3.
    rewrite map_app, (skipn_nth _ _ _ E). reflexivity. }
  split; [split; rewrite EI; apply W|]. split; [exact EI|]. split; [|reflexivity].
  unfold values. cbn [nodes]. rewrite map_app, <- firstn_map. cbn [map snd]. rewrite <- skipn_map. reflexivity.
Qed.

Lemma itpos_ids l l' p : ids l = ids l' -> itpos l p = itpos l' p.
Proof.
  unfold ids, itpos, id_at. intros H.
  assert (E : nth_error (map fst (nodes l)) p = nth_error (map fst (nodes l')) p) by congruence.
  rewrite !nth_error_map in E. exact E.
Qed.

Lemma NoDup_insert (a b : list nat) x : NoDup (a ++ b) -> ~ In x (a ++ b) -> NoDup (a ++ x :: b).
Proof.
  intros H N. apply NoDup_Add with (a := x) (l := a ++ b); [apply Add_app|]. split; assumption.
Qed.

Lemma insert_pos l p v : wf l -> p <= size l ->
  exists l', insert_ l (itpos l p) v = Ret l' /\ wf l' /\ values l' = firstn p (values l) ++ v :: skipn p (values l) /\
    ids l' = firstn p (ids l) ++ fresh l :: skipn p (ids l) /\ fresh l' = S (fresh l).
Proof.
  intros W H.
  assert (E : insert_ l (itpos l p) v = Ret {| nodes := firstn p (nodes l) ++ (fresh l, v) :: skipn p (nodes l); fresh := S (fresh l) |}).
  { unfold insert_. destruct (Nat.eq_dec p (size l)) as [->|N].
    - rewrite itpos_end by lia. reflexivity.
    - destruct (pos_of_itpos l p W ltac:(lia)) as (i & w & I & P & _). rewrite I, P. reflexivity. }
  rewrite E. eexists. split; [reflexivity|].
  assert (EI : ids {| nodes := firstn p (nodes l) ++ (fresh l, v) :: skipn p (nodes l); fresh := S (fresh l) |}
             = firstn p (ids l) ++ fresh l :: skipn p (ids l)).
  { unfold ids. cbn [nodes]. rewrite map_app, <- firstn_map. cbn [map fst]. rewrite <- skipn_map. reflexivity. }
  split; [|split; [|split; [exact EI|reflexivity]]].
  - destruct W as [ND F]. split; rewrite EI.
    + apply NoDup_insert; rewrite firstn_skipn; [exact ND|]. intros X. rewrite Forall_forall in F. specialize (F _ X). lia.
    + cbn [fresh]. rewrite <- (firstn_skipn p (ids l)) in F. apply Forall_app in F. destruct F as [F1 F2].
      apply Forall_app. split; [|constructor; [lia|]]; eapply Forall_impl; try eassumption; cbn; intros; lia.
  - unfold values. cbn [nodes]. rewrite map_app, <- firstn_map. cbn [map snd]. rewrite <- skipn_map. reflexivity.
Qed.

Lemma push_back_ok l v : wf l -> wf (push_back l v) /\ values (push_back l v) = values l ++ [v] /\
  ids (push_back l v) = ids l ++ [fresh l] /\ fresh (push_back l v) = S (fresh l).
Proof.
  intros [ND F]. assert (E : ids (push_back l v) = ids l ++ [fresh l]) by (unfold ids; cbn; rewrite map_app; reflexivity).
  split; [|split; [unfold values; cbn; rewrite map_app; reflexivity|split; [exact E|reflexivity]]].
  split; rewrite E.
  - apply NoDup_insert; rewrite app_nil_r; [exact ND|]. intros X. rewrite Forall_forall in F. specialize (F _ X). lia.
  - cbn [push_back fresh]. apply Forall_app. split; [|repeat constructor].
    eapply Forall_impl; [|exact F]. cbn. intros; lia.
Qed.
Lemma append_range_ok vs : forall l, wf l -> wf (append_range l vs) /\ values (append_range l vs) = values l ++ vs /\
  (exists new, ids (append_range l vs) = ids l ++ new) /\ fresh l <= fresh (append_range l vs).
Proof.
  induction vs as [|v vs IH]; intros l W; cbn [append_range fold_left].
  - rewrite app_nil_r. split; [exact W|]. split; [reflexivity|]. split; [exists []; rewrite app_nil_r; reflexivity|lia].
  - destruct (push_back_ok l v W) as (W1 & V1 & I1 & F1). destruct (IH _ W1) as (W2 & V2 & (new & I2) & F2).
    unfold append_range in *. split; [exact W2|]. split; [rewrite V2, V1, <- app_assoc; reflexivity|].
    split; [exists (fresh l :: new); rewrite I2, I1, <- app_assoc; reflexivity|lia].
Qed.
Lemma wf_empty : wf (@empty A).
Proof. split; constructor. Qed.
Lemma copy_of_ok vs : wf (@copy_of A vs) /\ values (@copy_of A vs) = vs.
Proof. destruct (append_range_ok vs empty wf_empty) as (W & V & _). split; [exact W|exact V]. Qed.

Lemma NoDup_remove_mid (a b : list nat) x : NoDup (a ++ x :: b) -> NoDup (a ++ b) /\ ~ In x (a ++ b).
Proof. intros H. split; [eapply NoDup_remove_1; eauto|eapply NoDup_remove_2; eauto]. Qed.

Lemma erase_pos l p : wf l -> p < size l ->
  exists l', erase l (itpos l p) = Ret l' /\ wf l' /\ values l' = firstn p (values l) ++ skipn (S p) (values l) /\
    ids l' = firstn p (ids l) ++ skipn (S p) (ids l) /\ fresh l' = fresh l /\
    (forall i, itpos l p = Some i -> ~ In i (ids l')).
Proof.
  intros W H. destruct (pos_of_itpos l p W H) as (i & w & I & P & E & V). unfold erase. rewrite I, P.
  eexists. split; [reflexivity|].
  assert (EI : ids {| nodes := firstn p (nodes l) ++ skipn (S p) (nodes l); fresh := fresh l |}
             = firstn p (ids l) ++ skipn (S p) (ids l)).
  { unfold ids. cbn [nodes]. rewrite map_app, <- firstn_map, <- skipn_map. reflexivity. }
  assert (X : ids l = firstn p (ids l) ++ i :: skipn (S p) (ids l)).
  { rewrite <- (firstn_skipn p (ids l)) at 1. f_equal. apply skipn_nth. unfold ids. rewrite nth_error_map, E. reflexivity. }
  destruct W as [ND F]. rewrite X in ND. apply NoDup_remove_mid in ND. destruct ND as [ND NI].
  split; [|split; [|split; [exact EI|split; [reflexivity|]]]].
  - split; rewrite EI; [exact ND|]. cbn [fresh]. rewrite X in F. apply Forall_app in F. destruct F as [F1 F2].
    inversion F2; subst. apply Forall_app. split; assumption.
  - unfold values. cbn [nodes]. rewrite map_app, <- firstn_map, <- skipn_map. reflexivity.
  - intros j J. injection J as ->. rewrite EI. exact NI.
Qed.

Lemma pop_back_ok l : wf l -> nodes l <> [] ->
  exists l', pop_back l = Ret l' /\ wf l' /\ values l' = removelast (values l) /\ ids l' = removelast (ids l) /\ fresh l' = fresh l.
Proof.
  intros W N. unfold pop_back. destruct (nodes l) as [|n ns] eqn:E; [contradiction|]. eexists. split; [reflexivity|].
  destruct (exists_last N) as (a & x & Ea). rewrite <- E in *. rewrite Ea, removelast_last.
  assert (R : removelast (ids l) = map fst a /\ removelast (values l) = map snd a).
  { unfold ids, values. rewrite Ea, !map_app. cbn [map]. rewrite !removelast_last. split; reflexivity. }
  destruct R as [R1 R2]. split; [|split; [symmetry; exact R2|split; [symmetry; exact R1|reflexivity]]].
  destruct W as [ND F]. unfold ids in ND, F. rewrite Ea, map_app in ND, F. cbn [map] in ND, F.
  split; unfold ids; cbn [nodes fresh].
  - apply NoDup_remove_mid in ND. rewrite app_nil_r in ND. apply ND.
  - apply Forall_app in F. apply F.
Qed.

Lemma back_ok l v s : wf l -> values l = s ++ [v] -> back l = Ret v.
Proof.
  intros W V. unfold back. assert (S : size l = S (length s)) by (rewrite size_values, V, app_length; cbn; lia).
  pose proof (prev_pos l (length s) W ltac:(lia)) as P. rewrite itpos_end in P by lia. rewrite P. cbn [obind].
  apply deref_pos; [exact W|]. rewrite V, nth_error_app2, Nat.sub_diag by lia. reflexivity.
Qed.

Lemma clear_ok l : wf (clear_ l) /\ values (clear_ l) = [] /\ ids (clear_ l) = [].
Proof. repeat split; constructor. Qed.

(** ** Walking *)
Lemma advance_pos l n : wf l -> forall p, p + n <= size l -> advance l n (itpos l p) = Ret (itpos l (p + n)).
Proof.
  intros W. induction n as [|n IH]; intros p H; cbn [advance]; [rewrite Nat.add_0_r; reflexivity|].
  rewrite next_pos by (auto; lia). cbn [obind]. rewrite IH by lia. do 2 f_equal. lia.
Qed.
Lemma retreat_pos l n : wf l -> forall p, n <= p -> p <= size l -> retreat l n (itpos l p) = Ret (itpos l (p - n)).
Proof.
  intros W. induction n as [|n IH]; intros p H H'; cbn [retreat]; [rewrite Nat.sub_0_r; reflexivity|].
  destruct p as [|p]; [lia|]. rewrite prev_pos by (auto; lia). cbn [obind]. rewrite IH by lia. do 2 f_equal. 
Qed.

Lemma at_steps_ok l i : wf l -> exists c, at_steps l i = Ret (itpos l i, c) /\ c <= size l / 2 + 1.
Proof.
  intros W. unfold at_steps. destruct (Nat.leb_spec (size l) i) as [H|H].
  - exists 0. rewrite itpos_end by assumption. split; [reflexivity|lia].
  - pose proof (Nat.div_mod (size l) 2 ltac:(lia)) as DM. pose proof (Nat.mod_upper_bound (size l) 2 ltac:(lia)) as MB.
    destruct (Nat.ltb_spec (size l / 2) i) as [G|G].
    + exists (S (size l - i - 1)). split; [|lia].
      pose proof (prev_pos l (size l - 1) W ltac:(lia)) as P. rewrite itpos_end in P by lia. rewrite P. cbn [obind].
      rewrite retreat_pos by (auto; lia). cbn. do 3 f_equal. lia.
    + exists i. split; [|lia]. change (begin_ l) with (itpos l 0). rewrite advance_pos by (auto; lia). reflexivity.
Qed.
Lemma at_pos l i : wf l -> at_ l i = Ret (itpos l i).
Proof. intros W. unfold at_. destruct (at_steps_ok l i W) as (c & -> & _). reflexivity. Qed.

(** First position in [a, a + k) satisfying [eqb], or [a + k]. *)
Fixpoint find_from (eqb : A -> bool) (s : list A) : nat :=
  match s with [] => 0 | x :: r => if eqb x then 0 else S (find_from eqb r) end.

Lemma find_ok l eqb : wf l -> forall n a k, a + k <= size l -> k <= n ->
  std_find_it l eqb n (itpos l a) (itpos l (a + k))
  = Ret (itpos l (a + find_from eqb (firstn k (skipn a (values l))))).
Proof.
  intros W. induction n as [|n IH]; intros a k H Hn.
  - assert (k = 0) by lia. subst k. cbn [std_find_it firstn find_from]. rewrite Nat.add_0_r, itpos_eqb by (auto; lia).
    rewrite Nat.eqb_refl. reflexivity.
  - cbn [std_find_it]. rewrite itpos_eqb by (auto; lia). destruct (Nat.eqb_spec a (a + k)) as [E|E].
    + assert (k = 0) by lia. subst k. cbn. rewrite Nat.add_0_r. reflexivity.
    + destruct (nth_nodes l a ltac:(lia)) as (i & v & _ & V & _). rewrite (deref_pos l a v W V). cbn [obind].
      destruct k as [|k]; [lia|]. rewrite (skipn_nth _ _ _ V). cbn [firstn find_from].
      destruct (eqb v); [rewrite Nat.add_0_r; reflexivity|].
      rewrite next_pos by (auto; lia). cbn [obind]. replace (a + S k) with (S a + k) by lia.
      rewrite IH by lia. do 2 f_equal. lia.
Qed.

Lemma distance_ok l : wf l -> forall n a k, a + k <= size l -> k <= n ->
  std_distance l n (itpos l a) (itpos l (a + k)) = Ret (Z.of_nat k).
Proof.
  intros W. induction n as [|n IH]; intros a k H Hn; cbn [std_distance]; rewrite itpos_eqb by (auto; lia);
    destruct (Nat.eqb_spec a (a + k)); try (replace k with 0 by lia; reflexivity); [lia|].
  rewrite next_pos by (auto; lia). cbn [obind]. destruct k as [|k]; [lia|].
  replace (a + S k) with (S a + k) by lia. rewrite IH by lia. cbn [omap obind]. f_equal. lia.
Qed.

Lemma count_ok l eqb : wf l -> forall n a k, a + k = size l -> k <= n ->
  std_count_it l eqb n (itpos l a) end_ = Ret (Z.of_nat (length (filter eqb (skipn a (values l))))).
Proof.
  intros W. induction n as [|n IH]; intros a k H Hn; cbn [std_count_it];
    rewrite <- (itpos_end l (size l)) by lia; rewrite itpos_eqb by (auto; lia);
    destruct (Nat.eqb_spec a (size l)) as [E|E]; try lia;
    try (rewrite skipn_all2 by (rewrite <- size_values; lia); reflexivity).
  destruct (nth_nodes l a ltac:(lia)) as (i & v & _ & V & _). rewrite (deref_pos l a v W V). cbn [obind].
  rewrite next_pos by (auto; lia). cbn [obind]. rewrite (itpos_end l (size l)) by lia. rewrite (IH (S a) (k - 1)) by lia.
  rewrite (skipn_nth _ _ _ V). cbn [filter omap obind]. destruct (eqb v); cbn [length]; f_equal; lia.
Qed.

Lemma read_all_ok l : wf l -> forall n a, a + n <= size l ->
  read_all l n (itpos l a) = Ret (firstn n (skipn a (values l))).
Proof.
  intros W. induction n as [|n IH]; intros a H; [reflexivity|]. cbn [read_all].
  destruct (nth_nodes l a ltac:(lia)) as (i & v & _ & V & _). rewrite (deref_pos l a v W V). cbn [obind].
  rewrite next_pos by (auto; lia). cbn [obind]. rewrite IH by lia. rewrite (skipn_nth _ _ _ V). reflexivity.
Qed.

Lemma itpos_nth l p : itpos l p = nth_error (ids l) p.
Proof. unfold itpos, id_at, ids. rewrite nth_error_map. reflexivity. Qed.

Lemma nth_error_skip (s : list nat) p k : p < length s ->
  nth_error (firstn p s ++ skipn (S p) s) (p + k) = nth_error s (S (p + k)).
Proof.
  intros H. rewrite nth_error_app2 by (rewrite firstn_length; lia). rewrite firstn_length, Nat.min_l by lia.
  replace (p + k - p) with k by lia. rewrite <- (firstn_skipn (S p) s) at 2.
  rewrite nth_error_app2 by (rewrite firstn_length; lia). rewrite firstn_length, Nat.min_l by lia. f_equal. lia.
Qed.

Lemma erase_range_ok : forall n k l p, wf l -> p + k <= size l -> k <= n ->
  exists l', erase_range n l (itpos l p) (itpos l (p + k)) = Ret l' /\ wf l' /\
    values l' = firstn p (values l) ++ skipn (p + k) (values l) /\
    ids l' = firstn p (ids l) ++ skipn (p + k) (ids l) /\ fresh l' = fresh l.
Proof.
  induction n as [|n IH]; intros k l p W H Hn.
  - assert (k = 0) by lia. subst k. rewrite Nat.add_0_r. exists l.
    assert (E : erase_range 0 l (itpos l p) (itpos l p) = Ret l) by (cbn [erase_range]; rewrite itpos_eqb, Nat.eqb_refl by (auto; lia); reflexivity).
    rewrite E, !firstn_skipn. auto.
  - destruct k as [|k].
    + rewrite Nat.add_0_r. exists l.
      assert (E : erase_range (S n) l (itpos l p) (itpos l p) = Ret l) by (cbn [erase_range]; rewrite itpos_eqb, Nat.eqb_refl by (auto; lia); reflexivity).
      rewrite E, !firstn_skipn. auto.
    + cbn [erase_range]. rewrite itpos_eqb by (auto; lia).
      destruct (Nat.eqb_spec p (p + S k)); [lia|]. rewrite next_pos by (auto; lia). cbn [obind].
      destruct (erase_pos l p W ltac:(lia)) as (l1 & E1 & W1 & V1 & I1 & F1 & _). rewrite E1. cbn [obind].
      assert (S1 : size l1 = size l - 1).
      { rewrite !size_ids, I1, app_length, firstn_length, skipn_length. rewrite <- size_ids. lia. }
      replace (itpos l (S p)) with (itpos l1 p).
      2:{ rewrite !itpos_nth, I1. pose proof (nth_error_skip (ids l) p 0) as X. rewrite Nat.add_0_r in X. apply X. rewrite <- size_ids. lia. }
      replace (itpos l (p + S k)) with (itpos l1 (p + k)).
      2:{ rewrite !itpos_nth, I1. rewrite nth_error_skip by (rewrite <- size_ids; lia). f_equal. lia. }
      destruct (IH k l1 p W1 ltac:(lia) ltac:(lia)) as (l2 & E2 & W2 & V2 & I2 & F2).
      assert (G : forall B (s : list B), length s = size l -> firstn p (firstn p s ++ skipn (S p) s) ++ skipn (p + k) (firstn p s ++ skipn (S p) s)
                  = firstn p s ++ skipn (p + S k) s).
      { intros B s L. rewrite firstn_app, firstn_firstn, firstn_length. replace (p - Nat.min p (length s)) with 0 by lia.
        cbn [firstn]. rewrite app_nil_r, Nat.min_id. f_equal. rewrite skipn_app, skipn_all2 by (rewrite firstn_length; lia).
        rewrite firstn_length. cbn [app]. rewrite Nat.min_l by lia. replace (p + k - p) with k by lia.
        rewrite skipn_skipn. f_equal. lia. }
      exists l2. split; [exact E2|]. split; [exact W2|].
      split; [rewrite V2, V1; apply G; symmetry; apply size_values|].
      split; [rewrite I2, I1; apply G; symmetry; apply size_ids|congruence].
Qed.

Lemma reverse_ok : forall n l pre mid post, wf l -> values l = pre ++ mid ++ post -> length mid <= n ->
  exists l', std_reverse l n (itpos l (length pre)) (itpos l (length pre + length mid)) = Ret l' /\ wf l' /\
    ids l' = ids l /\ values l' = pre ++ rev mid ++ post /\ fresh l' = fresh l.
Proof.
  induction n as [|n IH]; intros l pre mid post W V Hn;
    assert (SZ : size l = length pre + length mid + length post) by (rewrite size_values, V, !app_length; lia).
  - destruct mid as [|x mid]; [|cbn in Hn; lia]. exists l. cbn [std_reverse length]. rewrite Nat.add_0_r.
    rewrite itpos_eqb by (auto; lia). rewrite Nat.eqb_refl. auto.
  - cbn [std_reverse]. rewrite itpos_eqb by (auto; lia).
    destruct (Nat.eqb_spec (length pre) (length pre + length mid)) as [E|E].
    + destruct mid as [|x mid]; [|cbn in E; lia]. exists l. auto.
    + destruct mid as [|x mid]; [cbn in E; lia|]. cbn [length] in *.
      replace (length pre + S (length mid)) with (S (length pre + length mid)) by lia.
      rewrite prev_pos by (auto; lia). cbn [obind]. rewrite itpos_eqb by (auto; lia).
      destruct (Nat.eqb_spec (length pre) (length pre + length mid)) as [E'|E'].
      * destruct mid as [|y mid]; [|cbn in E'; lia]. exists l. auto.
      * destruct (@exists_last _ mid) as (m & y & ->); [intros ->; cbn in E'; lia|].
        rewrite app_length in *. cbn [length] in *. rewrite Nat.add_1_r in *.
        assert (V' : values l = pre ++ x :: m ++ y :: post) by (rewrite V; cbn [app]; rewrite <- app_assoc; reflexivity).
        rewrite (deref_pos l (length pre) x W) by (rewrite V', nth_error_app2, Nat.sub_diag by lia; reflexivity).
        cbn [obind].
        assert (Ny : nth_error (values l) (length pre + S (length m)) = Some y).
        { rewrite V', nth_error_app2 by lia. replace (length pre + S (length m) - length pre) with (S (length m)) by lia.
          cbn [nth_error]. rewrite nth_error_app2, Nat.sub_diag by lia. reflexivity. }
        rewrite (deref_pos l _ y W Ny). cbn [obind].
        destruct (assign_pos l (length pre) y W ltac:(lia)) as (l1 & A1 & W1 & I1 & V1 & F1). rewrite A1. cbn [obind].
        assert (V1' : values l1 = (pre ++ y :: m) ++ y :: post).
        { rewrite V1, V'. rewrite firstn_app, Nat.sub_diag, firstn_all. cbn [firstn]. rewrite app_nil_r.
          rewrite skipn_app, skipn_all2 by lia. replace (S (length pre) - length pre) with 1 by lia. cbn [app skipn].
          rewrite <- app_assoc. reflexivity. }
        assert (S1 : size l1 = size l) by (rewrite !size_ids, I1; reflexivity).
        rewrite (itpos_ids l l1) by (symmetry; exact I1).
        destruct (assign_pos l1 (length pre + S (length m)) x W1 ltac:(lia)) as (l2 & A2 & W2 & I2 & V2 & F2). rewrite A2. cbn [obind].
        assert (L2 : length pre + S (length m) = length (pre ++ y :: m)) by (rewrite app_length; reflexivity).
        assert (V2' : values l2 = (pre ++ [y]) ++ m ++ (x :: post)).
        { rewrite V2, V1', L2. rewrite firstn_app, Nat.sub_diag, firstn_all. cbn [firstn]. rewrite app_nil_r.
          rewrite skipn_app, skipn_all2 by lia.
          replace (S (length (pre ++ y :: m)) - length (pre ++ y :: m)) with 1 by lia. cbn [app skipn].
          rewrite <- !app_assoc. reflexivity. }
        assert (S2 : size l2 = size l) by (rewrite !size_ids, I2, I1; reflexivity).
        assert (I12 : ids l2 = ids l) by congruence.
        rewrite (itpos_ids l l2) by (symmetry; exact I12). rewrite next_pos by (auto; lia). cbn [obind].
        destruct (IH l2 (pre ++ [y]) m (x :: post) W2 V2' ltac:(lia)) as (l3 & E3 & W3 & I3 & V3 & F3).
        rewrite app_length in E3. cbn [length] in E3. rewrite Nat.add_1_r in E3.
        rewrite (itpos_ids l1 l2) by (symmetry; exact I2).
        replace (length pre + S (length m)) with (S (length pre) + length m) by lia. rewrite E3.
        exists l3. split; [reflexivity|]. split; [exact W3|]. split; [congruence|]. split; [|congruence].
        rewrite V3. cbn [rev]. rewrite rev_app_distr. cbn [rev app]. rewrite <- !app_assoc. reflexivity.
Qed.

(** ** sort *)
Lemma ins_node_perm lt n ns : Permutation (ins_node lt n ns) (n :: ns).
Proof.
  induction ns as [|m ns IH]; cbn [ins_node]; [reflexivity|]. destruct (lt _ _); [|reflexivity].
  rewrite IH. apply perm_swap.
Qed.
Lemma sort_nodes_perm lt ns : Permutation (@sort_nodes A lt ns) ns.
Proof.
  induction ns as [|n ns IH]; cbn [sort_nodes fold_right]; [reflexivity|]. rewrite ins_node_perm. constructor. exact IH.
Qed.
Definition ordered (lt : A -> A -> bool) (s : list A) : Prop := StronglySorted (fun x y => lt y x = false) s.
Lemma ins_node_sorted lt n ns : (forall x y z, lt y x = false -> lt z y = false -> lt z x = false) ->
  (forall x y, lt x y = true -> lt y x = false) ->
  ordered lt (map snd ns) -> ordered lt (map snd (ins_node lt n ns)).
Proof.
  intros T AS. induction ns as [|m ns IH]; cbn [ins_node map]; intros H; [repeat constructor|].
  inversion H as [|? ? S F]; subst. destruct (lt (snd m) (snd n)) eqn:E; cbn [map].
  - constructor; [apply IH; exact S|]. apply Forall_map. rewrite Forall_forall. intros x X.
    apply (Permutation_in _ (ins_node_perm lt n ns)) in X. destruct X as [<-|X].
    + apply AS. exact E.
    + rewrite Forall_map, Forall_forall in F. apply F. exact X.
  - constructor; [exact H|]. constructor; [exact E|]. rewrite Forall_forall in F |- *. intros x X.
    apply (T (snd n) (snd m) x); auto.
Qed.
Lemma list_sort_ok lt l : (forall x y z, lt y x = false -> lt z y = false -> lt z x = false) ->
  (forall x y, lt x y = true -> lt y x = false) -> wf l ->
  wf (list_sort lt l) /\ Permutation (values (list_sort lt l)) (values l) /\ ordered lt (values (list_sort lt l)) /\
  Permutation (ids (list_sort lt l)) (ids l).
Proof.
  intros T AS [ND F]. pose proof (sort_nodes_perm lt (nodes l)) as P.
  assert (PI : Permutation (ids (list_sort lt l)) (ids l)) by (unfold ids; cbn; apply Permutation_map; exact P).
  split; [split|split; [unfold values; cbn; apply Permutation_map; exact P|split; [|exact PI]]].
  - eapply Permutation_NoDup; [symmetry; exact PI|exact ND].
  - cbn [list_sort fresh]. eapply Permutation_Forall; [symmetry; exact PI|exact F].
  - unfold values. cbn [list_sort nodes]. unfold sort_nodes. clear - T AS. induction (nodes l) as [|n ns IH]; cbn [fold_right map].
    + constructor.
    + apply ins_node_sorted; assumption.
Qed.
End S.
