(** Lemmas about the primitive steps, reversal, galloping and binary search of
    CPythonSortModel.v. *)
From Coq Require Import ZArith List Bool Lia Sorting.Sorted Sorting.Permutation.
From Verif Require Import Base ListLemmas SortSpec SortOrderProofs CPythonSortModel.
Import ListNotations.
Local Open Scope Z_scope.
Local Arguments Z.of_nat : simpl never.
Local Arguments Z.to_nat : simpl never.
Local Arguments Z.mul : simpl never.
Local Arguments Z.add : simpl never.
Local Arguments Z.sub : simpl never.

Lemma sub_mid {A} (l x y z : list A) i n :
  l = x ++ y ++ z -> i = zlen x -> n = zlen y -> sub l i n = Some y.
Proof.
  intros -> -> ->. unfold sub.
  pose proof (zlen_nonneg x). pose proof (zlen_nonneg y). pose proof (zlen_nonneg z).
  rewrite !zlen_app.
  replace (0 <=? zlen x) with true by lia. replace (0 <=? zlen y) with true by lia.
  replace (zlen x + zlen y <=? zlen x + (zlen y + zlen z)) with true by lia. simpl.
  rewrite skipn_zlen by reflexivity. rewrite firstn_zlen by reflexivity. reflexivity.
Qed.

Lemma put_mid {A} (l x y z v : list A) i :
  l = x ++ y ++ z -> i = zlen x -> zlen v = zlen y -> put l i v = Some (x ++ v ++ z).
Proof.
  intros -> -> Hv. unfold put.
  pose proof (zlen_nonneg x). pose proof (zlen_nonneg z). pose proof (zlen_nonneg y).
  rewrite !zlen_app.
  replace (0 <=? zlen x) with true by lia.
  replace (zlen x + zlen v <=? zlen x + (zlen y + zlen z)) with true by lia. simpl.
  rewrite firstn_zlen by reflexivity.
  replace (Z.to_nat (zlen x) + length v)%nat with (Z.to_nat (zlen (x ++ y))).
  - rewrite (app_assoc x y z), skipn_zlen by reflexivity. reflexivity.
  - rewrite zlen_app. unfold zlen in *. lia.
Qed.

Lemma zlen_nil_inv {A} (l : list A) : zlen l = 0 -> l = [].
Proof. destruct l; auto. rewrite zlen_cons. pose proof (zlen_nonneg l). lia. Qed.
Lemma zlen_pos_inv {A} (l : list A) : 0 < zlen l -> exists x r, l = x :: r.
Proof. destruct l; eauto. cbv. discriminate. Qed.
Lemma zlen_pos_last {A} (l : list A) : 0 < zlen l -> exists r x, l = r ++ [x].
Proof.
  destruct l using rev_ind; [cbv; discriminate|]. intros _. eauto.
Qed.
Lemma zlen_one_inv {A} (l : list A) : zlen l = 1 -> exists x, l = [x].
Proof.
  destruct l as [|x [|y r]]; try (cbv; discriminate); eauto.
  rewrite !zlen_cons. pose proof (zlen_nonneg r). lia.
Qed.
Lemma zlen_nil {A} : zlen (@nil A) = 0.
Proof. reflexivity. Qed.
Lemma zlen_rev {A} (l : list A) : zlen (rev l) = zlen l.
Proof. unfold zlen. rewrite rev_length. reflexivity. Qed.
Lemma znth_app {A} (x y z : list A) i k : k = zlen x -> 0 <= i < zlen y ->
  znth (x ++ y ++ z) (k + i) = znth y i.
Proof.
  intros -> Hi. unfold znth. pose proof (zlen_nonneg x).
  replace (zlen x + i <? 0) with false by lia. replace (i <? 0) with false by lia.
  unfold zlen in *.
  rewrite nth_error_app2 by lia. rewrite nth_error_app1 by lia. f_equal. lia.
Qed.

Section Machine.
Context {A : Type}.
Variable cmp : nat -> A -> A -> option bool.
Variable grab : Z -> bool.
Variable lt : A -> A -> bool.

(** The comparison is the weak order [lt], never raises, and memory is there. *)
Definition sane : Prop :=
  weak_order lt /\ (forall t x y, cmp t x y = Some (lt x y)) /\ (forall n, grab n = true).

Notation st := (@st A).

(** Only the comparison counter may differ. *)
Definition quiet (s s' : st) : Prop :=
  arr s' = arr s /\ tmp s' = tmp s /\ room s' = room s /\ gallops s' = gallops s /\ pend s' = pend s.

Lemma quiet_refl s : quiet s s.
Proof. repeat split. Qed.
Lemma quiet_trans s t u : quiet s t -> quiet t u -> quiet s u.
Proof. unfold quiet. intuition congruence. Qed.

(** Same buffer and stack; the array may differ. *)
Definition still (s s' : st) : Prop :=
  tmp s' = tmp s /\ room s' = room s /\ gallops s' = gallops s /\ pend s' = pend s.
Lemma still_refl s : still s s.
Proof. repeat split. Qed.
Lemma still_trans s t u : still s t -> still t u -> still s u.
Proof. unfold still. intuition congruence. Qed.
Lemma quiet_still s t : quiet s t -> still s t.
Proof. unfold quiet, still. tauto. Qed.
Lemma still_arr l s : still s (with_arr l s).
Proof. repeat split. Qed.

Lemma bind_done {X Y} (m : @M A X) (f : X -> @M A Y) s x s' :
  m s = Done x s' -> bind m f s = f x s'.
Proof. intros H. unfold bind. rewrite H. reflexivity. Qed.

Lemma get_arr_mid (s : st) x v y i : arr s = x ++ v :: y -> i = zlen x -> get_arr i s = Done v s.
Proof. intros E1 E2. unfold get_arr. rewrite E1, znth_mid by auto. reflexivity. Qed.
Lemma get_tmp_mid (s : st) x v y i : tmp s = x ++ v :: y -> i = zlen x -> get_tmp i s = Done v s.
Proof. intros E1 E2. unfold get_tmp. rewrite E1, znth_mid by auto. reflexivity. Qed.
Lemma set_arr_mid (s : st) x v y i w : arr s = x ++ v :: y -> i = zlen x ->
  set_arr i w s = Done tt (with_arr (x ++ w :: y) s).
Proof. intros E1 E2. unfold set_arr. rewrite E1, zset_mid by auto. reflexivity. Qed.

Lemma copy_arr_arr_mid (s : st) x v y x' v' y' i j :
  arr s = x ++ v :: y -> i = zlen x -> arr s = x' ++ v' :: y' -> j = zlen x' ->
  copy_arr_arr i j s = Done tt (with_arr (x ++ v' :: y) s).
Proof.
  intros E1 E2 E3 E4. unfold copy_arr_arr.
  rewrite (bind_done _ _ _ _ _ (get_arr_mid _ _ _ _ _ E3 E4)).
  apply (set_arr_mid _ _ _ _ _ _ E1 E2).
Qed.
Lemma copy_arr_tmp_mid (s : st) x v y x' v' y' i j :
  arr s = x ++ v :: y -> i = zlen x -> tmp s = x' ++ v' :: y' -> j = zlen x' ->
  copy_arr_tmp i j s = Done tt (with_arr (x ++ v' :: y) s).
Proof.
  intros E1 E2 E3 E4. unfold copy_arr_tmp.
  rewrite (bind_done _ _ _ _ _ (get_tmp_mid _ _ _ _ _ E3 E4)).
  apply (set_arr_mid _ _ _ _ _ _ E1 E2).
Qed.
Lemma copy_to_tmp_mid (s : st) x y z j n :
  arr s = x ++ y ++ z -> j = zlen x -> n = zlen y -> n <= room s ->
  copy_to_tmp j n s = Done tt (with_tmp y s).
Proof.
  intros E1 E2 E3 E4. unfold copy_to_tmp. rewrite (sub_mid _ _ _ _ _ _ E1 E2 E3).
  replace (n <=? room s) with true by lia. reflexivity.
Qed.
Lemma copy_from_tmp_mid (s : st) x y z x' y' z' i j n :
  arr s = x ++ y ++ z -> i = zlen x -> tmp s = x' ++ y' ++ z' -> j = zlen x' -> n = zlen y' ->
  zlen y' = zlen y ->
  copy_from_tmp i j n s = Done tt (with_arr (x ++ y' ++ z) s).
Proof.
  intros E1 E2 E3 E4 E5 E6. unfold copy_from_tmp. rewrite (sub_mid _ _ _ _ _ _ E3 E4 E5).
  rewrite (put_mid _ _ _ _ _ _ E1 E2 E6). reflexivity.
Qed.
Lemma move_in_arr_mid (s : st) x y z x' y' z' i j n :
  arr s = x ++ y ++ z -> i = zlen x -> arr s = x' ++ y' ++ z' -> j = zlen x' -> n = zlen y' ->
  zlen y' = zlen y ->
  move_in_arr i j n s = Done tt (with_arr (x ++ y' ++ z) s).
Proof.
  intros E1 E2 E3 E4 E5 E6. unfold move_in_arr. rewrite (sub_mid _ _ _ _ _ _ E3 E4 E5).
  rewrite (put_mid _ _ _ _ _ _ E1 E2 E6). reflexivity.
Qed.

Lemma islt_spec x y (s : st) : exists r s', islt cmp x y s = Done r s' /\ quiet s s' /\
  (sane -> r = Some (lt x y)).
Proof.
  unfold islt. do 2 eexists. split; [reflexivity|]. split; [repeat split|].
  intros (_ & H & _). apply H.
Qed.

(** A probe only compares, and in the sane case answers [p]. *)
Definition probes (probe : A -> @M A (option bool)) (p : A -> bool) : Prop :=
  forall x s, exists r s', probe x s = Done r s' /\ quiet s s' /\ (sane -> r = Some (p x)).

Lemma probe_right_spec key : probes (probe_right cmp key) (fun x => negb (lt key x)).
Proof.
  intros x s. unfold probe_right. destruct (islt_spec key x s) as (r & s' & E & Q & H).
  rewrite (bind_done _ _ _ _ _ E). do 2 eexists. split; [reflexivity|]. split; auto.
  intros W. rewrite (H W). reflexivity.
Qed.
Lemma probe_left_spec key : probes (probe_left cmp key) (fun x => lt x key).
Proof. intros x s. apply islt_spec. Qed.

(** Reading through [get] is reading the list [sel s]. *)
Definition reads (get : Z -> @M A A) (sel : st -> list A) : Prop :=
  (forall s i, get i s = match znth (sel s) i with Some x => Done x s | None => Bad (Ub OutOfBounds) end) /\
  (forall s s', quiet s s' -> sel s' = sel s).
Lemma reads_arr : reads get_arr arr.
Proof. split; [reflexivity|]. unfold quiet. tauto. Qed.
Lemma reads_tmp : reads get_tmp tmp.
Proof. split; [reflexivity|]. unfold quiet. tauto. Qed.

Section Search.
Variables (get : Z -> @M A A) (sel : st -> list A) (probe : A -> @M A (option bool)) (p : A -> bool).
Hypothesis Hget : reads get sel.
Hypothesis Hprobe : probes probe p.
Variables (l seg : list A) (base n k : Z).
Hypothesis Hseg : forall i, 0 <= i < n -> znth l (base + i) = znth seg i.
Hypothesis Hn : zlen seg = n.
(** [k] splits the segment into a part satisfying [p] and one that does not. *)
Definition cut : Prop := 0 <= k <= n /\ forall i x, znth seg i = Some x -> p x = (i <? k).

Lemma get_seg s i : sel s = l -> 0 <= i < n ->
  exists x, get (base + i) s = Done x s /\ znth seg i = Some x.
Proof.
  intros Hs Hi. destruct (znth_in seg i) as (x & Hx); [lia|].
  exists x. split; auto. rewrite (proj1 Hget), Hs, Hseg, Hx by auto. reflexivity.
Qed.

Lemma bin_search_spec fuel : forall s lo hi, sel s = l ->
  0 <= lo <= hi -> hi <= n -> hi - lo <= Z.of_nat fuel ->
  exists r s', bin_search fuel get probe base lo hi s = Done r s' /\ quiet s s' /\
    (forall m, r = Some m -> lo <= m <= hi) /\
    (sane -> cut -> lo <= k <= hi -> r = Some k).
Proof.
  induction fuel; intros s lo hi Hs H1 H2 H3.
  - simpl. replace (lo <? hi) with false by lia. do 2 eexists. split; [reflexivity|].
    split; [apply quiet_refl|]. split; [intros m [= <-]; lia|].
    intros _ _ H. f_equal. lia.
  - simpl. destruct (lo <? hi) eqn:E.
    + apply Z.ltb_lt in E. set (m := lo + (hi - lo) / 2).
      assert (Hm : lo <= m < hi).
      { unfold m. pose proof (Z.div_pos (hi - lo) 2). pose proof (Z.div_lt (hi - lo) 2). lia. }
      destruct (get_seg s m Hs) as (x & Gx & Sx); [lia|].
      rewrite (bind_done _ _ _ _ _ Gx).
      destruct (Hprobe x s) as (r & s1 & Px & Q1 & W1). rewrite (bind_done _ _ _ _ _ Px).
      assert (Hs1 : sel s1 = l) by (rewrite (proj2 Hget _ _ Q1); auto).
      destruct r as [[]|].
      * destruct (IHfuel s1 (m + 1) hi) as (r2 & s2 & E2 & Q2 & R2 & W2); auto; try lia.
        rewrite E2. do 2 eexists. split; [reflexivity|]. split; [eapply quiet_trans; eauto|].
        split; [intros z Hz; specialize (R2 z Hz); lia|].
        intros W C Hk. apply W2; auto.
        destruct C as (_ & C). specialize (C _ _ Sx). specialize (W1 W).
        replace (p x) with true in C by congruence. lia.
      * destruct (IHfuel s1 lo m) as (r2 & s2 & E2 & Q2 & R2 & W2); auto; try lia.
        rewrite E2. do 2 eexists. split; [reflexivity|]. split; [eapply quiet_trans; eauto|].
        split; [intros z Hz; specialize (R2 z Hz); lia|].
        intros W C Hk. apply W2; auto.
        destruct C as (_ & C). specialize (C _ _ Sx). specialize (W1 W).
        replace (p x) with false in C by congruence. lia.
      * do 2 eexists. split; [reflexivity|]. split; auto. split; [discriminate|].
        intros W. specialize (W1 W). discriminate.
    + apply Z.ltb_ge in E. do 2 eexists. split; [reflexivity|].
      split; [apply quiet_refl|]. split; [intros m [= <-]; lia|].
      intros _ _ H. f_equal. lia.
Qed.

(** The galloping loop stops with [lastofs < ofs]; probing at [lastofs] gave
    [want] and at [ofs] (if inside) did not. *)
Lemma gallop_loop_spec fuel : forall s want hint dir maxofs lastofs ofs, sel s = l ->
  (forall o, 0 <= o < maxofs -> 0 <= hint + dir * o < n) -> 0 <= maxofs <= n ->
  0 <= lastofs < ofs -> 2 * n + 1 <= SSIZE_MAX -> maxofs - ofs <= Z.of_nat fuel ->
  exists r s', gallop_loop fuel get probe want (base + hint) dir maxofs lastofs ofs s = Done r s' /\
    quiet s s' /\
    (forall a b, r = Some (a, b) -> lastofs <= a < b /\ ofs <= b /\ (a = lastofs \/ a < maxofs)) /\
    (sane -> exists a b, r = Some (a, b) /\
       (a = lastofs \/ exists x, znth seg (hint + dir * a) = Some x /\ p x = want) /\
       (maxofs <= b \/ exists x, znth seg (hint + dir * b) = Some x /\ p x = negb want)).
Proof.
  induction fuel; intros s want hint dir maxofs lastofs ofs Hs Ho Hm Hl Hov Hf.
  - simpl. replace (ofs <? maxofs) with false by lia. do 2 eexists. split; [reflexivity|].
    split; [apply quiet_refl|]. split; [intros a b [= <- <-]; lia|].
    intros _. exists lastofs, ofs. split; auto. split; auto. left; lia.
  - simpl. destruct (ofs <? maxofs) eqn:E.
    + apply Z.ltb_lt in E. assert (Hi := Ho ofs ltac:(lia)).
      destruct (get_seg s _ Hs Hi) as (x & Gx & Sx).
      replace (base + hint + dir * ofs) with (base + (hint + dir * ofs)) by lia.
      rewrite (bind_done _ _ _ _ _ Gx).
      destruct (Hprobe x s) as (r & s1 & Px & Q1 & W1). rewrite (bind_done _ _ _ _ _ Px).
      assert (Hs1 : sel s1 = l) by (rewrite (proj2 Hget _ _ Q1); auto).
      destruct r as [b|].
      * destruct (Bool.eqb b want) eqn:Eb.
        -- apply eqb_prop in Eb. subst b.
           assert (Z1 : sz (2 * ofs + 1) s1 = Done (2 * ofs + 1) s1).
           { unfold sz. replace (SSIZE_MIN <=? 2 * ofs + 1) with true by (unfold SSIZE_MIN; lia).
             replace (2 * ofs + 1 <=? SSIZE_MAX) with true by lia. reflexivity. }
           rewrite (bind_done _ _ _ _ _ Z1).
           destruct (IHfuel s1 want hint dir maxofs ofs (2 * ofs + 1)) as (r2 & s2 & E2 & Q2 & R2 & W2);
             auto; try lia.
           rewrite E2. do 2 eexists. split; [reflexivity|]. split; [eapply quiet_trans; eauto|].
           split.
           { intros a b Hab. specialize (R2 a b Hab). lia. }
           intros W. destruct (W2 W) as (a & b & -> & Ha & Hb). exists a, b. split; auto.
           split; auto. destruct Ha as [->|Ha]; auto.
           right. exists x. split; auto. specialize (W1 W). congruence.
        -- do 2 eexists. split; [reflexivity|]. split; auto.
           split; [intros a c [= <- <-]; lia|].
           intros W. exists lastofs, ofs. split; auto. split; auto. right. exists x. split; auto.
           specialize (W1 W). injection W1 as <-. destruct b, want; simpl in *; congruence.
      * do 2 eexists. split; [reflexivity|]. split; auto. split; [discriminate|].
        intros W. specialize (W1 W). discriminate.
    + apply Z.ltb_ge in E. do 2 eexists. split; [reflexivity|].
      split; [apply quiet_refl|]. split; [intros a b [= <- <-]; lia|].
      intros _. exists lastofs, ofs. split; auto.
Qed.

(** gallop: between 0 and n for every comparison, the cut for a weak order. *)
Lemma gallop_spec s hint : sel s = l -> 0 <= hint < n -> 2 * n + 1 <= SSIZE_MAX ->
  exists r s', gallop get probe base n hint s = Done r s' /\ quiet s s' /\
    (forall m, r = Some m -> 0 <= m <= n) /\
    (sane -> cut -> r = Some k).
Proof.
  intros Hs Hh Hov. unfold gallop.
  destruct (get_seg s hint Hs Hh) as (x & Gx & Sx). rewrite (bind_done _ _ _ _ _ Gx).
  destruct (Hprobe x s) as (r & s1 & Px & Q1 & W1). rewrite (bind_done _ _ _ _ _ Px).
  assert (Hs1 : sel s1 = l) by (rewrite (proj2 Hget _ _ Q1); auto).
  destruct r as [[]|].
  - destruct (gallop_loop_spec (Z.to_nat n) s1 true hint 1 (n - hint) 0 1) as (r2 & s2 & E2 & Q2 & R2 & W2);
      auto; try lia.
    cbv zeta. rewrite (bind_done _ _ _ _ _ E2).
    assert (Hs2 : sel s2 = l) by (rewrite (proj2 Hget _ _ Q2); auto).
    destruct r2 as [[lastofs ofs]|].
    + specialize (R2 _ _ eq_refl).
      set (o := if n - hint <? ofs then n - hint else ofs).
      assert (Ho : lastofs < o <= n - hint \/ False).
      { left. unfold o. destruct (n - hint <? ofs) eqn:E; lia. }
      destruct Ho as [Ho|[]].
      destruct (bin_search_spec (Z.to_nat n) s2 (lastofs + hint + 1) (o + hint))
        as (r3 & s3 & E3 & Q3 & R3 & W3); auto; try lia.
      rewrite E3. do 2 eexists. split; [reflexivity|].
      split; [eapply quiet_trans; [|eapply quiet_trans]; eauto|].
      split; [intros m Hm; specialize (R3 m Hm); lia|].
      intros W C. apply W3; auto. destruct C as (Hk & C).
      destruct (W2 W) as (a & b & [= <- <-] & Ha & Hb).
      specialize (W1 W). injection W1 as W1.
      assert (C1 := C _ _ Sx). rewrite <- W1 in C1.
      assert (lastofs + hint < k).
      { destruct Ha as [->|(y & Sy & Py)]; [lia|].
        specialize (C _ _ Sy). rewrite Py in C. replace (hint + 1 * lastofs) with (lastofs + hint) in C by lia. lia. }
      assert (k <= o + hint).
      { unfold o. destruct (n - hint <? ofs) eqn:E; [lia|].
        destruct Hb as [Hb|(y & Sy & Py)]; [lia|]. simpl in Py.
        specialize (C _ _ Sy). rewrite Py in C. lia. }
      lia.
    + do 2 eexists. split; [reflexivity|]. split; [eapply quiet_trans; eauto|]. split; [discriminate|].
      intros W. destruct (W2 W) as (a & b & Hab & _). discriminate.
  - destruct (gallop_loop_spec (Z.to_nat n) s1 false hint (-1) (hint + 1) 0 1) as (r2 & s2 & E2 & Q2 & R2 & W2);
      auto; try lia.
    cbv zeta. rewrite (bind_done _ _ _ _ _ E2).
    assert (Hs2 : sel s2 = l) by (rewrite (proj2 Hget _ _ Q2); auto).
    destruct r2 as [[lastofs ofs]|].
    + specialize (R2 _ _ eq_refl).
      set (o := if hint + 1 <? ofs then hint + 1 else ofs).
      assert (Ho : lastofs < o <= hint + 1).
      { unfold o. destruct (hint + 1 <? ofs) eqn:E; lia. }
      destruct (bin_search_spec (Z.to_nat n) s2 (hint - o + 1) (hint - lastofs))
        as (r3 & s3 & E3 & Q3 & R3 & W3); auto; try lia.
      rewrite E3. do 2 eexists. split; [reflexivity|].
      split; [eapply quiet_trans; [|eapply quiet_trans]; eauto|].
      split; [intros m Hm; specialize (R3 m Hm); lia|].
      intros W C. apply W3; auto. destruct C as (Hk & C).
      destruct (W2 W) as (a & b & [= <- <-] & Ha & Hb).
      specialize (W1 W). injection W1 as W1.
      assert (C1 := C _ _ Sx). rewrite <- W1 in C1.
      assert (k <= hint - lastofs).
      { destruct Ha as [->|(y & Sy & Py)]; [lia|].
        specialize (C _ _ Sy). rewrite Py in C. replace (hint + -1 * lastofs) with (hint - lastofs) in C by lia. lia. }
      assert (hint - o + 1 <= k).
      { unfold o. destruct (hint + 1 <? ofs) eqn:E; [lia|].
        destruct Hb as [Hb|(y & Sy & Py)]; [lia|]. simpl in Py.
        specialize (C _ _ Sy). rewrite Py in C. lia. }
      lia.
    + do 2 eexists. split; [reflexivity|]. split; [eapply quiet_trans; eauto|]. split; [discriminate|].
      intros W. destruct (W2 W) as (a & b & Hab & _). discriminate.
  - do 2 eexists. split; [reflexivity|]. split; auto. split; [discriminate|].
    intros W. specialize (W1 W). discriminate.
Qed.
End Search.

(** The two searches on a block that sits inside the array or buffer.  For a
    weak order and a sorted block the result splits it. *)
Lemma gallop_right_block get sel : reads get sel -> forall s x seg z base n key hint,
  sel s = x ++ seg ++ z -> base = zlen x -> n = zlen seg -> 0 <= hint < n -> 2 * n + 1 <= SSIZE_MAX ->
  exists r s', gallop_right cmp get key base n hint s = Done r s' /\ quiet s s' /\
    (forall m, r = Some m -> 0 <= m <= n) /\
    (sane -> ascending lt seg -> exists s1 s2, seg = s1 ++ s2 /\ r = Some (zlen s1) /\
       (forall y, In y s1 -> lt key y = false) /\ (forall y, In y s2 -> lt key y = true)).
Proof.
  intros Hget s x seg z base n key hint Hs Hb Hn Hh Hov.
  assert (Hsplit : weak_order lt -> ascending lt seg -> exists s1 s2, seg = s1 ++ s2 /\
       (forall y, In y s1 -> lt key y = false) /\ (forall y, In y s2 -> lt key y = true)).
  { intros W. clear - W. induction seg as [|y r IH]; intros H.
    - exists [], []. repeat split; auto; contradiction.
    - apply asc_cons in H as (H1 & H2). destruct (lt key y) eqn:E.
      + exists [], (y :: r). split; auto. split; [contradiction|].
        intros u [<-|Hu]; auto. eapply lt_le_trans; eauto.
      + destruct (IH H1) as (s1 & s2 & -> & Ha & Hc). exists (y :: s1), s2. split; auto.
        split; auto. intros u [<-|Hu]; auto. }
  unfold gallop_right.
  assert (Hseg : forall i, 0 <= i < n -> znth (sel s) (base + i) = znth seg i).
  { intros i Hi. rewrite Hs. apply znth_app; lia. }
  destruct (gallop_spec get sel _ _ Hget (probe_right_spec key) (sel s) seg base n 0 Hseg (eq_sym Hn) s hint
              eq_refl Hh Hov) as (r & s' & E & Q & R & _).
  exists r, s'. split; auto. split; auto. split; auto.
  intros W H. destruct (Hsplit (proj1 W) H) as (s1 & s2 & E1 & H1 & H2).
  exists s1, s2. split; auto. split; auto.
  destruct (gallop_spec get sel _ _ Hget (probe_right_spec key) (sel s) seg base n (zlen s1) Hseg (eq_sym Hn) s hint
              eq_refl Hh Hov) as (r' & s'' & E' & _ & _ & K).
  rewrite E in E'. injection E' as <- <-. apply K; auto.
  split.
  - subst n. rewrite E1, zlen_app. pose proof (zlen_nonneg s1). pose proof (zlen_nonneg s2). lia.
  - intros i y Hy. rewrite E1 in Hy. assert (Hi := znth_some _ _ _ Hy).
    destruct (i <? zlen s1) eqn:Ei.
    + rewrite H1; auto. unfold znth in Hy. replace (i <? 0) with false in Hy by lia.
      rewrite nth_error_app1 in Hy by (unfold zlen in Ei; lia). eapply nth_error_In; eauto.
    + rewrite H2; auto. unfold znth in Hy. replace (i <? 0) with false in Hy by lia.
      rewrite nth_error_app2 in Hy by (unfold zlen in Ei; lia). eapply nth_error_In; eauto.
Qed.

Lemma gallop_left_block get sel : reads get sel -> forall s x seg z base n key hint,
  sel s = x ++ seg ++ z -> base = zlen x -> n = zlen seg -> 0 <= hint < n -> 2 * n + 1 <= SSIZE_MAX ->
  exists r s', gallop_left cmp get key base n hint s = Done r s' /\ quiet s s' /\
    (forall m, r = Some m -> 0 <= m <= n) /\
    (sane -> ascending lt seg -> exists s1 s2, seg = s1 ++ s2 /\ r = Some (zlen s1) /\
       (forall y, In y s1 -> lt y key = true) /\ (forall y, In y s2 -> lt y key = false)).
Proof.
  intros Hget s x seg z base n key hint Hs Hb Hn Hh Hov.
  assert (Hsplit : weak_order lt -> ascending lt seg -> exists s1 s2, seg = s1 ++ s2 /\
       (forall y, In y s1 -> lt y key = true) /\ (forall y, In y s2 -> lt y key = false)).
  { intros W. clear - W. induction seg as [|y r IH]; intros H.
    - exists [], []. repeat split; auto; contradiction.
    - apply asc_cons in H as (H1 & H2). destruct (lt y key) eqn:E.
      + destruct (IH H1) as (s1 & s2 & -> & Ha & Hc). exists (y :: s1), s2. split; auto.
        split; auto. intros u [<-|Hu]; auto.
      + exists [], (y :: r). split; auto. split; [contradiction|].
        intros u [<-|Hu]; auto. eapply le_trans; eauto. }
  unfold gallop_left.
  assert (Hseg : forall i, 0 <= i < n -> znth (sel s) (base + i) = znth seg i).
  { intros i Hi. rewrite Hs. apply znth_app; lia. }
  destruct (gallop_spec get sel _ _ Hget (probe_left_spec key) (sel s) seg base n 0 Hseg (eq_sym Hn) s hint
              eq_refl Hh Hov) as (r & s' & E & Q & R & _).
  exists r, s'. split; auto. split; auto. split; auto.
  intros W H. destruct (Hsplit (proj1 W) H) as (s1 & s2 & E1 & H1 & H2).
  exists s1, s2. split; auto. split; auto.
  destruct (gallop_spec get sel _ _ Hget (probe_left_spec key) (sel s) seg base n (zlen s1) Hseg (eq_sym Hn) s hint
              eq_refl Hh Hov) as (r' & s'' & E' & _ & _ & K).
  rewrite E in E'. injection E' as <- <-. apply K; auto.
  split.
  - subst n. rewrite E1, zlen_app. pose proof (zlen_nonneg s1). pose proof (zlen_nonneg s2). lia.
  - intros i y Hy. rewrite E1 in Hy. assert (Hi := znth_some _ _ _ Hy).
    destruct (i <? zlen s1) eqn:Ei.
    + rewrite H1; auto. unfold znth in Hy. replace (i <? 0) with false in Hy by lia.
      rewrite nth_error_app1 in Hy by (unfold zlen in Ei; lia). eapply nth_error_In; eauto.
    + rewrite H2; auto. unfold znth in Hy. replace (i <? 0) with false in Hy by lia.
      rewrite nth_error_app2 in Hy by (unfold zlen in Ei; lia). eapply nth_error_In; eauto.
Qed.

(** reverse_slice reverses exactly its slots. *)
Lemma reverse_loop_spec fuel : forall s x seg z lo hi,
  arr s = x ++ seg ++ z -> lo = zlen x -> hi = lo + zlen seg - 1 -> zlen seg <= Z.of_nat fuel ->
  exists s', reverse_loop fuel lo hi s = Done tt s' /\ still s s' /\ tick s' = tick s /\
    arr s' = x ++ rev seg ++ z.
Proof.
  induction fuel; intros s x seg z lo hi Hs Hlo Hhi Hf.
  - pose proof (zlen_nonneg seg). assert (seg = []) by (apply zlen_nil_inv; lia). subst seg.
    simpl. replace (lo <? hi) with false by (rewrite zlen_nil in Hhi; lia).
    exists s. repeat split; auto.
  - simpl. destruct (lo <? hi) eqn:E.
    + apply Z.ltb_lt in E. destruct seg as [|u r]; [rewrite zlen_nil in Hhi; lia|].
      destruct r as [|w r _] using rev_ind; [rewrite zlen_cons, zlen_nil in Hhi; lia|].
      rewrite zlen_cons, zlen_app, zlen_cons, zlen_nil in *.
      assert (G1 : get_arr lo s = Done u s) by (eapply get_arr_mid; [rewrite Hs; reflexivity|auto]).
      rewrite (bind_done _ _ _ _ _ G1).
      assert (G2 : get_arr hi s = Done w s).
      { apply (get_arr_mid s (x ++ u :: r) w z).
        - rewrite Hs. rewrite <- !app_assoc. simpl. rewrite <- !app_assoc. reflexivity.
        - rewrite zlen_app, zlen_cons. lia. }
      rewrite (bind_done _ _ _ _ _ G2).
      assert (S1 : set_arr lo w s = Done tt (with_arr (x ++ w :: (r ++ [w]) ++ z) s)).
      { eapply set_arr_mid; [rewrite Hs; reflexivity|auto]. }
      rewrite (bind_done _ _ _ _ _ S1).
      set (s1 := with_arr (x ++ w :: (r ++ [w]) ++ z) s).
      assert (S2 : set_arr hi u s1 = Done tt (with_arr ((x ++ w :: r) ++ u :: z) s1)).
      { eapply (set_arr_mid s1 (x ++ w :: r) w z).
        - simpl. rewrite <- !app_assoc. simpl. reflexivity.
        - rewrite zlen_app, zlen_cons. lia. }
      rewrite (bind_done _ _ _ _ _ S2).
      destruct (IHfuel (with_arr ((x ++ w :: r) ++ u :: z) s1) (x ++ [w]) r (u :: z) (lo + 1) (hi - 1))
        as (s' & E' & Q' & T' & A').
      * simpl. rewrite <- !app_assoc. simpl. reflexivity.
      * rewrite zlen_app, zlen_cons, zlen_nil. lia.
      * lia.
      * lia.
      * exists s'. split; auto. split; [exact Q'|]. split; [exact T'|].
        rewrite A'. simpl. rewrite rev_app_distr. simpl. rewrite <- !app_assoc. simpl. reflexivity.
    + apply Z.ltb_ge in E. exists s. split; auto. split; [apply still_refl|]. split; auto.
      rewrite Hs. destruct seg as [|u [|w r]]; auto.
      rewrite !zlen_cons in Hhi. pose proof (zlen_nonneg r). lia.
Qed.

Lemma reverse_slice_spec (s : st) x seg z lo n :
  arr s = x ++ seg ++ z -> lo = zlen x -> n = zlen seg ->
  exists s', reverse_slice lo n s = Done tt s' /\ still s s' /\ tick s' = tick s /\
    arr s' = x ++ rev seg ++ z.
Proof.
  intros H1 H2 H3. unfold reverse_slice. apply reverse_loop_spec; auto; unfold zlen in *; lia.
Qed.
End Machine.
