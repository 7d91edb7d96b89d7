(** Proofs for ORefModel / ORefSpec: programs, and the references left behind. *)
From Coq Require Import ZArith List Bool Lia.
From Verif Require Import Base ListLemmas PyListSpec ArrayListModel ObjModel ObjSpec ObjLemmas IRefModel IRefSpec IRefProofs IRefMore ORefModel ORefSpec ORefProofs.
Import ListNotations.
Local Open Scope Z_scope.
Local Arguments Z.add : simpl never.
Local Arguments Z.sub : simpl never.
Local Arguments Z.mul : simpl never.
Local Arguments Z.pow : simpl never.

Section More.
Context (E : env).

Lemma short_nil k c s s' v lost short : returns k E c s s' v lost short -> short_of k c s = false -> short = [].
Proof.
  destruct c; simpl; intros R H; try tauto.
  - destruct R as (_ & _ & _ & ->). destruct ys; [auto | discriminate].
  - destruct R as (_ & _ & _ & -> & _). apply Z.ltb_ge in H. replace (Z.to_nat (n - size s)) with 0%nat by lia. reflexivity.
  - destruct R as (_ & _ & _ & _ & ->). destruct k, src; auto. apply Z.ltb_ge in H. apply skipn_all2. unfold zlen in H. lia.
Qed.

Lemma settle s s' os lost : sane E (outside s) -> at_ E (outside s) s' os -> (forall p, occ os p = occ (elems s') p + occ lost p) ->
  at_ E (outside s) (outside s') lost /\ sound E s'.
Proof.
  intros W A H. assert (A1 : at_ E (outside s) s' (elems s' ++ lost)) by (eapply at_perm; [exact A|]; intros p; rewrite occ_app; apply H).
  destruct A1 as (N & B & C). apply Forall_app in C. destruct C as (C1 & C2).
  assert (A2 : at_ E (outside s) (outside s') lost).
  { split; [exact N|]. split; [|exact C2]. intros p Hp. simpl. rewrite (B p Hp), occ_app. simpl. lia. }
  split; auto. split; [eapply at_sane; eauto | exact C1].
Qed.

(** One call and the drop of its result. *)
Lemma step k G c s : sound E s -> callable E s c -> short_of k c s = false ->
  match run k E G c s with
  | Ok s1 v => exists s2 lost, drop E v s1 = Ok s2 tt /\ elems s2 = elems s1 /\ sound E s2 /\ at_ E (outside s) (outside s2) lost /\ returns k E c s s1 v lost []
  | Er s1 e => exists lost, sound E s1 /\ at_ E (outside s) (outside s1) lost /\ raises k E G c s s1 e lost
  | r => ends k E G c s r
  end.
Proof.
  intros (W & F) C Hs. pose proof (run_fin E s W F k G c C) as H. destruct (run k E G c s) as [s1 v|s1 e|u|]; simpl in H |- *; auto.
  - destruct H as (lost & short & os & A & O & Ho & R). assert (short = []) by (eapply short_nil; eauto). subst short.
    destruct (drop_at E _ W v s1 os A Ho) as (s2 & E1 & A2 & El & _). exists s2, lost. split; auto. split; auto.
    destruct (settle s s2 os lost W A2) as (A3 & S2); [intros p; specialize (O p); simpl in O; rewrite El; lia|]. auto.
  - destruct H as (lost & A & R). destruct (settle s s1 _ lost W A) as (A3 & S2); [intros p; apply occ_app|]. eauto.
Qed.

Lemma shares_of s s' lost : at_ E (outside s) (outside s') lost -> shares E s s' [] lost [].
Proof. intros (_ & B & _) p Hp. rewrite (B p Hp). simpl. lia. Qed.

Lemma session_ends k : forall cs s, sound E s -> along k E (fun G c s => callable E s c /\ short_of k c s = false) cs s ->
  match session k E cs s with
  | Ok s' _ => sound E s' /\ exists lost, at_ E (outside s) (outside s') lost
  | Er _ _ => False
  | Bad u => k = Linked /\ (u = UseAfterFree /\ (exists i, In (OPop (Some i)) (map snd cs)) \/
                            u = OutOfBounds /\ exists sl seq src, In (OSetSlice sl seq src) (map snd cs) /\ step_of sl <> 1)
  | Killed => exists c, In c (map snd cs) /\ extends c = true
  end.
Proof.
  induction cs as [|[G c] cs IH]; intros s S H; cbn [session along] in *.
  - split; auto. exists []. apply at_refl.
  - destruct H as ((C & Hs) & H). pose proof (step k G c s S C Hs) as T. cbn [map snd].
    assert (Go : forall s1 lost, sound E s1 -> at_ E (outside s) (outside s1) lost -> along k E (fun G c s => callable E s c /\ short_of k c s = false) cs s1 ->
      match session k E cs s1 with
      | Ok s' _ => sound E s' /\ exists lost, at_ E (outside s) (outside s') lost
      | Er _ _ => False
      | Bad u => k = Linked /\ (u = UseAfterFree /\ (exists i, In (OPop (Some i)) (c :: map snd cs)) \/
                                u = OutOfBounds /\ exists sl seq src, In (OSetSlice sl seq src) (c :: map snd cs) /\ step_of sl <> 1)
      | Killed => exists c', In c' (c :: map snd cs) /\ extends c' = true
      end).
    { intros s1 lost S1 A1 H1. specialize (IH s1 S1 H1). destruct (session k E cs s1) as [s2 u|s2 e|u|]; auto.
      - destruct IH as (S2 & lost2 & A2). split; auto. exists (lost ++ lost2). eapply at_trans; eauto.
      - destruct IH as (K & [(U & i & I)|(U & sl & seq & src & I & J)]); split; auto; [left | right]; split; auto; [exists i | exists sl, seq, src]; simpl; auto.
      - destruct IH as (c' & I & J). exists c'. simpl. auto. }
    destruct (run k E G c s) as [s1 v|s1 e|u|].
    + destruct T as (s2 & lost & D & _ & S2 & A2 & _). rewrite D in H |- *. cbn [bind]. eapply Go; eauto.
    + destruct T as (lost & S2 & A2 & _). eapply Go; eauto.
    + simpl in T. destruct T as (K & [((i & -> & _) & ->)|((sl & seq & src & -> & J) & ->)]); split; auto; [left | right]; split; auto; [exists i | exists sl, seq, src]; simpl; auto.
    + simpl in T. exists c. simpl. split; [auto | apply T].
Qed.

(** ** Tidy calls *)
Lemma enough_not G most : enough G most -> ~ refused G most.
Proof. intros H (n & m & H1 & H2 & H3). rewrite H in H3; auto; discriminate. Qed.
Lemma tidy_short k c s : tidy k E c s -> short_of k c s = false.
Proof.
  destruct c; simpl; auto.
  - intros (_ & ->). reflexivity.
  - intros H. pose proof (size_nonneg s). apply Z.ltb_ge. lia.
  - destruct k, src; auto. intros H. apply Z.ltb_ge. exact H.
Qed.
Definition nothing (os : list Z) : Prop := forall p, imm E p = false -> occ os p = 0.
Lemma nothing_nil : nothing []. Proof. intros p _. reflexivity. Qed.
Lemma tidy_returns k c s s' v lost : tidy k E c s -> returns k E c s s' v lost [] -> nothing lost.
Proof.
  destruct c; simpl; intros T R; try contradiction; try (decompose [and] R; subst lost; apply nothing_nil; fail).
  - destruct R as (_ & _ & -> & _). destruct T as (-> & _). apply nothing_nil.
  - destruct R as (_ & _ & -> & _). rewrite T. apply nothing_nil.
  - destruct R as (_ & _ & -> & _). rewrite T. apply nothing_nil.
  - destruct R as (R0 & _ & -> & _). rewrite skipn_all2; [apply nothing_nil|]. destruct T as [T|T]; [lia|]. unfold size, zlen in T. lia.
  - destruct R as (_ & _ & -> & _). destruct (Z.leb_spec n 0); [|apply nothing_nil]. destruct T as [T|T]; [lia | rewrite T; apply nothing_nil].
  - destruct R as (_ & _ & _ & _ & -> & _). destruct k; [apply nothing_nil|]. destruct T as [T|T]; [discriminate|]. intros p Hp. simpl.
    destruct (Z.eqb_spec (none E) p); [congruence | reflexivity].
Qed.
Lemma tidy_raises k G c s s' e lost : tidy k E c s -> enough G (wanted c s) -> raises k E G c s s' e lost -> nothing lost.
Proof.
  intros T N R. apply enough_not in N.
  assert (Un : undone s s' lost -> nothing lost) by (intros (_ & ->); apply nothing_nil).
  destruct c; simpl in T, N, R; try contradiction; try (apply Un; tauto); try (exfalso; tauto).
  - destruct R as [R|[R|[R|R]]].
    + exfalso; tauto.
    + destruct R as (_ & _ & _ & ->). rewrite T. apply nothing_nil.
    + destruct R as (_ & _ & ->). rewrite T. apply nothing_nil.
    + exfalso; tauto.
  - destruct R as [R|[R|R]]; [apply Un; tauto | destruct R as (_ & -> & _); apply nothing_nil|].
    destruct R as (-> & -> & _). destruct (T eq_refl) as (n & H). discriminate.
  - destruct R as [R|[R|R]]; [apply Un; tauto | destruct R as (_ & -> & _); apply nothing_nil|].
    destruct R as (-> & -> & _). destruct (T eq_refl) as (n & H). discriminate.
  - destruct R as (_ & -> & _). apply nothing_nil.
  - destruct R as [R|[R|[R|[R|R]]]]; try (apply Un; tauto). destruct R as (_ & _ & -> & _); apply nothing_nil.
  - destruct R as (-> & _). apply nothing_nil.
Qed.
Lemma tidy_session k : forall cs s, sound E s -> along k E (fun G c s => callable E s c /\ tidy k E c s /\ enough G (wanted c s)) cs s ->
  exists s', session k E cs s = Ok s' tt /\ sound E s' /\ nxt s <= nxt s' /\ forall p, imm E p = false -> cnt (outside s') p = cnt (outside s) p.
Proof.
  induction cs as [|[G c] cs IH]; intros s S H; cbn [session along] in *.
  - exists s. split; auto. split; auto. split; [lia | auto].
  - destruct H as ((C & T & N) & H). pose proof (step k G c s S C (tidy_short k c s T)) as St.
    assert (Go : forall s1 lost, sound E s1 -> at_ E (outside s) (outside s1) lost -> nothing lost -> along k E (fun G c s => callable E s c /\ tidy k E c s /\ enough G (wanted c s)) cs s1 ->
      exists s', session k E cs s1 = Ok s' tt /\ sound E s' /\ nxt s <= nxt s' /\ forall p, imm E p = false -> cnt (outside s') p = cnt (outside s) p).
    { intros s1 lost S1 A1 L1 H1. destruct (IH s1 S1 H1) as (s' & E1 & S2 & Nx & Ct). exists s'. destruct A1 as (A1 & B1 & _). simpl in A1. split; auto. split; auto. split; [lia|].
      intros p Hp. rewrite (Ct p Hp), (B1 p Hp), (L1 p Hp). lia. }
    destruct (run k E G c s) as [s1 v|s1 e|u|].
    + destruct St as (s2 & lost & D & _ & S2 & A2 & R). rewrite D in H |- *. cbn [bind]. eapply Go; eauto. eapply tidy_returns; eauto.
    + destruct St as (lost & S2 & A2 & R). eapply Go; eauto. eapply tidy_raises; eauto.
    + exfalso. simpl in St. destruct St as (-> & [((i & -> & _) & _)|((sl & seq & src & -> & J) & _)]); simpl in T; [destruct T as [T|T]; discriminate | contradiction].
    + exfalso. simpl in St. eapply enough_not; [exact N | apply St].
Qed.
(** The list dies. *)
Lemma dealloc_ends s : sound E s -> exists s', dealloc E s = Ok s' tt /\ elems s' = [] /\ nxt s' = nxt s /\ forall p, imm E p = false -> cnt s' p = cnt (outside s) p.
Proof.
  intros (W & F). unfold dealloc. pose proof (at_start E s F) as A. rewrite <- (app_nil_r (elems s)) in A.
  destruct (decs_at E _ W (elems s) s [] A) as (t & E1 & (A2 & B2 & _) & El & Nx). rewrite E1. cbn [bind]. eexists. split; [reflexivity|]. split; [reflexivity|]. split; [exact Nx|].
  intros p Hp. simpl. rewrite (B2 p Hp). simpl. lia.
Qed.
Lemma life k cs s : sound E s -> along k E (fun G c s => callable E s c /\ tidy k E c s /\ enough G (wanted c s)) cs s ->
  exists s1 s2, session k E cs s = Ok s1 tt /\ dealloc E s1 = Ok s2 tt /\ elems s2 = [] /\ forall p, imm E p = false -> cnt s2 p = cnt (outside s) p.
Proof.
  intros S H. destruct (tidy_session k cs s S H) as (s1 & E1 & S1 & _ & C1). destruct (dealloc_ends s1 S1) as (s2 & E2 & El & _ & C2).
  exists s1, s2. split; auto. split; auto. split; auto. intros p Hp. rewrite (C2 p Hp). apply C1; auto.
Qed.

(** ** What goes wrong *)
Lemma imul_full G n s : sound E s -> elems s <> [] -> 2 <= n ->
  exists s' m r, run Array E G (OIMul n) s = Er s' RuntimeError /\ elems s' = firstn m (repeated r (elems s)) /\ (length (elems s) <= m)%nat /\
    (enough G (size s * n) -> grows G (size s') (size s' + 1) = false).
Proof.
  intros S Ne Hn. assert (C : callable E s (OIMul n)) by (split; [constructor | split; [constructor | exact I]]).
  pose proof (run_ends Array E G (OIMul n) s S C) as H. destruct (run Array E G (OIMul n) s) as [s' v|s' e|u|]; simpl in H.
  - destruct H as (lost & short & _ & R). decompose [and] R. exfalso. auto.
  - destruct H as (lost & _ & -> & _ & R & m & r & P1 & P2). exists s', m, r. split; auto. split; auto. split; auto. intros N.
    destruct R as [R|R]; [exfalso; eapply enough_not; [exact N | exact R] | apply R].
  - destruct H as (H & _). discriminate.
  - destruct H as (H & _). discriminate.
Qed.
Lemma set_lost k G i o s : sound E s -> callable E s (OSet i o) -> 0 <= rel (size s) i < size s ->
  exists s' pre old post, run k E G (OSet i o) s = Ok s' VUnit /\ has_at (elems s) i pre old post /\ elems s' = pre ++ o :: post /\ shares E s s' [] [old] [].
Proof.
  intros S C Hi. pose proof (run_ends k E G (OSet i o) s S C) as H. destruct (run k E G (OSet i o) s) as [s' v|s' e|u|]; simpl in H.
  - destruct H as (lost & short & Sh & (pre & old & post & H1 & H2 & ->) & -> & ->). exists s', pre, old, post. auto.
  - destruct H as (lost & _ & H). tauto.
  - destruct H as (_ & [((j & H & _) & _)|((sl & seq & src & H & _) & _)]); discriminate.
  - destruct H as (H & _). discriminate.
Qed.
Lemma sort_lost G keys perm s s' v : sound E s -> callable E s (OSort true keys None perm) -> run Linked E G (OSort true keys None perm) s = Ok s' v ->
  v = VObj (none E) /\ shares E s s' [none E] [none E] [].
Proof.
  intros S C R. pose proof (run_ends Linked E G _ s S C) as H. rewrite R in H. simpl in H. destruct H as (lost & short & Sh & H). decompose [and] H. subst. auto.
Qed.
Lemma hint_lost G e a o r s : sound E s -> callable E s (OExtendIter (inr e) a) -> it_iter a = None -> it_own a = true -> it_items a = o :: r ->
  exists s', run Array E G (OExtendIter (inr e) a) s = Er s' e /\ elems s' = elems s /\ shares E s s' [] [o] [].
Proof.
  intros S C I1 I2 I3. destruct S as (W & F). destruct C as (C1 & C2 & _). simpl in C1, C2. apply Forall_inv in C1. rewrite I3 in C2. apply Forall_inv in C2.
  cbn [run]. unfold extend_iter, get_iter. rewrite I1, I2. destruct (give_at E _ W s _ (it_obj a) (at_start E s F) C1) as (s1 & E1 & A1 & El1). rewrite E1. cbn [bind].
  rewrite I3. cbn [extend_items]. destruct (fetch_at E (outside s) s1 _ o A1 C2) as (A2 & El2).
  assert (A3 : at_ E (outside s) (fetch E o s1) (owned (VObj (it_obj a)) ++ elems s ++ [o])) by (eapply at_perm; [exact A2|]; occs).
  destruct (drop_at E _ W _ _ _ A3 I) as (s2 & E2 & A4 & El & _). rewrite E2. cbn [bind]. exists s2. assert (El3 : elems s2 = elems s) by congruence. split; auto. split; auto.
  eapply shares_at; [exact A4|]. intros p. rewrite El3. occs.
Qed.
Lemma init_lost G h q items s : sound E s -> callable E s (OInitSeq h q items) -> prepared Array G h = true -> grows G 0 (zlen items) = false ->
  exists s', run Array E G (OInitSeq h q items) s = Er s' RuntimeError /\ elems s' = [] /\ shares E s s' [] (elems s ++ q :: items) [].
Proof.
  intros S C P Q. destruct S as (W & F). destruct C as (C1 & _). simpl in C1. inversion C1 as [|? ? Lq Li]; subst.
  cbn [run]. unfold init. rewrite P. cbn [init_seq]. unfold a_init_seq.
  destruct (inc_at E _ W _ _ q (at_empty E s F) (or_introl Lq)) as (t1 & E1 & A1 & El1). rewrite E1. cbn [bind].
  destruct (incs_at E _ W items t1 _ A1) as (t2 & E2 & A2 & El2). { eapply Forall_impl; [|exact Li]. auto. }
  rewrite E2, Q. cbn [bind]. exists t2. assert (El : elems t2 = []) by (rewrite El2, El1; reflexivity). split; auto. split; auto.
  eapply shares_at; [exact A2|]. intros p. rewrite El. occs.
Qed.
Lemma l_init_items_room G q : forall items t t' v j, l_init_items E G q items t = Ok t' v -> size t <= j < size t + zlen items -> grows G j (j + 1) = true.
Proof.
  induction items as [|o items IH]; intros t t' v j H Hj; cbn [l_init_items] in H; [rewrite zlen_nil in Hj; lia|]. rewrite zlen_cons in Hj.
  unfold inc in H. destruct (alive E t o); [|discriminate]. cbn [bind] in H. set (t1 := bump E o 1 t) in *.
  assert (Sz : size t1 = size t) by (unfold t1, bump; destruct (imm E o); reflexivity).
  destruct (grows G (size t1) (size t1 + 1)) eqn:Q; [|discriminate]. destruct (Z.eq_dec j (size t)) as [->|Ne]; [rewrite <- Sz; exact Q|].
  eapply IH; [exact H|]. unfold push, size in *. simpl. rewrite zlen_app, zlen_cons, zlen_nil. lia.
Qed.
Lemma linked_init_lost G h q items j s : sound E s -> callable E s (OInitSeq h q items) -> 0 <= j < zlen items -> grows G j (j + 1) = false ->
  exists s' o rest, run Linked E G (OInitSeq h q items) s = Er s' RuntimeError /\ items = elems s' ++ o :: rest /\ shares E s s' [] (elems s ++ [q; o]) [].
Proof.
  intros S C Hj Q. pose proof (run_ends Linked E G _ s S C) as H. destruct (run Linked E G (OInitSeq h q items) s) as [s' v|s' e|u|] eqn:R; simpl in H.
  - exfalso. cbn [run] in R. unfold init, prepared in R. cbn [init_seq] in R. unfold inc in R. destruct (alive E (with_elems [] s) q); [|discriminate]. cbn [bind] in R.
    set (t1 := bump E q 1 (with_elems [] s)) in *. assert (Sz : size t1 = 0) by (unfold t1, bump; destruct (imm E q); reflexivity).
    rewrite (l_init_items_room G q items t1 s' v j R) in Q; [discriminate | lia].
  - destruct H as (lost & Sh & -> & _ & [(H & _)|[(H & _)|(_ & o & rest & Ei & ->)]]); try discriminate. exists s', o, rest. auto.
  - destruct H as (_ & [((i & H & _) & _)|((sl & seq & src & H & _) & _)]); discriminate.
  - destruct H as (H & _). discriminate.
Qed.
Lemma pop_freed G i s : sound E s -> 0 <= rel (size s) i < size s -> run Linked E G (OPop (Some i)) s = Bad UseAfterFree.
Proof.
  intros S Hi. cbn [run]. unfold pop. destruct (Z.eqb_spec (size s) 0); [lia|]. pose proof (at_index_rel (size s) i (size_nonneg s)) as R.
  destruct (at_index (size s) i) as [n0|]; [|tauto]. destruct (nth_error (elems s) (Z.to_nat n0)) eqn:Nt; auto. apply nth_error_None in Nt. unfold size, zlen in *. lia.
Qed.
End More.
