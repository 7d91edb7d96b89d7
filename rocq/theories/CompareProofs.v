(** Proofs about CompareModel. *)
From Coq Require Import ZArith List Bool Arith Lia.
From Verif Require Import Base PyListSpec ArrayListModel ArrayListMoreModel StdListModel StdListProofs LinkedListModel LinkedListProofs
  CompareModel CompareSpec LinkedReentrantSpec LinkedReentrantProofs.
Import ListNotations.
Local Open Scope Z_scope.

Definition eqne (c : cmp_op) : Prop := c = Eq_ \/ c = Ne_.

Section W.
Context {C X : Type}.
Context (u : world C X).
Implicit Types s : C * X.

Lemma ordering_dec c : {ordering c} + {~ ordering c}.
Proof. destruct c; [right|right|left|left|left|left]; unfold ordering; try (split; discriminate); intros [A B]; congruence. Qed.
Lemma not_ordering c : ~ ordering c <-> eqne c.
Proof. unfold ordering, eqne. destruct c; split; intros H; try tauto; try (destruct H; discriminate); exfalso; apply H; split; discriminate. Qed.

Lemma stale_cons c v c' a b r s : w_alive u s v = true ->
  (stale u c v ((c', a, b) :: r) s <-> exists s', w_call u c' a b s = (Ret None, s') /\ stale u c v r s').
Proof.
  intros L. split.
  - intros H. inversion H; subst; [congruence|]. eauto.
  - intros (s' & E & H). eapply stale_later; eauto.
Qed.
Lemma stale_nil c v s : stale u c v [] s <-> ordering c /\ w_alive u s v = false.
Proof.
  split.
  - intros H. inversion H; subst. split; [|assumption]. destruct H0; [congruence|assumption].
  - intros [O L]. apply stale_now; auto.
Qed.

(** The rest of the questions, with the left operand borrowed. *)
Fixpoint asks (c : cmp_op) (v w : Z) (qs : list (cmp_op * Z * Z)) (s : C * X) : outcome bool * (C * X) :=
  match qs with
  | [] => unanswered u c v w s
  | (c', a, b) :: r => touch u v s (fun s => ask u c' a b s (fun s => asks c v w r s))
  end.
Lemma asks_cases c v w qs : forall s,
  (stale u c v qs s /\ exists s', asks c v w qs s = (Undef UseAfterFree, s')) \/
  (~ stale u c v qs s /\ asks c v w qs s = ask_all u qs (by_default c v w) s).
Proof.
  induction qs as [|[[c' a] b] r IH]; intros s; cbn [asks ask_all].
  - rewrite stale_nil. unfold unanswered, by_default, touch, ordering.
    destruct c; try (right; split; [intros [[A B] _]; congruence|reflexivity]);
      destruct (w_alive u s v); try (right; split; [intros [_ A]; discriminate|reflexivity]); left; split; eauto; split; auto; split; discriminate.
  - unfold touch. destruct (w_alive u s v) eqn:L.
    + rewrite stale_cons by exact L. unfold ask, then_. destruct (w_call u c' a b s) as [o s'] eqn:E. cbn [fst snd].
      destruct o as [[t|]|e|r0 e|e]; try (right; split; [intros (x & A & _); discriminate|reflexivity]).
      destruct (IH s') as [[A B]|[A B]]; [left; eauto|]. right. split; [|exact B]. intros (x & Ex & D). injection Ex as <-. contradiction.
    + left. split; [apply stale_now; [left; discriminate|exact L]|]. eauto.
Qed.

Lemma do_rich_asks c v w s : do_rich u c v w s = asks c v w (questions u c v w) s.
Proof. unfold do_rich, questions. destruct (w_sub u v w), c; reflexivity. Qed.

Lemma rich_cases c v w s :
  (read_dead u c v w s /\ exists s', rich u c v w s = (Undef UseAfterFree, s')) \/
  (~ read_dead u c v w s /\ rich u c v w s = py_rich u c v w s).
Proof.
  unfold read_dead, rich, py_rich.
  assert (G : forall s0, (~ shortcut c v w) -> s0 = s ->
     ((~ shortcut c v w /\ stale u c v (questions u c v w) s) /\ exists s', do_rich u c v w s = (Undef UseAfterFree, s')) \/
     (~ (~ shortcut c v w /\ stale u c v (questions u c v w) s) /\ do_rich u c v w s = ask_all u (questions u c v w) (by_default c v w) s)).
  { intros s0 N _. rewrite do_rich_asks. destruct (asks_cases c v w (questions u c v w) s) as [[A B]|[A B]]; [left|right]; split; auto. tauto. }
  destruct c; try (apply (G s); [intros [A _]; apply A; split; discriminate|reflexivity]).
  - destruct (v =? w) eqn:E.
    + apply Z.eqb_eq in E. right. split; [|reflexivity]. intros [A _]. apply A. split; [|exact E]. intros [B _]. congruence.
    + apply Z.eqb_neq in E. apply (G s); [intros [_ B]; contradiction|reflexivity].
  - destruct (v =? w) eqn:E.
    + apply Z.eqb_eq in E. right. split; [|reflexivity]. intros [A _]. apply A. split; [|exact E]. intros [_ B]. congruence.
    + apply Z.eqb_neq in E. apply (G s); [intros [_ B]; contradiction|reflexivity].
Qed.

Lemma ends_ret {A} (o : outcome A) : ends o -> forall e, o <> Undef e.
Proof. intros [[a ->]|[a ->]] e; discriminate. Qed.

Lemma ask_all_ends (N : returns u) d : ends d -> forall qs s, ends (fst (ask_all u qs d s)).
Proof.
  intros D. destruct N as (_ & _ & N3 & N4 & _). induction qs as [|[[c' a] b] r IH]; intros s; cbn [ask_all]; [exact D|].
  pose proof (N3 c' a b s) as E. destruct (w_call u c' a b s) as [o s'] eqn:W. cbn [fst] in E.
  destruct o as [[t|]|e|x e|e]; [eapply N4; exact W|apply IH|right; cbn; eauto| |]; destruct E as [[? ?]|[? ?]]; discriminate.
Qed.
Lemma py_rich_ends (N : returns u) c v w s : ends (fst (py_rich u c v w s)).
Proof.
  assert (D : ends (by_default c v w)) by (unfold by_default, ends; destruct c; eauto).
  unfold py_rich. destruct c; try (apply ask_all_ends; assumption); destruct (v =? w); try (apply ask_all_ends; assumption); left; cbn; eauto.
Qed.

(** The answer and the release, or undefined behaviour. *)
Lemma pair_cases (N : returns u) c v w s :
  (read_dead u c v w s /\ fst (pair u c v w s) = Undef UseAfterFree) \/
  (~ read_dead u c v w s /\ pair u c v w s = (fst (py_rich u c v w s), drop u w (snd (py_rich u c v w s)))).
Proof.
  unfold pair. destruct (rich_cases c v w s) as [[A [s' B]]|[A B]]; rewrite B; [left; auto|right]. split; [exact A|].
  pose proof (py_rich_ends N c v w s) as E. destruct (py_rich u c v w s) as [o s']. cbn [fst snd] in *.
  destruct E as [[a ->]|[a ->]]; reflexivity.
Qed.

(** ** User code that preserves a relation *)
Section Keeps.
Context (R : C * X -> C * X -> Prop) (RR : forall s, R s s) (RT : forall a b c, R a b -> R b c -> R a c) (K : keeps u R).
Lemma ask_all_keeps d : forall qs s, R s (snd (ask_all u qs d s)).
Proof.
  induction qs as [|[[c' a] b] r IH]; intros s; cbn [ask_all]; [apply RR|].
  pose proof (K _ _ (run_call u c' a b s)) as H. destruct (w_call u c' a b s) as [o s'] eqn:W. cbn [fst snd] in *.
  destruct o as [[t|]|e|x e|e]; try exact H; eapply RT; [exact H| |exact H|apply IH]. apply K. eapply run_truth. exact W.
Qed.
Lemma py_rich_keeps c v w s : R s (snd (py_rich u c v w s)).
Proof. unfold py_rich. destruct c; try apply ask_all_keeps; destruct (v =? w); try apply ask_all_keeps; apply RR. Qed.
Lemma drop_keeps o s : R s (drop u o s).
Proof. unfold drop. destruct (w_alive u s o); [apply RR|apply K; apply run_fin]. Qed.
End Keeps.

Lemma nothing_dies_refl s : nothing_dies u s s. Proof. intros o H; exact H. Qed.
Lemma nothing_dies_trans a b c : nothing_dies u a b -> nothing_dies u b c -> nothing_dies u a c.
Proof. intros H G o A. apply G, H, A. Qed.

(** An operand that stays alive is never read dead. *)
Lemma alive_not_dead (K : keeps u (nothing_dies u)) c v w s : w_alive u s v = true -> ~ read_dead u c v w s.
Proof.
  intros L [_ H]. revert L. generalize (questions u c v w) as qs, H. clear H. intros qs H. induction H; intros L; [congruence|].
  apply IHstale. pose proof (K _ _ (run_call u c' a b s)) as D. rewrite H in D. apply D. exact L.
Qed.

(** != as the opposite of ==. *)
Lemma py_rich_ne (Q : ne_is_not_eq u) v w s :
  py_rich u Ne_ v w s = (omap negb (fst (py_rich u Eq_ v w s)), snd (py_rich u Eq_ v w s)).
Proof.
  unfold py_rich. destruct (v =? w) eqn:E; [reflexivity|].
  assert (G : forall qs qs' s, Forall2 (fun q q' => exists a b, q = (Ne_, a, b) /\ q' = (Eq_, a, b)) qs qs' ->
    ask_all u qs (by_default Ne_ v w) s = (omap negb (fst (ask_all u qs' (by_default Eq_ v w) s)), snd (ask_all u qs' (by_default Eq_ v w) s))).
  { clear s. induction qs as [|q qs IH]; intros qs' s F; inversion F; subst; [reflexivity|].
    destruct H1 as (a & b & -> & ->). cbn [ask_all]. rewrite Q. destruct (w_call u Eq_ a b s) as [o s1] eqn:W.
    destruct o as [[t|]|e|x e|e]; cbn [opposite]; try reflexivity. apply IH. assumption. }
  apply G. unfold questions. destruct (w_sub u v w); cbn [swapped reflected]; repeat constructor; eauto.
Qed.
End W.

(** ** The array list *)
Section A.
Context {X : Type}.
Context (u : world (list Z) X).
Implicit Types s : list Z * X.

Lemma goes_same c : eqne c -> goes_on c (all_same c) = true.
Proof. intros [-> | ->]; reflexivity. Qed.
Lemma goes_differ c b : eqne c -> goes_on c b = false -> b = negb (all_same c).
Proof. intros [-> | ->]; destruct b; cbn; congruence. Qed.
Lemma goes_true c b : eqne c -> goes_on c b = true -> b = all_same c.
Proof. intros [-> | ->]; destruct b; cbn; congruence. Qed.

Lemma nth_dec {T} (l : list T) i : nth_error l i = None <-> (length l <= i)%nat.
Proof. apply nth_error_None. Qed.

(** One round of the loop. *)
Lemma a_round (N : returns u) c m i s : eqne c ->
  (exists e, falls u c i s e /\ fst (a_loop u c (S m) i s) = Undef e) \/
  (exists w s1 v s2, w_get u (Z.of_nat i) s = (Ret w, s1) /\ nth_error (fst s1) i = Some v /\ ~ read_dead u c v w s1 /\
     py_rich u c v w s1 = (Ret (all_same c), s2) /\ a_loop u c (S m) i s = a_loop u c m (S i) (drop u w s2)) \/
  ((forall e, ~ falls u c i s e) /\ defined (fst (a_loop u c (S m) i s)) /\
   (forall w s1 v s2, w_get u (Z.of_nat i) s = (Ret w, s1) -> nth_error (fst s1) i = Some v ->
      py_rich u c v w s1 <> (Ret (all_same c), s2))).
Proof.
  intros Q. remember (a_loop u c (S m) i s) as res eqn:HR. cbn [a_loop] in HR. unfold then_ at 1 in HR. pose proof (proj1 (proj2 N) (Z.of_nat i) s) as E.
  destruct (w_get u (Z.of_nat i) s) as [o s1] eqn:G. cbn [fst snd] in *.
  destruct E as [[w ->]|[e ->]].
  2:{ right; right. subst res. split; [intros e' F; inversion F; subst; congruence|]. split; [discriminate|]. intros; congruence. }
  destruct (nth_error (fst s1) i) as [v|] eqn:V.
  2:{ left. subst res. exists OutOfBounds. split; [|reflexivity]. eapply fl_short; [exact G|]. apply nth_error_None. exact V. }
  destruct (pair_cases u N c v w s1) as [[A B]|[A B]].
  - left. exists UseAfterFree. split; [eapply fl_dead; eauto|]. subst res. unfold then_. rewrite B. reflexivity.
  - rewrite B in HR. unfold then_ in HR. cbn [fst snd] in HR.
    pose proof (py_rich_ends u N c v w s1) as D.
    destruct (py_rich u c v w s1) as [o s2] eqn:P. cbn [fst snd] in *.
    assert (NF : forall e, ~ falls u c i s e).
    { intros e F. inversion F; subst.
      - rewrite G in H. injection H as <- <-. apply nth_error_None in H0. congruence.
      - rewrite G in H. injection H as <- <-. rewrite V in H0. injection H0 as <-. contradiction. }
    destruct D as [[b ->]|[e ->]].
    + destruct (goes_on c b) eqn:GO.
      * right; left. apply goes_true in GO; [|exact Q]. subst b res. exists w, s1, v, s2. auto 10.
      * right; right. subst res. split; [exact NF|]. split; [discriminate|]. intros w' s1' v' s2' G' V' P'. injection G' as <- <-.
        rewrite V in V'. injection V' as <-. rewrite P in P'. injection P' as -> _. rewrite goes_same in GO by exact Q. discriminate.
    + right; right. subst res. split; [exact NF|]. split; [discriminate|]. intros w' s1' v' s2' G' V' P'. injection G' as <- <-.
      rewrite V in V'. injection V' as <-. rewrite P in P'. discriminate.
Qed.

Lemma reached_loop (N : returns u) c : eqne c -> forall j s0 s1, reached u c j s0 s1 ->
  forall m, a_loop u c (j + m) 0 s0 = a_loop u c m j s1.
Proof.
  intros Q j s0 s1 R. induction R as [s|i s s1 w s2 v s3 R IH G V D P]; intros m; [reflexivity|].
  replace (S i + m)%nat with (i + S m)%nat by lia. rewrite IH.
  destruct (a_round N c m i s1 Q) as [(e & F & _)|[(w' & s1' & v' & s2' & G' & V' & D' & P' & ->)|(_ & _ & F)]].
  - exfalso. inversion F; subst.
    + rewrite G in H. injection H as <- <-. apply nth_error_None in H0. congruence.
    + rewrite G in H. injection H as <- <-. rewrite V in H0. injection H0 as <-. contradiction.
  - rewrite G in G'. injection G' as <- <-. rewrite V in V'. injection V' as <-. rewrite P in P'. injection P' as <-. reflexivity.
  - exfalso. eapply F; eauto.
Qed.

Lemma a_loop_exact (N : returns u) c s0 e : eqne c -> forall n i s, reached u c i s0 s ->
  fst (a_loop u c n i s) = Undef e -> exists j s1, (i <= j < i + n)%nat /\ reached u c j s0 s1 /\ falls u c j s1 e.
Proof.
  intros Q. induction n as [|n IH]; intros i s R H; [discriminate|].
  destruct (a_round N c n i s Q) as [(e' & F & E)|[(w & s1 & v & s2 & G & V & D & P & E)|(_ & F & _)]].
  - rewrite E in H. injection H as ->. exists i, s. split; [lia|]. auto.
  - rewrite E in H. destruct (IH (S i) (drop u w s2)) as (j & s1' & B & R' & F'); [eapply rc_pair; eauto|exact H|].
    exists j, s1'. split; [lia|]. auto.
  - exfalso. eapply F. exact H.
Qed.

Lemma size_of_ret s n s0 : w_len u s = (Ret n, s0) -> n <> -1 \/ True -> size_of u s = ((n, None), s0).
Proof. intros E _. unfold size_of. rewrite E. reflexivity. Qed.

Lemma a_eqne_exact (N : returns u) c s e : eqne c ->
  (fst (a_comp u c s) = Undef e <->
   exists s0 i s1, w_len u s = (Ret (zlen (fst s0)), s0) /\ (i < length (fst s0))%nat /\ reached u c i s0 s1 /\ falls u c i s1 e).
Proof.
  intros Q. replace (a_comp u c s) with (a_eqne u c s) by (destruct Q; subst; reflexivity). unfold a_eqne, size_of.
  pose proof (proj1 N s) as E. destruct (w_len u s) as [o s0] eqn:L. cbn [fst] in E. destruct E as [[n ->]|[x ->]]; cbn [seq_size].
  - destruct (n =? zlen (fst s0)) eqn:Z0; cbn [negb].
    + apply Z.eqb_eq in Z0. subst n. unfold zlen. rewrite Nat2Z.id. split.
      * intros H. destruct (a_loop_exact N c s0 e Q (length (fst s0)) 0 s0 (rc_start u c s0) H) as (j & s1 & B & R & F).
        exists s0, j, s1. split; [reflexivity|]. split; [lia|]. auto.
      * intros (s0' & i & s1 & L' & B & R & F). injection L' as _ <-.
        replace (length (fst s0)) with (i + S (length (fst s0) - i - 1))%nat by lia.
        rewrite (reached_loop N c Q i s0 s1 R). destruct (a_round N c (length (fst s0) - i - 1) i s1 Q) as [(e' & F' & ->)|[(w & s2 & v & s3 & G & V & D & P & _)|(F' & _)]].
        -- f_equal. inversion F; inversion F'; subst; try congruence.
           ++ rewrite H in H3. injection H3 as <- <-. apply nth_error_None in H0. congruence.
           ++ rewrite H in H4. injection H4 as <- <-. apply nth_error_None in H5. congruence.
        -- exfalso. inversion F; subst.
           ++ rewrite G in H. injection H as <- <-. apply nth_error_None in H0. congruence.
           ++ rewrite G in H. injection H as <- <-. rewrite V in H0. injection H0 as <-. contradiction.
        -- exfalso. eapply F'. exact F.
    + apply Z.eqb_neq in Z0. split; [discriminate|]. intros (s0' & i & s1 & L' & _). injection L' as -> <-. contradiction.
  - replace (negb (-1 =? zlen (fst s0))) with true by (unfold zlen; symmetry; apply negb_true_iff, Z.eqb_neq; lia).
    cbn [ret_bool]. split; [discriminate|]. intros (s0' & i & s1 & L' & _). discriminate.
Qed.

(** Orderings look at one pair. *)
Lemma a_ord_exact (N : returns u) c s e : ordering c ->
  (fst (a_comp u c s) = Undef e <->
   exists s0, w_len u s = (Ret (zlen (fst s0)), s0) /\ (0 < length (fst s0))%nat /\ falls u c 0 s0 e).
Proof.
  intros Q. replace (a_comp u c s) with (a_ordc u c s) by (destruct Q as [Q1 Q2]; destruct c; try congruence; reflexivity). unfold a_ordc.
  pose proof (proj1 N s) as E. unfold then_ at 1. destruct (w_len u s) as [o s0] eqn:L. cbn [fst snd] in *. destruct E as [[n ->]|[x ->]].
  2:{ split; [discriminate|]. intros (s0' & L' & _). discriminate. }
  destruct (zlen (fst s0) =? n) eqn:Z0; cbn [negb].
  2:{ apply Z.eqb_neq in Z0. split; [discriminate|]. intros (s0' & L' & _). injection L' as -> <-. contradiction. }
  apply Z.eqb_eq in Z0. subst n. destruct (0 <? zlen (fst s0)) eqn:P0.
  2:{ apply Z.ltb_ge in P0. unfold zlen in P0. split; [discriminate|]. intros (s0' & L' & B & _). injection L' as _ <-. lia. }
  apply Z.ltb_lt in P0. unfold zlen in P0. pose proof (proj1 (proj2 N) 0 s0) as G0. unfold then_ at 1. destruct (w_get u 0 s0) as [o s1] eqn:G. cbn [fst snd] in *.
  assert (U : forall s0', (Ret (zlen (fst s0)), s0) = (Ret (zlen (fst s0')), s0') -> s0' = s0) by (intros s0' I; injection I; auto).
  destruct G0 as [[w ->]|[x ->]].
  2:{ split; [discriminate|]. intros (s0' & L' & B & F). rewrite (U _ L') in *. inversion F; subst; cbn [Z.of_nat] in *; congruence. }
  destruct (nth_error (fst s1) 0) as [v|] eqn:V.
  2:{ split.
      - intros H. injection H as <-. exists s0. split; [reflexivity|]. split; [lia|]. eapply fl_short; [exact G|]. apply nth_error_None. exact V.
      - intros (s0' & L' & B & F). rewrite (U _ L') in *. inversion F; subst; [reflexivity|]. cbn [Z.of_nat] in *. rewrite G in H. injection H as <- <-. congruence. }
  destruct (pair_cases u N c v w s1) as [[A B]|[A B]].
  - rewrite B. split.
    + intros H. injection H as <-. exists s0. split; [reflexivity|]. split; [lia|]. eapply fl_dead; [exact G|exact V|exact A].
    + intros (s0' & L' & _ & F). rewrite (U _ L') in *. inversion F; subst; [|reflexivity]. cbn [Z.of_nat] in *. rewrite G in H. injection H as <- <-.
      apply nth_error_None in H0. congruence.
  - rewrite B. cbn [fst]. split.
    + intros H. exfalso. eapply ends_ret; [apply (py_rich_ends u N c v w s1)|exact H].
    + intros (s0' & L' & _ & F). exfalso. rewrite (U _ L') in *. inversion F; subst; cbn [Z.of_nat] in *; rewrite G in H; injection H as <- <-.
      * apply nth_error_None in H0. congruence.
      * rewrite V in H0. injection H0 as <-. contradiction.
Qed.

(** ** Safety *)
Lemma no_shorter_refl s : no_shorter s s. Proof. unfold no_shorter. lia. Qed.
Lemma no_shorter_trans (a b c : list Z * X) : no_shorter a b -> no_shorter b c -> no_shorter a c.
Proof. unfold no_shorter. lia. Qed.

Lemma reached_keeps (R : list Z * X -> list Z * X -> Prop) (RR : forall s, R s s) (RT : forall a b c, R a b -> R b c -> R a c)
  (K : keeps u R) c i s s' : reached u c i s s' -> R s s'.
Proof.
  induction 1 as [s|i s s1 w s2 v s3 _ IH G V D P]; [apply RR|]. eapply RT; [exact IH|].
  pose proof (K _ _ (run_get u (Z.of_nat i) s1)) as H. rewrite G in H. cbn in H. eapply RT; [exact H|].
  pose proof (py_rich_keeps u R RR RT K c v w s2) as H2. rewrite P in H2. eapply RT; [exact H2|]. apply drop_keeps; assumption.
Qed.

Lemma a_safe (N : returns u) (L : items_alive u fst) (K1 : keeps u no_shorter) (K2 : keeps u (nothing_dies u)) c s :
  defined (fst (a_comp u c s)).
Proof.
  intros e H. assert (F : exists s0 i s1, (i < length (fst s0))%nat /\ no_shorter s0 s1 /\ falls u c i s1 e).
  { destruct (ordering_dec c) as [Q|Q].
    - apply a_ord_exact in H; [|exact N|exact Q]. destruct H as (s0 & _ & B & F). exists s0, O, s0. split; [exact B|]. split; [apply no_shorter_refl|exact F].
    - apply not_ordering in Q. apply a_eqne_exact in H; [|exact N|exact Q]. destruct H as (s0 & i & s1 & _ & B & R & F).
      exists s0, i, s1. split; [exact B|]. split; [|exact F]. eapply reached_keeps; [apply no_shorter_refl|apply no_shorter_trans|exact K1|exact R]. }
  destruct F as (s0 & i & s1 & B & R & F). inversion F; subst.
  - pose proof (K1 _ _ (run_get u (Z.of_nat i) s1)) as G. rewrite H0 in G. unfold no_shorter in *. cbn in G. lia.
  - eapply alive_not_dead; [exact K2| |exact H2]. apply L. eapply nth_error_In. exact H1.
Qed.

(** ** Python's comparison *)
Section Py.
Context (peer : list Z * X -> list Z).
Context (N : returns u) (LO : list_operand u peer) (L : items_alive u fst) (LP : peers_alive u peer).
Context (K1 : keeps u same_length) (K2 : keeps u (fun s s' => length (peer s') = length (peer s))) (K3 : keeps u (nothing_dies u)).

Lemma a_loop_walks c : eqne c -> (c = Ne_ -> ne_is_not_eq u) -> forall n i s r s',
  (i + n = length (fst s))%nat -> length (peer s) = length (fst s) -> a_loop u c n i s = (r, s') ->
  exists b, walks u fst peer i s b s' /\ r = (if all_same c then b else omap negb b).
Proof.
  intros Q QN. induction n as [|n IH]; intros i s r s' B E H.
  - cbn [a_loop] in H. injection H as <- <-. exists (Ret true). split.
    + replace (Ret true) with (Ret (length (fst s) =? length (peer s))%nat) by (rewrite E, Nat.eqb_refl; reflexivity). apply wk_end. lia.
    + destruct Q; subst; reflexivity.
  - cbn [a_loop] in H. unfold then_ at 1 in H. rewrite (proj2 LO) in H. cbn [fst snd] in H.
    destruct (nth_error (peer s) i) as [w|] eqn:W; [|apply nth_error_None in W; lia].
    destruct (nth_error (fst s) i) as [v|] eqn:V; [|apply nth_error_None in V; lia].
    assert (Lv : w_alive u s v = true) by (apply L; eapply nth_error_In; exact V).
    assert (Lw : w_alive u s w = true) by (apply LP; eapply nth_error_In; exact W).
    destruct (pair_cases u N c v w s) as [[A _]|[A P]]; [exfalso; exact (alive_not_dead u K3 c v w s Lv A)|].
    rewrite P in H. clear P A. unfold then_ at 1 in H. cbn [fst snd] in H.
    pose proof (py_rich_ends u N Eq_ v w s) as D.
    pose proof (py_rich_keeps u same_length (fun s => eq_refl) (fun a b c H G => eq_trans G H) K1 Eq_ v w s) as S1.
    pose proof (py_rich_keeps u (fun s s' => length (peer s') = length (peer s)) (fun s => eq_refl) (fun a b c H G => eq_trans G H) K2 Eq_ v w s) as S2.
    pose proof (py_rich_keeps u (nothing_dies u) (nothing_dies_refl u) (nothing_dies_trans u) K3 Eq_ v w s) as S3.
    assert (R : py_rich u c v w s = (if all_same c then fst (py_rich u Eq_ v w s) else omap negb (fst (py_rich u Eq_ v w s)), snd (py_rich u Eq_ v w s))).
    { destruct Q as [-> | ->]; cbn [all_same]; [destruct (py_rich u Eq_ v w s); reflexivity|apply py_rich_ne; auto]. }
    rewrite R in H. cbn [fst snd] in H. destruct (py_rich u Eq_ v w s) as [o s1] eqn:PE. cbn [fst snd] in *. unfold same_length in S1.
    assert (D1 : drop u w s1 = s1) by (unfold drop; rewrite (S3 _ Lw); reflexivity).
    assert (D2 : drop u w (drop u v s1) = s1) by (unfold drop at 2; rewrite (S3 _ Lv); exact D1).
    rewrite D1 in H.
    destruct (Z.eq_dec v w) as [->|NE].
    + assert (I : (o, s1) = (Ret true, s)) by (rewrite <- PE; unfold py_rich; rewrite Z.eqb_refl; reflexivity). injection I as -> ->.
      destruct (IH (S i) s r s') as (b & Wk & Eb).
      * lia. * exact E. * destruct Q; subst; exact H.
      * exists b. split; [|exact Eb]. eapply wk_same; eauto.
    + destruct D as [[b0 ->]|[e ->]].
      * destruct b0.
        -- destruct (IH (S i) s1 r s') as (b & Wk & Eb); [lia|lia|destruct Q; subst; exact H|].
           exists b. split; [|exact Eb]. eapply wk_equal; [exact V|exact W|exact NE|exact PE|]. rewrite D2. exact Wk.
        -- exists (Ret false). split; [|destruct Q; subst; injection H as <- <-; reflexivity].
           replace s' with (drop u w (drop u v s1)) by (rewrite D2; destruct Q; subst; injection H as <- <-; reflexivity).
           eapply wk_differ; eauto.
      * exists (Raise e). split; [|destruct Q; subst; injection H as <- <-; reflexivity].
        replace s' with (drop u w (drop u v s1)) by (rewrite D2; destruct Q; subst; injection H as <- <-; reflexivity).
        eapply wk_raise; eauto.
Qed.

Lemma a_like_python c s r s' : eqne c -> (c = Ne_ -> ne_is_not_eq u) -> a_comp u c s = (r, s') -> py_compares u fst peer c s r s'.
Proof.
  intros Q QN H. replace (a_comp u c s) with (a_eqne u c s) in H by (destruct Q; subst; reflexivity).
  unfold a_eqne, size_of in H. rewrite (proj1 LO) in H. cbn [seq_size] in H.
  assert (G : exists b, py_equals u fst peer s b s' /\ r = (if all_same c then b else omap negb b)).
  { destruct (zlen (peer s) =? zlen (fst s)) eqn:E; cbn [negb] in H.
    - apply Z.eqb_eq in E. rewrite E in H. unfold zlen in E, H. rewrite Nat2Z.id in H. apply Nat2Z.inj in E.
      destruct (a_loop_walks c Q QN (length (fst s)) 0 s r s') as (b & Wk & Eb); [lia|exact E|exact H|].
      exists b. split; [|exact Eb]. apply eq_walk; [symmetry; exact E|exact Wk].
    - apply Z.eqb_neq in E. injection H as <- <-. exists (Ret false). split; [|destruct Q; subst; reflexivity].
      apply eq_sizes. unfold zlen in E. intros F. apply E. rewrite F. reflexivity. }
  destruct G as (b & G & ->). destruct Q as [-> | ->]; cbn [py_compares all_same]; [exact G|exists b; auto].
Qed.
End Py.
End A.

(** ** The linked list *)
Section L.
Context {X : Type}.
Context (u : world (slist Z) X).
Implicit Types s : slist Z * X.

Lemma deref_cases (l : slist Z) it : (exists v, deref l it = Ret v) \/ (exists e, deref l it = Undef e).
Proof. unfold deref. destruct it as [i|]; [|eauto]. destruct (pos_of (nodes l) i); [|eauto]. destruct (nth_error (nodes l) n) as [[? ?]|]; eauto. Qed.
Lemma next_cases (l : slist Z) it : (exists v, it_next l it = Ret v) \/ (exists e, it_next l it = Undef e).
Proof. unfold it_next. destruct it as [i|]; [|eauto]. destruct (pos_of (nodes l) i); eauto. Qed.

Lemma l_round (N : returns u) c m i it s : eqne c ->
  (exists e, lfalls u c i it s e /\ fst (l_loop u c (S m) i it s) = Undef e) \/
  (exists w s1 v s2 nx, w_get u (Z.of_nat i) s = (Ret w, s1) /\ deref (fst s1) it = Ret v /\ ~ read_dead u c v w s1 /\
     py_rich u c v w s1 = (Ret (all_same c), s2) /\ it_next (fst (drop u w s2)) it = Ret nx /\
     l_loop u c (S m) i it s = l_loop u c m (S i) nx (drop u w s2)) \/
  ((forall e, ~ lfalls u c i it s e) /\ defined (fst (l_loop u c (S m) i it s)) /\
   (forall w s1 v s2, w_get u (Z.of_nat i) s = (Ret w, s1) -> deref (fst s1) it = Ret v ->
      py_rich u c v w s1 <> (Ret (all_same c), s2))).
Proof.
  intros Q. remember (l_loop u c (S m) i it s) as res eqn:HR. cbn [l_loop] in HR. unfold then_ at 1 in HR. pose proof (proj1 (proj2 N) (Z.of_nat i) s) as E.
  destruct (w_get u (Z.of_nat i) s) as [o s1] eqn:G. cbn [fst snd] in *.
  destruct E as [[w ->]|[e ->]].
  2:{ right; right. subst res. split; [intros e' F; inversion F; subst; congruence|]. split; [discriminate|]. intros; congruence. }
  unfold then_ at 1 in HR. cbn [fst snd] in HR.
  destruct (deref_cases (fst s1) it) as [[v V]|[e V]]; rewrite V in HR.
  2:{ left. subst res. exists e. split; [|reflexivity]. eapply lf_read; [exact G|exact V]. }
  destruct (pair_cases u N c v w s1) as [[A B]|[A B]].
  - left. exists UseAfterFree. split; [eapply lf_dead; eauto|]. subst res. unfold then_. rewrite B. reflexivity.
  - rewrite B in HR. unfold then_ at 1 in HR. cbn [fst snd] in HR.
    pose proof (py_rich_ends u N c v w s1) as D.
    destruct (py_rich u c v w s1) as [o s2] eqn:P. cbn [fst snd] in *.
    assert (NF : forall e, lfalls u c i it s e -> o = Ret (all_same c) /\ it_next (fst (drop u w s2)) it = Undef e).
    { intros e F. inversion F; subst; rewrite G in H; injection H as <- <-; rewrite V in H0; try discriminate; injection H0 as <-;
        [contradiction|]. rewrite P in H2. injection H2 as -> <-. split; [reflexivity|assumption]. }
    destruct D as [[b ->]|[e ->]].
    + destruct (goes_on c b) eqn:GO.
      * apply goes_true in GO; [|exact Q]. subst b. unfold then_ in HR. cbn [fst snd] in HR.
        destruct (next_cases (fst (drop u w s2)) it) as [[nx I]|[e I]]; rewrite I in HR; subst res.
        -- right; left. exists w, s1, v, s2, nx. auto 10.
        -- left. exists e. split; [|reflexivity]. eapply lf_gone; eauto.
      * right; right. subst res. split; [intros e F; destruct (NF e F) as [I _]; injection I as ->; rewrite goes_same in GO by exact Q; discriminate|].
        split; [discriminate|]. intros w' s1' v' s2' G' V' P'. injection G' as <- <-.
        rewrite V in V'. injection V' as <-. rewrite P in P'. injection P' as -> _. rewrite goes_same in GO by exact Q. discriminate.
    + right; right. subst res. split; [intros e' F; destruct (NF e' F) as [I _]; discriminate|].
      split; [discriminate|]. intros w' s1' v' s2' G' V' P'. injection G' as <- <-.
      rewrite V in V'. injection V' as <-. rewrite P in P'. discriminate.
Qed.

Lemma lfalls_fun c i it s e e' : lfalls u c i it s e -> lfalls u c i it s e' -> e = e'.
Proof.
  intros F F'. inversion F; inversion F'; subst;
    repeat match goal with A : w_get u ?i ?s = _, B : w_get u ?i ?s = _ |- _ => rewrite A in B; injection B as <- <- end;
    repeat match goal with A : deref ?l ?i = _, B : deref ?l ?i = _ |- _ => rewrite A in B; try discriminate; injection B as <- end;
    try reflexivity; try contradiction.
  match goal with A : py_rich u c ?v ?w ?s = _, B : py_rich u c ?v ?w ?s = _ |- _ => rewrite A in B; injection B as <- end.
  congruence.
Qed.

Lemma lreached_loop (N : returns u) c : eqne c -> forall j s0 it s1, lreached u c j s0 it s1 ->
  forall m, l_loop u c (j + m) 0 (begin_ (fst s0)) s0 = l_loop u c m j it s1.
Proof.
  intros Q j s0 it s1 R. induction R as [s|i s it s1 w s2 v s3 nx R IH G V D P I]; intros m; [reflexivity|].
  replace (S i + m)%nat with (i + S m)%nat by lia. rewrite IH.
  destruct (l_round N c m i it s1 Q) as [(e & F & _)|[(w' & s1' & v' & s2' & nx' & G' & V' & D' & P' & I' & ->)|(_ & _ & F)]].
  - exfalso. inversion F; subst; rewrite G in H; injection H as <- <-; rewrite V in H0; try discriminate; injection H0 as <-; [contradiction|].
    rewrite P in H2. injection H2 as <-. congruence.
  - rewrite G in G'. injection G' as <- <-. rewrite V in V'. injection V' as <-. rewrite P in P'. injection P' as <-.
    rewrite I in I'. injection I' as <-. reflexivity.
  - exfalso. eapply F; eauto.
Qed.

Lemma l_loop_exact (N : returns u) c s0 e : eqne c -> forall n i it s, lreached u c i s0 it s ->
  fst (l_loop u c n i it s) = Undef e -> exists j it1 s1, (i <= j < i + n)%nat /\ lreached u c j s0 it1 s1 /\ lfalls u c j it1 s1 e.
Proof.
  intros Q. induction n as [|n IH]; intros i it s R H; [discriminate|].
  destruct (l_round N c n i it s Q) as [(e' & F & E)|[(w & s1 & v & s2 & nx & G & V & D & P & I & E)|(_ & F & _)]].
  - rewrite E in H. injection H as ->. exists i, it, s. split; [lia|]. auto.
  - rewrite E in H. destruct (IH (S i) nx (drop u w s2)) as (j & it1 & s1' & B & R' & F'); [eapply lr_pair; eauto|exact H|].
    exists j, it1, s1'. split; [lia|]. auto.
  - exfalso. eapply F. exact H.
Qed.

Lemma l_eqne_exact (N : returns u) c s e : eqne c ->
  (fst (l_comp u c s) = Undef e <->
   exists s0 i it s1, w_len u s = (Ret (zlen (values (fst s0))), s0) /\ (i < length (values (fst s0)))%nat /\
     lreached u c i s0 it s1 /\ lfalls u c i it s1 e).
Proof.
  intros Q. replace (l_comp u c s) with (l_eqne u c s) by (destruct Q; subst; reflexivity). unfold l_eqne, size_of.
  pose proof (proj1 N s) as E. destruct (w_len u s) as [o s0] eqn:L. cbn [fst] in E. destruct E as [[n ->]|[x ->]]; cbn [seq_size].
  - destruct (n =? Z.of_nat (size (fst s0))) eqn:Z0; cbn [negb].
    + apply Z.eqb_eq in Z0. subst n. rewrite Nat2Z.id. split.
      * intros H. destruct (l_loop_exact N c s0 e Q (size (fst s0)) 0 _ s0 (lr_start u c s0) H) as (j & it & s1 & B & R & F).
        exists s0, j, it, s1. unfold zlen. rewrite <- size_values. split; [reflexivity|]. split; [lia|]. auto.
      * intros (s0' & i & it & s1 & L' & B & R & F). injection L' as _ <-. rewrite <- size_values in B.
        replace (size (fst s0)) with (i + S (size (fst s0) - i - 1))%nat by lia.
        rewrite (lreached_loop N c Q i s0 it s1 R). destruct (l_round N c (size (fst s0) - i - 1) i it s1 Q) as [(e' & F' & ->)|[(w & s2 & v & s3 & nx & G & V & D & P & I & _)|(F' & _)]].
        -- f_equal. eapply lfalls_fun; eauto.
        -- exfalso. inversion F; subst; rewrite G in H; injection H as <- <-; rewrite V in H0; try discriminate; injection H0 as <-; [contradiction|].
           rewrite P in H2. injection H2 as <-. congruence.
        -- exfalso. eapply F'. exact F.
    + apply Z.eqb_neq in Z0. split; [discriminate|]. intros (s0' & i & it & s1 & L' & _). injection L' as -> <-. unfold zlen in Z0. rewrite <- size_values in Z0. contradiction.
  - replace (negb (-1 =? Z.of_nat (size (fst s0)))) with true by (symmetry; apply negb_true_iff, Z.eqb_neq; lia).
    cbn [ret_bool]. split; [discriminate|]. intros (s0' & i & it & s1 & L' & _). discriminate.
Qed.

(** Orderings: one pair, no advance. *)
Lemma l_ord_undef (N : returns u) c s e : ordering c -> fst (l_comp u c s) = Undef e ->
  exists s0 w s1, w_len u s = (Ret (zlen (values (fst s0))), s0) /\ (0 < length (values (fst s0)))%nat /\ w_get u 0 s0 = (Ret w, s1) /\
   (deref (fst s1) (begin_ (fst s0)) = Undef e \/
    exists v, deref (fst s1) (begin_ (fst s0)) = Ret v /\ read_dead u c v w s1).
Proof.
  intros Q. replace (l_comp u c s) with (l_ordc u c s) by (destruct Q as [Q1 Q2]; destruct c; try congruence; reflexivity). unfold l_ordc.
  pose proof (proj1 N s) as E. unfold then_ at 1. destruct (w_len u s) as [o s0] eqn:L. cbn [fst snd] in *. destruct E as [[n ->]|[x ->]]; [|discriminate].
  destruct (Z.of_nat (size (fst s0)) =? n) eqn:Z0; cbn [negb]; [|discriminate].
  apply Z.eqb_eq in Z0. subst n. destruct (0 <? Z.of_nat (size (fst s0))) eqn:P0; [|discriminate].
  apply Z.ltb_lt in P0. pose proof (proj1 (proj2 N) 0 s0) as G0. unfold then_ at 1. destruct (w_get u 0 s0) as [o s1] eqn:G. cbn [fst snd] in *.
  destruct G0 as [[w ->]|[x ->]]; [|discriminate].
  intros H. exists s0, w, s1. unfold zlen. rewrite <- size_values. split; [reflexivity|]. split; [lia|]. split; [exact G|].
  unfold then_ in H. cbn [fst snd] in H. destruct (deref_cases (fst s1) (begin_ (fst s0))) as [[v V]|[e' V]]; rewrite V in H; cbn [fst] in H; [|left; congruence].
  right. exists v. split; [exact V|]. destruct (pair_cases u N c v w s1) as [[A _]|[A B]]; [exact A|]. exfalso.
  rewrite B in H. eapply ends_ret; [apply (py_rich_ends u N c v w s1)|exact H].
Qed.

(** ** Safety *)
Definition ll_of (l : slist Z) : ll := {| lst := l; modc := 0 |}.
Lemma links_refl s : keeps_links s s. Proof. intros W. split; [exact W|apply subseq_refl]. Qed.
Lemma links_trans (a b c : slist Z * X) : keeps_links a b -> keeps_links b c -> keeps_links a c.
Proof. intros H G W. destruct (H W) as [W1 S1]. destruct (G W1) as [W2 S2]. split; [exact W2|]. eapply subseq_trans; eauto. Qed.

Definition at_room s (it : iterator) (k : nat) : Prop := well s /\ room (ll_of (fst s)) it k.
Lemma links_room s s' it k : keeps_links s s' -> at_room s it k -> at_room s' it k.
Proof. intros H [W R]. destruct (H W) as [W' S']. split; [exact W'|]. eapply room_keeps; [|exact R]. exact S'. Qed.

Section Safe.
Context (N : returns u) (L : items_alive u (fun s => values (fst s))) (K1 : keeps u keeps_links) (K2 : keeps u (nothing_dies u)).

Lemma after_get s i w s1 it k : w_get u i s = (Ret w, s1) -> at_room s it k -> at_room s1 it k.
Proof. intros G. apply links_room. pose proof (K1 _ _ (run_get u i s)) as H. rewrite G in H. exact H. Qed.
Lemma after_pair c v w s b s1 it k : py_rich u c v w s = (b, s1) -> at_room s it k -> at_room (drop u w s1) it k.
Proof.
  intros P R. eapply links_room; [apply (drop_keeps u keeps_links links_refl K1)|]. eapply links_room; [|exact R].
  pose proof (py_rich_keeps u keeps_links links_refl links_trans K1 c v w s) as H. rewrite P in H. exact H.
Qed.
Lemma deref_alive s it v : deref (fst s) it = Ret v -> w_alive u s v = true.
Proof.
  intros H. apply L. unfold deref in H. destruct it as [i|]; [|discriminate]. destruct (pos_of (nodes (fst s)) i) as [p|]; [|discriminate].
  destruct (nth_error (nodes (fst s)) p) as [[j x]|] eqn:E; [|discriminate]. injection H as <-. unfold values.
  change x with (snd (j, x)). apply in_map. eapply nth_error_In. exact E.
Qed.

Lemma lreached_room c i s it s' : lreached u c i s it s' -> well s -> forall k, (i + k <= size (fst s))%nat -> at_room s' it k.
Proof.
  induction 1 as [s|i s it s1 w s2 v s3 nx _ IH G V D P I]; intros W k B.
  - split; [exact W|]. exists O. split; [reflexivity|]. cbn. lia.
  - assert (R : at_room (drop u w s3) it (S k)).
    { eapply after_pair; [exact P|]. eapply after_get; [exact G|]. apply IH; [exact W|lia]. }
    destruct R as [W' R]. destruct (room_next (ll_of (fst (drop u w s3))) it k W' R) as (nx' & E & R'). cbn [ll_of lst] in E. rewrite I in E. injection E as ->.
    split; assumption.
Qed.

Lemma l_safe c s : well s -> defined (fst (l_comp u c s)).
Proof.
  intros W e H.
  assert (W0 : forall n s0, w_len u s = (Ret n, s0) -> well s0).
  { intros n s0 E. pose proof (K1 _ _ (run_len u s)) as G. rewrite E in G. apply G. exact W. }
  destruct (ordering_dec c) as [Q|Q].
  - apply l_ord_undef in H; [|exact N|exact Q]. destruct H as (s0 & w & s1 & E & B & G & H).
    assert (R : at_room s1 (begin_ (fst s0)) 1).
    { eapply after_get; [exact G|]. split; [eapply W0; exact E|]. exists O. split; [reflexivity|]. cbn [ll_of lst]. rewrite size_values. lia. }
    destruct R as [W1 R]. destruct (room_deref (ll_of (fst s1)) _ 0 W1 R) as (x & D). cbn [ll_of lst] in D.
    destruct H as [H|(v & H & F)]; [congruence|]. eapply alive_not_dead; [exact K2| |exact F]. eapply deref_alive. exact H.
  - apply not_ordering in Q. apply l_eqne_exact in H; [|exact N|exact Q]. destruct H as (s0 & i & it & s1 & E & B & R & F).
    rewrite <- size_values in B.
    assert (R1 : at_room s1 it 1) by (eapply lreached_room; [exact R|eapply W0; exact E|lia]).
    inversion F; subst.
    + destruct (after_get _ _ _ _ _ _ H R1) as [W1 R2]. destruct (room_deref (ll_of (fst _)) _ 0 W1 R2) as (x & D). cbn [ll_of lst] in D. congruence.
    + eapply alive_not_dead; [exact K2| |exact H1]. eapply deref_alive. exact H0.
    + destruct (after_pair _ _ _ _ _ _ _ _ H2 (after_get _ _ _ _ _ _ H R1)) as [W2 R2].
      destruct (room_next (ll_of (fst (drop u w _))) it 0 W2 R2) as (nx & D & _). cbn [ll_of lst] in D. congruence.
Qed.
End Safe.

Lemma l_ord_exact (N : returns u) c s e : ordering c ->
  (fst (l_comp u c s) = Undef e <->
   exists s0 w s1, w_len u s = (Ret (zlen (values (fst s0))), s0) /\ (0 < length (values (fst s0)))%nat /\ w_get u 0 s0 = (Ret w, s1) /\
   (deref (fst s1) (begin_ (fst s0)) = Undef e \/
    (e = UseAfterFree /\ exists v, deref (fst s1) (begin_ (fst s0)) = Ret v /\ read_dead u c v w s1))).
Proof.
  intros Q. split.
  - intros H. destruct (l_ord_undef N c s e Q H) as (s0 & w & s1 & E & B & G & D). exists s0, w, s1.
    split; [exact E|]. split; [exact B|]. split; [exact G|]. destruct D as [D|(v & D & F)]; [left; exact D|]. right. split; [|eauto].
    replace (l_comp u c s) with (l_ordc u c s) in H by (destruct Q as [Q1 Q2]; destruct c; try congruence; reflexivity). unfold l_ordc in H.
    rewrite E in H. unfold then_ at 1 in H. cbn [fst snd] in H. unfold zlen in H. rewrite <- size_values in H, B. rewrite Z.eqb_refl in H. cbn [negb] in H.
    replace (0 <? Z.of_nat (size (fst s0))) with true in H by (symmetry; apply Z.ltb_lt; lia). rewrite G in H. unfold then_ in H. cbn [fst snd] in H. rewrite D in H.
    destruct (pair_cases u N c v w s1) as [[_ B']|[A _]]; [congruence|contradiction].
  - intros (s0 & w & s1 & E & B & G & D).
    replace (l_comp u c s) with (l_ordc u c s) by (destruct Q as [Q1 Q2]; destruct c; try congruence; reflexivity). unfold l_ordc.
    rewrite E. unfold then_ at 1. cbn [fst snd]. unfold zlen. rewrite <- size_values in *. rewrite Z.eqb_refl. cbn [negb].
    replace (0 <? Z.of_nat (size (fst s0))) with true by (symmetry; apply Z.ltb_lt; lia). rewrite G. unfold then_. cbn [fst snd].
    destruct D as [D|(-> & v & D & F)]; rewrite D; [reflexivity|].
    destruct (pair_cases u N c v w s1) as [[_ B']|[A _]]; [exact B'|contradiction].
Qed.

(** ** Python's comparison *)
Section Py.
Context (peer : slist Z * X -> list Z).
Notation mine := (fun s : slist Z * X => values (fst s)).
Context (N : returns u) (LO : list_operand u peer) (L : items_alive u mine) (LP : peers_alive u peer).
Context (K1 : keeps u same_nodes) (K2 : keeps u (fun s s' => length (peer s') = length (peer s))) (K3 : keeps u (nothing_dies u)).

Lemma same_nodes_refl s : same_nodes s s. Proof. split; auto. Qed.
Lemma same_nodes_trans (a b c : slist Z * X) : same_nodes a b -> same_nodes b c -> same_nodes a c.
Proof. intros [H1 H2] [G1 G2]. split; [auto|congruence]. Qed.
Lemma same_nodes_size (a b : slist Z * X) : same_nodes a b -> size (fst b) = size (fst a).
Proof. intros [_ H]. rewrite !size_ids, H. reflexivity. Qed.

Lemma l_loop_walks c : eqne c -> (c = Ne_ -> ne_is_not_eq u) -> forall n i s r s', well s ->
  (i + n = size (fst s))%nat -> length (peer s) = size (fst s) -> l_loop u c n i (itpos (fst s) i) s = (r, s') ->
  exists b, walks u mine peer i s b s' /\ r = (if all_same c then b else omap negb b).
Proof.
  intros Q QN. induction n as [|n IH]; intros i s r s' W0 B E H.
  - cbn [l_loop] in H. injection H as <- <-. exists (Ret true). split.
    + replace (Ret true) with (Ret (length (mine s) =? length (peer s))%nat) by (cbv beta; rewrite <- size_values, E, Nat.eqb_refl; reflexivity). apply (wk_end u mine peer i s). right. lia.
    + destruct Q; subst; reflexivity.
  - cbn [l_loop] in H. unfold then_ at 1 in H. rewrite (proj2 LO) in H. cbn [fst snd] in H.
    destruct (nth_error (peer s) i) as [w|] eqn:W; [|apply nth_error_None in W; lia].
    destruct (nth_error (values (fst s)) i) as [v|] eqn:V; [|apply nth_error_None in V; rewrite <- size_values in V; lia].
    unfold then_ at 1 in H. cbn [fst snd] in H. rewrite (deref_pos (fst s) i v W0 V) in H.
    assert (Lv : w_alive u s v = true) by (apply L; eapply nth_error_In; exact V).
    assert (Lw : w_alive u s w = true) by (apply LP; eapply nth_error_In; exact W).
    destruct (pair_cases u N c v w s) as [[A _]|[A P]]; [exfalso; exact (alive_not_dead u K3 c v w s Lv A)|].
    rewrite P in H. clear P A. unfold then_ at 1 in H. cbn [fst snd] in H.
    pose proof (py_rich_ends u N Eq_ v w s) as D.
    pose proof (py_rich_keeps u same_nodes same_nodes_refl same_nodes_trans K1 Eq_ v w s) as S1.
    pose proof (py_rich_keeps u (fun s s' => length (peer s') = length (peer s)) (fun s => eq_refl) (fun a b c H G => eq_trans G H) K2 Eq_ v w s) as S2.
    pose proof (py_rich_keeps u (nothing_dies u) (nothing_dies_refl u) (nothing_dies_trans u) K3 Eq_ v w s) as S3.
    assert (R : py_rich u c v w s = (if all_same c then fst (py_rich u Eq_ v w s) else omap negb (fst (py_rich u Eq_ v w s)), snd (py_rich u Eq_ v w s))).
    { destruct Q as [-> | ->]; cbn [all_same]; [destruct (py_rich u Eq_ v w s); reflexivity|apply py_rich_ne; auto]. }
    rewrite R in H. cbn [fst snd] in H. destruct (py_rich u Eq_ v w s) as [o s1] eqn:PE. cbn [fst snd] in *.
    assert (D1 : drop u w s1 = s1) by (unfold drop; rewrite (S3 _ Lw); reflexivity).
    assert (D2 : drop u w (drop u v s1) = s1) by (unfold drop at 2; rewrite (S3 _ Lv); exact D1).
    rewrite D1 in H. pose proof (proj1 S1 W0) as W1. pose proof (same_nodes_size _ _ S1) as Z1.
    assert (I1 : itpos (fst s) i = itpos (fst s1) i) by (apply itpos_ids; symmetry; apply S1). rewrite I1 in H.
    unfold then_ in H. cbn [fst snd] in H. rewrite next_pos in H by (exact W1 || lia).
    destruct (Z.eq_dec v w) as [->|NE].
    + assert (I : (o, s1) = (Ret true, s)) by (rewrite <- PE; unfold py_rich; rewrite Z.eqb_refl; reflexivity). injection I as -> ->.
      destruct (IH (S i) s r s') as (b & Wk & Eb); [exact W0|lia|exact E|destruct Q; subst; exact H|].
      exists b. split; [|exact Eb]. eapply wk_same; eauto.
    + destruct D as [[b0 ->]|[e ->]].
      * destruct b0.
        -- destruct (IH (S i) s1 r s') as (b & Wk & Eb); [exact W1|lia|lia|destruct Q; subst; exact H|].
           exists b. split; [|exact Eb]. eapply wk_equal; [exact V|exact W|exact NE|exact PE|]. rewrite D2. exact Wk.
        -- exists (Ret false). split; [|destruct Q; subst; injection H as <- <-; reflexivity].
           replace s' with (drop u w (drop u v s1)) by (rewrite D2; destruct Q; subst; injection H as <- <-; reflexivity).
           eapply wk_differ; eauto.
      * exists (Raise e). split; [|destruct Q; subst; injection H as <- <-; reflexivity].
        replace s' with (drop u w (drop u v s1)) by (rewrite D2; destruct Q; subst; injection H as <- <-; reflexivity).
        eapply wk_raise; eauto.
Qed.

Lemma l_like_python c s r s' : well s -> eqne c -> (c = Ne_ -> ne_is_not_eq u) -> l_comp u c s = (r, s') -> py_compares u mine peer c s r s'.
Proof.
  intros W0 Q QN H. replace (l_comp u c s) with (l_eqne u c s) in H by (destruct Q; subst; reflexivity).
  unfold l_eqne, size_of in H. rewrite (proj1 LO) in H. cbn [seq_size] in H.
  assert (G : exists b, py_equals u mine peer s b s' /\ r = (if all_same c then b else omap negb b)).
  { destruct (zlen (peer s) =? Z.of_nat (size (fst s))) eqn:E; cbn [negb] in H.
    - apply Z.eqb_eq in E. rewrite E, Nat2Z.id in H. unfold zlen in E. apply Nat2Z.inj in E.
      destruct (l_loop_walks c Q QN (size (fst s)) 0 s r s') as (b & Wk & Eb); [exact W0|lia|exact E|exact H|].
      exists b. split; [|exact Eb]. apply eq_walk; [cbv beta; rewrite <- size_values; symmetry; exact E|exact Wk].
    - apply Z.eqb_neq in E. injection H as <- <-. exists (Ret false). split; [|destruct Q; subst; reflexivity].
      apply eq_sizes. rewrite <- size_values. unfold zlen in E. intros F. apply E. rewrite F. reflexivity. }
  destruct G as (b & G & ->). destruct Q as [-> | ->]; cbn [py_compares all_same]; [exact G|exists b; auto].
Qed.
End Py.
End L.
