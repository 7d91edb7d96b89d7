(** Proofs about PoolMakeModel. *)
From Coq Require Import List Bool Arith Lia.
From Verif Require Import PoolModel PoolSpec PoolProofs PoolMakeModel.
Import ListNotations.

(** Worker steps do not depend on how many threads there are. *)
Lemma work_more m n i s s' : m <= n -> pstep m (TWork i) s = POk s' -> pstep n (TWork i) s = POk s'.
Proof.
  intros L H. cbn [pstep] in *. destruct (Nat.ltb_spec i m) as [A|A]; [|discriminate].
  destruct (Nat.ltb_spec i n) as [B|B]; [|lia]. exact H.
Qed.
Lemma spurious_more m n i s s' : m <= n -> pstep m (TSpurious i) s = POk s' -> pstep n (TSpurious i) s = POk s'.
Proof.
  intros L H. cbn [pstep] in *. destruct (Nat.ltb_spec i m) as [A|A]; [|discriminate].
  destruct (Nat.ltb_spec i n) as [B|B]; [|lia]. exact H.
Qed.
(** What a run has done: worker steps only. *)
Definition quietly (made : nat) (s : pool) : Prop :=
  exists xs, prun made xs pool0 = POk s /\ Forall (fun x => match x with TWork _ | TSpurious _ => True | _ => False end) xs.
Lemma quietly_start : quietly 0 pool0.
Proof. exists []. split; [reflexivity|constructor]. Qed.
Lemma quietly_more m s : quietly m s -> quietly (S m) s.
Proof.
  intros (xs & H & F). exists xs. split; [|exact F]. revert H. generalize pool0. induction F as [|x xs X F IH]; intros s0; cbn [prun]; [auto|].
  destruct (pstep m x s0) as [s1| |] eqn:E; try discriminate. intros H.
  assert (E' : pstep (S m) x s0 = POk s1) by (destruct x; try contradiction; [eapply work_more|eapply spurious_more]; try eassumption; lia).
  rewrite E'. auto.
Qed.
Lemma quietly_step m x s s' : quietly m s -> match x with TWork _ | TSpurious _ => True | _ => False end -> pstep m x s = POk s' -> quietly m s'.
Proof.
  intros (xs & H & F) X E. exists (xs ++ [x]). split.
  - rewrite prun_app, H. cbn [prun]. rewrite E. reflexivity.
  - apply Forall_app. split; [exact F|]. constructor; [exact X|constructor].
Qed.
Lemma quietly_reach m s : quietly m s -> reachable m s.
Proof. intros (xs & H & _). exists xs. exact H. Qed.

Lemma mrun_inv count granted xs : forall made s, made <= count -> (forall i, i < made -> granted i = true) -> quietly made s ->
  match mrun count granted xs made s with
  | MRunning m s' => m <= count /\ (forall i, i < m -> granted i = true) /\ quietly m s'
  | MBlocked => True
  | r => exists m s', m < count /\ (forall i, i < m -> granted i = true) /\ granted m = false /\ quietly m s' /\ r = unwind m s'
  end.
Proof.
  induction xs as [|x xs IH]; intros made s L G Q; cbn [mrun]; [auto|].
  destruct x as [|i|i]; cbn [mstep].
  - destruct (Nat.ltb_spec made count) as [A|A]; [|exact I]. destruct (granted made) eqn:E.
    + apply IH; [lia| |apply quietly_more; exact Q]. intros i Hi. destruct (Nat.eq_dec i made) as [->|N]; [exact E|]. apply G. lia.
    + assert (U : forall m s', unwind made s <> MRunning m s' /\ unwind made s <> MBlocked).
      { intros m s'. unfold unwind. destruct (existsb _ _), (p_mutex s), (Nat.eqb made 0); split; discriminate. }
      destruct (unwind made s) as [m s'| | |f] eqn:E2.
      * destruct (U m s'); congruence.
      * destruct (U 0 s); congruence.
      * exists made, s. auto 10.
      * exists made, s. auto 10.
  - destruct (pstep made (TWork i) s) as [s'| |] eqn:E; try exact I. apply IH; auto. eapply quietly_step; eauto. exact I.
  - destruct (pstep made (TSpurious i) s) as [s'| |] eqn:E; try exact I. apply IH; auto. eapply quietly_step; eauto. exact I.
Qed.

Lemma make_built count granted xs s : mrun count granted xs 0 pool0 = MRunning count s ->
  (forall i, i < count -> granted i = true) /\ reachable count s /\ p_next s = 0.
Proof.
  intros H. pose proof (mrun_inv count granted xs 0 pool0 ltac:(lia) ltac:(lia) quietly_start) as X. rewrite H in X.
  destruct X as (_ & G & Q). split; [exact G|]. split; [apply quietly_reach; exact Q|].
  destruct Q as (ys & E & F). clear - E F. revert E. assert (Z : p_next pool0 = 0) by reflexivity. revert Z. generalize pool0.
  induction F as [|x ys X F IH]; intros s0 Z; cbn [prun]; [intros E; injection E as <-; exact Z|].
  destruct (pstep count x s0) as [s1| |] eqn:P; try discriminate. apply IH.
  destruct x; try contradiction; cbn [pstep] in P.
  - destruct (negb (i <? count)); [discriminate|]. destruct (p_w s0 i).
    all: repeat match type of P with context [match ?e with _ => _ end] => destruct e end; try discriminate; injection P as <-; exact Z.
  - destruct ((i <? count) && asleep s0 i); [injection P as <-; exact Z|discriminate].
Qed.

(** No thread has run: nothing sleeps and nobody holds the mutex. *)
Lemma quietly_none s : quietly 0 s -> s = pool0.
Proof.
  intros (xs & H & F). destruct F as [|x xs X F]; [injection H as <-; reflexivity|].
  cbn [prun] in H. destruct x; try contradiction; cbn in H; discriminate.
Qed.
Lemma make_refused count granted xs r : (forall i, i < r -> granted i = true) -> granted r = false -> r < count ->
  match mrun count granted xs 0 pool0 with
  | MRunning m _ => m <= r
  | MBlocked => True
  | MThrown => r = 0
  | MFault _ => 0 < r
  end.
Proof.
  intros G R L. pose proof (mrun_inv count granted xs 0 pool0 ltac:(lia) ltac:(lia) quietly_start) as X.
  assert (U : forall m, (forall i, i < m -> granted i = true) -> granted m = false -> m = r).
  { intros m A B. destruct (Nat.lt_trichotomy m r) as [C|[C|C]]; [rewrite G in B by exact C; discriminate|exact C|rewrite A in R by exact C; discriminate]. }
  destruct (mrun count granted xs 0 pool0) as [m s| | |f].
  - destruct X as (_ & A & _). destruct (le_lt_dec m r) as [C|C]; [exact C|]. rewrite A in R by exact C. discriminate.
  - exact I.
  - destruct X as (m & s & _ & A & B & Q & E). rewrite <- (U m A B). unfold unwind in E.
    destruct (existsb _ _), (p_mutex s), (Nat.eqb_spec m 0); congruence.
  - destruct X as (m & s & _ & A & B & Q & E). rewrite <- (U m A B). destruct m as [|m]; [|lia].
    apply quietly_none in Q. subst s. cbn in E. discriminate.
Qed.

(** A pool without workers. *)
Lemma no_workers s : reachable 0 s -> p_ran s = [] /\ forall k, k < p_next s -> ~ submitting s k -> p_fut s k = FBroken.
Proof.
  intros R.
  assert (Z : p_ran s = []).
  { revert s R. apply reach_ind; [reflexivity|]. intros x s s' H P. destruct x; cbn [pstep] in P.
    1: destruct (p_s s j); try discriminate; injection P as <-; exact H.
    1: destruct (p_s s j) as [|k|k|k|k|k]; try discriminate.
    - destruct (p_mutex s); [discriminate|]. injection P as <-. exact H.
    - injection P as <-. exact H.
    - destruct w as [w|]; cbn [notify_one existsb seq] in P; [rewrite (proj2 (Nat.ltb_ge w 0) (Nat.le_0_l w)) in P; discriminate|].
      injection P as <-. exact H.
    - injection P as <-. exact H.
    - destruct (p_fut s k); injection P as <-; exact H.
    - rewrite (proj2 (Nat.ltb_ge i 0) (Nat.le_0_l i)) in P. discriminate.
    - rewrite (proj2 (Nat.ltb_ge i 0) (Nat.le_0_l i)) in P. discriminate.
    - destruct (p_d s); try discriminate; injection P as <-; exact H.
    - destruct (p_d s); try discriminate; repeat match type of P with context [match ?e with _ => _ end] => destruct e end; try discriminate; injection P as <-; exact H.
    - destruct (p_s s j); try discriminate; injection P as <-; exact H. }
  split; [exact Z|]. intros k K S1. destruct (future_settled 0 s k R K S1) as [[_ I]|F]; [|exact F]. rewrite Z in I. destruct I.
Qed.

Lemma mrun_app count granted xs ys : forall m s, mrun count granted (xs ++ ys) m s =
  match mrun count granted xs m s with MRunning m' s' => mrun count granted ys m' s' | b => b end.
Proof.
  induction xs as [|x xs IH]; intros m s; [reflexivity|]. cbn [app mrun].
  destruct (mstep count granted x m s); try reflexivity. apply IH.
Qed.
Lemma make_total count granted xs : (forall i, i < count -> granted i = true) ->
  mrun count granted xs 0 pool0 = MBlocked \/
  exists made s, mrun count granted xs 0 pool0 = MRunning made s /\ made <= count /\
    (made < count -> mrun count granted (xs ++ [MNew]) 0 pool0 = MRunning (S made) s).
Proof.
  intros G. pose proof (mrun_inv count granted xs 0 pool0 ltac:(lia) ltac:(lia) quietly_start) as X.
  rewrite mrun_app. destruct (mrun count granted xs 0 pool0) as [m s| | |f].
  - right. exists m, s. split; [reflexivity|]. split; [apply X|]. intros L. cbn [mrun mstep].
    rewrite (proj2 (Nat.ltb_lt _ _) L), (G m L). reflexivity.
  - left. reflexivity.
  - destruct X as (m & s & L & _ & B & _). rewrite G in B by exact L. discriminate.
  - destruct X as (m & s & L & _ & B & _). rewrite G in B by exact L. discriminate.
Qed.
Lemma first_refused count granted xs : 0 < count -> granted 0 = false ->
  match mrun count granted xs 0 pool0 with MRunning m s => m = 0 /\ s = pool0 | MBlocked | MThrown => True | MFault _ => False end.
Proof.
  intros L R. pose proof (make_refused count granted xs 0 ltac:(lia) R L) as H.
  pose proof (mrun_inv count granted xs 0 pool0 ltac:(lia) ltac:(lia) quietly_start) as X.
  destruct (mrun count granted xs 0 pool0) as [m s| | |f]; auto; [|lia].
  destruct X as (_ & _ & Q). assert (m = 0) by lia. subst m. split; [reflexivity|]. apply quietly_none. exact Q.
Qed.
Lemma later_refused count granted xs r : 0 < r -> r < count -> (forall i, i < r -> granted i = true) -> granted r = false ->
  mrun count granted xs 0 pool0 <> MThrown /\
  (forall s, mrun count granted xs 0 pool0 = MRunning r s -> exists f, mrun count granted (xs ++ [MNew]) 0 pool0 = MFault f) /\
  (forall m s, mrun count granted xs 0 pool0 = MRunning m s -> m <= r).
Proof.
  intros P L G R. pose proof (make_refused count granted xs r G R L) as H. split; [|split].
  - intros E. rewrite E in H. lia.
  - intros s E. rewrite mrun_app, E. cbn [mrun mstep]. rewrite (proj2 (Nat.ltb_lt _ _) L), R. unfold unwind.
    destruct (existsb _ _); [eexists; reflexivity|]. destruct (p_mutex s); [eexists; reflexivity|].
    destruct (Nat.eqb_spec r 0); [lia|]. eexists. reflexivity.
  - intros m s E. rewrite E in H. exact H.
Qed.
Lemma all_made count granted r : forall m s, m + r <= count -> (forall i, i < m + r -> granted i = true) ->
  mrun count granted (repeat MNew r) m s = MRunning (m + r) s.
Proof.
  induction r as [|r IH]; intros m s L G; cbn [repeat mrun]; [rewrite Nat.add_0_r; reflexivity|].
  cbn [mstep]. rewrite (proj2 (Nat.ltb_lt m count)) by lia. rewrite (G m) by lia. rewrite IH by (try lia; intros; apply G; lia).
  f_equal. lia.
Qed.
Lemma none_asleep s m : (forall i, asleep s i = false) -> existsb (asleep s) (seq 0 m) = false.
Proof. intros H. generalize 0. induction m as [|m IH]; intros k; [reflexivity|]. cbn [seq existsb]. rewrite H, IH. reflexivity. Qed.
Lemma work_first r : pstep (S r) (TWork 0) pool0 = POk (wgo (with_mutex pool0 (Some (HW 0))) 0 WTest).
Proof. reflexivity. Qed.
Lemma work_second r : pstep (S r) (TWork 0) (wgo (with_mutex pool0 (Some (HW 0))) 0 WTest) =
  POk (wgo (with_mutex (wgo (with_mutex pool0 (Some (HW 0))) 0 WTest) None) 0 WSleep).
Proof. reflexivity. Qed.
Lemma refused_ways count granted r : 0 < r -> r < count -> (forall i, i < r -> granted i = true) -> granted r = false ->
  mrun count granted (repeat MNew r ++ [MNew]) 0 pool0 = MFault MTerminate /\
  mrun count granted (repeat MNew r ++ [MWork 0; MNew]) 0 pool0 = MFault MLocked /\
  mrun count granted (repeat MNew r ++ [MWork 0; MWork 0; MNew]) 0 pool0 = MFault MWaiting.
Proof.
  intros P L G R. destruct r as [|r]; [lia|]. rewrite !mrun_app, !(all_made count granted (S r) 0 pool0) by (try lia; exact G).
  cbn [Nat.add]. assert (C : (S r <? count) = true) by (apply Nat.ltb_lt; lia). split; [|split].
  - unfold mrun, mstep. rewrite C, R. unfold unwind. rewrite none_asleep by reflexivity. reflexivity.
  - unfold mrun, mstep. rewrite work_first. rewrite C, R. unfold unwind. rewrite none_asleep; [reflexivity|]. intros [|i]; reflexivity.
  - unfold mrun, mstep. rewrite work_first, work_second, C, R. reflexivity.
Qed.
