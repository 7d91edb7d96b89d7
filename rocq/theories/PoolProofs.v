(** Proofs about the thread pool. *)
From Coq Require Import List Bool Arith Lia.
From Verif Require Import PoolModel PoolSpec.
Import ListNotations.

Lemma setf_same {A} (f : nat -> A) i x : setf f i x i = x.
Proof. unfold setf. rewrite Nat.eqb_refl. reflexivity. Qed.
Lemma setf_other {A} (f : nat -> A) i x j : j <> i -> setf f i x j = f j.
Proof. intros N. unfold setf. rewrite (proj2 (Nat.eqb_neq j i)) by exact N. reflexivity. Qed.

Lemma prun_app n a : forall b s, prun n (a ++ b) s = match prun n a s with POk s' => prun n b s' | r => r end.
Proof. induction a as [|x a IH]; intros b s; cbn [app prun]; [reflexivity|]. destruct (pstep n x s); [apply IH|reflexivity|reflexivity]. Qed.

Lemma prun_ind n (I : pool -> Prop) : (forall x s s', I s -> pstep n x s = POk s' -> I s') -> forall xs s s', I s -> prun n xs s = POk s' -> I s'.
Proof.
  intros H. induction xs as [|x r IH]; intros s s' J E; cbn [prun] in E; [injection E as <-; exact J|].
  destruct (pstep n x s) as [s1| |f] eqn:E1; try discriminate. exact (IH s1 s' (H x s s1 J E1) E).
Qed.
Lemma reach_ind n (I : pool -> Prop) : I pool0 -> (forall x s s', I s -> pstep n x s = POk s' -> I s') -> forall s, reachable n s -> I s.
Proof. intros B H s (xs & E). exact (prun_ind n I H xs pool0 s B E). Qed.

Lemma asleep_w s i : asleep s i = true <-> p_w s i = WSleep.
Proof. unfold asleep. destruct (p_w s i); split; intros X; try discriminate X; reflexivity. Qed.
Lemma notify_inv n s w s' : notify_one n s w = Some s' ->
  (exists i, i < n /\ p_w s i = WSleep /\ s' = wgo s i WWoken) \/ ((forall i, i < n -> p_w s i <> WSleep) /\ s' = s).
Proof.
  unfold notify_one. destruct w as [i|].
  - destruct (Nat.ltb_spec i n) as [L|]; cbn [andb]; [|discriminate]. destruct (asleep s i) eqn:A; [|discriminate]. intros [= <-]. left. exists i. rewrite <- asleep_w. auto.
  - destruct (existsb _ _) eqn:A; [discriminate|]. intros [= <-]. right. split; [|reflexivity]. intros i L X. rewrite <- asleep_w in X.
    assert (existsb (asleep s) (seq 0 n) = true) by (apply existsb_exists; exists i; split; [apply in_seq; lia|exact X]). congruence.
Qed.

(** Splits a successful step into its cases. *)
Ltac pcases E := unfold pstep in E;
  repeat match type of E with
  | context [match ?b with _ => _ end] => destruct b eqn:?
  end; try discriminate E; injection E as <-;
  try match goal with H : (_ <? _) && _ = true |- _ =>
    let A := fresh "As" in let B := fresh "Lt" in apply andb_prop in H; destruct H as (B & A); apply Nat.ltb_lt in B; apply asleep_w in A end;
  try match goal with H : negb (_ <? _) = false |- _ => apply negb_false_iff in H; apply Nat.ltb_lt in H end;
  try match goal with H : notify_one _ _ _ = Some _ |- _ =>
    let i := fresh "wi" in let A := fresh "As" in let B := fresh "Lt" in destruct (notify_inv _ _ _ _ H) as [(i & B & A & ->)|(A & ->)]; clear H end.
Ltac pred_ := unfold notify_all, sgo, wgo, with_mutex, with_queue, with_shut, with_w, with_s, with_d, with_task, with_pushed, with_ran, with_fut, with_dead in *;
  cbn [p_mutex p_queue p_shut p_w p_s p_d p_next p_alive p_self p_fut p_pushed p_ran] in *.
Ltac pidx := unfold setf in *; repeat match goal with
  | |- context [Nat.eqb ?u ?t] => destruct (Nat.eqb_spec u t); subst
  | H : context [Nat.eqb ?u ?t] |- _ => destruct (Nat.eqb_spec u t); subst
  end.

(** ** The mutex *)
Definition holds_w (p : wpc) : bool := match p with WTest | WInvoke _ | WBody _ | WEnd | WExit => true | _ => false end.
Definition holds_s (p : spc) : bool := match p with SPush _ | SNotify _ | SUnlock _ => true | _ => false end.
Definition holds_d (p : dpc) : bool := match p with DSet | DUnlock => true | _ => false end.
Definition owns (s : pool) (h : holder) : bool := match h with HW i => holds_w (p_w s i) | HS j => holds_s (p_s s j) | HD => holds_d (p_d s) end.

Definition mutex_inv (s : pool) : Prop := forall h, owns s h = true <-> p_mutex s = Some h.

Lemma mutex_step n x s s' : mutex_inv s -> pstep n x s = POk s' -> mutex_inv s'.
Proof.
  intros M E h. pose proof (M h) as Mh.
  destruct x as [j self|j w|i|i| | |j]; cbn [pstep] in E.
  - pose proof (M (HS j)) as Mj. pcases E. destruct h; pred_; cbn [owns] in *; pred_; pidx; try exact Mh. rewrite Heqs0 in Mj. cbn [holds_s] in *. exact Mj.
  - pose proof (M (HS j)) as Mj. cbn [owns] in Mj. pcases E;
      destruct h as [i|u|]; pred_; cbn [owns] in *; pred_; pidx; cbn [holds_s holds_w] in *;
      repeat match goal with H : p_s _ _ = _ |- _ => rewrite H in *; clear H | H : p_w _ _ = _ |- _ => rewrite H in *; clear H end; cbn [holds_s holds_w] in *;
      try exact Mh; try exact Mj; try tauto; split; intros X; try congruence; try tauto.
    all: try (destruct Mh as [Mh1 Mh2], Mj as [Mj1 Mj2]; try (specialize (Mh1 X)); try specialize (Mj1 eq_refl); congruence).
  - pose proof (M (HW i)) as Mj. cbn [owns] in Mj. pcases E;
      destruct h as [u|u|]; pred_; cbn [owns] in *; pred_; pidx; cbn [holds_s holds_w] in *;
      repeat match goal with H : p_w _ _ = _ |- _ => rewrite H in *; clear H end; cbn [holds_s holds_w] in *;
      try exact Mh; try exact Mj; try tauto; split; intros X; try congruence; try tauto.
    all: try (destruct Mh as [Mh1 Mh2], Mj as [Mj1 Mj2]; try (specialize (Mh1 X)); try specialize (Mj1 eq_refl); congruence).
  - pcases E. destruct h; pred_; cbn [owns] in *; pred_; pidx; try exact Mh.
    rewrite As in Mh. exact Mh.
  - pcases E. destruct h; pred_; cbn [owns] in *; pred_; try exact Mh. rewrite Heqd in Mh. exact Mh.
  - pose proof (M HD) as Mj. cbn [owns] in Mj. pcases E;
      destruct h as [u|u|]; pred_; cbn [owns] in *; pred_; rewrite ?Heqd in *; cbn [holds_d] in *;
      try exact Mh; try exact Mj; try tauto; try (split; intros X; try congruence; try tauto).
    all: try (destruct Mh as [Mh1 Mh2], Mj as [Mj1 Mj2]; try (specialize (Mh1 X)); try specialize (Mj1 eq_refl); congruence).
    all: try (destruct (p_w s u); cbn [holds_w] in *; tauto).
  - pcases E; destruct h as [i|u|]; pred_; cbn [owns] in *; pred_; pidx; cbn [holds_s] in *;
      repeat match goal with H : p_s _ _ = _ |- _ => rewrite H in *; clear H end; cbn [holds_s] in *; exact Mh.
Qed.
Lemma mutex_reach n s : reachable n s -> mutex_inv s.
Proof.
  apply reach_ind; [|intros x s1 s2; apply mutex_step]. intros [i|j|]; cbn; split; intros X; discriminate.
Qed.

(** ** Tasks *)
Definition task_of (p : spc) : option nat :=
  match p with SIdle => None | SLock k | SPush k | SNotify k | SUnlock k | SDestroy k => Some k end.
Definition unpushed (p : spc) : option nat := match p with SLock k | SPush k => Some k | _ => None end.

Record task_inv (s : pool) : Prop := {
  t_lt : forall j k, task_of (p_s s j) = Some k -> k < p_next s;
  t_uniq : forall i j k, task_of (p_s s i) = Some k -> task_of (p_s s j) = Some k -> i = j;
  t_alive : forall k, p_alive s k = true <-> exists j, task_of (p_s s j) = Some k;
  t_pushed : forall k, In k (p_pushed s) -> k < p_next s;
  t_unpushed : forall j k, unpushed (p_s s j) = Some k -> ~ In k (p_pushed s);
  t_nodup : NoDup (p_pushed s)
}.

Lemma task_start : task_inv pool0.
Proof. constructor; cbn; try discriminate; try tauto; [|constructor]. intros k. split; [discriminate|intros (j & H); discriminate]. Qed.

(** The fields that matter for the tasks. *)
Lemma task_same s s' : p_s s' = p_s s -> p_next s' = p_next s -> p_alive s' = p_alive s -> p_pushed s' = p_pushed s -> task_inv s -> task_inv s'.
Proof. intros A B C D [T1 T2 T3 T4 T5 T6]. constructor; rewrite ?A, ?B, ?C, ?D; assumption. Qed.

(** A submitter moves on with its task. *)
Lemma task_go s s' j p k : p_s s' = setf (p_s s) j p -> p_next s' = p_next s -> p_alive s' = p_alive s -> p_pushed s' = p_pushed s ->
  task_of (p_s s j) = Some k -> task_of p = Some k -> (unpushed p = None \/ unpushed p = unpushed (p_s s j)) -> task_inv s -> task_inv s'.
Proof.
  intros A B C D Tk Tp Up [T1 T2 T3 T4 T5 T6].
  assert (G : forall i, task_of (setf (p_s s) j p i) = task_of (p_s s i)) by (intros i; unfold setf; destruct (Nat.eqb_spec i j); [subst; congruence|reflexivity]).
  constructor; rewrite ?A, ?B, ?C, ?D; try assumption.
  - intros i q. rewrite G. apply T1.
  - intros i i' q. rewrite !G. apply T2.
  - intros q. rewrite T3. split; intros (i & H); exists i; [rewrite G|rewrite G in H]; exact H.
  - intros i q. unfold setf. destruct (Nat.eqb_spec i j); [|apply T5]. subst. intros X. destruct Up as [U|U]; [congruence|]. rewrite U in X. eapply T5; exact X.
Qed.

Lemma NoDup_snoc {A} (l : list A) x : NoDup l -> ~ In x l -> NoDup (l ++ [x]).
Proof.
  induction l as [|y l IH]; intros N I; cbn [app]; [constructor; [auto|constructor]|]. inversion N as [|? ? N1 N2]; subst. constructor.
  - rewrite in_app_iff. intros [X|[X|[]]]; [auto|]. subst. apply I. left. reflexivity.
  - apply IH; [exact N2|]. intros X. apply I. right. exact X.
Qed.

Lemma task_dead s j k : p_s s j = SDestroy k -> task_inv s -> task_inv (sgo (with_dead s k) j SIdle).
Proof.
  intros Heqs0 [T1 T2 T3 T4 T5 T6]. constructor; pred_; try assumption.
    - intros i q X. unfold setf in X. destruct (Nat.eqb_spec i j); [discriminate|eauto].
    - intros i i' q X Y. unfold setf in X, Y. destruct (Nat.eqb_spec i j), (Nat.eqb_spec i' j); subst; try discriminate. eauto.
    - intros q. unfold setf at 1. destruct (Nat.eqb_spec q k) as [->|Nq].
      + split; [discriminate|]. intros (i & H). unfold setf in H. destruct (Nat.eqb_spec i j); [discriminate|]. exfalso. apply n. apply (T2 i j k); [exact H|rewrite Heqs0; reflexivity].
      + rewrite T3. split; intros (i & H).
        * exists i. rewrite setf_other; [exact H|]. intros ->. rewrite Heqs0 in H. cbn [task_of] in H. congruence.
        * exists i. unfold setf in H. destruct (Nat.eqb_spec i j); [discriminate|exact H].
    - intros i q X. unfold setf in X. destruct (Nat.eqb_spec i j); [discriminate|eauto].
Qed.

Lemma task_step n x s s' : task_inv s -> pstep n x s = POk s' -> task_inv s'.
Proof.
  intros T E. destruct x as [j self|j w|i|i| | |j]; cbn [pstep] in E.
  - destruct (p_s s j) eqn:Q; try discriminate. injection E as <-. destruct T as [T1 T2 T3 T4 T5 T6].
    constructor; pred_.
    + intros i k X. unfold setf in X. destruct (Nat.eqb_spec i j); [cbn [task_of] in X; injection X as <-; lia|specialize (T1 i k X); lia].
    + intros i i' k X Y. unfold setf in X, Y. destruct (Nat.eqb_spec i j), (Nat.eqb_spec i' j); subst; auto.
      * cbn [task_of] in X. injection X as <-. specialize (T1 _ _ Y). lia.
      * cbn [task_of] in Y. injection Y as <-. specialize (T1 _ _ X). lia.
      * eauto.
    + intros k. unfold setf at 1. destruct (Nat.eqb_spec k (p_next s)) as [->|N].
      * split; [intros _; exists j; rewrite setf_same; reflexivity|reflexivity].
      * rewrite T3. split; intros (i & H).
        -- exists i. rewrite setf_other; [exact H|]. intros ->. rewrite Q in H. discriminate.
        -- exists i. unfold setf in H. destruct (Nat.eqb_spec i j); [cbn [task_of] in H; congruence|exact H].
    + intros k X. specialize (T4 k X). lia.
    + intros i k X Y. unfold setf in X. destruct (Nat.eqb_spec i j); [cbn [unpushed] in X; injection X as <-; specialize (T4 _ Y); lia|eapply T5; eauto].
    + exact T6.
  - pcases E.
    + eapply (task_go s _ j _ k); pred_; try reflexivity; try (rewrite Heqs0; reflexivity); [|exact T]. right. rewrite Heqs0. reflexivity.
    + (* push *)
      destruct T as [T1 T2 T3 T4 T5 T6].
      assert (G : forall i, task_of (setf (p_s s) j (SNotify k) i) = task_of (p_s s i)) by (intros i; unfold setf; destruct (Nat.eqb_spec i j); [subst; rewrite Heqs0; reflexivity|reflexivity]).
      constructor; pred_.
      * intros i q. rewrite G. apply T1.
      * intros i i' q. rewrite !G. apply T2.
      * intros q. rewrite T3. split; intros (i & H); exists i; [rewrite G|rewrite G in H]; exact H.
      * intros q X. rewrite in_app_iff in X. destruct X as [X|[<-|[]]]; [auto|]. apply (T1 j). rewrite Heqs0. reflexivity.
      * intros i q X. unfold setf in X. destruct (Nat.eqb_spec i j); [discriminate|]. rewrite in_app_iff. intros [Y|[<-|[]]]; [eapply T5; eauto|].
        apply n0. apply (T2 i j k); [destruct (p_s s i); try discriminate X; cbn in *; congruence|rewrite Heqs0; reflexivity].
      * apply NoDup_snoc; [exact T6|]. apply (T5 j). rewrite Heqs0. reflexivity.
    + eapply (task_go s _ j _ k); pred_; try reflexivity; try (rewrite Heqs0; reflexivity); [|exact T]. left. reflexivity.
    + eapply (task_go s _ j _ k); pred_; try reflexivity; try (rewrite Heqs0; reflexivity); [|exact T]. left. reflexivity.
    + eapply (task_go s _ j _ k); pred_; try reflexivity; try (rewrite Heqs0; reflexivity); [|exact T]. left. reflexivity.
    + eapply task_same; [..|apply (task_dead s j k Heqs0 T)]; reflexivity.
    + eapply task_same; [..|apply (task_dead s j k Heqs0 T)]; reflexivity.
    + eapply task_same; [..|apply (task_dead s j k Heqs0 T)]; reflexivity.
  - pcases E; revert T; apply task_same; reflexivity.
  - pcases E; revert T; apply task_same; reflexivity.
  - pcases E; revert T; apply task_same; reflexivity.
  - pcases E; revert T; apply task_same; reflexivity.
  - pcases E. eapply (task_go s _ j _ k); pred_; try reflexivity; try (rewrite Heqs0; reflexivity); [|exact T]. left. reflexivity.
Qed.
Lemma task_reach n s : reachable n s -> task_inv s.
Proof. apply reach_ind; [exact task_start|intros x s1 s2; apply task_step]. Qed.

(** ** Order *)
Definition tk (s : pool) : list nat :=
  match p_mutex s with Some (HW i) => match p_w s i with WInvoke k => [k] | _ => [] end | _ => [] end.
Definition fifo_inv (s : pool) : Prop := mutex_inv s /\ p_pushed s = p_ran s ++ tk s ++ p_queue s.

Lemma fifo_step n x s s' : fifo_inv s -> pstep n x s = POk s' -> fifo_inv s'.
Proof.
  intros (M & F) E. split; [eapply mutex_step; eauto|].
  destruct x as [j self|j w|i|i| | |j]; cbn [pstep] in E.
  - pcases E. exact F.
  - pose proof (M (HS j)) as Mj. cbn [owns] in Mj. pcases E; rewrite ?Heqs0 in Mj; cbn [holds_s] in Mj; try exact F.
    + unfold tk in *. pred_. rewrite Heqo in F. exact F.
    + unfold tk in *. pred_. rewrite (proj1 Mj eq_refl) in *. rewrite F. cbn [app]. rewrite <- app_assoc. reflexivity.
    + unfold tk in *. pred_. rewrite (proj1 Mj eq_refl) in *. exact F.
    + unfold tk in *. pred_. rewrite (proj1 Mj eq_refl) in *. exact F.
  - pose proof (M (HW i)) as Mj. cbn [owns] in Mj. pcases E; rewrite ?Heqw in Mj; cbn [holds_w] in Mj;
      try (pose proof (proj1 Mj eq_refl) as Mk); unfold tk in *; pred_; rewrite ?Mk, ?Heqo in *; rewrite ?setf_same; rewrite ?Heqw, ?Heql in F; rewrite ?Heql; try exact F.
    rewrite F. cbn [app]. rewrite <- !app_assoc. reflexivity.
  - pcases E. unfold tk in *. pred_. destruct (p_mutex s) as [[u|u|]|] eqn:Mu; try exact F. unfold setf. destruct (Nat.eqb_spec u i); [subst; rewrite As in F; exact F|exact F].
  - pcases E. exact F.
  - pose proof (M HD) as Mj. cbn [owns] in Mj. pcases E; rewrite ?Heqd in Mj; cbn [holds_d] in Mj; try exact F; unfold tk in *; pred_.
    + rewrite Heqo in F. exact F.
    + rewrite (proj1 Mj eq_refl) in F. exact F.
    + destruct (p_mutex s) as [[u|u|]|] eqn:Mu; rewrite ?Mu; try exact F. destruct (p_w s u); exact F.
  - pcases E. exact F.
Qed.
Lemma fifo_reach n s : reachable n s -> fifo_inv s.
Proof. apply reach_ind; [split; [intros [i|j|]; cbn; split; intros X; discriminate|reflexivity]|intros x s1 s2; apply fifo_step]. Qed.

(** ** Who runs what *)
Lemma outside_step n x s s' : (forall i, n <= i -> p_w s i = WLock) -> pstep n x s = POk s' -> forall i, n <= i -> p_w s' i = WLock.
Proof.
  intros O E u L. pose proof (O u L) as Oi. destruct x as [j self|j w|i|i| | |j]; pcases E; pred_; try exact Oi; unfold setf;
    try (match goal with |- context [Nat.eqb ?a ?b] => destruct (Nat.eqb_spec a b); [subst; lia|exact Oi] end).
  rewrite Oi. reflexivity.
Qed.
Lemma outside_reach n s : reachable n s -> forall i, n <= i -> p_w s i = WLock.
Proof. apply (reach_ind n (fun s => forall i, n <= i -> p_w s i = WLock)); [reflexivity|]. intros x s1 s2 O E. exact (outside_step n x s1 s2 O E). Qed.

Lemma one_task n s i j k l : reachable n s -> running (p_w s i) = Some k -> running (p_w s j) = Some l -> i = j.
Proof.
  intros R A B. pose proof (mutex_reach n s R) as M. pose proof (M (HW i)) as Mi. pose proof (M (HW j)) as Mj. cbn [owns] in *.
  assert (holds_w (p_w s i) = true) as X by (destruct (p_w s i); try discriminate; reflexivity).
  assert (holds_w (p_w s j) = true) as Y by (destruct (p_w s j); try discriminate; reflexivity).
  apply Mi in X. apply Mj in Y. congruence.
Qed.

Lemma flat_map_none {A B} (f : A -> list B) l : (forall x, In x l -> f x = []) -> flat_map f l = [].
Proof. induction l as [|x l IH]; intros H; [reflexivity|]. cbn [flat_map]. rewrite (H x (or_introl eq_refl)). apply IH. intros y Y. apply H. right. exact Y. Qed.

Lemma flat_map_one {A B} (f : A -> list B) l x : NoDup l -> In x l -> (forall y, In y l -> y <> x -> f y = []) -> flat_map f l = f x.
Proof.
  intros N I H. apply in_split in I. destruct I as (l1 & l2 & ->). apply NoDup_remove_2 in N. rewrite in_app_iff in N.
  rewrite flat_map_app. cbn [flat_map].
  rewrite (flat_map_none f l1), (flat_map_none f l2), app_nil_r; [reflexivity| |].
  - intros y Y. apply H; [rewrite in_app_iff; right; right; exact Y|]. intros ->. tauto.
  - intros y Y. apply H; [rewrite in_app_iff; left; exact Y|]. intros ->. tauto.
Qed.

Lemma taken_tk n s : reachable n s -> taken n s = tk s.
Proof.
  intros R. pose proof (mutex_reach n s R) as M. pose proof (outside_reach n s R) as O. unfold taken, tk.
  assert (W : forall i k, p_w s i = WInvoke k -> p_mutex s = Some (HW i)) by (intros i k X; apply (M (HW i)); cbn [owns]; rewrite X; reflexivity).
  assert (Z : (forall i, p_mutex s <> Some (HW i)) -> forall i, match p_w s i with WInvoke k => [k] | _ => [] end = []).
  { intros X i. destruct (p_w s i) eqn:Q; try reflexivity. exfalso. exact (X i (W i k Q)). }
  destruct (p_mutex s) as [[i|j|]|] eqn:Mu; try (apply flat_map_none; intros x _; apply Z; intros; discriminate).
  assert (L : i < n).
  { destruct (Nat.lt_ge_cases i n) as [L|L]; [exact L|]. exfalso. specialize (O i L). assert (owns s (HW i) = true) as X by (apply M; exact Mu). cbn [owns] in X. rewrite O in X. discriminate. }
  apply (flat_map_one (fun i => match p_w s i with WInvoke k => [k] | _ => [] end) _ i); [apply seq_NoDup|apply in_seq; lia|]. intros u _ N. destruct (p_w s u) eqn:Q; try reflexivity. pose proof (W u k Q). congruence.
Qed.

Lemma fifo n s : reachable n s -> p_pushed s = p_ran s ++ taken n s ++ p_queue s /\ NoDup (p_pushed s).
Proof. intros R. rewrite (taken_tk n s R). split; [apply (fifo_reach n s R)|apply (t_nodup s (task_reach n s R))]. Qed.

(** ** Dangling *)
Lemma submitting_alive n s k : reachable n s -> (p_alive s k = true <-> submitting s k).
Proof.
  intros R. rewrite (t_alive s (task_reach n s R)). unfold submitting. split; intros (j & H); exists j.
  - destruct (p_s s j); try discriminate; cbn in *; injection H as ->; tauto.
  - cbn [In] in H. destruct H as [H|[H|[H|[H|[H|[]]]]]]; rewrite <- H; reflexivity.
Qed.

(** Begun tasks were pushed. *)
Lemma body_ran n s : reachable n s -> forall i k, p_w s i = WBody k -> In k (p_ran s).
Proof.
  apply (reach_ind n (fun s => forall i k, p_w s i = WBody k -> In k (p_ran s))); [discriminate|].
  intros x s1 s2 B E v q Q. destruct x as [j self|j w|i|i| | |j]; pcases E; pred_; try (eapply B; exact Q); unfold setf in Q;
    try (match type of Q with context [Nat.eqb ?a ?b] => destruct (Nat.eqb_spec a b); [subst; try discriminate Q; try (injection Q as <-)|try (eapply B; exact Q)] end).
  all: try (rewrite in_app_iff; left; eapply B; exact Q).
  all: try (rewrite in_app_iff; right; left; reflexivity).
  destruct (p_w s1 v) eqn:Q1; try discriminate Q. injection Q as <-. eapply B. exact Q1.
Qed.

Lemma window n s i k : reachable n s -> running (p_w s i) = Some k -> p_alive s k = true -> exists j, p_s s j = SDestroy k.
Proof.
  intros R Q A. pose proof (mutex_reach n s R) as M. pose proof (task_reach n s R) as T.
  assert (H : p_mutex s = Some (HW i)) by (apply (M (HW i)); cbn [owns]; destruct (p_w s i); try discriminate; reflexivity).
  apply (t_alive s T) in A. destruct A as (j & A). exists j.
  assert (NH : holds_s (p_s s j) = false) by (destruct (holds_s (p_s s j)) eqn:X; [|reflexivity]; apply (M (HS j)) in X; congruence).
  assert (P : In k (p_pushed s)).
  { destruct (fifo n s R) as (F & _). rewrite F, !in_app_iff. destruct (p_w s i) eqn:W; try discriminate Q; injection Q as ->.
    - right. left. rewrite (taken_tk n s R). unfold tk. rewrite H, W. left. reflexivity.
    - left. exact (body_ran n s R i k W). }
  destruct (p_s s j) eqn:S; try discriminate A; try discriminate NH; cbn [task_of] in A; injection A as ->; [|reflexivity].
  exfalso. exact (t_unpushed s T j k ltac:(rewrite S; reflexivity) P).
Qed.

Lemma runs_in_window n s i k s' : reachable n s -> running (p_w s i) = Some k -> pstep n (TWork i) s = POk s' -> exists j, p_s s j = SDestroy k.
Proof.
  intros R Q E. apply (window n s i k R Q). cbn [pstep] in E. destruct (negb (i <? n)); [discriminate|]. destruct (p_w s i); try discriminate Q; injection Q as ->.
  - destruct (p_alive s k); [reflexivity|discriminate].
  - destruct (p_self s k); [discriminate|]. destruct (p_alive s k); [reflexivity|discriminate].
Qed.

Lemma dangles n s i k : reachable n s -> ~ submitting s k -> p_w s i = WInvoke k -> pstep n (TWork i) s = PFault PDangling.
Proof.
  intros R N Q. cbn [pstep]. assert (L : i < n).
  { destruct (Nat.lt_ge_cases i n) as [L|L]; [exact L|]. rewrite (outside_reach n s R i L) in Q. discriminate. }
  rewrite (proj2 (Nat.ltb_lt i n)) by exact L. cbn [negb]. rewrite Q. destruct (p_alive s k) eqn:A; [|reflexivity]. apply (submitting_alive n s k R) in A. contradiction.
Qed.

(** A task whose submit has returned never begins. *)
Definition dead_inv (k : nat) (s0 s : pool) : Prop := p_alive s k = false /\ k < p_next s /\ (In k (p_ran s) -> In k (p_ran s0)).
Lemma dead_step n x s s' k s0 : dead_inv k s0 s -> pstep n x s = POk s' -> dead_inv k s0 s'.
Proof.
  intros (A & L & I) E. unfold dead_inv. destruct x as [j self|j w|i|i| | |j]; pcases E; pred_; try (split; [|split]; auto; fail).
  - unfold setf. rewrite (proj2 (Nat.eqb_neq k (p_next s))) by lia. split; [|split]; auto.
  - split; [unfold setf; destruct (Nat.eqb k k0); auto|split; auto].
  - split; [unfold setf; destruct (Nat.eqb k k0); auto|split; auto].
  - split; [unfold setf; destruct (Nat.eqb k k0); auto|split; auto].
  - split; [exact A|]. split; [exact L|]. rewrite in_app_iff. intros [X|[X|[]]]; [auto|]. congruence.
Qed.
Lemma prun_reach n xs s s' : reachable n s -> prun n xs s = POk s' -> reachable n s'.
Proof. intros (ys & E) H. exists (ys ++ xs). rewrite prun_app, E. exact H. Qed.
Lemma returned_never_begins n s k xs s' : reachable n s -> k < p_next s -> ~ submitting s k -> prun n xs s = POk s' -> In k (p_ran s') -> In k (p_ran s).
Proof.
  intros R L N E. apply (prun_ind n (dead_inv k s) (fun x s1 s2 => dead_step n x s1 s2 k s) xs s s'); [|exact E].
  split; [|auto]. destruct (p_alive s k) eqn:A; [|reflexivity]. apply (submitting_alive n s k R) in A. contradiction.
Qed.

(** ** Futures *)
Record fut_inv (s : pool) : Prop := {
  f_task : task_inv s;
  f_ready : forall k, p_fut s k = FReady -> In k (p_ran s);
  f_dead : forall k, k < p_next s -> p_alive s k = false -> p_fut s k <> FPending;
  f_alive : forall k, p_alive s k = true -> p_fut s k <> FBroken;
  f_new : forall k, p_next s <= k -> p_fut s k = FPending
}.
Lemma fut_step n x s s' : (forall i k, p_w s i = WBody k -> In k (p_ran s)) -> fut_inv s -> pstep n x s = POk s' -> fut_inv s'.
Proof.
  intros B [T F1 F2 F3 F4] E. constructor; [eapply task_step; eauto|..].
  - intros k. destruct x as [j self|j w|i|i| | |j]; pcases E; pred_; auto; unfold setf; intros X.
    all: try (match type of X with context [Nat.eqb ?u ?v] => destruct (Nat.eqb_spec u v); [subst; try discriminate X|auto] end).
    + rewrite in_app_iff. auto.
    + eapply B. eassumption.
  - intros k. destruct x as [j self|j w|i|i| | |j]; pcases E; pred_; auto; unfold setf; intros L X.
    all: repeat (match goal with |- context [Nat.eqb ?u ?v] => destruct (Nat.eqb_spec u v) | H : context [Nat.eqb ?u ?v] |- _ => destruct (Nat.eqb_spec u v) end; subst; try discriminate; try congruence; auto).
    apply F2; [lia|exact X].
  - intros k. destruct x as [j self|j w|i|i| | |j]; pcases E; pred_; auto; unfold setf; intros X.
    all: repeat (match goal with |- context [Nat.eqb ?u ?v] => destruct (Nat.eqb_spec u v) | H : context [Nat.eqb ?u ?v] |- _ => destruct (Nat.eqb_spec u v) end; subst; try discriminate; try congruence; auto).
    rewrite F4 by lia. discriminate.
  - intros k. destruct x as [j self|j w|i|i| | |j]; pcases E; pred_; auto; unfold setf; intros X.
    all: repeat (match goal with |- context [Nat.eqb ?u ?v] => destruct (Nat.eqb_spec u v) | H : context [Nat.eqb ?u ?v] |- _ => destruct (Nat.eqb_spec u v) end; subst; try discriminate; try congruence; auto).
    + apply F4. lia.
    + exfalso. pose proof (t_lt s T j k0 ltac:(rewrite Heqs0; reflexivity)). lia.
    + exfalso. destruct (proj1 (t_alive s T k0)) as (j & J); [assumption|]. pose proof (t_lt s T j k0 J). lia.
Qed.
Lemma fut_reach n s : reachable n s -> fut_inv s.
Proof.
  intros R. assert (fut_inv s /\ reachable n s) as X; [|apply X].
  revert s R. apply (reach_ind n (fun s => fut_inv s /\ reachable n s)).
  - split; [constructor; cbn; try discriminate; [exact task_start|lia|reflexivity]|exists []; reflexivity].
  - intros x s1 s2 (F & R) E. split; [eapply fut_step; [exact (body_ran n s1 R)|exact F|exact E]|]. apply (prun_reach n [x] s1 s2 R). cbn [prun]. rewrite E. reflexivity.
Qed.

Lemma future_settled n s k : reachable n s -> k < p_next s -> ~ submitting s k ->
  (p_fut s k = FReady /\ In k (p_ran s)) \/ p_fut s k = FBroken.
Proof.
  intros R L N. pose proof (fut_reach n s R) as [T F1 F2 F3 F4].
  assert (A : p_alive s k = false) by (destruct (p_alive s k) eqn:A; [|reflexivity]; apply (submitting_alive n s k R) in A; contradiction).
  specialize (F2 k L A). destruct (p_fut s k) eqn:Q; [congruence|left; auto|right; reflexivity].
Qed.

(** ** Shutdown *)
Definition working (p : wpc) : bool := match p with WInvoke _ | WBody _ | WEnd => true | _ => false end.
Definition leaving (p : wpc) : bool := match p with WExit | WDone => true | _ => false end.
Definition down (d : dpc) : bool := match d with DUnlock | DNotify | DJoin | DDone => true | _ => false end.
Record shut_inv (s : pool) : Prop := {
  h_mutex : mutex_inv s;
  h_down : p_shut s = down (p_d s);
  h_work : p_shut s = true -> forall i, working (p_w s i) = false;
  h_leave : p_shut s = false -> forall i, leaving (p_w s i) = false
}.
Lemma shut_step n x s s' : shut_inv s -> pstep n x s = POk s' -> shut_inv s'.
Proof.
  intros [M D W L] E. constructor; [eapply mutex_step; eauto|..].
  - destruct x as [j self|j w|i|i| | |j]; pcases E; pred_; try exact D; rewrite ?Heqd in D; try exact D; try reflexivity; congruence.
  - destruct x as [j self|j w|i|i| | |j]; pcases E; pred_; auto; intros Sh u; specialize (W Sh) || idtac; try (specialize (W u)); unfold setf; try (match goal with |- context [Nat.eqb ?a ?b] => destruct (Nat.eqb_spec a b); [subst; try reflexivity; try congruence|auto] end); auto.
    all: try (rewrite Heqw in W; discriminate W); try congruence.
    + destruct (p_w s u) eqn:Q; try reflexivity; exfalso; (assert (owns s (HW u) = true) as X by (cbn [owns]; rewrite Q; reflexivity));
        apply M in X; (assert (owns s HD = true) as Y by (cbn [owns]; rewrite Heqd; reflexivity)); apply M in Y; congruence.
    + destruct (p_w s u); auto.
  - destruct x as [j self|j w|i|i| | |j]; pcases E; pred_; auto; intros Sh u; try (specialize (L Sh u)); unfold setf; try (match goal with |- context [Nat.eqb ?a ?b] => destruct (Nat.eqb_spec a b); [subst; try reflexivity; try congruence|auto] end); auto; try discriminate Sh.
    all: try (rewrite Heqw in L; discriminate L); try congruence.
    destruct (p_w s u); auto.
Qed.
Lemma shut_reach n s : reachable n s -> shut_inv s.
Proof.
  apply reach_ind; [|intros x s1 s2; apply shut_step]. constructor; [intros [i|j|]; cbn; split; intros X; discriminate|reflexivity|discriminate|reflexivity].
Qed.

Lemma nothing_after_shutdown n s xs s' : reachable n s -> p_shut s = true -> prun n xs s = POk s' -> p_shut s' = true /\ p_ran s' = p_ran s.
Proof.
  intros R S E. apply (prun_ind n (fun t => shut_inv t /\ p_shut t = true /\ p_ran t = p_ran s)) in E; [tauto| |split; [exact (shut_reach n s R)|auto]].
  intros x s1 s2 (V & S1 & R1) E1. split; [eapply shut_step; eauto|]. pose proof (h_work s1 V S1) as W.
  destruct x as [j self|j w|i|i| | |j]; pcases E1; pred_; auto; try congruence. specialize (W i). rewrite Heqw in W. discriminate.
Qed.

(** ** A task that submits to its own pool *)
Lemma self_submit n s i k : reachable n s -> p_w s i = WBody k -> p_self s k = true ->
  pstep n (TWork i) s = PFault PRelock /\
  forall xs s', prun n xs s = POk s' -> p_mutex s' = Some (HW i) /\ p_w s' i = WBody k /\ p_ran s' = p_ran s /\
    (forall j w q, p_s s' j = SLock q -> pstep n (TSub j w) s' = PBlocked) /\
    (forall j, In (p_w s' j) [WLock; WWoken] -> pstep n (TWork j) s' = PBlocked) /\
    (p_d s' = DLock -> pstep n TDest s' = PBlocked).
Proof.
  intros R Q Sf. assert (L : i < n).
  { destruct (Nat.lt_ge_cases i n) as [L|L]; [exact L|]. rewrite (outside_reach n s R i L) in Q. discriminate. }
  assert (Kn : k < p_next s).
  { apply (t_pushed s (task_reach n s R)). destruct (fifo n s R) as (F & _). rewrite F, in_app_iff. left. exact (body_ran n s R i k Q). }
  assert (Z : forall t, p_w t i = WBody k -> p_self t k = true -> pstep n (TWork i) t = PFault PRelock).
  { intros t A B. cbn [pstep]. rewrite (proj2 (Nat.ltb_lt i n)) by exact L. cbn [negb]. rewrite A, B. reflexivity. }
  split; [apply Z; assumption|]. intros xs s' E.
  apply (prun_ind n (fun t => mutex_inv t /\ p_w t i = WBody k /\ p_self t k = true /\ k < p_next t /\ p_ran t = p_ran s)) in E.
  - destruct E as (M & W & _ & _ & Rn). assert (Mu : p_mutex s' = Some (HW i)) by (apply (M (HW i)); cbn [owns]; rewrite W; reflexivity).
    split; [exact Mu|]. split; [exact W|]. split; [exact Rn|]. split; [|split].
    + intros j w q X. cbn [pstep]. rewrite X, Mu. reflexivity.
    + intros j X. cbn [pstep]. destruct (negb (j <? n)); [reflexivity|]. cbn [In] in X. destruct X as [X|[X|[]]]; rewrite <- X, Mu; reflexivity.
    + intros X. cbn [pstep]. rewrite X, Mu. reflexivity.
  - intros x s1 s2 (M & W & B & K & Rn) E1. split; [eapply mutex_step; eauto|].
    assert (Mu : p_mutex s1 = Some (HW i)) by (apply (M (HW i)); cbn [owns]; rewrite W; reflexivity).
    assert (Hold : forall u, holds_w (p_w s1 u) = true -> u = i) by (intros u X; apply (M (HW u)) in X; congruence).
    destruct x as [j self|j w|i0|i0| | |j]; pcases E1; pred_; rewrite ?Mu in *; try discriminate;
      try (assert (i0 = i) by (apply Hold; rewrite Heqw; reflexivity); subst; congruence);
      try (split; [|split; [|split]]; auto; fail).
    + unfold setf. rewrite (proj2 (Nat.eqb_neq k (p_next s1))) by lia. split; [|split; [|split]]; auto.
    + split; [|split; [|split]]; auto. unfold setf. destruct (Nat.eqb_spec i wi); [subst; congruence|exact W].
    + split; [|split; [|split]]; auto. unfold setf. destruct (Nat.eqb_spec i i0); [subst; congruence|exact W].
    + split; [|split; [|split]]; auto. rewrite W. reflexivity.
  - split; [exact (mutex_reach n s R)|]. auto.
Qed.

(** ** Nobody is forgotten *)
Definition notifying (p : spc) : bool := match p with SNotify _ => true | _ => false end.
Definition joined (d : dpc) : bool := match d with DJoin | DDone => true | _ => false end.
Record wake_inv (n : nat) (s : pool) : Prop := {
  w_shut : shut_inv s;
  w_queue : p_shut s = false -> p_queue s <> [] -> 0 < n -> (exists i, i < n /\ awake (p_w s i) = true) \/ exists j, notifying (p_s s j) = true;
  w_join : joined (p_d s) = true -> forall i, p_w s i <> WSleep
}.
Lemma wake_step n x s s' : wake_inv n s -> pstep n x s = POk s' -> wake_inv n s'.
Proof.
  intros [V Q J] E. pose proof (shut_step n x s s' V E) as V'. constructor; [exact V'|..].
  - intros Sh Ne N. destruct x as [j self|j w|i|i| | |j]; cbn [pstep] in E.
    + pcases E. pred_. destruct (Q Sh Ne N) as [A|(u & A)]; [left; exact A|right; exists u]. unfold setf. destruct (Nat.eqb_spec u j); [subst; rewrite Heqs0 in A; discriminate|exact A].
    + pcases E; pred_.
      * destruct (Q Sh Ne N) as [A|(u & A)]; [left; exact A|right; exists u]. unfold setf. destruct (Nat.eqb_spec u j); [subst; rewrite Heqs0 in A; discriminate|exact A].
      * right. exists j. rewrite setf_same. reflexivity.
      * left. exists wi. split; [exact Lt|]. rewrite setf_same. reflexivity.
      * left. exists 0. split; [exact N|]. pose proof (As 0 N) as A0. pose proof (h_leave s V Sh 0) as L0. destruct (p_w s 0); try reflexivity; try congruence; discriminate.
      * destruct (Q Sh Ne N) as [A|(u & A)]; [left; exact A|right; exists u]. unfold setf. destruct (Nat.eqb_spec u j); [subst; rewrite Heqs0 in A; discriminate|exact A].
      * destruct (Q Sh Ne N) as [A|(u & A)]; [left; exact A|right; exists u]. unfold setf. destruct (Nat.eqb_spec u j); [subst; rewrite Heqs0 in A; discriminate|exact A].
      * destruct (Q Sh Ne N) as [A|(u & A)]; [left; exact A|right; exists u]. unfold setf. destruct (Nat.eqb_spec u j); [subst; rewrite Heqs0 in A; discriminate|exact A].
      * destruct (Q Sh Ne N) as [A|(u & A)]; [left; exact A|right; exists u]. unfold setf. destruct (Nat.eqb_spec u j); [subst; rewrite Heqs0 in A; discriminate|exact A].
    + pcases E; pred_; try congruence; try (left; exists i; split; [exact Heqb|rewrite setf_same; reflexivity]).
      exfalso. pose proof (h_leave s V Sh i) as X. rewrite Heqw in X. discriminate.
    + pcases E. pred_. left. exists i. split; [exact Lt|]. rewrite setf_same. reflexivity.
    + pcases E. pred_. exact (Q Sh Ne N).
    + pcases E; pred_; try discriminate Sh; try exact (Q Sh Ne N).
      exfalso. pose proof (h_down s V) as X. rewrite Heqd in X. cbn [down] in X. congruence.
    + pcases E. pred_. destruct (Q Sh Ne N) as [A|(u & A)]; [left; exact A|right; exists u]. unfold setf. destruct (Nat.eqb_spec u j); [subst; rewrite Heqs0 in A; discriminate|exact A].
  - intros D u. pose proof (h_down s V) as Dn. destruct x as [j self|j w|i|i| | |j]; pcases E; pred_; auto; unfold setf;
      try (match goal with |- context [Nat.eqb ?a ?b] => destruct (Nat.eqb_spec a b); [subst; try discriminate|auto] end); auto; try discriminate D.
    + exfalso. destruct (p_d s); try discriminate D; cbn [down] in Dn; congruence.
    + destruct (p_w s u); discriminate.
Qed.
Lemma wake_reach n s : reachable n s -> wake_inv n s.
Proof.
  apply reach_ind; [|intros x s1 s2; apply wake_step]. constructor; [|intros _ X; exfalso; apply X; reflexivity|discriminate].
  constructor; [intros [i|j|]; cbn; split; intros X; discriminate|reflexivity|discriminate|reflexivity].
Qed.

(** Whoever holds the mutex can go on; if nobody holds it, whoever wants it can. *)
Lemma holder_moves n s h : reachable n s -> p_mutex s = Some h ->
  exists x, In x (match h with HW i => [TWork i] | HS j => TSub j None :: map (fun i => TSub j (Some i)) (seq 0 n) | HD => [TDest] end) /\ pstep n x s <> PBlocked.
Proof.
  intros R Mu. pose proof (mutex_reach n s R h) as M. apply M in Mu. destruct h as [i|j|]; cbn [owns] in Mu.
  - exists (TWork i). split; [left; reflexivity|]. assert (L : i < n).
    { destruct (Nat.lt_ge_cases i n) as [L|L]; [exact L|]. rewrite (outside_reach n s R i L) in Mu. discriminate. }
    cbn [pstep]. rewrite (proj2 (Nat.ltb_lt i n)) by exact L. cbn [negb]. destruct (p_w s i); try discriminate Mu; try discriminate.
    + destruct (p_shut s); [discriminate|destruct (p_queue s); discriminate].
    + destruct (p_alive s k); discriminate.
    + destruct (p_self s k); [discriminate|destruct (p_alive s k); discriminate].
  - destruct (p_s s j) eqn:Q; try discriminate Mu.
    + exists (TSub j None). split; [left; reflexivity|]. cbn [pstep]. rewrite Q. discriminate.
    + destruct (existsb (asleep s) (seq 0 n)) eqn:A.
      * pose proof A as A'. apply existsb_exists in A'. destruct A' as (i & I & B). exists (TSub j (Some i)). split; [right; apply in_map_iff; exists i; auto|].
        cbn [pstep]. rewrite Q. unfold notify_one. apply in_seq in I. rewrite (proj2 (Nat.ltb_lt i n)) by lia. rewrite B. discriminate.
      * exists (TSub j None). split; [left; reflexivity|]. cbn [pstep]. rewrite Q. unfold notify_one. rewrite A. discriminate.
    + exists (TSub j None). split; [left; reflexivity|]. cbn [pstep]. rewrite Q. discriminate.
  - exists TDest. split; [left; reflexivity|]. cbn [pstep]. destruct (p_d s); try discriminate Mu; discriminate.
Qed.

Lemma nobody_forgotten n s : reachable n s -> p_shut s = false -> p_queue s <> [] -> 0 < n -> p_mutex s = None ->
  exists i, i < n /\ pstep n (TWork i) s <> PBlocked.
Proof.
  intros R Sh Ne N Mu. destruct (w_queue n s (wake_reach n s R) Sh Ne N) as [(i & L & A)|(j & A)].
  - exists i. split; [exact L|]. cbn [pstep]. rewrite (proj2 (Nat.ltb_lt i n)) by exact L. cbn [negb]. rewrite Mu.
    assert (holds_w (p_w s i) = false) as H by (destruct (holds_w (p_w s i)) eqn:X; [|reflexivity]; apply (mutex_reach n s R (HW i)) in X; congruence).
    destruct (p_w s i); try discriminate.
  - exfalso. assert (holds_s (p_s s j) = true) as H by (destruct (p_s s j); try discriminate A; reflexivity). apply (mutex_reach n s R (HS j)) in H. congruence.
Qed.

Lemma join_returns n s : reachable n s -> p_d s = DJoin -> p_mutex s = None ->
  (forall i, i < n -> p_w s i <> WDone -> pstep n (TWork i) s <> PBlocked) /\
  ((forall i, i < n -> p_w s i = WDone) -> pstep n TDest s <> PBlocked).
Proof.
  intros R D Mu. pose proof (wake_reach n s R) as [V Q J]. split.
  - intros i L N. pose proof (J ltac:(rewrite D; reflexivity) i) as Ns.
    assert (holds_w (p_w s i) = false) as H by (destruct (holds_w (p_w s i)) eqn:X; [|reflexivity]; apply (mutex_reach n s R (HW i)) in X; congruence).
    cbn [pstep]. rewrite (proj2 (Nat.ltb_lt i n)) by exact L. cbn [negb]. rewrite Mu. destruct (p_w s i); try discriminate; congruence.
  - intros A. cbn [pstep]. rewrite D. assert (forallb (fun i => match p_w s i with WDone => true | _ => false end) (seq 0 n) = true) as ->; [|discriminate].
    apply forallb_forall. intros i I. apply in_seq in I. rewrite A by lia. reflexivity.
Qed.

(** Running a concrete schedule. *)
Lemma prun_gives n xs s0 (P : pool -> Prop) : match prun n xs s0 with POk s => P s | _ => False end -> exists s, prun n xs s0 = POk s /\ P s.
Proof. destruct (prun n xs s0) as [s| |]; intros H; [exists s; auto|destruct H|destruct H]. Qed.

(** A refused submit. *)
Lemma submit_refused n s j k : reachable n s -> p_s s j = SPush k ->
  exists s', prun n [TRefuse j; TSub j None; TSub j None] s = POk s' /\
    p_mutex s' = None /\ p_queue s' = p_queue s /\ p_pushed s' = p_pushed s /\ p_w s' = p_w s /\ p_d s' = p_d s /\
    (forall i, p_s s' i = if Nat.eqb i j then SIdle else p_s s i) /\ p_fut s' k = FBroken /\
    forall xs s2, prun n xs s' = POk s2 -> ~ In k (p_ran s2).
Proof.
  intros R Q. pose proof (task_reach n s R) as T.
  assert (NP : ~ In k (p_pushed s)) by (apply (t_unpushed s T j); rewrite Q; reflexivity).
  assert (NR : ~ In k (p_ran s)) by (intros I; apply NP; rewrite (proj1 (fifo n s R)); apply in_or_app; left; exact I).
  assert (LT : k < p_next s) by (apply (t_lt s T j); rewrite Q; reflexivity).
  assert (X : exists s', prun n [TRefuse j; TSub j None; TSub j None] s = POk s' /\ p_mutex s' = None /\ p_queue s' = p_queue s /\ p_pushed s' = p_pushed s /\
    p_w s' = p_w s /\ p_d s' = p_d s /\ p_next s' = p_next s /\ p_ran s' = p_ran s /\ (forall i, p_s s' i = if Nat.eqb i j then SIdle else p_s s i)).
  { cbn [prun pstep]. rewrite Q. unfold sgo, with_s, with_mutex. cbn [p_s]. rewrite setf_same. cbn [p_s]. rewrite setf_same. cbn [p_fut].
    destruct (p_fut s k); eexists; (split; [reflexivity|]); cbn; repeat (split; [reflexivity|]); intros i; unfold setf; destruct (Nat.eqb i j); reflexivity. }
  destruct X as (s' & E & F). exists s'. split; [exact E|]. pose proof (prun_reach n _ s s' R E) as R'.
  destruct F as (F1 & F2 & F3 & F4 & F5 & F6 & F7 & F8).
  assert (NS : ~ submitting s' k).
  { intros (i & I). rewrite F8 in I. destruct (Nat.eqb_spec i j) as [_|N].
    - cbn in I. intuition discriminate.
    - apply N. apply (t_uniq s T i j k); [|rewrite Q; reflexivity]. cbn [In] in I. destruct I as [I|[I|[I|[I|[I|[]]]]]]; rewrite <- I; reflexivity. }
  assert (LT' : k < p_next s') by (rewrite F6; exact LT). assert (NR' : ~ In k (p_ran s')) by (rewrite F7; exact NR).
  do 5 (split; [assumption|]). split; [exact F8|]. split.
  - destruct (future_settled n s' k R' LT' NS) as [[_ I]|B]; [contradiction|exact B].
  - intros xs s2 E2 I. apply NR'. exact (returned_never_begins n s' k xs s2 R' LT' NS E2 I).
Qed.
