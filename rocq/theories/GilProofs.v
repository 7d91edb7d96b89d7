(** Proofs for C73: programs without data race behave as if every call ran
    alone. *)
From Coq Require Import ZArith List Bool Lia Arith.
From Verif Require Import Base PyListSpec ArrayListModel GilModel GilSpec.
Import ListNotations.
Local Open Scope Z_scope.

Lemma loc_eqb_spec a b : reflect (a = b) (loc_eqb a b).
Proof.
  destruct a as [|i], b as [|j]; cbn; try (constructor; congruence).
  destruct (Z.eqb_spec i j); constructor; congruence.
Qed.

Lemma store_same M l v : store M l v l = v.
Proof. unfold store. destruct (loc_eqb_spec l l); congruence. Qed.
Lemma store_other M l v x : x <> l -> store M l v x = M x.
Proof. unfold store. intros. destruct (loc_eqb_spec x l); congruence. Qed.

Lemma put_same f t x : put f t x t = x.
Proof. unfold put. now rewrite Nat.eqb_refl. Qed.
Lemma put_other f t x u : u <> t -> put f t x u = f u.
Proof. unfold put. intros H. apply Nat.eqb_neq in H. now rewrite H. Qed.

Definition same (M N : memory) : Prop := forall l, M l = N l.
Lemma same_refl M : same M M. Proof. intros l. reflexivity. Qed.
Lemma same_trans M N O : same M N -> same N O -> same M O.
Proof. intros A B l. now rewrite (A l). Qed.
Lemma same_sym M N : same M N -> same N M.
Proof. intros A l. now rewrite (A l). Qed.
Lemma same_store M N l v : same M N -> same (store M l v) (store N l v).
Proof. intros A x. unfold store. now rewrite (A x). Qed.

(** A call without interruption. *)
Fixpoint exec (p : prog) (M : memory) : outcome val * memory :=
  match p with
  | PRet r => (r, M)
  | PRd l k => exec (k (M l)) M
  | PWr l v k => exec k (store M l v)
  | PRel k => exec k M
  | PAcq k => exec k M
  end.

Lemma exec_ext p : forall M N, same M N -> fst (exec p M) = fst (exec p N) /\ same (snd (exec p M)) (snd (exec p N)).
Proof.
  induction p as [r|l k IH|l v k IH|k IH|k IH]; intros M N H; cbn [exec fst snd].
  - auto.
  - rewrite (H l). auto.
  - apply IH. now apply same_store.
  - auto.
  - auto.
Qed.

Fixpoint execs (B : list (nat * prog)) (M : memory) : list (nat * outcome val) * memory :=
  match B with
  | [] => ([], M)
  | (t, p) :: r => let '(a, M1) := exec p M in let '(l, M2) := execs r M1 in ((t, a) :: l, M2)
  end.

Lemma execs_cons t p r M : execs ((t, p) :: r) M =
  ((t, fst (exec p M)) :: fst (execs r (snd (exec p M))), snd (execs r (snd (exec p M)))).
Proof. cbn [execs]. destruct (exec p M) as [a M1]. cbn. now destruct (execs r M1). Qed.

Lemma execs_ext B : forall M N, same M N -> fst (execs B M) = fst (execs B N) /\ same (snd (execs B M)) (snd (execs B N)).
Proof.
  induction B as [|[t p] r IH]; intros M N H.
  - cbn. auto.
  - rewrite !execs_cons. cbn [fst snd]. destruct (exec_ext p M N H) as [E1 E2].
    destruct (IH _ _ E2) as [F1 F2]. split; [now rewrite E1, F1|auto].
Qed.

Lemma execs_app B : forall C M, execs (B ++ C) M =
  (fst (execs B M) ++ fst (execs C (snd (execs B M))), snd (execs C (snd (execs B M)))).
Proof.
  induction B as [|[t p] r IH]; intros C M; cbn [app].
  - cbn. now destruct (execs C M).
  - rewrite !execs_cons, IH. reflexivity.
Qed.

Lemma execs_threads B : forall M, map fst (fst (execs B M)) = map fst B.
Proof.
  induction B as [|[t p] r IH]; intros M; [reflexivity|]. rewrite execs_cons. cbn. now rewrite IH.
Qed.

(** No access of the run conflicts with an access to [l] ([w]: a write). *)
Fixpoint noc (l : loc) (w : bool) (p : prog) (M : memory) : bool :=
  match p with
  | PRet _ => true
  | PRd x k => (negb (loc_eqb x l) || negb w) && noc l w (k (M x)) M
  | PWr x v k => negb (loc_eqb x l) && noc l w k (store M x v)
  | PRel k => noc l w k M
  | PAcq k => noc l w k M
  end.
Fixpoint nocs (l : loc) (w : bool) (B : list (nat * prog)) (M : memory) : bool :=
  match B with
  | [] => true
  | (_, p) :: r => noc l w p M && nocs l w r (snd (exec p M))
  end.

Lemma noc_keeps l w p : forall M, noc l w p M = true -> snd (exec p M) l = M l.
Proof.
  induction p as [r|x k IH|x v k IH|k IH|k IH]; intros M H; cbn [exec noc snd] in *; auto.
  - apply andb_true_iff in H. apply IH. apply H.
  - apply andb_true_iff in H. destruct H as [A B]. rewrite IH by auto.
    apply store_other. destruct (loc_eqb_spec x l); [discriminate|congruence].
Qed.

Lemma nocs_keeps l w B : forall M, nocs l w B M = true -> snd (execs B M) l = M l.
Proof.
  induction B as [|[t p] r IH]; intros M H; [reflexivity|].
  rewrite execs_cons. cbn [snd nocs] in *. apply andb_true_iff in H. destruct H as [A B].
  rewrite IH by auto. eapply noc_keeps; eauto.
Qed.

Lemma store_store_comm M l v x y : x <> l -> same (store (store M l v) x y) (store (store M x y) l v).
Proof.
  intros N z. unfold store. destruct (loc_eqb_spec z x), (loc_eqb_spec z l); congruence.
Qed.

Lemma noc_write l v p : forall M, noc l true p M = true ->
  fst (exec p (store M l v)) = fst (exec p M) /\ same (snd (exec p (store M l v))) (store (snd (exec p M)) l v).
Proof.
  induction p as [r|x k IH|x y k IH|k IH|k IH]; intros M H; cbn [exec noc fst snd] in *.
  - split; [reflexivity|apply same_refl].
  - apply andb_true_iff in H. destruct H as [A B].
    destruct (loc_eqb_spec x l) as [|N]; [discriminate|].
    rewrite store_other by congruence. apply IH. auto.
  - apply andb_true_iff in H. destruct H as [A B].
    destruct (loc_eqb_spec x l) as [|N]; [discriminate|].
    destruct (exec_ext k _ _ (store_store_comm M l v x y N)) as [E1 E2].
    destruct (IH _ B) as [F1 F2]. split; [congruence|eapply same_trans; eauto].
  - auto.
  - auto.
Qed.

Lemma nocs_write l v B : forall M, nocs l true B M = true ->
  fst (execs B (store M l v)) = fst (execs B M) /\ same (snd (execs B (store M l v))) (store (snd (execs B M)) l v).
Proof.
  induction B as [|[t p] r IH]; intros M H.
  - cbn. split; [reflexivity|apply same_refl].
  - cbn [nocs] in H. apply andb_true_iff in H. destruct H as [A B].
    rewrite !execs_cons. cbn [fst snd]. destruct (noc_write l v p M A) as [E1 E2].
    destruct (execs_ext r _ _ E2) as [F1 F2]. destruct (IH _ B) as [G1 G2].
    split; [now rewrite E1, F1, G1|eapply same_trans; eauto].
Qed.

(** A call ends right after it takes the lock back, and returns with the lock. *)
Fixpoint closes (h : bool) (p : prog) : Prop :=
  match p with
  | PRet _ => h = true
  | PRd _ k => forall v, closes h (k v)
  | PWr _ _ k => closes h k
  | PRel k => h = true /\ closes false k
  | PAcq k => h = false /\ exists r, k = PRet r
  end.

Lemma reaches_trans a b c : reaches a b -> reaches b c -> reaches a c.
Proof. intros A B. induction B; [exact A|]. econstructor; eauto. Qed.
Lemma reaches_one a b t : step_of_thread t a b -> reaches a b.
Proof. intros H. econstructor; [constructor|exact H]. Qed.

(** One thread runs alone up to the end of its accesses. *)
Lemma drain u q : forall h c, now (thr c u) = Some q -> closes h q -> (h = true -> gil c = Some u) ->
  exists c', reaches c c' /\ mem c' = snd (exec q (mem c)) /\
    (forall x, x <> u -> thr c' x = thr c x) /\ (forall x, x <> u -> gil c = Some x -> gil c' = Some x).
Proof.
  induction q as [r|l k IH|l v k IH|k IH|k IH]; intros h c N W G; cbn [exec snd closes] in *.
  - exists c. split; [constructor|auto].
  - set (c1 := {| mem := mem c; gil := gil c; thr := at_ c u (Some (k (mem c l))) |}).
    destruct (IH (mem c l) h c1) as (c' & R & M' & T & L).
    + unfold c1, at_; cbn. now rewrite put_same.
    + auto.
    + exact G.
    + exists c'. split; [eapply reaches_trans; [eapply reaches_one, (st_rd u c l k N)|exact R]|].
      split; [exact M'|]. split; [|exact L]. intros x X. rewrite T by auto. unfold c1, at_; cbn. now apply put_other.
  - set (c1 := {| mem := store (mem c) l v; gil := gil c; thr := at_ c u (Some k) |}).
    destruct (IH h c1) as (c' & R & M' & T & L).
    + unfold c1, at_; cbn. now rewrite put_same.
    + auto.
    + exact G.
    + exists c'. split; [eapply reaches_trans; [eapply reaches_one, (st_wr u c l v k N)|exact R]|].
      split; [exact M'|]. split; [|exact L]. intros x X. rewrite T by auto. unfold c1, at_; cbn. now apply put_other.
  - destruct W as [-> W].
    set (c1 := {| mem := mem c; gil := None; thr := at_ c u (Some k) |}).
    destruct (IH false c1) as (c' & R & M' & T & L).
    + unfold c1, at_; cbn. now rewrite put_same.
    + auto.
    + discriminate.
    + exists c'. split; [eapply reaches_trans; [eapply reaches_one, (st_rel u c k N (G eq_refl))|exact R]|].
      split; [exact M'|]. split.
      * intros x X. rewrite T by auto. unfold c1, at_; cbn. now apply put_other.
      * intros x X E. rewrite (G eq_refl) in E. congruence.
  - destruct W as [_ [r ->]]. exists c. cbn. split; [constructor|auto].
Qed.

(** One thread runs alone up to an access that conflicts with the one another
    thread is about to make. *)
Lemma collide t l w u q : t <> u -> forall h c, next (thr c t) = Some (l, w) ->
  now (thr c u) = Some q -> closes h q -> (h = true -> gil c = Some u) ->
  noc l w q (mem c) = false -> exists c', reaches c c' /\ racing c'.
Proof.
  intros TU. induction q as [r|x k IH|x v k IH|k IH|k IH]; intros h c A N W G F; cbn [noc closes] in *.
  - discriminate.
  - destruct (loc_eqb_spec x l) as [->|NE]; cbn [negb orb andb] in F.
    + destruct w; cbn [negb andb] in F.
      * exists c. split; [constructor|]. exists t, u, l, true, false. unfold next at 2. rewrite N. auto.
      * set (c1 := {| mem := mem c; gil := gil c; thr := at_ c u (Some (k (mem c l))) |}).
        destruct (IH (mem c l) h c1) as (c' & R & RC); auto.
        -- unfold c1, at_; cbn. now rewrite put_other by auto.
        -- unfold c1, at_; cbn. now rewrite put_same.
        -- exists c'. split; [eapply reaches_trans; [eapply reaches_one, (st_rd u c l k N)|exact R]|exact RC].
    + set (c1 := {| mem := mem c; gil := gil c; thr := at_ c u (Some (k (mem c x))) |}).
      destruct (IH (mem c x) h c1) as (c' & R & RC); auto.
      * unfold c1, at_; cbn. now rewrite put_other by auto.
      * unfold c1, at_; cbn. now rewrite put_same.
      * exists c'. split; [eapply reaches_trans; [eapply reaches_one, (st_rd u c x k N)|exact R]|exact RC].
  - destruct (loc_eqb_spec x l) as [->|NE]; cbn [negb andb] in F.
    + exists c. split; [constructor|]. exists t, u, l, w, true. unfold next at 2. rewrite N. auto.
    + set (c1 := {| mem := store (mem c) x v; gil := gil c; thr := at_ c u (Some k) |}).
      destruct (IH h c1) as (c' & R & RC); auto.
      * unfold c1, at_; cbn. now rewrite put_other by auto.
      * unfold c1, at_; cbn. now rewrite put_same.
      * exists c'. split; [eapply reaches_trans; [eapply reaches_one, (st_wr u c x v k N)|exact R]|exact RC].
  - destruct W as [-> W].
    set (c1 := {| mem := mem c; gil := None; thr := at_ c u (Some k) |}).
    destruct (IH false c1) as (c' & R & RC); auto.
    + unfold c1, at_; cbn. now rewrite put_other by auto.
    + unfold c1, at_; cbn. now rewrite put_same.
    + discriminate.
    + exists c'. split; [eapply reaches_trans; [eapply reaches_one, (st_rel u c k N (G eq_refl))|exact R]|exact RC].
  - destruct W as [_ [r ->]]. cbn in F. discriminate.
Qed.

Definition ready (c : config) (x : nat * prog) : Prop :=
  now (thr c (fst x)) = Some (snd x) /\ exists h, closes h (snd x) /\ (h = true -> gil c = Some (fst x)).

Lemma collides t l w B : forall c, next (thr c t) = Some (l, w) -> ~ In t (map fst B) -> NoDup (map fst B) ->
  Forall (ready c) B -> nocs l w B (mem c) = false -> exists c', reaches c c' /\ racing c'.
Proof.
  induction B as [|[u q] r IH]; intros c A NI ND F E; cbn [nocs map fst] in *; [discriminate|].
  inversion F as [|? ? [N [h [W G]]] F' EQ]; subst; clear F. cbn [fst snd] in *.
  inversion ND as [|? ? NI' ND' EQ]; subst.
  assert (TU : t <> u) by (intros ->; apply NI; left; reflexivity).
  destruct (noc l w q (mem c)) eqn:NC; cbn [andb] in E.
  - destruct (drain u q h c N W G) as (c1 & R & M1 & T1 & G1).
    destruct (IH c1) as (c' & R' & RC).
    + now rewrite T1 by auto.
    + intros X. apply NI. now right.
    + exact ND'.
    + apply Forall_forall. intros [v p] X. pose proof (proj1 (Forall_forall _ _) F' _ X) as [N' [h' [W' G']]].
      assert (v <> u) by (intros ->; apply NI'; apply in_map_iff; exists (u, p); auto).
      split; cbn [fst snd] in *; [now rewrite T1 by auto|]. exists h'. split; [exact W'|]. intros Y. apply G1; auto.
    + now rewrite M1.
    + exists c'. split; [eapply reaches_trans; eauto|exact RC].
  - eapply collide; eauto.
Qed.

(** ** The invariant *)
Record serial (M0 : memory) (todo0 : nat -> list prog) (c : config) (log busy : list (nat * prog)) : Prop := {
  s_now : forall t p, now (thr c t) = Some p <-> In (t, p) busy;
  s_nodup : NoDup (map fst busy);
  s_ready : Forall (ready c) busy;
  s_gil : forall t, gil c = Some t -> In t (map fst busy);
  s_todo : forall t, of_thread t log ++ todo (thr c t) = todo0 t;
  s_answers : forall t, of_thread t (fst (execs log M0)) = answers (thr c t) ++ of_thread t (fst (execs busy (mem c)));
  s_mem : same (snd (execs log M0)) (snd (execs busy (mem c)))
}.

Lemma of_thread_app {A} t (a b : list (nat * A)) : of_thread t (a ++ b) = of_thread t a ++ of_thread t b.
Proof. unfold of_thread. now rewrite filter_app, map_app. Qed.
Lemma of_thread_cons_same {A} t (x : A) r : of_thread t ((t, x) :: r) = x :: of_thread t r.
Proof. unfold of_thread. cbn. now rewrite Nat.eqb_refl. Qed.
Lemma of_thread_cons_other {A} t u (x : A) r : u <> t -> of_thread t ((u, x) :: r) = of_thread t r.
Proof. intros H. unfold of_thread. cbn. apply Nat.eqb_neq in H. now rewrite H. Qed.
Lemma of_thread_none {A} t (r : list (nat * A)) : ~ In t (map fst r) -> of_thread t r = [].
Proof.
  induction r as [|[u x] r IH]; intros H; [reflexivity|].
  rewrite of_thread_cons_other; [apply IH; intros X; apply H; now right|].
  intros ->. apply H. left. reflexivity.
Qed.

Lemma at_same c t p : thr {| mem := mem c; gil := gil c; thr := at_ c t p |} t =
  {| now := p; todo := todo (thr c t); answers := answers (thr c t) |}.
Proof. cbn. unfold at_. now rewrite put_same. Qed.

(** Replace the program of one busy thread. *)
Section replace.
Context (M0 : memory) (todo0 : nat -> list prog) (c : config) (log : list (nat * prog))
  (B1 B2 : list (nat * prog)) (t : nat) (p p' : prog) (M' : memory) (g' : option nat).
Let busy := B1 ++ (t, p) :: B2.
Let c' := {| mem := M'; gil := g'; thr := at_ c t (Some p') |}.
Context (I : serial M0 todo0 c log busy).

Lemma split_other x : In x (B1 ++ B2) -> fst x <> t.
Proof.
  intros H E. pose proof (s_nodup _ _ _ _ _ I) as ND. unfold busy in ND. rewrite map_app in ND. cbn in ND.
  apply NoDup_remove_2 in ND. apply ND. rewrite <- map_app. apply in_map_iff. exists x. auto.
Qed.

Lemma replace_serial :
  (exists h, closes h p' /\ (h = true -> g' = Some t)) ->
  (forall x, x <> t -> gil c = Some x -> g' = Some x) ->
  (forall x, g' = Some x -> x = t \/ gil c = Some x) ->
  fst (execs (B1 ++ (t, p') :: B2) M') = fst (execs busy (mem c)) ->
  same (snd (execs busy (mem c))) (snd (execs (B1 ++ (t, p') :: B2) M')) ->
  serial M0 todo0 c' log (B1 ++ (t, p') :: B2).
Proof.
  intros RD GK GN EA EM.
  assert (MF : map fst (B1 ++ (t, p') :: B2) = map fst busy) by (unfold busy; now rewrite !map_app).
  constructor.
  - intros u q. unfold c', at_; cbn. destruct (Nat.eq_dec u t) as [->|N].
    + rewrite put_same. cbn. split.
      * intros E. injection E as <-. apply in_or_app. right. now left.
      * intros H. apply in_app_or in H. destruct H as [H|[H|H]].
        -- exfalso. apply (split_other (t, q)); [apply in_or_app; now left|reflexivity].
        -- injection H as ->. reflexivity.
        -- exfalso. apply (split_other (t, q)); [apply in_or_app; now right|reflexivity].
    + rewrite put_other by auto. rewrite (s_now _ _ _ _ _ I). unfold busy. rewrite !in_app_iff. cbn [In].
      split; (intros [H|[H|H]]; [auto| |auto]); injection H; congruence.
  - rewrite MF. apply (s_nodup _ _ _ _ _ I).
  - pose proof (s_ready _ _ _ _ _ I) as F. unfold busy in F. rewrite Forall_forall in F. apply Forall_forall.
    intros [u q] H. unfold ready, c', at_; cbn. destruct (Nat.eq_dec u t) as [->|N].
    + rewrite put_same. cbn. apply in_app_or in H. destruct H as [H|[H|H]].
      * exfalso. apply (split_other (t, q)); [apply in_or_app; now left|reflexivity].
      * injection H as ->. split; [reflexivity|exact RD].
      * exfalso. apply (split_other (t, q)); [apply in_or_app; now right|reflexivity].
    + rewrite put_other by auto. destruct (F (u, q)) as [A [h [C G]]].
      * apply in_or_app. apply in_app_or in H. destruct H as [H|[H|H]]; [now left|injection H; congruence|right; now right].
      * cbn in *. split; [exact A|]. exists h. split; [exact C|]. intros E. apply GK; auto.
  - intros u H. rewrite MF. cbn in H. destruct (GN u H) as [->|G].
    + unfold busy. rewrite map_app. apply in_or_app. right. now left.
    + apply (s_gil _ _ _ _ _ I). exact G.
  - intros u. unfold c', at_; cbn. rewrite <- (s_todo _ _ _ _ _ I u).
    destruct (Nat.eq_dec u t) as [->|N]; [now rewrite put_same|now rewrite put_other].
  - intros u. rewrite (s_answers _ _ _ _ _ I u). cbn [mem c']. rewrite EA. unfold c', at_; cbn.
    destruct (Nat.eq_dec u t) as [->|N]; [now rewrite put_same|now rewrite put_other].
  - cbn [mem c']. eapply same_trans; [apply (s_mem _ _ _ _ _ I)|exact EM].
Qed.
End replace.

Lemma nodup_snoc {A} (xs : list A) y : NoDup xs -> ~ In y xs -> NoDup (xs ++ [y]).
Proof.
  intros ND NB. apply NoDup_rev in ND. rewrite <- (rev_involutive (xs ++ [y])), rev_app_distr.
  apply NoDup_rev. cbn. constructor; [|exact ND]. intros X. apply NB. now apply in_rev.
Qed.

Lemma nodup_left {A} (xs ys : list A) : NoDup (xs ++ ys) -> NoDup xs.
Proof.
  induction xs as [|x xs IH]; cbn; intros H; [constructor|]. inversion H as [|? ? A1 A2]; subst.
  constructor; [|auto]. intros X. apply A1. apply in_or_app. now left.
Qed.

Lemma serial_step M0 todo0 c log busy t c1 :
  (forall u, Forall (closes true) (todo0 u)) ->
  serial M0 todo0 c log busy -> race_free c -> step_of_thread t c c1 ->
  exists log' busy', serial M0 todo0 c1 log' busy'.
Proof.
  intros CL I RF ST.
  inversion ST as [? p r G N T|? l k N|? l v k N|? k N G|? k N G|? r N G]; subst.
  - (* begin *)
    assert (NB : ~ In t (map fst busy)).
    { intros H. apply in_map_iff in H. destruct H as [[u q] [E H]]. cbn in E. subst u.
      apply (s_now _ _ _ _ _ I) in H. congruence. }
    assert (CP : closes true p).
    { pose proof (CL t) as F. rewrite <- (s_todo _ _ _ _ _ I t), T in F. apply Forall_app in F.
      destruct F as [_ F]. now inversion F. }
    exists (log ++ [(t, p)]), (busy ++ [(t, p)]). constructor.
    + intros u q. cbn. destruct (Nat.eq_dec u t) as [->|X].
      * rewrite put_same. cbn. rewrite in_app_iff. cbn. split.
        -- intros E. injection E as ->. right. now left.
        -- intros [H|[H|[]]]; [exfalso; apply NB; apply in_map_iff; exists (t, q); auto|]. injection H as ->. reflexivity.
      * rewrite put_other by auto. rewrite (s_now _ _ _ _ _ I), in_app_iff. cbn. split; [auto|].
        intros [H|[H|[]]]; [auto|]. injection H. congruence.
    + rewrite map_app. cbn. apply nodup_snoc; [apply (s_nodup _ _ _ _ _ I)|exact NB].
    + apply Forall_app. split.
      * apply Forall_forall. intros [u q] H. pose proof (proj1 (Forall_forall _ _) (s_ready _ _ _ _ _ I) _ H) as [A [h [C D]]].
        assert (u <> t) by (intros ->; apply NB; apply in_map_iff; exists (t, q); auto).
        split; cbn in *; [now rewrite put_other|]. exists h. split; [exact C|]. intros E. specialize (D E). congruence.
      * constructor; [|constructor]. split; cbn; [now rewrite put_same|]. exists true. auto.
    + intros u H. cbn in H. injection H as <-. rewrite map_app, in_app_iff. right. now left.
    + intros u. cbn. rewrite of_thread_app. pose proof (s_todo _ _ _ _ _ I u) as E.
      destruct (Nat.eq_dec u t) as [->|X].
      * rewrite put_same, of_thread_cons_same. cbn. rewrite <- E, T, <- app_assoc. reflexivity.
      * rewrite put_other by auto. rewrite of_thread_cons_other by auto. cbn. rewrite app_nil_r. exact E.
    + intros u. cbn [mem]. rewrite !execs_app. cbn [fst snd]. rewrite !of_thread_app.
      rewrite (s_answers _ _ _ _ _ I u), <- app_assoc.
      destruct (execs_ext [(t, p)] _ _ (s_mem _ _ _ _ _ I)) as [E1 _]. rewrite E1.
      cbn. destruct (Nat.eq_dec u t) as [->|X]; [now rewrite put_same|now rewrite put_other].
    + cbn [mem]. rewrite !execs_app. cbn [snd]. apply execs_ext. apply (s_mem _ _ _ _ _ I).
  - (* read *)
    pose proof (proj1 (s_now _ _ _ _ _ I t _) N) as H. apply in_split in H. destruct H as (B1 & B2 & ->).
    exists log, (B1 ++ (t, k (mem c l)) :: B2).
    pose proof (s_nodup _ _ _ _ _ I) as ND. rewrite map_app in ND. cbn in ND.
    pose proof (s_ready _ _ _ _ _ I) as RD. apply Forall_app in RD. destruct RD as [RD1 RD2].
    assert (NC : nocs l false B1 (mem c) = true).
    { destruct (nocs l false B1 (mem c)) eqn:E; [reflexivity|exfalso].
      destruct (collides t l false B1 c) as (c' & R & RC); auto.
      - unfold next. now rewrite N.
      - apply NoDup_remove_2 in ND. intros X. apply ND. apply in_or_app. now left.
      - apply NoDup_remove_1 in ND. exact (nodup_left _ _ ND).
      - eapply RF; eauto. }
    apply replace_serial with (p := PRd l k).
    + exact I.
    + inversion RD2 as [|? ? [_ [h [C D]]] _]; subst. cbn in *. exists h. auto.
    + auto.
    + auto.
    + rewrite !execs_app, !execs_cons. cbn [fst snd exec]. now rewrite (nocs_keeps l false B1 _ NC).
    + rewrite !execs_app, !execs_cons. cbn [fst snd exec]. rewrite (nocs_keeps l false B1 _ NC). apply same_refl.
  - (* write *)
    pose proof (proj1 (s_now _ _ _ _ _ I t _) N) as H. apply in_split in H. destruct H as (B1 & B2 & ->).
    exists log, (B1 ++ (t, k) :: B2).
    pose proof (s_nodup _ _ _ _ _ I) as ND. rewrite map_app in ND. cbn in ND.
    pose proof (s_ready _ _ _ _ _ I) as RD. apply Forall_app in RD. destruct RD as [RD1 RD2].
    assert (NC : nocs l true B1 (mem c) = true).
    { destruct (nocs l true B1 (mem c)) eqn:E; [reflexivity|exfalso].
      destruct (collides t l true B1 c) as (c' & R & RC); auto.
      - unfold next. now rewrite N.
      - apply NoDup_remove_2 in ND. intros X. apply ND. apply in_or_app. now left.
      - apply NoDup_remove_1 in ND. exact (nodup_left _ _ ND).
      - eapply RF; eauto. }
    destruct (nocs_write l v B1 _ NC) as [E1 E2].
    apply replace_serial with (p := PWr l v k).
    + exact I.
    + inversion RD2 as [|? ? [_ [h [C D]]] _]; subst. cbn in *. exists h. auto.
    + auto.
    + auto.
    + rewrite !execs_app, !execs_cons. cbn [fst snd exec]. rewrite E1.
      destruct (exec_ext k _ _ E2) as [F1 F2]. rewrite F1. destruct (execs_ext B2 _ _ F2) as [G1 _]. now rewrite G1.
    + rewrite !execs_app, !execs_cons. cbn [fst snd exec].
      destruct (exec_ext k _ _ E2) as [F1 F2]. destruct (execs_ext B2 _ _ F2) as [_ G2]. apply same_sym. exact G2.
  - (* release *)
    pose proof (proj1 (s_now _ _ _ _ _ I t _) N) as H. apply in_split in H. destruct H as (B1 & B2 & ->).
    exists log, (B1 ++ (t, k) :: B2).
    pose proof (s_ready _ _ _ _ _ I) as RD. apply Forall_app in RD. destruct RD as [RD1 RD2].
    apply replace_serial with (p := PRel k).
    + exact I.
    + inversion RD2 as [|? ? [_ [h [C D]]] _]; subst. cbn in *. exists false. destruct C. split; [assumption|discriminate].
    + intros x X E. congruence.
    + discriminate.
    + rewrite !execs_app, !execs_cons. reflexivity.
    + rewrite !execs_app, !execs_cons. apply same_refl.
  - (* acquire *)
    pose proof (proj1 (s_now _ _ _ _ _ I t _) N) as H. apply in_split in H. destruct H as (B1 & B2 & ->).
    exists log, (B1 ++ (t, k) :: B2).
    pose proof (s_ready _ _ _ _ _ I) as RD. apply Forall_app in RD. destruct RD as [RD1 RD2].
    apply replace_serial with (p := PAcq k).
    + exact I.
    + inversion RD2 as [|? ? [_ [h [C D]]] _]; subst. cbn in *. exists true. destruct C as [_ [r ->]]. cbn. auto.
    + intros x X E. congruence.
    + intros x E. left. congruence.
    + rewrite !execs_app, !execs_cons. reflexivity.
    + rewrite !execs_app, !execs_cons. apply same_refl.
  - (* return *)
    pose proof (proj1 (s_now _ _ _ _ _ I t _) N) as H. apply in_split in H. destruct H as (B1 & B2 & ->).
    exists log, (B1 ++ B2).
    assert (OT : forall x, In x (B1 ++ B2) -> fst x <> t).
    { intros x. eapply (split_other M0 todo0 c log B1 B2 t (PRet r)); exact I. }
    pose proof (s_nodup _ _ _ _ _ I) as ND. rewrite map_app in ND. cbn in ND.
    constructor.
    + intros u q. cbn. destruct (Nat.eq_dec u t) as [->|X].
      * rewrite put_same. cbn. split; [discriminate|]. intros H. exfalso. apply (OT _ H). reflexivity.
      * rewrite put_other by auto. rewrite (s_now _ _ _ _ _ I), !in_app_iff. cbn.
        split; [intros [H|[H|H]]; auto; injection H; congruence|intros [H|H]; auto].
    + rewrite map_app. eapply NoDup_remove_1; eauto.
    + apply Forall_forall. intros [u q] H. pose proof (OT _ H) as X. cbn in X.
      pose proof (s_ready _ _ _ _ _ I) as RD. rewrite Forall_forall in RD.
      destruct (RD (u, q)) as [A [h [C D]]].
      { apply in_or_app. apply in_app_or in H. destruct H; [now left|right; now right]. }
      split; cbn in *; [now rewrite put_other|]. exists h. split; [exact C|]. intros E. specialize (D E). congruence.
    + discriminate.
    + intros u. cbn. rewrite <- (s_todo _ _ _ _ _ I u).
      destruct (Nat.eq_dec u t) as [->|X]; [now rewrite put_same|now rewrite put_other].
    + intros u. rewrite (s_answers _ _ _ _ _ I u). cbn [mem]. rewrite !execs_app, !execs_cons.
      cbn [fst snd exec thr]. rewrite !of_thread_app. destruct (Nat.eq_dec u t) as [->|X].
      * rewrite put_same, of_thread_cons_same. cbn [answers].
        assert (Q : of_thread t (fst (execs B1 (mem c))) = []).
        { apply of_thread_none. rewrite execs_threads. apply NoDup_remove_2 in ND. intros Y. apply ND. apply in_or_app. now left. }
        rewrite Q. cbn [app]. now rewrite <- app_assoc.
      * rewrite put_other by auto. rewrite of_thread_cons_other by auto. reflexivity.
    + cbn [mem]. eapply same_trans; [apply (s_mem _ _ _ _ _ I)|].
      rewrite !execs_app, !execs_cons. apply same_refl.
Qed.

Lemma reaches_serial c0 : (forall u, Forall (closes true) (todo (thr c0 u))) -> quiet c0 -> gil c0 = None ->
  (forall t, answers (thr c0 t) = []) -> race_free c0 -> forall c, reaches c0 c ->
  exists log busy, serial (mem c0) (fun t => todo (thr c0 t)) c log busy.
Proof.
  intros CL Q G A RF c R. induction R as [|c1 c2 t R IH ST].
  - exists [], []. constructor.
    + intros t p. rewrite (Q t). split; [discriminate|intros []].
    + constructor.
    + constructor.
    + intros t H. congruence.
    + reflexivity.
    + intros t. now rewrite (A t).
    + apply same_refl.
  - destruct IH as (log & busy & I). eapply serial_step; eauto.
    intros c' R'. apply RF. eapply reaches_trans; eauto.
Qed.

(** ** Rules *)
Definition good (rules : loc -> rule) (c : config) : Prop :=
  (forall t p, now (thr c t) = Some p -> exists h, obeys rules t h p /\ (h = true -> gil c = Some t)) /\
  (forall t, Forall (obeys rules t true) (todo (thr c t))).

Lemma good_step rules t c c1 : good rules c -> step_of_thread t c c1 -> good rules c1.
Proof.
  intros [GN GT] ST.
  inversion ST as [? p r G N T|? l k N|? l v k N|? k N G|? k N G|? r N G]; subst; split;
    try (intros u; cbn; unfold at_; destruct (Nat.eq_dec u t) as [->|X];
         [rewrite put_same; cbn; first [exact (GT t)|pose proof (GT t) as F; rewrite T in F; now inversion F]
         |rewrite put_other by auto; exact (GT u)]; fail);
    intros u q; cbn; unfold at_; (destruct (Nat.eq_dec u t) as [->|X];
      [rewrite put_same; cbn; intros E; try discriminate; injection E as <-
      |rewrite put_other by auto; intros E; destruct (GN u q E) as [h [O H]]; exists h; split; [exact O|]; intros Y; specialize (H Y); try congruence]).
  - exists true. split; [|auto]. pose proof (GT t) as F. rewrite T in F. now inversion F.
  - destruct (GN t _ N) as [h [[_ O] H]]. exists h. split; [apply O|exact H].
  - destruct (GN t _ N) as [h [[_ O] H]]. exists h. split; [apply O|exact H].
  - destruct (GN t _ N) as [h [[_ O] H]]. exists false. split; [exact O|discriminate].
  - destruct (GN t _ N) as [h [[_ O] H]]. exists true. split; [exact O|auto].
Qed.

Lemma good_not_racing rules c : good rules c -> ~ racing c.
Proof.
  intros [GN _] (t & u & l & w & w' & TU & A & B & W).
  unfold next in *.
  destruct (now (thr c t)) as [[r|lt kt|lt vt kt|kt|kt]|] eqn:NT; try discriminate;
  destruct (now (thr c u)) as [[r'|lu ku|lu vu ku|ku|ku]|] eqn:NU; try discriminate;
  injection A as -> <-; injection B as -> <-;
  destruct (GN t _ NT) as [h [OT HT]]; destruct (GN u _ NU) as [h' [OU HU]]; cbn [obeys] in OT, OU;
  destruct OT as [OT _]; destruct OU as [OU _];
  unfold may_read, may_write in *; destruct (rules l) as [| |o]; subst; try contradiction;
  try (specialize (HT eq_refl); specialize (HU eq_refl); congruence); try congruence;
  destruct W; discriminate.
Qed.

Lemma good_race_free rules c : good rules c -> race_free c.
Proof.
  intros G c' R. apply (good_not_racing rules). induction R as [|c1 c2 t R IH ST]; [exact G|].
  eapply good_step; eauto.
Qed.
