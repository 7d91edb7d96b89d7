(** Proofs about the JIT function table. *)
From Coq Require Import ZArith List Bool Arith Lia.
From Verif Require Import Base UnsafeModel AsmModel AsmSpec.
Import ListNotations.
Local Open Scope Z_scope.

(** ** The table *)
Lemma tget_erase m a b : tget (terase m a) b = if a =? b then None else tget m b.
Proof.
  unfold terase. induction m as [|[k v] m IH]; cbn [filter tget fst]; [destruct (a =? b); reflexivity|].
  destruct (Z.eqb_spec k a) as [->|N]; cbn [negb]; [|cbn [tget]]; rewrite IH; destruct (Z.eqb_spec a b); subst; try reflexivity.
  - rewrite (proj2 (Z.eqb_neq k b)) by exact N. reflexivity.
Qed.
Lemma tget_put m a v b : tget (tput m a v) b = if a =? b then Some v else tget m b.
Proof. unfold tput. cbn [tget]. rewrite tget_erase. destruct (a =? b); reflexivity. Qed.
Lemma mem_release l a b : mem_z b (release_block l a) = mem_z b l && negb (b =? a).
Proof.
  unfold mem_z, release_block. induction l as [|x l IH]; [reflexivity|]. cbn [filter existsb].
  destruct (Z.eqb_spec x a) as [->|N]; cbn [negb existsb]; rewrite IH; [|destruct (Z.eqb_spec b x) as [->|]; cbn [orb andb]; [rewrite (proj2 (Z.eqb_neq x a)) by exact N; reflexivity|reflexivity]].
  destruct (b =? a); cbn [orb negb]; [rewrite !andb_false_r; reflexivity|reflexivity].
Qed.
Lemma fresh_some l o a : fresh_block l o = Some a -> mem_z a l = false.
Proof.
  unfold fresh_block. destruct o as [b|]; [|discriminate]. destruct (0 <? b); [|discriminate]. cbn [andb]. destruct (mem_z b l) eqn:E; [discriminate|]. cbn [negb]. intros [= <-]. exact E.
Qed.

(** ** The lock *)
Record lock_inv (s : astate) : Prop := {
  l_inside : forall t, inside (pc s t) = true -> lk s = Some t;
  l_held : forall t, lk s = Some t -> inside (pc s t) = true \/ exists c r, In (t, c, r) (tr s) /\ failed_free (t, c, r) = true
}.

Ltac threads := unfold setpc in *; repeat match goal with
  | |- context [Nat.eqb ?u ?t] => destruct (Nat.eqb_spec u t); subst
  | H : context [Nat.eqb ?u ?t] |- _ => destruct (Nat.eqb_spec u t); subst
  end.

Lemma start_lock : lock_inv start.
Proof. constructor; intros t H; discriminate. Qed.

Lemma step_lock win t x s s' : lock_inv s -> astep win t x s = AOk s' -> lock_inv s'.
Proof.
  intros [LI LH] E. unfold astep, lock_then, begin_make in E. pose proof (LI t) as LIt. pose proof (LH t) as LHt.
  destruct (pc s t) eqn:P; destruct x; try discriminate E;
    repeat match type of E with context [if ?b then _ else _] => destruct b | context [match ?b with _ => _ end] => destruct b eqn:? end; try discriminate E; injection E as <-;
    unfold goto, return_, with_lk, with_tbl, with_live; (constructor; cbn [lk pc tr tbl live]; intros u; threads; cbn [inside] in *; intros H; try discriminate H; try congruence; eauto).
  all: try (destruct (LH _ H) as [X|(c & r & I & F)]; [try (rewrite P in X; discriminate X); auto|right; exists c, r; split; [try right; exact I|exact F]]; fail).
  all: try (exfalso; specialize (LI u H); specialize (LIt eq_refl); congruence).
  all: try (right; eexists _, _; split; [left; reflexivity|reflexivity]).
all: try (exfalso; specialize (LI u H); discriminate).
Qed.

Lemma arun_app win a : forall b s, arun win (a ++ b) s = match arun win a s with AOk s' => arun win b s' | r => r end.
Proof. induction a as [|[t x] a IH]; intros b s; cbn [app arun]; [reflexivity|]. destruct (astep win t x s); [apply IH|reflexivity|reflexivity]. Qed.

Lemma arun_ind win (I : astate -> Prop) (ok : nat * act -> Prop) :
  (forall t x s s', I s -> ok (t, x) -> astep win t x s = AOk s' -> I s') ->
  forall es s s', Forall ok es -> I s -> arun win es s = AOk s' -> I s'.
Proof.
  intros H. induction es as [|[t x] r IH]; intros s s' F J E; cbn [arun] in E; [injection E as <-; exact J|].
  inversion F as [|? ? F1 F2]; subst. destruct (astep win t x s) as [s1| |f] eqn:E1; try discriminate. exact (IH s1 s' F2 (H t x s s1 J F1 E1) E).
Qed.

Lemma run_lock win es s : arun win es start = AOk s -> lock_inv s.
Proof.
  apply (arun_ind win lock_inv (fun _ => True)); [intros; eapply step_lock; eauto| |exact start_lock]. apply Forall_forall. auto.
Qed.

Lemma exclusive win es s : arun win es start = AOk s -> forall t u, inside (pc s t) = true -> inside (pc s u) = true -> t = u.
Proof. intros E t u A B. destruct (run_lock win es s E) as [LI _]. rewrite (LI t A) in LI. specialize (LI u B). congruence. Qed.

Lemma released win es s : arun win es start = AOk s -> no_failed_free s -> quiet s -> lk s = None.
Proof.
  intros E N Q. destruct (run_lock win es s E) as [_ LH]. destruct (lk s) as [t|] eqn:L; [|reflexivity]. exfalso.
  destruct (LH t eq_refl) as [I|(c & r & I & F)]; [rewrite (Q t) in I; discriminate|]. unfold no_failed_free in N. rewrite Forall_forall in N. rewrite (N _ I) in F. discriminate.
Qed.

(** ** After a failed freeFunction *)
(** The lock is held by a thread that is not inside. *)
Definition leaked (s : astate) (t : nat) : Prop := lk s = Some t /\ inside (pc s t) = false.

Record leak_inv (s : astate) : Prop := {
  k_lock : lock_inv s;
  k_leak : forall t c r, In (t, c, r) (tr s) -> failed_free (t, c, r) = true -> leaked s t
}.

Lemma leaked_step win t x s s' o : lock_inv s -> leaked s o -> astep win t x s = AOk s' -> leaked s' o.
Proof.
  intros [LI LH] (L & O) E. unfold astep, lock_then, begin_make in E. rewrite L in E. pose proof (LI t) as LIt.
  destruct (pc s t) eqn:P; destruct x; try discriminate E;
    try (exfalso; specialize (LIt eq_refl); assert (t = o) by congruence; subst; rewrite P in O; discriminate O);
    repeat match type of E with context [if ?b then _ else _] => destruct b | context [match ?b with _ => _ end] => destruct b eqn:? end; try discriminate E; injection E as <-;
    unfold goto, return_, with_lk, with_tbl, with_live, leaked; cbn [lk pc]; (split; [exact L|]); threads; try reflexivity; exact O.
Qed.

Lemma entry_dec (a b : nat * acall * aret) : {a = b} + {a <> b}.
Proof. repeat decide equality. Qed.

Lemma step_leak t x s s' : leak_inv s -> astep true t x s = AOk s' -> leak_inv s'.
Proof.
  intros [K KL] E. constructor; [eapply step_lock; eauto|]. intros o c r I F.
  destruct (in_dec entry_dec (o, c, r) (tr s)) as [J|J]; [eapply leaked_step; eauto|].
  (* the new entry *)
  destruct K as [LI LH]. pose proof (LI t) as LIt. unfold astep, lock_then, begin_make in E.
  destruct (pc s t) eqn:P; destruct x; try discriminate E; cbn [negb] in E;
    repeat match type of E with context [if ?b then _ else _] => destruct b | context [match ?b with _ => _ end] => destruct b eqn:? end; try discriminate E; injection E as <-;
    unfold goto, return_, with_lk, with_tbl, with_live in *; cbn [tr] in I; try contradiction;
    (destruct I as [I|I]; [injection I as <- <- <-; cbn [failed_free] in F; try discriminate F|contradiction]);
    (split; cbn [lk pc]; [apply LIt; reflexivity|threads; [reflexivity|congruence]]).
Qed.

Lemma run_leak es s : arun true es start = AOk s -> leak_inv s.
Proof.
  apply (arun_ind true leak_inv (fun _ => True)); [intros; eapply step_leak; eauto| |].
  - apply Forall_forall. auto.
  - constructor; [exact start_lock|]. intros t c r [].
Qed.


Lemma leaked_returns win t x s s' o : win = true -> lock_inv s -> leaked s o -> astep win t x s = AOk s' ->
  exists new, tr s' = new ++ tr s /\ Forall (fun e => unlocked_return e = true) new.
Proof.
  intros -> [LI LH] (L & O) E. pose proof (LI t) as LIt. unfold astep, lock_then, begin_make in E. rewrite L in E.
  destruct (pc s t) eqn:P; destruct x; try discriminate E; cbn [negb] in E;
    try (exfalso; specialize (LIt eq_refl); assert (t = o) by congruence; subst; rewrite P in O; discriminate O);
    repeat match type of E with context [if ?b then _ else _] => destruct b | context [match ?b with _ => _ end] => destruct b eqn:? end; try discriminate E; injection E as <-;
    unfold goto, return_, with_lk, with_tbl, with_live; cbn [tr];
    first [exists []; split; [reflexivity|constructor]|eexists [_]; split; [reflexivity|constructor; [reflexivity|constructor]]].
Qed.

Lemma leaked_run es : forall s s' o, lock_inv s -> leaked s o -> arun true es s = AOk s' ->
  leaked s' o /\ exists new, tr s' = new ++ tr s /\ Forall (fun e => unlocked_return e = true) new.
Proof.
  induction es as [|[t x] r IH]; intros s s' o K L E; cbn [arun] in E.
  { injection E as <-. split; [exact L|]. exists []. split; [reflexivity|constructor]. }
  destruct (astep true t x s) as [s1| |f] eqn:E1; try discriminate.
  destruct (IH s1 s' o (step_lock _ _ _ _ _ K E1) (leaked_step _ _ _ _ _ _ K L E1) E) as (L' & new & T & F).
  destruct (leaked_returns true t x s s1 o eq_refl K L E1) as (new1 & T1 & F1).
  split; [exact L'|]. exists (new ++ new1). split; [rewrite T, T1; apply app_assoc|apply Forall_app; auto].
Qed.

Lemma stuck_step s o t ok : leaked s o -> waiting (pc s t) = true -> astep true t (Go ok) s = if Nat.eqb o t then AFault FRelock else ABlocked.
Proof.
  intros (L & O) W. unfold astep, lock_then. rewrite L. destruct (pc s t); try discriminate W; reflexivity.
Qed.

Lemma stuck_for_ever es s t c r : arun true es start = AOk s -> In (t, c, r) (tr s) -> failed_free (t, c, r) = true ->
  forall es' s', arun true es' s = AOk s' ->
    lk s' = Some t /\
    (exists new, tr s' = new ++ tr s /\ Forall (fun e => unlocked_return e = true) new) /\
    forall u ok, waiting (pc s' u) = true -> astep true u (Go ok) s' = if Nat.eqb t u then AFault FRelock else ABlocked.
Proof.
  intros E I F es' s' E'. destruct (run_leak es s E) as [K KL]. destruct (leaked_run es' s s' t K (KL t c r I F) E') as (L & T).
  split; [apply L|]. split; [exact T|]. intros u ok W. apply stuck_step; assumption.
Qed.

(** ** The table, when only the locking calls are used *)
Definition pend (p : apc) : option Z := match p with PMakeLock a _ | PMakeInsert a _ => Some a | _ => None end.
Definition freeing (p : apc) : option Z := match p with PFreeProtect a | PFreeRelease a | PFreeErase a => Some a | _ => None end.
Definition fast (p : apc) : bool :=
  match p with PFastInsert _ _ | PFastLookup _ | PFastProtect _ | PFastRelease _ | PFastErase _ => true | _ => false end.
Definition adj (s : astate) (a : Z) : Z :=
  match lk s with
  | Some t => match pc s t with PMakeUnlock b => if b =? a then 1 else 0 | PFreeUnlock b => if b =? a then -1 else 0 | _ => 0 end
  | None => 0
  end.
Definition present (m : table) (a : Z) : Z := match tget m a with Some _ => 1 | None => 0 end.

Record tbl_inv (s : astate) : Prop := {
  i_lock : lock_inv s;
  i_tbl : forall a, tget (tbl s) a <> None -> mem_z a (live s) = true \/ exists t, pc s t = PFreeErase a;
  i_pend : forall t a, pend (pc s t) = Some a -> mem_z a (live s) = true /\ (tget (tbl s) a = None \/ exists u, pc s u = PFreeErase a);
  i_uniq : forall t u a, pend (pc s t) = Some a -> pend (pc s u) = Some a -> t = u;
  i_free : forall t a, freeing (pc s t) = Some a -> tget (tbl s) a <> None;
  i_fast : forall t, fast (pc s t) = false;
  i_count : forall a, present (tbl s) a = made s a - freed s a + adj s a
}.

Lemma inside_one s t u : lock_inv s -> inside (pc s t) = true -> inside (pc s u) = true -> t = u.
Proof. intros [LI _] A B. rewrite (LI t A) in LI. specialize (LI u B). congruence. Qed.

(** Steps that touch neither the table nor the blocks. *)
Lemma tbl_quiet s s' t p : tbl_inv s -> lock_inv s' -> tbl s' = tbl s -> live s' = live s -> pc s' = setpc (pc s) t p ->
  (forall a, pc s t <> PFreeErase a) ->
  (forall a, pend p = Some a -> pend (pc s t) = Some a) -> (forall a, freeing p = Some a -> tget (tbl s) a <> None) ->
  fast p = false -> (forall a, made s' a - freed s' a + adj s' a = made s a - freed s a + adj s a) -> tbl_inv s'.
Proof.
  intros [K T P U F N C] K' Et El Ep NE Hp Hf Hn Ha. constructor; rewrite ?Et, ?El, ?Ep; [exact K'|..].
  - intros a X. destruct (T a X) as [M|(u & M)]; [left; exact M|]. right. exists u. unfold setpc. destruct (Nat.eqb_spec u t); [subst; exfalso; eapply NE; exact M|exact M].
  - intros u a X.
    assert (Q : pend (pc s u) = Some a) by (unfold setpc in X; destruct (Nat.eqb_spec u t); [subst; auto|exact X]).
    destruct (P u a Q) as (A & B). split; [exact A|]. destruct B as [B|(w & B)]; [left; exact B|right; exists w]. unfold setpc. destruct (Nat.eqb_spec w t); [subst; exfalso; eapply NE; exact B|exact B].
  - intros u w a X Y. apply (U u w a); unfold setpc in *; destruct (Nat.eqb_spec u t), (Nat.eqb_spec w t); subst; auto.
  - intros u a X. unfold setpc in X. destruct (Nat.eqb_spec u t); [auto|eauto].
  - intros u. unfold setpc. destruct (Nat.eqb_spec u t); auto.
  - intros a. rewrite Ha. exact (C a).
Qed.

Lemma adj_other s s' t p a : lock_inv s -> lk s' = lk s -> pc s' = setpc (pc s) t p ->
  (forall b, p <> PMakeUnlock b /\ p <> PFreeUnlock b /\ pc s t <> PMakeUnlock b /\ pc s t <> PFreeUnlock b) -> adj s' a = adj s a.
Proof.
  intros K El Ep H. unfold adj. rewrite El, Ep. destruct (lk s) as [o|]; [|reflexivity]. unfold setpc. destruct (Nat.eqb_spec o t); [subst|reflexivity].
  destruct p; try reflexivity; destruct (pc s t) eqn:Q; try reflexivity; exfalso; destruct (H a0) as (X1 & X2 & X3 & X4); try congruence; destruct (H a1) as (Y1 & Y2 & Y3 & Y4); congruence.
Qed.
Lemma adj_free s a : lk s = None -> adj s a = 0.
Proof. intros E. unfold adj. rewrite E. reflexivity. Qed.
Lemma adj_at s t a : lk s = Some t -> adj s a = match pc s t with PMakeUnlock b => if b =? a then 1 else 0 | PFreeUnlock b => if b =? a then -1 else 0 | _ => 0 end.
Proof. intros E. unfold adj. rewrite E. reflexivity. Qed.

Lemma setpc_same f t p : setpc f t p t = p.
Proof. unfold setpc. rewrite Nat.eqb_refl. reflexivity. Qed.
Lemma setpc_other f t p u : u <> t -> setpc f t p u = f u.
Proof. intros N. unfold setpc. rewrite (proj2 (Nat.eqb_neq u t)) by exact N. reflexivity. Qed.

Lemma made_ret s t c r a : made (return_ s t c r) a = made s a + match c, r with CMake, RPtr b => if b =? a then 1 else 0 | _, _ => 0 end.
Proof.
  unfold made, return_, zlen. cbn [tr filter]. destruct c; try lia; destruct r; try lia. destruct (Z.eqb a0 a); cbn [length]; lia.
Qed.
Lemma freed_ret s t c r a : freed (return_ s t c r) a = freed s a + match c, r with CFree b, RDone => if b =? a then 1 else 0 | _, _ => 0 end.
Proof.
  unfold freed, return_, zlen. cbn [tr filter]. destruct c; try lia; destruct r; try lia. destruct (Z.eqb a0 a); cbn [length]; lia.
Qed.

Lemma present_erase m a b : present (terase m a) b = if a =? b then 0 else present m b.
Proof. unfold present. rewrite tget_erase. destruct (a =? b); reflexivity. Qed.
Lemma present_put m a v b : present (tput m a v) b = if a =? b then 1 else present m b.
Proof. unfold present. rewrite tget_put. destruct (a =? b); reflexivity. Qed.

(** A call of makeFunction that got its block. *)
Lemma tbl_alloc s t a v : tbl_inv s -> pc s t = PIdle -> mem_z a (live s) = false -> tbl_inv (goto (with_live s (a :: live s)) t (PMakeLock a v)).
Proof.
  intros [K T P U F N C] I M.
  assert (K' : lock_inv (goto (with_live s (a :: live s)) t (PMakeLock a v))).
  { destruct K as [LI LH]. constructor; unfold goto, with_live; cbn [lk pc tr]; intros u H.
    - unfold setpc in H. destruct (Nat.eqb_spec u t); [discriminate|auto].
    - destruct (LH u H) as [X|X]; [|auto]. left. unfold setpc. destruct (Nat.eqb_spec u t); [subst; rewrite I in X; discriminate|exact X]. }
  constructor; [exact K'|..]; unfold goto, with_live; cbn [lk pc tr live tbl].
  - intros b X. destruct (T b X) as [A|(u & A)]; [left; unfold mem_z in *; cbn [existsb]; rewrite A; apply orb_true_r|].
    right. exists u. rewrite setpc_other; [exact A|]. intros ->. congruence.
  - intros u b X. assert (Q : (u = t /\ b = a) \/ (u <> t /\ pend (pc s u) = Some b)).
    { unfold setpc in X. destruct (Nat.eqb_spec u t); [left; cbn [pend] in X; split; congruence|right; auto]. }
    destruct Q as [(-> & ->)|(Q1 & Q2)].
    + split; [unfold mem_z; cbn [existsb]; rewrite Z.eqb_refl; reflexivity|]. destruct (tget (tbl s) a) eqn:G; [|left; reflexivity]. right.
      destruct (T a ltac:(congruence)) as [A|(w & A)]; [congruence|]. exists w. rewrite setpc_other; [exact A|]. intros ->. congruence.
    + destruct (P u b Q2) as (A & B). split; [unfold mem_z in *; cbn [existsb]; rewrite A; apply orb_true_r|].
      destruct B as [B|(w & B)]; [left; exact B|right; exists w]. rewrite setpc_other; [exact B|]. intros ->. congruence.
  -
    intros u w b X Y. unfold setpc in X, Y. destruct (Nat.eqb_spec u t), (Nat.eqb_spec w t); subst; auto.
    + cbn [pend] in X. injection X as ->. destruct (P w b Y) as (A & _). congruence.
    + cbn [pend] in Y. injection Y as ->. destruct (P u b X) as (A & _). congruence.
    + eauto.
  - intros u b X. unfold setpc in X. destruct (Nat.eqb_spec u t); [discriminate|eauto].
  - intros u. unfold setpc. destruct (Nat.eqb_spec u t); auto.
  - intros b. rewrite (C b). apply (f_equal2 Z.add eq_refl). symmetry. apply (adj_other s _ t (PMakeLock a v) b K); [reflexivity|reflexivity|]. intros c. rewrite I. repeat split; discriminate.
Qed.

Lemma step_tbl t x s s' : tbl_inv s -> locking x = true -> astep true t x s = AOk s' -> tbl_inv s'.
Proof.
  intros V Lx E. pose proof (step_lock _ _ _ _ _ (i_lock s V) E) as K'. pose proof V as [K T P U F N C].
  pose proof (N t) as Nt. unfold astep, lock_then, begin_make in E.
  destruct (pc s t) as [|a v|a v|a|a|a|a|a|a|a|a v|a|a|a|a] eqn:Q; destruct x as [code al pr|code al pr|ad|ad|ok]; try discriminate E; try discriminate Lx; try discriminate Nt; cbn [negb] in E.
  - (* makeFunction begins *)
    destruct code as [b|]; [destruct (zlen b =? 0); [|destruct (fresh_block (live s) al) as [a|] eqn:Fr; [destruct pr as [p|]|]]|]; injection E as <-;
      try (apply (tbl_quiet s _ t PIdle V K'); try reflexivity; try (intros; congruence); try discriminate;
           intros a'; rewrite made_ret, freed_ret; rewrite (adj_other s _ t PIdle a' K) by (try reflexivity; intros; rewrite Q; repeat split; discriminate); lia).
    apply tbl_alloc; [exact V|exact Q|exact (fresh_some _ _ _ Fr)].
  - (* freeFunction begins *)
    injection E as <-. apply (tbl_quiet s _ t _ V K' eq_refl eq_refl eq_refl); try discriminate; try (intros; congruence); try reflexivity.
    intros a. apply (f_equal2 Z.add eq_refl). eapply (adj_other s _ t); [exact K|reflexivity|reflexivity|]. intros b. rewrite Q. repeat split; discriminate.
  - (* PMakeLock *)
    destruct (lk s) as [o|] eqn:L; [destruct (Nat.eqb o t); discriminate|]. injection E as <-.
    apply (tbl_quiet s _ t _ V K' eq_refl eq_refl eq_refl); try discriminate; try (intros; congruence); try reflexivity.
    + intros b X. rewrite Q. exact X.
    + intros b. rewrite (adj_free s b L). rewrite (adj_at (goto _ _ _) t b) by reflexivity. cbn [pc goto with_lk]. rewrite setpc_same. reflexivity.
  - (* PMakeInsert *)
    destruct (tget (tbl s) a) as [w|] eqn:G; [discriminate|]. injection E as <-.
    assert (L : lk s = Some t) by (apply (l_inside s K); rewrite Q; reflexivity).
    constructor; [exact K'|..]; unfold goto, with_tbl; cbn [lk pc tr live tbl].
    + intros b. rewrite tget_put. destruct (Z.eqb_spec a b) as [->|Nb]; intros X.
      * left. apply (P t b). rewrite Q. reflexivity.
      * destruct (T b X) as [A|(u & A)]; [left; exact A|right; exists u]. rewrite setpc_other; [exact A|]. intros ->. congruence.
    + intros u b X. assert (u <> t) by (intros ->; rewrite setpc_same in X; discriminate). rewrite setpc_other in X by assumption.
      destruct (P u b X) as (A & B). split; [exact A|]. rewrite tget_put. destruct (Z.eqb_spec a b) as [->|Nb].
      * exfalso. apply H. apply (U u t b); [exact X|rewrite Q; reflexivity].
      * destruct B as [B|(w & B)]; [left; exact B|right; exists w]. rewrite setpc_other; [exact B|]. intros ->. congruence.
    + intros u w b X Y. apply (U u w b); [assert (u <> t) by (intros ->; rewrite setpc_same in X; discriminate)|assert (w <> t) by (intros ->; rewrite setpc_same in Y; discriminate)];
        rewrite setpc_other in * by assumption; assumption.
    + intros u b X. assert (u <> t) by (intros ->; rewrite setpc_same in X; discriminate). rewrite setpc_other in X by assumption.
      rewrite tget_put. destruct (Z.eqb a b); [discriminate|eauto].
    + intros u. unfold setpc. destruct (Nat.eqb_spec u t); auto.
    + intros b. rewrite present_put. pose proof (C b) as Cb. rewrite (adj_at s t b L), Q in Cb. change (made (goto _ _ _) b) with (made s b). change (freed (goto _ _ _) b) with (freed s b).
      change (made _ b) with (made s b). change (freed _ b) with (freed s b).
      rewrite (adj_at _ t b) by exact L. cbn [pc]. rewrite setpc_same. destruct (Z.eqb_spec a b) as [->|]; [unfold present in Cb; rewrite G in Cb; lia|lia].
  - (* PMakeUnlock *)
    injection E as <-. assert (L : lk s = Some t) by (apply (l_inside s K); rewrite Q; reflexivity).
    apply (tbl_quiet s _ t _ V K' eq_refl eq_refl eq_refl); try discriminate; try (intros; congruence); try reflexivity.
    intros b. rewrite made_ret, freed_ret. rewrite (adj_free (return_ _ _ _ _) b) by reflexivity. rewrite (adj_at s t b L), Q.
    change (made (with_lk s None) b) with (made s b). change (freed (with_lk s None) b) with (freed s b). lia.
  - (* PFreeLock *)
    destruct (lk s) as [o|] eqn:L; [destruct (Nat.eqb o t); discriminate|]. injection E as <-.
    apply (tbl_quiet s _ t _ V K' eq_refl eq_refl eq_refl); try discriminate; try (intros; congruence); try reflexivity.
    intros b. rewrite (adj_free s b L). rewrite (adj_at (goto _ _ _) t b) by reflexivity. cbn [pc goto with_lk]. rewrite setpc_same. reflexivity.
  - (* PFreeLookup *)
    assert (L : lk s = Some t) by (apply (l_inside s K); rewrite Q; reflexivity).
    destruct (tget (tbl s) a) as [w|] eqn:G; injection E as <-.
    + apply (tbl_quiet s _ t _ V K' eq_refl eq_refl eq_refl); try discriminate; try (intros; congruence); try reflexivity.
      * intros b X. cbn [freeing] in X. congruence.
      * intros b. apply (f_equal2 Z.add eq_refl). eapply (adj_other s _ t); [exact K|reflexivity|reflexivity|]. intros c. rewrite Q. repeat split; discriminate.
    + apply (tbl_quiet s _ t _ V K' eq_refl eq_refl eq_refl); try discriminate; try (intros; congruence); try reflexivity.
      intros b. rewrite made_ret, freed_ret. rewrite (adj_other s _ t PIdle b K) by (try reflexivity; intros; rewrite Q; repeat split; discriminate). lia.
  - (* PFreeProtect *)
    destruct ok; injection E as <-.
    + apply (tbl_quiet s _ t _ V K' eq_refl eq_refl eq_refl); try discriminate; try (intros; congruence); try reflexivity.
      * intros b X. apply (F t b). rewrite Q. exact X.
      * intros b. apply (f_equal2 Z.add eq_refl). eapply (adj_other s _ t); [exact K|reflexivity|reflexivity|]. intros c. rewrite Q. repeat split; discriminate.
    + apply (tbl_quiet s _ t _ V K' eq_refl eq_refl eq_refl); try discriminate; try (intros; congruence); try reflexivity.
      intros b. rewrite made_ret, freed_ret. rewrite (adj_other s _ t PIdle b K) by (try reflexivity; intros; rewrite Q; repeat split; discriminate). lia.
  - (* PFreeRelease *)
    destruct (mem_z a (live s)) eqn:M; [|discriminate]. injection E as <-.
    assert (Ga : tget (tbl s) a <> None) by (apply (F t a); rewrite Q; reflexivity).
    assert (NoE : forall u b, pc s u = PFreeErase b -> False).
    { intros u b X. assert (u = t) by (apply (inside_one s); [exact K|rewrite X; reflexivity|rewrite Q; reflexivity]). congruence. }
    constructor; [exact K'|..]; unfold goto, with_live; cbn [lk pc tr live tbl].
    + intros b X. rewrite mem_release. destruct (Z.eqb_spec b a) as [->|Nb].
      * right. exists t. apply setpc_same.
      * destruct (T b X) as [A|(u & A)]; [left; rewrite A; reflexivity|exfalso; eauto].
    + intros u b X. assert (u <> t) by (intros ->; rewrite setpc_same in X; discriminate). rewrite setpc_other in X by assumption.
      destruct (P u b X) as (A & B). assert (Gb : tget (tbl s) b = None) by (destruct B as [B|(w & B)]; [exact B|exfalso; eauto]).
      assert (b <> a) by congruence. rewrite mem_release, A, (proj2 (Z.eqb_neq b a)) by assumption. auto.
    + intros u w b X Y. apply (U u w b); [assert (u <> t) by (intros ->; rewrite setpc_same in X; discriminate)|assert (w <> t) by (intros ->; rewrite setpc_same in Y; discriminate)];
        rewrite setpc_other in * by assumption; assumption.
    + intros u b X. unfold setpc in X. destruct (Nat.eqb_spec u t); [cbn [freeing] in X; congruence|eauto].
    + intros u. unfold setpc. destruct (Nat.eqb_spec u t); auto.
    + intros b. rewrite (C b). apply (f_equal2 Z.add eq_refl). symmetry. eapply (adj_other s _ t); [exact K|reflexivity|reflexivity|]. intros c. rewrite Q. repeat split; discriminate.
  - (* PFreeErase *)
    injection E as <-. assert (L : lk s = Some t) by (apply (l_inside s K); rewrite Q; reflexivity).
    assert (Ga : tget (tbl s) a <> None) by (apply (F t a); rewrite Q; reflexivity).
    assert (OnlyE : forall u b, pc s u = PFreeErase b -> u = t /\ b = a).
    { intros u b X. assert (u = t) by (apply (inside_one s); [exact K|rewrite X; reflexivity|rewrite Q; reflexivity]). subst. split; congruence. }
    constructor; [exact K'|..]; unfold goto, with_tbl; cbn [lk pc tr live tbl].
    + intros b. rewrite tget_erase. destruct (Z.eqb_spec a b) as [->|Nb]; intros X; [congruence|].
      destruct (T b X) as [A|(u & A)]; [left; exact A|exfalso; destruct (OnlyE u b A); congruence].
    + intros u b X. assert (u <> t) by (intros ->; rewrite setpc_same in X; discriminate). rewrite setpc_other in X by assumption.
      destruct (P u b X) as (A & B). split; [exact A|]. left. rewrite tget_erase. destruct (Z.eqb_spec a b) as [->|Nb]; [reflexivity|].
      destruct B as [B|(w & B)]; [exact B|destruct (OnlyE w b B); congruence].
    + intros u w b X Y. apply (U u w b); [assert (u <> t) by (intros ->; rewrite setpc_same in X; discriminate)|assert (w <> t) by (intros ->; rewrite setpc_same in Y; discriminate)];
        rewrite setpc_other in * by assumption; assumption.
    + intros u b X. assert (u <> t) by (intros ->; rewrite setpc_same in X; discriminate). rewrite setpc_other in X by assumption.
      exfalso. apply H. apply (inside_one s); [exact K|destruct (pc s u); try discriminate X; reflexivity|rewrite Q; reflexivity].
    + intros u. unfold setpc. destruct (Nat.eqb_spec u t); auto.
    + intros b. rewrite present_erase. pose proof (C b) as Cb. rewrite (adj_at s t b L), Q in Cb.
      change (made _ b) with (made s b). change (freed _ b) with (freed s b).
      rewrite (adj_at _ t b) by exact L. cbn [pc]. rewrite setpc_same. destruct (Z.eqb_spec a b) as [->|]; [unfold present in Cb; destruct (tget (tbl s) b); [lia|congruence]|lia].
  - (* PFreeUnlock *)
    injection E as <-. assert (L : lk s = Some t) by (apply (l_inside s K); rewrite Q; reflexivity).
    apply (tbl_quiet s _ t _ V K' eq_refl eq_refl eq_refl); try discriminate; try (intros; congruence); try reflexivity.
    intros b. rewrite made_ret, freed_ret. rewrite (adj_free (return_ _ _ _ _) b) by reflexivity. rewrite (adj_at s t b L), Q.
    change (made (with_lk s None) b) with (made s b). change (freed (with_lk s None) b) with (freed s b). destruct (Z.eqb a b); lia.
Qed.

Lemma start_tbl : tbl_inv start.
Proof.
  constructor; [exact start_lock|..]; cbn; try discriminate; try congruence; auto.
Qed.

Lemma run_tbl es s : only_locking es -> arun true es start = AOk s -> tbl_inv s.
Proof.
  intros H. apply (arun_ind true tbl_inv (fun e => locking (snd e) = true)); [|exact H|exact start_tbl]. intros t x s1 s2 V L E. exact (step_tbl t x s1 s2 V L E).
Qed.

Lemma no_race es s : only_locking es -> arun true es start = AOk s -> forall t u, at_table (pc s t) = true -> at_table (pc s u) = true -> t = u.
Proof.
  intros H E t u A B. pose proof (run_tbl es s H E) as V. apply (inside_one s); [apply (i_lock s V)| |].
  - pose proof (i_fast s V t). destruct (pc s t); try discriminate; reflexivity.
  - pose proof (i_fast s V u). destruct (pc s u); try discriminate; reflexivity.
Qed.

Lemma no_fault es s t x f : only_locking es -> arun true es start = AOk s -> locking x = true -> astep true t x s = AFault f ->
  f = FRelock /\ exists c r, In (t, c, r) (tr s) /\ failed_free (t, c, r) = true.
Proof.
  intros H E Lx A. pose proof (run_tbl es s H E) as V. pose proof (i_fast s V t) as Nt. pose proof V as [K T P U F N C].
  unfold astep, lock_then, begin_make in A.
  destruct (pc s t) as [|a v|a v|a|a|a|a|a|a|a|a v|a|a|a|a] eqn:Q; destruct x as [code al pr|code al pr|ad|ad|ok]; try discriminate A; try discriminate Lx; try discriminate Nt; cbn [negb] in A.
  - exfalso. repeat match type of A with context [if ?b then _ else _] => destruct b | context [match ?b with _ => _ end] => destruct b end; discriminate A.
  - destruct (lk s) as [o|] eqn:L; [|discriminate]. destruct (Nat.eqb_spec o t) as [->|]; [|discriminate]. injection A as <-. split; [reflexivity|].
    destruct (l_held s K t L) as [X|X]; [rewrite Q in X; discriminate|exact X].
  - exfalso. destruct (tget (tbl s) a) eqn:G; [|discriminate]. destruct (P t a ltac:(rewrite Q; reflexivity)) as (_ & [B|(u & B)]); [congruence|].
    assert (u = t) by (apply (inside_one s); [exact K|rewrite B; reflexivity|rewrite Q; reflexivity]). congruence.
  - destruct (lk s) as [o|] eqn:L; [|discriminate]. destruct (Nat.eqb_spec o t) as [->|]; [|discriminate]. injection A as <-. split; [reflexivity|].
    destruct (l_held s K t L) as [X|X]; [rewrite Q in X; discriminate|exact X].
  - exfalso. destruct (tget (tbl s) a); discriminate.
  - exfalso. destruct ok; discriminate.
  - exfalso. destruct (mem_z a (live s)) eqn:M; [discriminate|]. destruct (T a (F t a ltac:(rewrite Q; reflexivity))) as [X|(u & X)]; [congruence|].
    assert (u = t) by (apply (inside_one s); [exact K|rewrite X; reflexivity|rewrite Q; reflexivity]). congruence.
Qed.

Lemma table_is es s : only_locking es -> arun true es start = AOk s -> quiet s ->
  forall a, (tget (tbl s) a <> None <-> made s a = freed s a + 1) /\ (tget (tbl s) a = None <-> made s a = freed s a).
Proof.
  intros H E Qt a. pose proof (run_tbl es s H E) as V. pose proof (i_count s V a) as C.
  assert (adj s a = 0) as Z0.
  { unfold adj. destruct (lk s) as [t|]; [|reflexivity]. pose proof (Qt t) as X. destruct (pc s t); try reflexivity; discriminate. }
  rewrite Z0 in C. unfold present in C. destruct (tget (tbl s) a); (split; split; intros X; try congruence; try lia).
Qed.

(** Nobody inside is ever stopped, and the lock is there for whoever waits. *)
Lemma progress es s : only_locking es -> arun true es start = AOk s -> no_failed_free s ->
  (forall t, inside (pc s t) = true -> forall ok, exists s', astep true t (Go ok) s = AOk s') /\
  (quiet s -> forall t, waiting (pc s t) = true -> forall ok, exists s', astep true t (Go ok) s = AOk s').
Proof.
  intros H E NF. split.
  - intros t I ok. destruct (astep true t (Go ok) s) as [s'| |f] eqn:A; [eauto| |].
    + exfalso. unfold astep in A. destruct (pc s t); try discriminate I; try discriminate A; repeat match type of A with context [if ?b then _ else _] => destruct b | context [match ?b with _ => _ end] => destruct b end; discriminate A.
    + exfalso. destruct (no_fault es s t (Go ok) f H E eq_refl A) as (_ & c & r & J & Ff). unfold no_failed_free in NF. rewrite Forall_forall in NF. rewrite (NF _ J) in Ff. discriminate.
  - intros Qt t W ok. pose proof (released true es s E NF Qt) as L. unfold astep, lock_then. rewrite L. destruct (pc s t); try discriminate W; eauto.
Qed.

(** ** Elsewhere than on Windows *)
Lemma not_windows es s : arun false es start = AOk s -> tbl s = [] /\ live s = [] /\ lk s = None /\ Forall (fun e => snd e = RErr ENotImplemented) (tr s).
Proof.
  assert (H : forall es s s', (forall t, pc s t = PIdle) -> tbl s = [] -> live s = [] -> lk s = None -> Forall (fun e => snd e = RErr ENotImplemented) (tr s) ->
    arun false es s = AOk s' -> tbl s' = [] /\ live s' = [] /\ lk s' = None /\ Forall (fun e => snd e = RErr ENotImplemented) (tr s')).
  { clear. induction es as [|(t, x) r IH]; intros s s' P T L K F E; cbn [arun] in E; [injection E as <-; auto|].
    unfold astep in E. rewrite P in E. destruct x; cbn [negb] in E; try discriminate E;
      (eapply IH; [| | | | |exact E]; cbn [pc tbl live lk tr return_]; try assumption; [intros u; unfold setpc; destruct (Nat.eqb u t); auto|constructor; [reflexivity|assumption]]). }
  intros E. eapply H; [| | | | |exact E]; try reflexivity. constructor.
Qed.

(** Running a concrete schedule. *)
Lemma arun_gives win es s0 (P : astate -> Prop) : match arun win es s0 with AOk s => P s | _ => False end -> exists s, arun win es s0 = AOk s /\ P s.
Proof. destruct (arun win es s0) as [s| |]; intros H; [exists s; auto|destruct H|destruct H]. Qed.

(** ** One freeFunction from beginning to end *)
Lemma points_target addr p : points addr p -> target_of addr = p.
Proof.
  unfold points, target_of, as_ptr. destruct addr as [z|]; [|auto].
  destruct (Z.leb_spec (-2 ^ 63) z); destruct (Z.ltb_spec z (2 ^ 64)); cbn [andb]; intros [(A & B)|(A & B)]; subst; auto; exfalso; try (apply A; split; assumption); destruct A; lia.
Qed.
Lemma setpc_here f t p : setpc f t p t = p.
Proof. unfold setpc. rewrite Nat.eqb_refl. reflexivity. Qed.
Ltac go := cbn [arun]; unfold astep at 1; cbn [pc lk tbl live tr goto return_ with_lk with_tbl with_live negb]; rewrite ?setpc_here; unfold lock_then; cbn [pc lk tbl live tr goto return_ with_lk with_tbl with_live negb].
Lemma free_unknown s t addr p : pc s t = PIdle -> lk s = None -> points addr p -> tget (tbl s) p = None ->
  exists s', arun true [(t, CallFree addr); (t, Go true); (t, Go true)] s = AOk s' /\
    tr s' = (t, CFree p, RErr EValueError) :: tr s /\ tbl s' = tbl s /\ live s' = live s /\ lk s' = Some t.
Proof.
  intros P L A G. cbn [arun]. unfold astep at 1. rewrite P. cbn [negb]. rewrite (points_target _ _ A).
  go. rewrite L. go. rewrite G. cbn. eexists. split; [reflexivity|]. auto.
Qed.
Lemma free_known s t addr p v : pc s t = PIdle -> lk s = None -> points addr p -> tget (tbl s) p = Some v -> In p (live s) ->
  exists s', arun true ((t, CallFree addr) :: repeat (t, Go true) 6) s = AOk s' /\
    tr s' = (t, CFree p, RDone) :: tr s /\ (forall q, tget (tbl s') q = if p =? q then None else tget (tbl s) q) /\
    (forall q, In q (live s') <-> In q (live s) /\ q <> p) /\ lk s' = None.
Proof.
  intros P L A G I. cbn [arun repeat]. unfold astep at 1. rewrite P. cbn [negb]. rewrite (points_target _ _ A).
  go. rewrite L. go. rewrite G. go. go.
  assert (M : mem_z p (live s) = true) by (unfold mem_z; apply existsb_exists; exists p; split; [auto | apply Z.eqb_refl]). rewrite M.
  go. go. eexists. split; [reflexivity|]. cbn [tr tbl live lk goto return_ with_lk with_tbl with_live]. split; [auto|]. split; [intros q; apply tget_erase|]. split; [|auto].
  intros q. unfold release_block. rewrite filter_In. destruct (Z.eqb_spec q p); cbn [negb]; intuition congruence.
Qed.
(** Addresses handed out are not null, so the table never has a null entry. *)
Definition addr_of (p : apc) : option Z := match p with PMakeLock a _ | PMakeInsert a _ => Some a | _ => None end.
Definition no_null (s : astate) : Prop := tget (tbl s) 0 = None /\ forall t a, addr_of (pc s t) = Some a -> 0 < a.
Lemma fresh_pos l o a : fresh_block l o = Some a -> 0 < a.
Proof. unfold fresh_block. destruct o as [b|]; [|discriminate]. destruct (Z.ltb_spec 0 b); cbn [andb]; [|discriminate]. destruct (negb _); [|discriminate]. intros [= <-]. auto. Qed.
Lemma null_step t x s s' : no_null s -> locking x = true /\ (forall a, pc s t <> PFastLookup a) /\ (forall a v, pc s t <> PFastInsert a v) -> astep true t x s = AOk s' -> no_null s'.
Proof.
  intros (N & A) (K & F1 & F2) E. pose proof (A t) as At. unfold astep, lock_then, begin_make in E.
  destruct (pc s t) eqn:P; destruct x; try discriminate E; try discriminate K;
    repeat match type of E with context [if ?b then _ else _] => destruct b | context [match ?b with _ => _ end] => destruct b eqn:? end; try discriminate E; injection E as <-;
    unfold goto, return_, with_lk, with_tbl, with_live; (split; cbn [lk pc tr tbl live]; [|intros u b; threads; cbn [addr_of] in *; intros H; try discriminate H; eauto]).
  all: try (exact N); try (exfalso; eapply F1; reflexivity); try (exfalso; eapply F2; reflexivity).
  all: try (rewrite ?tget_put, ?tget_erase, N; try (destruct (_ =? 0); reflexivity)).
  all: try (injection H as <-; eapply fresh_pos; eauto).
  all: try (specialize (At _ eq_refl); destruct (Z.eqb_spec a 0); [lia | auto]).
Qed.

(** Without the Fast calls no thread is ever in one. *)
Definition slow (p : apc) : bool := match p with PFastInsert _ _ | PFastLookup _ | PFastProtect _ | PFastRelease _ | PFastErase _ => false | _ => true end.
Lemma slow_step t x s s' : (forall u, slow (pc s u) = true) -> locking x = true -> astep true t x s = AOk s' -> forall u, slow (pc s' u) = true.
Proof.
  intros A K E. pose proof (A t) as At. unfold astep, lock_then, begin_make in E.
  destruct (pc s t) eqn:P; destruct x; try discriminate E; try discriminate K; try discriminate At;
    repeat match type of E with context [if ?b then _ else _] => destruct b | context [match ?b with _ => _ end] => destruct b eqn:? end; try discriminate E; injection E as <-;
    unfold goto, return_, with_lk, with_tbl, with_live; cbn [pc]; intros u; threads; auto.
Qed.
Lemma no_null_run es s : only_locking es -> arun true es start = AOk s -> tget (tbl s) 0 = None.
Proof.
  intros O E. enough (X : no_null s /\ forall u, slow (pc s u) = true) by apply X.
  revert E. apply (arun_ind true (fun s => no_null s /\ forall u, slow (pc s u) = true) (fun e => locking (snd e) = true)).
  - intros t x u u' (N & A) K E. cbn [snd] in K. split; [|eapply slow_step; eauto]. eapply null_step; eauto. split; auto. specialize (A t).
    split; intros; intros P; rewrite P in A; discriminate.
  - exact O.
  - split; [split; [reflexivity | intros t a H; discriminate] | reflexivity].
Qed.
