From Coq Require Import ZArith List Bool Lia.
From Verif Require Import Base ObjModel ObjSpec NativeModel NativeSpec.
Import ListNotations.
Local Open Scope Z_scope.

Lemma occ_nonneg : forall l o, 0 <= occ l o.
Proof. induction l; intros o; cbn [occ]; [lia|]; specialize (IHl o); destruct (a =? o); lia. Qed.
Lemma occ_app' : forall a b o, occ (a ++ b) o = occ a o + occ b o.
Proof. induction a; intros; cbn [app occ]; [lia|rewrite IHa; lia]. Qed.

Lemma inc_shift : forall E o rc p, inc E o rc p = rc p + (if imm E p then 0 else occ [o] p).
Proof.
  intros E o rc p; unfold inc, upd; cbn [occ]; destruct (Z.eqb_spec p o) as [->|N].
  - rewrite Z.eqb_refl; destruct (imm E o); [lia|rewrite Z.eqb_refl; lia].
  - destruct (o =? p) eqn:Q; [apply Z.eqb_eq in Q; congruence|].
    destruct (imm E o); [destruct (imm E p); lia|]. rewrite (proj2 (Z.eqb_neq _ _) N); destruct (imm E p); lia.
Qed.
Lemma incs_shift : forall E os rc p, incs E os rc p = rc p + (if imm E p then 0 else occ os p).
Proof.
  unfold incs; induction os as [|o os IH]; intros rc p; cbn [fold_left occ]; [destruct (imm E p); lia|].
  rewrite IH, inc_shift; cbn [occ]; destruct (imm E p); lia.
Qed.
(** Releasing references: possible iff there are so many. *)
Lemma decs_spec : forall E os rc,
  match decs E os rc with
  | Some rc' => (forall p, rc' p = rc p - (if imm E p then 0 else occ os p)) /\ (forall p, imm E p = false -> 0 < occ os p -> occ os p <= rc p)
  | None => exists p, imm E p = false /\ rc p < occ os p
  end.
Proof.
  induction os as [|o os IH]; intros rc; cbn [decs].
  { split; intros p; cbn [occ]; [destruct (imm E p); lia|lia]. }
  unfold dec; destruct (imm E o) eqn:I; [|destruct (Z.leb_spec (rc o) 0) as [L|L]].
  - specialize (IH rc); destruct (decs E os rc) as [rc'|].
    + destruct IH as [A B]; split; intros p; cbn [occ].
      * rewrite A; destruct (imm E p) eqn:P; [lia|]; destruct (Z.eqb_spec o p); [congruence|lia].
      * intros P; destruct (Z.eqb_spec o p); [congruence|]; intro; apply B; [exact P|lia].
    + destruct IH as (p & P & H); exists p; split; [exact P|]; cbn [occ]; destruct (Z.eqb_spec o p); [congruence|lia].
  - exists o; split; [exact I|]; cbn [occ]; rewrite Z.eqb_refl; pose proof (occ_nonneg os o); lia.
  - specialize (IH (upd rc o (rc o - 1))); destruct (decs E os _) as [rc'|].
    + destruct IH as [A B]; split; intros p; cbn [occ].
      * rewrite A; unfold upd; rewrite (Z.eqb_sym p o); destruct (Z.eqb_spec o p) as [<-|N]; [rewrite I; lia|destruct (imm E p); lia].
      * intros P Q; pose proof (B p P) as B2; unfold upd in B2; rewrite (Z.eqb_sym p o) in B2; revert B2 Q; destruct (Z.eqb_spec o p) as [Eop|N]; intros B2 Q; [subst p|].
        { pose proof (occ_nonneg os o); destruct (Z.eq_dec (occ os o) 0); lia. }
        { lia. }
    + destruct IH as (p & P & H); exists p; split; [exact P|]; revert H; unfold upd; rewrite (Z.eqb_sym p o); cbn [occ].
      destruct (Z.eqb_spec o p) as [<-|N]; lia.
Qed.

Lemma enter_shift : forall E c pos kw rc,
  exists rc', enter E c pos kw rc = (answer E (id c) pos kw, rc') /\ shifted E rc rc' (result (answer E (id c) pos kw)) [].
Proof.
  intros E c pos kw rc; unfold enter, shifted; destruct (answer E (id c) pos kw) as [r|]; eexists; (split; [reflexivity|]); intro o.
  - rewrite inc_shift; cbn [result occ]; destruct (imm E o); lia.
  - cbn [result occ]; destruct (imm E o); lia.
Qed.
Lemma type_called : forall E c pos kw rc, is_class c = true -> called E c pos kw [] rc (by_type E c pos kw rc).
Proof.
  intros E c pos kw rc C; unfold by_type; rewrite C; destruct (enter_shift E c pos kw rc) as (rc' & -> & H).
  eexists; eexists; split; [reflexivity|]; split; [reflexivity|exact H].
Qed.
Lemma slot_called : forall E c b pos kw rc, own_vec c = true -> is_method c = false -> called E c pos kw [] rc (by_slot E c b pos kw rc).
Proof.
  intros E c b pos kw rc O M; unfold by_slot; rewrite O, M; cbn [negb]; destruct (enter_shift E c pos kw rc) as (rc' & -> & H).
  eexists; eexists; split; [reflexivity|]; split; [reflexivity|exact H].
Qed.

Lemma direct_no_args : forall E c rc, direct c = true -> called E c [] [] [] rc (call_no_args E c rc).
Proof.
  intros E c rc D; unfold direct in D; unfold call_no_args; destruct (type_vec c); [apply type_called; exact D|].
  rewrite !andb_true_iff, negb_true_iff in D; destruct D as ((-> & O) & M); apply slot_called; assumption.
Qed.
Lemma direct_no_kwargs : forall E c args rc, direct c = true -> called E c args [] [] rc (call_no_kwargs E c args rc).
Proof.
  intros E c args rc D; unfold direct in D; unfold call_no_kwargs; destruct (type_vec c); [apply type_called; exact D|].
  rewrite !andb_true_iff, negb_true_iff in D; destruct D as ((-> & O) & M); apply slot_called; assumption.
Qed.
Lemma direct_kw : forall E c args n names rc, direct c = true ->
  called E c (firstn n args) (combine names (skipn n args)) [] rc (call_kw E c args n names rc).
Proof.
  intros E c args n names rc D; unfold direct in D; unfold call_kw; destruct (type_vec c); [apply type_called; exact D|].
  rewrite !andb_true_iff, negb_true_iff in D; destruct D as ((-> & O) & M); apply slot_called; assumption.
Qed.

Lemma plain_no_args : forall E c rc, plain c = true -> tp_call c = true -> called E c [] [] [] rc (call_no_args E c rc).
Proof.
  intros E c rc P T; unfold plain in P; rewrite andb_true_iff, !negb_true_iff in P; destruct P as [A B].
  unfold call_no_args; rewrite A, B, T; destruct (enter_shift E c [] [] rc) as (rc' & -> & H).
  eexists; eexists; split; [reflexivity|]; split; [reflexivity|exact H].
Qed.
Lemma plain_no_kwargs : forall E c args rc, plain c = true -> tp_call c = true -> tuple_ok E = true -> (forall o, 0 <= rc o) ->
  (enough E rc (answer E (id c) args []) args -> called E c args [] args rc (call_no_kwargs E c args rc)) /\
  (~ enough E rc (answer E (id c) args []) args -> call_no_kwargs E c args rc = Crash DeadObject).
Proof.
  intros E c args rc P T M NN; unfold plain in P; rewrite andb_true_iff, !negb_true_iff in P; destruct P as [A B].
  unfold call_no_kwargs, tuple_pack, tuple_free; rewrite A, B, T, M; cbn [negb]; destruct (enter_shift E c args [] rc) as (rc1 & -> & H).
  pose proof (decs_spec E args rc1) as D; destruct (decs E args rc1) as [rc2|].
  - destruct D as [D1 D2]; split; intro N.
    + eexists; eexists; split; [reflexivity|]; split; [reflexivity|]; intro o; rewrite D1, H; cbn [occ]; destruct (imm E o); lia.
    + exfalso; apply N; intros o I; specialize (D2 o I); rewrite (H o), I in D2; cbn [occ] in D2.
      pose proof (occ_nonneg args o); destruct (Z.eq_dec (occ args o) 0) as [Z|Z]; [|lia].
      rewrite Z; specialize (NN o); pose proof (occ_nonneg (result (answer E (id c) args [])) o); lia.
  - split; [|reflexivity]; intro N; exfalso; destruct D as (p & I & L); specialize (N p I); rewrite (H p), I in L; cbn [occ] in L; lia.
Qed.
Lemma plain_kw : forall E c args n names rc, plain c = true -> tp_call c = true -> tuple_ok E = true -> dict_ok E = true -> (forall o, 0 <= rc o) ->
  let pos := firstn n args in let kw := combine names (skipn n args) in
  enough E rc (answer E (id c) pos kw) pos -> called E c pos kw pos rc (call_kw E c args n names rc).
Proof.
  intros E c args n names rc P T M DM NN pos kw N; unfold plain in P; rewrite andb_true_iff, !negb_true_iff in P; destruct P as [A B].
  unfold call_kw, tuple_pack, tuple_free, dict_pack, dict_free; fold pos; fold kw; rewrite A, B, T, M, DM; cbn [negb].
  set (ks := map fst kw ++ map snd kw); set (rc0 := incs E ks rc).
  destruct (enter_shift E c pos kw rc0) as (rc1 & -> & H).
  assert (H0 : forall o, rc0 o = rc o + (if imm E o then 0 else occ ks o)) by (intro o; apply incs_shift).
  pose proof (decs_spec E pos rc1) as D; destruct (decs E pos rc1) as [rc2|].
  2:{ exfalso; destruct D as (p & I & L); specialize (N p I); rewrite (H p), H0, I in L; cbn [occ] in L; pose proof (occ_nonneg ks p); lia. }
  destruct D as [D1 D2].
  pose proof (decs_spec E ks rc2) as D; destruct (decs E ks rc2) as [rc3|].
  - destruct D as [D3 D4]; eexists; eexists; split; [reflexivity|]; split; [reflexivity|].
    intro o; rewrite D3, D1, H, H0; cbn [occ]; destruct (imm E o); lia.
  - exfalso; destruct D as (p & I & L); specialize (N p I); rewrite D1, (H p), H0, I in L; cbn [occ] in L; lia.
Qed.

(** The wrong turns. *)
Lemma bound_method : forall E c args n names rc, type_vec c = false -> have_vec c = true -> own_vec c = true -> is_method c = true ->
  call_no_args E c rc = Crash NullWrite /\ call_no_kwargs E c args rc = Crash BeforeArgs /\ call_kw E c args n names rc = Crash BeforeArgs.
Proof. intros E c args n names rc A B C D; unfold call_no_args, call_no_kwargs, call_kw, by_slot; rewrite A, B, C, D; repeat split. Qed.
Lemma no_slot : forall E c args n names rc, type_vec c = false -> have_vec c = true -> own_vec c = false ->
  call_no_args E c rc = Crash NullCall /\ call_no_kwargs E c args rc = Crash NullCall /\ call_kw E c args n names rc = Crash NullCall.
Proof. intros E c args n names rc A B C; unfold call_no_args, call_no_kwargs, call_kw, by_slot; rewrite A, B, C; repeat split. Qed.
Lemma instance : forall E c args n names rc, type_vec c = true -> is_class c = false ->
  call_no_args E c rc = Crash NotAType /\ call_no_kwargs E c args rc = Crash NotAType /\ call_kw E c args n names rc = Crash NotAType.
Proof. intros E c args n names rc A B; unfold call_no_args, call_no_kwargs, call_kw, by_type; rewrite A, B; repeat split. Qed.
Lemma not_callable : forall E c args n names rc, plain c = true -> tp_call c = false ->
  call_no_args E c rc = Crash NullCall /\ (tuple_ok E = true -> call_no_kwargs E c args rc = Crash NullCall) /\
  (tuple_ok E = true -> dict_ok E = true -> call_kw E c args n names rc = Crash NullCall).
Proof.
  intros E c args n names rc P T; unfold plain in P; rewrite andb_true_iff, !negb_true_iff in P; destruct P as [A B].
  unfold call_no_args, call_no_kwargs, call_kw, tuple_pack, dict_pack; rewrite A, B, T; repeat split; [intros ->; reflexivity|intros -> ->; reflexivity].
Qed.
Lemma no_memory : forall E c args n names rc, plain c = true ->
  (tuple_ok E = false -> call_no_kwargs E c args rc = Crash NullWrite /\ call_kw E c args n names rc = Crash NullWrite) /\
  (tuple_ok E = true -> dict_ok E = false -> tp_call c = true -> (forall o, 0 <= rc o) ->
     enough E rc (answer E (id c) (firstn n args) (combine names (skipn n args))) (firstn n args) ->
     call_kw E c args n names rc = Crash NullWrite).
Proof.
  intros E c args n names rc P; unfold plain in P; rewrite andb_true_iff, !negb_true_iff in P; destruct P as [A B].
  unfold call_no_kwargs, call_kw, tuple_pack, dict_pack, dict_free, tuple_free; rewrite A, B; split; [intros ->; split; reflexivity|].
  intros -> -> -> NN N; cbn [negb]; set (pos := firstn n args) in *; set (kw := combine names (skipn n args)) in *.
  destruct kw as [|x y] eqn:K; [|reflexivity].
  destruct (enter_shift E c pos [] rc) as (rc1 & -> & H).
  pose proof (decs_spec E pos rc1) as D; destruct (decs E pos rc1); [reflexivity|].
  exfalso; destruct D as (p & I & L); specialize (N p I); rewrite (H p), I in L; cbn [occ] in L; lia.
Qed.

Lemma drained : forall E c a n rc, plain c = true -> tp_call c = true -> tuple_ok E = true -> imm E a = false ->
  (forall o, 0 <= rc o) -> answer E (id c) [a] [] = None -> rc a = Z.of_nat n ->
  (exists rc', again E c [a] n rc = Some rc' /\ rc' a = 0) /\ again E c [a] (S n) rc = None.
Proof.
  intros E c a n rc P T M I NN R K.
  assert (STEP : forall rc, (forall o, 0 <= rc o) -> call_no_kwargs E c [a] rc =
    (if rc a <=? 0 then Crash DeadObject else Done None (upd rc a (rc a - 1)) [(id c, [a], [])])).
  { intros rc0 N0; unfold plain in P; rewrite andb_true_iff, !negb_true_iff in P; destruct P as [A B].
    unfold call_no_kwargs, tuple_pack, tuple_free, enter; rewrite A, B, M, T, R; cbn [negb decs]; unfold dec; rewrite I.
    destruct (rc0 a <=? 0); reflexivity. }
  revert rc NN K; induction n as [|n IH]; intros rc NN K.
  - split; [exists rc; split; [reflexivity|exact K]|].
    cbn [again]; rewrite STEP, K by exact NN; reflexivity.
  - assert (NN' : forall o, 0 <= upd rc a (rc a - 1) o).
    { intro o; unfold upd; destruct (o =? a); [lia|apply NN]. }
    assert (K' : upd rc a (rc a - 1) a = Z.of_nat n) by (unfold upd; rewrite Z.eqb_refl; lia).
    destruct (IH _ NN' K') as [X Y]. 
    assert (G : forall m, again E c [a] (S m) rc = again E c [a] m (upd rc a (rc a - 1))).
    { intro m; cbn [again]; rewrite STEP by exact NN; destruct (Z.leb_spec (rc a) 0); [lia|reflexivity]. }
    rewrite !G; split; assumption.
Qed.

(** Globals. *)
Lemma loads : forall E G name rc f, frame G = Some f ->
  exists v rc', load_global E G name rc = Done v rc' [] /\
    v = match glob G name with Some v => Some v | None => builtin G name end /\
    shifted E rc rc' (result v ++ [f; gdict G; bdict G]) [].
Proof.
  intros E G name rc f F; unfold load_global; rewrite F.
  destruct (match glob G name with Some v => Some v | None => builtin G name end) as [v|]; eexists; eexists; (split; [reflexivity|]); (split; [reflexivity|]);
    intro o; rewrite !inc_shift; cbn [result app occ]; destruct (imm E o); lia.
Qed.
Lemma loads_leak : forall E G names rc f, frame G = Some f -> (forall o, 0 <= rc o) ->
  exists rc', load_many E G names rc = Some rc' /\
    forall o, rc' o = rc o + (if imm E o then 0 else zlen names * occ [f; gdict G; bdict G] o).
Proof.
  intros E G names; induction names as [|x names IH]; intros rc f F NN; cbn [load_many].
  { exists rc; split; [reflexivity|]; intro o; unfold zlen; cbn [length]; destruct (imm E o); lia. }
  destruct (loads E G x rc f F) as (v & rc1 & -> & V & H).
  assert (X : exists rc2, match v with Some v => dec E v rc1 | None => Some rc1 end = Some rc2 /\
    forall o, rc2 o = rc o + (if imm E o then 0 else occ [f; gdict G; bdict G] o)).
  { destruct v as [v|].
    - unfold dec; destruct (imm E v) eqn:I.
      + exists rc1; split; [reflexivity|]; intro o; rewrite H; cbn [result]; rewrite occ_app'; cbn [occ].
        destruct (imm E o) eqn:J; [lia|]; destruct (Z.eqb_spec v o); [congruence|lia].
      + assert (0 < rc1 v).
        { rewrite H, I; cbn [result]; rewrite occ_app'; pose proof (occ_nonneg [f; gdict G; bdict G] v); specialize (NN v).
          cbn [occ] in *; rewrite Z.eqb_refl; lia. }
        destruct (Z.leb_spec (rc1 v) 0); [lia|]; eexists; split; [reflexivity|]; intro o; unfold upd; rewrite Z.eqb_sym.
        destruct (Z.eqb_spec v o) as [<-|N].
        * rewrite H, I; cbn [result]; rewrite occ_app'; cbn [occ]; rewrite Z.eqb_refl; lia.
        * rewrite H; cbn [result]; rewrite occ_app'; cbn [occ]; rewrite (proj2 (Z.eqb_neq _ _) N); destruct (imm E o); lia.
    - exists rc1; split; [reflexivity|]; intro o; rewrite H; cbn [result app occ]; destruct (imm E o); lia. }
  destruct X as (rc2 & -> & H2).
  destruct (IH rc2 f F) as (rc3 & -> & H3).
  { intro o; rewrite H2; specialize (NN o); pose proof (occ_nonneg [f; gdict G; bdict G] o); destruct (imm E o); lia. }
  exists rc3; split; [reflexivity|]; intro o; rewrite H3, H2; unfold zlen; cbn [length]; rewrite Nat2Z.inj_succ; destruct (imm E o); nia.
Qed.
