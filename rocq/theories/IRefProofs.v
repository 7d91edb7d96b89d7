(** Proofs for IRefModel / IRefSpec. *)
From Coq Require Import ZArith List Bool Lia.
From Verif Require Import Base PyListSpec ArrayListModel ObjModel ObjSpec ObjLemmas IRefModel IRefSpec.
Import ListNotations.
Local Open Scope Z_scope.
Local Arguments Z.add : simpl never.
Local Arguments Z.sub : simpl never.

(** ** States by the references added to a first state *)
Definition at_ (E : env) (s0 s : rst) (os : list Z) : Prop :=
  nxt s0 <= nxt s /\ (forall p, imm E p = false -> cnt s p = cnt s0 p + occ os p) /\ Forall (fun o => o < nxt s) os.

Section At.
Context (E : env) (s0 : rst) (W : sane E s0).

Lemma lives_old o : lives E s0 o -> o < nxt s0.
Proof.
  intros [H|H]; destruct (Z_lt_le_dec o (nxt s0)); auto; destruct W as (_ & W2 & _); destruct (W2 o l); [congruence | lia].
Qed.

Lemma at_refl : at_ E s0 s0 [].
Proof. repeat split; [lia | intros; simpl; lia | constructor]. Qed.

Lemma at_elems s os xs : at_ E s0 s os -> at_ E s0 (with_elems xs s) os.
Proof. intros (A & B & C). repeat split; auto. Qed.

Lemma at_perm s os os' : at_ E s0 s os -> (forall p, occ os p = occ os' p) -> at_ E s0 s os'.
Proof.
  intros (A & B & C) P. repeat split; auto.
  - intros p Hp. rewrite <- P. auto.
  - rewrite Forall_forall in *. intros o Ho. apply C. apply occ_pos. apply occ_in in Ho. rewrite P. lia.
Qed.

Lemma at_alive s os o : at_ E s0 s os -> lives E s0 o \/ In o os -> alive E s o = true.
Proof.
  intros (A & B & C) H. unfold alive. destruct (imm E o) eqn:I; [reflexivity|]. simpl. apply Z.ltb_lt. rewrite (B o I).
  pose proof (occ_nonneg os o). destruct W as (W1 & _). pose proof (W1 o I).
  destruct H as [[H|H]|H]; [congruence | lia | apply occ_in in H; lia].
Qed.

Lemma at_bump s os o : at_ E s0 s os -> o < nxt s -> at_ E s0 (bump E o 1 s) (o :: os).
Proof.
  intros (A & B & C) H. unfold bump. destruct (imm E o) eqn:I.
  - repeat split; auto. intros p Hp. simpl. destruct (Z.eqb_spec o p) as [Eq|Eq]; [subst; congruence | rewrite (B p Hp); lia].
  - repeat split; simpl; auto. intros p Hp. unfold upd. rewrite Z.eqb_sym. destruct (Z.eqb_spec o p) as [Eq|Eq]; [subst p|]; rewrite ?(B _ Hp); lia.
Qed.

Lemma at_lt s os o : at_ E s0 s os -> lives E s0 o \/ In o os -> o < nxt s.
Proof.
  intros (A & B & C) [H|H]; [apply lives_old in H; lia|]. rewrite Forall_forall in C. auto.
Qed.

Lemma inc_at s os o : at_ E s0 s os -> lives E s0 o \/ In o os -> exists s', inc E o s = Ok s' tt /\ at_ E s0 s' (o :: os) /\ elems s' = elems s.
Proof.
  intros A H. unfold inc. rewrite (at_alive s os o A H). eexists. split; [reflexivity|]. split; [apply at_bump; auto; eapply at_lt; eauto|].
  unfold bump. destruct (imm E o); reflexivity.
Qed.

Lemma dec_at s os o : at_ E s0 s (o :: os) -> exists s', dec E o s = Ok s' tt /\ at_ E s0 s' os /\ elems s' = elems s /\ nxt s' = nxt s.
Proof.
  intros A. pose proof A as (A1 & B & C). unfold dec. rewrite (at_alive s _ o A); [|right; left; reflexivity].
  eexists. split; [reflexivity|]. assert (F : Forall (fun o => o < nxt s) os) by (inversion C; auto).
  unfold bump. destruct (imm E o) eqn:I.
  - repeat split; auto. intros p Hp. rewrite (B p Hp). simpl. destruct (Z.eqb_spec o p); [congruence | lia].
  - repeat split; simpl; auto. intros p Hp. unfold upd. pose proof (B p Hp) as Bp. simpl in Bp. rewrite Z.eqb_sym.
    destruct (Z.eqb_spec o p) as [Eq|Eq]; [subst p|]; lia.
Qed.

Lemma as_int_at s os o : at_ E s0 s os -> lives E s0 o \/ In o os -> as_int E o s = Ok s (conv E o).
Proof. intros A H. unfold as_int. rewrite (at_alive s os o A H). reflexivity. Qed.

Lemma new_at s os : at_ E s0 s os ->
  match new_obj E s with
  | (s', Some l) => at_ E s0 s' (l :: os) /\ elems s' = elems s /\ l = nxt s /\ ~ In l os /\ imm E l = false /\ nxt s0 <= l
  | (s', None) => at_ E s0 s' os /\ elems s' = elems s /\ exists p, alloc E p = false
  end.
Proof.
  intros (A & B & C). unfold new_obj. destruct (alloc E (nxt s)) eqn:Al.
  - assert (Hn : cnt s0 (nxt s) = 0 /\ imm E (nxt s) = false) by (destruct W as (_ & W2 & _); apply W2; lia).
    assert (N : ~ In (nxt s) os) by (intros H; rewrite Forall_forall in C; apply C in H; lia).
    destruct Hn as (Hc & Hi). split; [|simpl; repeat split; auto]. repeat split; simpl; [lia| |].
    + intros p Hp. unfold upd. rewrite Z.eqb_sym. destruct (Z.eqb_spec (nxt s) p) as [Eq|Eq].
      * subst p. rewrite Hc. pose proof (occ_nonneg os (nxt s)). destruct (Z.eq_dec (occ os (nxt s)) 0) as [E0|E0]; [lia|].
        exfalso. apply N. apply occ_pos. lia.
      * rewrite (B p Hp). lia.
    + constructor; [lia|]. eapply Forall_impl; [|exact C]. simpl. intros; lia.
  - split; [|split; [reflexivity | exists (nxt s); exact Al]]. repeat split; simpl; [lia | exact B |].
    eapply Forall_impl; [|exact C]. simpl. intros; lia.
Qed.

Definition int_for (z o : Z) : Prop := small E z = Some o \/ (small E z = None /\ nxt s0 <= o).

Lemma from_cache_at cache s os z : at_ E s0 s os -> (forall z o, cache z = Some o -> lives E s0 o) ->
  match from_cache E cache z s with
  | (s', Some o) => at_ E s0 s' (o :: os) /\ elems s' = elems s /\ (cache z = Some o \/ (cache z = None /\ nxt s0 <= o)) /\ nxt s <= nxt s'
                    /\ o < nxt s' /\ (forall l, l < nxt s -> In l os -> nxt s0 <= l -> l <> o)
  | (s', None) => at_ E s0 s' os /\ elems s' = elems s /\ exists p, alloc E p = false
  end.
Proof.
  intros A L. unfold from_cache. destruct (cache z) as [o|] eqn:C.
  - assert (lives E s0 o) as Lo by (eapply L; eauto). assert (o < nxt s) by (eapply at_lt; eauto).
    pose proof (lives_old o Lo).
    split; [apply at_bump; auto|]. unfold bump. destruct (imm E o); simpl; repeat split; auto; try lia; intros; lia.
  - pose proof (new_at s os A) as N. destruct (new_obj E s) as [s' [l|]] eqn:No; [|exact N].
    destruct N as (N1 & N2 & N3 & N4 & N5 & N6). unfold new_obj in No. destruct (alloc E (nxt s)); inversion No; subst.
    simpl. repeat split; auto; try lia; try (apply N1); intros; lia.
Qed.

Lemma small_lives z o : small E z = Some o -> lives E s0 o.
Proof. intros H. destruct W as (_ & _ & _ & _ & _ & _ & W7). eapply W7. left; eauto. Qed.
Lemma size_lives z o : small_size E z = Some o -> lives E s0 o.
Proof. intros H. destruct W as (_ & _ & _ & _ & _ & _ & W7). eapply W7. right; eauto. Qed.
Lemma none_lives : lives E s0 (none E). Proof. apply W. Qed.
Lemma bool_lives (b : bool) : lives E s0 (if b then tru E else fls E). Proof. destruct b; apply W. Qed.
Lemma self_lives : lives E s0 (self E). Proof. apply W. Qed.

Lemma fetch_at s os o : at_ E s0 s os -> o < nxt s0 -> at_ E s0 (fetch E o s) (o :: os) /\ elems (fetch E o s) = elems s.
Proof.
  intros A H. split; [apply at_bump; auto; destruct A; lia|]. unfold fetch, bump. destruct (imm E o); reflexivity.
Qed.

Lemma decs_at : forall ds s os, at_ E s0 s (ds ++ os) -> exists s', decs E ds s = Ok s' tt /\ at_ E s0 s' os /\ elems s' = elems s /\ nxt s' = nxt s.
Proof.
  induction ds as [|d ds IH]; intros s os A; simpl; [eauto|].
  destruct (dec_at s (ds ++ os) d A) as (s' & E1 & A' & El & Nx). rewrite E1. simpl.
  destruct (IH s' os A') as (s'' & E2 & A'' & El2 & Nx2). exists s''. rewrite El2, Nx2. auto.
Qed.

Lemma incs_at : forall ds s os, at_ E s0 s os -> Forall (fun o => lives E s0 o \/ In o os) ds ->
  exists s', incs E ds s = Ok s' tt /\ at_ E s0 s' (ds ++ os) /\ elems s' = elems s.
Proof.
  induction ds as [|d ds IH]; intros s os A F; simpl; [eauto|]. inversion F; subst.
  destruct (inc_at s os d A H1) as (s' & E1 & A' & El). rewrite E1. simpl.
  destruct (IH s' (d :: os) A') as (s'' & E2 & A'' & El2).
  { eapply Forall_impl; [|exact H2]. intros a [L|I]; [left; auto | right; right; auto]. }
  exists s''. split; [exact E2|]. split; [|congruence]. eapply at_perm; [exact A''|]. intros p. rewrite !occ_app. simpl. rewrite occ_app. lia.
Qed.

(** Results that can be dropped. *)
Definition holdable (v : value) (os : list Z) : Prop :=
  match v with
  | VObj _ | VUnit => True
  | VList l items => nxt s0 <= l /\ ~ In l (items ++ os)
  | VIter i c => nxt s0 <= i /\ ~ In i (c :: os)
  end.

Lemma gone s os l : at_ E s0 s os -> nxt s0 <= l -> ~ In l os -> dies E l s = true.
Proof.
  intros (A & B & C) L N. destruct W as (_ & W2 & _). destruct (W2 l L) as (W3 & W4). unfold dies. rewrite W4. simpl.
  rewrite (B l W4), W3. pose proof (occ_nonneg os l). destruct (Z.eq_dec (occ os l) 0) as [Z0|Z0]; [rewrite Z0; reflexivity|].
  exfalso. apply N. apply occ_pos. lia.
Qed.

Lemma drop_at v s os : at_ E s0 s (owned v ++ os) -> holdable v os ->
  exists s', drop E v s = Ok s' tt /\ at_ E s0 s' os /\ elems s' = elems s /\ nxt s' = nxt s.
Proof.
  intros A H. destruct v as [o|l items|i c|]; simpl in *.
  - apply dec_at; auto.
  - destruct (dec_at s _ l A) as (s' & E1 & A' & El & Nx). rewrite E1. simpl. rewrite (gone s' _ l A'); [|apply H|apply H].
    destruct (decs_at items s' os A') as (s'' & E2 & A'' & El2 & Nx2). exists s''. rewrite El2, Nx2. auto.
  - destruct (dec_at s _ i A) as (s' & E1 & A' & El & Nx). rewrite E1. simpl. rewrite (gone s' _ i A'); [|apply H|apply H].
    destruct (dec_at s' os c A') as (s'' & E2 & A'' & El2 & Nx2). exists s''. rewrite El2, Nx2. auto.
  - exists s. auto.
Qed.

Lemma give_at s os o : at_ E s0 s os -> lives E s0 o -> exists s', give E o s = Ok s' (VObj o) /\ at_ E s0 s' (o :: os) /\ elems s' = elems s.
Proof.
  intros A L. unfold give. destruct (inc_at s os o A (or_introl L)) as (s' & E1 & A' & El). rewrite E1. simpl. eauto.
Qed.

Lemma at_swap s a b os : at_ E s0 s (a :: b :: os) -> at_ E s0 s (b :: a :: os).
Proof. intros A. eapply at_perm; [exact A|]. intros p. simpl. lia. Qed.
Lemma at_mid s a l os : at_ E s0 s (a :: l ++ os) -> at_ E s0 s (l ++ a :: os).
Proof. intros A. eapply at_perm; [exact A|]. intros p. simpl. rewrite !occ_app. simpl. lia. Qed.
Lemma at_unmid s a l os : at_ E s0 s (l ++ a :: os) -> at_ E s0 s (a :: l ++ os).
Proof. intros A. eapply at_perm; [exact A|]. intros p. simpl. rewrite !occ_app. simpl. lia. Qed.

(** An iterator. *)
Lemma get_iter_at a s : at_ E s0 s [] -> lives E s0 (it_obj a) ->
  match get_iter E a s with
  | Ok s' i => at_ E s0 s' (owned i) /\ elems s' = elems s /\ holdable i [] /\ In (it_obj a) (owned i) /\ match i with VObj o => o = it_obj a | VIter _ o => o = it_obj a | _ => False end
  | Er s' _ => at_ E s0 s' []
  | _ => False
  end.
Proof.
  intros A L. unfold get_iter. destruct (it_iter a) as [e|]; [exact A|].
  destruct (it_own a).
  - destruct (give_at s [] _ A L) as (s' & E1 & A' & El). rewrite E1. simpl. repeat split; auto; apply A'.
  - unfold null. pose proof (new_at s [] A) as N. destruct (new_obj E s) as [s' [l|]]; simpl.
    + destruct N as (N1 & N2 & N3 & N4 & N5 & N6).
      destruct (inc_at s' _ (it_obj a) N1 (or_introl L)) as (s'' & E1 & A' & El). rewrite E1. simpl.
      split; [apply at_swap; exact A'|]. split; [congruence|]. split; [split; [exact N6|]|split; [auto|reflexivity]].
      intros [H|[]]. pose proof (lives_old _ L). lia.
    + apply N.
Qed.

Lemma hold_more i o os : holdable i os -> o < nxt s0 -> holdable i (o :: os).
Proof.
  intros H L. destruct i as [|l items|j c|]; simpl in *; auto.
  - destruct H as (H1 & H2). split; auto. intros H3. apply in_app_or in H3. destruct H3 as [H3|[H3|H3]]; try lia; apply H2; apply in_or_app; auto.
  - destruct H as (H1 & H2). split; auto. intros [H3|[H3|H3]]; try lia; apply H2; simpl; auto.
Qed.
End At.
