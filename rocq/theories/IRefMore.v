(** Proofs for IRefModel / IRefSpec: programs, and the references left behind. *)
From Coq Require Import ZArith List Bool Lia.
From Verif Require Import Base PyListSpec ArrayListModel ObjModel ObjSpec ObjLemmas IRefModel IRefSpec IRefProofs IRefCalls.
Import ListNotations.
Local Open Scope Z_scope.
Local Arguments Z.add : simpl never.
Local Arguments Z.sub : simpl never.

Section More.
Context (E : env).

Lemma at_lives s s' os o : at_ E s s' os -> lives E s o -> lives E s' o.
Proof.
  intros (A & B & C) [H|H]; [left; auto|]. destruct (imm E o) eqn:I; [left; auto|]. right. rewrite (B o I). pose proof (occ_nonneg os o). lia.
Qed.
Lemma at_sane s s' os : sane E s -> at_ E s s' os -> sane E s'.
Proof.
  intros W A. pose proof A as (A1 & B & C). pose proof W as (W1 & W2 & W3 & W4 & W5 & W6 & W7).
  split; [|split; [|repeat split; try (eapply at_lives; eauto; fail)]].
  - intros p Hp. rewrite (B p Hp). specialize (W1 p Hp). pose proof (occ_nonneg os p). lia.
  - intros p Hp. destruct (W2 p ltac:(lia)) as (W8 & W9). split; auto. rewrite (B p W9), W8. pose proof (occ_nonneg os p).
    destruct (Z.eq_dec (occ os p) 0); [lia|]. exfalso. rewrite Forall_forall in C. assert (In p os) as I by (apply occ_pos; lia). apply C in I. lia.
  - intros z o H. eapply at_lives; eauto.
Qed.
Lemma at_trans s s' s'' os os' : at_ E s s' os -> at_ E s' s'' os' -> at_ E s s'' (os ++ os').
Proof.
  intros (A1 & B1 & C1) (A2 & B2 & C2). split; [lia|]. split.
  - intros p Hp. rewrite (B2 p Hp), (B1 p Hp), occ_app. lia.
  - apply Forall_app. split; auto. eapply Forall_impl; [|exact C1]. simpl. intros; lia.
Qed.
Lemma at_callable s s' os c : at_ E s s' os -> callable E s c -> callable E s' c.
Proof.
  intros A (B & H). split; [eapply Forall_impl; [|exact B]; intros; eapply at_lives; eauto|].
  eapply Forall_impl; [|exact H]. destruct A as (A & _). simpl. intros; lia.
Qed.

(** One call and the drop of its result. *)
Lemma run_drop k c s : sane E s -> callable E s c ->
  match run k E c s with
  | Ok s1 v => exists s2, drop E v s1 = Ok s2 tt /\ at_ E s s2 (extra k E c s v) /\ result_ok E c s v
  | Er s1 _ => exists lost, at_ E s s1 lost /\ lost_by k E c s lost
  | Bad u => u = NullDeref /\ (broken_ne c = true \/ (exists p, alloc E p = false) /\ (keyed c = true \/ k = Linked /\ reads c = true))
  | Killed => (exists n, room E n = false) /\ grows c = true
  end.
Proof.
  intros W C. pose proof (run_fin E s W k c C) as F. destruct (run k E c s) as [s1 v|s1 e|u|]; simpl in F; auto.
  destruct F as (A & H & R). destruct (drop_at E s W v s1 _ A H) as (s2 & E1 & A1 & _). eauto.
Qed.

Definition left_by (k : kind) (s : rst) (o : Z) : Prop := o = none E \/ k = Linked /\ ((exists z, small E z = Some o) \/ nxt s <= o).
Lemma ints_left s xs os : ints_for E s xs os -> Forall (left_by Linked s) os.
Proof. induction 1; constructor; auto; right; split; eauto. Qed.
Lemma left_mono k s s' o : nxt s <= nxt s' -> left_by k s' o -> left_by k s o.
Proof. intros N [H|(H & [H1|H1])]; [left; auto | right; auto | right; split; auto; right; lia]. Qed.
Lemma forall_firstn {A} (P : A -> Prop) n l : Forall P l -> Forall P (firstn n l).
Proof. rewrite !Forall_forall. intros H x I. apply H. rewrite <- (firstn_skipn n l). apply in_or_app. auto. Qed.
Lemma extra_left k c s v s' : result_ok E c s v -> run k E c s = Ok s' v -> Forall (left_by k s) (extra k E c s v).
Proof.
  intros R Q. assert (N : Forall (left_by k s) [none E]) by (constructor; [left; auto | constructor]).
  destruct c; simpl; try (destruct k; constructor; fail).
  - destruct k; [constructor|]. destruct R as (l & items & -> & I). simpl. eapply ints_left; eauto.
  - destruct k; [constructor|]. destruct R as (z & o & _ & -> & _ & I). simpl. eapply ints_left; eauto.
  - destruct k; [constructor|]. destruct R as (l & items & -> & I). simpl. eapply ints_left; eauto.
  - destruct k; [constructor|]. destruct other as [ys|].
    + destruct R as (l & items & -> & I). simpl. rewrite (ints_length E s _ _ I), firstn_app, Nat.sub_diag, firstn_all. simpl.
      rewrite app_nil_r. eapply ints_left; eauto.
    + exfalso. cbn [run] in Q. unfold add in Q. destruct (to_list Linked E s) as [s1 t| | |]; cbn [bind] in Q; try discriminate.
      destruct t; destruct (drop E _ s1); cbn [bind] in Q; discriminate.
  - destruct (all_keys _ _); [destruct k; exact N | destruct k; constructor].
Qed.
Lemma lost_left k c s lost : (forall n, room E n = true) -> lost_by k E c s lost -> Forall (left_by k s) lost.
Proof.
  intros Rm [->|L]; [constructor|]. destruct c; try contradiction.
  - destruct L as (_ & n & R). congruence.
  - destruct L as (n & o & R & _). congruence.
  - destruct L as (_ & n & o & R & _). congruence.
  - destruct L as (-> & I). eapply ints_left; eauto.
Qed.

Definition keyed_number (cs : list call) : nat := length (filter keyed cs).
Lemma session_at k : (forall n, room E n = true) -> forall cs s, sane E s -> Forall (callable E s) cs -> Forall (fun c => broken_ne c = false) cs ->
  (forall p, alloc E p = true) \/ k = Array /\ Forall (fun c => keyed c = false) cs ->
  exists s' lost, session k E cs s = Ok s' tt /\ at_ E s s' lost /\ Forall (left_by k s) lost /\
    (k = Array -> exists n, lost = repeat (none E) n /\ (n <= keyed_number cs)%nat).
Proof.
  intros Rm. induction cs as [|c cs IH]; intros s W C Bn Al; cbn [session].
  - exists s, []. split; auto. split; [apply at_refl|]. split; [constructor|]. intros _. exists O. auto.
  - inversion C; subst. inversion Bn; subst.
    assert (Al2 : (forall p, alloc E p = true) \/ k = Array /\ Forall (fun c => keyed c = false) cs).
    { destruct Al as [Al|(Al & F)]; auto. inversion F; auto. }
    pose proof (run_drop k c s W H1) as D. destruct (run k E c s) as [s1 v|s1 e|u|] eqn:Q.
    + destruct D as (s2 & E1 & A1 & R). rewrite E1. cbn [bind].
      destruct (IH s2 (at_sane _ _ _ W A1)) as (s' & lost & S1 & A2 & L & Ar); auto.
      { eapply Forall_impl; [|exact H2]. intros; eapply at_callable; eauto. }
      exists s', (extra k E c s v ++ lost). split; [exact S1|]. split; [eapply at_trans; eauto|]. split.
      * apply Forall_app. split; [eapply extra_left; eauto|]. eapply Forall_impl; [|exact L]. intros o. apply left_mono. apply A1.
      * intros Ka. destruct (Ar Ka) as (n & -> & Hn). subst k. unfold keyed_number in *. cbn [filter].
        destruct c; simpl; try (exists n; simpl; auto; fail).
        destruct (all_keys (length (elems s)) keys); [exists (S n); simpl; split; auto; lia | exists n; simpl; split; auto; lia].
    + destruct D as (lo & A1 & Lb).
      destruct (IH s1 (at_sane _ _ _ W A1)) as (s' & lost & S1 & A2 & L & Ar); auto.
      { eapply Forall_impl; [|exact H2]. intros; eapply at_callable; eauto. }
      exists s', (lo ++ lost). split; [exact S1|]. split; [eapply at_trans; eauto|]. split.
      * apply Forall_app. split; [eapply lost_left; eauto|]. eapply Forall_impl; [|exact L]. intros o. apply left_mono. apply A1.
      * intros Ka. destruct (Ar Ka) as (n & -> & Hn). exists n. split.
        { subst k. destruct Lb as [->|Lb]; auto. destruct c; try contradiction.
          - destruct Lb as (_ & m & R). rewrite Rm in R. discriminate.
          - destruct Lb as (m & o & R & _). rewrite Rm in R. discriminate.
          - destruct Lb; discriminate.
          - destruct Lb; discriminate. }
        unfold keyed_number in *. cbn [filter]. destruct (keyed c); simpl; lia.
    + exfalso. destruct D as (_ & [D|((p & D) & K)]); [congruence|]. destruct Al as [Al|(-> & F)]; [rewrite Al in D; discriminate|].
      destruct K as [K|(K & _)]; [|discriminate]. inversion F; subst. congruence.
    + exfalso. destruct D as ((n & D) & _). rewrite Rm in D. discriminate.
Qed.

(** ** Reading the same item again and again *)
Lemma l_get_new i z s : sane E s -> at_index (zlen (elems s)) i <> None ->
  nth_error (elems s) (Z.to_nat (if i <? 0 then zlen (elems s) + i else i)) = Some z -> small E z = None -> alloc E (nxt s) = true ->
  exists s1 s2, run Linked E (KGet i) s = Ok s1 (VObj (nxt s)) /\ drop E (VObj (nxt s)) s1 = Ok s2 tt /\
    elems s2 = elems s /\ nxt s2 = nxt s + 1 /\ forall p, cnt s2 p = if p =? nxt s then 1 else cnt s p.
Proof.
  intros W N Hz Sm Al. cbn [run get]. unfold l_get. destruct (at_index (zlen (elems s)) i) as [n|] eqn:Hn; [|contradiction].
  destruct (at_index_eq s i n Hn) as (Hn1 & _). rewrite Hn1, Hz. unfold from_int, from_cache. rewrite Sm. unfold new_obj. rewrite Al.
  unfold give, inc, alive. destruct W as (_ & W2 & _). destruct (W2 (nxt s) ltac:(lia)) as (W3 & W4). cbn [cnt].
  unfold upd at 1. rewrite Z.eqb_refl, W4. simpl. eexists. eexists. split; [reflexivity|]. unfold drop, dec, alive, bump. rewrite W4. cbn [cnt with_cnt orb].
  unfold upd at 1. rewrite Z.eqb_refl. unfold upd at 1. rewrite Z.eqb_refl. change (0 <? 1 + 1) with true. cbv iota. split; [reflexivity|].
  cbn [elems nxt with_cnt cnt]. split; [reflexivity|]. split; [reflexivity|]. intros p. unfold upd. rewrite Z.eqb_refl. destruct (Z.eqb_spec p (nxt s)); lia.
Qed.
Lemma l_get_again i z : (forall p, alloc E p = true) -> small E z = None -> forall n s, sane E s -> at_index (zlen (elems s)) i <> None ->
  nth_error (elems s) (Z.to_nat (if i <? 0 then zlen (elems s) + i else i)) = Some z ->
  exists s', session Linked E (repeat (KGet i) n) s = Ok s' tt /\ nxt s' = nxt s + Z.of_nat n /\
    forall p, cnt s' p = if (nxt s <=? p) && (p <? nxt s + Z.of_nat n) then 1 else cnt s p.
Proof.
  intros Al Sm. induction n as [|n IH]; intros s W N Hz.
  - exists s. split; [reflexivity|]. split; [simpl; lia|]. intros p. destruct (Z.leb_spec (nxt s) p); simpl; auto. destruct (Z.ltb_spec p (nxt s + 0)); auto. lia.
  - destruct (l_get_new i z s W N Hz Sm (Al _)) as (s1 & s2 & E1 & E2 & El & Nx & Cn). cbn [repeat session]. rewrite E1, E2. cbn [bind].
    assert (W2 : sane E s2).
    { pose proof (run_drop Linked (KGet i) s W) as D. rewrite E1 in D. destruct D as (s3 & E3 & A & _); [split; constructor|].
      rewrite E2 in E3. inversion E3; subst. eapply at_sane; eauto. }
    destruct (IH s2 W2) as (s' & S1 & N1 & C1); [rewrite El; auto | rewrite El; auto|]. exists s'. split; [exact S1|]. split; [lia|].
    intros p. rewrite (C1 p), (Cn p), Nx. destruct (Z.leb_spec (nxt s + 1) p); destruct (Z.ltb_spec p (nxt s + 1 + Z.of_nat n));
      destruct (Z.leb_spec (nxt s) p); destruct (Z.ltb_spec p (nxt s + Z.of_nat (S n))); destruct (Z.eqb_spec p (nxt s)); simpl; auto; lia.
Qed.

(** ** Lists that cannot grow *)
Lemma init_seq_full q n : forall items s s0, sane E s0 -> at_ E s0 s [q] -> Forall (lives E s0) items ->
  (forall o, In o items -> exists z, conv E o = inl z) -> zlen (elems s) <= n < zlen (elems s) + zlen items -> room E n = false ->
  exists s', init_seq_items E q items s = Er s' RuntimeError /\ at_ E s0 s' [q].
Proof.
  induction items as [|o items IH]; intros s s0 W A L C Hn R; unfold zlen in Hn; cbn [length] in Hn; [lia|].
  cbn [init_seq_items]. inversion L; subst. rewrite (as_int_at E s0 W s [q] o A (or_introl H1)). cbn [bind].
  destruct (C o (or_introl eq_refl)) as (z & Hz). rewrite Hz. destruct (room E (zlen (elems s))) eqn:Ro; [|eauto].
  apply (IH _ s0 W); auto.
  - intros o' I. apply C. right; auto.
  - cbn [elems with_elems]. assert (n <> zlen (elems s)) by (intros ->; congruence). unfold zlen in *. rewrite app_length. cbn [length]. lia.
Qed.
Lemma init_seq_lost k q items n s : sane E s -> callable E s (KInitSeq q items) -> (forall o, In o items -> exists z, conv E o = inl z) ->
  0 <= n < zlen items -> room E n = false -> exists s', run k E (KInitSeq q items) s = Er s' RuntimeError /\ adds E s s' [q].
Proof.
  intros W (L & _) C Hn R. simpl in L. inversion L; subst. cbn [run]. unfold init_seq.
  destruct (inc_at E s W s [] q (at_refl E s) (or_introl H1)) as (s1 & E1 & A & _). rewrite E1. cbn [bind].
  destruct (init_seq_full q n items (with_elems [] s1) s W (at_elems _ _ _ _ _ A) H2 C) as (s' & E2 & A2); auto.
  exists s'. split; [exact E2|]. intros p Hp. apply A2. exact Hp.
Qed.

(** ** Readings of [run_ends] *)
Lemma array_call c s : sane E s -> callable E s c -> (forall n, room E n = true) -> keyed c = false -> broken_ne c = false ->
  match run Array E c s with
  | Ok s' v => adds E s s' (owned v)
  | Er s' _ => adds E s s' []
  | _ => False
  end.
Proof.
  intros W C Rm K B. pose proof (run_ends E s W Array c C) as F. destruct (run Array E c s) as [s' v|s' e|u|]; simpl in F.
  - destruct F as (F & _). assert (X : extra Array E c s v = []) by (destruct c; try discriminate; reflexivity). rewrite X, app_nil_r in F. exact F.
  - destruct F as (lost & F & [->|L]); auto. exfalso. destruct c; try contradiction.
    + destruct L as (_ & n & R). rewrite Rm in R. discriminate.
    + destruct L as (n & o & R & _). rewrite Rm in R. discriminate.
    + destruct L; discriminate.
    + destruct L; discriminate.
  - destruct F as (_ & [F|(_ & [F|(F & _)])]); congruence.
  - destruct F as ((n & R) & _). rewrite Rm in R. discriminate.
Qed.
Lemma call_drop k c s s1 v : sane E s -> callable E s c -> run k E c s = Ok s1 v ->
  exists s2, drop E v s1 = Ok s2 tt /\ adds E s s2 (extra k E c s v).
Proof.
  intros W C Q. pose proof (run_drop k c s W C) as D. rewrite Q in D. destruct D as (s2 & E1 & A & _). exists s2. split; auto.
  intros p Hp. apply A. exact Hp.
Qed.
Lemma occ_repeat_ (o p : Z) n : occ (repeat o n) p = if o =? p then Z.of_nat n else 0.
Proof. induction n as [|n IH]; [simpl; destruct (o =? p); reflexivity|]. cbn [repeat occ]. rewrite IH. destruct (o =? p); lia. Qed.
Lemma array_session cs s : sane E s -> Forall (callable E s) cs -> (forall n, room E n = true) ->
  Forall (fun c => keyed c = false /\ broken_ne c = false) cs ->
  exists s', session Array E cs s = Ok s' tt /\ forall p, imm E p = false -> cnt s' p = cnt s p.
Proof.
  intros W C Rm F. destruct (session_at Array Rm cs s W C) as (s' & lost & S1 & A & _ & Ar).
  { eapply Forall_impl; [|exact F]. simpl; tauto. }
  { right. split; auto. eapply Forall_impl; [|exact F]. simpl; tauto. }
  destruct (Ar eq_refl) as (n & -> & Hn). assert (n = O).
  { assert (keyed_number cs = O); [|lia]. unfold keyed_number. clear - F. induction F as [|c cs (K & _) F IH]; simpl; auto. rewrite K. exact IH. }
  subst n. exists s'. split; auto. intros p Hp. destruct A as (_ & A & _). rewrite (A p Hp). simpl. lia.
Qed.
Lemma array_session_keyed cs s : sane E s -> Forall (callable E s) cs -> plenty E -> Forall (fun c => broken_ne c = false) cs ->
  exists s' n, session Array E cs s = Ok s' tt /\ 0 <= n <= Z.of_nat (length (filter keyed cs)) /\
    forall p, imm E p = false -> cnt s' p = cnt s p + (if p =? none E then n else 0).
Proof.
  intros W C (Al & Rm) F. destruct (session_at Array Rm cs s W C F (or_introl Al)) as (s' & lost & S1 & A & _ & Ar).
  destruct (Ar eq_refl) as (n & -> & Hn). exists s', (Z.of_nat n). split; auto. unfold keyed_number in Hn. split; [lia|].
  intros p Hp. destruct A as (_ & A & _). rewrite (A p Hp), occ_repeat_, Z.eqb_sym. reflexivity.
Qed.
Lemma linked_session cs s : sane E s -> Forall (callable E s) cs -> plenty E -> Forall (fun c => broken_ne c = false) cs ->
  exists s' lost, session Linked E cs s = Ok s' tt /\ adds E s s' lost /\
    Forall (fun o => o = none E \/ (exists z, small E z = Some o) \/ nxt s <= o < nxt s') lost.
Proof.
  intros W C (Al & Rm) F. destruct (session_at Linked Rm cs s W C F (or_introl Al)) as (s' & lost & S1 & A & L & _).
  exists s', lost. split; auto. split; [intros p Hp; apply A; exact Hp|]. destruct A as (_ & _ & A). rewrite Forall_forall in *.
  intros o I. specialize (A o I). destruct (L o I) as [H|(_ & [H|H])]; auto.
Qed.
Lemma sort_none k keys sorted s s' v : sane E s -> callable E s (KSortKey keys sorted) -> run k E (KSortKey keys sorted) s = Ok s' v ->
  imm E (none E) = false -> v = VObj (none E) /\ cnt s' (none E) = cnt s (none E) + (if all_keys (length (elems s)) keys then 2 else 1).
Proof.
  intros W C Q I. assert (V : v = VObj (none E)).
  { cbn [run] in Q. unfold sort_key in Q. destruct (make_ints E (elems s) s) as [s1 items].
    destruct (call_keys E items keys [] s1) as [s2 ok| | |]; cbn [bind] in Q; try discriminate.
    match type of Q with bind ?x _ = _ => destruct x as [s3 t| | |]; cbn [bind] in Q; try discriminate end.
    destruct (decs E (somes items) s3) as [s4 t4| | |]; cbn [bind] in Q; try discriminate.
    unfold give in Q. match type of Q with bind ?x _ = _ => destruct x as [s5 t5| | |]; cbn [bind] in Q; try discriminate end. congruence. }
  split; auto. pose proof (run_ends E s W k _ C) as F. rewrite Q in F. destruct F as (F & _). rewrite (F _ I), V. simpl.
  destruct (all_keys (length (elems s)) keys); destruct k; simpl; rewrite ?Z.eqb_refl; lia.
Qed.
End More.
