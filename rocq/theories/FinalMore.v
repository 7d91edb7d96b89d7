(** Proofs for C70, continued: whole slice assignments, and finalizers that
    shorten, move or read the list. *)
From Coq Require Import ZArith List Bool Lia.
From Verif Require Import Base PyListSpec ListLemmas ArrayListModel ArrayListProofs ObjModel ObjSpec ObjLemmas ObjArrayProofs FinalModel FinalSpec FinalProofs.
Import ListNotations.
Local Open Scope Z_scope.
Local Arguments Z.pow : simpl never.
Local Arguments Z.add : simpl never.
Local Arguments Z.sub : simpl never.
Local Arguments Z.mul : simpl never.

Section Slices.
Variables (Q : list Z -> Prop) (F : fins).
Hypothesis (Q0 : Q []) (QA : forall x y, Q x -> Q y -> Q (x ++ y)) (QN : forall x, Q x -> ~ In 0 x) (HF : appends Q F).

Lemma slice_ok fast sl s : balanced s -> zlen (slots s) <= SSIZE_MAX -> step_of sl = 1 ->
  exists s' more, f_setslice F fast sl s = (Ret tt, s') /\ Q more /\
    slots s' = py_setslice (slots s) sl (src s) ++ more /\ src s' = src s /\
    forall p, p <> 0 -> 0 <= ext s' p /\
      slack s' p = if fast then - occ (skipn (Z.to_nat (slice_len (slots s) sl)) (src s)) p else 0.
Proof.
  intros B Hl S1. destruct (balanced_ok s B) as [X S]. destruct B as (B & N & NS).
  destruct (unpack_step1 (slots s) sl Hl S1) as (start & stop & U & Adj).
  pose proof (slice_len_eq (slots s) sl _ _ _ _ _ _ Hl U Adj) as SLE. rewrite SLE. clear SLE.
  unfold f_setslice. rewrite U, Adj. change (negb (1 =? 1)) with false. cbv iota zeta.
  destruct (slice_split (slots s) sl) as (a & b & c & E & La & Lb & Pp). rewrite Pp.
  assert (NB : ~ In 0 b) by (rewrite E, !in_app_iff in N; tauto).
  set (lo := lo_of (slots s) sl) in *. set (hi := hi_of (slots s) sl) in *. clearbody lo hi. replace (Z.max 0 (Z.max 0 (hi - lo))) with (zlen b) by lia. rewrite <- Lb in *.
  assert (CP : forall n, n = Z.min (zlen (src s)) (zlen b) ->
    exists s' more, (if fast then finish (f_fast_copy F (buf s) (sbuf s) n lo s) s else f_generic_copy F (buf s) (Z.to_nat n) 0 lo s) = (Ret tt, s') /\
      Q more /\ slots s' = a ++ firstn (Z.to_nat n) (src s) ++ skipn (Z.to_nat n) b ++ c ++ more /\ frame s s' /\ ext_ok s' /\
      forall p, p <> 0 -> slack s' p = slack s p).
  { intros n En. pose proof (zlen_nonneg (src s)). pose proof (zlen_nonneg b).
    assert (L1 : (Z.to_nat n <= length b)%nat) by (unfold zlen in *; lia).
    assert (L2 : (Z.to_nat n <= length (src s))%nat) by (unfold zlen in *; lia).
    assert (LB : length (firstn (Z.to_nat n) b) = Z.to_nat n) by (rewrite firstn_length; lia).
    assert (LY : length (firstn (Z.to_nat n) (src s)) = Z.to_nat n) by (rewrite firstn_length; lia).
    assert (E2 : slots s = a ++ firstn (Z.to_nat n) b ++ skipn (Z.to_nat n) b ++ c).
    { rewrite E at 1. f_equal. rewrite app_assoc, firstn_skipn. reflexivity. }
    assert (ES : src s = firstn (Z.to_nat n) (src s) ++ skipn (Z.to_nat n) (src s)) by (rewrite firstn_skipn; reflexivity).
    assert (N1 : ~ In 0 (firstn (Z.to_nat n) b)). { intros K. apply NB. rewrite <- (firstn_skipn (Z.to_nat n) b). apply in_or_app. auto. }
    assert (N2 : ~ In 0 (firstn (Z.to_nat n) (src s))). { intros K. apply NS. rewrite ES. apply in_or_app. auto. }
    destruct fast.
    - destruct (fast_copy_done Q F Q0 QA HF (firstn (Z.to_nat n) b) (firstn (Z.to_nat n) (src s)) (skipn (Z.to_nat n) (src s)) a (skipn (Z.to_nat n) b ++ c) s lo n)
        as (s' & m & R & Qm & Sl & Fr & X1 & K); auto; [congruence|unfold zlen; rewrite LB; lia|].
      rewrite R. exists s', m. split; [reflexivity|]. split; [exact Qm|]. split; [rewrite Sl, <- !app_assoc; reflexivity|]. auto.
    - destruct (generic_copy_done Q F Q0 QA HF (firstn (Z.to_nat n) b) [] (firstn (Z.to_nat n) (src s)) (skipn (Z.to_nat n) (src s)) a (skipn (Z.to_nat n) b ++ c) s lo)
        as (s' & m & R & Qm & Sl & Fr & X1 & K); auto; [change (zlen (@nil Z)) with 0; lia|congruence|].
      rewrite LB in R. change (zlen (@nil Z)) with 0 in R. rewrite R.
      exists s', m. split; [reflexivity|]. split; [exact Qm|]. split; [rewrite Sl, <- !app_assoc; reflexivity|]. auto. }
  destruct (Z.eqb_spec (zlen (src s)) (zlen b)) as [EL|NL]; [|destruct (Z.ltb_spec (zlen (src s)) (zlen b)) as [LT|GT]].
  - destruct (CP (zlen b)) as (s1 & m & R & Qm & Sl & (B1 & B2 & B3) & X1 & K); [lia|]. rewrite R.
    exists s1, m. split; [reflexivity|]. split; [exact Qm|].
    rewrite firstn_all2 in Sl by (unfold zlen in *; lia). rewrite (skipn_all2 b) in Sl by (unfold zlen in *; lia).
    split; [rewrite Sl; cbn [app]; rewrite <- !app_assoc; reflexivity|]. split; [exact B2|].
    intros p Hp. split; [apply X1, Hp|]. rewrite K by exact Hp. destruct (B p Hp) as [_ ->].
    rewrite skipn_all2 by (unfold zlen in *; lia). destruct fast; reflexivity.
  - destruct (CP (zlen (src s))) as (s1 & m & R & Qm & Sl & (B1 & B2 & B3) & X1 & K); [lia|]. rewrite R. unfold andthen. cbn [fst snd].
    rewrite firstn_all2 in Sl by (unfold zlen in *; lia).
    set (b2 := skipn (Z.to_nat (zlen (src s))) b) in *.
    assert (L2 : zlen b2 = zlen b - zlen (src s)).
    { unfold b2. unfold zlen at 1. rewrite skipn_length. unfold zlen in *. lia. }
    destruct (f_drop_range_ok Q F Q0 QA HF b2 (a ++ src s) (c ++ m) s1 (lo + zlen (src s)) (zlen b - zlen (src s)) hi) as (s2 & m2 & R2 & Q2 & Sl2 & (C1 & C2 & C3) & X2 & K2).
    + rewrite Sl, <- !app_assoc. reflexivity.
    + rewrite zlen_app. lia.
    + lia.
    + rewrite zlen_app. pose proof (zlen_nonneg (src s)). lia.
    + intros H. apply NB. rewrite <- (firstn_skipn (Z.to_nat (zlen (src s))) b). apply in_or_app. right. exact H.
    + exact X1.
    + intros p Hp. rewrite K by exact Hp. apply S, Hp.
    + rewrite B1 in R2. rewrite R2. cbn [finish]. exists s2, (m ++ m2). split; [reflexivity|]. split; [auto|].
      split; [rewrite Sl2, <- !app_assoc; reflexivity|]. split; [congruence|].
      intros p Hp. split; [apply X2, Hp|]. rewrite K2, K by exact Hp. destruct (B p Hp) as [_ ->].
      rewrite skipn_all2 by (unfold zlen in *; lia). destruct fast; reflexivity.
  - assert (G2 : zlen b < zlen (src s)) by lia.
    destruct (CP (zlen b)) as (s1 & m & R & Qm & Sl & (B1 & B2 & B3) & X1 & K); [lia|]. rewrite R. unfold andthen. cbn [fst snd].
    rewrite (skipn_all2 b) in Sl by (unfold zlen in *; lia). cbn [app] in Sl.
    set (y1 := firstn (Z.to_nat (zlen b)) (src s)) in *.
    assert (L1 : zlen y1 = zlen b). { unfold y1. unfold zlen at 1. rewrite firstn_length. unfold zlen in *. lia. }
    set (y2 := skipn (Z.to_nat (zlen b)) (src s)).
    assert (EY : src s = y1 ++ y2) by (unfold y1, y2; rewrite firstn_skipn; reflexivity).
    destruct fast.
    + unfold f_insert_src. rewrite B2. pose proof (zlen_nonneg a). pose proof (zlen_nonneg b).
      assert (LS : zlen (slots s1) = zlen a + zlen b + zlen c + zlen m) by (rewrite Sl, !zlen_app; lia).
      pose proof (zlen_nonneg c). pose proof (zlen_nonneg m).
      destruct (Z.leb_spec 0 (lo + zlen b)); [|lia]. destruct (Z.leb_spec (lo + zlen b) (zlen (slots s1))); [|lia].
      destruct (Z.leb_spec (zlen (src s)) (zlen (src s))); [|lia]. cbn [andb finish]. fold y2.
      rewrite (firstn_all2 y2) by (unfold y2; rewrite skipn_length; unfold zlen in *; lia).
      rewrite Sl, (app_assoc a y1), (firstn_zlen (a ++ y1)), (skipn_zlen (a ++ y1)) by (rewrite zlen_app; lia).
      eexists _, m. split; [reflexivity|]. split; [exact Qm|]. split.
      { cbn [slots with_slots]. rewrite EY, <- !app_assoc. reflexivity. }
      split; [exact B2|]. intros p Hp. split; [apply X1, Hp|]. rewrite slack_with_slots, K, Sl, !occ_app by exact Hp.
      destruct (B p Hp) as [_ ->]. lia.
    + destruct (generic_insert_done y2 y1 (a ++ y1) (c ++ m) s1 lo) as (s2 & R2 & Sl2 & (C1 & C2 & C3) & X2 & K2).
      * rewrite Sl, <- !app_assoc. reflexivity.
      * rewrite zlen_app. lia.
      * rewrite B2. exact EY.
      * intros H. apply NS. rewrite EY. apply in_or_app. auto.
      * exact X1.
      * intros p Hp. rewrite K by exact Hp. apply S, Hp.
      * replace (Z.to_nat (zlen (src s) - zlen b)) with (length y2) by (unfold y2; rewrite skipn_length; unfold zlen in *; lia).
        rewrite <- L1, R2. exists s2, m. split; [reflexivity|]. split; [exact Qm|].
        split; [rewrite Sl2, EY, <- !app_assoc; reflexivity|]. split; [congruence|].
        intros p Hp. split; [apply X2, Hp|]. rewrite K2, K by exact Hp. destruct (B p Hp) as [_ ->]. reflexivity.
Qed.
End Slices.

(** ** Finalizers that spoil the list under the loops *)
Section Spoiled.
Variables (F : fins) (o b n io : Z) (ys : list Z) (sb : Z).
Hypothesis (HO : only o F) (HS : spoils F o b n) (NY : ~ In o ys) (N0 : o <> 0).

(** Before the finalizer has run: [o] sits at [io], nowhere else, with one reference. *)
Definition before (t : ost) : Prop :=
  buf t = b /\ znth (slots t) io = Some o /\ (forall j, znth (slots t) j = Some o -> j = io) /\ rc t o = 1.
(** After it: the buffer is gone or too short. *)
Definition spoilt (t : ost) : Prop := buf t <> b \/ zlen (slots t) < n.
Definition phase (i : Z) (t : ost) : Prop := src t = ys /\ sbuf t = sb /\ ((before t /\ i <= io) \/ (spoilt t /\ io < i)).
Definition ends {A} (P : A -> Prop) (r : outcome A) : Prop :=
  match r with Ret a => P a | Undef _ => True | _ => False end.
Lemma ends_bind {A B} (P : A -> Prop) (R : B -> Prop) x f : ends P x -> (forall a, P a -> ends R (f a)) -> ends R (obind x f).
Proof. destruct x; cbn; intros H K; auto; contradiction. Qed.

Lemma zset_facts (l : list Z) i v l' : zset l i v = Some l' ->
  0 <= i < zlen l /\ zlen l' = zlen l /\ forall j, znth l' j = if j =? i then Some v else znth l j.
Proof.
  intros E. assert (I : 0 <= i < zlen l).
  { destruct (Z_le_dec 0 i) as [I0|I0]; [|unfold zset in E; destruct (Z.ltb_spec i 0); [discriminate|lia]].
    destruct (Z_lt_dec i (zlen l)) as [I1|I1]; [lia|]. exfalso.
    unfold zset in E. destruct (Z.ltb_spec i 0); [lia|]. unfold zlen in I1.
    assert (G : forall (m : list Z) k, (length m <= k)%nat -> nset m k v = None).
    { induction m as [|x m IH]; intros [|k] G; cbn in *; try reflexivity; [lia|]. rewrite IH by lia. reflexivity. }
    rewrite G in E by lia. discriminate. }
  split; [exact I|]. destruct (zsplit l i I) as (a & x & c & -> & L). rewrite (zset_mid a x c) in E by auto.
  injection E as <-. split; [rewrite !zlen_app, !zlen_cons; reflexivity|]. intros j. destruct (Z.eqb_spec j i) as [->|NE].
  - apply znth_mid. auto.
  - unfold znth. destruct (Z.ltb_spec j 0); [reflexivity|]. unfold zlen in L.
    destruct (Nat.lt_ge_cases (Z.to_nat j) (length a)).
    + rewrite !nth_error_app1 by assumption. reflexivity.
    + rewrite !nth_error_app2 by assumption. destruct (Z.to_nat j - length a)%nat eqn:E; [lia|]. reflexivity.
Qed.

(** Writing something else than [o] to an earlier slot. *)
Lemma store_phase i j v t : phase i t -> j < i -> v <> o ->
  ends (fun t' => phase i t' /\ buf t' = b /\ j < zlen (slots t')) (store b j v t).
Proof.
  intros (Sr & Sb & P) J V. unfold store. destruct (Z.eqb_spec b (buf t)) as [EB|]; [|exact I].
  destruct (zset (slots t) j v) as [l|] eqn:E; [|exact I]. cbn [or_ub obind ends].
  destruct (zset_facts _ _ _ _ E) as (I1 & L & Z1).
  split; [|cbn; split; [auto|lia]]. split; [exact Sr|]. split; [exact Sb|]. destruct P as [[(P1 & P2 & P3 & P4) Le]|[P Le]].
  - left. split; [|exact Le]. unfold before. cbn. split; [exact P1|]. split; [rewrite Z1; destruct (Z.eqb_spec io j); [lia|exact P2]|].
    split; [|exact P4]. intros k K. rewrite Z1 in K. destruct (Z.eqb_spec k j); [congruence|]. apply P3, K.
  - right. split; [|exact Le]. unfold spoilt in *. cbn. lia.
Qed.

(** Releasing slot [i]. *)
Lemma decref_phase i t : phase i t ->
  ends (fun t' => phase (i + 1) t' /\ buf t' = b /\ i < zlen (slots t')) (safe_decref F b i t).
Proof.
  intros (Sr & Sb & P). unfold safe_decref, load. destruct (Z.eqb_spec b (buf t)) as [EB|]; [|exact I].
  destruct (znth (slots t) i) as [p|] eqn:E; [|exact I]. cbn [or_ub obind].
  apply ends_bind with (P := phase (i + 1)); [|intros t' H; apply store_phase; [exact H|lia|auto]].
  unfold release. destruct (Z.eqb_spec p 0); [exact I|]. destruct (Z.leb_spec (rc t p) 0); [exact I|].
  destruct P as [[(P1 & P2 & P3 & P4) Le]|[P Le]].
  - destruct (Z.eq_dec i io) as [->|NI].
    + assert (p = o) by congruence. subst p. rewrite P4. change (1 =? 1) with true. cbv iota.
      destruct (HS t) as (t' & Ef & Es & Eb & Sp). rewrite Ef. destruct (Z.leb_spec (rc t' o) 0); [exact I|].
      cbn [ends]. split; [cbn; congruence|]. split; [cbn; congruence|]. right. split; [exact Sp|lia].
    + assert (NP : p <> o) by (intros ->; apply NI, P3, E).
      assert (K : forall c, c o = 1 -> phase (i + 1) (with_rc c t)).
      { intros c C. split; [exact Sr|]. split; [exact Sb|]. left. split; [|lia]. unfold before. cbn. auto. }
      destruct (Z.eqb_spec (rc t p) 1).
      * rewrite (HO p t NP). destruct (Z.leb_spec (rc t p) 0); [lia|]. cbn [ends]. apply K. unfold upd. destruct (Z.eqb_spec o p); [congruence|exact P4].
      * cbn [ends]. apply K. unfold upd. destruct (Z.eqb_spec o p); [congruence|exact P4].
  - assert (K : forall t' c, src t' = ys -> sbuf t' = sb -> spoilt t' -> phase (i + 1) (with_rc c t')).
    { intros t' c C1 C2 C3. split; [exact C1|]. split; [exact C2|]. right. split; [exact C3|lia]. }
    destruct (Z.eqb_spec (rc t p) 1); [|cbn [ends]; apply K; auto].
    destruct (Z.eq_dec p o) as [->|NP].
    + destruct (HS t) as (t' & Ef & Es & Eb & Sp). rewrite Ef. destruct (Z.leb_spec (rc t' o) 0); [exact I|].
      cbn [ends]. apply K; [congruence|congruence|exact Sp].
    + rewrite (HO p t NP). destruct (Z.leb_spec (rc t p) 0); [exact I|]. cbn [ends]. apply K; auto.
Qed.
Lemma incref_phase i y t : phase i t -> y <> o -> ends (fun c => phase i (with_rc c t)) (incref y (rc t)).
Proof.
  intros (Sr & Sb & P) N. unfold incref. destruct (Z.eqb_spec y 0); [exact I|]. destruct (Z.leb_spec (rc t y) 0); [exact I|]. cbn [ends].
  split; [exact Sr|]. split; [exact Sb|]. destruct P as [[(P1 & P2 & P3 & P4) Le]|P]; [|right; exact P].
  left. split; [|exact Le]. unfold before. cbn. unfold upd. destruct (Z.eqb_spec o y); [congruence|]. auto.
Qed.
Lemma in_ys i y : znth ys i = Some y -> y <> o.
Proof. intros E ->. apply NY. unfold znth in E. destruct (i <? 0); [discriminate|]. eapply nth_error_In, E. Qed.

(** What holds after [m] slots from [i] on. *)
Definition past (i : Z) (m : nat) (t : ost) : Prop :=
  phase (i + Z.of_nat m) t /\ (m <> O -> buf t = b /\ i + Z.of_nat m - 1 < zlen (slots t)).
Lemma drop_phase : forall m i t, phase i t -> ends (past i m) (drop_slots F b m i t).
Proof.
  induction m as [|m IH]; intros i t P; cbn [drop_slots].
  - split; [rewrite Z.add_0_r; exact P|congruence].
  - eapply ends_bind; [apply (decref_phase i t P)|]. cbn beta. intros t1 (P1 & B1 & L1). specialize (IH (i + 1) t1 P1).
    destruct (drop_slots F b m (i + 1) t1) as [t2| | |] eqn:E; cbn [ends] in *; auto. destruct IH as [P2 L2].
    split; [replace (i + Z.of_nat (Datatypes.S m)) with (i + 1 + Z.of_nat m) by lia; exact P2|]. intros _.
    destruct m as [|m]; [|replace (i + Z.of_nat (Datatypes.S (Datatypes.S m)) - 1) with (i + 1 + Z.of_nat (Datatypes.S m) - 1) by lia; apply L2; congruence].
    cbn in E. injection E as <-. split; [exact B1|lia].
Qed.
Lemma fast_release_phase : forall m i start t, phase (start + i) t -> ends (past (start + i) m) (fast_release F b sb m i start t).
Proof.
  induction m as [|m IH]; intros i start t P; cbn [fast_release].
  - split; [rewrite Z.add_0_r; exact P|congruence].
  - eapply ends_bind; [apply (decref_phase (start + i) t P)|]. cbn beta. intros t1 (P1 & B1 & L1).
    unfold load_src. destruct (Z.eqb_spec sb (sbuf t1)); [|exact I]. destruct (znth (src t1) i) as [y|] eqn:Ey; [|exact I]. cbn [or_ub obind].
    assert (Hy : y <> o) by (destruct P1 as (Sr & _ & _); rewrite Sr in Ey; eapply in_ys, Ey).
    eapply ends_bind; [apply (incref_phase (start + i + 1) y t1 P1 Hy)|]. cbn beta. intros c Pc.
    replace (start + i + 1) with (start + (i + 1)) in Pc by lia. specialize (IH (i + 1) start (with_rc c t1) Pc).
    destruct (fast_release F b sb m (i + 1) start (with_rc c t1)) as [t2| | |] eqn:E; cbn [ends] in *; auto. destruct IH as [P2 L2].
    split; [replace (start + i + Z.of_nat (Datatypes.S m)) with (start + (i + 1) + Z.of_nat m) by lia; exact P2|]. intros _.
    destruct m as [|m]; [|replace (start + i + Z.of_nat (Datatypes.S (Datatypes.S m)) - 1) with (start + (i + 1) + Z.of_nat (Datatypes.S m) - 1) by lia; apply L2; congruence].
    cbn in E. injection E as <-. cbn. split; [exact B1|lia].
Qed.
Lemma fast_write_phase : forall m i start t j, phase j t -> start + i + Z.of_nat m <= j -> ends (phase j) (fast_write b sb m i start t).
Proof.
  induction m as [|m IH]; intros i start t j P L; cbn [fast_write]; [exact P|].
  unfold load_src. destruct (Z.eqb_spec sb (sbuf t)); [|exact I]. destruct (znth (src t) i) as [y|] eqn:Ey; [|exact I]. cbn [or_ub obind].
  assert (Hy : y <> o) by (destruct P as (Sr & _ & _); rewrite Sr in Ey; eapply in_ys, Ey).
  eapply ends_bind; [apply (store_phase j (start + i) y t P); [lia|exact Hy]|]. cbn beta. intros t1 (P1 & _ & _). apply IH; [exact P1|lia].
Qed.
Definition ends2 (P : ost -> Prop) (r : outcome unit * ost) : Prop :=
  match fst r with Ret _ => P (snd r) | Undef _ => True | _ => False end.
Lemma generic_phase : forall m i start t, 0 <= i -> i + Z.of_nat m <= zlen ys -> phase (start + i) t ->
  ends2 (past (start + i) m) (f_generic_copy F b m i start t).
Proof.
  induction m as [|m IH]; intros i start t I0 IL P; cbn [f_generic_copy].
  - split; [cbn; rewrite Z.add_0_r; exact P|congruence].
  - pose proof P as (Sr & _ & _). unfold get_item. rewrite Sr. destruct (znth_in ys i) as (y & Ey); [lia|]. rewrite Ey.
    pose proof (in_ys i y Ey) as Hy. pose proof (incref_phase (start + i) y t P Hy) as H1.
    destruct (incref y (rc t)) as [c| | |]; cbn [obind ends] in *; try contradiction; [|exact I].
    pose proof (decref_phase (start + i) (with_rc c t) H1) as H2.
    destruct (safe_decref F b (start + i) (with_rc c t)) as [t1| | |]; cbn [obind ends] in *; try contradiction; [|exact I].
    destruct H2 as (P1 & B1 & L1).
    pose proof (store_phase (start + i + 1) (start + i) y t1 P1 ltac:(lia) Hy) as H3.
    destruct (store b (start + i) y t1) as [t2| | |]; cbn [ends] in *; try contradiction; [|exact I].
    destruct H3 as (P2 & B2 & L2). replace (start + i + 1) with (start + (i + 1)) in P2 by lia.
    specialize (IH (i + 1) start t2 ltac:(lia) ltac:(lia) P2).
    destruct (f_generic_copy F b m (i + 1) start t2) as [v t3] eqn:E. unfold ends2 in *. cbn [fst snd] in *.
    destruct v; auto. destruct IH as [P3 L3].
    split; [replace (start + i + Z.of_nat (Datatypes.S m)) with (start + (i + 1) + Z.of_nat m) by lia; exact P3|]. intros _.
    destruct m as [|m]; [|replace (start + i + Z.of_nat (Datatypes.S (Datatypes.S m)) - 1) with (start + (i + 1) + Z.of_nat (Datatypes.S m) - 1) by lia; apply L3; congruence].
    cbn in E. injection E as _ <-. split; [exact B2|lia].
Qed.
(** The whole range has been released: impossible. *)
Lemma past_all i m t : past i m t -> i <= io < i + Z.of_nat m -> n = i + Z.of_nat m -> False.
Proof.
  intros ((_ & _ & P) & L) R E. destruct L as [L1 L2]; [lia|]. destruct P as [[_ P]|[P _]]; [lia|]. destruct P as [P|P]; [congruence|lia].
Qed.
End Spoiled.

Lemma dies_facts s o a c : balanced s -> slots s = a ++ o :: c -> rc s o = 1 ->
  o <> 0 /\ ~ In o (src s) /\ before o (buf s) (zlen a) s.
Proof.
  intros (B & N & NS) E R. assert (NZ : o <> 0) by (intros ->; apply N; rewrite E; apply in_or_app; right; left; reflexivity).
  destruct (B o NZ) as [X S]. unfold slack in S. rewrite E, occ_app in S. cbn [occ] in S. rewrite Z.eqb_refl in S.
  pose proof (occ_nonneg a o). pose proof (occ_nonneg c o). pose proof (occ_nonneg (src s) o).
  split; [exact NZ|]. split; [intros I; apply occ_in in I; lia|]. split; [reflexivity|].
  split; [rewrite E; apply znth_mid; reflexivity|]. split; [|exact R].
  intros j J. pose proof (znth_some _ _ _ J) as JB. rewrite E in J. unfold znth in J. destruct (Z.ltb_spec j 0); [discriminate|].
  destruct (Z.lt_trichotomy j (zlen a)) as [L|[L|L]]; [|exact L|]; exfalso; unfold zlen in L.
  - rewrite nth_error_app1 in J by lia. apply nth_error_In, occ_in in J. lia.
  - rewrite nth_error_app2 in J by lia. destruct (Z.to_nat j - length a)%nat as [|d] eqn:D; [lia|]. cbn in J. apply nth_error_In, occ_in in J. lia.
Qed.

Lemma clear_spoiled F o s : balanced s -> In o (slots s) -> rc s o = 1 -> only o F -> spoils F o (buf s) (zlen (slots s)) ->
  exists u, f_clear F s = Undef u.
Proof.
  intros B IN R HO HS. destruct (in_split o (slots s) IN) as (a & c & E).
  destruct (dies_facts s o a c B E R) as (NZ & NY & BF).
  pose proof (drop_phase F o (buf s) (zlen (slots s)) (zlen a) (src s) (sbuf s) HO HS NZ (length (slots s)) 0 s) as H.
  unfold f_clear. destruct (drop_slots F (buf s) (length (slots s)) 0 s) as [t| | |u]; cbn [ends obind] in *.
  - exfalso. eapply past_all; [apply H| |].
    + split; [reflexivity|]. split; [reflexivity|]. left. split; [exact BF|]. apply zlen_nonneg.
    + rewrite E. rewrite app_length. cbn [length]. unfold zlen. lia.
    + unfold zlen. lia.
  - exfalso. apply H. split; [reflexivity|]. split; [reflexivity|]. left. split; [exact BF|]. apply zlen_nonneg.
  - exfalso. apply H. split; [reflexivity|]. split; [reflexivity|]. left. split; [exact BF|]. apply zlen_nonneg.
  - eauto.
Qed.

Lemma slice_spoiled F fast i j k o s : balanced s -> zlen (slots s) <= SSIZE_MAX ->
  0 <= i -> i <= k < j -> j <= zlen (slots s) -> znth (slots s) k = Some o -> rc s o = 1 -> only o F -> spoils F o (buf s) j ->
  exists u, fst (f_setslice F fast {| sl_start := Some i; sl_stop := Some j; sl_step := None |} s) = Undef u.
Proof.
  intros B Hl I0 K J EK R HO HS. set (sl := {| sl_start := Some i; sl_stop := Some j; sl_step := None |}).
  destruct (zsplit (slots s) k) as (a & o' & c & E & La); [lia|].
  assert (o' = o) by (rewrite E, znth_mid in EK by auto; congruence). subst o'.
  destruct (dies_facts s o a c B E R) as (NZ & NY & BF). rewrite La in BF.
  destruct (unpack_step1 (slots s) sl Hl eq_refl) as (start & stop & U & Adj).
  assert (Lo : lo_of (slots s) sl = i) by (unfold lo_of, sl, clamp, rel; cbn; destruct (Z.ltb_spec i 0); lia).
  assert (Hi : hi_of (slots s) sl = j) by (unfold hi_of, sl, clamp, rel; cbn; destruct (Z.ltb_spec j 0); lia).
  rewrite Lo, Hi, Z.max_r in Adj by lia. unfold f_setslice. rewrite U, Adj. change (negb (1 =? 1)) with false. cbv iota zeta.
  assert (P0 : phase o (buf s) j k (src s) (sbuf s) i s) by (split; [reflexivity|]; split; [reflexivity|]; left; split; [exact BF|lia]).
  assert (CP : forall m, 0 <= m <= j - i -> m <= zlen (src s) ->
    let r := if fast then finish (f_fast_copy F (buf s) (sbuf s) m i s) s else f_generic_copy F (buf s) (Z.to_nat m) 0 i s in
    ends2 (phase o (buf s) j k (src s) (sbuf s) (i + m)) r /\ (m = j - i -> exists u, fst r = Undef u)).
  { intros m M1 M2. cbv zeta. destruct fast.
    - unfold f_fast_copy.
      pose proof (fast_release_phase F o (buf s) j k (src s) (sbuf s) HO HS NY NZ (Z.to_nat m) 0 i s) as H.
      rewrite Z.add_0_r in H. specialize (H P0). destruct (fast_release F (buf s) (sbuf s) (Z.to_nat m) 0 i s) as [t| | |u]; cbn [ends obind] in *; try contradiction.
      + destruct (Z.eq_dec m (j - i)) as [EM|NM].
        { exfalso. eapply past_all; [exact H| |]; lia. }
        split; [|contradiction]. destruct H as [H _]. replace (i + Z.of_nat (Z.to_nat m)) with (i + m) in H by lia.
        pose proof (fast_write_phase o (buf s) j k (src s) (sbuf s) NY (Z.to_nat m) 0 i t (i + m) H ltac:(lia)) as W.
        destruct (fast_write (buf s) (sbuf s) (Z.to_nat m) 0 i t); cbn in *; auto.
      + split; [exact I|]. intros _. exists u. reflexivity.
    - pose proof (generic_phase F o (buf s) j k (src s) (sbuf s) HO HS NY NZ (Z.to_nat m) 0 i s ltac:(lia)) as H.
      rewrite Z.add_0_r in H. specialize (H ltac:(lia) P0).
      destruct (f_generic_copy F (buf s) (Z.to_nat m) 0 i s) as [v t]. unfold ends2 in *. cbn [fst snd] in *.
      destruct v; try contradiction.
      + destruct (Z.eq_dec m (j - i)) as [EM|NM].
        { exfalso. eapply past_all; [exact H| |]; lia. }
        split; [|contradiction]. destruct H as [H _]. replace (i + Z.of_nat (Z.to_nat m)) with (i + m) in H by lia. exact H.
      + split; [exact I|]. intros _. eauto. }
  pose proof (zlen_nonneg (src s)).
  destruct (Z.eqb_spec (zlen (src s)) (j - i)) as [EL|NL]; [|destruct (Z.ltb_spec (zlen (src s)) (j - i)) as [LT|GT]].
  - destruct (CP (j - i)) as [_ CU]; [lia|lia|]. apply CU. reflexivity.
  - destruct (CP (zlen (src s))) as [C1 _]; [lia|lia|]. cbv zeta in C1.
    set (r := if fast then _ else _) in *. destruct r as [v t]. unfold ends2, andthen in *. cbn [fst snd] in *.
    destruct v as [[]| | |u]; try contradiction; [|eexists; reflexivity].
    pose proof (drop_phase F o (buf s) j k (src s) (sbuf s) HO HS NZ (Z.to_nat (j - i - zlen (src s))) (i + zlen (src s)) t C1) as D.
    unfold f_drop_range. destruct (drop_slots F (buf s) (Z.to_nat (j - i - zlen (src s))) (i + zlen (src s)) t) as [t2| | |u] eqn:ED; cbn [ends obind] in *; try contradiction; [|eexists; reflexivity].
    exfalso. destruct (Z_lt_dec k (i + zlen (src s))).
    + destruct D as ((_ & _ & D) & D2). destruct D2 as [D3 D4]; [lia|]. destruct D as [[_ D]|[[D|D] _]]; [lia|congruence|lia].
    + eapply past_all; [exact D| |]; lia.
  - destruct (CP (j - i)) as [_ CU]; [lia|lia|]. destruct (CU eq_refl) as (u & EU).
    set (r := if fast then _ else _) in *. destruct r as [v t]. unfold andthen. cbn [fst snd] in *. rewrite EU. cbn. eauto.
Qed.

(** ** del x[i], whatever the finalizer does *)
Lemma del_dying F i k o s : k = rel (zlen (slots s)) i -> znth (slots s) k = Some o -> o <> 0 -> rc s o = 1 ->
  f_del F i s =
    match F o s with
    | inr u => Undef u
    | inl t =>
        if rc t o <=? 0 then Undef UseAfterFree
        else if negb (buf t =? buf s) then Undef UseAfterFree
        else if zlen (slots t) <=? k then Undef OutOfBounds
        else Ret (with_slots (firstn (Z.to_nat k) (slots t) ++ skipn (Z.to_nat k + 1) (slots t)) (with_rc (upd (rc t) o (rc t o - 1)) t))
    end.
Proof.
  intros K E NZ R. pose proof (znth_some _ _ _ E) as KB. unfold f_del.
  replace (if i <? 0 then zlen (slots s) + i else i) with k by (subst k; unfold rel; destruct (i <? 0); lia).
  destruct (Z.ltb_spec k 0); [lia|]. destruct (Z.leb_spec (zlen (slots s)) k); [lia|]. cbn [orb].
  unfold safe_decref, load. rewrite Z.eqb_refl, E. cbn [or_ub obind]. unfold release.
  destruct (Z.eqb_spec o 0); [contradiction|]. rewrite R. change (1 <=? 0) with false. change (1 =? 1) with true. cbv iota.
  destruct (F o s) as [t|u]; [|reflexivity]. destruct (Z.leb_spec (rc t o) 0); [reflexivity|]. cbn [obind].
  unfold store. cbn [buf with_rc slots]. rewrite (Z.eqb_sym (buf t)). destruct (Z.eqb_spec (buf s) (buf t)); [|reflexivity]. cbn [negb].
  destruct (Z.leb_spec (zlen (slots t)) k) as [L|L].
  - destruct (zset (slots t) k 0) as [l|] eqn:Z1; [|reflexivity]. apply zset_facts in Z1. lia.
  - destruct (zsplit (slots t) k) as (a & x & c & E2 & La); [lia|]. rewrite E2.
    rewrite (zset_mid a x c) by auto. cbn [or_ub obind]. cbn [slots with_slots]. rewrite (zerase_mid a 0 c) by auto. cbn [or_ub obind].
    rewrite firstn_zlen, skipn1_zlen by auto. reflexivity.
Qed.
Lemma del_shared F i k o s : k = rel (zlen (slots s)) i -> znth (slots s) k = Some o -> o <> 0 -> 1 < rc s o ->
  f_del F i s = Ret (with_slots (firstn (Z.to_nat k) (slots s) ++ skipn (Z.to_nat k + 1) (slots s)) (with_rc (upd (rc s) o (rc s o - 1)) s)).
Proof.
  intros K E NZ R. pose proof (znth_some _ _ _ E) as KB. unfold f_del.
  replace (if i <? 0 then zlen (slots s) + i else i) with k by (subst k; unfold rel; destruct (i <? 0); lia).
  destruct (Z.ltb_spec k 0); [lia|]. destruct (Z.leb_spec (zlen (slots s)) k); [lia|]. cbn [orb].
  unfold safe_decref, load. rewrite Z.eqb_refl, E. cbn [or_ub obind]. unfold release.
  destruct (Z.eqb_spec o 0); [contradiction|]. destruct (Z.leb_spec (rc s o) 0); [lia|]. destruct (Z.eqb_spec (rc s o) 1); [lia|]. cbn [obind].
  unfold store. cbn [buf with_rc slots]. rewrite Z.eqb_refl.
  destruct (zsplit (slots s) k) as (a & x & c & E2 & La); [lia|]. rewrite E2.
  rewrite (zset_mid a x c) by auto. cbn [or_ub obind]. cbn [slots with_slots]. rewrite (zerase_mid a 0 c) by auto. cbn [or_ub obind].
  rewrite firstn_zlen, skipn1_zlen by auto. reflexivity.
Qed.

(** ** remove: the caller holds a reference, so no finalizer runs *)
Lemma remove_any F o s : o <> 0 -> ext_ok s -> slack_ok s -> 1 <= ext s o ->
  f_remove F o s =
    match occurrences (slots s) o with
    | [] => Raise ValueError
    | k :: _ => Ret (with_rc (upd (rc s) o (rc s o - 1)) (with_slots (firstn (Z.to_nat k) (slots s) ++ skipn (Z.to_nat k + 1) (slots s)) s))
    end.
Proof.
  intros NZ X S P. unfold f_remove. rewrite std_find_all. cbn [obind].
  destruct (occurrences (slots s) o) as [|k r] eqn:E; [rewrite Z.eqb_refl; reflexivity|].
  assert (K : In k (occurrences (slots s) o)) by (rewrite E; left; reflexivity).
  unfold occurrences in K. apply filter_In in K. destruct K as [K1 K2]. apply in_positions in K1. fold (zlen (slots s)) in K1. apply Z.eqb_eq in K2.
  destruct (Z.eqb_spec k (zlen (slots s))); [lia|].
  destruct (zsplit (slots s) k K1) as (a & x & c & E2 & La). assert (x = o) by (rewrite E2, get_default_mid in K2 by auto; exact K2). subst x.
  assert (R : 2 <= rc s o).
  { specialize (S o NZ). unfold slack in S. rewrite E2, occ_app in S. cbn [occ] in S. rewrite Z.eqb_refl in S.
    pose proof (occ_nonneg a o). pose proof (occ_nonneg c o). pose proof (occ_nonneg (src s) o). lia. }
  rewrite E2, zerase_mid, firstn_zlen, skipn1_zlen by auto. cbn [or_ub obind]. unfold release.
  destruct (Z.eqb_spec o 0); [contradiction|]. cbn [rc with_slots]. destruct (Z.leb_spec (rc s o) 0); [lia|]. destruct (Z.eqb_spec (rc s o) 1); [lia|]. reflexivity.
Qed.

(** ** A finalizer that reads the list while it is being cleared *)
Lemma clear_read F o s a c : balanced s -> slots s = a ++ o :: c -> a <> [] -> rc s o = 1 -> only o F ->
  (forall t, F o t = match f_get 0 t with Ret t' => inl t' | Undef u => inr u | _ => inl t end) ->
  f_clear F s = Undef NullDeref.
Proof.
  intros B E NA R HO HF. destruct (dies_facts s o a c B E R) as (NZ & NY & BF). destruct B as (B & N & NS).
  destruct a as [|p a]; [contradiction|]. clear NA.
  unfold f_clear.
  (* the part before [o] *)
  assert (G : forall b pre t i, slots t = pre ++ b ++ o :: c -> i = zlen pre -> buf t = buf s -> ~ In 0 b -> ~ In o b ->
    rc t o = 1 -> (forall x, x <> 0 -> occ b x <= rc t x) ->
    exists t', (forall m, drop_slots F (buf s) (length b + m) i t = drop_slots F (buf s) m (i + zlen b) t') /\ slots t' = pre ++ repeat 0 (length b) ++ o :: c /\ buf t' = buf s /\ rc t' o = 1).
  { induction b as [|x b IH]; intros pre t i Et Ei Bt N1 N2 Rt Hb.
    - exists t. split; [intros m; change (zlen (@nil Z)) with 0; rewrite Z.add_0_r; reflexivity|]. auto.
    - cbn [app] in Et. assert (NX : x <> 0) by (intros ->; apply N1; left; reflexivity).
      assert (XO : x <> o) by (intros ->; apply N2; left; reflexivity).
      assert (RX : 0 < rc t x). { specialize (Hb x NX). cbn [occ] in Hb. rewrite Z.eqb_refl in Hb. pose proof (occ_nonneg b x). lia. }
      assert (RL : release F x t = Ret (with_rc (upd (rc t) x (rc t x - 1)) t)).
      { unfold release. destruct (Z.eqb_spec x 0); [contradiction|]. destruct (Z.leb_spec (rc t x) 0); [lia|].
        rewrite (HO x t XO). destruct (Z.leb_spec (rc t x) 0); [lia|]. destruct (rc t x =? 1); reflexivity. }
      assert (SD : safe_decref F (buf s) i t = Ret (with_slots (pre ++ 0 :: b ++ o :: c) (with_rc (upd (rc t) x (rc t x - 1)) t))).
      { unfold safe_decref. rewrite (load_mid _ pre x (b ++ o :: c)) by auto. cbn [obind]. rewrite RL. cbn [obind].
        rewrite (store_mid _ pre x (b ++ o :: c)) by auto. reflexivity. }
      destruct (IH (pre ++ [0]) (with_slots (pre ++ 0 :: b ++ o :: c) (with_rc (upd (rc t) x (rc t x - 1)) t)) (i + 1)) as (t' & R' & S' & B' & O').
      + cbn. rewrite <- app_assoc. reflexivity.
      + rewrite zlen_app. subst i. reflexivity.
      + exact Bt.
      + intros H; apply N1; right; exact H.
      + intros H; apply N2; right; exact H.
      + cbn. unfold upd. destruct (Z.eqb_spec o x); [congruence|exact Rt].
      + intros y Ny. cbn [rc with_slots with_rc]. rewrite upd_minus. specialize (Hb y Ny). cbn [occ] in *. lia.
      + exists t'. split; [|split; [rewrite S', <- app_assoc; reflexivity|auto]]. intros m. cbn [length Nat.add drop_slots]. rewrite SD. cbn [obind].
        rewrite R', zlen_cons. f_equal. lia. }
  assert (NO : ~ In o (p :: a)).
  { intros H. destruct BF as (_ & _ & U & _). destruct (in_split o (p :: a) H) as (u & v & Ev).
    assert (L : zlen u = zlen (p :: a)). { apply U. rewrite E, Ev, <- app_assoc. cbn [app]. apply znth_mid. reflexivity. }
    rewrite Ev, zlen_app, zlen_cons in L. pose proof (zlen_nonneg v). lia. }
  destruct (G (p :: a) [] s 0) as (t & Rt & St & Bt & Ot); auto.
  { intros H. apply N. rewrite E. apply in_or_app. auto. }
  { intros x NX. destruct (B x NX) as [X S]. unfold slack in S. rewrite E, occ_app in S. pose proof (occ_nonneg (o :: c) x). pose proof (occ_nonneg (src s) x). lia. }
  specialize (Rt (Datatypes.S (length c))).
  replace (length (p :: a) + Datatypes.S (length c))%nat with (length (slots s)) in Rt by (rewrite E, app_length; reflexivity).
  rewrite Rt. cbn [drop_slots]. unfold safe_decref. cbn [repeat length app] in St.
  rewrite (load_mid (buf s) (0 :: repeat 0 (length a)) o c t).
  - cbn [obind]. unfold release. destruct (Z.eqb_spec o 0); [contradiction|]. rewrite Ot. change (1 <=? 0) with false. change (1 =? 1) with true. cbv iota.
    rewrite HF. unfold f_get. rewrite St, zlen_cons. change (0 <? 0) with false. cbv iota.
    destruct (Z.leb_spec (1 + zlen (repeat 0 (length a) ++ o :: c)) 0) as [L|L]; [pose proof (zlen_nonneg (repeat 0 (length a) ++ o :: c)); lia|].
    reflexivity.
  - auto.
  - exact St.
  - unfold zlen. cbn [length]. rewrite repeat_length. lia.
Qed.

(** ** Finalizers that insert in front, or delete their own slot *)
Lemma del_dangling F i k o x s : k = rel (zlen (slots s)) i -> znth (slots s) k = Some o -> balanced s -> rc s o = 1 -> x <> o ->
  F o s = inl (with_slots (x :: slots s) (with_rc (upd (rc s) x (rc s x + 1)) s)) ->
  exists t, f_del F i s = Ret t /\ znth (slots t) k = Some o /\ rc t o = 0 /\ f_get k t = Undef UseAfterFree.
Proof.
  intros K E B R NX HF. pose proof (znth_some _ _ _ E) as KB. destruct B as (B & N & _).
  assert (NZ : o <> 0). { intros ->. apply N. unfold znth in E. destruct (k <? 0); [discriminate|]. eapply nth_error_In, E. }
  rewrite (del_dying F i k o s K E NZ R), HF. cbn [rc slots buf with_slots with_rc].
  assert (U : upd (rc s) x (rc s x + 1) o = 1) by (unfold upd; destruct (Z.eqb_spec o x); [congruence|exact R]).
  rewrite U. change (1 <=? 0) with false. rewrite Z.eqb_refl. cbn [negb]. cbv iota. rewrite zlen_cons.
  destruct (Z.leb_spec (1 + zlen (slots s)) k); [lia|]. eexists. split; [reflexivity|]. cbn [slots with_slots with_rc rc].
  destruct (zsplit (slots s) k KB) as (a & y & c & E2 & La). assert (y = o) by (rewrite E2, znth_mid in E by auto; congruence). subst y.
  assert (SL : firstn (Z.to_nat k) (x :: slots s) ++ skipn (Z.to_nat k + 1) (x :: slots s) = firstn (Z.to_nat k) (x :: a) ++ o :: c).
  { rewrite E2. f_equal.
    - change (x :: a ++ o :: c) with ((x :: a) ++ o :: c). rewrite firstn_app. replace (Z.to_nat k - length (x :: a))%nat with O by (cbn; unfold zlen in La; lia).
      cbn [firstn]. apply app_nil_r.
    - rewrite Nat.add_1_r. cbn [skipn]. apply skipn_zlen. auto. }
  assert (Z1 : znth (firstn (Z.to_nat k) (x :: slots s) ++ skipn (Z.to_nat k + 1) (x :: slots s)) k = Some o).
  { rewrite SL. apply znth_mid. unfold zlen. rewrite firstn_length. cbn [length]. unfold zlen in *. lia. }
  assert (RO : upd (upd (rc s) x (rc s x + 1)) o (1 - 1) o = 0) by (unfold upd; rewrite Z.eqb_refl; reflexivity).
  split; [exact Z1|]. split; [exact RO|]. unfold f_get. cbn [slots with_slots with_rc rc].
  destruct (Z.ltb_spec k 0); [lia|]. pose proof (znth_some _ _ _ Z1) as [_ L]. cbn [orb].
  set (l := firstn (Z.to_nat k) (x :: slots s) ++ skipn (Z.to_nat k + 1) (x :: slots s)) in *.
  destruct (Z.leb_spec (zlen l) k); [lia|]. rewrite Z1. cbn [or_ub obind]. unfold incref.
  destruct (Z.eqb_spec o 0); [contradiction|]. rewrite RO. destruct (Z.ltb_spec k 0); [lia|]. reflexivity.
Qed.

(** The finalizer of an object still in the list executes the very deletion:
    the second release ends its life inside the first. [G] is what further
    finalizers would do; none is reached but that of [o], which has run. *)
Lemma del_itself F G i k o s : k = rel (zlen (slots s)) i -> znth (slots s) k = Some o -> o <> 0 -> rc s o = 1 ->
  G o s = inl s -> F o s = match f_del G i s with Ret t => inl t | Undef u => inr u | _ => inl s end ->
  f_del F i s = Undef UseAfterFree.
Proof.
  intros K E NZ R HG HF. pose proof (znth_some _ _ _ E) as KB.
  rewrite (del_dying F i k o s K E NZ R), HF, (del_dying G i k o s K E NZ R), HG, R.
  change (1 <=? 0) with false. rewrite Z.eqb_refl. cbn [negb]. cbv iota. destruct (Z.leb_spec (zlen (slots s)) k); [lia|].
  cbn [rc with_slots with_rc]. unfold upd. rewrite Z.eqb_refl. reflexivity.
Qed.

(** ** Without finalizers: the model of C35 *)
Definition quiet : fins := fun _ t => inl t.
Lemma release_quiet o s : release quiet o s = omap (fun c => with_rc c s) (decref o (rc s)).
Proof.
  unfold release, decref, quiet. destruct (o =? 0); [reflexivity|]. destruct (Z.leb_spec (rc s o) 0); [reflexivity|].
  destruct (rc s o =? 1); reflexivity.
Qed.
Definition as_call (r : outcome ost) (s : ost) : ObjModel.ores (list Z) :=
  match r with
  | Ret t => (Ret ONone, (slots t, rc t)) | Raise e => (Raise e, (slots s, rc s))
  | RetPending _ e => (Raise e, (slots s, rc s)) | Undef u => (Undef u, (slots s, rc s))
  end.
Lemma quiet_del i s : as_call (f_del quiet i s) s = ObjArrayModel.a_setitem i None (slots s) (rc s).
Proof.
  unfold f_del, ObjArrayModel.a_setitem. set (k := if i <? 0 then zlen (slots s) + i else i).
  destruct (Z.ltb_spec k 0); [reflexivity|]. destruct (Z.leb_spec (zlen (slots s)) k); [reflexivity|]. cbn [orb].
  destruct (zsplit (slots s) k) as (a & x & c & E & La); [lia|].
  unfold safe_decref. rewrite (load_mid _ a x c) by auto. cbn [obind]. rewrite release_quiet, E, znth_mid, zerase_mid by auto.
  unfold owith. destruct (decref x (rc s)) as [c'| |? e|u] eqn:D; cbn [omap obind as_call]; [|rewrite E; reflexivity| |rewrite E; reflexivity].
  - rewrite (store_mid _ a x c) by auto. cbn [obind slots with_slots]. rewrite zerase_mid by auto. reflexivity.
  - unfold decref in D. destruct (x =? 0); [discriminate|]. destruct (rc s x <=? 0); discriminate.
Qed.
Lemma quiet_drop : forall b a c s i, slots s = a ++ b ++ c -> i = zlen a ->
  drop_slots quiet (buf s) (length b) i s =
  omap (fun r => with_rc r (with_slots (a ++ repeat 0 (length b) ++ c) s)) (decref_all b (rc s)).
Proof.
  induction b as [|x b IH]; intros a c s i E I; cbn [length drop_slots decref_all repeat app].
  - cbn [omap obind]. cbn [app] in E. rewrite <- E. destruct s; reflexivity.
  - cbn [app] in E. unfold safe_decref. rewrite (load_mid _ a x (b ++ c)) by auto. cbn [obind]. rewrite release_quiet.
    assert (D : (exists r, decref x (rc s) = Ret r) \/ exists u, decref x (rc s) = Undef u).
    { unfold decref. destruct (x =? 0); [eauto|]. destruct (rc s x <=? 0); eauto. }
    destruct D as [[r D]|[u D]]; rewrite D; cbn [omap obind]; [|reflexivity].
    rewrite (store_mid _ a x (b ++ c)) by auto. cbn [obind].
    specialize (IH (a ++ [0]) c (with_slots (a ++ 0 :: b ++ c) (with_rc r s)) (i + 1)).
    cbn [buf rc with_slots with_rc] in IH. rewrite IH.
    + f_equal. unfold with_rc, with_slots. cbn. rewrite <- app_assoc. reflexivity.
    + cbn. rewrite <- app_assoc. reflexivity.
    + rewrite zlen_app. subst i. reflexivity.
Qed.
Lemma quiet_clear s : as_call (f_clear quiet s) s = ObjArrayModel.a_clear (slots s) (rc s).
Proof.
  unfold f_clear, ObjArrayModel.a_clear. rewrite (quiet_drop (slots s) [] [] s 0) by (rewrite ?app_nil_r; reflexivity).
  assert (D : (exists r, decref_all (slots s) (rc s) = Ret r) \/ exists u, decref_all (slots s) (rc s) = Undef u).
  { generalize (rc s). induction (slots s) as [|x l IH]; intros r; cbn [decref_all]; [eauto|]. unfold decref.
    destruct (x =? 0); [cbn; eauto|]. destruct (r x <=? 0); cbn [obind]; eauto. }
  destruct D as [[r D]|[u D]]; rewrite D; reflexivity.
Qed.

(** ** The statements of C70 *)
Lemma none_nil : none []. Proof. reflexivity. Qed.
Lemma none_app x y : none x -> none y -> none (x ++ y). Proof. unfold none. intros -> ->. reflexivity. Qed.
Lemma none_not x : none x -> ~ In 0 x. Proof. unfold none. intros ->. auto. Qed.

Lemma del_polite F s i : polite F -> balanced s ->
  let k := rel (zlen (slots s)) i in 0 <= k < zlen (slots s) ->
  exists s', f_del F i s = Ret s' /\
    slots s' = firstn (Z.to_nat k) (slots s) ++ skipn (Z.to_nat k + 1) (slots s) /\ src s' = src s /\ balanced s'.
Proof.
  intros HF B k Hk. destruct (del_ok none F none_nil none_not HF s i B Hk) as (s' & m & R & -> & Sl & K).
  exists s'. rewrite app_nil_r in Sl. auto.
Qed.
Lemma del_appending Q F s i : runs Q -> appends Q F -> balanced s ->
  let k := rel (zlen (slots s)) i in 0 <= k < zlen (slots s) ->
  exists s' more, f_del F i s = Ret s' /\ Q more /\
    slots s' = (firstn (Z.to_nat k) (slots s) ++ skipn (Z.to_nat k + 1) (slots s)) ++ more /\ src s' = src s /\ balanced s'.
Proof.
  intros (Q0 & _ & QN) HF B k Hk. exact (del_ok Q F Q0 QN HF s i B Hk).
Qed.
Lemma remove_balanced F o s : o <> 0 -> balanced s -> 1 <= ext s o ->
  f_remove F o s =
  match occurrences (slots s) o with
  | [] => Raise ValueError
  | k :: _ => Ret (with_rc (upd (rc s) o (rc s o - 1))
                (with_slots (firstn (Z.to_nat k) (slots s) ++ skipn (Z.to_nat k + 1) (slots s)) s))
  end.
Proof. intros Ho B E. destruct (balanced_ok s B). apply remove_any; auto. Qed.
Lemma clear_polite F s : polite F -> balanced s ->
  exists s', f_clear F s = Ret s' /\ slots s' = [] /\ src s' = src s /\ balanced s'.
Proof.
  intros HF B. destruct (clear_ok none F none_nil none_app HF s B) as (s' & m & R & -> & Sl & (F1 & F2 & F3) & X & K).
  exists s'. do 3 (split; [assumption|]). split; [intros p Hp; split; [apply X, Hp|apply K, Hp]|].
  rewrite Sl, F2. split; [intros []|apply B].
Qed.
Lemma clear_appending Q F s : runs Q -> appends Q F -> balanced s ->
  exists s' more, f_clear F s = Ret s' /\ Q more /\ slots s' = [] /\ src s' = src s /\
    forall p, p <> 0 -> 0 <= ext s' p /\ slack s' p = occ more p.
Proof.
  intros (Q0 & QA & _) HF B. destruct (clear_ok Q F Q0 QA HF s B) as (s' & m & R & Qm & Sl & (F1 & F2 & F3) & X & K).
  exists s', m. auto 10.
Qed.
Lemma slice_polite F fast sl s : polite F -> balanced s -> zlen (slots s) <= SSIZE_MAX -> step_of sl = 1 ->
  exists s', f_setslice F fast sl s = (Ret tt, s') /\ slots s' = py_setslice (slots s) sl (src s) /\ src s' = src s /\
    forall p, p <> 0 -> 0 <= ext s' p /\
      slack s' p = if fast then - occ (skipn (Z.to_nat (slice_len (slots s) sl)) (src s)) p else 0.
Proof.
  intros HF B L S1. destruct (slice_ok none F none_nil none_app HF fast sl s B L S1) as (s' & m & R & -> & Sl & K).
  exists s'. rewrite app_nil_r in Sl. auto.
Qed.
Lemma slice_appending Q F fast sl s : runs Q -> appends Q F -> balanced s -> zlen (slots s) <= SSIZE_MAX -> step_of sl = 1 ->
  exists s' more, f_setslice F fast sl s = (Ret tt, s') /\ Q more /\ slots s' = py_setslice (slots s) sl (src s) ++ more /\ src s' = src s /\
    forall p, p <> 0 -> 0 <= ext s' p /\
      slack s' p = if fast then - occ (skipn (Z.to_nat (slice_len (slots s) sl)) (src s)) p else 0.
Proof.
  intros (Q0 & QA & _) HF B L S1. exact (slice_ok Q F Q0 QA HF fast sl s B L S1).
Qed.
Lemma dealloc_polite F s : polite F -> balanced s ->
  exists s', f_dealloc F s = Ret s' /\ slots s' = [] /\ src s' = src s /\ balanced s'.
Proof. intros HF B. exact (dealloc_ok none F HF s eq_refl B). Qed.

(** Any other step. *)
Lemma slice_step F fast sl s : step_of sl <> 1 ->
  f_setslice F fast sl s = (Raise (if step_of sl =? 0 then ValueError else NotImplementedError), s).
Proof.
  unfold step_of. intros H. unfold f_setslice, PySlice_Unpack.
  destruct (sl_step sl) as [k|]; [|congruence]. assert (C : clip k = 1 -> False) by (unfold clip, SSIZE_MAX, SSIZE_MIN in *; destruct (Z.ltb_spec k (- 2 ^ 63)); [|destruct (Z.ltb_spec (2 ^ 63 - 1) k)]; lia).
  assert (C0 : (clip k =? 0) = (k =? 0)) by (unfold clip, SSIZE_MAX, SSIZE_MIN in *; destruct (Z.ltb_spec k (- 2 ^ 63)); [|destruct (Z.ltb_spec (2 ^ 63 - 1) k)]; lia).
  rewrite C0. destruct (k =? 0); [reflexivity|].
  destruct (PySlice_AdjustIndices _ _ _ _) as [[st sp] n].
  assert (N : ((if clip k <? - SSIZE_MAX then - SSIZE_MAX else clip k) =? 1) = false) by (destruct (clip k <? - SSIZE_MAX); [reflexivity|lia]).
  rewrite N. reflexivity.
Qed.
