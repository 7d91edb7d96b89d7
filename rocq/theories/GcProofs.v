From Coq Require Import ZArith List Bool Lia.
From Verif Require Import Base ObjModel ObjSpec GcModel GcSpec.
Import ListNotations.
Local Open Scope Z_scope.

Lemma occ_pos : forall l o, 0 <= occ l o.
Proof. induction l; intros o; cbn [occ]; [lia|]; specialize (IHl o); destruct (a =? o); lia. Qed.
Lemma occ_in : forall l o, 0 < occ l o <-> In o l.
Proof.
  induction l as [|a l IH]; intros o; cbn [occ In]; [lia|]; rewrite <- IH; pose proof (occ_pos l o).
  destruct (Z.eqb_spec a o); [|intuition lia]; intuition lia.
Qed.
Lemma mem_in : forall o l, mem_z o l = true <-> In o l.
Proof.
  intros o l; unfold mem_z; rewrite existsb_exists; split; [intros (x & I & E); apply Z.eqb_eq in E; congruence|intro I; exists o; split; [exact I|apply Z.eqb_refl]].
Qed.

(** ** Counting *)
Definition outside (H : heap) (o : Z) : Z := fold_right (fun n c => (if tracked n then 0 else occ (seen n) o) + occ (hidden n) o + c) 0 H.
Definition inside (H : heap) (o : Z) : Z := fold_right (fun n c => (if tracked n then occ (seen n) o else 0) + c) 0 H.
Lemma refcount_split : forall H ext o, refcount H ext o = ext o + outside H o + inside H o.
Proof. induction H as [|n H IH]; intros; cbn [refcount outside inside fold_right]; [lia|]; fold (refcount H ext o); fold (outside H o); fold (inside H o); rewrite IH; destruct (tracked n); lia. Qed.
Lemma visit_spec : forall l c o, fold_left (fun c o => upd c o (c o - 1)) l c o = c o - occ l o.
Proof.
  induction l as [|a l IH]; intros c o; cbn [fold_left occ]; [lia|]; rewrite IH; unfold upd.
  rewrite (Z.eqb_sym o a); destruct (Z.eqb_spec a o); subst; lia.
Qed.
Lemma subtract_spec : forall H c o, subtract H c o = c o - inside H o.
Proof.
  unfold subtract; induction H as [|n H IH]; intros c o; cbn [fold_left inside fold_right]; [lia|].
  fold (inside H o); rewrite IH; destruct (tracked n); [rewrite visit_spec|]; lia.
Qed.
Lemma gc_refs_spec : forall H ext o, gc_refs H ext o = ext o + outside H o.
Proof. intros; unfold gc_refs; rewrite subtract_spec, refcount_split; lia. Qed.
Lemma outside_pos : forall H o, 0 <= outside H o.
Proof.
  induction H as [|n H IH]; intro o; cbn [outside fold_right]; [lia|]; fold (outside H o); specialize (IH o).
  pose proof (occ_pos (seen n) o); pose proof (occ_pos (hidden n) o); destruct (tracked n); lia.
Qed.
Lemma outside_in : forall H o, 0 < outside H o <-> exists n, In n H /\ (In o (hidden n) \/ tracked n = false /\ In o (seen n)).
Proof.
  induction H as [|n H IH]; intro o; cbn [outside fold_right]; [split; [lia|intros (n & [] & _)]|]; fold (outside H o).
  pose proof (outside_pos H o); pose proof (occ_pos (seen n) o); pose proof (occ_pos (hidden n) o); split.
  - intro P. destruct (Z.eq_dec (occ (hidden n) o) 0) as [Z1|Z1].
    + destruct (tracked n) eqn:T.
      * destruct (proj1 (IH o)) as (m & I & X); [lia|]; exists m; split; [right; exact I|exact X].
      * destruct (Z.eq_dec (occ (seen n) o) 0) as [Z2|Z2].
        { destruct (proj1 (IH o)) as (m & I & X); [lia|]; exists m; split; [right; exact I|exact X]. }
        { exists n; split; [left; reflexivity|right; split; [exact T|apply occ_in; lia]]. }
    + exists n; split; [left; reflexivity|left; apply occ_in; lia].
  - intros (m & [<-|I] & X).
    + destruct X as [X|[T X]]; apply occ_in in X; [destruct (tracked n); lia|rewrite T; lia].
    + assert (0 < outside H o) by (apply IH; exists m; split; assumption); destruct (tracked n); lia.
Qed.
Lemma refcount_pos : forall H ext o, (forall o, 0 <= ext o) -> (0 < refcount H ext o <-> 0 < ext o \/ exists n, In n H /\ refers n o).
Proof.
  intros H ext o P; induction H as [|n H IH]; cbn [refcount fold_right].
  - split; [auto|intros [X|(n & [] & _)]; exact X].
  - fold (refcount H ext o); pose proof (occ_pos (seen n) o); pose proof (occ_pos (hidden n) o).
    assert (0 <= refcount H ext o).
    { clear -P; induction H as [|m H IH]; cbn [refcount fold_right]; [apply P|]; fold (refcount H ext o); pose proof (occ_pos (seen m) o); pose proof (occ_pos (hidden m) o); lia. }
    split.
    + intro X; destruct (Z.eq_dec (occ (seen n) o) 0) as [A|A]; [destruct (Z.eq_dec (occ (hidden n) o) 0) as [B|B]|].
      * destruct (proj1 IH) as [Y|(m & I & Y)]; [lia|left; exact Y|right; exists m; split; [right; exact I|exact Y]].
      * right; exists n; split; [left; reflexivity|right; apply occ_in; lia].
      * right; exists n; split; [left; reflexivity|left; apply occ_in; lia].
    + intros [X|(m & [<-|I] & Y)].
      * assert (0 < refcount H ext o) by (apply IH; left; exact X); lia.
      * destruct Y as [Y|Y]; apply occ_in in Y; lia.
      * assert (0 < refcount H ext o) by (apply IH; right; exists m; split; assumption); lia.
Qed.

(** ** Rounds come to an end *)
Lemma filter_le : forall (A : Type) (p q : A -> bool) l, (forall x, In x l -> p x = true -> q x = true) ->
  (length (filter p l) <= length (filter q l))%nat /\
  (length (filter p l) = length (filter q l) -> forall x, In x l -> p x = q x).
Proof.
  induction l as [|a l IH]; intros S1; cbn [filter]; [split; [lia|intros _ x []]|].
  destruct IH as [A1 A2]; [intros x I; apply S1; right; exact I|].
  pose proof (S1 a (or_introl eq_refl)) as Sa; destruct (p a) eqn:P; [rewrite Sa by reflexivity|]; [|destruct (q a) eqn:Q]; cbn [length]; (split; [lia|]); intros L x [<-|I].
  - rewrite P, Sa; reflexivity.
  - apply A2; [lia|exact I].
  - lia.
  - lia.
  - congruence.
  - apply A2; [lia|exact I].
Qed.
Lemma in_table : forall H p o, In o (table H p) <-> p o = true /\ exists n, In n H /\ tracked n = true /\ nid n = o.
Proof.
  intros H p o; unfold table; rewrite filter_In, in_map_iff; split.
  - intros [(n & E & I) P]; apply filter_In in I; split; [exact P|exists n; tauto].
  - intros [P (n & I & T & E)]; split; [exists n; split; [exact E|apply filter_In; tauto]|exact P].
Qed.
Definition next (H : heap) (r : list Z) : list Z := table H (spread H (fun o => mem_z o r)).
Definition tk (H : heap) : list Z := map nid (filter tracked H).
Lemma rounds_fix : forall H k r, (forall o, In o r -> In o (tk H)) -> (exists p, r = table H p) ->
  (length (tk H) <= length r + k)%nat -> next H (rounds k H r) = rounds k H r.
Proof.
  induction k as [|k IH]; intros r S1 (p & R) L; cbn [rounds].
  - subst r; change (filter (spread H (fun o => mem_z o (table H p))) (tk H) = filter p (tk H)).
    apply filter_ext_in; intros o I; unfold table in L; fold (tk H) in L.
    assert (F : forall x, In x (tk H) -> p x = true).
    { clear -L; revert L; generalize (tk H); induction l as [|a l IH]; intros L x; [intros []|]; cbn [filter length] in L.
      destruct (p a) eqn:P.
      - intros [<-|I]; [exact P|apply IH; [cbn [length] in L; lia|exact I]].
      - exfalso; pose proof (proj1 (filter_le Z p (fun _ => true) l (fun _ _ _ => eq_refl))) as Q.
        assert (filter (fun _ : Z => true) l = l) as W by (clear; induction l; cbn; congruence); rewrite W in Q; lia. }
    rewrite (F o I); unfold spread; replace (mem_z o (table H p)) with true; [reflexivity|]; symmetry; apply mem_in.
    unfold table; apply filter_In; split; [exact I|apply F; exact I].
  - fold (next H r).
    assert (SUB : forall o, In o r -> In o (next H r)).
    { intros o I; unfold next; apply in_table; split; [unfold spread; rewrite (proj2 (mem_in o r) I); reflexivity|].
      apply S1 in I; unfold tk in I; apply in_map_iff in I; destruct I as (n & E & I); apply filter_In in I; exists n; tauto. }
    assert (LE : forall q, (forall x, In x (tk H) -> p x = true -> q x = true) -> (length (filter p (tk H)) <= length (filter q (tk H)))%nat /\
       (length (filter p (tk H)) = length (filter q (tk H)) -> forall x, In x (tk H) -> p x = q x)).
    { intros q; apply filter_le. }
    assert (PQ : forall x, In x (tk H) -> p x = true -> spread H (fun o => mem_z o r) x = true).
    { intros x I P; unfold spread; replace (mem_z x r) with true; [reflexivity|]; symmetry; apply mem_in; subst r; unfold table; apply filter_In; split; assumption. }
    destruct (LE _ PQ) as [L1 L2].
    destruct (Nat.eq_dec (length (filter p (tk H))) (length (filter (spread H (fun o => mem_z o r)) (tk H)))) as [E|N].
    + assert (X : next H r = r).
      { transitivity (filter p (tk H)); [|symmetry; exact R]; unfold next, table; fold (tk H); symmetry; apply filter_ext_in; apply L2; exact E. }
      assert (G : forall j, rounds j H r = r).
      { induction j as [|j IHj]; cbn [rounds]; [reflexivity|]; fold (next H r); rewrite X; exact IHj. }
      rewrite X, G; exact X.
    + apply IH.
      * intros o I; unfold next in I; apply in_table in I; destruct I as (_ & n & I & T & E); unfold tk; apply in_map_iff; exists n; split; [exact E|apply filter_In; tauto].
      * eexists; reflexivity.
      * unfold next; unfold table; fold (tk H); subst r; unfold table in L; fold (tk H) in L; lia.
Qed.
Lemma rounds_mono : forall H k r o, (forall o, In o r -> In o (tk H)) -> In o r -> In o (rounds k H r).
Proof.
  induction k as [|k IH]; intros r o S1 I; cbn [rounds]; [exact I|]; apply IH.
  - intros x X; apply in_table in X; destruct X as (_ & n & J & T & E); unfold tk; apply in_map_iff; exists n; split; [exact E|apply filter_In; tauto].
  - apply in_table; split; [unfold spread; rewrite (proj2 (mem_in o r) I); reflexivity|].
    apply S1 in I; unfold tk in I; apply in_map_iff in I; destruct I as (n & E & J); apply filter_In in J; exists n; tauto.
Qed.
Lemma table_tk : forall H p o, In o (table H p) -> In o (tk H).
Proof. intros H p o I; unfold table in I; apply filter_In in I; exact (proj1 I). Qed.

(** ** What is reached is what is held *)
Lemma reached_held : forall H ext o, well_formed H ext -> In o (reachable H ext) -> held H ext o.
Proof.
  intros H ext o (ND & P & U & CL); unfold reachable.
  assert (G : forall k r, (forall x, In x r -> held H ext x) -> forall x, In x (rounds k H r) -> held H ext x).
  { induction k as [|k IH]; intros r R x; cbn [rounds]; [apply R|]; apply IH; intros y Y; apply in_table in Y; destruct Y as [Y _].
    unfold spread in Y; apply orb_true_iff in Y; destruct Y as [Y|Y]; [apply R, mem_in; exact Y|].
    apply existsb_exists in Y; destruct Y as (n & I & Y); rewrite !andb_true_iff in Y; destruct Y as [[T M] S1].
    eapply held_seen; [exact I|exact T|apply R, mem_in; exact M|apply mem_in; exact S1]. }
  apply G; intros x X; apply in_table in X; destruct X as [X _]; apply Z.ltb_lt in X; rewrite gc_refs_spec in X.
  destruct (Z.eq_dec (ext x) 0) as [E|E].
  - assert (O : 0 < outside H x) by (pose proof (outside_pos H x); lia); apply outside_in in O; destruct O as (n & I & [O|[T O]]).
    + eapply held_hidden; eassumption.
    + rewrite (U n I T) in O; destruct O.
  - apply held_ext; specialize (P x); lia.
Qed.
Lemma held_reached : forall H ext o, well_formed H ext -> held H ext o -> In o (tk H) -> In o (reachable H ext).
Proof.
  intros H ext o (ND & P & U & CL) HE; unfold reachable.
  set (r := table H (fun o => 0 <? gc_refs H ext o)).
  assert (RT : forall x, In x r -> In x (tk H)) by (intros x; apply table_tk).
  assert (FX : next H (rounds (length H) H r) = rounds (length H) H r).
  { apply rounds_fix; [exact RT|eexists; reflexivity|].
    unfold tk; rewrite map_length; pose proof (proj1 (filter_le node tracked (fun _ => true) H (fun _ _ _ => eq_refl))) as Q.
    assert (filter (fun _ : node => true) H = H) as W by (clear; induction H; cbn; congruence); rewrite W in Q; lia. }
  induction HE as [o E|n o I HI|n o I T HN IH S1]; intro K.
  - apply rounds_mono; [exact RT|]; apply in_table; split.
    + apply Z.ltb_lt; rewrite gc_refs_spec; pose proof (outside_pos H o); lia.
    + unfold tk in K; apply in_map_iff in K; destruct K as (m & E1 & J); apply filter_In in J; exists m; tauto.
  - apply rounds_mono; [exact RT|]; apply in_table; split.
    + apply Z.ltb_lt; rewrite gc_refs_spec; assert (0 < outside H o) by (apply outside_in; exists n; tauto); specialize (P o); lia.
    + unfold tk in K; apply in_map_iff in K; destruct K as (m & E1 & J); apply filter_In in J; exists m; tauto.
  - rewrite <- FX; unfold next; apply in_table; split.
    + unfold spread; apply orb_true_iff; right; apply existsb_exists; exists n; split; [exact I|].
      rewrite T; cbn [andb]; apply andb_true_iff; split; [apply mem_in, IH|apply mem_in; exact S1].
      unfold tk; apply in_map_iff; exists n; split; [reflexivity|apply filter_In; tauto].
    + unfold tk in K; apply in_map_iff in K; destruct K as (m & E1 & J); apply filter_In in J; exists m; tauto.
Qed.

(** ** Clearing and releasing *)
Lemma clear_id : forall r n, nid (clear r n) = nid n.
Proof. intros r n; unfold clear; destruct (tracked n && negb (mem_z (nid n) r)); reflexivity. Qed.
Lemma clear_held : forall H ext n, well_formed H ext -> In n H -> (tracked n = true -> held H ext (nid n)) -> clear (reachable H ext) n = n.
Proof.
  intros H ext n W I HE; unfold clear; destruct (tracked n) eqn:T; [|reflexivity]; cbn [andb].
  replace (mem_z (nid n) (reachable H ext)) with true; [reflexivity|]; symmetry; apply mem_in, held_reached; [exact W|apply HE; reflexivity|].
  unfold tk; apply in_map_iff; exists n; split; [reflexivity|apply filter_In; tauto].
Qed.
(** A set of nodes each of which is referred to from within, or from elsewhere, stays. *)
Lemma release_keeps : forall k ext H (C : node -> Prop), (forall o, 0 <= ext o) -> (forall n, C n -> In n H) ->
  (forall n, C n -> 0 < ext (nid n) \/ exists m, C m /\ refers m (nid n)) -> forall n, C n -> In n (release k ext H).
Proof.
  induction k as [|k IH]; intros ext H C P S1 R n X; cbn [release]; [apply S1; exact X|].
  apply (IH ext _ C); auto; intros m M; apply filter_In; split; [apply S1; exact M|]; apply Z.ltb_lt, refcount_pos; [exact P|].
  destruct (R m M) as [E|(m' & M' & Q)]; [left; exact E|right; exists m'; split; [apply S1; exact M'|exact Q]].
Qed.
Lemma release_sub : forall k ext H n, In n (release k ext H) -> In n H.
Proof. induction k as [|k IH]; intros ext H n I; cbn [release] in I; [exact I|]; apply IH in I; apply filter_In in I; exact (proj1 I). Qed.

Lemma collect_keeps : forall H ext (C : node -> Prop), well_formed H ext -> (forall n, C n -> In n H) ->
  (forall n, C n -> 0 < ext (nid n) \/ exists m, C m /\ refers m (nid n)) ->
  (forall n, C n -> tracked n = true -> held H ext (nid n)) -> forall n, C n -> In n (collect ext H).
Proof.
  intros H ext C W S1 R HE n X; unfold collect; destruct W as (ND & P & W).
  apply (release_keeps _ ext _ C); auto.
  intros m M; apply in_map_iff; exists m; split; [|apply S1; exact M].
  apply clear_held; [exact (conj ND (conj P W))|apply S1; exact M|apply HE; exact M].
Qed.

(** ** Safety *)
Lemma in_nodup_eq : forall (H : heap) n m, NoDup (map nid H) -> In n H -> In m H -> nid n = nid m -> n = m.
Proof.
  induction H as [|a H IH]; intros n m ND I J E; [destruct I|]; cbn [map] in ND; apply NoDup_cons_iff in ND; destruct ND as [N ND].
  destruct I as [<-|I]; destruct J as [<-|J]; auto.
  - exfalso; apply N; rewrite E; apply in_map; exact J.
  - exfalso; apply N; rewrite <- E; apply in_map; exact I.
Qed.
Lemma live_held : forall H ext o, well_formed H ext -> live H ext o -> held H ext o.
Proof.
  intros H ext o (ND & P & U & CL); induction 1 as [o E|n o I L IH R]; [apply held_ext; exact E|].
  destruct R as [R|R]; [|eapply held_hidden; eassumption].
  destruct (tracked n) eqn:T; [eapply held_seen; eassumption|rewrite (U n I T) in R; destruct R].
Qed.
Lemma live_kept : forall H ext n, well_formed H ext -> In n H -> live H ext (nid n) -> In n (collect ext H).
Proof.
  intros H ext n W I L; apply (collect_keeps H ext (fun n => In n H /\ live H ext (nid n))); auto.
  - tauto.
  - intros m [J M]; destruct W as (ND & P & U & CL); inversion M as [o E|k o K L2 R E]; subst.
    + left; exact E.
    + right; exists k; split; [split; assumption|exact R].
  - intros m [J M] _; apply live_held; assumption.
Qed.

(** ** Rings are never freed *)
Lemma behind_held : forall H ext C o, (forall n, In n C -> In n H) -> behind C o -> held H ext o.
Proof.
  intros H ext C o S1; induction 1 as [n o I X|n o I T B IH X]; [eapply held_hidden; [apply S1; exact I|exact X]|].
  eapply held_seen; [apply S1; exact I|exact T|exact IH|exact X].
Qed.
Lemma ring_kept : forall H ext C, well_formed H ext -> ring C -> (forall n, In n C -> In n H) -> forall n, In n C -> In n (collect ext H).
Proof.
  intros H ext C W R S1; apply collect_keeps; auto.
  - intros n I; right; destruct (R n I) as [(m & M & Q) _]; exists m; split; assumption.
  - intros n I T; eapply behind_held; [exact S1|]; apply (R n I); exact T.
Qed.
(** ** The heap stays well formed *)
Lemma NoDup_filter_map : forall (p : node -> bool) H, NoDup (map nid H) -> NoDup (map nid (filter p H)).
Proof.
  induction H as [|a H IH]; intros ND; cbn [filter map]; [constructor|]; cbn [map] in ND; apply NoDup_cons_iff in ND; destruct ND as [N ND].
  destruct (p a); [|apply IH; exact ND]; cbn [map]; constructor; [|apply IH; exact ND].
  intro I; apply N; apply in_map_iff in I; destruct I as (m & E & I); apply filter_In in I; apply in_map_iff; exists m; tauto.
Qed.
Lemma release_wf : forall k ext H, well_formed H ext -> well_formed (release k ext H) ext.
Proof.
  induction k as [|k IH]; intros ext H W; cbn [release]; [exact W|]; apply IH; destruct W as (ND & P & U & CL).
  split; [apply NoDup_filter_map; exact ND|]; split; [exact P|]; split.
  - intros n I; apply filter_In in I; apply U; tauto.
  - intros n o I R; apply filter_In in I; pose proof (CL n o (proj1 I) R) as J; apply in_map_iff in J; destruct J as (m & E & J).
    apply in_map_iff; exists m; split; [exact E|]; apply filter_In; split; [exact J|]; apply Z.ltb_lt, refcount_pos; [exact P|].
    right; exists n; split; [tauto|rewrite E; exact R].
Qed.
Lemma collect_wf : forall ext H, well_formed H ext -> well_formed (collect ext H) ext.
Proof.
  intros ext H (ND & P & U & CL); unfold collect; apply release_wf; set (r := reachable H ext).
  assert (M : map nid (map (clear r) H) = map nid H) by (rewrite map_map; apply map_ext; intro; apply clear_id).
  unfold well_formed; rewrite M; split; [exact ND|]; split; [exact P|]; split.
  - intros n I T; apply in_map_iff in I; destruct I as (m & <- & I); unfold clear in *; destruct (tracked m && negb (mem_z (nid m) r)); [discriminate|apply U; assumption].
  - intros n o I R; apply in_map_iff in I; destruct I as (m & <- & I); apply (CL m o I); unfold clear, refers in *.
    destruct (tracked m && negb (mem_z (nid m) r)); cbn in R; tauto.
Qed.
Lemma ring_forever : forall k H ext C, well_formed H ext -> ring C -> (forall n, In n C -> In n H) -> forall n, In n C -> In n (collects k ext H).
Proof.
  induction k as [|k IH]; intros H ext C W R S1 n I; cbn [collects]; [apply S1; exact I|].
  apply (IH _ ext C); auto; [apply collect_wf; exact W|]; apply ring_kept; assumption.
Qed.

(** ** Garbage that is not held goes *)
Lemma not_held_gone : forall H ext n, well_formed H ext -> In n H -> tracked n = true -> ~ held H ext (nid n) ->
  ~ In (nid n) (map nid (collect ext H)).
Proof.
  intros H ext n W I T N; unfold collect; set (r := reachable H ext); intro J.
  apply in_map_iff in J; destruct J as (m & E & J).
  destruct H as [|h H']; [destruct I|]; set (H := h :: H') in *.
  change (length H) with (S (length H')) in J; cbn [release] in J; apply release_sub in J; apply filter_In in J; destruct J as [_ J].
  apply Z.ltb_lt in J; rewrite E in J; apply refcount_pos in J; [|apply W].
  destruct J as [J|(k & K & R)]; [apply N, held_ext; exact J|].
  apply in_map_iff in K; destruct K as (k' & <- & K).
  assert (HID : ~ In (nid n) (hidden k')) by (intro X; apply N; eapply held_hidden; eassumption).
  unfold clear in R; destruct (tracked k' && negb (mem_z (nid k') r)) eqn:Q; destruct R as [R|R]; cbn in R; try tauto.
  destruct (tracked k') eqn:T'.
  - cbn [andb] in Q; apply negb_false_iff, mem_in in Q; apply N; eapply held_seen; [exact K|exact T'|apply reached_held; [exact W|exact Q]|exact R].
  - destruct W as (_ & _ & U & _); rewrite (U k' K T') in R; destruct R.
Qed.
(** Only what is not held is cleared: the others keep their references while
    they are there. *)
Lemma held_uncleared : forall H ext n, well_formed H ext -> In n (collect ext H) ->
  In n H \/ (tracked n = true /\ seen n = [] /\ ~ held H ext (nid n)).
Proof.
  intros H ext n W I; unfold collect in I; apply release_sub in I; apply in_map_iff in I; destruct I as (m & <- & I).
  unfold clear; destruct (tracked m && negb (mem_z (nid m) (reachable H ext))) eqn:Q; [|left; exact I].
  right; cbn; split; [reflexivity|]; split; [reflexivity|]; intro HE; apply andb_true_iff in Q; destruct Q as [T Q]; apply negb_true_iff in Q.
  assert (In (nid m) (reachable H ext)) as X.
  { apply held_reached; auto; unfold tk; apply in_map_iff; exists m; split; [reflexivity|apply filter_In; tauto]. }
  apply mem_in in X; congruence.
Qed.
Lemma collect_old : forall H ext n, well_formed H ext -> In n (collect ext H) -> In n H.
Proof.
  intros H ext n W I; destruct (held_uncleared H ext n W I) as [X|(T & S1 & N)]; [exact X|exfalso].
  assert (In (nid n) (map nid (collect ext H))) as J by (apply in_map; exact I).
  pose proof I as I2; unfold collect in I2; apply release_sub in I2; apply in_map_iff in I2; destruct I2 as (m & E & K).
  assert (nid m = nid n) as EN by (rewrite <- E; symmetry; apply clear_id).
  assert (tracked m = true) as TM.
  { rewrite <- E in T; unfold clear in T; destruct (tracked m && _) eqn:Q in T; [apply andb_true_iff in Q; tauto|exact T]. }
  rewrite <- EN in *; exact (not_held_gone H ext m W K TM N J).
Qed.

(** Heaps of Python lists only: a collection leaves exactly what is live. *)
Lemma held_live : forall H ext o, (forall n, In n H -> hidden n = []) -> held H ext o -> live H ext o.
Proof.
  intros H ext o NH; induction 1 as [o E|n o I X|n o I T HN IH X]; [apply live_ext; exact E|rewrite (NH n I) in X; destruct X|].
  eapply live_ref; [exact I|exact IH|left; exact X].
Qed.
Lemma lists_exact : forall H ext n, well_formed H ext -> (forall n, In n H -> hidden n = [] /\ tracked n = true) ->
  (In n (collect ext H) <-> In n H /\ live H ext (nid n)).
Proof.
  intros H ext n W A; split.
  - intro I; pose proof (collect_old H ext n W I) as J; split; [exact J|].
    apply held_live; [intros m M; apply A; exact M|].
    assert (In (nid n) (reachable H ext) \/ ~ In (nid n) (reachable H ext)) as [X|X].
    { destruct (mem_z (nid n) (reachable H ext)) eqn:Q; [left; apply mem_in; exact Q|right; intro X; apply mem_in in X; congruence]. }
    + apply reached_held; assumption.
    + exfalso; apply (not_held_gone H ext n W J (proj2 (A n J))); [|apply in_map; exact I].
      intro HE; apply X; apply held_reached; auto; unfold tk; apply in_map_iff; exists n; split; [reflexivity|apply filter_In; split; [exact J|apply A; exact J]].
  - intros [J L]; apply live_kept; assumption.
Qed.

(** ** What is left, exactly *)
Lemma filter_all : forall (A : Type) (p : A -> bool) l, (length l <= length (filter p l))%nat -> filter p l = l.
Proof.
  intros A p; induction l as [|a l IH]; cbn [filter length]; intro L; [reflexivity|].
  destruct (p a); cbn [length] in L; [f_equal; apply IH; lia|].
  exfalso; pose proof (proj1 (filter_le A p (fun _ => true) l (fun _ _ _ => eq_refl))) as Q.
  assert (filter (fun _ : A => true) l = l) as W by (clear; induction l; cbn; congruence); rewrite W in Q; lia.
Qed.
Lemma release_done : forall k ext H, (length H <= k)%nat -> forall n, In n (release k ext H) -> 0 < refcount (release k ext H) ext (nid n).
Proof.
  induction k as [|k IH]; intros ext H L n; cbn [release].
  - destruct H; [intros []|cbn in L; lia].
  - set (F := filter (fun n => 0 <? refcount H ext (nid n)) H).
    destruct (le_lt_dec (length F) k) as [E|E]; [apply IH; exact E|].
    assert (X : F = H) by (apply filter_all; fold F; lia); rewrite X.
    assert (G : forall j, release j ext H = H) by (induction j as [|j IHj]; cbn [release]; [reflexivity|]; fold F; rewrite X; exact IHj).
    rewrite G; intro I; rewrite <- X in I; apply filter_In in I; apply Z.ltb_lt; tauto.
Qed.
Lemma collect_exact : forall H ext n, well_formed H ext ->
  (In n (collect ext H) <-> exists C : node -> Prop, C n /\
     forall m, C m -> In m H /\ (0 < ext (nid m) \/ exists m', C m' /\ refers m' (nid m)) /\ (tracked m = true -> held H ext (nid m))).
Proof.
  intros H ext n W; split.
  - intro I; exists (fun m => In m (collect ext H)); split; [exact I|]; intros m J; split; [apply collect_old with (ext := ext); assumption|]; split.
    + apply refcount_pos; [apply W|]; unfold collect in *; apply release_done; [rewrite map_length; lia|exact J].
    + intro T; destruct (mem_z (nid m) (reachable H ext)) eqn:Q; [apply reached_held; [exact W|apply mem_in; exact Q]|exfalso].
      pose proof (collect_old H ext m W J) as K; apply (not_held_gone H ext m W K T); [|apply in_map; exact J].
      intro HE; assert (In (nid m) (reachable H ext)) as X; [|apply mem_in in X; congruence].
      apply held_reached; auto; unfold tk; apply in_map_iff; exists m; split; [reflexivity|apply filter_In; split; assumption].
  - intros (C & X & K); apply (collect_keeps H ext C W); auto; intros m M; apply (K m M).
Qed.
