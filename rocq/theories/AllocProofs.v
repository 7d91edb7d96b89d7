(** Proofs for AllocModel. *)
From Coq Require Import ZArith List Bool Arith Lia.
From Verif Require Import Base PyLongModel PyLongProofs PyListSpec MemModel ListLemmas ArrayListModel ArrayListProofs
  ArrayListMoreModel SimdSortModel ArrayWorldProofs AllocModel AllocSpec.
Import ListNotations.
Local Open Scope Z_scope.
Local Arguments Z.pow : simpl never.
Local Arguments Z.add : simpl never.
Local Arguments Z.sub : simpl never.
Local Arguments Z.mul : simpl never.
Local Arguments Z.of_nat : simpl never.
Local Arguments Z.to_nat : simpl never.
Local Arguments Z.ltb : simpl never.
Local Arguments Z.leb : simpl never.
Local Arguments Z.eqb : simpl never.

(** ** Vectors *)
Lemma enlarge_in M k size cap need n c n' : sound_memory M -> cap <= max_size M k ->
  enlarge M k size cap need n = (Val c, n') -> need <= c <= max_size M k.
Proof.
  intros (_ & _ & G & _) Hc E. unfold enlarge in E. destruct (Z.ltb_spec (max_size M k) need); [discriminate|].
  destruct (Z.leb_spec need cap); [injection E as <- <-; lia|].
  destruct (granted M n); [|discriminate]. injection E as <- <-. apply G. assumption.
Qed.
Lemma enlarge_exact M k size cap need n :
  fst (enlarge M k size cap need n) = Throw <-> max_size M k < need \/ (cap < need /\ granted M n = false).
Proof.
  unfold enlarge. destruct (Z.ltb_spec (max_size M k) need); [split; [left; assumption|reflexivity]|].
  destruct (Z.leb_spec need cap); [split; [discriminate|intros [A|[A _]]; lia]|].
  destruct (granted M n); split; try discriminate; try reflexivity; [intros [A|[_ A]]; [lia|discriminate]|].
  intros _. right. split; [lia|reflexivity].
Qed.
Lemma reserve_exact M k cap need n :
  fst (reserve M k cap need n) = Throw <-> max_size M k < need \/ (cap < need /\ granted M n = false).
Proof.
  unfold reserve. destruct (Z.ltb_spec (max_size M k) need); [split; [left; assumption|reflexivity]|].
  destruct (Z.leb_spec need cap); [split; [discriminate|intros [A|[A _]]; lia]|].
  destruct (granted M n); split; try discriminate; try reflexivity; [intros [A|[_ A]]; [lia|discriminate]|].
  intros _. right. split; [lia|reflexivity].
Qed.
Lemma reserve_in M k cap need n c n' : cap <= max_size M k ->
  reserve M k cap need n = (Val c, n') -> need <= c <= max_size M k /\ cap <= c.
Proof.
  intros Hc E. unfold reserve in E. destruct (Z.ltb_spec (max_size M k) need); [discriminate|].
  destruct (Z.leb_spec need cap); [injection E as <- <-; lia|].
  destruct (granted M n); [|discriminate]. injection E as <- <-. lia.
Qed.
Lemma objects_all M c n : generous M -> objects M c n = (true, (n + c)%nat).
Proof.
  intros G. revert n. induction c as [|c IH]; intros n; cbn [objects]; [rewrite Nat.add_0_r; reflexivity|].
  rewrite G, IH. f_equal. lia.
Qed.

(** ** One call *)
Definition short_ok (M : memory) (cfg : config) (k : kind) (o : op) (w : world) (r : xout * world) : Prop :=
  match fst r with
  | XKilled => ~ not_extend o
  | XDone x => exists q, short_step (vec w) o q (vec (snd r)) /\ x = expected cfg k q /\ vector_ok M k (snd r)
  end.

Lemma done_ok M cfg k o w c n : vector_ok M k w -> op_ok k (vec w) o ->
  zlen (snd (py_step o (vec w))) <= c <= max_size M k ->
  short_ok M cfg k o w (XDone (expected cfg k (fst (py_step o (vec w)))), {| vec := snd (py_step o (vec w)); cap := c; asked := n |}).
Proof.
  intros [F V] O H. unfold short_ok. cbn [fst snd vec]. eexists. split; [apply short_done|]. split; [reflexivity|].
  split; cbn [vec cap]; [apply py_step_range; assumption|exact H].
Qed.
Lemma refused_ok M cfg k o w e n : vector_ok M k w -> In e (refusals o) ->
  short_ok M cfg k o w (XDone (Raise e), count_to w n).
Proof.
  intros V H. unfold short_ok. cbn [fst snd vec count_to]. exists (SRaise e). split; [apply short_refused; exact H|].
  split; [reflexivity|exact V].
Qed.
Lemma world_eq w : {| vec := vec w; cap := cap w; asked := asked w |} = w. Proof. destruct w; reflexivity. Qed.

Lemma expected_ret cfg k q : (exists v, expected cfg k q = Ret v) \/ (exists e, q = SRaise e /\ expected cfg k q = Raise e).
Proof. destruct q as [[]|e]; [left; eexists; reflexivity..|right; exists e; split; reflexivity]. Qed.

(** Calls whose contents do not grow. *)
Definition keeps_size (o : op) : Prop :=
  match o with
  | OAppend _ | OInsert _ _ | OResize _ | OExtend _ _ | OSetSlice _ _ => False
  | _ => True
  end.
Lemma no_growth o s : keeps_size o -> zlen (snd (py_step o s)) <= zlen s.
Proof.
  pose proof (zlen_nonneg s).
  destruct o; intros K; try contradiction K; clear K; cbn [py_step];
  repeat match goal with
  | |- context [if ?c then _ else _] => destruct c eqn:?
  | |- context [match ?l with [] => _ | _ :: _ => _ end] => destruct l eqn:?
  end; cbn [snd]; try lia;
  repeat match goal with H : (_ && _) = true |- _ => apply rel_bounds_dec in H end;
  unfold zlen in *; rewrite ?rev_length, ?app_length, ?firstn_length; cbn [length]; rewrite ?skipn_length; lia.
Qed.

Lemma plain_ok M cfg k o w : vector_ok M k w -> zlen (vec w) <= SSIZE_MAX -> op_ok k (vec w) o -> keeps_size o ->
  short_ok M cfg k o w (plain (step cfg k o (vec w)) w).
Proof.
  intros V L O K. unfold plain. rewrite step_refines by (try assumption; apply V). cbn [fst snd].
  apply done_ok; [exact V|exact O|]. pose proof (no_growth o (vec w) K). destruct V. lia.
Qed.

Lemma in_try_ok M cfg k o w : sound_memory M -> vector_ok M k w -> zlen (vec w) <= SSIZE_MAX -> op_ok k (vec w) o ->
  In RuntimeError (refusals o) -> short_ok M cfg k o w (in_try M k (step cfg k o (vec w)) w).
Proof.
  intros S V L O R. unfold in_try. rewrite step_refines by (try assumption; apply V). cbn [fst snd].
  destruct (expected_ret cfg k (fst (py_step o (vec w)))) as [[v E]|(e & E1 & E2)].
  - rewrite E. unfold caught. destruct (enlarge _ _ _ _ _ _) as [[c|] n] eqn:EN; cbn [fst snd].
    + rewrite <- E. apply done_ok; [exact V|exact O|]. eapply enlarge_in; [exact S|apply V|exact EN].
    + apply refused_ok; assumption.
  - rewrite E2. assert (X : snd (py_step o (vec w)) = vec w).
    { pose proof (step_refines cfg k o (vec w) (proj1 V) L O) as SR. rewrite E2 in SR.
      eapply step_raise_keeps; [apply V|exact L|exact O|exact SR]. }
    rewrite <- E2. pose proof (done_ok M cfg k o w (cap w) (asked w) V O) as D. rewrite X, world_eq in D. apply D. apply V.
Qed.

Lemma py_value_keeps o s : match o with OIndex _ _ _ | OCount _ | OGet _ | OGetSlice _ | OToList => snd (py_step o s) = s | _ => True end.
Proof.
  destruct o; try exact I; cbn [py_step];
  repeat match goal with
  | |- context [if ?c then _ else _] => destruct c
  | |- context [match ?l with [] => _ | _ :: _ => _ end] => destruct l eqn:?
  end; reflexivity.
Qed.

Lemma hand_out_ok M cfg k o w : vector_ok M k w -> zlen (vec w) <= SSIZE_MAX -> op_ok k (vec w) o ->
  match o with OPop _ | OIndex _ _ _ | OCount _ | OGet _ | OGetSlice _ | OToList => True | _ => False end ->
  short_ok M cfg k o w (hand_out M (step cfg k o (vec w)) w).
Proof.
  intros V L O R. assert (K : keeps_size o) by (destruct o; try contradiction R; exact I).
  pose proof (plain_ok M cfg k o w V L O K) as PL. unfold hand_out.
  rewrite step_refines in * by (try assumption; apply V). cbn [fst snd].
  destruct (expected_ret cfg k (fst (py_step o (vec w)))) as [[v E]|(e & E1 & E2)].
  - rewrite E. destruct (objects _ _ _) as [[|] n].
    + rewrite <- E. apply done_ok; [exact V|exact O|]. pose proof (no_growth o (vec w) K). destruct V. lia.
    + pose proof (py_value_keeps o (vec w)) as PV. destruct o; try contradiction R.
      2-6: rewrite PV; apply (refused_ok M cfg k _ w MemoryError n V); left; reflexivity.
      unfold short_ok. cbn [fst snd vec]. exists (SRaise MemoryError). split; [|split; [reflexivity|]].
      * destruct (py_step (OPop i) (vec w)) as [q s'] eqn:P. cbn [fst snd] in *.
        assert (X : exists v, q = SRet (SElem v)).
        { cbn [py_step] in P. revert P. repeat match goal with |- context [if ?c then _ else _] => destruct c end;
          intros P; injection P as <- <-; [eexists; reflexivity|discriminate E|discriminate E]. }
        destruct X as [v' ->]. eapply short_pop. exact P.
      * split; cbn [vec cap]; [apply py_step_range; [apply V|exact O]|].
        pose proof (no_growth (OPop i) (vec w) I). destruct V. lia.
  - rewrite E2. rewrite <- E2. exact PL.
Qed.

(** ** Slice assignment *)
Lemma good_map vs k : Forall (in_range k) vs -> Forall good (map PInt vs).
Proof.
  intros F. apply Forall_map. eapply Forall_impl; [|exact F]. intros v H. exists v. split; [reflexivity|].
  unfold in_range, in_sbits in *. destruct k; cbn [bits] in H; lia.
Qed.

Lemma xinsert_ok M k pre its start a c w : sound_memory M -> Forall (in_range k) its -> vec w = a ++ c ->
  zlen a = start + zlen pre -> zlen (vec w) <= cap w <= max_size M k ->
  (exists w', xinsert_loop M k (map PInt (pre ++ its)) (length its) (zlen pre) start w = (XDone (Ret VNone), w') /\
     vec w' = a ++ its ++ c /\ zlen (vec w') <= cap w' <= max_size M k) \/
  (exists m w', (m < length its)%nat /\
     xinsert_loop M k (map PInt (pre ++ its)) (length its) (zlen pre) start w = (XDone (Raise RuntimeError), w') /\
     vec w' = a ++ firstn m its ++ c /\ zlen (vec w') <= cap w' <= max_size M k).
Proof.
  intros S F. revert pre a w. induction its as [|v its IH]; intros pre a w E Ha Hc.
  - left. exists w. cbn [length xinsert_loop]. split; [reflexivity|]. split; [exact E|exact Hc].
  - inversion F as [|? ? Fv Fr]; subst. cbn [length xinsert_loop]. rewrite map_app. cbn [map].
    rewrite znth_mid by (rewrite zlen_map; reflexivity).
    assert (A : as_long (PInt v) = Ret v).
    { cbn. rewrite (proj2 (in_sbits_b_spec 64 v)); [reflexivity|]. unfold in_range, in_sbits in *. destruct k; cbn [bits] in Fv; lia. }
    rewrite A. rewrite wrap_id by (try apply bits_ge; exact Fv). unfold caught.
    destruct (enlarge M k (zlen (vec w)) (cap w) (zlen (vec w) + 1) (asked w)) as [[c'|] n] eqn:EN; cbn [fst snd].
    + pose proof (enlarge_in _ _ _ _ _ _ _ _ S (proj2 Hc) EN) as B.
      rewrite E. rewrite zinsert_mid by lia.
      specialize (IH Fr (pre ++ [v]) (a ++ [v]) {| vec := a ++ v :: c; cap := c'; asked := n |}).
      cbn [vec cap] in IH. rewrite <- (app_assoc a), <- (app_assoc pre) in IH. cbn [app] in IH.
      rewrite map_app in IH. cbn [map] in IH.
      assert (Z1 : zlen (pre ++ [v]) = zlen pre + 1) by (rewrite zlen_app; reflexivity). rewrite Z1 in IH.
      destruct IH as [(w' & R & V & C)|(m & w' & Hm & R & V & C)].
      * reflexivity.
      * rewrite zlen_app. change (zlen [v]) with 1. lia.
      * rewrite E in B. rewrite !zlen_app, zlen_cons in *. lia.
      * left. exists w'. split; [exact R|]. split; [|exact C]. rewrite V, <- app_assoc. reflexivity.
      * right. exists (Datatypes.S m), w'. split; [lia|]. split; [exact R|]. split; [|exact C].
        rewrite V, <- app_assoc. reflexivity.
    + right. exists 0%nat, (count_to w n). split; [lia|]. split; [reflexivity|]. split; [exact E|exact Hc].
Qed.

Lemma map_elem k vs : Forall (in_range k) vs -> map (elem_val k) (map PInt vs) = vs.
Proof.
  intros F. rewrite map_map. rewrite <- (map_id vs) at 2. apply map_ext_in. intros v I. cbn.
  apply wrap_id; [apply bits_ge|]. rewrite Forall_forall in F. apply F. exact I.
Qed.

Lemma xslice_ok M cfg k sl vs w : sound_memory M -> vector_ok M k w -> zlen (vec w) <= SSIZE_MAX ->
  op_ok k (vec w) (OSetSlice sl vs) -> short_ok M cfg k (OSetSlice sl vs) w (xsetitem_slice M k sl (map PInt vs) w).
Proof.
  intros S V L [Fv Hs]. pose proof (good_map vs k Fv) as G.
  unfold xsetitem_slice. destruct (unpack_step1 (vec w) sl L Hs) as (start & stop & EU & Adj). rewrite EU, Adj.
  rewrite zlen_map. change (1 =? 1) with true. cbn [andb].
  destruct (slice_split (vec w) sl) as (a & b & c & E & La & Lb & P).
  destruct (Z.ltb_spec (Z.max 0 (hi_of (vec w) sl - lo_of (vec w) sl)) (zlen vs)) as [LT|GE].
  - rewrite <- Lb in *. rewrite (zlen_to_nat b _ eq_refl).
    pose proof (assign_loop_ok k [] (map PInt vs) (lo_of (vec w) sl) (length b) a b c) as Q. cbn [app] in Q.
    change (zlen (@nil pyobj)) with 0 in Q. rewrite <- E in Q.
    rewrite Q; [|apply Forall_firstn; exact G|rewrite map_length; unfold zlen in LT; lia|reflexivity|lia]. cbn [fst snd].
    rewrite firstn_map, map_elem by (apply Forall_firstn; exact Fv).
    pose proof (xinsert_ok M k (firstn (length b) vs) (skipn (length b) vs) (lo_of (vec w) sl)
      (a ++ firstn (length b) vs) c {| vec := a ++ firstn (length b) vs ++ c; cap := cap w; asked := asked w |} S) as X.
    cbn [vec cap] in X. rewrite firstn_skipn in X.
    assert (Lf : zlen (firstn (length b) vs) = zlen b).
    { unfold zlen in *. rewrite firstn_length. lia. }
    rewrite Lf in X. rewrite skipn_length in X.
    replace (Z.to_nat (zlen vs - zlen b)) with (length vs - length b)%nat by (unfold zlen; lia).
    assert (Len : zlen (a ++ firstn (length b) vs ++ c) = zlen (vec w)).
    { rewrite E. rewrite !zlen_app, Lf. reflexivity. }
    destruct X as [(w' & R & V' & C)|(m & w' & Hm & R & V' & C)].
    + apply Forall_skipn; exact Fv.
    + rewrite app_assoc. reflexivity.
    + rewrite zlen_app, Lf. lia.
    + rewrite Len. apply V.
    + rewrite R. unfold short_ok. cbn [fst snd]. exists (fst (py_step (OSetSlice sl vs) (vec w))). split; [|split; [reflexivity|]].
      * replace (vec w') with (snd (py_step (OSetSlice sl vs) (vec w))); [apply short_done|]. cbn [py_step snd].
        rewrite P, V'. rewrite <- app_assoc, (app_assoc (firstn _ _)), firstn_skipn. reflexivity.
      * split; [|exact C]. rewrite V'. pose proof (proj1 V) as FV. rewrite E in FV.
        apply Forall_app in FV. destruct FV as [FA FB]. apply Forall_app in FB. destruct FB as [FB FC].
        repeat (apply Forall_app; split); auto using Forall_firstn, Forall_skipn.
    + rewrite R. unfold short_ok. cbn [fst snd]. exists (SRaise RuntimeError). split; [|split; [reflexivity|]].
      * replace (vec w') with (py_setslice (vec w) sl (firstn (length b + m) vs)).
        -- apply short_slice; [lia| |].
           ++ rewrite P. rewrite E at 1. rewrite !zlen_app. lia.
           ++ rewrite P. rewrite E at 1. rewrite !zlen_app. unfold zlen in *. rewrite firstn_length. lia.
        -- rewrite P, V', <- app_assoc. f_equal. rewrite (app_assoc (firstn _ _)). f_equal.
           rewrite <- (firstn_skipn (length b) vs) at 1. rewrite firstn_app.
           rewrite firstn_length. f_equal.
           ++ apply firstn_all2. rewrite firstn_length. lia.
           ++ f_equal. unfold zlen in LT. lia.
      * split; [|exact C]. rewrite V'. pose proof (proj1 V) as FV. rewrite E in FV.
        apply Forall_app in FV. destruct FV as [FA FB]. apply Forall_app in FB. destruct FB as [FB FC].
        repeat (apply Forall_app; split); auto using Forall_firstn, Forall_skipn.
  - unfold plain. change (setitem_slice k sl (AssSeq (src_items (map PInt vs))) (vec w)) with (step cfg k (OSetSlice sl vs) (vec w)).
    rewrite step_refines; [|apply V|exact L|split; assumption]. cbn [fst snd].
    apply (done_ok M cfg k (OSetSlice sl vs) w (cap w) (asked w)); [exact V|split; assumption|]. cbn [py_step snd].
    rewrite P. pose proof (proj2 V) as VC. rewrite E in VC. rewrite !zlen_app in *. lia.
Qed.

(** ** extend *)
Lemma xextend_items_ok M k v vs fin w : sound_memory M -> Forall (in_range k) vs -> vector_ok M k w ->
  (exists w', xextend_items M k v (map PInt vs) fin w = (XKilled, w')) \/
  (exists w', xextend_items M k v (map PInt vs) fin w = (XDone (match fin with None => Ret v | Some e => Raise e end), w') /\
     vec w' = vec w ++ vs /\ vector_ok M k w').
Proof.
  intros S F. revert w. induction vs as [|z vs IH]; intros w V.
  - right. exists w. split; [reflexivity|]. split; [rewrite app_nil_r; reflexivity|exact V].
  - inversion F as [|? ? Fz Fr]; subst. cbn [map xextend_items]. rewrite as_elem_ok by assumption. unfold uncaught.
    destruct (enlarge _ _ _ _ _ _) as [[c|] n] eqn:EN; cbn [fst snd]; [|left; eexists; reflexivity].
    pose proof (enlarge_in _ _ _ _ _ _ _ _ S (proj2 (proj2 V)) EN) as B.
    destruct (IH Fr {| vec := vec w ++ [z]; cap := c; asked := n |}) as [(w' & R)|(w' & R & E & V')].
    + split; cbn [vec cap]; [apply Forall_app; split; [apply V|constructor; [exact Fz|constructor]]|].
      rewrite zlen_app. change (zlen [z]) with 1. lia.
    + left. exists w'. exact R.
    + right. exists w'. split; [exact R|]. split; [|exact V']. rewrite E. cbn [vec]. rewrite <- app_assoc. reflexivity.
Qed.

Lemma xextend_ok M cfg k vs how w : sound_memory M -> vector_ok M k w -> Forall (in_range k) vs ->
  short_ok M cfg k (OExtend how vs) w (xstep M cfg k (OExtend how vs) w).
Proof.
  intros S V F.
  assert (KL : forall w', short_ok M cfg k (OExtend how vs) w (XKilled, w')).
  { intros w' H. exact H. }
  assert (DN : forall w', vec w' = vec w ++ vs -> vector_ok M k w' ->
    short_ok M cfg k (OExtend how vs) w (XDone (Ret VNone), w')).
  { intros w' E V'. unfold short_ok. cbn [fst snd]. exists (fst (py_step (OExtend how vs) (vec w))). rewrite E.
    split; [apply short_done|]. split; [reflexivity|exact V']. }
  assert (IT : forall w0 fin, fin = None -> vec w0 = vec w -> vector_ok M k w0 ->
    short_ok M cfg k (OExtend how vs) w (xextend_items M k VNone (map PInt vs) fin w0)).
  { intros w0 fin -> E0 V0. destruct (xextend_items_ok M k VNone vs None w0 S F V0) as [(w' & ->)|(w' & -> & E & V')].
    - apply KL.
    - apply DN; [rewrite E, E0; reflexivity|exact V']. }
  cbn [xstep]. destruct how; cbn [xextend].
  - destruct (granted M (asked w)); [|apply refused_ok; [exact V|left; reflexivity]].
    destruct (0 <? zlen vs); [|apply IT; [reflexivity|reflexivity|exact V]].
    unfold uncaught. destruct (reserve _ _ _ _ _) as [[c|] n] eqn:EN; cbn [fst snd]; [|apply KL].
    apply IT; [reflexivity|reflexivity|]. split; cbn [vec cap]; [apply V|].
    pose proof (reserve_in _ _ _ _ _ _ _ (proj2 (proj2 V)) EN) as [B1 B2]. destruct V as [_ V]. lia.
  - destruct (granted M (asked w)); [|apply refused_ok; [exact V|left; reflexivity]].
    change (0 <? 0) with false. apply IT; [reflexivity|reflexivity|exact V].
  - unfold uncaught. destruct (enlarge _ _ _ _ _ _) as [[c|] n] eqn:EN; cbn [fst snd]; [|apply KL].
    apply DN; [reflexivity|]. split; cbn [vec cap]; [apply Forall_app; split; [apply V|exact F]|].
    rewrite zlen_app. eapply enlarge_in; [exact S|apply V|exact EN].
Qed.

Lemma xcopy_ok M cfg k w : vector_ok M k w -> short_ok M cfg k OCopy w (xcopy M k w).
Proof.
  intros V. unfold xcopy. destruct (granted M (asked w)); [|apply refused_ok; [exact V|right; left; reflexivity]].
  unfold caught. destruct (reserve _ _ _ _ _) as [[c|] n]; cbn [fst snd].
  - unfold short_ok. cbn [fst snd]. exists (fst (py_step OCopy (vec w))). split; [apply short_done|]. split; [reflexivity|exact V].
  - apply refused_ok; [exact V|left; reflexivity].
Qed.

Lemma xstep_short M cfg k o w : sound_memory M -> vector_ok M k w -> op_ok k (vec w) o ->
  short_ok M cfg k o w (xstep M cfg k o w).
Proof.
  intros S V O. assert (L : zlen (vec w) <= SSIZE_MAX) by (destruct V as [_ V]; destruct (proj1 S k); lia).
  destruct o;
  try (apply in_try_ok; try assumption; left; reflexivity);
  try (apply hand_out_ok; try assumption; exact I);
  try (apply plain_ok; try assumption; exact I).
  - apply xextend_ok; assumption.
  - apply xslice_ok; assumption.
  - apply xcopy_ok; assumption.
Qed.

(** ** Histories *)
Lemma xrun_short M cfg k ops w : sound_memory M -> vector_ok M k w -> Forall (op_fits k) ops -> Forall not_extend ops ->
  exists qs, short_run (vec w) ops qs (vec (snd (xrun M cfg k ops w))) /\
    fst (xrun M cfg k ops w) = map (fun q => XDone (expected cfg k q)) qs /\ vector_ok M k (snd (xrun M cfg k ops w)).
Proof.
  intros S V F N. revert w V. induction ops as [|o ops IH]; intros w V.
  - exists []. split; [constructor|]. split; [reflexivity|exact V].
  - inversion F as [|? ? F1 F2]; subst. inversion N as [|? ? N1 N2]; subst. cbn [xrun].
    pose proof (xstep_short M cfg k o w S V (F1 (vec w))) as H. unfold short_ok in H.
    destruct (xstep M cfg k o w) as [[x|] w1]; cbn [fst snd] in H; [|contradiction].
    destruct H as (q & H1 & -> & V1). destruct (IH F2 N2 w1 V1) as (qs & R1 & R2 & R3).
    destruct (xrun M cfg k ops w1) as [xs w2] eqn:ER. cbn [fst snd] in *. exists (q :: qs).
    split; [econstructor; eassumption|]. split; [rewrite R2; reflexivity|exact R3].
Qed.

(** ** Objects of results *)
Lemma objects_granted M c : forall n, (forall i, (i < c)%nat -> granted M (n + i) = true) -> fst (objects M c n) = true.
Proof.
  induction c as [|c IH]; intros n H; cbn [objects]; [reflexivity|].
  pose proof (H 0%nat ltac:(lia)) as H0. rewrite Nat.add_0_r in H0. rewrite H0. apply IH. intros i L.
  replace (S n + i)%nat with (n + S i)%nat by lia. apply H. lia.
Qed.
Lemma objects_refused M c : forall n i, (i < c)%nat -> granted M (n + i) = false -> fst (objects M c n) = false.
Proof.
  induction c as [|c IH]; intros n i L H; [lia|]. cbn [objects]. destruct (granted M n) eqn:G; [|reflexivity].
  destruct i as [|i]; [rewrite Nat.add_0_r in H; congruence|]. apply (IH (S n) i); [lia|]. replace (S n + i)%nat with (n + S i)%nat by lia. exact H.
Qed.
Lemma reads_value o s cfg k v : reads o -> expected cfg k (fst (py_step o s)) = Ret v -> objects_of v = new_objects (fst (py_step o s)).
Proof.
  intros R E. destruct (fst (py_step o s)) as [q|e] eqn:Q; [|discriminate]. destruct q; try (cbn [expected] in E; injection E as <-; cbn [objects_of new_objects]; rewrite ?map_length; reflexivity).
Qed.
Lemma objects_exact M cfg k o w : sound_memory M -> vector_ok M k w -> op_ok k (vec w) o -> reads o ->
  let q := fst (py_step o (vec w)) in
  ((forall i, (i < new_objects q)%nat -> granted M (asked w + i) = true) -> fst (xstep M cfg k o w) = XDone (expected cfg k q)) /\
  (forall i, (i < new_objects q)%nat -> granted M (asked w + i) = false -> fst (xstep M cfg k o w) = XDone (Raise MemoryError)).
Proof.
  intros S V O R q. assert (L : zlen (vec w) <= SSIZE_MAX) by (destruct S as (S & _); specialize (S k); destruct V; lia).
  assert (X : xstep M cfg k o w = hand_out M (step cfg k o (vec w)) w) by (destruct o; try contradiction R; reflexivity). rewrite X. clear X.
  unfold hand_out. rewrite step_refines by (try assumption; apply V). cbn [fst snd].
  destruct (expected_ret cfg k (fst (py_step o (vec w)))) as [[v E]|(e & E1 & E2)].
  - rewrite E. pose proof (reads_value _ _ _ _ _ R E) as N. fold q in N. rewrite N. split.
    + intros H. apply objects_granted in H. destruct (objects M (new_objects q) (asked w)) as [ok n]. cbn [fst] in *. subst ok. unfold q. rewrite E. reflexivity.
    + intros i Li H. pose proof (objects_refused M _ _ i Li H) as Rf. destruct (objects M (new_objects q) (asked w)) as [ok n]. cbn [fst] in *. subst ok. reflexivity.
  - rewrite E2. split; [intros _; unfold plain; cbn [fst]; unfold q; rewrite E2; reflexivity|]. unfold q. rewrite E1. cbn [new_objects]. intros i Li. lia.
Qed.
