(** Proofs for C67: buffers and views against lists that move. *)
From Coq Require Import ZArith List Bool Lia.
From Verif Require Import Base PyLongModel PyLongProofs MemModel PyListSpec ListLemmas ArrayListModel ArrayListProofs
  ViewSpec ViewModel.
Import ListNotations.
Local Open Scope Z_scope.
Local Arguments Z.pow : simpl never.

Lemma put_same {A} (f : nat -> option A) i x : put f i x i = x.
Proof. unfold put. now rewrite Nat.eqb_refl. Qed.
Lemma put_other {A} (f : nat -> option A) i x j : j <> i -> put f i x j = f j.
Proof. intros H. unfold put. destruct (Nat.eqb_spec j i); [contradiction|reflexivity]. Qed.
Lemma set_list_same w i x : lists (set_list w i x) i = x.
Proof. cbn. now rewrite Nat.eqb_refl. Qed.
Lemma set_list_other w i x j : j <> i -> lists (set_list w i x) j = lists w j.
Proof. intros H. cbn. destruct (Nat.eqb_spec j i); [contradiction|reflexivity]. Qed.

Lemma known_map s : known (map Some s) = Some s.
Proof. induction s as [|x s IH]; [reflexivity|]. cbn. now rewrite IH. Qed.

(** A vector represents an abstract list. *)
Definition rep (k : kind) (w : store) (v : vec) (l : alist) : Prop :=
  v_size v = zlen (a_items l) /\ v_shp v = a_shape l /\ Forall (in_range k) (a_items l) /\
  a_room l = capacity w v /\ zlen (a_items l) <= a_room l /\
  forall b, v_ptr v = Some b -> (b < h_next w)%nat /\
    exists c, heap w b = Some c /\ firstn (length (a_items l)) c = map Some (a_items l).

Definition view_rep (w : store) (a : aworld) (p : pybuf) (v : aview) : Prop :=
  w_items p = av_len v /\ w_shape_in p = av_list v /\ (av_list v < l_count a)%nat /\
  (0 < av_len v -> w_ptr p <> None) /\
  (forall b, w_ptr p = Some b -> (b < h_next w)%nat) /\
  (forall l, lists a (av_list v) = Some l -> (av_moves v <= a_moves l)%nat) /\
  match valid_view a v with
  | Some _ => (forall x, objs w (av_list v) = Some x -> w_ptr p = v_ptr x) /\
      forall b c, w_ptr p = Some b -> heap w b = Some c ->
        av_len v <= zlen c /\ forall j, (Z.of_nat j < av_len v) -> nth j c None <> None
  | None => forall b, w_ptr p = Some b -> heap w b = None
  end.

Record R (k : kind) (w : store) (a : aworld) : Prop := {
  r_on : o_next w = l_count a;
  r_wn : w_next w = a_count a;
  r_none : forall i, objs w i = None <-> lists a i = None;
  r_obj : forall i v l, objs w i = Some v -> lists a i = Some l -> rep k w v l;
  r_ofresh : forall i, (o_next w <= i)%nat -> objs w i = None;
  r_hfresh : forall b, (h_next w <= b)%nat -> heap w b = None;
  r_own : forall i i' v v' b, objs w i = Some v -> objs w i' = Some v' -> v_ptr v = Some b -> v_ptr v' = Some b -> i = i';
  r_live : forall b c, heap w b = Some c -> exists i v, objs w i = Some v /\ v_ptr v = Some b;
  r_wnone : forall n, views w n = None <-> aviews a n = None;
  r_view : forall n p v, views w n = Some p -> aviews a n = Some v -> view_rep w a p v;
  r_wfresh : forall n, (w_next w <= n)%nat -> views w n = None }.

Lemma R_empty k : R k empty_store empty_world.
Proof. constructor; cbn; intros; try tauto; try discriminate; reflexivity. Qed.

Lemma R_list k w a i v : R k w a -> objs w i = Some v -> exists l, lists a i = Some l.
Proof.
  intros H E. destruct (lists a i) as [l|] eqn:L; [eauto|]. apply (r_none k w a H) in L. congruence.
Qed.
Lemma R_obj_of k w a i l : R k w a -> lists a i = Some l -> exists v, objs w i = Some v.
Proof.
  intros H E. destruct (objs w i) as [v|] eqn:L; [eauto|]. apply (r_none k w a H) in L. congruence.
Qed.

Lemma contents_ok k w v l : rep k w v l -> contents w v = Ret (a_items l).
Proof.
  intros (Hs & _ & _ & Hr & Hl & Hb). unfold contents, capacity in *. rewrite Hs.
  pose proof (zlen_nonneg (a_items l)) as L0.
  destruct (v_ptr v) as [b|].
  - destruct (Hb b eq_refl) as (_ & c & Hc & Hf). rewrite Hc in *.
    destruct (Z.leb_spec (zlen (a_items l)) (zlen c)); [|lia].
    unfold zlen. rewrite Nat2Z.id, Hf, known_map. reflexivity.
  - assert (zlen (a_items l) = 0) as Z0 by lia. rewrite Z0. cbn. unfold zlen in Z0.
    destruct (a_items l); [reflexivity|cbn in Z0; lia].
Qed.

Lemma valid_other a i x v : av_list v <> i -> valid_view (set_list a i x) v = valid_view a v.
Proof. intros H. unfold valid_view. now rewrite set_list_other. Qed.

Lemma nth_firstn_lt {A} (c : list A) n j d : (j < n)%nat -> nth j (firstn n c) d = nth j c d.
Proof. revert n j. induction c as [|x c IH]; intros [|n] [|j] H; try lia; try reflexivity. cbn. apply IH. lia. Qed.

(** Rewriting a buffer in place keeps initialised cells initialised. *)
Lemma overwrite_len (s : list Z) (c : list cell) : zlen s <= zlen c ->
  zlen (map Some s ++ skipn (length s) c) = zlen c.
Proof. intros H. rewrite zlen_app, zlen_map. unfold zlen in *. rewrite skipn_length. lia. Qed.
Lemma overwrite_known (s : list Z) (c : list cell) j : nth j c None <> None -> nth j (map Some s ++ skipn (length s) c) None <> None.
Proof.
  intros H. destruct (Nat.lt_ge_cases j (length s)) as [L|L].
  - rewrite app_nth1 by (rewrite map_length; lia). rewrite nth_indep with (d' := Some 0) by (rewrite map_length; lia).
    rewrite (map_nth Some s 0). discriminate.
  - rewrite app_nth2 by (rewrite map_length; lia). rewrite map_length.
    intros E. apply H. revert E.
    assert (G : nth j (firstn (length s) c ++ skipn (length s) c) None = nth (j - length s) (skipn (length s) c) None).
    { destruct (Nat.le_gt_cases (length c) (length s)) as [G|G].
      - rewrite firstn_all2, skipn_all2 by lia. rewrite app_nil_r, nth_overflow by lia. destruct (j - length s)%nat; reflexivity.
      - rewrite app_nth2; rewrite firstn_length, Nat.min_l by lia; [reflexivity|lia]. }
    rewrite firstn_skipn in G. congruence.
Qed.

Section Reloc.
Variables (grow : Z -> Z -> Z) (k : kind) (Hg : forall c n, n <= grow c n).

Lemma relocate_R w a i v l s' need : R k w a -> objs w i = Some v -> lists a i = Some l ->
  Forall (in_range k) s' -> zlen s' <= need ->
  R k (relocate grow w i v s' need) (set_list a i (Some (moved grow l s' need))).
Proof.
  intros H Ev El Fs Hn. pose proof (r_obj k w a H i v l Ev El) as Rp.
  pose proof (zlen_nonneg s') as S0.
  destruct Rp as (Rs & Rsh & Rf & Rr & Rl & Rb).
  assert (Hi : (i < o_next w)%nat).
  { destruct (Nat.lt_ge_cases i (o_next w)); [assumption|]. rewrite (r_ofresh k w a H i) in Ev by assumption. discriminate. }
  unfold relocate, moved. rewrite Rr. destruct (Z.leb_spec need (capacity w v)) as [Le|Gt].
  - (* in place *)
    assert (Hcap : forall b c, v_ptr v = Some b -> heap w b = Some c -> zlen s' <= zlen c).
    { intros b c Eb Ec. unfold capacity in Le. rewrite Eb, Ec in Le. lia. }
    assert (HN : v_ptr v = None -> s' = []).
    { intros E. unfold capacity in Le. rewrite E in Le. destruct s'; [reflexivity|]. rewrite zlen_cons in *. pose proof (zlen_nonneg s'). lia. }
    set (h' := match v_ptr v with None => heap w
               | Some b => put (heap w) b (option_map (fun c => map Some s' ++ skipn (length s') c) (heap w b)) end).
    assert (Hsame : forall b, v_ptr v = Some b -> h' b = option_map (fun c => map Some s' ++ skipn (length s') c) (heap w b)).
    { intros b E. unfold h'. rewrite E, put_same. reflexivity. }
    assert (Hoth : forall b, v_ptr v <> Some b -> h' b = heap w b).
    { intros b E. unfold h'. destruct (v_ptr v) as [b0|]; [|reflexivity]. rewrite put_other; congruence. }
    assert (Hlen : forall b, option_map (@zlen cell) (h' b) = option_map (@zlen cell) (heap w b)).
    { intros b. destruct (v_ptr v) as [b0|] eqn:E; [|now rewrite Hoth by congruence].
      destruct (Nat.eq_dec b b0) as [->|N]; [|rewrite Hoth by congruence; reflexivity].
      rewrite Hsame by reflexivity. destruct (heap w b0) as [c|] eqn:Ec; [|reflexivity].
      cbn. rewrite overwrite_len; [reflexivity|]. eapply Hcap; eauto. }
    assert (Hnone : forall b, h' b = None <-> heap w b = None).
    { intros b. specialize (Hlen b). destruct (h' b), (heap w b); cbn in Hlen; split; congruence. }
    assert (Hc2 : forall x sh sz, capacity (with_obj (with_heap w h' (h_next w)) i x) {| v_ptr := v_ptr v; v_size := sz; v_shp := sh |} = capacity w v).
    { intros. unfold capacity. cbn. destruct (v_ptr v) as [b|]; [|reflexivity]. specialize (Hlen b).
      destruct (h' b), (heap w b); cbn in Hlen; congruence. }
    constructor; cbn [o_next w_next l_count a_count with_obj with_heap objs heap views h_next set_list aviews].
    + apply H.
    + apply H.
    + intros j. unfold put. cbn. destruct (Nat.eqb j i); [split; discriminate|]. apply (r_none k w a H).
    + intros j v0 l0. unfold put. cbn. destruct (Nat.eqb_spec j i) as [->|Nj].
      * intros E1 E2. inversion E1; inversion E2; subst; clear E1 E2.
        unfold rep. cbn [v_size v_shp a_items a_shape a_room v_ptr]. rewrite Hc2.
        do 5 (split; [solve [auto | lia]|]).
        intros b E. destruct (Rb b E) as (Hb & c & Hc & _). split; [exact Hb|].
        exists (map Some s' ++ skipn (length s') c). split; [cbn; rewrite Hsame, Hc by exact E; reflexivity|].
        rewrite firstn_app, map_length, Nat.sub_diag, firstn_all2 by (rewrite map_length; lia). apply app_nil_r.
      * intros E1 E2. destruct (r_obj k w a H j v0 l0 E1 E2) as (A1 & A2 & A3 & A4 & A5 & A6).
        assert (forall b, v_ptr v0 = Some b -> v_ptr v <> Some b) as Own.
        { intros b Eb Eb'. apply Nj. eapply (r_own k w a H j i v0 v b); eauto. }
        unfold rep. split; [exact A1|]. split; [exact A2|]. split; [exact A3|]. split; [|split; [exact A5|]].
        -- rewrite A4. unfold capacity. cbn. destruct (v_ptr v0) as [b|] eqn:Eb; [|reflexivity]. rewrite Hoth by auto. reflexivity.
        -- intros b Eb. destruct (A6 b Eb) as (Lb & c & Hc & Hf). split; [exact Lb|]. exists c. cbn. rewrite Hoth by auto. auto.
    + intros j Hj. rewrite put_other by lia. apply (r_ofresh k w a H); assumption.
    + intros b Hb. apply Hnone. apply (r_hfresh k w a H); assumption.
    + intros i1 i2 v1 v2 b. unfold put. destruct (Nat.eqb_spec i1 i) as [->|N1], (Nat.eqb_spec i2 i) as [->|N2]; intros E1 E2 P1 P2.
      * reflexivity.
      * inversion E1; subst v1. cbn in P1. eapply (r_own k w a H i i2 v v2 b); eauto.
      * inversion E2; subst v2. cbn in P2. eapply (r_own k w a H i1 i v1 v b); eauto.
      * eapply (r_own k w a H i1 i2 v1 v2 b); eauto.
    + intros b c Hc. destruct (heap w b) as [c0|] eqn:E; [|apply Hnone in E; congruence].
      destruct (r_live k w a H b c0 E) as (j & v0 & Ej & Ep). destruct (Nat.eq_dec j i) as [->|Nj].
      * exists i. eexists. rewrite put_same. split; [reflexivity|]. cbn. congruence.
      * exists j, v0. rewrite put_other by assumption. auto.
    + apply H.
    + intros n p x Ep Ex. destruct (r_view k w a H n p x Ep Ex) as (A1 & A2 & A3 & A4 & A5 & A6 & A7).
      unfold view_rep. cbn [h_next with_heap with_obj set_list l_count objs heap].
      split; [exact A1|]. split; [exact A2|]. split; [exact A3|]. split; [exact A4|]. split; [exact A5|].
      assert (Vv : valid_view (set_list a i (Some {| a_items := s'; a_room := capacity w v; a_moves := a_moves l; a_shape := a_shape l |})) x =
                   if Nat.eqb (av_list x) i then match valid_view a x with Some _ => Some {| a_items := s'; a_room := capacity w v; a_moves := a_moves l; a_shape := a_shape l |} | None => None end
                   else valid_view a x).
      { unfold valid_view. cbn. destruct (Nat.eqb_spec (av_list x) i) as [->|]; [|reflexivity]. rewrite El. cbn.
        destruct (Nat.eqb (a_moves l) (av_moves x)); reflexivity. }
      split.
      * intros l0 E. cbn in E. destruct (Nat.eqb_spec (av_list x) i) as [Eq|Nq].
        -- injection E as <-. cbn. apply A6. rewrite Eq. exact El.
        -- apply A6. exact E.
      * assert (G1 : (forall y, objs w (av_list x) = Some y -> w_ptr p = v_ptr y) ->
                     forall y, put (objs w) i (Some {| v_ptr := v_ptr v; v_size := zlen s'; v_shp := v_shp v |}) (av_list x) = Some y -> w_ptr p = v_ptr y).
        { intros B y. unfold put. destruct (Nat.eqb_spec (av_list x) i) as [Eq|Nq]; [|apply B].
          intros E. injection E as <-. cbn. apply B. rewrite Eq. exact Ev. }
        assert (G2 : (forall b c, w_ptr p = Some b -> heap w b = Some c -> av_len x <= zlen c /\ forall j, Z.of_nat j < av_len x -> nth j c None <> None) ->
                     forall b c, w_ptr p = Some b -> h' b = Some c -> av_len x <= zlen c /\ forall j, Z.of_nat j < av_len x -> nth j c None <> None).
        { intros B b c Eb Ec. destruct (v_ptr v) as [b0|] eqn:E; [|rewrite Hoth in Ec by congruence; eauto].
          destruct (Nat.eq_dec b b0) as [->|N]; [|rewrite Hoth in Ec by congruence; eauto].
          rewrite Hsame in Ec by reflexivity. destruct (heap w b0) as [c0|] eqn:E0; [|discriminate]. cbn in Ec. inversion Ec; subst c.
          destruct (B b0 c0 Eb E0) as (B1 & B2). rewrite overwrite_len by (eapply Hcap; eauto). split; [exact B1|].
          intros j Hj. apply overwrite_known. apply B2. exact Hj. }
        rewrite Vv. destruct (valid_view a x) as [y|].
        -- destruct A7 as (B1 & B2). destruct (Nat.eqb (av_list x) i); (split; [exact (G1 B1)|exact (G2 B2)]).
        -- assert (forall b, w_ptr p = Some b -> h' b = None) by (intros b Eb; apply Hnone; auto).
           destruct (Nat.eqb (av_list x) i); assumption.
    + apply H.
  - (* a new buffer *)
    set (b' := h_next w).
    set (h1 := match v_ptr v with None => heap w | Some b => put (heap w) b None end).
    set (c' := map Some s' ++ repeat None (Z.to_nat (grow (capacity w v) need) - length s')).
    specialize (Hg (capacity w v) need).
    assert (Lc : zlen c' = grow (capacity w v) need).
    { unfold c'. rewrite zlen_app, zlen_map. unfold zlen in *. rewrite repeat_length. lia. }
    assert (Hne : forall b, v_ptr v = Some b -> b <> b').
    { intros b E. destruct (Rb b E). unfold b'. lia. }
    assert (H1s : forall b, v_ptr v = Some b -> h1 b = None) by (intros b E; unfold h1; rewrite E; apply put_same).
    assert (H1o : forall b, v_ptr v <> Some b -> h1 b = heap w b).
    { intros b E. unfold h1. destruct (v_ptr v) as [b0|]; [|reflexivity]. apply put_other. congruence. }
    constructor; cbn [o_next w_next l_count a_count with_obj with_heap objs heap views h_next set_list aviews].
    + apply H.
    + apply H.
    + intros j. unfold put. cbn. destruct (Nat.eqb j i); [split; discriminate|]. apply (r_none k w a H).
    + intros j v0 l0. unfold put at 1. cbn. destruct (Nat.eqb_spec j i) as [->|Nj].
      * intros E1 E2. inversion E1; inversion E2; subst; clear E1 E2.
        unfold rep. cbn [v_size v_shp a_items a_shape a_room v_ptr heap with_obj with_heap h_next].
        assert (Hc3 : capacity (with_obj (with_heap w (put h1 b' (Some c')) (S b')) i (Some {| v_ptr := Some b'; v_size := zlen s'; v_shp := v_shp v |}))
                   {| v_ptr := Some b'; v_size := zlen s'; v_shp := v_shp v |} = grow (capacity w v) need).
        { unfold capacity at 1. cbn [v_ptr heap with_obj with_heap]. rewrite put_same. exact Lc. }
        rewrite Hc3. do 5 (split; [solve [auto | lia]|]). intros b E. inversion E; subst b. split.
        -- unfold b'. lia.
        -- exists c'. rewrite put_same. split; [reflexivity|]. unfold c'.
           rewrite firstn_app, map_length, Nat.sub_diag, firstn_all2 by (rewrite map_length; lia). apply app_nil_r.
      * intros E1 E2. destruct (r_obj k w a H j v0 l0 E1 E2) as (A1 & A2 & A3 & A4 & A5 & A6).
        assert (forall b, v_ptr v0 = Some b -> put h1 b' (Some c') b = heap w b) as Keep.
        { intros b Eb. destruct (A6 b Eb) as (Lb & _). rewrite put_other by (unfold b'; lia). apply H1o.
          intros Eb'. apply Nj. eapply (r_own k w a H j i v0 v b); eauto. }
        unfold rep. split; [exact A1|]. split; [exact A2|]. split; [exact A3|]. split; [|split; [exact A5|]].
        -- rewrite A4. unfold capacity. cbn. destruct (v_ptr v0) as [b|] eqn:Eb; [|reflexivity]. rewrite Keep by auto. reflexivity.
        -- intros b Eb. destruct (A6 b Eb) as (Lb & c & Hc & Hf). split; [cbn; unfold b'; lia|]. exists c. cbn. rewrite Keep by auto. auto.
    + intros j Hj. rewrite put_other by lia. apply (r_ofresh k w a H); assumption.
    + intros b Hb. rewrite put_other by lia. destruct (v_ptr v) as [b0|] eqn:E.
      * destruct (Nat.eq_dec b b0) as [->|]; [auto|]. rewrite H1o by congruence. apply (r_hfresh k w a H). unfold b' in *. lia.
      * rewrite H1o by congruence. apply (r_hfresh k w a H). unfold b' in *. lia.
    + assert (Nb : forall j v0, objs w j = Some v0 -> v_ptr v0 <> Some b').
      { intros j v0 E0 P0. destruct (R_list k w a j v0 H E0) as (l0 & L0).
        destruct (r_obj k w a H j v0 l0 E0 L0) as (_ & _ & _ & _ & _ & A6). destruct (A6 b' P0). unfold b' in *. lia. }
      intros i1 i2 v1 v2 b. unfold put. destruct (Nat.eqb_spec i1 i) as [->|N1], (Nat.eqb_spec i2 i) as [->|N2]; intros E1 E2 P1 P2.
      * reflexivity.
      * inversion E1; subst v1. cbn in P1. inversion P1; subst b. exfalso. eapply Nb; eauto.
      * inversion E2; subst v2. cbn in P2. inversion P2; subst b. exfalso. eapply Nb; eauto.
      * eapply (r_own k w a H i1 i2 v1 v2 b); eauto.
    + intros b c. unfold put at 1. destruct (Nat.eqb_spec b b') as [->|Nb]; intros Hc.
      * exists i. eexists. rewrite put_same. split; reflexivity.
      * destruct (v_ptr v) as [b0|] eqn:E.
        -- destruct (Nat.eq_dec b b0) as [->|Nb0]; [rewrite H1s in Hc by reflexivity; discriminate|].
           rewrite H1o in Hc by congruence. destruct (r_live k w a H b c Hc) as (j & v0 & Ej & Ep).
           exists j, v0. rewrite put_other; [auto|]. intros ->. rewrite Ev in Ej. inversion Ej; subst. congruence.
        -- rewrite H1o in Hc by congruence. destruct (r_live k w a H b c Hc) as (j & v0 & Ej & Ep).
           exists j, v0. rewrite put_other; [auto|]. intros ->. rewrite Ev in Ej. inversion Ej; subst. congruence.
    + apply H.
    + intros n p x Ep Ex. destruct (r_view k w a H n p x Ep Ex) as (A1 & A2 & A3 & A4 & A5 & A6 & A7).
      unfold view_rep. cbn [h_next with_heap with_obj set_list l_count objs heap].
      split; [exact A1|]. split; [exact A2|]. split; [exact A3|]. split; [exact A4|].
      split; [intros b Eb; specialize (A5 b Eb); unfold b'; lia|].
      destruct (Nat.eqb_spec (av_list x) i) as [Eq|Nq].
      * split.
        -- intros l0 E. cbn in E. rewrite Eq, Nat.eqb_refl in E. injection E as <-. cbn. rewrite Eq in A6. specialize (A6 l El). lia.
        -- unfold valid_view. rewrite Eq, set_list_same. cbn [a_moves].
           assert (a_moves l >= av_moves x)%nat by (rewrite Eq in A6; specialize (A6 l El); lia).
           destruct (Nat.eqb_spec (S (a_moves l)) (av_moves x)); [lia|].
           intros b Eb. specialize (A5 b Eb). rewrite put_other by (unfold b'; lia).
           unfold valid_view in A7. rewrite Eq, El in A7. destruct (Nat.eqb (a_moves l) (av_moves x)).
           ++ destruct A7 as (B1 & _). apply H1s. rewrite <- (B1 v Ev). exact Eb.
           ++ destruct (v_ptr v) as [b0|] eqn:E.
              ** destruct (Nat.eq_dec b b0) as [->|]; [auto|]. rewrite H1o by congruence. auto.
              ** rewrite H1o by congruence. auto.
      * split; [intros l0 E; cbn in E; destruct (Nat.eqb_spec (av_list x) i); [contradiction|apply A6; exact E]|].
        rewrite valid_other by exact Nq.
        destruct (valid_view a x) as [y|] eqn:Vy.
        -- destruct A7 as (B1 & B2). rewrite put_other by exact Nq. split; [exact B1|].
           intros b c Eb Ec. pose proof (A5 b Eb). rewrite put_other in Ec by (unfold b'; lia).
           apply (B2 b c Eb). rewrite H1o in Ec; [exact Ec|]. intros Eb'.
           assert (exists y0, objs w (av_list x) = Some y0) as (y0 & Ey0).
           { unfold valid_view in Vy. destruct (lists a (av_list x)) as [l0|] eqn:L0; [|discriminate]. eapply R_obj_of; eauto. }
           apply Nq. eapply (r_own k w a H (av_list x) i y0 v b); eauto. rewrite <- (B1 y0 Ey0). exact Eb.
        -- intros b Eb. pose proof (A5 b Eb). rewrite put_other by (unfold b'; lia).
           destruct (v_ptr v) as [b0|] eqn:E.
           ++ destruct (Nat.eq_dec b b0) as [->|]; [auto|]. rewrite H1o by congruence. auto.
           ++ rewrite H1o by congruence. auto.
    + apply H.
Qed.
End Reloc.

(** What an answer of the specification says about the result. *)
Definition agree (cfg : config) (k : kind) (r : outcome val) (x : answer) : Prop :=
  match x with
  | APy p => r = expected cfg k p
  | AErr e => r = Raise e
  | ANum z => r = Ret (VInt z)
  | ALeft => exists z, r = Ret (VInt z)
  | AFreed => r = Undef UseAfterFree
  end.

Lemma new_R k w a : R k w a ->
  R k {| heap := heap w; h_next := h_next w; objs := put (objs w) (o_next w) (Some {| v_ptr := None; v_size := 0; v_shp := 0 |});
         o_next := S (o_next w); views := views w; w_next := w_next w |}
      {| lists := fun j => if Nat.eqb j (l_count a) then Some {| a_items := []; a_room := 0; a_moves := 0; a_shape := 0 |} else lists a j;
         l_count := S (l_count a); aviews := aviews a; a_count := a_count a |}.
Proof.
  intros H. pose proof (r_on k w a H) as On.
  constructor; cbn [o_next w_next l_count a_count objs heap views h_next aviews lists].
  - lia.
  - apply H.
  - intros i. unfold put. rewrite On. destruct (Nat.eqb i (l_count a)); [split; discriminate|apply (r_none k w a H)].
  - intros i v l. unfold put. rewrite On. destruct (Nat.eqb i (l_count a)).
    + intros E1 E2. injection E1 as <-. injection E2 as <-. unfold rep, capacity. cbn. repeat split; auto; discriminate.
    + intros E1 E2. exact (r_obj k w a H i v l E1 E2).
  - intros i Hi. rewrite put_other by lia. apply (r_ofresh k w a H). lia.
  - apply (r_hfresh k w a H).
  - intros i i' v v' b. unfold put. destruct (Nat.eqb i (o_next w)) eqn:Q; [intros E1 _ P _; injection E1 as <-; discriminate|].
    destruct (Nat.eqb i' (o_next w)) eqn:Q'; [intros _ E1 _ P; injection E1 as <-; discriminate|]. apply (r_own k w a H).
  - intros b c Hc. destruct (r_live k w a H b c Hc) as (i & v & Ei & Ep). exists i, v. split; [|exact Ep].
    rewrite put_other; [exact Ei|]. intros ->. rewrite (r_ofresh k w a H) in Ei by lia. discriminate.
  - apply (r_wnone k w a H).
  - intros n p v Ep Ev. destruct (r_view k w a H n p v Ep Ev) as (A1 & A2 & A3 & A4 & A5 & A6 & A7).
    assert (Nq : av_list v <> l_count a) by lia.
    unfold view_rep, valid_view. cbn [l_count lists h_next objs heap].
    destruct (Nat.eqb_spec (av_list v) (l_count a)) as [|_]; [contradiction|].
    repeat (split; [first [assumption|lia]|]).
    fold (valid_view a v). destruct (valid_view a v); [|exact A7].
    destruct A7 as (B1 & B2). split; [|exact B2]. rewrite put_other by lia. exact B1.
  - apply (r_wfresh k w a H).
Qed.

Lemma drop_R k w a i v : R k w a -> objs w i = Some v ->
  exists h, (match v_ptr v with None => h = heap w | Some b => (exists c, heap w b = Some c) /\ h = put (heap w) b None end) /\
  R k (with_obj (with_heap w h (h_next w)) i None) (set_list a i None).
Proof.
  intros H Ev. destruct (R_list k w a i v H Ev) as (l & El).
  destruct (r_obj k w a H i v l Ev El) as (A1 & A2 & A3 & A4 & A5 & A6).
  exists (match v_ptr v with None => heap w | Some b => put (heap w) b None end). split.
  { destruct (v_ptr v) as [b|]; [|reflexivity]. destruct (A6 b eq_refl) as (_ & c & Hc & _). eauto. }
  set (h := match v_ptr v with None => heap w | Some b => put (heap w) b None end).
  assert (Hs : forall b, v_ptr v = Some b -> h b = None) by (intros b E; unfold h; rewrite E; apply put_same).
  assert (Ho : forall b, v_ptr v <> Some b -> h b = heap w b).
  { intros b E. unfold h. destruct (v_ptr v) as [b0|]; [|reflexivity]. apply put_other. congruence. }
  assert (Hn : forall b, heap w b = None -> h b = None).
  { intros b E. destruct (v_ptr v) as [b0|] eqn:E0; [|rewrite Ho by congruence; exact E].
    destruct (Nat.eq_dec b b0) as [->|]; [auto|rewrite Ho by congruence; exact E]. }
  constructor; cbn [o_next w_next l_count a_count with_obj with_heap objs heap views h_next set_list aviews].
  - apply H.
  - apply H.
  - intros j. unfold put. cbn. destruct (Nat.eqb j i); [tauto|]. apply (r_none k w a H).
  - intros j v0 l0. unfold put. cbn. destruct (Nat.eqb_spec j i) as [->|Nj]; [discriminate|].
    intros E1 E2. destruct (r_obj k w a H j v0 l0 E1 E2) as (B1 & B2 & B3 & B4 & B5 & B6).
    assert (Keep : forall b, v_ptr v0 = Some b -> h b = heap w b).
    { intros b Eb. apply Ho. intros Eb'. apply Nj. eapply (r_own k w a H j i v0 v b); eauto. }
    unfold rep. split; [exact B1|]. split; [exact B2|]. split; [exact B3|]. split; [|split; [exact B5|]].
    + rewrite B4. unfold capacity. cbn. destruct (v_ptr v0) as [b|] eqn:Eb; [|reflexivity]. rewrite Keep by auto. reflexivity.
    + intros b Eb. destruct (B6 b Eb) as (Lb & c & Hc & Hf). split; [exact Lb|]. exists c. cbn. rewrite Keep by auto. auto.
  - intros j Hj. unfold put. destruct (Nat.eqb j i); [reflexivity|]. apply (r_ofresh k w a H); assumption.
  - intros b Hb. apply Hn. apply (r_hfresh k w a H); assumption.
  - intros i1 i2 v1 v2 b. unfold put. destruct (Nat.eqb i1 i); [discriminate|]. destruct (Nat.eqb i2 i); [discriminate|]. apply (r_own k w a H).
  - intros b c Hc. assert (v_ptr v <> Some b) as Nb by (intros E; rewrite Hs in Hc by exact E; discriminate).
    rewrite Ho in Hc by exact Nb. destruct (r_live k w a H b c Hc) as (j & v0 & Ej & Ep). exists j, v0. split; [|exact Ep].
    rewrite put_other; [exact Ej|]. intros ->. congruence.
  - apply (r_wnone k w a H).
  - intros n p x Ep Ex. destruct (r_view k w a H n p x Ep Ex) as (B1 & B2 & B3 & B4 & B5 & B6 & B7).
    unfold view_rep. split; [exact B1|]. split; [exact B2|]. split; [exact B3|]. split; [exact B4|]. split; [exact B5|].
    destruct (Nat.eq_dec (av_list x) i) as [Eq|Nq].
    + split; [intros l0 E; rewrite Eq, set_list_same in E; discriminate|].
      unfold valid_view. rewrite Eq, set_list_same. intros b Eb. cbn.
      unfold valid_view in B7. rewrite Eq, El in B7. destruct (Nat.eqb (a_moves l) (av_moves x)); [|auto].
      destruct B7 as (C1 & _). apply Hs. rewrite <- (C1 v Ev). exact Eb.
    + split; [intros l0 E; rewrite set_list_other in E by exact Nq; auto|]. rewrite valid_other by exact Nq.
      cbn [objs heap with_obj with_heap]. rewrite put_other by exact Nq.
      destruct (valid_view a x) as [y|]; [|auto]. destruct B7 as (C1 & C2). split; [exact C1|].
      intros b c Eb Ec. apply (C2 b c Eb). destruct (heap w b) as [c0|] eqn:E0; [|rewrite Hn in Ec by exact E0; discriminate].
      destruct (v_ptr v) as [b0|] eqn:E1; [|rewrite Ho in Ec by congruence; congruence].
      destruct (Nat.eq_dec b b0) as [->|]; [rewrite Hs in Ec by reflexivity; discriminate|rewrite Ho in Ec by congruence; congruence].
  - apply (r_wfresh k w a H).
Qed.

Lemma view_R k w a i v l : R k w a -> objs w i = Some v -> lists a i = Some l ->
  R k {| heap := heap w; h_next := h_next w;
         objs := put (objs w) i (Some {| v_ptr := v_ptr v; v_size := v_size v; v_shp := v_size v |}); o_next := o_next w;
         views := put (views w) (w_next w) (Some {| w_ptr := v_ptr v; w_items := v_size v; w_shape_in := i |}); w_next := S (w_next w) |}
      {| lists := fun j => if Nat.eqb j i then Some {| a_items := a_items l; a_room := a_room l; a_moves := a_moves l; a_shape := zlen (a_items l) |} else lists a j;
         l_count := l_count a;
         aviews := fun j => if Nat.eqb j (a_count a) then Some {| av_list := i; av_moves := a_moves l; av_len := zlen (a_items l) |} else aviews a j;
         a_count := S (a_count a) |}.
Proof.
  intros H Ev El. destruct (r_obj k w a H i v l Ev El) as (A1 & A2 & A3 & A4 & A5 & A6).
  pose proof (r_wn k w a H) as Wn.
  assert (Hi : (i < o_next w)%nat).
  { destruct (Nat.lt_ge_cases i (o_next w)); [assumption|]. rewrite (r_ofresh k w a H i) in Ev by assumption. discriminate. }
  constructor; cbn [o_next w_next l_count a_count objs heap views h_next aviews lists].
  - apply H.
  - lia.
  - intros j. unfold put. destruct (Nat.eqb j i); [split; discriminate|apply (r_none k w a H)].
  - intros j v0 l0. unfold put. destruct (Nat.eqb_spec j i) as [->|].
    + intros E1 E2. injection E1 as <-. injection E2 as <-. unfold rep, capacity. cbn.
      repeat (split; [assumption|]). exact A6.
    + intros E1 E2. exact (r_obj k w a H j v0 l0 E1 E2).
  - intros j Hj. rewrite put_other by lia. apply (r_ofresh k w a H). exact Hj.
  - apply (r_hfresh k w a H).
  - intros i1 i2 v1 v2 b. unfold put. destruct (Nat.eqb_spec i1 i) as [->|N1], (Nat.eqb_spec i2 i) as [->|N2]; intros E1 E2 P1 P2; auto.
    + injection E1 as <-. eapply (r_own k w a H i i2 v v2 b); eauto.
    + injection E2 as <-. eapply (r_own k w a H i1 i v1 v b); eauto.
    + eapply (r_own k w a H i1 i2 v1 v2 b); eauto.
  - intros b c Hc. destruct (r_live k w a H b c Hc) as (j & v0 & Ej & Ep). destruct (Nat.eq_dec j i) as [->|Nj].
    + exists i. eexists. rewrite put_same. split; [reflexivity|]. cbn. congruence.
    + exists j, v0. rewrite put_other by exact Nj. auto.
  - intros n. unfold put. rewrite Wn. destruct (Nat.eqb n (a_count a)); [split; discriminate|apply (r_wnone k w a H)].
  - intros n p x. unfold put at 1. rewrite Wn. destruct (Nat.eqb n (a_count a)).
    + intros E1 E2. injection E1 as <-. injection E2 as <-. unfold view_rep, valid_view. cbn.
      rewrite Nat.eqb_refl. cbn. rewrite Nat.eqb_refl.
      split; [exact A1|]. split; [reflexivity|]. split; [rewrite <- (r_on k w a H); exact Hi|].
      split.
      { intros L E. unfold capacity in A4. rewrite E in A4. lia. }
      split; [intros b E; apply (A6 b E)|].
      split; [intros l0 E; injection E as <-; cbn; lia|].
      split; [intros x E; rewrite put_same in E; injection E as <-; reflexivity|].
      intros b c Eb Ec. destruct (A6 b Eb) as (_ & c0 & Hc0 & Hf). rewrite Hc0 in Ec. injection Ec as <-.
      unfold capacity in A4. rewrite Eb, Hc0 in A4. split; [lia|].
      intros j Hj. unfold zlen in Hj. rewrite <- (nth_firstn_lt c0 (length (a_items l)) j None) by lia. rewrite Hf.
      rewrite nth_indep with (d' := Some 0) by (rewrite map_length; lia). rewrite (map_nth Some _ 0). discriminate.
    + intros Ep Ex. destruct (r_view k w a H n p x Ep Ex) as (B1 & B2 & B3 & B4 & B5 & B6 & B7).
      assert (Vv : valid_view {| lists := fun j => if Nat.eqb j i then Some {| a_items := a_items l; a_room := a_room l; a_moves := a_moves l; a_shape := zlen (a_items l) |} else lists a j;
         l_count := l_count a;
         aviews := fun j => if Nat.eqb j (a_count a) then Some {| av_list := i; av_moves := a_moves l; av_len := zlen (a_items l) |} else aviews a j;
         a_count := S (a_count a) |} x = None <-> valid_view a x = None).
      { unfold valid_view. cbn. destruct (Nat.eqb_spec (av_list x) i) as [->|]; [|reflexivity]. rewrite El. cbn.
        destruct (Nat.eqb (a_moves l) (av_moves x)); split; congruence. }
      unfold view_rep. split; [exact B1|]. split; [exact B2|]. split; [exact B3|]. split; [exact B4|]. split; [exact B5|].
      split.
      { intros l0 E. cbn in E. destruct (Nat.eqb_spec (av_list x) i) as [Eq|]; [|apply B6; exact E].
        injection E as <-. cbn. apply B6. rewrite Eq. exact El. }
      cbn [objs heap].
      assert (G1 : (forall y, objs w (av_list x) = Some y -> w_ptr p = v_ptr y) ->
              forall y, put (objs w) i (Some {| v_ptr := v_ptr v; v_size := v_size v; v_shp := v_size v |}) (av_list x) = Some y -> w_ptr p = v_ptr y).
      { intros B y. unfold put. destruct (Nat.eqb_spec (av_list x) i) as [Eq|Nq]; [|apply B].
        intros E. injection E as <-. cbn. apply B. rewrite Eq. exact Ev. }
      match goal with |- match ?V with _ => _ end => destruct V as [y|] eqn:V1 end.
      * destruct (valid_view a x) as [y'|] eqn:V2; [|discriminate (proj2 Vv eq_refl)].
        destruct B7 as (C1 & C2). split; [exact (G1 C1)|exact C2].
      * destruct (valid_view a x) as [y'|] eqn:V2; [discriminate (proj1 Vv eq_refl)|]. exact B7.
  - intros n Hn. rewrite put_other by lia. apply (r_wfresh k w a H). lia.
Qed.

Lemma R_ext k w a w' a' : R k w a ->
  (forall b, heap w' b = heap w b) -> (forall i, objs w' i = objs w i) -> (forall i, lists a' i = lists a i) ->
  h_next w' = h_next w -> o_next w' = o_next w -> w_next w' = w_next w -> views w' = views w ->
  l_count a' = l_count a -> a_count a' = a_count a -> aviews a' = aviews a -> R k w' a'.
Proof.
  intros H Hh Ho Hl E1 E2 E3 E4 E5 E6 E7.
  assert (Hc : forall v, capacity w' v = capacity w v).
  { intros v. unfold capacity. destruct (v_ptr v); [rewrite Hh|]; reflexivity. }
  assert (Hv : forall v, valid_view a' v = valid_view a v) by (intros v; unfold valid_view; now rewrite Hl).
  constructor.
  - rewrite E2, E5. apply H.
  - rewrite E3, E6. apply H.
  - intros i. rewrite Ho, Hl. apply (r_none k w a H).
  - intros i v l. rewrite Ho, Hl. intros A B. destruct (r_obj k w a H i v l A B) as (B1 & B2 & B3 & B4 & B5 & B6).
    unfold rep. rewrite Hc, E1. repeat (split; [assumption|]). intros b Eb. destruct (B6 b Eb) as (L & c & C1 & C2).
    split; [exact L|]. exists c. rewrite Hh. auto.
  - intros i Hi. rewrite Ho. apply (r_ofresh k w a H). now rewrite <- E2.
  - intros b Hb. rewrite Hh. apply (r_hfresh k w a H). now rewrite <- E1.
  - intros i i' v v' b. rewrite !Ho. apply (r_own k w a H).
  - intros b c. rewrite Hh. intros E. destruct (r_live k w a H b c E) as (i & v & A & B). exists i, v. rewrite Ho. auto.
  - intros n. rewrite E4, E7. apply (r_wnone k w a H).
  - intros n p v. rewrite E4, E7. intros A B. destruct (r_view k w a H n p v A B) as (B1 & B2 & B3 & B4 & B5 & B6 & B7).
    unfold view_rep. rewrite E1, E5, Hv. repeat (split; [assumption|]).
    split; [intros l; rewrite Hl; apply B6|]. destruct (valid_view a v).
    + destruct B7 as (C1 & C2). split; [intros x; rewrite Ho; apply C1|]. intros b c. rewrite Hh. apply C2.
    + intros b. rewrite Hh. apply B7.
  - intros n Hn. rewrite E4. apply (r_wfresh k w a H). now rewrite <- E3.
Qed.

(** Writing cells of a buffer in place. *)
Lemma cells_R k w a i v l b c c1 t : R k w a -> objs w i = Some v -> lists a i = Some l -> v_ptr v = Some b -> heap w b = Some c ->
  length c1 = length c -> (forall j, nth j c None <> None -> nth j c1 None <> None) ->
  length t = length (a_items l) -> Forall (in_range k) t -> firstn (length t) c1 = map Some t ->
  R k (with_heap w (put (heap w) b (Some c1)) (h_next w))
      (set_list a i (Some {| a_items := t; a_room := a_room l; a_moves := a_moves l; a_shape := a_shape l |})).
Proof.
  intros H Ev El Eb Ec Lc Kn Lt Ft Pt.
  destruct (r_obj k w a H i v l Ev El) as (A1 & A2 & A3 & A4 & A5 & A6).
  assert (Hcap : forall x, capacity (with_heap w (put (heap w) b (Some c1)) (h_next w)) x = capacity w x).
  { intros x. unfold capacity. cbn. destruct (v_ptr x) as [b0|]; [|reflexivity]. unfold put.
    destruct (Nat.eqb_spec b0 b) as [->|]; [|reflexivity]. rewrite Ec. unfold zlen. now rewrite Lc. }
  assert (Hn : forall b0, put (heap w) b (Some c1) b0 = None <-> heap w b0 = None).
  { intros b0. unfold put. destruct (Nat.eqb_spec b0 b) as [->|]; [rewrite Ec; split; discriminate|reflexivity]. }
  constructor; cbn [o_next w_next l_count a_count with_heap objs heap views h_next set_list aviews].
  - apply H.
  - apply H.
  - intros j. cbn. destruct (Nat.eqb_spec j i) as [->|]; [rewrite Ev; split; discriminate|apply (r_none k w a H)].
  - intros j v0 l0 E1. cbn. destruct (Nat.eqb_spec j i) as [->|Nj]; intros E2.
    + rewrite Ev in E1. injection E1 as <-. injection E2 as <-. unfold rep. rewrite Hcap. cbn [a_items a_room a_shape].
      unfold zlen. rewrite Lt. fold (zlen (a_items l)). repeat (split; [assumption|]).
      intros b0 E0. rewrite Eb in E0. injection E0 as <-. destruct (A6 b Eb) as (Lb & _). split; [exact Lb|].
      exists c1. cbn. rewrite put_same. rewrite <- Lt. auto.
    + destruct (r_obj k w a H j v0 l0 E1 E2) as (B1 & B2 & B3 & B4 & B5 & B6). unfold rep. rewrite Hcap.
      repeat (split; [assumption|]). intros b0 E0. destruct (B6 b0 E0) as (Lb & c0 & C1 & C2). split; [exact Lb|].
      exists c0. split; [|exact C2]. cbn. rewrite put_other; [exact C1|]. intros ->. apply Nj. eapply (r_own k w a H j i v0 v b); eauto.
  - apply (r_ofresh k w a H).
  - intros b0 Hb. apply Hn. apply (r_hfresh k w a H). exact Hb.
  - apply (r_own k w a H).
  - intros b0 c0 E0. destruct (heap w b0) as [c2|] eqn:E2; [|apply Hn in E2; congruence]. exact (r_live k w a H b0 c2 E2).
  - apply (r_wnone k w a H).
  - intros n p x Ep Ex. destruct (r_view k w a H n p x Ep Ex) as (B1 & B2 & B3 & B4 & B5 & B6 & B7).
    unfold view_rep. split; [exact B1|]. split; [exact B2|]. split; [exact B3|]. split; [exact B4|]. split; [exact B5|].
    assert (G : forall b0 c0, w_ptr p = Some b0 -> put (heap w) b (Some c1) b0 = Some c0 ->
       (forall b c, w_ptr p = Some b -> heap w b = Some c -> av_len x <= zlen c /\ forall j, Z.of_nat j < av_len x -> nth j c None <> None) ->
       av_len x <= zlen c0 /\ forall j, Z.of_nat j < av_len x -> nth j c0 None <> None).
    { intros b0 c0 E0 C0 C2. unfold put in C0. destruct (Nat.eqb_spec b0 b) as [->|]; [|eauto].
      injection C0 as <-. destruct (C2 b c E0 Ec) as (D1 & D2). unfold zlen in *. rewrite Lc. split; [exact D1|]. intros j Hj. apply Kn. auto. }
    destruct (Nat.eq_dec (av_list x) i) as [Eq|Nq].
    + split.
      { intros l0 E. rewrite Eq, set_list_same in E. injection E as <-. cbn. apply B6. now rewrite Eq. }
      unfold valid_view in *. rewrite Eq, set_list_same in *. rewrite El in B7. cbn [a_moves].
      destruct (Nat.eqb (a_moves l) (av_moves x)).
      * destruct B7 as (C1 & C2). split; [exact C1|]. intros b0 c0 E0 C0. exact (G b0 c0 E0 C0 C2).
      * intros b0 E0. apply Hn. auto.
    + split; [intros l0 E; rewrite set_list_other in E by exact Nq; auto|]. rewrite valid_other by exact Nq.
      destruct (valid_view a x).
      * destruct B7 as (C1 & C2). split; [exact C1|]. intros b0 c0 E0 C0. exact (G b0 c0 E0 C0 C2).
      * intros b0 E0. apply Hn. auto.
  - apply (r_wfresh k w a H).
Qed.

Lemma item_cell_ok k w a n p v j : R k w a -> views w n = Some p -> aviews a n = Some v ->
  if in_view v j then
    match valid_view a v with
    | None => item_cell w p j = Undef UseAfterFree
    | Some l => exists x b c z, objs w (av_list v) = Some x /\ v_ptr x = Some b /\ heap w b = Some c /\
        item_cell w p j = Ret (b, rel (av_len v) j, Some z) /\ nth_error c (Z.to_nat (rel (av_len v) j)) = Some (Some z) /\
        forall y, nth_error (a_items l) (Z.to_nat (rel (av_len v) j)) = Some y -> y = z
    end
  else item_cell w p j = Raise IndexError.
Proof.
  intros H Ep Ev. destruct (r_view k w a H n p v Ep Ev) as (B1 & B2 & B3 & B4 & B5 & B6 & B7).
  unfold item_cell, in_view. rewrite B1. fold (rel (av_len v) j). set (q := rel (av_len v) j).
  destruct ((0 <=? q) && (q <? av_len v)) eqn:Q; [|reflexivity]. apply rel_bounds_dec in Q.
  destruct (w_ptr p) as [b|] eqn:Pb; [|exfalso; apply B4; [lia|reflexivity]].
  destruct (valid_view a v) as [l|] eqn:V.
  - destruct B7 as (C1 & C2). unfold valid_view in V. destruct (lists a (av_list v)) as [l0|] eqn:L0; [|discriminate].
    destruct (Nat.eqb (a_moves l0) (av_moves v)); [|discriminate]. injection V as ->.
    destruct (R_obj_of k w a _ _ H L0) as (x & Ex). specialize (C1 x Ex).
    destruct (r_obj k w a H _ _ _ Ex L0) as (_ & _ & _ & _ & _ & A6).
    destruct (A6 b (eq_sym C1)) as (_ & c & Hc & Hf). destruct (C2 b c eq_refl Hc) as (D1 & D2).
    rewrite Hc. unfold znth. destruct (Z.ltb_spec q 0); [lia|].
    specialize (D2 (Z.to_nat q) ltac:(lia)).
    destruct (nth_error c (Z.to_nat q)) as [y|] eqn:N; [|apply nth_error_None in N; unfold zlen in D1; lia].
    rewrite (nth_error_nth _ _ None N) in D2. destruct y as [z|]; [|contradiction].
    exists x, b, c, z. repeat (split; [first [assumption|reflexivity|symmetry; assumption]|]).
    intros y Hy.
    assert (Lt : (Z.to_nat q < length (a_items l))%nat) by (apply nth_error_Some; congruence).
    assert (nth_error (firstn (length (a_items l)) c) (Z.to_nat q) = Some (Some z)) as N2.
    { rewrite <- (firstn_skipn (length (a_items l)) c) in N. rewrite nth_error_app1 in N; [exact N|].
      rewrite Hf, map_length. exact Lt. }
    rewrite Hf in N2. rewrite nth_error_map, Hy in N2. cbn in N2. congruence.
  - rewrite (B7 b eq_refl). reflexivity.
Qed.

Lemma init_ok k vs : Forall (in_range k) vs -> init k (IArg (AList (map PInt vs))) = Ret (VNewList vs).
Proof.
  intros F. unfold init. assert (G : forall s, init_items k (map PInt vs) s = (Ret tt, s ++ vs)).
  { induction F as [|v vs H F IH]; intros s; cbn [map init_items]; [now rewrite app_nil_r|].
    rewrite as_elem_ok by exact H. rewrite IH, <- app_assoc. reflexivity. }
  rewrite G. reflexivity.
Qed.

Section Step.
Variables (cfg : config) (k : kind) (grow : Z -> Z -> Z) (sort : list Z -> list Z).
Hypothesis Hg : forall c n, n <= grow c n.
Hypothesis Hsl : forall s, length (sort s) = length s.
Hypothesis Hsr : forall s, Forall (in_range k) s -> Forall (in_range k) (sort s).
Let fits := in_sbits_b (bits k).
Let ok := suitable (op_ok k) (in_range k) SSIZE_MAX.

Lemma vexec_R o w a : R k w a -> ok a o ->
  agree cfg k (fst (vexec cfg k grow sort o w)) (fst (astep grow fits sort o a)) /\
  (fst (astep grow fits sort o a) <> AFreed -> R k (snd (vexec cfg k grow sort o w)) (snd (astep grow fits sort o a))).
Proof.
  intros H K. destruct o as [vs|i m|i|i|i|n j|n j z|n|n]; cbn [vexec astep ok suitable] in *.
  - (* new *)
    rewrite init_ok by exact K. cbn [fst snd]. split; [reflexivity|]. intros _.
    pose proof (new_R k w a H) as H1. rewrite <- (r_on k w a H) in *.
    apply (relocate_R grow k Hg _ _ _ _ {| a_items := []; a_room := 0; a_moves := 0; a_shape := 0 |} vs (zlen vs) H1).
    + cbn. apply put_same.
    + cbn. now rewrite Nat.eqb_refl.
    + exact K.
    + lia.
  - (* call *)
    destruct (objs w i) as [v|] eqn:Ev.
    2:{ rewrite (proj1 (r_none k w a H i) Ev). cbn. split; [reflexivity|intros _; exact H]. }
    destruct (R_list k w a i v H Ev) as (l & El). rewrite El. destruct (K l El) as (K1 & K2).
    pose proof (r_obj k w a H i v l Ev El) as Rp. rewrite (contents_ok k w v l Rp).
    destruct Rp as (_ & _ & Rf & _).
    rewrite (step_refines cfg k m (a_items l) Rf K2 K1).
    pose proof (py_step_range k m (a_items l) Rf K1) as F2. unfold wanted.
    destruct (py_step m (a_items l)) as [r s'] eqn:P. cbn [fst snd] in *.
    assert (E : reserved m (a_items l) = match m with OExtend FromList vs => Z.of_nat (length (a_items l)) + Z.of_nat (length vs) | _ => 0 end).
    { destruct m; reflexivity. }
    rewrite <- E. fold (zlen s').
    assert (G : R k (relocate grow w i v s' (Z.max (zlen s') (reserved m (a_items l))))
                (set_list a i (Some (moved grow l s' (Z.max (zlen s') (reserved m (a_items l))))))).
    { apply relocate_R; auto; lia. }
    destruct r as [x|e]; cbn [expected]; [destruct x|]; cbn [fst snd agree]; (split; [reflexivity|intros _; exact G]).
  - (* sort *)
    destruct (objs w i) as [v|] eqn:Ev.
    2:{ rewrite (proj1 (r_none k w a H i) Ev). cbn. split; [reflexivity|intros _; exact H]. }
    destruct (R_list k w a i v H Ev) as (l & El). rewrite El.
    pose proof (r_obj k w a H i v l Ev El) as Rp. rewrite (contents_ok k w v l Rp).
    destruct Rp as (_ & _ & Rf & _). cbn [fst snd]. split; [reflexivity|]. intros _.
    apply relocate_R; auto. unfold zlen. rewrite Hsl. lia.
  - (* drop *)
    destruct (objs w i) as [v|] eqn:Ev.
    2:{ rewrite (proj1 (r_none k w a H i) Ev). cbn. split; [reflexivity|intros _; exact H]. }
    destruct (R_list k w a i v H Ev) as (l & El). rewrite El.
    destruct (drop_R k w a i v H Ev) as (h & Hh & Rd). destruct (v_ptr v) as [b|].
    + destruct Hh as ((c & Hc) & ->). rewrite Hc. cbn [fst snd]. split; [reflexivity|intros _; exact Rd].
    + subst h. cbn [fst snd]. split; [reflexivity|intros _]. eapply R_ext; [exact Rd|..]; reflexivity.
  - (* view *)
    destruct (objs w i) as [v|] eqn:Ev.
    2:{ rewrite (proj1 (r_none k w a H i) Ev). cbn. split; [reflexivity|intros _; exact H]. }
    destruct (R_list k w a i v H Ev) as (l & El). rewrite El. cbn [fst snd]. split; [reflexivity|]. intros _.
    exact (view_R k w a i v l H Ev El).
  - (* get *)
    destruct (views w n) as [p|] eqn:Ep.
    2:{ rewrite (proj1 (r_wnone k w a H n) Ep). cbn. split; [reflexivity|intros _; exact H]. }
    destruct (aviews a n) as [v|] eqn:Ev; [|apply (r_wnone k w a H) in Ev; congruence].
    cbn [fst snd]. split; [|intros _; exact H]. pose proof (item_cell_ok k w a n p v j H Ep Ev) as I. unfold a_get.
    destruct (in_view v j); [|rewrite I; reflexivity].
    destruct (valid_view a v) as [l|]; [|rewrite I; reflexivity].
    destruct I as (x & b & c & z & _ & _ & _ & I & _ & Iz). rewrite I. cbn [obind snd option_map or_ub].
    destruct (nth_error (a_items l) (Z.to_nat (rel (av_len v) j))) as [y|] eqn:N; cbn [agree]; [rewrite (Iz y eq_refl); reflexivity|eauto].
  - (* put *)
    destruct (views w n) as [p|] eqn:Ep.
    2:{ rewrite (proj1 (r_wnone k w a H n) Ep). cbn. split; [reflexivity|intros _; exact H]. }
    destruct (aviews a n) as [v|] eqn:Ev; [|apply (r_wnone k w a H) in Ev; congruence].
    pose proof (item_cell_ok k w a n p v j H Ep Ev) as I. unfold a_put.
    destruct (in_view v j) eqn:IV; [|rewrite I; cbn; split; [reflexivity|intros _; exact H]].
    destruct (valid_view a v) as [l|] eqn:V; [|rewrite I; cbn; split; [reflexivity|intros C; now contradiction C]].
    destruct I as (x & b & c & y & Ex & Eb & Ec & I & Nc & Iz). rewrite I. unfold fits.
    destruct (in_sbits_b (bits k) z) eqn:Fz; [|cbn; split; [reflexivity|intros _; exact H]].
    cbn [fst snd]. split; [reflexivity|]. intros _. rewrite Ec. cbn [option_map].
    unfold valid_view in V. destruct (lists a (av_list v)) as [l0|] eqn:L0; [|discriminate].
    destruct (Nat.eqb (a_moves l0) (av_moves v)); [|discriminate]. injection V as ->.
    destruct (r_obj k w a H _ _ _ Ex L0) as (A1 & A2 & A3 & A4 & A5 & A6).
    destruct (A6 b Eb) as (_ & c0 & Hc0 & Hf). rewrite Ec in Hc0. injection Hc0 as <-.
    unfold in_view in IV. apply rel_bounds_dec in IV. set (q := rel (av_len v) j) in *.
    assert (Lq : (Z.to_nat q < length c)%nat) by (apply nth_error_Some; congruence).
    destruct (nth_error_split c _ Nc) as (c1 & c2 & -> & L1).
    assert (E1 : firstn (Z.to_nat q) (c1 ++ Some y :: c2) = c1) by (rewrite <- L1; rewrite firstn_app, Nat.sub_diag, firstn_all; apply app_nil_r).
    assert (E2 : skipn (Z.to_nat q + 1) (c1 ++ Some y :: c2) = c2).
    { rewrite <- L1. rewrite skipn_app, skipn_all2 by lia. replace (length c1 + 1 - length c1)%nat with 1%nat by lia. reflexivity. }
    rewrite E1, E2.
    assert (Kn : forall i, nth i (c1 ++ Some y :: c2) None <> None -> nth i (c1 ++ Some z :: c2) None <> None).
    { intros i. destruct (Nat.lt_ge_cases i (length c1)) as [L|L]; [rewrite !app_nth1 by exact L; auto|].
      rewrite !app_nth2 by exact L. destruct (i - length c1)%nat; [discriminate|auto]. }
    destruct (Z.ltb_spec q (Z.of_nat (length (a_items l)))) as [Lt|Ge].
    + apply (cells_R k w a (av_list v) x l b _ _ _ H Ex L0 Eb Ec); auto.
      * rewrite !app_length. reflexivity.
      * rewrite app_length, firstn_length. cbn. rewrite skipn_length. lia.
      * apply Forall_app. split; [apply Forall_firstn; exact A3|]. constructor; [apply in_sbits_b_spec; exact Fz|apply Forall_skipn; exact A3].
      * rewrite app_length, firstn_length. cbn [length]. rewrite skipn_length, Nat.min_l by lia.
        replace (Z.to_nat q + S (length (a_items l) - (Z.to_nat q + 1)))%nat with (length (a_items l)) by lia.
        rewrite map_app. cbn [map]. rewrite <- firstn_map, <- skipn_map, <- Hf.
        rewrite firstn_app, L1. rewrite (firstn_all2 (n := length (a_items l)) c1) by lia.
        rewrite firstn_firstn, Nat.min_l by lia. rewrite E1. f_equal.
        destruct (length (a_items l) - Z.to_nat q)%nat as [|d] eqn:D; [lia|]. cbn [firstn]. f_equal.
        rewrite firstn_app, L1, D. rewrite (firstn_all2 (n := length (a_items l)) c1) by lia. cbn [firstn].
        rewrite skipn_app, (skipn_all2 c1) by lia. rewrite L1. replace (Z.to_nat q + 1 - Z.to_nat q)%nat with 1%nat by lia. reflexivity.
    + assert (Rc : R k (with_heap w (put (heap w) b (Some (c1 ++ Some z :: c2))) (h_next w))
         (set_list a (av_list v) (Some {| a_items := a_items l; a_room := a_room l; a_moves := a_moves l; a_shape := a_shape l |}))).
      { apply (cells_R k w a (av_list v) x l b _ _ _ H Ex L0 Eb Ec); auto.
        - rewrite !app_length. reflexivity.
        - rewrite <- Hf. rewrite !firstn_app, L1. replace (length (a_items l) - Z.to_nat q)%nat with 0%nat by lia. reflexivity. }
      eapply R_ext; [exact Rc|..]; try reflexivity.
      intros i. cbn. destruct (Nat.eqb_spec i (av_list v)) as [->|]; [rewrite L0; destruct l; reflexivity|reflexivity].
  - (* len *)
    destruct (views w n) as [p|] eqn:Ep.
    2:{ rewrite (proj1 (r_wnone k w a H n) Ep). cbn. split; [reflexivity|intros _; exact H]. }
    destruct (aviews a n) as [v|] eqn:Ev; [|apply (r_wnone k w a H) in Ev; congruence].
    destruct (r_view k w a H n p v Ep Ev) as (B1 & _). cbn. rewrite B1. split; [reflexivity|intros _; exact H].
  - (* shape *)
    destruct (views w n) as [p|] eqn:Ep.
    2:{ rewrite (proj1 (r_wnone k w a H n) Ep). cbn. split; [reflexivity|intros _; exact H]. }
    destruct (aviews a n) as [v|] eqn:Ev; [|apply (r_wnone k w a H) in Ev; congruence].
    destruct (r_view k w a H n p v Ep Ev) as (_ & B2 & _). rewrite B2.
    destruct (objs w (av_list v)) as [x|] eqn:Ex.
    + destruct (R_list k w a _ x H Ex) as (l & El). rewrite El.
      destruct (r_obj k w a H _ _ _ Ex El) as (_ & A2 & _). cbn. rewrite A2. split; [reflexivity|intros _; exact H].
    + rewrite (proj1 (r_none k w a H _) Ex). cbn. split; [reflexivity|]. intros C. now contradiction C.
Qed.

Lemma agree_undef r x : agree cfg k r x -> (match r with Undef _ => True | _ => False end) <-> x = AFreed.
Proof.
  destruct x as [p| | | |]; cbn.
  - intros ->. destruct p as [[]|]; cbn; split; [contradiction|discriminate| | | | | | | | | | | |]; try contradiction; discriminate.
  - intros ->. split; [contradiction|discriminate].
  - intros ->. split; [contradiction|discriminate].
  - intros (z & ->). split; [contradiction|discriminate].
  - intros ->. tauto.
Qed.

Lemma vrun_R os : forall w a, R k w a -> hist_ok (op_ok k) (in_range k) SSIZE_MAX grow fits sort os a ->
  Forall2 (agree cfg k) (fst (vrun cfg k grow sort os w)) (fst (arun grow fits sort os a)) /\
  (~ In AFreed (fst (arun grow fits sort os a)) -> R k (snd (vrun cfg k grow sort os w)) (snd (arun grow fits sort os a))).
Proof.
  induction os as [|o os IH]; intros w a H K; cbn [vrun arun hist_ok] in *.
  - split; [constructor|auto].
  - destruct K as (K1 & K2). destruct (vexec_R o w a H K1) as (A & B).
    destruct (vexec cfg k grow sort o w) as [r w1], (astep grow fits sort o a) as [x a1]. cbn [fst snd] in *.
    pose proof (agree_undef r x A) as U.
    assert (D : x = AFreed \/ x <> AFreed) by (destruct x; auto; right; discriminate). destruct D as [->|D].
    + cbn in A. subst r. split; [constructor; [reflexivity|constructor]|]. intros C. exfalso. apply C. left. reflexivity.
    + specialize (IH w1 a1 (B D) K2). destruct (vrun cfg k grow sort os w1) as [xs w2], (arun grow fits sort os a1) as [ys a2].
      cbn [fst snd] in *. destruct IH as (I1 & I2).
      destruct r as [u|u|u u'|u]; [| | |exfalso; apply D, U; exact I];
        (destruct x; [| | | |contradiction D; reflexivity]; cbn [fst snd]; (split; [constructor; assumption|]);
         intros C; apply I2; intros C'; apply C; right; exact C').
Qed.
End Step.

Lemma zlt_refl_false z : (z <? z) = false.
Proof. apply Z.ltb_irrefl. Qed.

(** ** Consequences *)
Section Facts.
Variables (cfg : config) (k : kind) (grow : Z -> Z -> Z) (sort : list Z -> list Z).
Hypothesis Hg : forall c n, n <= grow c n.
Hypothesis Hsl : forall s, length (sort s) = length s.
Hypothesis Hsr : forall s, Forall (in_range k) s -> Forall (in_range k) (sort s).
Let fits := in_sbits_b (bits k).
Let ok := hist_ok (op_ok k) (in_range k) SSIZE_MAX grow fits sort.

Lemma views_refine os : ok os empty_world ->
  Forall2 (agree cfg k) (fst (vrun cfg k grow sort os empty_store)) (fst (arun grow fits sort os empty_world)).
Proof. intros K. exact (proj1 (vrun_R cfg k grow sort Hg Hsl Hsr os _ _ (R_empty k) K)). Qed.

Lemma views_no_leak os : ok os empty_world -> ~ In AFreed (fst (arun grow fits sort os empty_world)) ->
  let w := snd (vrun cfg k grow sort os empty_store) in
  forall b c, heap w b = Some c ->
    exists i v, objs w i = Some v /\ v_ptr v = Some b /\
      forall i' v', objs w i' = Some v' -> v_ptr v' = Some b -> i' = i.
Proof.
  intros K N w b c Hc. pose proof (proj2 (vrun_R cfg k grow sort Hg Hsl Hsr os _ _ (R_empty k) K) N) as H.
  fold w in H. destruct (r_live k _ _ H b c Hc) as (i & v & Ei & Ep). exists i, v. split; [exact Ei|]. split; [exact Ep|].
  intros i' v' E' P'. exact (r_own k _ _ H i' i v' v b E' Ei P' Ep).
Qed.

(** Results only: nothing but reading freed memory through a view or its shape
    ever goes wrong. *)
Lemma views_only_freed os : ok os empty_world -> forall u,
  In (Undef u) (fst (vrun cfg k grow sort os empty_store)) ->
  u = UseAfterFree /\ exists os1 o os2, os = os1 ++ o :: os2 /\
    match o with VGet _ _ | VPut _ _ _ | VShape _ => True | _ => False end.
Proof.
  intros K u.
  assert (G : forall os w a, R k w a -> ok os a -> In (Undef u) (fst (vrun cfg k grow sort os w)) ->
     u = UseAfterFree /\ exists os1 o os2, os = os1 ++ o :: os2 /\
     match o with VGet _ _ | VPut _ _ _ | VShape _ => True | _ => False end).
  2:{ intros I. exact (G os _ _ (R_empty k) K I). }
  clear K os. intros os. induction os as [|o os IH]; intros w a H K; cbn [vrun fst]; [contradiction|].
  destruct K as (K1 & K2). destruct (vexec_R cfg k grow sort Hg Hsl Hsr o w a H K1) as (A & B). fold fits in A, B.
  destruct (vexec cfg k grow sort o w) as [r w1] eqn:X. cbn [fst snd] in A, B.
  pose proof (agree_undef cfg k r _ A) as U.
  destruct (astep grow fits sort o a) as [x a1] eqn:Y. cbn [fst snd] in *.
  assert (Rest : x <> AFreed -> In (Undef u) (fst (vrun cfg k grow sort os w1)) ->
     u = UseAfterFree /\ exists os1 o0 os2, o :: os = os1 ++ o0 :: os2 /\
     match o0 with VGet _ _ | VPut _ _ _ | VShape _ => True | _ => False end).
  { intros D I. destruct (IH w1 a1 (B D) K2 I) as (E & os1 & o0 & os2 & -> & M).
    split; [exact E|]. exists (o :: os1), o0, os2. split; [reflexivity|exact M]. }
  destruct (vrun cfg k grow sort os w1) as [xs w2]. cbn [fst] in Rest.
  destruct r as [v|e|v e|u0]; cbn [fst]; try (intros [I|I]; [discriminate|apply Rest; [intros ->; destruct U as [_ U]; exact (U eq_refl)|exact I]]).
  intros [I|[]]. injection I as ->. destruct U as [U _]. specialize (U I). subst x. cbn in A. injection A as ->.
  split; [reflexivity|]. exists [], o, os. split; [reflexivity|].
  destruct o; try exact I; cbn in Y.
  - discriminate.
  - destruct (lists a i); [|discriminate]. destruct (py_step o (a_items a0)); discriminate.
  - destruct (lists a i); discriminate.
  - destruct (lists a i); discriminate.
  - destruct (lists a i); discriminate.
  - destruct (aviews a w0); discriminate.
Qed.

(** Exactly which steps end the validity of a view. *)
Definition harmless (a : aworld) (i : nat) (o : vop) : Prop :=
  match o with
  | VDrop j => j <> i
  | VCall j m => j = i -> forall l, lists a i = Some l -> wanted m (a_items l) <= a_room l
  | _ => True
  end.

Lemma valid_step a o v : (av_list v < l_count a)%nat ->
  (forall l, lists a (av_list v) = Some l -> zlen (a_items l) <= a_room l) ->
  (forall l, lists a (av_list v) = Some l -> (av_moves v <= a_moves l)%nat) ->
  (valid_view (snd (astep grow fits sort o a)) v <> None <-> valid_view a v <> None /\ harmless a (av_list v) o).
Proof.
  intros Hc Hr Hm.
  assert (Same : forall a', lists a' (av_list v) = lists a (av_list v) -> valid_view a' v = valid_view a v).
  { intros a' E. unfold valid_view. now rewrite E. }
  assert (Mov : forall i l s need, lists a i = Some l -> i = av_list v ->
     (valid_view (set_list a i (Some (moved grow l s need))) v <> None <-> valid_view a v <> None /\ need <= a_room l)).
  { intros i l s need El ->. unfold valid_view. rewrite set_list_same, El. specialize (Hm l El). unfold moved.
    destruct (Z.leb_spec need (a_room l)); cbn [a_moves].
    - destruct (Nat.eqb (a_moves l) (av_moves v)); [split; intros _; [split; [discriminate|assumption]|discriminate]|tauto].
    - destruct (Nat.eqb_spec (S (a_moves l)) (av_moves v)); [lia|]. split; [tauto|lia]. }
  destruct o as [vs|i m|i|i|i|n j|n j z|n|n]; cbn [astep harmless].
  - cbn [snd]. rewrite Same; [tauto|]. cbn. destruct (Nat.eqb_spec (av_list v) (l_count a)); [lia|reflexivity].
  - destruct (lists a i) as [l|] eqn:El.
    + destruct (py_step m (a_items l)) as [r s]. cbn [snd]. destruct (Nat.eq_dec i (av_list v)) as [E|N].
      * rewrite (Mov i l s _ El E). subst i. split; intros (A & B); (split; [exact A|]).
        -- intros _ l0 L0. rewrite El in L0. injection L0 as <-. exact B.
        -- apply B; auto.
      * rewrite valid_other by congruence. split; [intros A; split; [exact A|congruence]|tauto].
    + cbn [snd]. split; [|tauto]. intros A. split; [exact A|]. intros -> l E. congruence.
  - destruct (lists a i) as [l|] eqn:El; cbn [snd]; [|tauto]. destruct (Nat.eq_dec i (av_list v)) as [E|N].
    + rewrite (Mov i l _ _ El E). subst i. specialize (Hr l El). unfold zlen in Hr. tauto.
    + rewrite valid_other by congruence. tauto.
  - destruct (lists a i) as [l|] eqn:El; cbn [snd].
    + destruct (Nat.eq_dec i (av_list v)) as [E|N].
      * subst i. unfold valid_view at 1. rewrite set_list_same. tauto.
      * rewrite valid_other by congruence. tauto.
    + split; [|tauto]. intros A. split; [exact A|]. intros ->. apply A. unfold valid_view. now rewrite El.
  - destruct (lists a i) as [l|] eqn:El; cbn [snd]; [|tauto]. unfold valid_view. cbn [lists].
    destruct (Nat.eqb_spec (av_list v) i) as [->|]; [|tauto]. rewrite El. cbn [a_moves].
    destruct (Nat.eqb (a_moves l) (av_moves v)); [split; intros _; [split; [discriminate|exact I]|discriminate]|tauto].
  - destruct (aviews a n); cbn [snd]; tauto.
  - destruct (aviews a n) as [v0|]; cbn [snd]; [|tauto]. unfold a_put. destruct (in_view v0 j); cbn [snd]; [|tauto].
    destruct (valid_view a v0) as [l|] eqn:V0; cbn [snd]; [|tauto]. destruct (fits z); cbn [snd]; [|tauto].
    destruct (rel (av_len v0) j <? Z.of_nat (length (a_items l))); [|tauto].
    destruct (Nat.eq_dec (av_list v) (av_list v0)) as [E|N]; [|rewrite valid_other by exact N; tauto].
    unfold valid_view at 1. rewrite E, set_list_same. cbn [a_moves].
    assert (lists a (av_list v) = Some l) as El.
    { unfold valid_view in V0. rewrite <- E in V0. destruct (lists a (av_list v)) as [l0|]; [|discriminate].
      destruct (Nat.eqb (a_moves l0) (av_moves v0)); congruence. }
    unfold valid_view. rewrite El. destruct (Nat.eqb (a_moves l) (av_moves v)); [split; intros _; [split; [discriminate|exact I]|discriminate]|tauto].
  - destruct (aviews a n); cbn [snd]; tauto.
  - destruct (aviews a n) as [v0|]; cbn [snd]; [|tauto]. destruct (lists a (av_list v0)); cbn [snd]; tauto.
Qed.

Lemma valid_keeps os : forall w a n v l n0, R k w a -> ok os a -> aviews a n = Some v -> lists a (av_list v) = Some l ->
  a_moves l = av_moves v -> n0 <= a_room l -> stays_within (av_list v) n0 grow fits sort os a ->
  ~ In AFreed (fst (arun grow fits sort os a)) ->
  let a' := snd (arun grow fits sort os a) in
  aviews a' n = Some v /\ exists l', lists a' (av_list v) = Some l' /\ valid_view a' v = Some l'.
Proof.
  induction os as [|o os IH]; intros w a n v l n0 H K En El Em Hn S N; cbn [arun fst snd] in *.
  - split; [exact En|]. exists l. split; [exact El|]. unfold valid_view. rewrite El, Em, Nat.eqb_refl. reflexivity.
  - destruct K as (K1 & K2). destruct S as (S1 & S2). destruct (vexec_R cfg k grow sort Hg Hsl Hsr o w a H K1) as (_ & B). fold fits in B.
    destruct (views w n) as [p|] eqn:Ep; [|apply (r_wnone k w a H) in Ep; congruence].
    destruct (r_view k w a H n p v Ep En) as (_ & _ & Hc & _).
    destruct (R_obj_of k w a _ _ H El) as (x & Ex). destruct (r_obj k w a H _ _ _ Ex El) as (_ & _ & _ & _ & Hr & _).
    assert (Ha : (n < a_count a)%nat).
    { destruct (Nat.lt_ge_cases n (a_count a)) as [L|L]; [exact L|].
      rewrite <- (r_wn k w a H) in L. rewrite (r_wfresh k w a H n L) in Ep. discriminate. }
    assert (G : aviews (snd (astep grow fits sort o a)) n = Some v /\
                exists l', lists (snd (astep grow fits sort o a)) (av_list v) = Some l' /\ a_moves l' = av_moves v /\ n0 <= a_room l').
    { clear IH K1 K2 S2 B N.
      assert (Mv : forall s need, need <= a_room l -> let l' := moved grow l s need in a_moves l' = av_moves v /\ n0 <= a_room l').
      { intros s need L. unfold moved. apply Z.leb_le in L. rewrite L. cbn. auto. }
      destruct o as [vs|i m|i|i|i|n1 j|n1 j z|n1|n1]; cbn [astep].
      - cbn. split; [exact En|]. destruct (Nat.eqb_spec (av_list v) (l_count a)); [lia|]. eauto.
      - destruct (lists a i) as [l1|] eqn:E1; [|cbn; eauto]. pose proof (eq_refl (py_step m (a_items l1))) as P.
        destruct (py_step m (a_items l1)) as [r s] eqn:P1. cbn [snd]. split; [exact En|]. cbn.
        destruct (Nat.eqb_spec (av_list v) i) as [<-|Ni]; [|eauto].
        rewrite El in E1. injection E1 as <-. eexists. split; [reflexivity|]. apply Mv. specialize (S1 eq_refl l El). lia.
      - destruct (lists a i) as [l1|] eqn:E1; [|cbn; eauto]. cbn. split; [exact En|].
        destruct (Nat.eqb_spec (av_list v) i) as [<-|Ni]; [|eauto].
        rewrite El in E1. injection E1 as <-. eexists. split; [reflexivity|]. apply Mv. exact Hr.
      - destruct (lists a i) as [l1|] eqn:E1; [|cbn; eauto]. cbn. split; [exact En|].
        destruct (Nat.eqb_spec (av_list v) i) as [<-|Ni]; [contradiction S1; reflexivity|eauto].
      - destruct (lists a i) as [l1|] eqn:E1; [|cbn; eauto]. cbn.
        destruct (Nat.eqb_spec n (a_count a)); [lia|]. split; [exact En|].
        destruct (Nat.eqb_spec (av_list v) i) as [<-|Ni]; [|eauto].
        rewrite El in E1. injection E1 as <-. eexists. split; [reflexivity|]. cbn. auto.
      - destruct (aviews a n1); cbn; eauto.
      - destruct (aviews a n1) as [v0|]; [|cbn; eauto]. unfold a_put. destruct (in_view v0 j); cbn [snd]; [|eauto].
        destruct (valid_view a v0) as [l1|] eqn:V0; cbn [snd]; [|eauto]. destruct (fits z); cbn [snd]; [|eauto].
        destruct (rel (av_len v0) j <? Z.of_nat (length (a_items l1))); [|eauto]. cbn. split; [exact En|].
        destruct (Nat.eqb_spec (av_list v) (av_list v0)) as [E|Ni]; [|eauto].
        unfold valid_view in V0. rewrite <- E, El in V0. destruct (Nat.eqb (a_moves l) (av_moves v0)); [|discriminate].
        injection V0 as <-. eexists. split; [reflexivity|]. cbn. auto.
      - destruct (aviews a n1); cbn; eauto.
      - destruct (aviews a n1) as [v0|]; [|cbn; eauto]. destruct (lists a (av_list v0)); cbn; eauto. }
    destruct G as (G1 & l' & G2 & G3 & G4).
    destruct (astep grow fits sort o a) as [x0 a1] eqn:Y. cbn [fst snd] in *.
    assert (D : x0 <> AFreed) by (intros ->; apply N; left; reflexivity).
    specialize (IH _ a1 n v l' n0 (B D) K2 G1 G2 G3 G4 S2).
    destruct (arun grow fits sort os a1) as [xs a2]. cbn [fst snd] in *.
    destruct x0; [| | | |contradiction D; reflexivity]; cbn [fst snd] in *; (apply IH; intros C; apply N; right; exact C).
Qed.

Lemma arun_app os1 os2 a : ~ In AFreed (fst (arun grow fits sort os1 a)) ->
  arun grow fits sort (os1 ++ os2) a =
  (fst (arun grow fits sort os1 a) ++ fst (arun grow fits sort os2 (snd (arun grow fits sort os1 a))),
   snd (arun grow fits sort os2 (snd (arun grow fits sort os1 a)))).
Proof.
  revert a. induction os1 as [|o os1 IH]; intros a N; cbn [arun app] in *.
  - cbn. destruct (arun grow fits sort os2 a); reflexivity.
  - destruct (astep grow fits sort o a) as [x a1]. assert (D : x <> AFreed).
    { intros ->. apply N. left. reflexivity. }
    specialize (IH a1). destruct (arun grow fits sort os1 a1) as [xs a2]. cbn [fst snd] in *.
    rewrite IH.
    + destruct x; try reflexivity. contradiction D. reflexivity.
    + intros C. apply N. destruct x; [| | | |contradiction D; reflexivity]; right; exact C.
Qed.

Lemma ok_app os1 os2 a : ~ In AFreed (fst (arun grow fits sort os1 a)) -> ok (os1 ++ os2) a ->
  ok os1 a /\ ok os2 (snd (arun grow fits sort os1 a)).
Proof.
  unfold ok. revert a. induction os1 as [|o os1 IH]; intros a N K; cbn [arun app hist_ok] in *.
  - split; [trivial|exact K].
  - destruct K as (K1 & K2). destruct (astep grow fits sort o a) as [x a1]. cbn [snd] in *. assert (D : x <> AFreed).
    { intros ->. apply N. left. reflexivity. }
    specialize (IH a1). destruct (arun grow fits sort os1 a1) as [xs a2]. cbn [fst snd] in *.
    assert (N2 : ~ In AFreed xs).
    { intros C. apply N. destruct x; [| | | |contradiction D; reflexivity]; right; exact C. }
    destruct (IH N2 K2) as (I1 & I2). destruct x; [| | | |contradiction D; reflexivity]; cbn [snd]; auto.
Qed.

(** Between the export and a read the list is neither dropped nor outgrows
    the length it had: the read gives the element the list has now, or, past
    its end, a value. *)
Lemma view_shows os1 i os2 j l l' :
  let a1 := snd (arun grow fits sort os1 empty_world) in
  let os := os1 ++ VView i :: os2 in
  let a' := snd (arun grow fits sort os empty_world) in
  ok os empty_world -> ~ In AFreed (fst (arun grow fits sort os empty_world)) ->
  lists a1 i = Some l -> stays_within i (zlen (a_items l)) grow fits sort os2 (snd (astep grow fits sort (VView i) a1)) ->
  lists a' i = Some l' -> 0 <= j < zlen (a_items l) ->
  exists z, fst (vexec cfg k grow sort (VGet (a_count a1) j) (snd (vrun cfg k grow sort os empty_store))) = Ret (VInt z) /\
    (j < zlen (a_items l') -> z = get_default (a_items l') j).
Proof.
  intros a1 os a' K N El S El' Hj.
  assert (N1 : ~ In AFreed (fst (arun grow fits sort os1 empty_world))).
  { intros C. apply N. clear - C. unfold os. clear os. revert C. generalize empty_world. induction os1 as [|o os1 IH]; intros a; cbn [arun app]; [contradiction|].
    destruct (astep grow fits sort o a) as [x a1]. specialize (IH a1).
    destruct (arun grow fits sort os1 a1) as [xs a2]. destruct (arun grow fits sort (os1 ++ VView i :: os2) a1) as [ys a3].
    destruct x; cbn [fst] in *; intros [C1|C1]; try discriminate; try (left; reflexivity); try contradiction; right; auto. }
  destruct (ok_app os1 (VView i :: os2) empty_world N1 K) as (K1 & K2).
  pose proof (proj2 (vrun_R cfg k grow sort Hg Hsl Hsr os1 _ _ (R_empty k) K1) N1) as H1. fold fits a1 in H1. fold a1 in K2.
  pose proof (arun_app os1 (VView i :: os2) empty_world N1) as E. fold os a1 in E.
  destruct K2 as (_ & K2).
  destruct (R_obj_of k _ _ _ _ H1 El) as (x & Ex). destruct (r_obj k _ _ H1 _ _ _ Ex El) as (_ & _ & _ & _ & Hr & _).
  set (w1 := snd (vrun cfg k grow sort os1 empty_store)) in *.
  pose proof (view_R k w1 a1 i x l H1 Ex El) as H2.
  cbn [arun astep] in E. rewrite El in E. cbn [astep] in K2, S. rewrite El in K2, S. cbn [snd] in K2, S.
  match type of H2 with R _ ?W ?A => set (w2 := W) in *; set (a2 := A) in * end.
  change (hist_ok (op_ok k) (in_range k) SSIZE_MAX grow fits sort os2 a2) in K2.
  change (stays_within i (zlen (a_items l)) grow fits sort os2 a2) in S.
  change (arun grow fits sort os empty_world =
    (fst (arun grow fits sort os1 empty_world) ++ fst (let '(xs, w2) := arun grow fits sort os2 a2 in (APy (SRet SNone) :: xs, w2)),
     snd (let '(xs, w2) := arun grow fits sort os2 a2 in (APy (SRet SNone) :: xs, w2)))) in E.
  set (v := {| av_list := i; av_moves := a_moves l; av_len := zlen (a_items l) |}).
  assert (Ev : aviews a2 (a_count a1) = Some v) by (cbn; rewrite Nat.eqb_refl; reflexivity).
  destruct (arun grow fits sort os2 a2) as [ys a3] eqn:E2. cbn [fst snd] in E.
  assert (N3 : ~ In AFreed ys).
  { intros C. apply N. rewrite E. cbn [fst]. apply in_or_app. right. right. exact C. }
  assert (Ea : a' = a3) by (unfold a'; rewrite E; reflexivity).
  pose proof (proj2 (vrun_R cfg k grow sort Hg Hsl Hsr os _ _ (R_empty k) K) N) as H3. fold fits a' in H3.
  rewrite Ea in H3, El'.
  assert (E2a : fst (arun grow fits sort os2 a2) = ys) by (rewrite E2; reflexivity).
  assert (E2b : snd (arun grow fits sort os2 a2) = a3) by (rewrite E2; reflexivity).
  destruct (valid_keeps os2 w2 a2 (a_count a1) v
      {| a_items := a_items l; a_room := a_room l; a_moves := a_moves l; a_shape := zlen (a_items l) |} (zlen (a_items l))
      H2 K2 Ev) as (G1 & l2 & G2 & G3).
  - cbn. rewrite Nat.eqb_refl. reflexivity.
  - reflexivity.
  - exact Hr.
  - exact S.
  - rewrite E2a. exact N3.
  - rewrite E2b in G1, G2, G3. cbn [av_list v] in G2. rewrite El' in G2. injection G2 as <-.
    destruct (views (snd (vrun cfg k grow sort os empty_store)) (a_count a1)) as [p|] eqn:Ep.
    2:{ apply (r_wnone k _ _ H3) in Ep. congruence. }
    pose proof (item_cell_ok k _ _ _ p v j H3 Ep G1) as I. unfold in_view in I. cbn [av_len v] in I.
    assert (Ej : rel (zlen (a_items l)) j = j) by (unfold rel; destruct (Z.ltb_spec j 0); lia).
    rewrite Ej in I. rewrite (proj2 (rel_bounds_dec _ j) Hj) in I. rewrite G3 in I.
    destruct I as (x0 & b & c & z & _ & _ & _ & I & _ & Iz). exists z. split.
    + cbn [vexec]. rewrite Ep. cbn [fst]. rewrite I. reflexivity.
    + intros L. symmetry. apply Iz. unfold get_default. apply nth_error_nth'. unfold zlen in L. lia.
Qed.

(** Dropping the list, growing past its room: the view reads freed memory. *)
Lemma view_dropped vs j : Forall (in_range k) vs -> 0 <= j < zlen vs ->
  fst (vrun cfg k grow sort [VNew vs; VView 0; VDrop 0; VGet 0 j] empty_store) =
  [Ret VNone; Ret VNone; Ret VNone; Undef UseAfterFree].
Proof.
  intros F Hj. pose proof (views_refine [VNew vs; VView 0; VDrop 0; VGet 0 j]) as A.
  assert (Ej : rel (zlen vs) j = j) by (unfold rel; destruct (Z.ltb_spec j 0); lia).
  assert (K : ok [VNew vs; VView 0; VDrop 0; VGet 0 j] empty_world) by (unfold ok; cbn; auto).
  specialize (A K). revert A. cbn -[moved]. 
  assert (M : a_items (moved grow {| a_items := []; a_room := 0; a_moves := 0; a_shape := 0 |} vs (Z.of_nat (length vs))) = vs).
  { unfold moved. destruct (_ <=? _); reflexivity. }
  rewrite !M. unfold a_get, in_view. cbn [av_len av_list valid_view lists]. fold (zlen vs). rewrite Ej, (proj2 (rel_bounds_dec _ j) Hj).
  cbn. intros A. inversion A as [|? ? ? ? A1 B1]; subst. inversion B1 as [|? ? ? ? A2 B2]; subst. inversion B2 as [|? ? ? ? A3 B3]; subst.
  inversion B3 as [|? ? ? ? A4 B4]; subst. inversion B4; subst. cbn in *. congruence.
Qed.

Lemma F2_cons {A B} (P : A -> B -> Prop) l y ys : Forall2 P l (y :: ys) ->
  exists x xs, l = x :: xs /\ P x y /\ Forall2 P xs ys.
Proof. intros H. inversion H; subst. eauto. Qed.

Lemma view_outgrown vs m j : Forall (in_range k) vs -> op_ok k vs m -> zlen vs <= SSIZE_MAX -> 0 <= j < zlen vs ->
  grow 0 (zlen vs) < wanted m vs ->
  fst (vrun cfg k grow sort [VNew vs; VView 0; VCall 0 m; VGet 0 j] empty_store) =
  [Ret VNone; Ret VNone; expected cfg k (fst (py_step m vs)); Undef UseAfterFree].
Proof.
  intros F Ho Hl Hj Hw. pose proof (views_refine [VNew vs; VView 0; VCall 0 m; VGet 0 j]) as A.
  assert (Ej : rel (zlen vs) j = j) by (unfold rel; destruct (Z.ltb_spec j 0); lia).
  assert (M : moved grow {| a_items := []; a_room := 0; a_moves := 0; a_shape := 0 |} vs (Z.of_nat (length vs)) =
              {| a_items := vs; a_room := grow 0 (zlen vs); a_moves := 1; a_shape := 0 |}).
  { unfold moved. cbn [a_room]. destruct (Z.leb_spec (Z.of_nat (length vs)) 0); [|reflexivity]. unfold zlen in Hj. lia. }
  assert (K : ok [VNew vs; VView 0; VCall 0 m; VGet 0 j] empty_world).
  { unfold ok. cbn -[moved py_step op_ok SSIZE_MAX wanted]. rewrite M. cbn -[moved py_step op_ok SSIZE_MAX wanted].
    split; [exact F|]. split; [exact I|]. split; [|auto]. intros a E. injection E as <-. cbn [a_items]. auto. }
  specialize (A K). revert A. cbn -[moved wanted py_step vrun expected]. rewrite M. cbn -[moved wanted py_step vrun expected].
  destruct (py_step m vs) as [r s'] eqn:P. cbn -[moved wanted py_step vrun expected].
  unfold moved. cbn [a_room]. destruct (Z.leb_spec (wanted m vs) (grow 0 (zlen vs))); [lia|].
  unfold a_get, in_view. cbn [av_len av_list valid_view lists].
  fold (zlen vs). rewrite Ej, (proj2 (rel_bounds_dec _ j) Hj). cbn -[vrun expected].
  match goal with |- Forall2 _ ?L _ -> _ => generalize L end. intros L A.
  apply F2_cons in A. destruct A as (x0 & L0 & -> & A0 & A). cbn -[expected] in A0.
  apply F2_cons in A. destruct A as (x1 & L1 & -> & A1 & A). cbn -[expected] in A1.
  apply F2_cons in A. destruct A as (x2 & L2 & -> & A2 & A). cbn -[expected] in A2.
  apply F2_cons in A. destruct A as (x3 & L3 & -> & A3 & A). cbn -[expected] in A3.
  inversion A; subst.
  reflexivity.
Qed.

(** The shape a C consumer reads through a first view is that of the last
    view's export; the first view's length stays. *)
Lemma view_shape_shared vs v : Forall (in_range k) vs -> in_range k v -> zlen vs <= SSIZE_MAX ->
  fst (vrun cfg k grow sort [VNew vs; VView 0; VShape 0; VCall 0 (OAppend v); VView 0; VShape 0; VLen 0] empty_store) =
  [Ret VNone; Ret VNone; Ret (VInt (zlen vs)); Ret VNone; Ret VNone; Ret (VInt (zlen vs + 1)); Ret (VInt (zlen vs))].
Proof.
  intros F Ho Hl. pose proof (views_refine [VNew vs; VView 0; VShape 0; VCall 0 (OAppend v); VView 0; VShape 0; VLen 0]) as A.
  assert (M : forall a s n, a_items (moved grow a s n) = s) by (intros; unfold moved; destruct (_ <=? _); reflexivity).
  assert (K : ok [VNew vs; VView 0; VShape 0; VCall 0 (OAppend v); VView 0; VShape 0; VLen 0] empty_world).
  { unfold ok. cbn -[moved op_ok SSIZE_MAX wanted]. rewrite !M.
    split; [exact F|]. split; [exact I|]. split; [exact I|]. split; [|auto].
    intros a E. injection E as <-. cbn [a_items]. split; [exact Ho|exact Hl]. }
  specialize (A K). revert A. cbn -[moved wanted vrun]. rewrite !M, app_length. cbn [length].
  match goal with |- Forall2 _ ?L _ -> _ => generalize L end. intros L A.
  apply F2_cons in A. destruct A as (x0 & L0 & -> & A0 & A). cbn -[expected] in A0.
  apply F2_cons in A. destruct A as (x1 & L1 & -> & A1 & A). cbn -[expected] in A1.
  apply F2_cons in A. destruct A as (x2 & L2 & -> & A2 & A). cbn -[expected] in A2.
  apply F2_cons in A. destruct A as (x3 & L3 & -> & A3 & A). cbn -[expected] in A3.
  apply F2_cons in A. destruct A as (x4 & L4 & -> & A4 & A). cbn -[expected] in A4.
  apply F2_cons in A. destruct A as (x5 & L5 & -> & A5 & A). cbn -[expected] in A5.
  apply F2_cons in A. destruct A as (x6 & L6 & -> & A6 & A). cbn -[expected] in A6.
  inversion A; subst.
  cbn. unfold zlen. repeat f_equal. lia.
Qed.

Lemma when_freed os n v o : ok os empty_world -> ~ In AFreed (fst (arun grow fits sort os empty_world)) ->
  let a := snd (arun grow fits sort os empty_world) in
  aviews a n = Some v ->
  (valid_view (snd (astep grow fits sort o a)) v <> None <-> valid_view a v <> None /\ harmless a (av_list v) o).
Proof.
  intros K N a En. pose proof (proj2 (vrun_R cfg k grow sort Hg Hsl Hsr os _ _ (R_empty k) K) N) as H. fold fits a in H.
  destruct (views (snd (vrun cfg k grow sort os empty_store)) n) as [p|] eqn:Ep; [|apply (r_wnone k _ _ H) in Ep; congruence].
  destruct (r_view k _ _ H n p v Ep En) as (_ & _ & Hc & _ & _ & Hm & _).
  apply valid_step; [exact Hc| |exact Hm].
  intros l El. destruct (R_obj_of k _ _ _ _ H El) as (x & Ex). destruct (r_obj k _ _ H _ _ _ Ex El) as (_ & _ & _ & _ & Hr & _). exact Hr.
Qed.
End Facts.
