(** Proofs for C70. *)
From Coq Require Import ZArith List Bool Lia.
From Verif Require Import Base PyListSpec ListLemmas ArrayListModel ArrayListProofs ObjModel ObjSpec ObjLemmas ObjArrayProofs FinalModel FinalSpec.
Import ListNotations.
Local Open Scope Z_scope.
Local Arguments Z.pow : simpl never.
Local Arguments Z.add : simpl never.
Local Arguments Z.sub : simpl never.
Local Arguments Z.mul : simpl never.

Lemma slack_with_slots l s p : slack (with_slots l s) p = slack s p + occ (slots s) p - occ l p.
Proof. unfold slack. cbn. lia. Qed.
Lemma slack_with_rc c s p : slack (with_rc c s) p = slack s p + c p - rc s p.
Proof. unfold slack. cbn. lia. Qed.

Lemma occ_notin l p : ~ In p l -> occ l p = 0.
Proof. intros N. pose proof (occ_nonneg l p). destruct (Z.eq_dec (occ l p) 0); [assumption|]. exfalso. apply N, occ_pos. lia. Qed.

Lemma load_mid b a o c s i : b = buf s -> slots s = a ++ o :: c -> i = zlen a -> load b i s = Ret o.
Proof. intros -> E ->. unfold load. rewrite Z.eqb_refl, E, znth_mid by reflexivity. reflexivity. Qed.
Lemma store_mid b a o c s i v : b = buf s -> slots s = a ++ o :: c -> i = zlen a -> store b i v s = Ret (with_slots (a ++ v :: c) s).
Proof. intros -> E ->. unfold store. rewrite Z.eqb_refl, E, (zset_mid a o c) by reflexivity. reflexivity. Qed.
Lemma load_src_mid b a o c s i : b = sbuf s -> src s = a ++ o :: c -> i = zlen a -> load_src b i s = Ret o.
Proof. intros -> E ->. unfold load_src. rewrite Z.eqb_refl, E, znth_mid by reflexivity. reflexivity. Qed.

(** Nothing but the list, the counts and the outside references changes. *)
Definition frame (s s' : ost) : Prop := buf s' = buf s /\ src s' = src s /\ sbuf s' = sbuf s.
Definition ext_ok (s : ost) : Prop := forall p, p <> 0 -> 0 <= ext s p.
Definition slack_ok (s : ost) : Prop := forall p, p <> 0 -> 0 <= slack s p.
Lemma frame_refl s : frame s s. Proof. repeat split. Qed.
Lemma frame_trans a b c : frame a b -> frame b c -> frame a c.
Proof. unfold frame. intros (A1 & A2 & A3) (B1 & B2 & B3). rewrite B1, B2, B3. auto. Qed.

Section Appending.
Variables (Q : list Z -> Prop) (F : fins).
Hypothesis (Q0 : Q []) (QA : forall x y, Q x -> Q y -> Q (x ++ y)) (QN : forall x, Q x -> ~ In 0 x) (HF : appends Q F).

(** Releasing the object in a slot, before the slot is cleared. *)
Lemma release_ok a o c s : slots s = a ++ o :: c -> o <> 0 -> ext_ok s -> slack_ok s ->
  exists s' more, release F o s = Ret s' /\ Q more /\ slots s' = slots s ++ more /\ frame s s' /\ ext_ok s' /\
    forall p, p <> 0 -> slack s' p = slack s p - occ [o] p.
Proof.
  intros E NZ X S. unfold release. destruct (Z.eqb_spec o 0); [contradiction|].
  assert (O : 1 <= occ (slots s) o) by (apply occ_in; rewrite E; apply in_or_app; right; left; reflexivity).
  assert (B : 1 <= rc s o). { specialize (X o NZ). specialize (S o NZ). unfold slack in S. pose proof (occ_nonneg (src s) o). lia. }
  destruct (Z.leb_spec (rc s o) 0); [lia|]. destruct (Z.eqb_spec (rc s o) 1) as [R1|R1].
  - destruct (HF o s R1) as (s1 & more & E1 & Qm & Sl & Bf & Sr & Sb & P). rewrite E1.
    assert (R : 1 <= rc s1 o).
    { destruct (P o NZ) as [X1 S1]. specialize (X1 (X o NZ)). specialize (S o NZ). rewrite <- S1 in S. unfold slack in S.
      rewrite Sl, occ_app in S. pose proof (occ_nonneg (src s1) o). pose proof (occ_nonneg more o). lia. }
    destruct (Z.leb_spec (rc s1 o) 0); [lia|].
    eexists _, more. split; [reflexivity|]. split; [exact Qm|]. split; [exact Sl|]. split; [repeat split; assumption|].
    split; [intros p N; cbn; apply P; auto|]. intros p N. rewrite slack_with_rc, upd_minus. destruct (P p N) as [_ ->]. lia.
  - eexists _, []. split; [reflexivity|]. split; [exact Q0|]. split; [cbn; rewrite app_nil_r; reflexivity|]. split; [repeat split|].
    split; [exact X|]. intros p N. rewrite slack_with_rc, upd_minus. lia.
Qed.

Lemma safe_decref_ok a o c s i : slots s = a ++ o :: c -> i = zlen a -> o <> 0 -> ext_ok s -> slack_ok s ->
  exists s' more, safe_decref F (buf s) i s = Ret s' /\ Q more /\ slots s' = a ++ 0 :: c ++ more /\ frame s s' /\ ext_ok s' /\
    forall p, p <> 0 -> slack s' p = slack s p.
Proof.
  intros E I NZ X S. unfold safe_decref. rewrite (load_mid _ a o c) by auto. cbn [obind].
  destruct (release_ok a o c s E NZ X S) as (s1 & more & R & Qm & Sl & (B1 & B2 & B3) & X1 & S1). rewrite R. cbn [obind].
  rewrite E in Sl. rewrite <- app_assoc in Sl. cbn [app] in Sl.
  rewrite (store_mid (buf s) a o (c ++ more) s1) by auto.
  eexists _, more. split; [reflexivity|]. split; [exact Qm|]. split; [reflexivity|]. split; [repeat split; assumption|]. split; [exact X1|].
  intros p N. rewrite slack_with_slots, (S1 p N), Sl, !occ_app. cbn [occ]. destruct (Z.eqb_spec 0 p); [congruence|]. lia.
Qed.

(** Clearing a range of slots. *)
Lemma drop_slots_ok : forall b a c s i, slots s = a ++ b ++ c -> i = zlen a -> ~ In 0 b -> ext_ok s -> slack_ok s ->
  exists s' more, drop_slots F (buf s) (length b) i s = Ret s' /\ Q more /\ slots s' = a ++ repeat 0 (length b) ++ c ++ more /\
    frame s s' /\ ext_ok s' /\ forall p, p <> 0 -> slack s' p = slack s p.
Proof.
  induction b as [|o b IH]; intros a c s i E I N X S; cbn [length drop_slots].
  - exists s, []. rewrite app_nil_r. cbn [repeat app] in *. split; [reflexivity|]. auto using frame_refl.
  - cbn [app] in E. destruct (safe_decref_ok a o (b ++ c) s i E I) as (s1 & m1 & R1 & Q1 & Sl1 & Fr1 & X1 & S1); auto.
    { intros ->. apply N. left. reflexivity. }
    rewrite R1. cbn [obind].
    destruct (IH (a ++ [0]) (c ++ m1) s1 (i + 1)) as (s2 & m2 & R2 & Q2 & Sl2 & Fr2 & X2 & S2); auto.
    + rewrite Sl1, <- !app_assoc. reflexivity.
    + rewrite zlen_app. subst i. reflexivity.
    + intros H. apply N. right. exact H.
    + intros p H. rewrite S1 by exact H. apply S, H.
    + destruct Fr1 as (B1 & B2 & B3). rewrite B1 in R2. exists s2, (m1 ++ m2). split; [exact R2|]. split; [auto|].
      split; [rewrite Sl2, <- !app_assoc; reflexivity|]. split; [eapply frame_trans; [|exact Fr2]; repeat split; assumption|].
      split; [exact X2|]. intros p H. rewrite S2, S1; auto.
Qed.

Lemma balanced_ok s : balanced s -> ext_ok s /\ slack_ok s.
Proof. intros (B & _ & _). split; intros p N; destruct (B p N); lia. Qed.

(** ** clear *)
Lemma occ_repeat0 n p : p <> 0 -> occ (repeat 0 n) p = 0.
Proof. intros N. apply occ_notin. intros H. apply repeat_spec in H. congruence. Qed.

Lemma clear_ok s : balanced s ->
  exists s' more, f_clear F s = Ret s' /\ Q more /\ slots s' = [] /\ frame s s' /\ ext_ok s' /\ forall p, p <> 0 -> slack s' p = occ more p.
Proof.
  intros B. destruct (balanced_ok s B) as [X S]. destruct B as (B & N & _). unfold f_clear.
  destruct (drop_slots_ok (slots s) [] [] s 0) as (s1 & more & R & Qm & Sl & Fr & X1 & S1); auto.
  { rewrite app_nil_r. reflexivity. }
  rewrite R. cbn [obind]. eexists _, more. split; [reflexivity|]. split; [exact Qm|]. split; [reflexivity|]. split; [exact Fr|]. split; [exact X1|].
  intros p H. rewrite slack_with_slots, (S1 p H), Sl, !occ_app, occ_repeat0 by exact H. cbn [occ]. destruct (B p H) as [_ ->]. lia.
Qed.

(** ** del x[i] *)
Lemma del_ok s i : balanced s -> let k := rel (zlen (slots s)) i in 0 <= k < zlen (slots s) ->
  exists s' more, f_del F i s = Ret s' /\ Q more /\
    slots s' = (firstn (Z.to_nat k) (slots s) ++ skipn (Z.to_nat k + 1) (slots s)) ++ more /\ src s' = src s /\ balanced s'.
Proof.
  intros B k K. destruct (balanced_ok s B) as [X S]. destruct B as (B & N & NS). unfold f_del.
  replace (if i <? 0 then zlen (slots s) + i else i) with k by (subst k; unfold rel; destruct (i <? 0); lia).
  destruct (Z.ltb_spec k 0); [lia|]. destruct (Z.leb_spec (zlen (slots s)) k); [lia|]. cbn [orb].
  destruct (zsplit (slots s) k K) as (a & o & c & E & L).
  destruct (safe_decref_ok a o c s k E (eq_sym L)) as (s1 & more & R & Qm & Sl & (B1 & B2 & B3) & X1 & S1); auto.
  { intros ->. apply N. rewrite E. apply in_or_app. right. left. reflexivity. }
  rewrite R. cbn [obind]. rewrite Sl, zerase_mid by auto. cbn [or_ub obind].
  eexists _, more. split; [reflexivity|]. split; [exact Qm|]. rewrite E, firstn_zlen, skipn1_zlen by auto.
  split; [cbn; rewrite <- app_assoc; reflexivity|]. split; [exact B2|]. split; [|split].
  - intros p Hp. split; [apply X1, Hp|]. rewrite slack_with_slots, (S1 p Hp), Sl, !occ_app. cbn [occ].
    destruct (Z.eqb_spec 0 p); [congruence|]. rewrite occ_app. destruct (B p Hp) as [_ ->]. lia.
  - cbn. rewrite !in_app_iff. rewrite E, in_app_iff in N. cbn [In] in N. specialize (QN more Qm). tauto.
  - cbn. rewrite B2. exact NS.
Qed.

(** ** dealloc: the list is out of reach, so nothing is appended to it *)
Lemma dealloc_loop_ok : Q = none -> forall b a s i, slots s = a ++ b -> i = zlen a -> ~ In 0 b -> ext_ok s ->
  (forall p, p <> 0 -> 0 <= slack s p + occ a p) ->
  exists s', dealloc_loop F (buf s) (length b) i s = Ret s' /\ slots s' = slots s /\ frame s s' /\ ext_ok s' /\
    forall p, p <> 0 -> slack s' p = slack s p - occ b p.
Proof.
  intros EQ. induction b as [|o b IH]; intros a s i E I N X S; cbn [length dealloc_loop].
  - exists s. split; [reflexivity|]. split; [reflexivity|]. split; [apply frame_refl|]. split; [exact X|]. intros; cbn [occ]; lia.
  - rewrite (load_mid _ a o b) by auto. cbn [obind].
    assert (NZ : o <> 0) by (intros ->; apply N; left; reflexivity).
    assert (RL : exists s', release F o s = Ret s' /\ slots s' = slots s /\ frame s s' /\ ext_ok s' /\
      forall p, p <> 0 -> slack s' p = slack s p - occ [o] p).
    { unfold release. destruct (Z.eqb_spec o 0); [contradiction|].
      assert (B : 1 <= rc s o).
      { specialize (X o NZ). specialize (S o NZ). unfold slack in S. rewrite E, occ_app in S. cbn [occ] in S. rewrite Z.eqb_refl in S.
        pose proof (occ_nonneg (src s) o). pose proof (occ_nonneg b o). lia. }
      destruct (Z.leb_spec (rc s o) 0); [lia|]. destruct (Z.eqb_spec (rc s o) 1) as [R1|R1].
      - destruct (HF o s R1) as (s1 & more & E1 & Qm & Sl & Bf & Sr & Sb & P). rewrite E1. rewrite EQ in Qm. unfold none in Qm. subst more.
        rewrite app_nil_r in Sl.
        assert (R : 1 <= rc s1 o).
        { destruct (P o NZ) as [X1 S1]. specialize (X1 (X o NZ)). specialize (S o NZ). rewrite <- S1 in S. unfold slack in S.
          rewrite Sl, E, occ_app in S. cbn [occ] in S. rewrite Z.eqb_refl in S.
          pose proof (occ_nonneg (src s1) o). pose proof (occ_nonneg b o). lia. }
        destruct (Z.leb_spec (rc s1 o) 0); [lia|].
        eexists. split; [reflexivity|]. split; [exact Sl|]. split; [repeat split; assumption|].
        split; [intros p Hp; cbn; apply P; auto|]. intros p Hp. rewrite slack_with_rc, upd_minus. destruct (P p Hp) as [_ ->]. lia.
      - eexists. split; [reflexivity|]. split; [reflexivity|]. split; [repeat split|]. split; [exact X|].
        intros p H0. rewrite slack_with_rc, upd_minus. lia. }
    destruct RL as (s1 & R1 & Sl1 & Fr1 & X1 & S1). rewrite R1. cbn [obind].
    destruct (IH (a ++ [o]) s1 (i + 1)) as (s2 & R2 & Sl2 & Fr2 & X2 & S2).
    + rewrite Sl1, E, <- app_assoc. reflexivity.
    + rewrite zlen_app. subst i. reflexivity.
    + intros H; apply N; right; exact H.
    + exact X1.
    + intros p H. rewrite S1 by exact H. rewrite occ_app. specialize (S p H). lia.
    + destruct Fr1 as (B1 & B2 & B3). rewrite B1 in R2. exists s2. split; [exact R2|]. split; [congruence|].
      split; [eapply frame_trans; [|exact Fr2]; repeat split; assumption|]. split; [exact X2|].
      intros p H. rewrite S2, S1 by exact H. cbn [occ]. lia.
Qed.
Lemma dealloc_ok s : Q = none -> balanced s -> exists s', f_dealloc F s = Ret s' /\ slots s' = [] /\ src s' = src s /\ balanced s'.
Proof.
  intros EQ B. destruct (balanced_ok s B) as [X S]. destruct B as (B & N & NS). unfold f_dealloc.
  destruct (dealloc_loop_ok EQ (slots s) [] s 0) as (s1 & R & Sl & (B1 & B2 & B3) & X1 & S1); auto.
  { intros p H. cbn [occ]. specialize (S p H). lia. }
  rewrite R. cbn [obind]. eexists. split; [reflexivity|]. split; [reflexivity|]. split; [exact B2|]. split; [|split].
  - intros p H. split; [apply X1, H|]. rewrite slack_with_slots, (S1 p H), Sl. cbn [occ]. destruct (B p H) as [_ ->]. lia.
  - cbn. tauto.
  - cbn. rewrite B2. exact NS.
Qed.

(** ** Slice assignment *)
Lemma fast_release_ok : forall b pre ys rest a c s start, slots s = a ++ b ++ c -> zlen a = start + zlen pre -> length ys = length b ->
  src s = pre ++ ys ++ rest -> ~ In 0 b -> ~ In 0 ys -> ext_ok s -> slack_ok s ->
  exists s' more, fast_release F (buf s) (sbuf s) (length b) (zlen pre) start s = Ret s' /\ Q more /\
    slots s' = a ++ repeat 0 (length b) ++ c ++ more /\ frame s s' /\ ext_ok s' /\
    forall p, p <> 0 -> slack s' p = slack s p + occ ys p.
Proof.
  induction b as [|o b IH]; intros pre ys rest a c s start E I L ES N NY X S; cbn [length fast_release].
  - destruct ys; [|discriminate]. exists s, []. rewrite app_nil_r. cbn [repeat app] in *. split; [reflexivity|]. split; [exact Q0|].
    split; [exact E|]. split; [apply frame_refl|]. split; [exact X|]. intros; cbn [occ]; lia.
  - destruct ys as [|y ys]; [discriminate|]. cbn [app] in E, ES.
    destruct (safe_decref_ok a o (b ++ c) s (start + zlen pre) E (eq_sym I)) as (s1 & m1 & R1 & Q1 & Sl1 & (B1 & B2 & B3) & X1 & S1); auto.
    { intros ->. apply N. left. reflexivity. }
    rewrite R1. cbn [obind]. rewrite (load_src_mid (sbuf s) pre y (ys ++ rest) s1) by (auto; rewrite B2; exact ES). cbn [obind].
    assert (NZ : y <> 0) by (intros ->; apply NY; left; reflexivity).
    assert (RY : 0 < rc s1 y).
    { pose proof (S y NZ) as P. rewrite <- (S1 y NZ) in P. unfold slack in P. rewrite B2, ES, !occ_app in P. cbn [occ] in P.
      rewrite Z.eqb_refl, occ_app in P. specialize (X1 y NZ).
      pose proof (occ_nonneg (slots s1) y). pose proof (occ_nonneg pre y). pose proof (occ_nonneg ys y). pose proof (occ_nonneg rest y). lia. }
    unfold incref. destruct (Z.eqb_spec y 0); [contradiction|]. destruct (Z.leb_spec (rc s1 y) 0); [lia|]. cbn [obind].
    set (s2 := with_rc (upd (rc s1) y (rc s1 y + 1)) s1).
    assert (S2 : forall p, p <> 0 -> slack s2 p = slack s p + occ [y] p).
    { intros p H0. unfold s2. rewrite slack_with_rc, upd_plus, S1 by exact H0. lia. }
    destruct (IH (pre ++ [y]) ys rest (a ++ [0]) (c ++ m1) s2 start) as (s3 & m3 & R3 & Q3 & Sl3 & Fr3 & X3 & S3); auto.
    + unfold s2. cbn. rewrite Sl1, <- !app_assoc. reflexivity.
    + rewrite !zlen_app. change (zlen [0]) with 1. change (zlen [y]) with 1. lia.
    + unfold s2. cbn. rewrite B2, ES, <- app_assoc. reflexivity.
    + intros H0; apply N; right; exact H0.
    + intros H0; apply NY; right; exact H0.
    + intros p H0. rewrite S2 by exact H0. specialize (S p H0). pose proof (occ_nonneg [y] p). lia.
    + change (buf s2) with (buf s1) in R3. change (sbuf s2) with (sbuf s1) in R3. rewrite B1, B3 in R3.
      rewrite zlen_app in R3. change (zlen [y]) with 1 in R3.
      exists s3, (m1 ++ m3). split; [exact R3|]. split; [auto|]. split; [rewrite Sl3, <- !app_assoc; reflexivity|].
      split; [eapply frame_trans; [|exact Fr3]; repeat split; assumption|]. split; [exact X3|].
      intros p H0. rewrite S3, S2 by exact H0. cbn [occ]. lia.
Qed.
Lemma fast_write_ok : forall b pre ys rest a c s start, slots s = a ++ b ++ c -> zlen a = start + zlen pre -> length ys = length b ->
  src s = pre ++ ys ++ rest ->
  fast_write (buf s) (sbuf s) (length b) (zlen pre) start s = Ret (with_slots (a ++ ys ++ c) s).
Proof.
  induction b as [|o b IH]; intros pre ys rest a c s start E I L ES; cbn [length fast_write].
  - destruct ys; [|discriminate]. cbn [app] in *. rewrite <- E. destruct s; reflexivity.
  - destruct ys as [|y ys]; [discriminate|]. cbn [app] in E, ES.
    rewrite (load_src_mid (sbuf s) pre y (ys ++ rest)) by auto. cbn [obind].
    rewrite (store_mid (buf s) a o (b ++ c)) by auto. cbn [obind].
    specialize (IH (pre ++ [y]) ys rest (a ++ [y]) c (with_slots (a ++ y :: b ++ c) s) start).
    cbn [buf sbuf with_slots] in IH. rewrite !zlen_app in IH. change (zlen [y]) with 1 in IH.
    rewrite IH; [| | | |].
    + unfold with_slots. cbn. rewrite <- app_assoc. reflexivity.
    + cbn. rewrite <- app_assoc. reflexivity.
    + lia.
    + cbn in L. lia.
    + cbn. rewrite ES, <- app_assoc. reflexivity.
Qed.
Lemma fast_copy_done b ys rest a c s start n : slots s = a ++ b ++ c -> zlen a = start -> length ys = length b -> n = zlen b ->
  src s = ys ++ rest -> ~ In 0 b -> ~ In 0 ys -> ext_ok s -> slack_ok s ->
  exists s' more, f_fast_copy F (buf s) (sbuf s) n start s = Ret s' /\ Q more /\ slots s' = a ++ ys ++ c ++ more /\ frame s s' /\ ext_ok s' /\
    forall p, p <> 0 -> slack s' p = slack s p.
Proof.
  intros E I L -> ES N NY X S. unfold f_fast_copy. replace (Z.to_nat (zlen b)) with (length b) by (unfold zlen; lia).
  destruct (fast_release_ok b [] ys rest a c s start) as (s1 & m & R & Qm & Sl & (B1 & B2 & B3) & X1 & S1); auto.
  { change (zlen (@nil Z)) with 0. lia. }
  change (zlen (@nil Z)) with 0 in R. rewrite R. cbn [obind].
  pose proof (fast_write_ok (repeat 0 (length b)) [] ys rest a (c ++ m) s1 start) as W. rewrite repeat_length in W.
  change (zlen (@nil Z)) with 0 in W. rewrite B1, B3, B2 in W. rewrite W; auto; [|lia].
  eexists _, m. split; [reflexivity|]. split; [exact Qm|]. split; [reflexivity|]. split; [repeat split; assumption|]. split; [exact X1|].
  intros p H. rewrite slack_with_slots, S1, Sl, !occ_app, occ_repeat0 by exact H. lia.
Qed.

Lemma get_item_ok pre y rest s : src s = pre ++ y :: rest -> y <> 0 -> ext_ok s -> slack_ok s ->
  exists s', get_item (zlen pre) s = Ret (y, s') /\ slots s' = slots s /\ frame s s' /\ ext_ok s' /\
    forall p, p <> 0 -> slack s' p = slack s p + occ [y] p.
Proof.
  intros ES NZ X S. unfold get_item. rewrite ES, znth_mid by reflexivity.
  assert (RY : 0 < rc s y).
  { pose proof (S y NZ) as P. unfold slack in P. rewrite ES, occ_app in P. cbn [occ] in P. rewrite Z.eqb_refl in P. specialize (X y NZ).
    pose proof (occ_nonneg (slots s) y). pose proof (occ_nonneg pre y). pose proof (occ_nonneg rest y). lia. }
  unfold incref. destruct (Z.eqb_spec y 0); [contradiction|]. destruct (Z.leb_spec (rc s y) 0); [lia|]. cbn [obind].
  eexists. split; [reflexivity|]. split; [reflexivity|]. split; [repeat split|]. split; [exact X|].
  intros p H0. rewrite slack_with_rc, upd_plus. lia.
Qed.
Lemma generic_copy_done : forall b pre ys rest a c s start, slots s = a ++ b ++ c -> zlen a = start + zlen pre -> length ys = length b ->
  src s = pre ++ ys ++ rest -> ~ In 0 b -> ~ In 0 ys -> ext_ok s -> slack_ok s ->
  exists s' more, f_generic_copy F (buf s) (length b) (zlen pre) start s = (Ret tt, s') /\ Q more /\
    slots s' = a ++ ys ++ c ++ more /\ frame s s' /\ ext_ok s' /\ forall p, p <> 0 -> slack s' p = slack s p.
Proof.
  induction b as [|o b IH]; intros pre ys rest a c s start E I L ES N NY X S; cbn [length f_generic_copy].
  - destruct ys; [|discriminate]. exists s, []. rewrite app_nil_r. cbn [app] in *. split; [reflexivity|]. auto using frame_refl.
  - destruct ys as [|y ys]; [discriminate|]. cbn [app] in E, ES.
    assert (NZ : y <> 0) by (intros ->; apply NY; left; reflexivity).
    destruct (get_item_ok pre y (ys ++ rest) s ES NZ X S) as (s1 & R1 & Sl1 & (B1 & B2 & B3) & X1 & S1). rewrite R1.
    assert (K1 : slack_ok s1). { intros p H. rewrite S1 by exact H. specialize (S p H). pose proof (occ_nonneg [y] p). lia. }
    destruct (safe_decref_ok a o (b ++ c) s1 (start + zlen pre)) as (s2 & m2 & R2 & Q2 & Sl2 & (C1 & C2 & C3) & X2 & S2); auto.
    { congruence. }
    { intros ->. apply N. left. reflexivity. }
    rewrite B1 in R2. rewrite R2. cbn [obind].
    rewrite (store_mid (buf s) a 0 ((b ++ c) ++ m2) s2) by (auto; congruence).
    set (s3 := with_slots _ s2).
    assert (S3 : forall p, p <> 0 -> slack s3 p = slack s p).
    { intros p H. unfold s3. rewrite slack_with_slots, S2, S1, Sl2, !occ_app by exact H. cbn [occ].
      destruct (Z.eqb_spec 0 p); [congruence|]. rewrite !occ_app. lia. }
    destruct (IH (pre ++ [y]) ys rest (a ++ [y]) (c ++ m2) s3 start) as (s4 & m4 & R4 & Q4 & Sl4 & Fr4 & X4 & S4); auto.
    + unfold s3. cbn. rewrite <- !app_assoc. reflexivity.
    + rewrite !zlen_app. change (zlen [y]) with 1. lia.
    + unfold s3. cbn. rewrite C2, B2, ES, <- app_assoc. reflexivity.
    + intros H; apply N; right; exact H.
    + intros H; apply NY; right; exact H.
    + intros p H. rewrite S3 by exact H. apply S, H.
    + change (buf s3) with (buf s2) in R4. rewrite C1, B1 in R4. rewrite zlen_app in R4. change (zlen [y]) with 1 in R4.
      exists s4, (m2 ++ m4). split; [exact R4|]. split; [auto|]. split; [rewrite Sl4, <- !app_assoc; reflexivity|].
      split; [|split; [exact X4|intros p H; rewrite S4, S3; auto]].
      destruct Fr4 as (D1 & D2 & D3). unfold s3 in D1, D2, D3. cbn in D1, D2, D3. repeat split; congruence.
Qed.
Lemma generic_insert_done : forall ys pre a c s start, slots s = a ++ c -> zlen a = start + zlen pre ->
  src s = pre ++ ys -> ~ In 0 ys -> ext_ok s -> slack_ok s ->
  exists s', f_generic_insert (length ys) (zlen pre) start s = (Ret tt, s') /\
    slots s' = a ++ ys ++ c /\ frame s s' /\ ext_ok s' /\ forall p, p <> 0 -> slack s' p = slack s p.
Proof.
  induction ys as [|y ys IH]; intros pre a c s start E I ES NY X S; cbn [length f_generic_insert].
  - exists s. split; [reflexivity|]. auto using frame_refl.
  - assert (NZ : y <> 0) by (intros ->; apply NY; left; reflexivity).
    destruct (get_item_ok pre y ys s ES NZ X S) as (s1 & R1 & Sl1 & (B1 & B2 & B3) & X1 & S1). rewrite R1.
    rewrite Sl1, E, (zinsert_mid a c) by lia.
    set (s3 := with_slots _ s1).
    assert (S3 : forall p, p <> 0 -> slack s3 p = slack s p).
    { intros p H. unfold s3. rewrite slack_with_slots, S1, Sl1, E, !occ_app by exact H. cbn [occ]. lia. }
    destruct (IH (pre ++ [y]) (a ++ [y]) c s3 start) as (s4 & R4 & Sl4 & Fr4 & X4 & S4); auto.
    + unfold s3. cbn. rewrite <- !app_assoc. reflexivity.
    + rewrite !zlen_app. change (zlen [y]) with 1. lia.
    + unfold s3. cbn. rewrite B2, ES, <- app_assoc. reflexivity.
    + intros H; apply NY; right; exact H.
    + intros p H. rewrite S3 by exact H. apply S, H.
    + rewrite zlen_app in R4. change (zlen [y]) with 1 in R4.
      exists s4. split; [exact R4|]. split; [rewrite Sl4, <- !app_assoc; reflexivity|].
      split; [|split; [exact X4|intros p H; rewrite S4, S3; auto]].
      destruct Fr4 as (D1 & D2 & D3). unfold s3 in D1, D2, D3. cbn in D1, D2, D3. repeat split; congruence.
Qed.
Lemma f_drop_range_ok b a c s i n stop : slots s = a ++ b ++ c -> i = zlen a -> n = zlen b -> stop = zlen a + zlen b -> ~ In 0 b -> ext_ok s -> slack_ok s ->
  exists s' more, f_drop_range F (buf s) i n stop s = Ret s' /\ Q more /\ slots s' = a ++ c ++ more /\ frame s s' /\ ext_ok s' /\
    forall p, p <> 0 -> slack s' p = slack s p.
Proof.
  intros E -> -> -> N X S. unfold f_drop_range. replace (Z.to_nat (zlen b)) with (length b) by (unfold zlen; lia).
  destruct (drop_slots_ok b a c s (zlen a)) as (s1 & m & R & Qm & Sl & Fr & X1 & S1); auto. rewrite R. cbn [obind].
  rewrite Sl, zerase_range_mid; [|reflexivity|unfold zlen; rewrite repeat_length; reflexivity]. cbn [or_ub obind].
  eexists _, m. split; [reflexivity|]. split; [exact Qm|]. split; [reflexivity|]. split; [exact Fr|]. split; [exact X1|].
  intros p H. rewrite slack_with_slots, S1, Sl, !occ_app, occ_repeat0 by exact H. lia.
Qed.
End Appending.
