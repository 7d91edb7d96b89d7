(** Comparisons of int lists with any Python list or tuple: items that do not
    convert at any place. *)
From Coq Require Import ZArith List Bool Arith Lia.
From Verif Require Import Base PyLongModel PyLongProofs PyListSpec ListLemmas ArrayListModel ArrayListProofs ArrayListSpec
  ArrayListFacts ArrayListMoreModel ArrayListCmpProofs ArrayListMoreProofs
  StdListModel StdListProofs LinkedListSpec LinkedListModel LinkedListProofs LinkedListFacts CmpErrors CmpAnySpec.
Import ListNotations.
Local Open Scope Z_scope.
Local Arguments Z.pow : simpl never.
Local Arguments Z.of_nat : simpl never.
Local Arguments Z.to_nat : simpl never.
Local Arguments Z.modulo : simpl never.

(** ** Proofs *)
Lemma conv_reads k o v err : reads (bits k) o (v, err) -> conv_pending k o = (v, err).
Proof. intros R. inversion R; subst; [apply conv_stores|apply conv_rejected]; assumption. Qed.
Definition later (p q : option exn) : option exn := match q with Some e => Some e | None => p end.
Lemma ord_seq_any k r : forall items rs, Forall2 (reads (bits k)) items rs -> forall pre a xs pend, zlen pre = zlen a ->
  zlen (pre ++ items) < 2 ^ 64 ->
  ord_seq k r (get_items (pre ++ items)) (zlen (pre ++ items)) (Nat.min (length xs) (length items)) (zlen a) pend (a ++ xs)
  = left_set (later pend (last_error (looked xs rs))) (lexf r (r (zlen (a ++ xs)) (zlen (pre ++ items))) xs (map fst rs)).
Proof.
  intros items rs F. induction F as [|o [v err] items rs H F IH]; intros pre a xs pend P L.
  - assert (N0 : Nat.min (length xs) (length (@nil pyobj)) = 0%nat) by (cbn; lia). rewrite N0. cbn [ord_seq map].
    rewrite Z.mod_small by (pose proof (zlen_nonneg (pre ++ [])); lia). destruct xs, pend; reflexivity.
  - destruct xs as [|x xs].
    + cbn [length Nat.min ord_seq lexf looked last_error later]. rewrite Z.mod_small by (pose proof (zlen_nonneg (pre ++ o :: items)); lia).
      destruct pend; reflexivity.
    + cbn [length Nat.min ord_seq lexf looked last_error map fst]. unfold get_items at 1.
      rewrite znth_mid by (symmetry; assumption). rewrite znth_mid by reflexivity. rewrite (conv_reads k o v err H). cbv zeta.
      destruct (Z.eqb_spec x v) as [->|N].
      * specialize (IH (pre ++ [o]) (a ++ [v]) xs (later pend err)). rewrite <- !app_assoc in IH. cbn [app] in IH.
        rewrite (zlen_app a [v]) in IH. change (zlen [v]) with 1 in IH.
        fold (later pend err). rewrite IH; [|rewrite zlen_app, P; reflexivity|assumption].
        f_equal. unfold later. destruct (last_error (looked xs rs)); reflexivity.
      * cbn [last_error]. destruct err, pend; reflexivity.
Qed.
Lemma order_any k c s items rs : c <> Eq_ -> c <> Ne_ -> zlen items < 2 ^ 64 -> Forall2 (reads (bits k)) items rs ->
  exists b, compare_ k c (cmp_items items) s = left_set (last_error (looked s rs)) b /\ (b = true <-> cmp_sem c s (map fst rs)).
Proof.
  intros N1 N2 L F. pose proof (Forall2_len _ _ _ F) as Lf.
  assert (O : forall r, ord_ k r (cmp_items items) s = left_set (last_error (looked s rs)) (lexf r (r (zlen s) (zlen (map fst rs))) s (map fst rs))).
  { intros r. unfold ord_, cmp_items. cbn [seq_size].
    replace (Z.to_nat (Z.min (zlen s) (zlen items))) with (Nat.min (length s) (length items)) by (unfold zlen; lia).
    pose proof (ord_seq_any k r items rs F [] [] s None eq_refl L) as Q. cbn [app] in Q. change (zlen []) with 0 in Q.
    replace (zlen (map fst rs)) with (zlen items) by (unfold zlen; rewrite map_length; lia).
    unfold later in Q. destruct (last_error (looked s rs)); exact Q. }
  destruct c; try congruence; cbn [compare_]; eexists; (split; [apply O|]).
  - apply (lexf_sem Lt_). exact I.
  - apply (lexf_sem Le_). exact I.
  - apply (lexf_sem Gt_). exact I.
  - apply (lexf_sem Ge_). exact I.
Qed.

Lemma eq_any k its vs o v err rest x ys : Forall2 (stores (bits k)) its vs -> reads (bits k) o (v, err) ->
  length rest = length ys -> x <> v \/ err <> None ->
  eq_ k (cmp_items (its ++ o :: rest)) (vs ++ x :: ys) = left_set err false.
Proof.
  intros F R Lr D. pose proof (Forall2_len _ _ _ F) as Lf. unfold eq_, cmp_items. cbn [seq_size].
  assert (Lz : zlen (its ++ o :: rest) = zlen (vs ++ x :: ys)).
  { rewrite !zlen_app, !zlen_cons. unfold zlen. lia. }
  rewrite Lz, Z.eqb_refl. cbn [negb].
  replace (Z.to_nat (zlen (vs ++ x :: ys))) with (length (vs ++ x :: ys)) by (unfold zlen; lia).
  fold (get_items (its ++ o :: rest)).
  assert (G : forall pre a, zlen pre = zlen a ->
    eq_loop k (get_items (pre ++ its ++ o :: rest)) (length (vs ++ x :: ys)) (zlen a) (a ++ vs ++ x :: ys) = left_set err false).
  { clear Lf Lz. induction F as [|o' v' its vs H F IH]; intros pre a P; cbn [app length eq_loop].
    - unfold get_items at 1. rewrite znth_mid by (symmetry; assumption). rewrite znth_mid by reflexivity. rewrite (conv_reads k o v err R).
      destruct err; [reflexivity|]. destruct (Z.eqb_spec x v); [|reflexivity]. destruct D; [contradiction|congruence].
    - unfold get_items at 1. rewrite znth_mid by (symmetry; assumption). rewrite znth_mid by reflexivity. rewrite (conv_stores k o' v' H), Z.eqb_refl.
      specialize (IH (pre ++ [o']) (a ++ [v'])). rewrite <- !app_assoc in IH. cbn [app] in IH. rewrite (zlen_app a [v']) in IH.
      change (zlen [v']) with 1 in IH. apply IH. rewrite zlen_app, P. reflexivity. }
  exact (G [] [] eq_refl).
Qed.
Lemma equality_any k its vs o v err rest x ys : Forall2 (stores (bits k)) its vs -> reads (bits k) o (v, err) ->
  length rest = length ys -> x <> v \/ err <> None ->
  compare_ k Eq_ (cmp_items (its ++ o :: rest)) (vs ++ x :: ys) = left_set err false /\
  compare_ k Ne_ (cmp_items (its ++ o :: rest)) (vs ++ x :: ys) = left_set err true.
Proof.
  intros F R Lr D. pose proof (eq_any k its vs o v err rest x ys F R Lr D) as E. split; [exact E|].
  cbn [compare_]. unfold ne_. rewrite E. destruct err; reflexivity.
Qed.
Lemma a_length k s get len : len <> zlen s ->
  compare_ k Eq_ (CSeq (Ret len) get) s = Ret false /\ compare_ k Ne_ (CSeq (Ret len) get) s = Ret true.
Proof.
  intros N. assert (E : eq_ k (CSeq (Ret len) get) s = Ret false).
  { unfold eq_. cbn [seq_size]. destruct (Z.eqb_spec len (zlen s)); [contradiction|]. reflexivity. }
  split; [exact E|]. cbn [compare_]. unfold ne_. rewrite E. reflexivity.
Qed.

(** ** Linked list *)
Lemma lord_any r l : lwf l -> forall items rs, Forall2 (reads 32) items rs -> forall pre a xs pend, zlen pre = zlen a ->
  vals l = a ++ xs -> length xs = length items ->
  lord_loop r (get_items (pre ++ items)) (length items) (zlen a) (itpos (lst l) (length a)) pend (lst l)
  = left_set (later pend (last_error (looked xs rs))) (lexf r false xs (map fst rs)).
Proof.
  intros W items rs F. induction F as [|o [v err] items rs H F IH]; intros pre a xs pend P V L.
  - destruct xs; [|discriminate]. cbn. destruct pend; reflexivity.
  - destruct xs as [|x xs]; [discriminate|]. cbn [length lord_loop lexf looked last_error map fst]. unfold get_items at 1.
    rewrite znth_mid by (symmetry; assumption).
    assert (N : nth_error (vals l) (length a) = Some x) by (rewrite V, nth_error_app2, Nat.sub_diag by lia; reflexivity).
    rewrite (deref_pos (lst l) _ x W N). cbn [obind]. rewrite (conv_reads KInt o v err H). cbv zeta.
    destruct (Z.eqb_spec x v) as [->|Nv]; cbn [negb].
    + rewrite next_pos; [|exact W|rewrite size_vals; apply nth_error_Some; congruence]. cbn [obind].
      specialize (IH (pre ++ [o]) (a ++ [v]) xs (later pend err)). rewrite <- !app_assoc in IH. cbn [app] in IH.
      rewrite (zlen_app a [v]), app_length in IH. change (zlen [v]) with 1 in IH. cbn [length] in IH.
      replace (S (length a)) with (length a + 1)%nat by lia. fold (later pend err).
      rewrite IH; [|rewrite zlen_app, P; reflexivity|exact V|cbn in L; lia].
      f_equal. unfold later. destruct (last_error (looked xs rs)); reflexivity.
    + cbn [last_error]. destruct err, pend; reflexivity.
Qed.
Lemma l_order_any c l items rs : c <> Eq_ -> c <> Ne_ -> lwf l -> length items = length (vals l) -> Forall2 (reads 32) items rs ->
  exists b, lcompare c (cmp_items items) l = left_set (last_error (looked (vals l) rs)) b /\ (b = true <-> llord_sem c (vals l) (map fst rs)).
Proof.
  intros N1 N2 W L F. pose proof (Forall2_len _ _ _ F) as Lf.
  assert (O : forall r, lord r (cmp_items items) l = left_set (last_error (looked (vals l) rs)) (lexf r false (vals l) (map fst rs))).
  { intros r. unfold lord, cmp_items. rewrite lsize_vals.
    replace (zlen items) with (zlen (vals l)) by (unfold zlen; lia). rewrite Z.eqb_refl. cbn [negb].
    replace (Z.to_nat (zlen (vals l))) with (length items) by (unfold zlen; lia). rewrite first_nodes.
    pose proof (lord_any r l W items rs F [] [] (vals l) None eq_refl eq_refl (eq_sym L)) as Q. cbn [app length] in Q. change (zlen []) with 0 in Q.
    unfold later in Q. destruct (last_error (looked (vals l) rs)); exact Q. }
  set (ws := map fst rs) in *.
  assert (Lw : length (vals l) = length ws) by (unfold ws; rewrite map_length; lia).
  assert (Z1 : (zlen (vals l) <? zlen ws) = false) by (unfold zlen; apply Z.ltb_ge; lia).
  assert (Z2 : (zlen ws <? zlen (vals l)) = false) by (unfold zlen; apply Z.ltb_ge; lia).
  pose proof (lexf_ltb (vals l) ws) as LT. rewrite Z1 in LT.
  pose proof (lexf_flip (vals l) ws) as FL. rewrite Z.gtb_ltb, Z2 in FL.
  pose proof (lexf_ltb ws (vals l)) as GT. rewrite Z2 in GT.
  destruct c; try congruence; cbn [lcompare]; eexists; (split; [apply O|]); unfold llord_sem; rewrite (proj2 (Nat.eqb_eq _ _) Lw).
  - exact LT.
  - rewrite lexf_le_lt. exact LT.
  - rewrite FL. exact GT.
  - rewrite lexf_ge_gt, FL. exact GT.
Qed.
Lemma l_equality_any its vs o v err rest x ys l : lwf l -> vals l = vs ++ x :: ys -> Forall2 (stores 32) its vs -> reads 32 o (v, err) ->
  length rest = length ys -> x <> v \/ err <> None ->
  lcompare Eq_ (cmp_items (its ++ o :: rest)) l = left_set err false /\ lcompare Ne_ (cmp_items (its ++ o :: rest)) l = left_set err true.
Proof.
  intros W V F R Lr D. pose proof (Forall2_len _ _ _ F) as Lf.
  assert (E : leq (cmp_items (its ++ o :: rest)) l = left_set err false).
  { unfold cmp_items. fold (get_items (its ++ o :: rest)).
    replace (zlen (its ++ o :: rest)) with (zlen (vals l)) by (rewrite V, !zlen_app, !zlen_cons; unfold zlen; lia).
    assert (A : forall j z, nth_error its j = Some z -> get_items (its ++ o :: rest) (Z.of_nat j) = Ret z).
    { intros j z J. unfold get_items, znth. rewrite (proj2 (Z.ltb_ge _ _)) by lia. rewrite Nat2Z.id, nth_error_app1 by (apply nth_error_Some; congruence).
      rewrite J. reflexivity. }
    rewrite (proj1 (l_enter (get_items (its ++ o :: rest)) l its vs x ys W V F A)).
    cbn [leq_loop]. unfold get_items. rewrite znth_mid by (unfold zlen; lia).
    assert (N : nth_error (vals l) (length vs) = Some x) by (rewrite V, nth_error_app2, Nat.sub_diag by lia; reflexivity).
    rewrite (deref_pos (lst l) _ x W N). cbn [obind]. rewrite (conv_reads KInt o v err R).
    destruct err; [reflexivity|]. destruct (Z.eqb_spec x v); [destruct D; congruence|reflexivity]. }
  split; [exact E|]. cbn [lcompare]. unfold lne. rewrite E. destruct err; reflexivity.
Qed.

Lemma reads_total k o : exists r, reads (bits k) o r.
Proof.
  destruct o as [z|i].
  - destruct (Z_lt_le_dec z (- 2 ^ 63)) as [A|A]; [exists (-1, Some OverflowError); apply Rejects; cbn [rejected]; auto|].
    destruct (Z_lt_le_dec z (2 ^ 63)) as [B|B]; [|exists (-1, Some OverflowError); apply Rejects; cbn [rejected]; auto].
    exists (wrap (bits k) z, None). apply Reads. exists z. split; [reflexivity|]. split; [lia|apply reduced_wrap; reflexivity].
  - exists (-1, Some TypeError). apply Rejects. reflexivity.
Qed.
