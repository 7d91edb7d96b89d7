(** Rich comparison of array lists: lexicographic order. *)
From Coq Require Import ZArith List Bool Lia Arith.
From Verif Require Import Base PyLongModel PyLongProofs MemModel QReverseModel PyListSpec
  ListLemmas ArrayListModel ArrayListProofs ArrayListSpec ArrayListFacts ArrayListMoreModel.
Import ListNotations.
Local Open Scope Z_scope.
Local Arguments Z.pow : simpl never.
Local Arguments Z.of_nat : simpl never.
Local Arguments Z.to_nat : simpl never.
Local Arguments Z.modulo : simpl never.

(** Python's meaning of the six operators. *)
Definition cmp_sem (c : cmp_op) (s ys : list Z) : Prop :=
  match c with
  | Eq_ => s = ys
  | Ne_ => s <> ys
  | Lt_ => lex_lt s ys
  | Le_ => lex_lt s ys \/ s = ys
  | Gt_ => lex_lt ys s
  | Ge_ => lex_lt ys s \/ s = ys
  end.

Fixpoint lexf (r : Z -> Z -> bool) (b : bool) (xs ys : list Z) : bool :=
  match xs, ys with
  | x :: xs', y :: ys' => if x =? y then lexf r b xs' ys' else r x y
  | _, _ => b
  end.

Lemma ord_same_lexf r a xs ys : ord_same r (a ++ xs) (a ++ ys) (Nat.min (length xs) (length ys)) (zlen a)
  = Ret (lexf r (r (zlen (a ++ xs)) (zlen (a ++ ys))) xs ys).
Proof.
  revert a ys. induction xs as [|x xs IH]; intros a ys; [reflexivity|].
  destruct ys as [|y ys]; [reflexivity|]. cbn [length Nat.min ord_same lexf].
  rewrite !znth_mid by reflexivity. destruct (Z.eqb_spec x y) as [->|]; [|reflexivity].
  specialize (IH (a ++ [y]) ys). rewrite <- !app_assoc in IH. cbn [app] in IH.
  rewrite <- IH. f_equal. rewrite zlen_app. reflexivity.
Qed.

Lemma lexf_ltb xs ys : lexf Z.ltb (zlen xs <? zlen ys) xs ys = true <-> lex_lt xs ys.
Proof.
  revert ys. induction xs as [|x xs IH]; intros [|y ys]; cbn [lexf].
  - split; [discriminate|inversion 1].
  - split; [constructor|]. intros _. apply Z.ltb_lt. rewrite zlen_cons. pose proof (zlen_nonneg ys). change (zlen (@nil Z)) with 0. lia.
  - split; [|inversion 1]. intros H. apply Z.ltb_lt in H. rewrite zlen_cons in H. pose proof (zlen_nonneg xs). change (zlen (@nil Z)) with 0 in H. lia.
  - assert (E : (zlen (x :: xs) <? zlen (y :: ys)) = (zlen xs <? zlen ys)).
    { rewrite !zlen_cons. destruct (Z.ltb_spec (zlen xs) (zlen ys)), (Z.ltb_spec (zlen xs + 1) (zlen ys + 1)); try reflexivity; try lia.
      all: apply Z.ltb_lt || apply Z.ltb_ge; lia. }
    rewrite E. destruct (Z.eqb_spec x y) as [->|N].
    + rewrite IH. split; [apply lex_tail|]. inversion 1; subst; [lia|assumption].
    + rewrite Z.ltb_lt. split; [apply lex_head|]. inversion 1; subst; [assumption|contradiction].
Qed.

Lemma lex_irrefl xs : ~ lex_lt xs xs.
Proof. induction xs; inversion 1; subst; [lia|auto]. Qed.
Lemma lex_trans xs ys zs : lex_lt xs ys -> lex_lt ys zs -> lex_lt xs zs.
Proof.
  intros H. revert zs. induction H; intros zs Hz; inversion Hz; subst;
    solve [apply lex_nil | apply lex_tail; auto | apply lex_head; lia].
Qed.
Lemma lex_total xs ys : lex_lt xs ys \/ xs = ys \/ lex_lt ys xs.
Proof.
  revert ys. induction xs as [|x xs IH]; intros [|y ys]; auto using lex_nil.
  destruct (Z.lt_total x y) as [L|[->|L]].
  - left. apply lex_head. assumption.
  - destruct (IH ys) as [L|[->|L]]; auto using lex_tail.
  - right; right. apply lex_head. assumption.
Qed.

(** The other operators from [lexf Z.ltb]. *)
Lemma lexf_flip xs ys : lexf Z.gtb (zlen xs >? zlen ys) xs ys = lexf Z.ltb (zlen ys <? zlen xs) ys xs.
Proof.
  assert (G : forall b, lexf Z.gtb b xs ys = lexf Z.ltb b ys xs).
  { intros b. revert ys. induction xs as [|x xs IH]; intros [|y ys]; cbn [lexf]; try reflexivity.
    rewrite (Z.eqb_sym y x). destruct (x =? y); [apply IH|]. apply Z.gtb_ltb. }
  rewrite G, Z.gtb_ltb. reflexivity.
Qed.
Lemma lexf_leb xs ys : lexf Z.leb (zlen xs <=? zlen ys) xs ys = negb (lexf Z.ltb (zlen ys <? zlen xs) ys xs).
Proof.
  assert (G : forall b, lexf Z.leb (negb b) xs ys = negb (lexf Z.ltb b ys xs)).
  { intros b. revert ys. induction xs as [|x xs IH]; intros [|y ys]; cbn [lexf]; try reflexivity.
    rewrite (Z.eqb_sym y x). destruct (x =? y); [apply IH|]. apply Z.leb_antisym. }
  rewrite <- G. f_equal. apply Z.leb_antisym.
Qed.
Lemma lexf_geb xs ys : lexf Z.geb (zlen xs >=? zlen ys) xs ys = negb (lexf Z.ltb (zlen xs <? zlen ys) xs ys).
Proof.
  assert (G : forall b, lexf Z.geb (negb b) xs ys = negb (lexf Z.ltb b xs ys)).
  { intros b. revert ys. induction xs as [|x xs IH]; intros [|y ys]; cbn [lexf]; try reflexivity.
    destruct (x =? y); [apply IH|]. rewrite Z.geb_leb. apply Z.leb_antisym. }
  rewrite <- G. f_equal. rewrite Z.geb_leb. apply Z.leb_antisym.
Qed.

Lemma le_sem xs ys : negb (lexf Z.ltb (zlen ys <? zlen xs) ys xs) = true <-> lex_lt xs ys \/ xs = ys.
Proof.
  rewrite negb_true_iff. split.
  - intros H. destruct (lex_total xs ys) as [L|[E|L]]; auto. apply lexf_ltb in L. congruence.
  - intros H. apply not_true_is_false. rewrite lexf_ltb. intros L. destruct H as [H|H].
    + eapply lex_irrefl. eapply lex_trans; eauto.
    + subst. eapply lex_irrefl; eauto.
Qed.

Definition op_rel (c : cmp_op) : Z -> Z -> bool :=
  match c with Lt_ => Z.ltb | Le_ => Z.leb | Gt_ => Z.gtb | Ge_ => Z.geb | _ => Z.eqb end.
Definition is_ord (c : cmp_op) : Prop := match c with Eq_ | Ne_ => False | _ => True end.

Lemma lexf_sem c xs ys : is_ord c -> lexf (op_rel c) (op_rel c (zlen xs) (zlen ys)) xs ys = true <-> cmp_sem c xs ys.
Proof.
  destruct c; cbn [is_ord op_rel cmp_sem]; try contradiction; intros _.
  - apply lexf_ltb.
  - rewrite lexf_leb. apply le_sem.
  - rewrite lexf_flip. apply lexf_ltb.
  - rewrite lexf_geb, le_sem. split; intros [H|H]; auto.
Qed.

(** ** Same class *)
Lemma bytes_eqb_spec a b : bytes_eqb a b = true <-> a = b.
Proof.
  revert b. induction a as [|x a IH]; intros [|y b]; cbn [bytes_eqb]; try (split; congruence).
  rewrite andb_true_iff, Z.eqb_eq, IH. split; [intros [-> ->]; reflexivity|intros E; injection E; auto].
Qed.

Lemma encode_inj k s ys : Forall (in_range k) s -> Forall (in_range k) ys -> length s = length ys ->
  encode k s = encode k ys -> s = ys.
Proof.
  intros F1 F2 L E. rewrite <- (decode_encode k s F1), <- (decode_encode k ys F2), E, L. reflexivity.
Qed.

Lemma ord_compare k c a s : is_ord c -> compare_ k c a s = ord_ k (op_rel c) a s.
Proof. destruct c; try contradiction; reflexivity. Qed.

Lemma compare_same k c s ys : Forall (in_range k) s -> Forall (in_range k) ys ->
  exists b, compare_ k c (CSame ys) s = Ret b /\ (b = true <-> cmp_sem c s ys).
Proof.
  intros F1 F2.
  assert (E : exists b, eq_ k (CSame ys) s = Ret b /\ (b = true <-> s = ys)).
  { cbn [eq_]. destruct (Z.eqb_spec (zlen ys) (zlen s)) as [L|L]; cbn [negb].
    - eexists. split; [reflexivity|]. rewrite bytes_eqb_spec. split; [|intros ->; reflexivity].
      apply encode_inj; try assumption. unfold zlen in L. lia.
    - eexists. split; [reflexivity|]. split; [discriminate|]. intros ->. contradiction. }
  destruct c; cbn [compare_ cmp_sem]; [exact E| | | | |].
  - destruct E as (b & E & B). unfold ne_. rewrite E. eexists. split; [reflexivity|].
    rewrite negb_true_iff, <- not_true_iff_false, B. reflexivity.
  - eexists. split; [apply (ord_same_lexf Z.ltb [] s ys)|]. apply (lexf_sem Lt_). exact I.
  - eexists. split; [apply (ord_same_lexf Z.leb [] s ys)|]. apply (lexf_sem Le_). exact I.
  - eexists. split; [apply (ord_same_lexf Z.gtb [] s ys)|]. apply (lexf_sem Gt_). exact I.
  - eexists. split; [apply (ord_same_lexf Z.geb [] s ys)|]. apply (lexf_sem Ge_). exact I.
Qed.

(** ** List and tuple operands *)
Lemma conv_stores k o v : stores (bits k) o v -> conv_pending k o = (v, None).
Proof.
  intros (z & -> & R & Rd). unfold conv_pending, as_long.
  rewrite (proj2 (in_sbits_b_spec 64 z)) by exact R. apply reduced_wrap in Rd. rewrite Rd. reflexivity.
Qed.
Lemma conv_rejected k o e : rejected o e -> conv_pending k o = (-1, Some e).
Proof.
  intros R. unfold conv_pending. rewrite (as_long_of k o e R). f_equal.
  apply wrap_id; [apply bits_ge|destruct k; split; cbn; lia].
Qed.

Definition get_items (items : list pyobj) (i : Z) : outcome pyobj :=
  match znth items i with Some o => Ret o | None => Raise IndexError end.

Lemma eq_loop_ok k pre items vs a xs : Forall2 (stores (bits k)) items vs -> length xs = length items ->
  zlen pre = zlen a ->
  exists b, eq_loop k (get_items (pre ++ items)) (length items) (zlen a) (a ++ xs) = Ret b /\ (b = true <-> xs = vs).
Proof.
  intros F. revert pre a xs. induction F as [|o v items vs H F IH]; intros pre a xs L P.
  - destruct xs; [|discriminate]. exists true. split; [reflexivity|tauto].
  - destruct xs as [|x xs]; [discriminate|]. cbn [length eq_loop]. unfold get_items at 1.
    rewrite znth_mid by (symmetry; assumption). rewrite znth_mid by reflexivity. rewrite (conv_stores k o v H).
    destruct (Z.eqb_spec x v) as [->|N].
    + destruct (IH (pre ++ [o]) (a ++ [v]) xs) as (b & Eb & B); [cbn in L; lia|rewrite !zlen_app, P; reflexivity|].
      rewrite <- !app_assoc in Eb. cbn [app] in Eb. rewrite zlen_app in Eb. change (zlen [v]) with 1 in Eb.
      exists b. split; [exact Eb|]. rewrite B. split; [intros ->; reflexivity|intros E; injection E; auto].
    + exists false. split; [reflexivity|]. split; [discriminate|intros E; injection E; intros; contradiction].
Qed.

Lemma Forall2_len {A B} (R : A -> B -> Prop) l l' : Forall2 R l l' -> length l = length l'.
Proof. induction 1; cbn; congruence. Qed.

Lemma ord_seq_lexf k r pre items vs a xs : Forall2 (stores (bits k)) items vs -> zlen pre = zlen a ->
  zlen (pre ++ items) < 2 ^ 64 ->
  ord_seq k r (get_items (pre ++ items)) (zlen (pre ++ items)) (Nat.min (length xs) (length items)) (zlen a) None (a ++ xs)
  = Ret (lexf r (r (zlen (a ++ xs)) (zlen (pre ++ items))) xs vs).
Proof.
  intros F. revert pre a xs. induction F as [|o v items vs H F IH]; intros pre a xs P L.
  - assert (N0 : Nat.min (length xs) (length (@nil pyobj)) = 0%nat) by (cbn; lia). rewrite N0. cbn [ord_seq ret_bool].
    rewrite Z.mod_small by (pose proof (zlen_nonneg (pre ++ [])); lia). destruct xs; reflexivity.
  - destruct xs as [|x xs].
    + cbn [length Nat.min ord_seq ret_bool lexf]. rewrite Z.mod_small by (pose proof (zlen_nonneg (pre ++ o :: items)); lia). reflexivity.
    + cbn [length Nat.min ord_seq lexf]. unfold get_items at 1.
      rewrite znth_mid by (symmetry; assumption). rewrite znth_mid by reflexivity. rewrite (conv_stores k o v H).
      destruct (Z.eqb_spec x v) as [->|N]; [|reflexivity].
      specialize (IH (pre ++ [o]) (a ++ [v]) xs). rewrite <- !app_assoc in IH. cbn [app] in IH.
      rewrite <- IH; [|rewrite !zlen_app, P; reflexivity|assumption]. rewrite (zlen_app a [v]). reflexivity.
Qed.

Lemma compare_items k c s items vs : zlen items < 2 ^ 64 -> Forall2 (stores (bits k)) items vs ->
  exists b, compare_ k c (cmp_items items) s = Ret b /\ (b = true <-> cmp_sem c s vs).
Proof.
  intros L F. pose proof (Forall2_len _ _ _ F) as Lf.
  assert (E : exists b, eq_ k (cmp_items items) s = Ret b /\ (b = true <-> s = vs)).
  { unfold eq_, cmp_items. cbn [seq_size].
    destruct (Z.eqb_spec (zlen items) (zlen s)) as [Ls|Ls]; cbn [negb].
    - replace (Z.to_nat (zlen items)) with (length items) by (unfold zlen; lia).
      apply (eq_loop_ok k [] items vs [] s F); [unfold zlen in Ls; lia|reflexivity].
    - eexists. split; [reflexivity|]. split; [discriminate|]. intros ->. unfold zlen in Ls. rewrite Lf in Ls. contradiction. }
  assert (O : forall r, ord_ k r (cmp_items items) s = Ret (lexf r (r (zlen s) (zlen vs)) s vs)).
  { intros r. unfold ord_, cmp_items. cbn [seq_size].
    replace (Z.to_nat (Z.min (zlen s) (zlen items))) with (Nat.min (length s) (length items)) by (unfold zlen; lia).
    pose proof (ord_seq_lexf k r [] items vs [] s F eq_refl L) as Q. cbn [app] in Q. change (zlen []) with 0 in Q.
    unfold zlen in Q |- *. rewrite Lf in *. exact Q. }
  destruct c; cbn [compare_ cmp_sem].
  - exact E.
  - destruct E as (b & E & B). unfold ne_. rewrite E. eexists. split; [reflexivity|].
    rewrite negb_true_iff, <- not_true_iff_false, B. reflexivity.
  - eexists. split; [apply O|]. apply (lexf_sem Lt_). exact I.
  - eexists. split; [apply O|]. apply (lexf_sem Le_). exact I.
  - eexists. split; [apply O|]. apply (lexf_sem Gt_). exact I.
  - eexists. split; [apply O|]. apply (lexf_sem Ge_). exact I.
Qed.

(** An unconvertible item behind an equal prefix, same lengths: == answers
    False while the error stays set. *)
Lemma eq_pending k items vs o e rest xs x ys :
  Forall2 (stores (bits k)) items vs -> rejected o e -> xs = vs -> length rest = length ys ->
  eq_ k (cmp_items (items ++ o :: rest)) (xs ++ x :: ys) = RetPending false e.
Proof.
  intros F R -> Lr. pose proof (Forall2_len _ _ _ F) as Lf. unfold eq_, cmp_items. cbn [seq_size].
  assert (Lz : zlen (items ++ o :: rest) = zlen (vs ++ x :: ys)).
  { rewrite !zlen_app, !zlen_cons. unfold zlen. lia. }
  rewrite Lz, Z.eqb_refl. cbn [negb].
  replace (Z.to_nat (zlen (vs ++ x :: ys))) with (length (vs ++ x :: ys)) by (unfold zlen; lia).
  fold (get_items (items ++ o :: rest)).
  assert (G : forall pre a, zlen pre = zlen a ->
    eq_loop k (get_items (pre ++ items ++ o :: rest)) (length (vs ++ x :: ys)) (zlen a) (a ++ vs ++ x :: ys) = RetPending false e).
  { clear Lz Lf. induction F as [|o' v items vs H F IH]; intros pre a P.
    - cbn [app length eq_loop]. unfold get_items. rewrite znth_mid by (symmetry; assumption). rewrite znth_mid by reflexivity.
      rewrite (conv_rejected k o e R). reflexivity.
    - cbn [app length eq_loop]. unfold get_items at 1. rewrite znth_mid by (symmetry; assumption). rewrite znth_mid by reflexivity.
      rewrite (conv_stores k o' v H), Z.eqb_refl.
      specialize (IH (pre ++ [o']) (a ++ [v])). rewrite <- !app_assoc in IH. cbn [app] in IH.
      rewrite <- IH by (rewrite !zlen_app, P; reflexivity). rewrite (zlen_app a [v]). reflexivity. }
  apply (G [] []). reflexivity.
Qed.

(** Order laws of the answers. *)
Lemma order_laws k a b c : Forall (in_range k) a -> Forall (in_range k) b -> Forall (in_range k) c ->
  let lt x y := compare_ k Lt_ (CSame y) x = Ret true in
  let eqv x y := compare_ k Eq_ (CSame y) x = Ret true in
  ((lt a b /\ ~ eqv a b /\ ~ lt b a) \/ (~ lt a b /\ eqv a b /\ ~ lt b a) \/ (~ lt a b /\ ~ eqv a b /\ lt b a)) /\
  (lt a b -> lt b c -> lt a c) /\
  (compare_ k Le_ (CSame b) a = Ret true <-> ~ lt b a) /\
  (compare_ k Ge_ (CSame b) a = Ret true <-> ~ lt a b) /\
  (compare_ k Gt_ (CSame b) a = Ret true <-> lt b a) /\
  (compare_ k Ne_ (CSame b) a = Ret true <-> ~ eqv a b).
Proof.
  intros Fa Fb Fc lt eqv.
  assert (S : forall op x y, Forall (in_range k) x -> Forall (in_range k) y ->
     (compare_ k op (CSame y) x = Ret true <-> cmp_sem op x y)).
  { intros op x y Fx Fy. destruct (compare_same k op x y Fx Fy) as (r & -> & R). rewrite <- R.
    split; [intros E; injection E; auto|intros ->; reflexivity]. }
  unfold lt, eqv. rewrite !S by assumption. cbn [cmp_sem].
  assert (X : forall x y, lex_lt x y -> lex_lt y x -> False) by (intros x y H1 H2; eapply lex_irrefl; eapply lex_trans; eauto).
  assert (Y : forall x y, x = y -> lex_lt x y -> False) by (intros x y -> H2; eapply lex_irrefl; eauto).
  assert (Y' : forall x y, x = y -> lex_lt y x -> False) by (intros x y -> H2; eapply lex_irrefl; eauto).
  pose proof (lex_total a b) as T.
  split; [destruct T as [T|[T|T]]; [left|right;left|right;right]; split; [|split| |split| |split]; eauto|].
  split; [apply lex_trans|].
  split; [split; [intros [H|H] H2; eauto|destruct T as [T|[T|T]]; tauto]|].
  split; [split; [intros [H|H] H2; eauto|destruct T as [T|[T|T]]; tauto]|].
  split; [tauto|]. split; tauto.
Qed.

(** Non-sequences: never equal, never ordered. *)
Lemma compare_notseq k c s : compare_ k c CNotSeq s = Ret (match c with Ne_ => true | _ => false end).
Proof. destruct c; reflexivity. Qed.

(** A sequence whose item cannot be had, behind an equal prefix. *)
Lemma ord_seq_fails k r get size e : forall items vs, Forall2 (stores (bits k)) items vs -> forall a ys n,
  (forall j o, nth_error items j = Some o -> get (zlen a + Z.of_nat j) = Ret o) -> get (zlen a + zlen vs) = Raise e -> (length vs < n)%nat ->
  ord_seq k r get size n (zlen a) None (a ++ vs ++ ys) = Raise e.
Proof.
  intros items vs F. induction F as [|o v items vs H F IH]; intros a ys n A B L; (destruct n as [|n]; [cbn in L; lia|]); cbn [ord_seq].
  - change (zlen []) with 0 in B. rewrite Z.add_0_r in B. rewrite B. reflexivity.
  - specialize (A 0%nat o eq_refl) as A0. rewrite Z.add_0_r in A0. rewrite A0. cbn [app]. rewrite znth_mid by reflexivity.
    rewrite (conv_stores k o v H), Z.eqb_refl.
    specialize (IH (a ++ [v]) ys n). rewrite <- !app_assoc in IH. cbn [app] in IH. rewrite (zlen_app a [v]) in IH. change (zlen [v]) with 1 in IH.
    apply IH; [|rewrite <- B; f_equal; rewrite (zlen_cons v vs); lia | cbn in L; lia].
    intros j x J. replace (zlen a + 1 + Z.of_nat j) with (zlen a + Z.of_nat (S j)) by lia. apply A. exact J.
Qed.
Lemma eq_loop_fails k get e : forall items vs, Forall2 (stores (bits k)) items vs -> forall a ys n,
  (forall j o, nth_error items j = Some o -> get (zlen a + Z.of_nat j) = Ret o) -> get (zlen a + zlen vs) = Raise e -> (length vs < n)%nat ->
  eq_loop k get n (zlen a) (a ++ vs ++ ys) = Raise e.
Proof.
  intros items vs F. induction F as [|o v items vs H F IH]; intros a ys n A B L; (destruct n as [|n]; [cbn in L; lia|]); cbn [eq_loop].
  - change (zlen []) with 0 in B. rewrite Z.add_0_r in B. rewrite B. reflexivity.
  - specialize (A 0%nat o eq_refl) as A0. rewrite Z.add_0_r in A0. rewrite A0. cbn [app]. rewrite znth_mid by reflexivity.
    rewrite (conv_stores k o v H), Z.eqb_refl.
    specialize (IH (a ++ [v]) ys n). rewrite <- !app_assoc in IH. cbn [app] in IH. rewrite (zlen_app a [v]) in IH. change (zlen [v]) with 1 in IH.
    apply IH; [|rewrite <- B; f_equal; rewrite (zlen_cons v vs); lia | cbn in L; lia].
    intros j x J. replace (zlen a + 1 + Z.of_nat j) with (zlen a + Z.of_nat (S j)) by lia. apply A. exact J.
Qed.
Lemma item_fails k items vs e get len y ys : Forall2 (stores (bits k)) items vs ->
  (forall j o, nth_error items j = Some o -> get (Z.of_nat j) = Ret o) -> get (zlen vs) = Raise e -> zlen vs < len ->
  (forall c, c <> Eq_ -> c <> Ne_ -> compare_ k c (CSeq (Ret len) get) (vs ++ y :: ys) = Raise e) /\
  (len = zlen (vs ++ y :: ys) -> compare_ k Eq_ (CSeq (Ret len) get) (vs ++ y :: ys) = Raise e /\
                                 compare_ k Ne_ (CSeq (Ret len) get) (vs ++ y :: ys) = Undef NullDeref).
Proof.
  intros F A B L.
  assert (O : forall r, ord_ k r (CSeq (Ret len) get) (vs ++ y :: ys) = Raise e).
  { intros r. unfold ord_. cbn [seq_size]. apply (ord_seq_fails k r get len e items vs F [] (y :: ys)); auto.
    rewrite zlen_app, zlen_cons. pose proof (zlen_nonneg ys). unfold zlen in *. lia. }
  split; [intros [] C D; try congruence; apply O|]. intros ->.
  assert (E : eq_ k (CSeq (Ret (zlen (vs ++ y :: ys))) get) (vs ++ y :: ys) = Raise e).
  { unfold eq_. cbn [seq_size]. rewrite Z.eqb_refl. cbn [negb]. apply (eq_loop_fails k get e items vs F [] (y :: ys)); auto. unfold zlen in *. lia. }
  cbn [compare_]. unfold ne_. rewrite E. auto.
Qed.
Lemma size_fails k s e get : zlen s < 2 ^ 64 - 1 ->
  compare_ k Eq_ (CSeq (Raise e) get) s = RetPending false e /\ compare_ k Ne_ (CSeq (Raise e) get) s = RetPending true e /\
  compare_ k Lt_ (CSeq (Raise e) get) s = RetPending true e /\ compare_ k Le_ (CSeq (Raise e) get) s = RetPending true e /\
  compare_ k Gt_ (CSeq (Raise e) get) s = RetPending false e /\ compare_ k Ge_ (CSeq (Raise e) get) s = RetPending false e.
Proof.
  intros L. pose proof (zlen_nonneg s) as N.
  assert (E : eq_ k (CSeq (Raise e) get) s = RetPending false e).
  { unfold eq_. cbn [seq_size]. destruct (Z.eqb_spec (-1) (zlen s)); [lia|]. reflexivity. }
  assert (O : forall r, ord_ k r (CSeq (Raise e) get) s = RetPending (r (zlen s) (2 ^ 64 - 1)) e).
  { intros r. unfold ord_. cbn [seq_size]. replace (Z.to_nat (Z.min (zlen s) (-1))) with 0%nat by lia. reflexivity. }
  cbn [compare_]. rewrite !O. unfold ne_. rewrite E. split; [reflexivity|]. split; [reflexivity|].
  split; [f_equal; apply Z.ltb_lt; lia|]. split; [f_equal; apply Z.leb_le; lia|].
  split; f_equal; [rewrite Z.gtb_ltb; apply Z.ltb_ge; lia | rewrite Z.geb_leb; apply Z.leb_gt; lia].
Qed.
