(** Comparisons of linked lists and object lists with operands that are not
    sequences, or whose size or items cannot be had. *)
From Coq Require Import ZArith List Bool Arith Lia Permutation Sorted.
From Verif Require Import Base PyLongModel PyLongProofs PyListSpec ListLemmas ArrayListModel ArrayListProofs ArrayListSpec
  ArrayListFacts ArrayListMoreModel ArrayListCmpProofs ArrayListMoreProofs ArrayListMulProofs ArrayWorldProofs
  StdListModel StdListProofs LinkedListSpec LinkedListModel LinkedListProofs LinkedListFacts ObjMoreModel.
Import ListNotations.
Local Open Scope Z_scope.
Local Arguments Z.pow : simpl never.
Local Arguments Z.of_nat : simpl never.
Local Arguments Z.to_nat : simpl never.
Local Arguments Z.modulo : simpl never.

(** ** IntLinkedList *)
Lemma l_notseq c l : lcompare c CNotSeq l = Ret (match c with Ne_ => true | _ => false end).
Proof. destruct c; reflexivity. Qed.

Lemma l_length get len l : len <> zlen (vals l) ->
  lcompare Eq_ (CSeq (Ret len) get) l = Ret false /\ lcompare Ne_ (CSeq (Ret len) get) l = Ret true /\
  forall c, c <> Eq_ -> c <> Ne_ -> lcompare c (CSeq (Ret len) get) l = Ret (zlen (vals l) <? len).
Proof.
  intros N.
  assert (E : leq (CSeq (Ret len) get) l = Ret false).
  { unfold leq. cbn [seq_size]. rewrite lsize_vals. destruct (Z.eqb_spec len (zlen (vals l))); [contradiction|]. reflexivity. }
  split; [exact E|]. split; [cbn [lcompare]; unfold lne; rewrite E; reflexivity|].
  assert (O : forall r, lord r (CSeq (Ret len) get) l = Ret (zlen (vals l) <? len)).
  { intros r. unfold lord. rewrite lsize_vals. destruct (Z.eqb_spec (zlen (vals l)) len); [congruence|]. reflexivity. }
  intros [] A B; try congruence; apply O.
Qed.

Lemma l_size e get l :
  lcompare Eq_ (CSeq (Raise e) get) l = RetPending false e /\ lcompare Ne_ (CSeq (Raise e) get) l = RetPending true e /\
  forall c, c <> Eq_ -> c <> Ne_ -> lcompare c (CSeq (Raise e) get) l = Raise e.
Proof.
  assert (E : leq (CSeq (Raise e) get) l = RetPending false e).
  { unfold leq. cbn [seq_size]. rewrite lsize_vals. destruct (Z.eqb_spec (-1) (zlen (vals l))); [pose proof (zlen_nonneg (vals l)); lia|]. reflexivity. }
  split; [exact E|]. split; [cbn [lcompare]; unfold lne; rewrite E; reflexivity|].
  intros [] A B; try congruence; reflexivity.
Qed.

(** The loops walk over an equal prefix. *)
Lemma leq_prefix get l : lwf l -> forall items vs, Forall2 (stores 32) items vs -> forall a ys m,
  vals l = a ++ vs ++ ys -> (forall j o, nth_error items j = Some o -> get (zlen a + Z.of_nat j) = Ret o) ->
  leq_loop get (length vs + m) (zlen a) (itpos (lst l) (length a)) (lst l) =
  leq_loop get m (zlen a + zlen vs) (itpos (lst l) (length a + length vs)) (lst l).
Proof.
  intros W items vs F. induction F as [|o v items vs H F IH]; intros a ys m V A.
  - change (zlen []) with 0. cbn [length Nat.add]. rewrite Z.add_0_r, Nat.add_0_r. reflexivity.
  - cbn [length Nat.add leq_loop]. specialize (A 0%nat o eq_refl) as A0. rewrite Z.add_0_r in A0. rewrite A0.
    assert (N : nth_error (vals l) (length a) = Some v) by (rewrite V, nth_error_app2, Nat.sub_diag by lia; reflexivity).
    rewrite (deref_pos (lst l) _ v W N). cbn [obind]. rewrite (conv_stores KInt o v H), Z.eqb_refl. cbn [negb].
    rewrite next_pos; [|exact W|rewrite size_vals; apply nth_error_Some; congruence]. cbn [obind].
    specialize (IH (a ++ [v]) ys m). rewrite <- !app_assoc in IH. cbn [app] in IH. rewrite zlen_app, app_length in IH.
    change (zlen [v]) with 1 in IH. cbn [length] in IH.
    replace (S (length a)) with (length a + 1)%nat by lia. rewrite IH.
    + f_equal; [rewrite (zlen_cons v vs); lia|f_equal; lia].
    + exact V.
    + intros j x J. replace (zlen a + 1 + Z.of_nat j) with (zlen a + Z.of_nat (S j)) by lia. apply A. exact J.
Qed.
Lemma lord_prefix r get l : lwf l -> forall items vs, Forall2 (stores 32) items vs -> forall a ys m,
  vals l = a ++ vs ++ ys -> (forall j o, nth_error items j = Some o -> get (zlen a + Z.of_nat j) = Ret o) ->
  lord_loop r get (length vs + m) (zlen a) (itpos (lst l) (length a)) None (lst l) =
  lord_loop r get m (zlen a + zlen vs) (itpos (lst l) (length a + length vs)) None (lst l).
Proof.
  intros W items vs F. induction F as [|o v items vs H F IH]; intros a ys m V A.
  - change (zlen []) with 0. cbn [length Nat.add]. rewrite Z.add_0_r, Nat.add_0_r. reflexivity.
  - cbn [length Nat.add lord_loop]. specialize (A 0%nat o eq_refl) as A0. rewrite Z.add_0_r in A0. rewrite A0.
    assert (N : nth_error (vals l) (length a) = Some v) by (rewrite V, nth_error_app2, Nat.sub_diag by lia; reflexivity).
    rewrite (deref_pos (lst l) _ v W N). cbn [obind]. rewrite (conv_stores KInt o v H), Z.eqb_refl. cbv zeta. cbn [negb].
    rewrite next_pos; [|exact W|rewrite size_vals; apply nth_error_Some; congruence]. cbn [obind].
    specialize (IH (a ++ [v]) ys m). rewrite <- !app_assoc in IH. cbn [app] in IH. rewrite zlen_app, app_length in IH.
    change (zlen [v]) with 1 in IH. cbn [length] in IH.
    replace (S (length a)) with (length a + 1)%nat by lia. rewrite IH.
    + f_equal; [rewrite (zlen_cons v vs); lia|f_equal; lia].
    + exact V.
    + intros j x J. replace (zlen a + 1 + Z.of_nat j) with (zlen a + Z.of_nat (S j)) by lia. apply A. exact J.
Qed.

Lemma first_nodes (l : ll) : begin_ (lst l) = itpos (lst l) 0.
Proof. reflexivity. Qed.

Lemma l_enter get l items vs y ys : lwf l -> vals l = vs ++ y :: ys -> Forall2 (stores 32) items vs ->
  (forall j o, nth_error items j = Some o -> get (Z.of_nat j) = Ret o) ->
  leq (CSeq (Ret (zlen (vals l))) get) l
    = leq_loop get (S (length ys)) (zlen vs) (itpos (lst l) (length vs)) (lst l) /\
  forall r, lord r (CSeq (Ret (zlen (vals l))) get) l
    = lord_loop r get (S (length ys)) (zlen vs) (itpos (lst l) (length vs)) None (lst l).
Proof.
  intros W V F A.
  assert (N : Z.to_nat (zlen (vals l)) = (length vs + S (length ys))%nat).
  { rewrite V. unfold zlen. rewrite app_length. cbn [length]. lia. }
  split.
  - unfold leq. cbn [seq_size]. rewrite lsize_vals, Z.eqb_refl. cbn [negb]. rewrite first_nodes, N.
    exact (leq_prefix get l W items vs F [] (y :: ys) (S (length ys)) V A).
  - intros r. unfold lord. rewrite lsize_vals, Z.eqb_refl. cbn [negb]. rewrite first_nodes, N.
    exact (lord_prefix r get l W items vs F [] (y :: ys) (S (length ys)) V A).
Qed.

Lemma l_item_fails items vs e get y ys l : lwf l -> vals l = vs ++ y :: ys -> Forall2 (stores 32) items vs ->
  (forall j o, nth_error items j = Some o -> get (Z.of_nat j) = Ret o) -> get (zlen vs) = Raise e ->
  let a := CSeq (Ret (zlen (vals l))) get in
  (forall c, c <> Ne_ -> lcompare c a l = Raise e) /\ lcompare Ne_ a l = Undef NullDeref.
Proof.
  intros W V F A B a. destruct (l_enter get l items vs y ys W V F A) as [E O].
  cbn [leq_loop lord_loop] in E, O. rewrite B in E, O.
  split; [intros [] D; try congruence; first [exact E|apply O]|]. unfold a. cbn [lcompare]. unfold lne. rewrite E. reflexivity.
Qed.

Lemma l_rejected items vs o e get y ys l : lwf l -> vals l = vs ++ y :: ys -> Forall2 (stores 32) items vs ->
  (forall j x, nth_error items j = Some x -> get (Z.of_nat j) = Ret x) -> get (zlen vs) = Ret o -> rejected o e ->
  let a := CSeq (Ret (zlen (vals l))) get in
  lcompare Eq_ a l = RetPending false e /\ lcompare Ne_ a l = RetPending true e /\
  (y <> -1 -> (forall c, c = Lt_ \/ c = Le_ -> lcompare c a l = RetPending (y <? -1) e) /\
              (forall c, c = Gt_ \/ c = Ge_ -> lcompare c a l = RetPending (-1 <? y) e)).
Proof.
  intros W V F A B R a. destruct (l_enter get l items vs y ys W V F A) as [E O].
  assert (N : nth_error (vals l) (length vs) = Some y) by (rewrite V, nth_error_app2, Nat.sub_diag by lia; reflexivity).
  assert (C : conv_pending KInt o = (-1, Some e)).
  { apply conv_rejected. exact R. }
  cbn [leq_loop lord_loop] in E, O. rewrite B, (deref_pos (lst l) _ y W N) in E.
  cbn [obind] in E. rewrite C in E.
  split; [exact E|]. split; [unfold a; cbn [lcompare]; unfold lne; rewrite E; reflexivity|]. intros Y.
  assert (O' : forall r, lord r a l = RetPending (r y (-1)) e).
  { intros r. unfold a. rewrite O, B, (deref_pos (lst l) _ y W N). cbn [obind]. rewrite C. cbv zeta.
    destruct (Z.eqb_spec y (-1)); [contradiction|]. reflexivity. }
  split; intros c [-> | ->]; cbn [lcompare]; rewrite O'; f_equal.
  - destruct (Z.leb_spec y (-1)), (Z.ltb_spec y (-1)); try reflexivity; lia.
  - rewrite Z.gtb_ltb. reflexivity.
  - rewrite Z.geb_leb. destruct (Z.leb_spec (-1) y), (Z.ltb_spec (-1) y); try reflexivity; lia.
Qed.

(** ** Object lists *)
Lemma o_notseq cmp now lnow c s l :
  a_compare cmp now c ONotSeq s = Ret (match c with Ne_ => true | _ => false end) /\
  l_compare cmp lnow c ONotSeq l = Ret (match c with Ne_ => true | _ => false end).
Proof. destruct c; split; reflexivity. Qed.

Lemma o_length cmp now lnow get len l : len <> zlen (vals l) ->
  let answer c := Ret (match c with Eq_ => false | Ne_ => true | _ => zlen (vals l) <? len end) in
  forall c, a_compare cmp now c (OSeq (Ret len) get) (vals l) = answer c /\
            l_compare cmp lnow c (OSeq (Ret len) get) l = answer c.
Proof.
  intros N answer c. unfold answer.
  assert (X : (len =? zlen (vals l)) = false) by (apply Z.eqb_neq; exact N).
  assert (Y : (zlen (vals l) =? len) = false) by (apply Z.eqb_neq; congruence).
  destruct c; split; cbn [a_compare l_compare]; unfold a_eq, a_ne, a_ord; cbn [seq_size obind];
    rewrite ?lsize_vals, ?X, ?Y; reflexivity.
Qed.

Lemma o_size cmp now lnow get e l :
  let answer c := match c with Eq_ => RetPending false e | Ne_ => RetPending true e | _ => Raise e end in
  forall c, a_compare cmp now c (OSeq (Raise e) get) (vals l) = answer c /\
            l_compare cmp lnow c (OSeq (Raise e) get) l = answer c.
Proof.
  intros answer c. unfold answer.
  assert (X : (-1 =? zlen (vals l)) = false) by (apply Z.eqb_neq; pose proof (zlen_nonneg (vals l)); lia).
  destruct c; split; cbn [a_compare l_compare]; unfold a_eq, a_ne, a_ord; cbn [seq_size obind];
    rewrite ?lsize_vals, ?X; reflexivity.
Qed.

Section item.
Variables (cmp : oracle) (get : Z -> outcome Z) (e : exn) (l : ll).
Hypothesis W : lwf l.

Lemma a_loops : forall items vs, length items = length vs -> forall a ys m,
  vals l = a ++ vs ++ ys -> get (zlen a + zlen vs) = Raise e ->
  (forall j o, nth_error items j = Some o -> get (zlen a + Z.of_nat j) = Ret o) ->
  ((forall j v o, nth_error vs j = Some v -> nth_error items j = Some o -> rich_bool cmp (length a + j) Eq_ v o = Ret true) ->
     a_eq_loop cmp (fun _ => vals l) get (length vs + S m) (length a) (vals l) = Raise e /\
     l_eq_loop cmp (fun _ => lst l) get (length vs + S m) (length a) (itpos (lst l) (length a)) (lst l) = Raise e) /\
  ((forall j v o, nth_error vs j = Some v -> nth_error items j = Some o -> rich_bool cmp (length a + j) Ne_ v o = Ret false) ->
     a_ne_loop cmp (fun _ => vals l) get (length vs + S m) (length a) (vals l) = Raise e /\
     l_ne_loop cmp (fun _ => lst l) get (length vs + S m) (length a) (itpos (lst l) (length a)) (lst l) = Raise e).
Proof.
  induction items as [|o items IH]; intros [|v vs] L a ys m V B A; try discriminate.
  - change (zlen []) with 0 in B. rewrite Z.add_0_r in B. unfold zlen in B.
    cbn [length Nat.add a_eq_loop l_eq_loop a_ne_loop l_ne_loop]. rewrite B. cbn [obind]. auto.
  - cbn [length Nat.add a_eq_loop l_eq_loop a_ne_loop l_ne_loop].
    specialize (A 0%nat o eq_refl) as A0. rewrite Z.add_0_r in A0. unfold zlen in A0. rewrite A0. cbn [obind].
    assert (N : nth_error (vals l) (length a) = Some v) by (rewrite V, nth_error_app2, Nat.sub_diag by lia; reflexivity).
    assert (Z : znth (vals l) (Z.of_nat (length a)) = Some v) by (rewrite V; apply znth_mid; reflexivity).
    rewrite Z, (deref_pos (lst l) _ v W N). cbn [or_ub obind].
    rewrite next_pos; [|exact W|rewrite size_vals; apply nth_error_Some; congruence]. cbn [obind].
    destruct (IH vs) with (a := a ++ [v]) (ys := ys) (m := m) as [IE IN].
    + cbn in L. lia.
    + rewrite V, <- app_assoc. reflexivity.
    + rewrite <- B. f_equal. rewrite zlen_app, (zlen_cons v vs). change (zlen [v]) with 1. lia.
    + intros j x J. rewrite <- (A (S j) x J). f_equal. rewrite zlen_app. change (zlen [v]) with 1. lia.
    + rewrite app_length in IE, IN. cbn [length] in IE, IN. replace (length a + 1)%nat with (S (length a)) in IE, IN by lia.
      split; intros H; pose proof (H 0%nat v o eq_refl eq_refl) as H0; rewrite Nat.add_0_r in H0; rewrite H0; cbn [obind];
      [apply IE|apply IN]; intros j w x J K; replace (S (length a) + j)%nat with (length a + S j)%nat by lia; apply H; assumption.
Qed.

Lemma o_item_fails items vs y ys : vals l = vs ++ y :: ys -> length items = length vs ->
  (forall j o, nth_error items j = Some o -> get (Z.of_nat j) = Ret o) -> get (zlen vs) = Raise e ->
  let a := OSeq (Ret (zlen (vals l))) get in
  ((forall j v o, nth_error vs j = Some v -> nth_error items j = Some o -> rich_bool cmp j Eq_ v o = Ret true) ->
     a_compare cmp (fun _ => vals l) Eq_ a (vals l) = Raise e /\ l_compare cmp (fun _ => lst l) Eq_ a l = Raise e) /\
  ((forall j v o, nth_error vs j = Some v -> nth_error items j = Some o -> rich_bool cmp j Ne_ v o = Ret false) ->
     a_compare cmp (fun _ => vals l) Ne_ a (vals l) = Raise e /\ l_compare cmp (fun _ => lst l) Ne_ a l = Raise e) /\
  (vs = [] -> forall c, c <> Eq_ -> c <> Ne_ ->
     a_compare cmp (fun _ => vals l) c a (vals l) = Raise e /\ l_compare cmp (fun _ => lst l) c a l = Raise e).
Proof.
  intros V L A B a.
  assert (N : Z.to_nat (zlen (vals l)) = (length vs + S (length ys))%nat).
  { rewrite V. unfold zlen. rewrite app_length. cbn [length]. lia. }
  destruct (a_loops items vs L [] (y :: ys) (length ys) V B A) as [X Y].
  unfold a. cbn [a_compare l_compare]. unfold a_eq, a_ne. cbn [seq_size]. rewrite lsize_vals, Z.eqb_refl. cbn [negb].
  rewrite N, first_nodes. split; [exact X|]. split; [exact Y|].
  intros -> c D1 D2. change (zlen []) with 0 in B.
  assert (P : (0 <? zlen (vals l)) = true) by (apply Z.ltb_lt; rewrite V; cbn [app]; rewrite zlen_cons; pose proof (zlen_nonneg ys); lia).
  destruct c; try congruence; cbn [a_compare l_compare]; unfold a_ord; cbn [obind];
    rewrite ?lsize_vals, Z.eqb_refl, P, B; split; reflexivity.
Qed.
End item.
