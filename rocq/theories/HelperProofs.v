From Coq Require Import ZArith List Bool Lia.
From Verif Require Import Base PyLongModel PyLongProofs ArrayListSpec HelperModel HelperSpec.
Import ListNotations.
Local Open Scope Z_scope.
Local Arguments Z.pow : simpl never.
Local Arguments Z.mul : simpl never.
Local Arguments Z.add : simpl never.
Local Arguments Z.sub : simpl never.

Lemma space_iff : forall c, is_space c = true <-> (c = 32 \/ 9 <= c <= 13).
Proof. intro c; unfold is_space; rewrite orb_true_iff, andb_true_iff, !Z.leb_le, Z.eqb_eq; lia. Qed.
Lemma digit_iff : forall c, is_digit c = true <-> 48 <= c <= 57.
Proof. intro c; unfold is_digit; rewrite andb_true_iff, !Z.leb_le; lia. Qed.
Lemma digit_char : forall d, 0 <= d <= 9 -> is_digit (48 + d) = true.
Proof. intros; apply digit_iff; lia. Qed.
Lemma ten_dec : forall ds, ten ds = dec_value ds.
Proof.
  intro ds; unfold ten, dec_value; generalize 0; induction ds as [|d r IH]; intro a; cbn [fold_left]; [reflexivity|]; rewrite IH; f_equal; lia.
Qed.
Lemma skip_all : forall t, skip_space t = [] <-> blank t.
Proof.
  unfold blank; induction t as [|c r IH]; cbn [skip_space]; [split; [constructor|reflexivity]|].
  destruct (is_space c) eqn:S1.
  - rewrite IH; split; intro H; [constructor; [apply space_iff; exact S1|exact H]|inversion H; assumption].
  - split; [discriminate|]; intro H; inversion H; subst; assert (is_space c = true) by (apply space_iff; assumption); congruence.
Qed.
Lemma skip_pre : forall pre x, blank pre -> (forall c r, x = c :: r -> is_space c = false) -> skip_space (pre ++ x) = x.
Proof.
  intros pre x B F; induction pre as [|c r IH]; cbn [app].
  - destruct x as [|c r]; [reflexivity|]; cbn [skip_space]; rewrite (F c r eq_refl); reflexivity.
  - inversion B; subst; cbn [skip_space]; rewrite (proj2 (space_iff c)) by assumption; apply IH; assumption.
Qed.
Lemma skip_split : forall t, exists pre, blank pre /\ t = pre ++ skip_space t /\ (forall c r, skip_space t = c :: r -> is_space c = false).
Proof.
  induction t as [|c r (pre & B & E & F)]; cbn [skip_space]; [exists []; split; [constructor|split; [reflexivity|discriminate]]|].
  destruct (is_space c) eqn:S1.
  - exists (c :: pre); split; [constructor; [apply space_iff; exact S1|exact B]|]; split; [cbn [app]; f_equal; exact E|exact F].
  - exists []; split; [constructor|]; split; [reflexivity|]; intros c' r' H; injection H as <- <-; exact S1.
Qed.

Definition stop (t : list Z) : Prop := match t with c :: _ => is_digit c = false /\ c <> 95 | [] => True end.
Lemma scan_sound : forall t bar ds ds' rest, scan bar t ds = Some (ds', rest) ->
  stop rest /\
  exists body ds2, ds' = ds ++ ds2 /\
    (if bar : bool then t = body ++ rest /\ numeral body ds2
     else (t = rest /\ ds2 = []) \/ (t = body ++ rest /\ numeral body ds2) \/ (t = 95 :: body ++ rest /\ numeral body ds2)).
Proof.
  induction t as [|c r IH]; intros bar ds ds' rest E; cbn [scan] in E.
  - destruct bar; [discriminate|]; injection E as <- <-; split; [exact I|]; exists [], []; split; [symmetry; apply app_nil_r|left; split; reflexivity].
  - destruct (is_digit c) eqn:D.
    + destruct (IH _ _ _ _ E) as (ST & body & ds2 & -> & B); split; [exact ST|].
      apply digit_iff in D; assert (c = 48 + (c - 48)) as C by lia.
      assert (N : exists body', (c :: r = body' ++ rest) /\ numeral body' ((c - 48) :: ds2)).
      { destruct B as [[-> ->]|[[-> N]|[-> N]]].
        - exists [c]; split; [reflexivity|]; rewrite C at 1; apply num_one; lia.
        - exists (c :: body); split; [reflexivity|]; rewrite C at 1; apply num_digit; [lia|exact N].
        - exists (c :: 95 :: body); split; [reflexivity|]; rewrite C at 1; apply num_bar; [lia|exact N]. }
      destruct N as (body' & E' & N); exists body', ((c - 48) :: ds2); split; [rewrite <- app_assoc; reflexivity|].
      destruct bar; [split; assumption|right; left; split; assumption].
    + destruct (Z.eqb_spec c 95) as [Ec|Nc].
      * destruct bar; [discriminate|]; destruct (IH _ _ _ _ E) as (ST & body & ds2 & -> & B1 & B2); split; [exact ST|].
        exists body, ds2; split; [reflexivity|]; right; right; split; [congruence|exact B2].
      * destruct bar; [discriminate|]; injection E as <- <-; split; [split; assumption|]; exists [], []; split; [symmetry; apply app_nil_r|left; split; reflexivity].
Qed.
Lemma scan_complete : forall body ds2, numeral body ds2 -> forall rest bar ds, stop rest -> scan bar (body ++ rest) ds = Some (ds ++ ds2, rest).
Proof.
  induction 1 as [d D|d t ds2 D N IH|d t ds2 D N IH]; intros rest bar ds ST; cbn [app scan]; rewrite (digit_char d D); replace (48 + d - 48) with d by lia.
  - destruct rest as [|c r]; [reflexivity|]; destruct ST as [S1 S2]; cbn [scan]; rewrite S1; destruct (Z.eqb_spec c 95); [contradiction|reflexivity].
  - rewrite IH by exact ST; rewrite <- app_assoc; reflexivity.
  - replace (is_digit 95) with false by reflexivity; cbn [Z.eqb Pos.eqb]; rewrite IH by exact ST; rewrite <- app_assoc; reflexivity.
Qed.
Lemma blank_stop : forall t, blank t -> stop t.
Proof. intros t B; destruct B as [|c r C B]; [exact I|]; split; [unfold is_digit; destruct (48 <=? c) eqn:A, (c <=? 57) eqn:A2; lia|lia]. Qed.
Lemma numeral_head : forall body ds, numeral body ds -> exists d r, 0 <= d <= 9 /\ body = (48 + d) :: r.
Proof. intros body ds N; inversion N; subst; eauto. Qed.

Lemma sign_plain : forall body rest, (exists d r, 0 <= d <= 9 /\ body = (48 + d) :: r) -> sign_of (body ++ rest) = (false, body ++ rest).
Proof. intros body rest (d & r & D & ->); cbn [app sign_of]; destruct (Z.eqb_spec (48 + d) 43); [lia|]; destruct (Z.eqb_spec (48 + d) 45); [lia|reflexivity]. Qed.
Lemma reads_scan : forall t z ds limit, reads_as t z ds ->
  from_string limit t = if (0 <? limit) && (limit <? zlen ds) then Raise ValueError else Ret (mk_pylong z).
Proof.
  intros t z ds limit (pre & body & post & neg & sign & -> & B1 & B2 & N & SG & ->); unfold from_string.
  pose proof (numeral_head body ds N) as HD.
  rewrite skip_pre; [|exact B1|].
  2:{ destruct HD as (d & r & D & ->); intros c r' E.
      assert (c = 45 \/ c = 43 \/ 48 <= c <= 57) as C by (destruct neg; [subst sign; injection E; lia|destruct SG as [-> | ->]; injection E; lia]).
      unfold is_space; destruct (9 <=? c) eqn:A1, (c <=? 13) eqn:A2, (c =? 32) eqn:A3; try reflexivity; lia. }
  assert (SO : sign_of (sign ++ body ++ post) = (neg, body ++ post)).
  { destruct neg; [subst sign; reflexivity|]; destruct SG as [-> | ->]; [exact (sign_plain body post HD)|reflexivity]. }
  rewrite SO, (scan_complete body ds N post true [] (blank_stop post B2)); cbn [app].
  destruct ((0 <? limit) && (limit <? zlen ds)); [reflexivity|]; rewrite (proj2 (skip_all post) B2), ten_dec; reflexivity.
Qed.
Lemma string_ret : forall limit t p, from_string limit t = Ret p ->
  exists z ds, reads_as t z ds /\ p = mk_pylong z /\ (limit <= 0 \/ zlen ds <= limit).
Proof.
  intros limit t p E; unfold from_string in E; destruct (skip_split t) as (pre & B & ET & F).
  destruct (sign_of (skip_space t)) as [neg t1] eqn:SG; destruct (scan true t1 []) as [[ds rest]|] eqn:SC; [|discriminate].
  destruct ((0 <? limit) && (limit <? zlen ds)) eqn:L; [discriminate|]; destruct (skip_space rest) eqn:SR; [|discriminate].
  injection E as <-; destruct (scan_sound _ _ _ _ _ SC) as (ST & body & ds2 & EDs & EB & N); cbn [app] in EDs; subst ds2.
  exists (if neg then - ten ds else ten ds), ds; split; [|split; [reflexivity|]].
  - assert (X : exists sign, skip_space t = sign ++ t1 /\ (if neg : bool then sign = [45] else sign = [] \/ sign = [43])).
    { unfold sign_of in SG; destruct (skip_space t) as [|c r]; [injection SG as <- <-; exists []; split; [reflexivity|left; reflexivity]|].
      destruct (Z.eqb_spec c 43) as [->|N1]; [injection SG as <- <-; exists [43]; split; [reflexivity|right; reflexivity]|].
      destruct (Z.eqb_spec c 45) as [->|N2]; injection SG as <- <-; [exists [45]; split; reflexivity|exists []; split; [reflexivity|left; reflexivity]]. }
    destruct X as (sign & X1 & X2); exists pre, body, rest, neg, sign; split; [rewrite ET at 1; rewrite X1, EB; reflexivity|].
    split; [exact B|]; split; [apply skip_all; exact SR|]; split; [exact N|]; split; [exact X2|]; rewrite ten_dec; reflexivity.
  - apply andb_false_iff in L; destruct L as [L|L]; [left; apply Z.ltb_ge; exact L|right; apply Z.ltb_ge; exact L].
Qed.
Lemma string_exact : forall limit t p, from_string limit t = Ret p <->
  exists z ds, reads_as t z ds /\ p = mk_pylong z /\ (limit <= 0 \/ zlen ds <= limit).
Proof.
  intros limit t p; split; [apply string_ret|]; intros (z & ds & R & -> & L); rewrite (reads_scan t z ds limit R).
  replace ((0 <? limit) && (limit <? zlen ds)) with false; [reflexivity|]; symmetry; apply andb_false_iff; destruct L as [L|L]; [left|right]; apply Z.ltb_ge; exact L.
Qed.
Lemma string_else : forall limit t, (exists p, from_string limit t = Ret p) \/ from_string limit t = Raise ValueError.
Proof.
  intros limit t; unfold from_string; destruct (sign_of (skip_space t)) as [neg t1]; destruct (scan true t1 []) as [[ds rest]|]; [|right; reflexivity].
  destruct ((0 <? limit) && (limit <? zlen ds)); [right; reflexivity|]; destruct (skip_space rest); [left; eexists; reflexivity|right; reflexivity].
Qed.
Lemma numeral_plain : forall ds, Forall (fun d => 0 <= d <= 9) ds -> ds <> [] -> numeral (map (fun d => 48 + d) ds) ds.
Proof.
  induction ds as [|d r IH]; intros F N; [contradiction|]; inversion F; subst; destruct r as [|e r]; [apply num_one; assumption|].
  cbn [map]; apply num_digit; [assumption|]; apply IH; [assumption|discriminate].
Qed.
Lemma decimal_reads : forall z t, decimal_text z t -> exists ds, reads_as t z ds /\ zlen ds = zlen t - (if z <? 0 then 1 else 0).
Proof.
  intros z t (ds & F & N & _ & V & ->); exists ds; split.
  - exists [], (map (fun d => 48 + d) ds), [], (z <? 0), (if z <? 0 then [45] else []); split; [cbn [app]; rewrite app_nil_r; reflexivity|].
    split; [constructor|]; split; [constructor|]; split; [apply numeral_plain; assumption|].
    rewrite V; destruct (Z.ltb_spec z 0); split; auto; lia.
  - unfold zlen; rewrite app_length, map_length; destruct (z <? 0); cbn [length]; lia.
Qed.

(** ** Digits *)
Lemma digits_written : forall z neg count digits, written_as z neg count digits -> from_digits neg count digits = Ret (mk_pylong z).
Proof.
  intros z neg count digits (p & W & V & -> & NG & more & ->); unfold from_digits.
  pose proof (pl_wf_canonical p W) as C; rewrite V in C; destruct (Z.eqb_spec (zlen (pl_digits p)) 0) as [E|E].
  - assert (pl_digits p = []) as D by (unfold zlen in E; destruct (pl_digits p); [reflexivity|cbn in E; lia]).
    assert (z = 0) as ->; [|reflexivity]; rewrite <- V; unfold pl_val; rewrite D; cbn; destruct (pl_neg p); reflexivity.
  - replace ((zlen (pl_digits p) <? 0) || (zlen (pl_digits p ++ more) <? zlen (pl_digits p))) with false.
    2:{ symmetry; apply orb_false_iff; unfold zlen; rewrite app_length; split; apply Z.ltb_ge; lia. }
    unfold zlen; rewrite Nat2Z.id, firstn_app, Nat.sub_diag, firstn_all; cbn [firstn]; rewrite app_nil_r; f_equal.
    rewrite <- C; destruct p as [pn pd]; cbn [pl_digits pl_neg] in *; f_equal.
    assert (z <> 0) as NZ.
    { intro Z0; subst z; rewrite Z0 in C; injection C as -> ->; apply E; reflexivity. }
    rewrite (NG NZ); injection C as -> ->; reflexivity.
Qed.
Lemma digits_exact : forall neg count digits, 0 <= count <= zlen digits -> Forall (fun d => 0 <= d < PyLong_BASE) digits ->
  exists p, from_digits neg count digits = Ret p /\ pl_val p = (if neg then - digits_val (firstn (Z.to_nat count) digits) else digits_val (firstn (Z.to_nat count) digits)) /\
    (pl_wf p <-> count = 0 \/ nth (Z.to_nat (count - 1)) digits 0 <> 0).
Proof.
  intros neg count digits C F; unfold from_digits; destruct (Z.eqb_spec count 0) as [->|NZ].
  - exists (mk_pylong 0); split; [reflexivity|]; split; [cbn; destruct neg; reflexivity|]; split; [left; reflexivity|intros _; apply mk_pylong_wf].
  - replace ((count <? 0) || (zlen digits <? count)) with false by (symmetry; apply orb_false_iff; split; apply Z.ltb_ge; lia).
    eexists; split; [reflexivity|]; split; [reflexivity|].
    assert (L : (Z.to_nat (count - 1) < length digits)%nat) by (unfold zlen in C; lia).
    assert (SP : firstn (Z.to_nat count) digits = firstn (Z.to_nat (count - 1)) digits ++ [nth (Z.to_nat (count - 1)) digits 0]).
    { replace (Z.to_nat count) with (S (Z.to_nat (count - 1))) by lia; revert L; generalize (Z.to_nat (count - 1)); clear; intro n; revert n.
      induction digits as [|d r IH]; intros n L; [cbn in L; lia|]; destruct n as [|n]; [reflexivity|].
      cbn [length] in L; specialize (IH n ltac:(lia)); change (d :: firstn (S n) r = d :: (firstn n r ++ [nth n r 0])); f_equal; exact IH. }
    unfold pl_wf; cbn [pl_digits pl_neg]; split.
    + intros (_ & T & _); right; apply (T (firstn (Z.to_nat (count - 1)) digits)); exact SP.
    + intros [X|X]; [contradiction|]; split; [|split].
      * apply Forall_forall; intros x I1; rewrite Forall_forall in F; apply F; rewrite <- (firstn_skipn (Z.to_nat count) digits); apply in_or_app; left; exact I1.
      * intros l d E; rewrite SP in E; apply app_inj_tail in E; destruct E as [_ <-]; exact X.
      * rewrite SP; intro E; destruct (firstn (Z.to_nat (count - 1)) digits); discriminate.
Qed.
Lemma digits_short : forall neg count digits, zlen digits < count -> from_digits neg count digits = Undef OutOfBounds.
Proof.
  intros neg count digits L; unfold from_digits; assert (0 <= zlen digits) by (unfold zlen; lia).
  destruct (Z.eqb_spec count 0); [lia|]; replace (zlen digits <? count) with true by (symmetry; apply Z.ltb_lt; exact L); rewrite orb_true_r; reflexivity.
Qed.
Lemma constant : forall py312 limit z t neg count digits, decimal_text z t -> written_as z neg count digits ->
  limit <= 0 \/ zlen t - (if z <? 0 then 1 else 0) <= limit -> PyFast_FromDigits py312 limit t neg count digits = Ret (mk_pylong z).
Proof.
  intros py312 limit z t neg count digits D W L; unfold PyFast_FromDigits; destruct py312; [apply digits_written; exact W|].
  destruct (decimal_reads z t D) as (ds & R & E); apply string_exact; exists z, ds; rewrite E; auto.
Qed.
Lemma constant_long : forall limit z t neg count digits, decimal_text z t -> 0 < limit < zlen t - (if z <? 0 then 1 else 0) ->
  PyFast_FromDigits false limit t neg count digits = Raise ValueError.
Proof.
  intros limit z t neg count digits D L; unfold PyFast_FromDigits; destruct (decimal_reads z t D) as (ds & R & E); rewrite (reads_scan t z ds limit R), E.
  replace ((0 <? limit) && (limit <? zlen t - (if z <? 0 then 1 else 0))) with true; [reflexivity|]; symmetry; apply andb_true_iff; split; apply Z.ltb_lt; lia.
Qed.

(** ** Iteration *)
Lemma get_iter_same : forall o, builtin_slots o -> PyFast_GetIter o = object_get_iter o.
Proof.
  intros [k it sq] B; unfold PyFast_GetIter, builtin_slots, slot, object_get_iter in *; cbn [type_is tp_iter sequence] in *.
  destruct k; try reflexivity; destruct B as (m & -> & N); try discriminate; destruct m; try reflexivity; exfalso; eapply N; reflexivity.
Qed.
Lemma next_same : forall s, PyFast_Next s = iter_next s <-> s <> Some (NextFails StopIteration).
Proof. intros [[o| |e]|]; cbn; try (split; congruence); destruct e; split; congruence. Qed.
Lemma next_found : forall s, (forall r e, PyFast_Next s = Ret (r, e) ->
    (forall o, r = Some o <-> s = Some (Item o)) /\ (forall x, e = Some x <-> s = Some (NextFails x))) /\
  (PyFast_Next s = Undef NullDeref <-> s = None) /\ (s <> None -> exists f, PyFast_Next s = Ret f).
Proof.
  intros [[o| |x]|]; cbn; (split; [intros r e E; first [discriminate E|injection E as <- <-]; split; intros; split; congruence|]);
    (split; [split; congruence|]); intro N; try (eexists; reflexivity); congruence.
Qed.
Lemma get_iter_exact : forall o, builtin_slots o -> (forall i, PyFast_GetIter o = Ret i <-> iterates_with o i) /\
  ((exists i, iterates_with o i) \/ exists e, PyFast_GetIter o = Raise e).
Proof.
  intros o B; rewrite (get_iter_same o B); unfold iterates_with, object_get_iter; clear B; destruct o as [k [[i|x|e]|] [[j|y|f]|]]; cbn; split;
    try (intro a; split; [intro E; injection E as <-|intros [E|[E1 E2]]; congruence]; auto);
    try (intro a; split; [discriminate|intros [E|[E1 E2]]; congruence]);
    try (right; eexists; reflexivity); left; eexists; eauto.
Qed.
Lemma get_iter_other : forall o, type_is o = TOther -> PyFast_GetIter o = object_get_iter o.
Proof. intros o E; unfold PyFast_GetIter; rewrite E; reflexivity. Qed.
