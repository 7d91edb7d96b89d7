(** Proofs for C12: from_range on all of Py_ssize_t. *)
From Coq Require Import ZArith List Bool Lia.
From Verif Require Import Base PyLongModel PyLongProofs PyListSpec ListLemmas ArrayListModel ArrayListProofs ArrayListSpec ArrayListMoreModel ArrayListMoreProofs StdListModel StdListProofs LinkedListModel RangeSpec.
Import ListNotations.
Local Open Scope Z_scope.
Local Arguments Z.pow : simpl never.
Local Arguments Z.add : simpl never.
Local Arguments Z.sub : simpl never.
Local Arguments Z.mul : simpl never.

Lemma ssize_in z : ssize z -> in_sbits_b 64 z = true.
Proof. unfold ssize. destruct ssize_consts as [A B]. rewrite A, B. intros H. apply in_sbits_b_spec. unfold in_sbits. change (2 ^ (64 - 1)) with 9223372036854775808. lia. Qed.
Lemma ssize_out z : ~ ssize z -> in_sbits_b 64 z = false.
Proof.
  intros H. destruct (in_sbits_b 64 z) eqn:E; [|reflexivity]. exfalso. apply H. apply in_sbits_b_spec in E. unfold in_sbits in E. change (2 ^ (64 - 1)) with 9223372036854775808 in E.
  unfold ssize. destruct ssize_consts as [A B]. rewrite A, B. lia.
Qed.
Lemma ssz_out z : ~ ssize z -> ssz z = Undef SignedOverflow.
Proof. intros H. unfold ssz. rewrite (ssize_out _ H). reflexivity. Qed.
Lemma ssz_in z : ssize z -> ssz z = Ret z.
Proof. intros H. unfold ssz. rewrite (ssize_in _ H). reflexivity. Qed.
Lemma eval_range_3 start stop step : ssize start -> ssize stop -> ssize step -> stop <> SSIZE_MAX -> step <> SSIZE_MAX -> step <> 0 ->
  eval_range (PInt start) (Some (PInt stop)) (Some (PInt step)) = Ret (start, stop, step).
Proof.
  intros H1 H2 H3 N2 N3 N. unfold eval_range, parse_n, as_long. rewrite (ssize_in _ H1), (ssize_in _ H2), (ssize_in _ H3). cbn [obind].
  destruct (Z.eqb_spec stop SSIZE_MAX); [contradiction|]. destruct (Z.eqb_spec step SSIZE_MAX); [contradiction|].
  destruct (Z.eqb_spec step 0); [contradiction|]. reflexivity.
Qed.
Lemma fill_over k step n : 0 < step -> forall cur, ssize cur -> SSIZE_MAX < cur + Z.of_nat n * step -> (0 < n)%nat -> fill_range k n cur step = Undef SignedOverflow.
Proof.
  intros P. induction n as [|n IH]; intros cur C H N; [lia|]. cbn [fill_range]. destruct (Z.le_gt_cases (cur + step) SSIZE_MAX) as [L|G].
  - rewrite ssz_in by (unfold ssize in *; lia). cbn [obind]. rewrite IH; [reflexivity|unfold ssize in *; lia|lia|]. destruct n; [lia|lia].
  - rewrite ssz_out by (unfold ssize; lia). reflexivity.
Qed.

Section Args.
Context (k : kind) (start stop step : Z).
Context (H1 : ssize start) (H2 : ssize stop) (H3 : ssize step) (N2 : stop <> SSIZE_MAX) (N3 : step <> SSIZE_MAX) (N : step <> 0).
Let r := from_range k (PInt start) (Some (PInt stop)) (Some (PInt step)).

Lemma range_up : 0 < step -> start < stop -> let n := (stop - start + step - 1) / step in
  start + (n - 1) * step < stop <= start + n * step /\ 0 < n.
Proof.
  intros P L. cbv zeta. pose proof (Z.div_mod (stop - start + step - 1) step ltac:(lia)) as DM. pose proof (Z.mod_pos_bound (stop - start + step - 1) step ltac:(lia)) as MB.
  set (n := (stop - start + step - 1) / step) in *. nia.
Qed.
Lemma over_undef : overflows start stop step -> r = Undef SignedOverflow.
Proof.
  intros O. unfold r, from_range. rewrite eval_range_3 by assumption. cbn [obind]. destruct ssize_consts as [EA EB]. destruct O as [(P & L & O)|(P & L & O)].
  - destruct (Z.ltb_spec 0 step); [|lia]. destruct (Z.leb_spec stop start); [lia|].
    destruct (Z.le_gt_cases (stop - start) SSIZE_MAX) as [Q|Q]; [|rewrite ssz_out by (unfold ssize; lia); reflexivity].
    rewrite ssz_in by (unfold ssize in *; rewrite EA, EB in *; lia). cbn [obind].
    destruct (Z.le_gt_cases (stop - start + step) SSIZE_MAX) as [Q2|Q2]; [|rewrite ssz_out by (unfold ssize; lia); reflexivity].
    rewrite !ssz_in by (unfold ssize in *; rewrite EA, EB in *; lia). cbn [obind]. rewrite ssz_in by (unfold ssize in *; rewrite EA, EB in *; lia). cbn [obind].
    destruct O as [O|(m & O1 & O2)]; [lia|]. destruct (range_up P L) as [R0 Rn]. rewrite Z.quot_div_nonneg by lia. set (n := (stop - start + step - 1) / step) in *.
    assert (m = n) by nia. subst m. rewrite (fill_over k step (Z.to_nat n) P start H1); [reflexivity| |lia]. rewrite Z2Nat.id by lia. lia.
  - destruct (Z.ltb_spec 0 step); [lia|]. destruct (Z.leb_spec start stop); [lia|].
    destruct (Z.le_gt_cases (start - stop) SSIZE_MAX) as [Q|Q]; [|rewrite ssz_out by (unfold ssize; lia); reflexivity].
    rewrite ssz_in by (unfold ssize in *; rewrite EA, EB in *; lia). cbn [obind]. destruct O as [O|O]; [lia|]. rewrite ssz_out by (unfold ssize; rewrite EA, EB in *; lia). reflexivity.
Qed.
Lemma up_exact : 0 < step -> ~ overflows start stop step ->
  exists R L, r = Ret (VNewList L) /\ is_range start stop step R /\ Forall2 (reduced (bits k)) R L.
Proof.
  intros P O. unfold r, from_range. rewrite eval_range_3 by assumption. cbn [obind]. destruct (Z.ltb_spec 0 step); [|lia]. destruct ssize_consts as [EA EB].
  destruct (Z.leb_spec stop start) as [Le|Gt].
  - exists [], []. split; [reflexivity|]. split; [|constructor].
    apply (range_list start stop step 0). intros i Hi. destruct (Z.ltb_spec 0 step); [|lia]. nia.
  - destruct (range_up P Gt) as [R0 Rn]. set (q := (stop - start + step - 1) / step) in *.
    assert (O1 : stop - start + step <= SSIZE_MAX) by (apply Z.nlt_ge; intros Q; apply O; left; auto).
    assert (O2 : start + q * step <= SSIZE_MAX) by (apply Z.nlt_ge; intros Q; apply O; left; split; [|split]; auto; right; exists q; auto).
    unfold ssize in *. rewrite EA, EB in *.
    rewrite ssz_ok by lia. cbn [obind]. rewrite ssz_ok by lia. cbn [obind]. rewrite ssz_ok by lia. cbn [obind].
    rewrite Z.quot_div_nonneg by lia. fold q. rewrite fill_range_ok.
    + cbn [obind]. exists (map (fun i => start + step * Z.of_nat i) (seq 0 (Z.to_nat q))). eexists. split; [reflexivity|].
      split; [|apply forall2_reduced].
      apply range_list. intros i Hi. destruct (Z.ltb_spec 0 step); [|lia]. rewrite Z2Nat.id by lia. nia.
    + intros j Hj. rewrite Z2Nat.id in Hj by lia. rewrite EA, EB. nia.
Qed.
Lemma down_exact : step < 0 -> ~ overflows start stop step ->
  exists R L, r = Ret (VNewList L) /\ is_range start stop step R /\
    (start <= stop \/ (start - stop) mod (- step) = 0 -> Forall2 (reduced (bits k)) R L) /\
    (stop < start -> (start - stop) mod (- step) <> 0 -> R <> [] /\ Forall2 (reduced (bits k)) (removelast R) L).
Proof.
  intros P O. unfold r, from_range. rewrite eval_range_3 by assumption. cbn [obind]. destruct (Z.ltb_spec 0 step); [lia|]. destruct ssize_consts as [EA EB].
  destruct (Z.leb_spec start stop) as [Le|Gt].
  - exists [], []. split; [reflexivity|]. split; [|split; [constructor|lia]].
    apply (range_list start stop step 0). intros i Hi. destruct (Z.ltb_spec 0 step); [lia|]. nia.
  - assert (O1 : start - stop <= SSIZE_MAX) by (apply Z.nlt_ge; intros Q; apply O; right; auto).
    assert (O2 : step <> SSIZE_MIN) by (intros Q; apply O; right; auto).
    unfold ssize in *. rewrite EA, EB in *.
    rewrite ssz_ok by lia. cbn [obind]. rewrite ssz_ok by lia. cbn [obind].
    rewrite Z.quot_div_nonneg by lia. set (q := (start - stop) / - step).
    pose proof (Z.div_mod (start - stop) (- step) ltac:(lia)) as DM.
    pose proof (Z.mod_pos_bound (start - stop) (- step) ltac:(lia)) as MB. fold q in DM.
    assert (Q0 : 0 <= q) by (apply Z.div_pos; lia).
    rewrite fill_range_ok by (intros j Hj; rewrite Z2Nat.id in Hj by lia; rewrite EA, EB; nia).
    cbn [obind]. destruct (Z.eq_dec ((start - stop) mod - step) 0) as [M|M].
    + exists (map (fun i => start + step * Z.of_nat i) (seq 0 (Z.to_nat q))). eexists. split; [reflexivity|].
      split; [|split; [intros _; apply forall2_reduced|contradiction]].
      apply range_list. intros i Hi. destruct (Z.ltb_spec 0 step); [lia|]. rewrite Z2Nat.id by lia. nia.
    + exists (map (fun i => start + step * Z.of_nat i) (seq 0 (S (Z.to_nat q)))). eexists. split; [reflexivity|].
      split; [|split; [intros [A|A]; [lia|contradiction]|intros _ _; split; [discriminate|rewrite removelast_seq_map; apply forall2_reduced]]].
      apply range_list. intros i Hi. destruct (Z.ltb_spec 0 step); [lia|]. rewrite Nat2Z.inj_succ, Z2Nat.id by lia. nia.
Qed.
Lemma undef_exact : (exists u, r = Undef u) <-> overflows start stop step.
Proof.
  split; [|intros O; rewrite (over_undef O); eauto]. intros [u E].
  assert (D : overflows start stop step \/ ~ overflows start stop step).
  { unfold overflows. destruct (Z.lt_trichotomy step 0) as [P|[P|P]]; [|contradiction|].
    - destruct (Z.lt_ge_cases stop start); [|right; intros [Q|Q]; lia]. destruct (Z.lt_ge_cases SSIZE_MAX (start - stop)); [left; auto|]. destruct (Z.eq_dec step SSIZE_MIN); [left; auto|right; intros [Q|Q]; lia].
    - destruct (Z.lt_ge_cases start stop) as [L|L]; [|right; intros [Q|Q]; lia]. destruct (range_up P L) as [R0 Rn]. set (n := (stop - start + step - 1) / step) in *.
      destruct (Z.lt_ge_cases SSIZE_MAX (stop - start + step)); [left; auto|]. destruct (Z.lt_ge_cases SSIZE_MAX (start + n * step)).
      + left. left. split; [|split]; auto. right. exists n. auto.
      + right. intros [(_ & _ & [Q|(m & Q1 & Q2)])|Q]; [lia| |lia]. assert (m = n) by nia. subst m. lia. }
  destruct D as [|O]; [assumption|exfalso]. destruct (Z.lt_trichotomy step 0) as [P|[P|P]]; [|contradiction|].
  - destruct (down_exact P O) as (R & L & E' & _). congruence.
  - destruct (up_exact P O) as (R & L & E' & _). congruence.
Qed.
End Args.

Lemma zero_exact k start stop : ssize start -> ssize stop -> stop <> SSIZE_MAX -> from_range k (PInt start) (Some (PInt stop)) (Some (PInt 0)) = Raise ValueError.
Proof.
  intros H1 H2 N2. unfold from_range, eval_range, parse_n, as_long. rewrite (ssize_in _ H1), (ssize_in _ H2). cbn [obind].
  change (in_sbits_b 64 0) with true. cbv iota. cbn [obind]. destruct (Z.eqb_spec stop SSIZE_MAX); [contradiction|]. change (0 =? SSIZE_MAX) with false. reflexivity.
Qed.
Lemma short_exact k start stop : ssize start -> ssize stop -> stop <> SSIZE_MAX ->
  from_range k (PInt start) (Some (PInt stop)) None = from_range k (PInt start) (Some (PInt stop)) (Some (PInt 1)) /\
  from_range k (PInt stop) None None = from_range k (PInt 0) (Some (PInt stop)) (Some (PInt 1)).
Proof.
  intros H1 H2 N2. unfold from_range, eval_range, parse_n, as_long. rewrite (ssize_in _ H1), (ssize_in _ H2).
  change (in_sbits_b 64 1) with true. change (in_sbits_b 64 0) with true. cbv iota. cbn [obind].
  destruct (Z.eqb_spec stop SSIZE_MAX); [contradiction|]. change (1 =? SSIZE_MAX) with false. change (1 =? 0) with false. rewrite Z.eqb_refl. auto.
Qed.
Lemma refused k a1 a2 a3 : (forall x, In x (a1 :: match a2 with Some y => [y] | None => [] end ++ match a3 with Some y => [y] | None => [] end) -> exists z, x = PInt z) ->
  Exists (fun x => exists z, x = PInt z /\ ~ ssize z) (a1 :: match a2 with Some y => [y] | None => [] end ++ match a3 with Some y => [y] | None => [] end) ->
  from_range k a1 a2 a3 = Raise OverflowError.
Proof.
  intros A E. unfold from_range, eval_range, parse_n. destruct (A a1 ltac:(left; reflexivity)) as [z1 ->]. cbn [as_long].
  destruct (in_sbits_b 64 z1) eqn:E1; [|reflexivity]. cbn [obind].
  assert (K : forall z, in_sbits_b 64 z = true -> ~ ssize z -> False) by (intros z Q H; rewrite (ssize_out _ H) in Q; discriminate).
  destruct a2 as [x2|].
  - destruct (A x2 ltac:(right; left; reflexivity)) as [z2 ->]. cbn [as_long]. destruct (in_sbits_b 64 z2) eqn:E2; [|reflexivity]. cbn [obind]. destruct a3 as [x3|].
    + destruct (A x3 ltac:(right; right; left; reflexivity)) as [z3 ->]. cbn [as_long]. destruct (in_sbits_b 64 z3) eqn:E3; [|reflexivity]. exfalso.
      inversion E as [? ? [z [Q H]]|? ? E']; subst; [injection Q as <-; eauto|]. inversion E' as [? ? [z [Q H]]|? ? E'']; subst; [injection Q as <-; eauto|].
      inversion E'' as [? ? [z [Q H]]|? ? E3']; subst; [injection Q as <-; eauto|inversion E3'].
    + exfalso. inversion E as [? ? [z [Q H]]|? ? E']; subst; [injection Q as <-; eauto|]. inversion E' as [? ? [z [Q H]]|? ? E'']; subst; [injection Q as <-; eauto|inversion E''].
  - destruct a3 as [x3|].
    + cbn [obind]. destruct (A x3 ltac:(right; left; reflexivity)) as [z3 ->]. cbn [as_long]. destruct (in_sbits_b 64 z3) eqn:E3; [|reflexivity]. exfalso.
      inversion E as [? ? [z [Q H]]|? ? E']; subst; [injection Q as <-; eauto|]. inversion E' as [? ? [z [Q H]]|? ? E'']; subst; [injection Q as <-; eauto|inversion E''].
    + exfalso. inversion E as [? ? [z [Q H]]|? ? E']; subst; [injection Q as <-; eauto|inversion E'].
Qed.
(** No error is left pending, and the value is a new list. *)
Definition plain {A} (o : outcome A) : Prop := match o with RetPending _ _ => False | _ => True end.
Definition fresh_list (o : outcome val) : Prop := match o with Ret (VNewList _) | Raise _ | Undef _ => True | _ => False end.
Lemma plain_bind {A B} (o : outcome A) (f : A -> outcome B) : plain o -> (forall a, plain (f a)) -> plain (obind o f).
Proof. destruct o; cbn; auto. contradiction. Qed.
Lemma fresh_bind {A} (o : outcome A) f : plain o -> (forall a, fresh_list (f a)) -> fresh_list (obind o f).
Proof. destruct o; cbn; auto. contradiction. Qed.
Lemma plain_ssz z : plain (ssz z).
Proof. unfold ssz. destruct (in_sbits_b 64 z); exact I. Qed.
Lemma plain_fill k step n : forall c, plain (fill_range k n c step).
Proof. induction n as [|n IH]; intros c; cbn [fill_range]; [exact I|]. apply plain_bind; [apply plain_ssz|]. intros a. apply plain_bind; [apply IH|]. intros b. exact I. Qed.
Lemma plain_arg a : plain (as_long a).
Proof. destruct a as [z|]; cbn; [destruct (in_sbits_b 64 z)|]; exact I. Qed.
Lemma plain_eval a1 a2 a3 : plain (eval_range a1 a2 a3).
Proof.
  unfold eval_range. apply plain_bind; [apply plain_arg|]. intros x1. apply plain_bind; [destruct a2; [apply plain_arg|exact I]|]. intros x2.
  apply plain_bind; [destruct a3; [apply plain_arg|exact I]|]. intros x3. destruct (x2 =? SSIZE_MAX), (x3 =? SSIZE_MAX), (x3 =? 0); exact I.
Qed.
Lemma fresh_range k a1 a2 a3 : fresh_list (from_range k a1 a2 a3).
Proof.
  unfold from_range. apply fresh_bind; [apply plain_eval|]. intros [[p q] t].
  destruct (0 <? t); [destruct (q <=? p)|destruct (p <=? q)]; try exact I;
    repeat (apply fresh_bind; [first [apply plain_ssz|apply plain_fill]|intros ?]); exact I.
Qed.
(** IntLinkedList: the same values. *)
Lemma linked_range a1 a2 a3 : match from_range KInt a1 a2 a3 with
  | Ret (VNewList s) => exists l, lfrom_range a1 a2 a3 = Ret l /\ wf (lst l) /\ values (lst l) = s
  | Ret _ => False
  | Raise e => lfrom_range a1 a2 a3 = Raise e
  | RetPending _ _ => False
  | Undef u => lfrom_range a1 a2 a3 = Undef u
  end.
Proof.
  pose proof (fresh_range KInt a1 a2 a3) as G. unfold lfrom_range. destruct (from_range KInt a1 a2 a3) as [v|e|v e|u]; cbn [obind fresh_list] in *; auto.
  destruct v; try contradiction. eexists. split; [reflexivity|]. cbn [lst new_list]. apply copy_of_ok.
Qed.
