From Coq Require Import ZArith List Bool Lia Sorted.
From Verif Require Import Base PyLongModel PyLongProofs MemSpec MemModel MemProofs QReverseModel QReverseProofs
  PyListSpec ListLemmas ArrayListModel.
Import ListNotations.
Local Open Scope Z_scope.

Local Arguments Z.mul : simpl never.
Local Arguments Z.add : simpl never.
Local Arguments Z.sub : simpl never.
Local Arguments Z.of_nat : simpl never.
Local Arguments Z.to_nat : simpl never.
Local Arguments Z.max : simpl never.
Local Arguments Z.min : simpl never.
Local Arguments Z.ltb : simpl never.
Local Arguments Z.leb : simpl never.
Local Arguments Z.eqb : simpl never.
Local Arguments Z.pow : simpl never.

Definition in_range (k : kind) (v : Z) : Prop := in_sbits (bits k) v.

Lemma bits_ge k : 1 <= bits k.
Proof. destruct k; cbn; lia. Qed.

Lemma in_range_64 k v : in_range k v -> in_sbits 64 v.
Proof. unfold in_range, in_sbits. destruct k; cbn [bits]; lia. Qed.

Lemma as_elem_ok k v : in_range k v -> as_elem k (PInt v) = Ret v.
Proof.
  intros H. unfold as_elem, as_long. rewrite (proj2 (in_sbits_b_spec 64 v)) by (eapply in_range_64; eauto).
  cbn [obind]. rewrite wrap_id; [reflexivity|apply bits_ge|exact H].
Qed.

Lemma as_elem_int k z : as_elem k (PInt z) = if in_sbits_b 64 z then Ret (wrap (bits k) z) else Raise OverflowError.
Proof. unfold as_elem, as_long. destruct (in_sbits_b 64 z); reflexivity. Qed.

Lemma parse_elem_ok k v : in_range k v -> parse_elem k (PInt v) = Ret v.
Proof.
  intros H. unfold parse_elem, as_long. rewrite (proj2 (in_sbits_b_spec 64 v)) by (eapply in_range_64; eauto).
  cbn [obind]. rewrite (proj2 (in_sbits_b_spec _ v)) by exact H. reflexivity.
Qed.

(** ** extend *)
Lemma extend_items_ok k vs fin s : Forall (in_range k) vs ->
  extend_items k (map PInt vs) fin s =
  (match fin with None => Ret tt | Some e => Raise e end, s ++ vs).
Proof.
  intros F. revert s; induction F as [|v vs Hv F IH]; intros s; cbn [map extend_items].
  - rewrite app_nil_r. destruct fin; reflexivity.
  - rewrite as_elem_ok by assumption. rewrite IH, <- app_assoc. reflexivity.
Qed.

(** ** std::find *)
Lemma std_find_spec s v n pos : 0 <= pos -> pos + Z.of_nat n <= zlen s ->
  exists r, std_find s v n pos = Ret r /\ pos <= r <= pos + Z.of_nat n /\
    (r < pos + Z.of_nat n -> get_default s r = v) /\
    (forall x, pos <= x < r -> get_default s x <> v).
Proof.
  revert pos; induction n as [|n IH]; intros pos H0 Hn; cbn [std_find].
  - exists pos. split; [reflexivity|]. split; [lia|]. split; [lia|]. intros; lia.
  - rewrite znth_default by lia. destruct (Z.eqb_spec (get_default s pos) v) as [E|E].
    + exists pos. split; [reflexivity|]. split; [lia|]. split; [auto|]. intros; lia.
    + destruct (IH (pos + 1)) as (r & -> & R1 & R2 & R3); [lia|lia|].
      exists r. split; [reflexivity|]. split; [lia|]. split; [intros; apply R2; lia|].
      intros x Hx. destruct (Z.eq_dec x pos) as [->|]; [assumption|apply R3; lia].
Qed.

Lemma occurrences_head s v :
  match occurrences s v with
  | [] => forall x, 0 <= x < zlen s -> get_default s x <> v
  | p :: _ => 0 <= p < zlen s /\ get_default s p = v /\ (forall x, 0 <= x < p -> get_default s x <> v)
  end.
Proof.
  unfold occurrences. pose proof (filter_head (fun x => get_default s x =? v) (length s)) as H.
  fold (zlen s) in H. destruct (filter _ _) as [|p r].
  - intros x Hx. specialize (H x Hx). cbn beta in H. apply Z.eqb_neq. exact H.
  - destruct H as (A & B & C). apply Z.eqb_eq in B. split; [exact A|split; [exact B|]].
    intros x Hx. apply Z.eqb_neq. apply C. exact Hx.
Qed.

Lemma std_find_all s v :
  std_find s v (length s) 0 =
  Ret (match occurrences s v with [] => zlen s | p :: _ => p end).
Proof.
  destruct (std_find_spec s v (length s) 0) as (r & -> & R1 & R2 & R3); [lia|unfold zlen; lia|].
  f_equal. pose proof (occurrences_head s v) as H. fold (zlen s) in *.
  destruct (occurrences s v) as [|p l].
  - destruct (Z.eq_dec r (zlen s)); [assumption|]. exfalso. apply (H r); [lia|]. apply R2. lia.
  - destruct H as (A & B & C). destruct (Z.lt_trichotomy r p) as [L|[L|L]]; [|assumption|].
    + exfalso. apply (C r); [lia|]. apply R2. lia.
    + exfalso. apply (R3 p); [lia|assumption].
Qed.

Lemma std_count_occ s v : std_count s v = Z.of_nat (length (occurrences s v)).
Proof.
  unfold occurrences, positions. induction s as [|x s IH]; [reflexivity|].
  cbn [std_count length seq map filter]. change (get_default (x :: s) (Z.of_nat 0)) with x.
  assert (E : filter (fun y => get_default (x :: s) y =? v) (map Z.of_nat (seq 1 (length s)))
              = map (fun y => y + 1) (filter (fun y => get_default s y =? v) (map Z.of_nat (seq 0 (length s))))).
  { rewrite <- seq_shift, map_map. clear IH. generalize (length s). intros n. generalize 0%nat.
    induction n as [|n IH]; intros a; [reflexivity|]. cbn [seq map filter].
    assert (G : get_default (x :: s) (Z.of_nat (S a)) = get_default s (Z.of_nat a)).
    { unfold get_default. rewrite !Nat2Z.id. reflexivity. }
    rewrite G. destruct (get_default s (Z.of_nat a) =? v); cbn [map].
    - rewrite IH. f_equal. lia.
    - apply IH. }
  rewrite E, IH. destruct (x =? v); cbn [length]; rewrite map_length; lia.
Qed.

(** ** Slices *)
Lemma clip_cases z : (z < SSIZE_MIN /\ clip z = SSIZE_MIN) \/ (SSIZE_MAX < z /\ clip z = SSIZE_MAX)
  \/ (SSIZE_MIN <= z <= SSIZE_MAX /\ clip z = z).
Proof.
  unfold clip. destruct (Z.ltb_spec z SSIZE_MIN); [auto|]. destruct (Z.ltb_spec SSIZE_MAX z); auto.
Qed.

Lemma ssize_consts : SSIZE_MAX = 9223372036854775807 /\ SSIZE_MIN = -9223372036854775808.
Proof. split; reflexivity. Qed.

Lemma ssz_ok z : SSIZE_MIN <= z <= SSIZE_MAX -> ssz z = Ret z.
Proof.
  intros H. unfold ssz. rewrite (proj2 (in_sbits_b_spec 64 z)); [reflexivity|].
  unfold in_sbits. destruct ssize_consts as [A B]. rewrite A, B in H. lia.
Qed.

Lemma slice_read_ok cfg k s step start n i :
  zlen s <= SSIZE_MAX -> 0 <= i ->
  (forall j, 0 <= j < i + Z.of_nat n -> 0 <= start + j * step < zlen s) ->
  0 <= start <= SSIZE_MAX ->
  slice_read cfg k s n i start step =
  Ret (map (fun j => from_elem cfg k (get_default s (start + (i + Z.of_nat j) * step))) (seq 0 n)).
Proof.
  intros Hl. revert i; induction n as [|n IH]; intros i Hi Hb Hs; cbn [slice_read]; [reflexivity|].
  pose proof (Hb i ltac:(lia)) as Bi.
  destruct ssize_consts as [EA EB].
  rewrite ssz_ok by (rewrite EA, EB in *; lia). cbn [obind].
  rewrite ssz_ok by (rewrite EA, EB in *; lia). cbn [obind].
  rewrite znth_default by lia. cbn [or_ub obind].
  rewrite IH; [|lia|intros j Hj; apply Hb; lia|assumption]. cbn [obind seq map].
  do 2 f_equal. { do 3 f_equal. lia. }
  rewrite <- seq_shift, map_map. apply map_ext. intros a. do 3 f_equal. lia.
Qed.

Lemma affine_ss_lt lo k n : 0 < k -> StronglySorted Z.lt (map (fun j => lo + Z.of_nat j * k) (seq 0 n)).
Proof.
  intros Hk. generalize 0%nat. induction n; intros a; cbn; constructor; auto.
  rewrite Forall_forall. intros x Hx. apply in_map_iff in Hx. destruct Hx as (y & <- & H).
  apply in_seq in H. nia.
Qed.
Lemma affine_ss_gt lo k n : k < 0 -> StronglySorted Z.gt (map (fun j => lo + Z.of_nat j * k) (seq 0 n)).
Proof.
  intros Hk. generalize 0%nat. induction n; intros a; cbn; constructor; auto.
  rewrite Forall_forall. intros x Hx. apply in_map_iff in Hx. destruct Hx as (y & <- & H).
  apply in_seq in H. nia.
Qed.

Lemma in_affine lo k n x :
  In x (map (fun j => lo + Z.of_nat j * k) (seq 0 n)) <-> exists j, 0 <= j < Z.of_nat n /\ x = lo + j * k.
Proof.
  rewrite in_map_iff. split.
  - intros (j & <- & H). apply in_seq in H. exists (Z.of_nat j). split; [lia|reflexivity].
  - intros (j & H & ->). exists (Z.to_nat j). split; [rewrite Z2Nat.id by lia; reflexivity|]. apply in_seq. lia.
Qed.

Lemma mod_small_iff d k : 0 <= d < k -> (d mod k = 0 <-> d = 0).
Proof. intros H. rewrite Z.mod_small by lia. tauto. Qed.

(** The selected positions as an arithmetic progression: [PySlice_*] computes it. *)
Lemma slice_positions_eq n sl start stop step :
  Z.of_nat n <= SSIZE_MAX ->
  PySlice_Unpack sl = Ret (start, stop, step) ->
  let '(a, b, c) := PySlice_AdjustIndices (Z.of_nat n) start stop step in
  slice_positions n sl = map (fun j => a + Z.of_nat j * step) (seq 0 (Z.to_nat c)) /\
  (forall j, 0 <= j < c -> 0 <= a + j * step < Z.of_nat n) /\ (0 < c -> 0 <= a).
Proof.
  intros Hn U. destruct ssize_consts as [EA EB].
  unfold PySlice_Unpack in U.
  set (st0 := match sl_step sl with None => 1 | Some z => clip z end) in *.
  destruct (Z.eqb_spec st0 0) as [|NZ]; [discriminate|].
  set (st := if st0 <? - SSIZE_MAX then - SSIZE_MAX else st0) in *.
  injection U as U1 U2 U3.
  (* relation between requested and effective step *)
  assert (K : (0 < step_of sl <-> 0 < st) /\ st <> 0 /\
              (step_of sl = st \/ (SSIZE_MAX <= step_of sl /\ SSIZE_MAX <= st) \/ (step_of sl <= - SSIZE_MAX /\ st <= - SSIZE_MAX))).
  { unfold st, step_of. unfold st0 in *. clear U1 U2 U3. destruct (sl_step sl) as [z|].
    - destruct (clip_cases z) as [[A B]|[[A B]|[A B]]]; rewrite B in *;
      destruct (Z.ltb_spec SSIZE_MIN (- SSIZE_MAX)); destruct (Z.ltb_spec SSIZE_MAX (- SSIZE_MAX));
      try destruct (Z.ltb_spec z (- SSIZE_MAX)); rewrite ?EA, ?EB in *; lia.
    - destruct (Z.ltb_spec 1 (- SSIZE_MAX)); rewrite ?EA, ?EB in *; lia. }
  clearbody st. rewrite U3 in *. clear U3. clear NZ st0. clear st.
  destruct K as (Ks & Knz & Kc).
  unfold PySlice_AdjustIndices. set (a := adjust1 (Z.of_nat n) start step). set (b := adjust1 (Z.of_nat n) stop step).
  set (len := Z.of_nat n) in *.
  assert (L0 : 0 <= len) by (unfold len; lia).
  destruct (Z.ltb_spec step 0) as [Neg|Pos].
  - (* negative step *)
    set (c := if b <? a then (a - b - 1) / - step + 1 else 0).
    set (i := match sl_start sl with None => len - 1 | Some i => Z.min (len - 1) (rel len i) end).
    set (j := match sl_stop sl with None => -1 | Some j => rel len j end).
    assert (Ha : a = Z.max (-1) i).
    { unfold a, adjust1, i, rel. rewrite <- U1. destruct (sl_start sl) as [z|].
      - destruct (clip_cases z) as [[A B]|[[A B]|[A B]]]; rewrite B; rewrite ?EA, ?EB in *;
        repeat match goal with |- context [?x <? ?y] => destruct (Z.ltb_spec x y) | |- context [?x <=? ?y] => destruct (Z.leb_spec x y) end; lia.
      - destruct (Z.ltb_spec step 0); [|lia]. rewrite ?EA in *.
        repeat match goal with |- context [?x <? ?y] => destruct (Z.ltb_spec x y) | |- context [?x <=? ?y] => destruct (Z.leb_spec x y) end; lia. }
    assert (Hb : b = Z.max (-1) (Z.min (len - 1) j)).
    { unfold b, adjust1, j, rel. rewrite <- U2. destruct (sl_stop sl) as [z|].
      - destruct (clip_cases z) as [[A B]|[[A B]|[A B]]]; rewrite B; rewrite ?EA, ?EB in *;
        repeat match goal with |- context [?x <? ?y] => destruct (Z.ltb_spec x y) | |- context [?x <=? ?y] => destruct (Z.leb_spec x y) end; lia.
      - destruct (Z.ltb_spec step 0); [|lia]. rewrite ?EB in *.
        repeat match goal with |- context [?x <? ?y] => destruct (Z.ltb_spec x y) | |- context [?x <=? ?y] => destruct (Z.leb_spec x y) end; lia. }
    assert (Hi : i <= len - 1) by (unfold i; destruct (sl_start sl); lia).
    assert (SP : slice_positions n sl = filter (fun x => (x <=? i) && (j <? x) && ((i - x) mod (- step_of sl) =? 0)) (rev (positions n))).
    { unfold slice_positions. destruct (Z.ltb_spec 0 (step_of sl)); [lia|]. reflexivity. }
    clearbody a b i j.
    assert (Bd : forall q, 0 <= q < c -> b < a + q * step <= a).
    { intros q Hq. unfold c in Hq. destruct (Z.ltb_spec b a); [|lia].
      assert (q <= (a - b - 1) / - step) by lia.
      pose proof (Z.mul_div_le (a - b - 1) (- step) ltac:(lia)). nia. }
    split; [|split].
    + rewrite SP.
      apply (ss_unique Z.gt); [intros; lia| | |].
      * apply ss_filter. apply ss_rev. apply positions_ss.
      * apply affine_ss_gt. lia.
      * intros x. rewrite filter_In, <- in_rev, in_positions, in_affine, !andb_true_iff, Z.leb_le, Z.ltb_lt, Z.eqb_eq.
        fold len. split.
        -- intros (Hx & ((X1 & X2) & X3)).
           assert (Eai : a = i) by lia. clear Ha. subst a.
           assert (M : (i - x) mod (- step) = 0).
           { destruct Kc as [<-|[[? ?]|[? ?]]]; [exact X3|lia|].
             rewrite EA in *. rewrite Z.mod_small in * by lia. exact X3. }
           assert (b < x) by lia.
           assert (D : i - x = (- step) * ((i - x) / (- step))) by (pose proof (Z.div_mod (i - x) (- step) ltac:(lia)); lia).
           exists ((i - x) / (- step)). split; [|nia].
           split; [apply Z.div_pos; lia|].
           unfold c. destruct (Z.ltb_spec b i); [|lia].
           rewrite Z2Nat.id by (pose proof (Z.div_pos (i - b - 1) (- step) ltac:(lia) ltac:(lia)); lia).
           pose proof (Z.div_le_mono (i - x) (i - b - 1) (- step) ltac:(lia) ltac:(lia)). lia.
        -- intros (q & Hq & ->).
           assert (Hqc : 0 <= q < c) by (unfold c in *; destruct (Z.ltb_spec b a); [pose proof (Z.div_pos (a - b - 1) (- step) ltac:(lia) ltac:(lia))|]; lia).
           pose proof (Bd q Hqc).
           assert (Eai : a = i) by lia. clear Ha. subst a.
           split; [lia|]. split; [lia|].
           destruct Kc as [->|[[? ?]|[? ?]]]; [|lia|].
           ++ replace (i - (i + q * step)) with (q * - step) by lia. apply Z.mod_mul. lia.
           ++ rewrite EA in *. assert (q = 0) by nia. subst q.
              replace (i - (i + 0 * step)) with 0 by lia. apply Z.mod_0_l. lia.
    + intros q Hq. pose proof (Bd q Hq). lia.
    + intros Hc. pose proof (Bd 0 ltac:(lia)). lia.
  - set (c := if a <? b then (b - a - 1) / step + 1 else 0).
    set (i := match sl_start sl with None => 0 | Some i => Z.max 0 (rel len i) end).
    set (j := match sl_stop sl with None => len | Some j => rel len j end).
    assert (Ha : a = Z.min len i).
    { unfold a, adjust1, i, rel. rewrite <- U1. destruct (sl_start sl) as [z|].
      - destruct (clip_cases z) as [[A B]|[[A B]|[A B]]]; rewrite B; rewrite ?EA, ?EB in *;
        repeat match goal with |- context [?x <? ?y] => destruct (Z.ltb_spec x y) | |- context [?x <=? ?y] => destruct (Z.leb_spec x y) end; lia.
      - destruct (Z.ltb_spec step 0); [lia|].
        repeat match goal with |- context [?x <? ?y] => destruct (Z.ltb_spec x y) | |- context [?x <=? ?y] => destruct (Z.leb_spec x y) end; lia. }
    assert (Hb : b = Z.max 0 (Z.min len j)).
    { unfold b, adjust1, j, rel. rewrite <- U2. destruct (sl_stop sl) as [z|].
      - destruct (clip_cases z) as [[A B]|[[A B]|[A B]]]; rewrite B; rewrite ?EA, ?EB in *;
        repeat match goal with |- context [?x <? ?y] => destruct (Z.ltb_spec x y) | |- context [?x <=? ?y] => destruct (Z.leb_spec x y) end; lia.
      - destruct (Z.ltb_spec step 0); [lia|]. rewrite ?EA in *.
        repeat match goal with |- context [?x <? ?y] => destruct (Z.ltb_spec x y) | |- context [?x <=? ?y] => destruct (Z.leb_spec x y) end; lia. }
    assert (Hi : 0 <= i) by (unfold i; destruct (sl_start sl); lia).
    assert (SP : slice_positions n sl = filter (fun x => (i <=? x) && (x <? j) && ((x - i) mod (step_of sl) =? 0)) (positions n)).
    { unfold slice_positions. destruct (Z.ltb_spec 0 (step_of sl)); [|lia]. reflexivity. }
    clearbody a b i j.
    assert (Bd : forall q, 0 <= q < c -> a <= a + q * step < b).
    { intros q Hq. unfold c in Hq. destruct (Z.ltb_spec a b); [|lia].
      assert (q <= (b - a - 1) / step) by lia.
      pose proof (Z.mul_div_le (b - a - 1) step ltac:(lia)). nia. }
    split; [|split].
    + rewrite SP.
      apply (ss_unique Z.lt); [intros; lia| | |].
      * apply ss_filter. apply positions_ss.
      * apply affine_ss_lt. lia.
      * intros x. rewrite filter_In, in_positions, in_affine, !andb_true_iff, Z.leb_le, Z.ltb_lt, Z.eqb_eq.
        fold len. split.
        -- intros (Hx & ((X1 & X2) & X3)).
           assert (Eai : a = i) by lia. clear Ha. subst a.
           assert (M : (x - i) mod step = 0).
           { destruct Kc as [<-|[[? ?]|[? ?]]]; [exact X3| |lia].
             rewrite EA in *. rewrite Z.mod_small in * by lia. exact X3. }
           assert (x < b) by lia.
           assert (D : x - i = step * ((x - i) / step)) by (pose proof (Z.div_mod (x - i) step ltac:(lia)); lia).
           exists ((x - i) / step). split; [|nia].
           split; [apply Z.div_pos; lia|].
           unfold c. destruct (Z.ltb_spec i b); [|lia].
           rewrite Z2Nat.id by (pose proof (Z.div_pos (b - i - 1) step ltac:(lia) ltac:(lia)); lia).
           pose proof (Z.div_le_mono (x - i) (b - i - 1) step ltac:(lia) ltac:(lia)). lia.
        -- intros (q & Hq & ->).
           assert (Hqc : 0 <= q < c) by (unfold c in *; destruct (Z.ltb_spec a b); [pose proof (Z.div_pos (b - a - 1) step ltac:(lia) ltac:(lia))|]; lia).
           pose proof (Bd q Hqc).
           assert (Eai : a = i) by lia. clear Ha. subst a.
           split; [lia|]. split; [lia|].
           destruct Kc as [->|[[? ?]|[? ?]]]; [| |lia].
           ++ replace (i + q * step - i) with (q * step) by lia. apply Z.mod_mul. lia.
           ++ rewrite EA in *. assert (q = 0) by nia. subst q.
              replace (i + 0 * step - i) with 0 by lia. apply Z.mod_0_l. lia.
    + intros q Hq. pose proof (Bd q Hq). lia.
    + intros Hc. lia.
Qed.

Lemma unpack_cases sl : (step_of sl = 0 /\ PySlice_Unpack sl = Raise ValueError) \/
  (step_of sl <> 0 /\ exists a b c, PySlice_Unpack sl = Ret (a, b, c)).
Proof.
  unfold PySlice_Unpack, step_of. destruct (sl_step sl) as [z|].
  - destruct (clip_cases z) as [[A B]|[[A B]|[A B]]]; rewrite B; destruct ssize_consts as [EA EB]; rewrite ?EA, ?EB in *.
    + right. split; [lia|]. do 3 eexists. reflexivity.
    + right. split; [lia|]. do 3 eexists. reflexivity.
    + destruct (Z.eqb_spec z 0) as [->|]; [left; auto|right; split; [assumption|do 3 eexists; reflexivity]].
  - right. split; [lia|]. do 3 eexists. reflexivity.
Qed.

Lemma getitem_slice_ok cfg k sl s : zlen s <= SSIZE_MAX ->
  getitem_slice cfg k sl s =
  if step_of sl =? 0 then (Raise ValueError, s)
  else (Ret (VPyList (map (from_elem cfg k) (py_getslice s sl))), s).
Proof.
  intros Hl. unfold getitem_slice.
  destruct (unpack_cases sl) as [[E U]|[E (start & stop & step & U)]].
  - rewrite E, U. reflexivity.
  - destruct (Z.eqb_spec (step_of sl) 0); [lia|]. rewrite U. cbn [with_].
    pose proof (slice_positions_eq (length s) sl start stop step Hl U) as P. fold (zlen s) in P.
    destruct (PySlice_AdjustIndices (zlen s) start stop step) as [[a b] c].
    destruct P as (P1 & P2 & P3).
    destruct (Z.leb_spec c 0) as [C|C].
    + replace (Z.to_nat c) with 0%nat in * by lia. cbn [slice_read with_].
      unfold py_getslice. rewrite P1. reflexivity.
    + rewrite slice_read_ok; [|assumption|lia|intros; apply P2; lia|].
      * cbn [with_]. unfold py_getslice. rewrite P1, !map_map. do 3 f_equal.
      * pose proof (P2 0 ltac:(lia)). lia.
Qed.

(** ** Slice assignment *)
Definition elem_val (k : kind) (o : pyobj) : Z :=
  match o with PInt z => wrap (bits k) z | PObj _ => -1 end.
Definition good (o : pyobj) : Prop := exists z, o = PInt z /\ in_sbits 64 z.

Lemma good_as_long o : good o -> exists z, o = PInt z /\ as_long o = Ret z.
Proof.
  intros (z & -> & H). exists z. split; [reflexivity|]. cbn. rewrite (proj2 (in_sbits_b_spec 64 z)) by assumption. reflexivity.
Qed.

Lemma assign_loop_ok k pre its start n a b c :
  Forall good (firstn n its) -> (n <= length its)%nat -> length b = n ->
  zlen a = start + zlen pre ->
  assign_loop k (src_items (pre ++ its)) n (zlen pre) start (a ++ b ++ c)
  = (Ret tt, a ++ map (elem_val k) (firstn n its) ++ c).
Proof.
  revert pre its a b; induction n as [|n IH]; intros pre its a b G Hn Hb Ha.
  - destruct b; [|discriminate]. reflexivity.
  - destruct its as [|o its]; [cbn in Hn; lia|]. destruct b as [|x b]; [discriminate|].
    cbn [firstn] in *. inversion G as [|? ? Go Gr]; subst.
    cbn [assign_loop src_items src_get]. rewrite znth_mid by reflexivity.
    destruct (good_as_long o Go) as (z & Eo & ->). cbn [app].
    rewrite (zset_mid a x (b ++ c)) by lia.
    replace (a ++ wrap (bits k) z :: b ++ c) with ((a ++ [wrap (bits k) z]) ++ b ++ c) by (rewrite <- app_assoc; reflexivity).
    replace (pre ++ o :: its) with ((pre ++ [o]) ++ its) by (rewrite <- app_assoc; reflexivity).
    replace (zlen pre + 1) with (zlen (pre ++ [o])) by (rewrite zlen_app; reflexivity).
    rewrite IH; auto.
    + rewrite <- app_assoc. subst o. reflexivity.
    + cbn in Hn. lia.
    + rewrite !zlen_app, !zlen_cons. unfold zlen at 2 4. cbn [length]. lia.
Qed.

Lemma insert_loop_ok k pre its start n a c :
  Forall good (firstn n its) -> (n <= length its)%nat ->
  zlen a = start + zlen pre ->
  insert_loop k (src_items (pre ++ its)) n (zlen pre) start (a ++ c)
  = (Ret tt, a ++ map (elem_val k) (firstn n its) ++ c).
Proof.
  revert pre its a; induction n as [|n IH]; intros pre its a G Hn Ha.
  - reflexivity.
  - destruct its as [|o its]; [cbn in Hn; lia|].
    cbn [firstn] in *. inversion G as [|? ? Go Gr]; subst.
    cbn [insert_loop src_items src_get]. rewrite znth_mid by reflexivity.
    destruct (good_as_long o Go) as (z & Eo & ->).
    rewrite (zinsert_mid a c) by lia.
    replace (a ++ wrap (bits k) z :: c) with ((a ++ [wrap (bits k) z]) ++ c) by (rewrite <- app_assoc; reflexivity).
    replace (pre ++ o :: its) with ((pre ++ [o]) ++ its) by (rewrite <- app_assoc; reflexivity).
    replace (zlen pre + 1) with (zlen (pre ++ [o])) by (rewrite zlen_app; reflexivity).
    rewrite IH; auto.
    + rewrite <- app_assoc. subst o. reflexivity.
    + cbn in Hn. lia.
    + rewrite !zlen_app, !zlen_cons. unfold zlen at 2 4. cbn [length]. lia.
Qed.

(** Effective bounds of a step-1 slice. *)
Definition lo_of (s : list Z) (sl : slice) : Z :=
  match sl_start sl with None => 0 | Some i => clamp (zlen s) (rel (zlen s) i) end.
Definition hi_of (s : list Z) (sl : slice) : Z :=
  match sl_stop sl with None => zlen s | Some j => clamp (zlen s) (rel (zlen s) j) end.

Lemma lo_hi_bounds s sl : 0 <= lo_of s sl <= zlen s /\ 0 <= hi_of s sl <= zlen s.
Proof.
  pose proof (zlen_nonneg s). unfold lo_of, hi_of, clamp. destruct (sl_start sl), (sl_stop sl); lia.
Qed.

Lemma unpack_step1 s sl : zlen s <= SSIZE_MAX -> step_of sl = 1 ->
  exists start stop, PySlice_Unpack sl = Ret (start, stop, 1) /\
  PySlice_AdjustIndices (zlen s) start stop 1 =
  (lo_of s sl, hi_of s sl, Z.max 0 (hi_of s sl - lo_of s sl)).
Proof.
  intros Hl Hs. destruct ssize_consts as [EA EB]. pose proof (zlen_nonneg s) as L0.
  assert (C1 : clip 1 = 1) by reflexivity.
  assert (S1 : match sl_step sl with None => 1 | Some z => clip z end = 1).
  { unfold step_of in Hs. destruct (sl_step sl) as [z|]; [subst z; exact C1|reflexivity]. }
  unfold PySlice_Unpack. rewrite S1. cbn [Z.eqb].
  change (1 =? 0) with false. change (1 <? - SSIZE_MAX) with false. change (1 <? 0) with false. cbv iota.
  exists (match sl_start sl with None => 0 | Some z => clip z end),
         (match sl_stop sl with None => SSIZE_MAX | Some z => clip z end).
  split; [reflexivity|].
  unfold PySlice_AdjustIndices.
  assert (A : adjust1 (zlen s) match sl_start sl with None => 0 | Some z => clip z end 1 = lo_of s sl).
  { unfold adjust1, lo_of, clamp, rel. change (1 <? 0) with false. cbv iota. destruct (sl_start sl) as [z|].
    - destruct (clip_cases z) as [[A B]|[[A B]|[A B]]]; rewrite B; rewrite ?EA, ?EB in *;
      repeat match goal with |- context [?x <? ?y] => destruct (Z.ltb_spec x y) | |- context [?x <=? ?y] => destruct (Z.leb_spec x y) end; lia.
    - repeat match goal with |- context [?x <? ?y] => destruct (Z.ltb_spec x y) | |- context [?x <=? ?y] => destruct (Z.leb_spec x y) end; lia. }
  assert (B : adjust1 (zlen s) match sl_stop sl with None => SSIZE_MAX | Some z => clip z end 1 = hi_of s sl).
  { unfold adjust1, hi_of, clamp, rel. change (1 <? 0) with false. cbv iota. destruct (sl_stop sl) as [z|].
    - destruct (clip_cases z) as [[A' B]|[[A' B]|[A' B]]]; rewrite B; rewrite ?EA, ?EB in *;
      repeat match goal with |- context [?x <? ?y] => destruct (Z.ltb_spec x y) | |- context [?x <=? ?y] => destruct (Z.leb_spec x y) end; lia.
    - rewrite ?EA in *. repeat match goal with |- context [?x <? ?y] => destruct (Z.ltb_spec x y) | |- context [?x <=? ?y] => destruct (Z.leb_spec x y) end; lia. }
  rewrite A, B. f_equal. change (1 <? 0) with false. cbv iota.
  destruct (Z.ltb_spec (lo_of s sl) (hi_of s sl)); [rewrite Z.div_1_r; lia|lia].
Qed.

(** The replaced region as a split of the list. *)
Lemma slice_split s sl : exists a b c, s = a ++ b ++ c /\ zlen a = lo_of s sl /\
  zlen b = Z.max 0 (hi_of s sl - lo_of s sl) /\
  (forall vs, py_setslice s sl vs = a ++ vs ++ c).
Proof.
  pose proof (lo_hi_bounds s sl) as [B1 B2].
  destruct (zsplit_le s (lo_of s sl)) as (a & r & E & La); [lia|].
  destruct (zsplit_le r (Z.max 0 (hi_of s sl - lo_of s sl))) as (b & c & E2 & Lb).
  { assert (zlen s = zlen a + zlen r) by (rewrite E at 1; apply zlen_app). lia. }
  exists a, b, c. rewrite <- E2. split; [exact E|]. split; [exact La|]. split; [exact Lb|].
  intros vs. unfold py_setslice. fold (zlen s). fold (lo_of s sl). fold (hi_of s sl).
  set (l := lo_of s sl) in *. set (h := hi_of s sl) in *. clearbody l h. subst s.
  rewrite firstn_zlen by (symmetry; exact La).
  do 2 f_equal. subst r. rewrite app_assoc. apply skipn_zlen. rewrite zlen_app. lia.
Qed.

Lemma zlen_to_nat {A} (b : list A) n : zlen b = n -> Z.to_nat n = length b.
Proof. intros <-. unfold zlen. lia. Qed.

Lemma setitem_slice_ok k sl items s : zlen s <= SSIZE_MAX -> step_of sl = 1 -> Forall good items ->
  setitem_slice k sl (AssSeq (src_items items)) s =
  (Ret VNone, py_setslice s sl (map (elem_val k) items)).
Proof.
  intros Hl Hs G. unfold setitem_slice.
  destruct (unpack_step1 s sl Hl Hs) as (start & stop & -> & Adj). cbn [with_]. rewrite Adj.
  destruct (slice_split s sl) as (a & b & c & E & La & Lb & P).
  rewrite P. clear P. change (negb (1 =? 1)) with false. cbv iota. cbn [src_len src_items].
  set (lo := lo_of s sl) in *. set (hi := hi_of s sl) in *. clearbody lo hi.
  set (L := Z.max 0 (hi - lo)) in *. clear Adj Hl.
  pose proof (zlen_nonneg items) as NI. pose proof (zlen_nonneg b) as NB.
  subst s.
  assert (Z0 : zlen (@nil pyobj) = 0) by reflexivity.
  destruct (Z.eqb_spec (zlen items) L) as [EL|NL]; [|destruct (Z.ltb_spec (zlen items) L) as [LT|GT]].
  - rewrite (zlen_to_nat b L Lb).
    pose proof (assign_loop_ok k [] items lo (length b) a b c) as Q. cbn [app] in Q. rewrite Z0 in Q.
    rewrite Q; [|rewrite firstn_all2 by (unfold zlen in *; lia); assumption|unfold zlen in *; lia|reflexivity|lia].
    unfold then_ret. cbn [fst snd obind]. rewrite firstn_all2 by (unfold zlen in *; lia). reflexivity.
  - (* shorter *)
    destruct (zsplit_le b (zlen items)) as (b1 & b2 & Eb & Lb1); [lia|].
    pose proof (assign_loop_ok k [] items lo (length items) a b1 (b2 ++ c)) as Q. cbn [app] in Q. rewrite Z0 in Q.
    rewrite (zlen_to_nat items _ eq_refl). rewrite Eb, <- app_assoc.
    rewrite Q; [|rewrite firstn_all; assumption|lia|unfold zlen in *; lia|lia].
    cbn [fst snd]. rewrite firstn_all. rewrite (app_assoc a), zerase_range_mid.
    + unfold then_ret. cbn [fst snd obind]. rewrite <- app_assoc. reflexivity.
    + rewrite zlen_app, zlen_map. lia.
    + rewrite zlen_app, zlen_map. rewrite Eb, zlen_app in Lb. unfold L in *. lia.
  - (* longer *)
    pose proof (assign_loop_ok k [] items lo (length b) a b c) as Q. cbn [app] in Q. rewrite Z0 in Q.
    rewrite (zlen_to_nat b L Lb).
    assert (GG : Forall good (firstn (length b) items) /\ Forall good (skipn (length b) items)).
    { rewrite <- (firstn_skipn (length b) items) in G. apply Forall_app in G. exact G. }
    rewrite Q; [|apply GG|unfold zlen in *; lia|reflexivity|lia].
    cbn [fst snd].
    pose proof (insert_loop_ok k (firstn (length b) items) (skipn (length b) items) lo
                  (Z.to_nat (zlen items - L)) (a ++ map (elem_val k) (firstn (length b) items)) c) as Q2.
    rewrite firstn_skipn, <- !app_assoc in Q2.
    assert (Lf : zlen (firstn (length b) items) = L).
    { rewrite <- Lb. unfold zlen in *. rewrite firstn_length. lia. }
    rewrite Lf in Q2.
    assert (Ff : firstn (Z.to_nat (zlen items - L)) (skipn (length b) items) = skipn (length b) items).
    { apply firstn_all2. rewrite skipn_length. unfold zlen in *; lia. }
    rewrite Ff in Q2. rewrite Q2; [|apply GG|rewrite skipn_length; unfold zlen in *; lia|rewrite zlen_app, zlen_map; lia].
    unfold then_ret. cbn [fst snd obind].
    f_equal. f_equal. rewrite app_assoc, <- map_app, firstn_skipn. reflexivity.
Qed.

(** ** reverse *)
Lemma le_sval_bytes k v : in_range k v -> le_sval (le_bytes (esize k) v) = v.
Proof.
  intros H. unfold le_sval. rewrite le_bytes_length, le_val_bytes.
  assert (E1 : 8 * Z.of_nat (esize k) = bits k) by (destruct k; reflexivity).
  assert (E2 : 256 ^ Z.of_nat (esize k) = 2 ^ bits k) by (destruct k; reflexivity).
  rewrite E1, E2. rewrite wrap_mod by (pose proof (bits_ge k); lia).
  apply wrap_id; [apply bits_ge|exact H].
Qed.

Lemma encode_sizes k s : elems_of_size (esize k) (map (le_bytes (esize k)) s).
Proof. unfold elems_of_size. apply Forall_map. apply Forall_forall. intros; apply le_bytes_length. Qed.

Lemma decode_encode k s : Forall (in_range k) s -> decode k (length s) (encode k s) = s.
Proof.
  intros F. unfold decode, encode. rewrite chunk_n_concat; [|apply encode_sizes|apply map_length].
  rewrite map_map. induction F; cbn [map]; [reflexivity|]. rewrite le_sval_bytes by assumption. f_equal; assumption.
Qed.

Lemma reverse_ok cfg k s : Forall (in_range k) s -> reverse cfg k s = (Ret VNone, rev s).
Proof.
  intros F. unfold reverse, encode.
  pose proof (qreverse_ok (feat cfg) (esize k) (map (le_bytes (esize k)) s) (encode_sizes k s)) as Q.
  rewrite map_length in Q. rewrite Q by (left; destruct k; discriminate). cbn [with_].
  rewrite <- map_rev. change (concat (map (le_bytes (esize k)) (rev s))) with (encode k (rev s)).
  rewrite <- (rev_length s), decode_encode; [reflexivity|]. apply Forall_rev. exact F.
Qed.

(** ** Refinement of one call *)
Definition expected (cfg : config) (k : kind) (r : sres) : outcome val :=
  match r with
  | SRaise e => Raise e
  | SRet SNone => Ret VNone
  | SRet (SBool b) => Ret (VBool b)
  | SRet (SNum z) => Ret (VInt z)
  | SRet (SElem v) => Ret (VElem (from_elem cfg k v))
  | SRet (SList vs) => Ret (VPyList (map (from_elem cfg k) vs))
  | SRet (SSame vs) => Ret (VNewList vs)
  end.

(** Arguments that fit: integers fit the element type, slice assignment has
    step 1, bounds of [index] fit ssize, and so does the index of a [pop] from
    an empty list. *)
Definition in_ssize_opt (o : option Z) : Prop := match o with None => True | Some z => in_ssize z = true end.

Definition op_ok (k : kind) (s : list Z) (o : op) : Prop :=
  match o with
  | OAppend v | OInsert _ v | ORemove v | OSet _ v | OCount v | OContains v => in_range k v
  | OExtend _ vs => Forall (in_range k) vs
  | OSetSlice sl vs => Forall (in_range k) vs /\ step_of sl = 1
  | OPop i => s = [] -> in_ssize_opt i
  | OIndex v a b => in_range k v /\ in_ssize_opt a /\ in_ssize_opt b
  | _ => True
  end.

Ltac rng := unfold in_ssize, in_sbits_b, in_sbits in *; rewrite ?andb_true_iff, ?Z.leb_le, ?Z.ltb_lt in *.

Lemma rel_bounds_dec len p : ((0 <=? p) && (p <? len)) = true <-> 0 <= p < len.
Proof. rewrite andb_true_iff, Z.leb_le, Z.ltb_lt. tauto. Qed.

Lemma idx_test len p : ((p <? 0) || (len <=? p)) = negb ((0 <=? p) && (p <? len)).
Proof.
  destruct (Z.ltb_spec p 0), (Z.leb_spec len p), (Z.leb_spec 0 p), (Z.ltb_spec p len); try reflexivity; lia.
Qed.

Lemma Forall_firstn {A} (P : A -> Prop) n l : Forall P l -> Forall P (firstn n l).
Proof. intros F. rewrite <- (firstn_skipn n l) in F. apply Forall_app in F. apply F. Qed.
Lemma Forall_skipn {A} (P : A -> Prop) n l : Forall P l -> Forall P (skipn n l).
Proof. intros F. rewrite <- (firstn_skipn n l) in F. apply Forall_app in F. apply F. Qed.

Lemma zero_in_range k : in_range k 0.
Proof. unfold in_range, in_sbits. destruct k; cbn [bits]; lia. Qed.

(** The element range is an invariant of the specification. *)
Lemma py_step_range k o s : Forall (in_range k) s -> op_ok k s o -> Forall (in_range k) (snd (py_step o s)).
Proof.
  intros F H. destruct o; cbn [py_step op_ok] in *;
  repeat match goal with
  | |- context [if ?c then _ else _] => destruct c
  | |- context [match ?l with [] => _ | _ :: _ => _ end] => destruct l
  end; cbn [snd]; auto; unfold py_setslice;
  repeat (apply Forall_app; split); try constructor; auto using Forall_firstn, Forall_skipn, Forall_rev.
  - apply Forall_forall. intros x Hx. apply repeat_spec in Hx. subst. apply zero_in_range.
  - apply H.
Qed.

Lemma index_arith len i : in_sbits 64 i -> 0 <= len <= SSIZE_MAX ->
  (if i <? 0 then len + i else i) = rel len i.
Proof. intros. unfold rel. destruct (i <? 0); lia. Qed.

Lemma get_step cfg k i s : 0 <= zlen s <= SSIZE_MAX ->
  subscript cfg k (PInt i) s =
  (expected cfg k (fst (py_step (OGet i) s)), s).
Proof.
  intros Hl. cbn [py_step]. fold (zlen s). unfold subscript, as_index.
  destruct (in_sbits_b 64 i) eqn:E; cbn [with_].
  - unfold getitem. rewrite index_arith by (try apply in_sbits_b_spec; assumption).
    rewrite idx_test. destruct (_ && _) eqn:B; cbn [negb fst expected]; [|reflexivity].
    apply rel_bounds_dec in B. rewrite znth_default by assumption. reflexivity.
  - destruct (_ && _) eqn:B; cbn [fst expected]; [|reflexivity]. exfalso.
    apply rel_bounds_dec in B. apply in_sbits_b_false in E. apply E. unfold in_sbits.
    destruct ssize_consts as [EA EB]. rewrite EA in Hl. unfold rel in B. destruct (Z.ltb_spec i 0); lia.
Qed.

Lemma ass_step k i ov s : 0 <= zlen s <= SSIZE_MAX ->
  ass_subscript k (PInt i) ov s =
  if (0 <=? rel (zlen s) i) && (rel (zlen s) i <? zlen s)
  then setitem k (rel (zlen s) i) ov s else (Raise IndexError, s).
Proof.
  intros Hl. unfold ass_subscript, as_index.
  destruct (in_sbits_b 64 i) eqn:E; cbn [with_].
  - unfold setitem. rewrite index_arith by (try apply in_sbits_b_spec; assumption).
    rewrite idx_test. destruct (_ && _) eqn:B; cbn [negb]; [|reflexivity].
    apply rel_bounds_dec in B. destruct (Z.ltb_spec (rel (zlen s) i) 0); [lia|].
    rewrite idx_test. rewrite (proj2 (rel_bounds_dec _ _)) by assumption. reflexivity.
  - destruct (_ && _) eqn:B; [|reflexivity]. exfalso.
    apply rel_bounds_dec in B. apply in_sbits_b_false in E. apply E. unfold in_sbits.
    destruct ssize_consts as [EA EB]. rewrite EA in Hl. unfold rel in B. destruct (Z.ltb_spec i 0); lia.
Qed.

Lemma setitem_at k p ov s : 0 <= p < zlen s ->
  setitem k p ov s =
  match ov with
  | None => (Ret VNone, firstn (Z.to_nat p) s ++ skipn (Z.to_nat p + 1) s)
  | Some o => with_ (as_elem k o) s (fun v => (Ret VNone, firstn (Z.to_nat p) s ++ v :: skipn (Z.to_nat p + 1) s))
  end.
Proof.
  intros H. unfold setitem. destruct (Z.ltb_spec p 0); [lia|]. rewrite idx_test, (proj2 (rel_bounds_dec _ _)) by assumption.
  cbn [negb]. destruct (zsplit s p H) as (a & x & b & -> & La).
  rewrite firstn_zlen, skipn1_zlen by (symmetry; assumption).
  destruct ov as [o|].
  - destruct (as_elem k o); cbn [with_]; try reflexivity. rewrite zset_mid by (symmetry; assumption). reflexivity.
  - rewrite zerase_mid by (symmetry; assumption). reflexivity.
Qed.

Lemma pop_step cfg k oi s : 0 <= zlen s <= SSIZE_MAX -> (s = [] -> in_ssize_opt oi) ->
  pop cfg k (option_map PInt oi) s =
  (expected cfg k (fst (py_step (OPop oi) s)), snd (py_step (OPop oi) s)).
Proof.
  intros Hl Hop. cbn [py_step]. fold (zlen s).
  destruct s as [|x0 s0] eqn:Es.
  - specialize (Hop eq_refl). unfold pop. change (zlen (@nil Z)) with 0.
    destruct oi as [i|]; cbn [in_ssize_opt] in Hop.
    + rewrite Hop. destruct (_ && _) eqn:B; [|reflexivity]. apply rel_bounds_dec in B. lia.
    + reflexivity.
  - rewrite <- Es in *. assert (Ne : 0 < zlen s) by (rewrite Es; rewrite zlen_cons; pose proof (zlen_nonneg s0); lia).
    assert (P : pop cfg k (option_map PInt oi) s =
      match option_map PInt oi with
      | None => match znth s (zlen s - 1) with
                | Some v => (Ret (VElem (from_elem cfg k v)), removelast s)
                | None => (Undef OutOfBounds, s) end
      | Some o => with_ (as_long o) s (fun index =>
          let index := if index <? 0 then index + zlen s else index in
          if (index <? 0) || (zlen s <=? index) then (Raise IndexError, s)
          else match znth s index, zerase s index with
               | Some v, Some s' => (Ret (VElem (from_elem cfg k v)), s')
               | _, _ => (Undef OutOfBounds, s) end)
      end) by (rewrite Es; reflexivity).
    rewrite P. clear P Es x0 s0. destruct oi as [i|]; cbn [option_map].
    + unfold as_long. fold (in_ssize i). destruct (in_ssize i); cbn [with_]; [|reflexivity].
      cbv zeta. fold (rel (zlen s) i). rewrite idx_test. destruct (_ && _) eqn:B; cbn [negb]; [|reflexivity].
      apply rel_bounds_dec in B. rewrite znth_default by assumption.
      destruct (zsplit s _ B) as (a & x & b & -> & La).
      rewrite zerase_mid, firstn_zlen, skipn1_zlen by (symmetry; assumption). reflexivity.
    + change (in_ssize (-1)) with true. cbv iota. unfold rel. change (-1 <? 0) with true. cbv iota.
      replace (-1 + zlen s) with (zlen s - 1) by lia.
      rewrite (proj2 (rel_bounds_dec (zlen s) (zlen s - 1))) by lia.
      rewrite znth_default by lia.
      destruct (zsplit s (zlen s - 1)) as (a & x & b & E & La); [lia|].
      assert (b = []) as ->.
      { destruct b as [|y b]; [reflexivity|]. rewrite E in La. rewrite zlen_app, !zlen_cons in La.
        pose proof (zlen_nonneg b). lia. }
      cbn [fst snd expected]. f_equal.
      rewrite E at 1. rewrite removelast_last. symmetry. rewrite E at 2 4.
      rewrite firstn_zlen, skipn1_zlen by (symmetry; assumption). apply app_nil_r.
Qed.

Lemma index_step cfg k v oa ob s : 0 <= zlen s <= SSIZE_MAX ->
  in_range k v -> in_ssize_opt oa -> in_ssize_opt ob ->
  index k (PInt v) (option_map PInt oa) (option_map PInt ob) s =
  (expected cfg k (fst (py_step (OIndex v oa ob) s)), s).
Proof.
  intros Hl Hv Ha Hb. unfold index. rewrite parse_elem_ok by assumption. cbn [with_].
  assert (EA : match option_map PInt oa with None => Ret 0 | Some x => parse_n x end
               = Ret (match oa with None => 0 | Some a => a end)).
  { destruct oa as [a|]; cbn in *; [unfold in_ssize in Ha; rewrite Ha|]; reflexivity. }
  assert (EB : match option_map PInt ob with None => Ret (zlen s) | Some x => parse_n x end
               = Ret (match ob with None => zlen s | Some b => b end)).
  { destruct ob as [b|]; cbn in *; [unfold in_ssize in Hb; rewrite Hb|]; reflexivity. }
  rewrite EA, EB. cbn [with_]. clear EA EB.
  set (a0 := match oa with None => 0 | Some a => a end).
  set (b0 := match ob with None => zlen s | Some b => b end).
  cbv zeta. fold (rel (zlen s) a0). fold (rel (zlen s) b0).
  cbn [py_step]. fold (zlen s).
  set (i := match oa with None => 0 | Some i => Z.max 0 (rel (zlen s) i) end).
  set (j := match ob with None => zlen s | Some j => rel (zlen s) j end).
  assert (Ei : (if rel (zlen s) a0 <? 0 then 0 else rel (zlen s) a0) = i).
  { unfold i, a0. destruct oa as [a|].
    - destruct (Z.ltb_spec (rel (zlen s) a) 0); lia.
    - reflexivity. }
  assert (Ej : (if zlen s <? rel (zlen s) b0 then zlen s else rel (zlen s) b0) = Z.min (zlen s) j).
  { unfold j, b0. destruct ob as [b|].
    - destruct (Z.ltb_spec (zlen s) (rel (zlen s) b)); lia.
    - unfold rel. destruct (Z.ltb_spec (zlen s) 0); [lia|]. rewrite Z.ltb_irrefl. lia. }
  rewrite Ei, Ej. assert (0 <= i) by (unfold i; destruct oa; lia). clearbody i j. clear a0 b0 Ei Ej.
  unfold occurrences. rewrite filter_filter.
  pose proof (filter_head (fun x => (get_default s x =? v) && ((i <=? x) && (x <? j))) (length s)) as FH.
  fold (zlen s) in FH.
  destruct (Z.ltb_spec (Z.min (zlen s) j) i) as [C|C].
  - destruct (filter _ _) as [|p r]; [reflexivity|]. exfalso. destruct FH as (A & B & _).
    rewrite !andb_true_iff, Z.leb_le, Z.ltb_lt in B. lia.
  - destruct (std_find_spec s v (Z.to_nat (Z.min (zlen s) j - i)) i) as (r & -> & R1 & R2 & R3); [lia|lia|].
    rewrite Z2Nat.id in R1, R2 by lia. cbn [with_].
    destruct (filter _ _) as [|p l].
    + destruct (Z.eqb_spec r (Z.min (zlen s) j)) as [|N]; [reflexivity|]. exfalso.
      specialize (FH r ltac:(lia)). cbv beta in FH. rewrite R2 in FH by lia. rewrite Z.eqb_refl in FH. cbn [andb] in FH.
      apply andb_false_iff in FH. rewrite Z.leb_gt, Z.ltb_ge in FH. lia.
    + destruct FH as (A & B & D). rewrite !andb_true_iff, Z.eqb_eq, Z.leb_le, Z.ltb_lt in B.
      assert (r = p).
      { destruct (Z.lt_trichotomy r p) as [L|[L|L]]; [|assumption|].
        - exfalso. specialize (D r ltac:(lia)). cbv beta in D. rewrite R2 in D by lia.
          rewrite Z.eqb_refl in D. cbn [andb] in D. apply andb_false_iff in D. rewrite Z.leb_gt, Z.ltb_ge in D. lia.
        - exfalso. apply (R3 p); [lia|tauto]. }
      subst r. destruct (Z.eqb_spec p (Z.min (zlen s) j)); [lia|]. reflexivity.
Qed.

Lemma step_refines cfg k o s :
  Forall (in_range k) s -> zlen s <= SSIZE_MAX -> op_ok k s o ->
  step cfg k o s = (expected cfg k (fst (py_step o s)), snd (py_step o s)).
Proof.
  intros F Hl H. pose proof (zlen_nonneg s) as L0. destruct o; cbn [op_ok] in H.
  - cbn [step py_step fst snd expected]. unfold append. rewrite as_elem_ok by assumption. reflexivity.
  - cbn [step py_step fst snd expected]. destruct how; cbn [extend]; rewrite ?extend_items_ok by assumption; reflexivity.
  - cbn [step py_step]. fold (zlen s). unfold insert, parse_n, as_long. fold (in_ssize i).
    destruct (in_ssize i) eqn:Ei; cbn [with_]; [|reflexivity].
    rewrite parse_elem_ok by assumption. cbn [with_ fst snd expected].
    set (p := clamp (zlen s) (rel (zlen s) i)).
    assert (Ep : (if i <? 0 then Z.max 0 (zlen s + i) else if zlen s <? i then zlen s else i) = p).
    { unfold p, clamp, rel. destruct (Z.ltb_spec i 0); [lia|]. destruct (Z.ltb_spec (zlen s) i); lia. }
    rewrite Ep. assert (0 <= p <= zlen s) by (unfold p, clamp; lia). clearbody p.
    destruct (zsplit_le s p) as (a & b & -> & La); [lia|].
    rewrite zinsert_mid, firstn_zlen, skipn_zlen by (symmetry; assumption). reflexivity.
  - cbn [step]. apply pop_step; [lia|assumption].
  - cbn [step py_step]. unfold remove. rewrite as_elem_ok by assumption. cbn [with_].
    rewrite std_find_all. cbn [with_]. pose proof (occurrences_head s v) as OH.
    destruct (occurrences s v) as [|p r].
    + rewrite Z.eqb_refl. reflexivity.
    + destruct OH as (A & _). destruct (Z.eqb_spec p (zlen s)); [lia|].
      destruct (zsplit s p A) as (a & x & b & -> & La).
      rewrite zerase_mid, firstn_zlen, skipn1_zlen by (symmetry; assumption). reflexivity.
  - cbn [step py_step fst snd expected]. apply reverse_ok. assumption.
  - reflexivity.
  - cbn [step py_step]. unfold resize. fold (in_ssize n).
    destruct (in_ssize n) eqn:E.
    + rewrite andb_true_r. destruct (Z.ltb_spec n 0), (Z.leb_spec 0 n); try lia; reflexivity.
    + rewrite andb_false_r. reflexivity.
  - reflexivity.
  - cbn [step]. rewrite get_step by lia. cbn [py_step]. destruct (_ && _); reflexivity.
  - cbn [step py_step]. fold (zlen s). rewrite ass_step by lia. destruct (_ && _) eqn:B; [|reflexivity].
    apply rel_bounds_dec in B. rewrite setitem_at by assumption. rewrite as_elem_ok by assumption. reflexivity.
  - cbn [step py_step]. fold (zlen s). rewrite ass_step by lia. destruct (_ && _) eqn:B; [|reflexivity].
    apply rel_bounds_dec in B. rewrite setitem_at by assumption. reflexivity.
  - cbn [step py_step]. rewrite getitem_slice_ok by assumption. destruct (_ =? 0); reflexivity.
  - cbn [step py_step fst snd expected]. destruct H as [Hv Hs].
    rewrite setitem_slice_ok; [|assumption|assumption|].
    + f_equal. f_equal. rewrite map_map. cbn [elem_val].
      induction Hv; cbn [map]; [reflexivity|]. rewrite wrap_id; [|apply bits_ge|assumption]. f_equal. assumption.
    + apply Forall_map. eapply Forall_impl; [|exact Hv]. intros a Ha. exists a. split; [reflexivity|eapply in_range_64; eauto].
  - cbn [step]. destruct H as (H1 & H2 & H3). rewrite (index_step cfg) by (assumption || lia).
    cbn [py_step]. destruct (filter _ _); reflexivity.
  - cbn [step py_step fst snd expected]. unfold count. rewrite as_elem_ok by assumption. cbn [with_].
    rewrite std_count_occ. reflexivity.
  - cbn [step py_step fst snd expected]. unfold contains. rewrite as_elem_ok by assumption. cbn [with_].
    rewrite std_find_all. cbn [with_]. pose proof (occurrences_head s v) as OH.
    destruct (occurrences s v) as [|p r].
    + rewrite Z.eqb_refl. reflexivity.
    + destruct OH as (A & _). destruct (Z.eqb_spec p (zlen s)); [lia|]. reflexivity.
  - reflexivity.
  - reflexivity.
Qed.

(** ** Histories *)
Fixpoint history_ok (k : kind) (ops : list op) (s : list Z) : Prop :=
  zlen s <= SSIZE_MAX /\
  match ops with
  | [] => True
  | o :: r => op_ok k s o /\ history_ok k r (snd (py_step o s))
  end.

Lemma run_refines cfg k ops s :
  Forall (in_range k) s -> history_ok k ops s ->
  run cfg k ops s = (map (expected cfg k) (fst (py_run ops s)), snd (py_run ops s)).
Proof.
  revert s; induction ops as [|o ops IH]; intros s F H; [reflexivity|].
  cbn [history_ok] in H. destruct H as (Hl & Ho & Hr).
  cbn [run py_run]. rewrite step_refines by assumption.
  pose proof (py_step_range k o s F Ho) as F'.
  destruct (py_step o s) as [x s1]. cbn [fst snd] in *.
  rewrite IH by assumption. destruct (py_run ops s1) as [xs s2]. reflexivity.
Qed.
