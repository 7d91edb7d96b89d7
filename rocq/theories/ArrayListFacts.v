(** Further facts about the array list model: conversions out of range, failing
    extend and slice assignment, self-assignment, search windows. *)
From Coq Require Import ZArith List Bool Lia Arith.
From Verif Require Import Base PyLongModel PyLongProofs MemModel QReverseModel PyListSpec
  ListLemmas ArrayListModel ArrayListProofs ArrayListSpec.
Import ListNotations.
Local Open Scope Z_scope.
Local Arguments Z.pow : simpl never.
Local Arguments Z.of_nat : simpl never.
Local Arguments Z.to_nat : simpl never.
Local Arguments Z.modulo : simpl never.

Lemma reduced_wrap k z v : reduced (bits k) z v <-> v = wrap (bits k) z.
Proof.
  unfold reduced. split.
  - intros [R [m E]]. pose proof (bits_ge k).
    rewrite <- (wrap_id (bits k) v) by (auto; exact R).
    unfold wrap. f_equal. rewrite E.
    replace (z + m * 2 ^ bits k + 2 ^ (bits k - 1)) with (z + 2 ^ (bits k - 1) + m * 2 ^ bits k) by lia.
    apply Z.mod_add. apply Z.pow_nonzero; lia.
  - intros ->. pose proof (bits_ge k).
    assert (P : 0 < 2 ^ bits k) by (apply Z.pow_pos_nonneg; lia).
    assert (D : 2 ^ bits k = 2 * 2 ^ (bits k - 1)).
    { rewrite <- Z.pow_succ_r by lia. f_equal. lia. }
    unfold wrap. set (x := z + 2 ^ (bits k - 1)).
    pose proof (Z.mod_pos_bound x (2 ^ bits k) P). split; [lia|].
    exists (- (x / 2 ^ bits k)).
    pose proof (Z.div_mod x (2 ^ bits k) ltac:(lia)). unfold x in *. lia.
Qed.

Lemma stores_elem k o v : stores (bits k) o v <-> as_elem k o = Ret v.
Proof.
  unfold stores. split.
  - intros (z & -> & R & H). apply reduced_wrap in H. subst v. rewrite as_elem_int.
    rewrite (proj2 (in_sbits_b_spec 64 z)) by exact R. reflexivity.
  - destruct o as [z|i]; [|discriminate]. rewrite as_elem_int.
    destruct (in_sbits_b 64 z) eqn:E; [|discriminate]. apply in_sbits_b_spec in E.
    intros H. injection H as <-. exists z. split; [reflexivity|]. split; [exact E|]. apply reduced_wrap. reflexivity.
Qed.

Lemma rejected_elem k o e : rejected o e <-> as_elem k o = Raise e.
Proof.
  destruct o as [z|i]; cbn [rejected].
  - rewrite as_elem_int. destruct (in_sbits_b 64 z) eqn:E.
    + apply in_sbits_b_spec in E. unfold in_sbits in E. change (64 - 1) with 63 in E. split; [lia|discriminate].
    + assert (N : ~ in_sbits 64 z) by (intros H; apply in_sbits_b_spec in H; congruence).
      unfold in_sbits in N. change (64 - 1) with 63 in N. split; [intros [_ ->]; reflexivity|].
      intros H; injection H as <-. split; [lia|reflexivity].
  - cbn. split; [intros ->; reflexivity|intros H; injection H as <-; reflexivity].
Qed.

Lemma as_long_of (k : kind) o e : rejected o e -> as_long o = Raise e.
Proof.
  intros H. apply (rejected_elem k) in H. unfold as_elem in H. destruct (as_long o); cbn in H; congruence.
Qed.

Lemma elem_total k o : (exists v, stores (bits k) o v) \/ (exists e, rejected o e).
Proof.
  destruct o as [z|i]; cbn [rejected].
  - destruct (in_sbits_b 64 z) eqn:E.
    + left. exists (wrap (bits k) z). apply stores_elem. rewrite as_elem_int, E. reflexivity.
    + right. exists OverflowError. apply (rejected_elem k (PInt z)). rewrite as_elem_int, E. reflexivity.
  - right. exists TypeError. reflexivity.
Qed.

Lemma stores_unique k o v v' : stores (bits k) o v -> stores (bits k) o v' -> v = v'.
Proof. rewrite !stores_elem. congruence. Qed.

Lemma stores_not_rejected k o v e : stores (bits k) o v -> rejected o e -> False.
Proof. rewrite stores_elem, (rejected_elem k). congruence. Qed.

Lemma stores_big o v : stores 64 o v <-> o = PInt v /\ - 2 ^ 63 <= v < 2 ^ 63.
Proof.
  split.
  - intros H. apply (stores_elem KBig) in H. destruct o as [z|]; [|discriminate]. rewrite as_elem_int in H.
    destruct (in_sbits_b 64 z) eqn:E; [|discriminate]. apply in_sbits_b_spec in E.
    injection H as <-. change (bits KBig) with 64. rewrite wrap_id by (try exact E; lia).
    split; [reflexivity|exact E].
  - intros [-> R]. exists v. split; [reflexivity|]. split; [exact R|]. split; [exact R|exists 0; lia].
Qed.

Lemma stores_in_range k z v : stores (bits k) (PInt z) v -> in_range k z -> v = z.
Proof. intros S R. apply stores_elem in S. rewrite as_elem_ok in S by assumption. congruence. Qed.

Lemma stores_out_of_range k z v : stores (bits k) (PInt z) v -> ~ in_range k z -> v <> z.
Proof. intros (z' & E & _ & R & _) N. injection E as <-. intros ->. apply N. exact R. Qed.

(** ** append, item assignment, extend *)
Lemma append_stores k o v s : stores (bits k) o v -> append k o s = (Ret VNone, s ++ [v]).
Proof. intros H. apply stores_elem in H. unfold append. rewrite H. reflexivity. Qed.
Lemma append_rejects k o e s : rejected o e -> append k o s = (Raise e, s).
Proof. intros H. apply (rejected_elem k) in H. unfold append. rewrite H. reflexivity. Qed.

Lemma setitem_stores k o v i a x c :
  stores (bits k) o v -> rel (zlen (a ++ x :: c)) i = zlen a -> zlen (a ++ x :: c) <= SSIZE_MAX ->
  ass_subscript k (PInt i) (Some o) (a ++ x :: c) = (Ret VNone, a ++ v :: c).
Proof.
  intros H R L. apply stores_elem in H. pose proof (zlen_nonneg (a ++ x :: c)).
  rewrite ass_step by lia. rewrite R.
  assert (B : 0 <= zlen a < zlen (a ++ x :: c)).
  { rewrite zlen_app, zlen_cons. pose proof (zlen_nonneg a). pose proof (zlen_nonneg c). lia. }
  rewrite (proj2 (rel_bounds_dec _ _)) by exact B.
  rewrite setitem_at by exact B. rewrite H. cbn [with_].
  f_equal. unfold zlen. rewrite Nat2Z.id. rewrite firstn_app, firstn_all, Nat.sub_diag, firstn_O, app_nil_r.
  f_equal. f_equal. rewrite skipn_app, skipn_all2 by lia. replace (length a + 1 - length a)%nat with 1%nat by lia.
  reflexivity.
Qed.

Lemma setitem_rejects k o e i s : rejected o e -> zlen s <= SSIZE_MAX -> 0 <= rel (zlen s) i < zlen s ->
  ass_subscript k (PInt i) (Some o) s = (Raise e, s).
Proof.
  intros H L B. apply (rejected_elem k) in H. rewrite ass_step by lia.
  rewrite (proj2 (rel_bounds_dec _ _)) by exact B. rewrite setitem_at by exact B. rewrite H. reflexivity.
Qed.

Lemma extend_items_good k items vs fin s : Forall2 (stores (bits k)) items vs ->
  extend_items k items fin s = (match fin with None => Ret tt | Some e => Raise e end, s ++ vs).
Proof.
  intros F. revert s. induction F as [|o v items vs H F IH]; intros s; cbn [extend_items].
  - rewrite app_nil_r. destruct fin; reflexivity.
  - apply stores_elem in H. rewrite H, IH, <- app_assoc. reflexivity.
Qed.

Lemma extend_items_bad k items vs o e rest fin s :
  Forall2 (stores (bits k)) items vs -> rejected o e ->
  extend_items k (items ++ o :: rest) fin s = (Raise e, s ++ vs).
Proof.
  intros F R. revert s. induction F as [|o' v items vs H F IH]; intros s; cbn [extend_items app].
  - apply (rejected_elem k) in R. rewrite R, app_nil_r. reflexivity.
  - apply stores_elem in H. rewrite H, IH, <- app_assoc. reflexivity.
Qed.

(** ** construction *)
Lemma init_items_good k items vs s : Forall2 (stores (bits k)) items vs ->
  init_items k items s = (Ret tt, s ++ vs).
Proof.
  intros F. revert s. induction F as [|o v items vs H F IH]; intros s; cbn [init_items].
  - rewrite app_nil_r. reflexivity.
  - apply stores_elem in H. rewrite H, IH, <- app_assoc. reflexivity.
Qed.

Lemma init_items_bad k items e s : Exists (fun o => rejected o e) items ->
  exists s', init_items k items s = (Raise RuntimeError, s').
Proof.
  intros X. revert s. induction items as [|o items IH]; intros s; [inversion X|].
  cbn [init_items]. destruct (elem_total k o) as [[v H]|[e' H]].
  - pose proof H as H'. apply stores_elem in H. rewrite H. apply IH.
    inversion X; subst; [exfalso; eapply stores_not_rejected; eauto|assumption].
  - apply (rejected_elem k) in H. rewrite H. eauto.
Qed.

(** ** index *)
Definition window (len : Z) (a b : option Z) : Z * Z :=
  (match a with None => 0 | Some i => rel len i end, match b with None => len | Some j => rel len j end).

Lemma get_nth_error s p v : 0 <= p < zlen s -> (nth_error s (Z.to_nat p) = Some v <-> get_default s p = v).
Proof.
  intros H. unfold get_default, zlen in *.
  rewrite (nth_error_nth' s 0) by lia. split; [intros E; injection E; auto|intros ->; reflexivity].
Qed.

Lemma nth_error_pos (s : list Z) p v : 0 <= p -> nth_error s (Z.to_nat p) = Some v -> p < zlen s.
Proof. intros H E. assert (nth_error s (Z.to_nat p) <> None) by congruence. apply nth_error_Some in H0. unfold zlen. lia. Qed.

Lemma index_char k v oa ob s : zlen s <= SSIZE_MAX -> in_range k v -> in_ssize_opt oa -> in_ssize_opt ob ->
  let '(lo, hi) := window (zlen s) oa ob in
  (exists p, first_in s v lo hi p /\
     index k (PInt v) (option_map PInt oa) (option_map PInt ob) s = (Ret (VInt p), s)) \/
  ((forall p, ~ first_in s v lo hi p) /\
     index k (PInt v) (option_map PInt oa) (option_map PInt ob) s = (Raise ValueError, s)).
Proof.
  intros L R A B. pose proof (zlen_nonneg s) as L0. unfold window.
  rewrite (index_step {| py312 := false; feat := {| avx512 := false; avx2 := false; sse41 := false; ssse3 := false |} |})
    by (auto; lia).
  cbn [py_step]. fold (zlen s).
  set (i := match oa with None => 0 | Some i => Z.max 0 (rel (zlen s) i) end).
  set (lo := match oa with None => 0 | Some i => rel (zlen s) i end).
  set (j := match ob with None => zlen s | Some j => rel (zlen s) j end).
  assert (Hi : i = Z.max 0 lo) by (unfold i, lo; destruct oa; lia).
  assert (E : filter (fun x => (i <=? x) && (x <? j)) (occurrences s v)
     = filter (fun x => (get_default s x =? v) && ((i <=? x) && (x <? j))) (positions (length s))).
  { unfold occurrences. rewrite filter_filter. reflexivity. }
  rewrite E. clear E. pose proof (filter_head (fun x => (get_default s x =? v) && ((i <=? x) && (x <? j))) (length s)) as H.
  fold (zlen s) in H. destruct (filter _ _) as [|p r]; cbn [fst expected].
  - right. split; [|reflexivity]. intros p (P0 & P1 & P2 & P3).
    pose proof (nth_error_pos _ _ _ P0 P2). specialize (H p ltac:(lia)).
    apply get_nth_error in P2; [|lia].
    rewrite P2, Z.eqb_refl in H. cbn [andb] in H.
    rewrite (proj2 (Z.leb_le i p)), (proj2 (Z.ltb_lt p j)) in H by lia. discriminate.
  - left. exists p. split; [|reflexivity]. destruct H as (H1 & H2 & H3).
    apply andb_prop in H2. destruct H2 as [H2 H4]. apply andb_prop in H4. destruct H4 as [H4 H5].
    apply Z.eqb_eq in H2. apply Z.leb_le in H4. apply Z.ltb_lt in H5.
    split; [lia|]. split; [lia|]. split; [apply get_nth_error; [lia|assumption]|].
    intros q Q0 Q1 Q2. apply get_nth_error in Q2; [|lia]. specialize (H3 q ltac:(lia)).
    rewrite Q2, Z.eqb_refl in H3. cbn [andb] in H3.
    rewrite (proj2 (Z.leb_le i q)), (proj2 (Z.ltb_lt q j)) in H3 by lia. discriminate.
Qed.

(** ** membership, count, remove *)
Lemma contains_char k o v s : stores (bits k) o v ->
  exists b, contains k o s = (Ret (VBool b), s) /\ (b = true <-> In v s).
Proof.
  intros H. pose proof H as (z & -> & _). apply stores_elem in H.
  unfold contains. rewrite H. cbn [with_]. rewrite std_find_all. cbn [with_].
  eexists. split; [reflexivity|].
  pose proof (occurrences_head s v) as O. destruct (occurrences s v) as [|p r].
  - rewrite Z.eqb_refl. split; [discriminate|]. intros I. apply In_nth with (d := 0) in I.
    destruct I as (n & Hn & En). exfalso. apply (O (Z.of_nat n)); [unfold zlen; lia|].
    unfold get_default. rewrite Nat2Z.id. exact En.
  - destruct O as (O1 & O2 & _). split; [|intros _].
    + intros _. unfold get_default in O2. rewrite <- O2. apply nth_In. unfold zlen in O1. lia.
    + destruct (Z.eqb_spec p (zlen s)); [lia|reflexivity].
Qed.

Lemma std_count_count_occ s v : std_count s v = Z.of_nat (count_occ Z.eq_dec s v).
Proof.
  induction s as [|x s IH]; [reflexivity|]. cbn [std_count count_occ].
  destruct (Z.eq_dec x v), (Z.eqb_spec x v); try contradiction; lia.
Qed.

Lemma count_char k o v s : stores (bits k) o v ->
  count k o s = (Ret (VInt (Z.of_nat (count_occ Z.eq_dec s v))), s).
Proof. intros H. apply stores_elem in H. unfold count. rewrite H. cbn [with_]. rewrite std_count_count_occ. reflexivity. Qed.

Lemma remove_char k o v s : stores (bits k) o v ->
  (~ In v s /\ remove k o s = (Raise ValueError, s)) \/
  (exists a c, s = a ++ v :: c /\ ~ In v a /\ remove k o s = (Ret VNone, a ++ c)).
Proof.
  intros H. apply stores_elem in H. unfold remove. rewrite H. cbn [with_]. rewrite std_find_all. cbn [with_].
  pose proof (occurrences_head s v) as O. destruct (occurrences s v) as [|p r].
  - left. rewrite Z.eqb_refl. split; [|reflexivity]. intros I. apply In_nth with (d := 0) in I.
    destruct I as (n & Hn & En). apply (O (Z.of_nat n)); [unfold zlen; lia|].
    unfold get_default. rewrite Nat2Z.id. exact En.
  - right. destruct O as (O1 & O2 & O3). destruct (Z.eqb_spec p (zlen s)) as [|_]; [lia|].
    destruct (zsplit s p) as (a & x & c & E & La); [lia|].
    assert (x = v). { rewrite <- O2, E, <- La. symmetry. apply get_default_mid. reflexivity. }
    subst x. exists a, c. split; [exact E|]. split.
    + intros I. apply In_nth with (d := 0) in I. destruct I as (n & Hn & En).
      apply (O3 (Z.of_nat n)); [unfold zlen in La; lia|]. unfold get_default. rewrite Nat2Z.id, E.
      rewrite app_nth1 by assumption. exact En.
    + rewrite E, <- La, zerase_mid by reflexivity. reflexivity.
Qed.

Lemma contains_rejects k o e s : rejected o e ->
  contains k o s = (match o with PInt _ => Raise e | PObj _ => Ret (VBool false) end, s).
Proof.
  intros H. destruct o as [z|i]; [|reflexivity]. apply (rejected_elem k) in H.
  unfold contains. rewrite H. reflexivity.
Qed.
Lemma count_rejects k o e s : rejected o e -> count k o s = (Raise e, s).
Proof. intros H. apply (rejected_elem k) in H. unfold count. rewrite H. reflexivity. Qed.
Lemma remove_rejects k o e s : rejected o e -> remove k o s = (Raise e, s).
Proof. intros H. apply (rejected_elem k) in H. unfold remove. rewrite H. reflexivity. Qed.

(** insert and index reject every value outside the element type. *)
Lemma parse_elem_rejects k z : ~ in_range k z -> parse_elem k (PInt z) = Raise OverflowError.
Proof.
  intros N. unfold parse_elem, as_long. destruct (in_sbits_b 64 z); cbn [obind]; [|reflexivity].
  destruct (in_sbits_b (bits k) z) eqn:E; [|reflexivity]. apply in_sbits_b_spec in E. contradiction.
Qed.

(** ** slice assignment *)
Lemma stores_good k items vs : Forall2 (stores (bits k)) items vs ->
  Forall good items /\ map (elem_val k) items = vs.
Proof.
  induction 1 as [|o v items vs H F [IH1 IH2]]; [split; constructor|].
  pose proof H as H'. apply stores_elem in H'. destruct H as (z & -> & R & Rd). split.
  - constructor; [exists z; split; [reflexivity|exact R]|assumption].
  - cbn [map elem_val]. f_equal; [|assumption]. apply reduced_wrap in Rd. auto.
Qed.

Lemma setslice_stores k sl items vs s : zlen s <= SSIZE_MAX -> step_of sl = 1 ->
  Forall2 (stores (bits k)) items vs ->
  setitem_slice k sl (AssSeq (src_items items)) s = (Ret VNone, py_setslice s sl vs).
Proof.
  intros L S F. apply stores_good in F. destruct F as [G <-]. apply setitem_slice_ok; assumption.
Qed.

Lemma unpack_step_ne1 sl : step_of sl <> 1 -> step_of sl <> 0 ->
  exists a b c, PySlice_Unpack sl = Ret (a, b, c) /\ c <> 1.
Proof.
  intros N1 N0. unfold PySlice_Unpack, step_of in *. destruct ssize_consts as [EA EB].
  destruct (sl_step sl) as [z|]; [|contradiction].
  assert (C : clip z <> 0 /\ clip z <> 1).
  { destruct (clip_cases z) as [[A ->]|[[A ->]|[A ->]]]; rewrite ?EA, ?EB in *; lia. }
  destruct C as [C0 C1]. destruct (Z.eqb_spec (clip z) 0); [contradiction|].
  do 3 eexists. split; [reflexivity|]. destruct (Z.ltb_spec (clip z) (- SSIZE_MAX)); [rewrite EA; lia|exact C1].
Qed.

Lemma setslice_step k sl src s : step_of sl <> 1 -> step_of sl <> 0 ->
  setitem_slice k sl (AssSeq src) s = (Raise NotImplementedError, s).
Proof.
  intros N1 N0. destruct (unpack_step_ne1 sl N1 N0) as (a & b & c & U & Hc).
  unfold setitem_slice. rewrite U. cbn [with_].
  destruct (PySlice_AdjustIndices (zlen s) a b c) as [[x y] n].
  destruct (src_len src s); (destruct (Z.eqb_spec c 1); [contradiction|]); reflexivity.
Qed.

Lemma assign_loop_bad k pre items o e rest start n a b c :
  Forall good items -> rejected o e -> zlen a = start + zlen pre -> length b = n -> (length items < n)%nat ->
  assign_loop k (src_items (pre ++ items ++ o :: rest)) n (zlen pre) start (a ++ b ++ c)
  = (Raise e, a ++ map (elem_val k) items ++ -1 :: skipn (length items + 1) b ++ c).
Proof.
  intros G R. revert pre items a b G. induction n as [|n IH]; intros pre items a b G Ha Hb Hn; [lia|].
  destruct b as [|x b]; [discriminate|]. cbn [assign_loop src_get src_items].
  destruct items as [|o' items].
  - cbn [app]. rewrite znth_mid by reflexivity. rewrite (as_long_of k o e R).
    rewrite <- Ha. cbn [app]. rewrite zset_mid by reflexivity.
    cbn [map app length skipn]. change (0 + 1)%nat with 1%nat. cbn [skipn].
    assert (W : wrap (bits k) (-1) = -1) by (apply wrap_id; [apply bits_ge|destruct k; split; cbn; lia]).
    rewrite W. reflexivity.
  - inversion G as [|? ? G1 G2]; subst. cbn [app]. rewrite znth_mid by reflexivity.
    destruct (good_as_long o' G1) as (z & -> & Ez). rewrite Ez.
    rewrite <- Ha. cbn [app]. rewrite zset_mid by reflexivity.
    assert (E1 : zlen pre + 1 = zlen (pre ++ [PInt z])) by (rewrite zlen_app; reflexivity).
    assert (E2 : pre ++ PInt z :: items ++ o :: rest = (pre ++ [PInt z]) ++ items ++ o :: rest)
      by (rewrite <- app_assoc; reflexivity).
    rewrite E1, E2.
    replace (a ++ wrap (bits k) z :: b ++ c) with ((a ++ [wrap (bits k) z]) ++ b ++ c)
      by (rewrite <- app_assoc; reflexivity).
    cbn [length] in *. rewrite IH; [|assumption|rewrite !zlen_app; change (zlen [PInt z]) with 1; change (zlen [wrap (bits k) z]) with 1; lia|lia|lia].
    rewrite <- app_assoc. cbn [map elem_val app]. reflexivity.
Qed.

Lemma insert_loop_bad k pre items o e rest start n a c :
  Forall good items -> rejected o e -> zlen a = start + zlen pre -> (length items < n)%nat ->
  insert_loop k (src_items (pre ++ items ++ o :: rest)) n (zlen pre) start (a ++ c)
  = (Raise e, a ++ map (elem_val k) items ++ -1 :: c).
Proof.
  intros G R. revert pre items a G. induction n as [|n IH]; intros pre items a G Ha Hn; [lia|].
  cbn [insert_loop src_get src_items]. destruct items as [|o' items].
  - cbn [app]. rewrite znth_mid by reflexivity. rewrite (as_long_of k o e R).
    rewrite <- Ha. rewrite zinsert_mid by reflexivity.
    assert (W : wrap (bits k) (-1) = -1) by (apply wrap_id; [apply bits_ge|destruct k; split; cbn; lia]).
    rewrite W. reflexivity.
  - inversion G as [|? ? G1 G2]; subst. cbn [app]. rewrite znth_mid by reflexivity.
    destruct (good_as_long o' G1) as (z & -> & Ez). rewrite Ez.
    rewrite <- Ha. rewrite zinsert_mid by reflexivity.
    assert (E1 : zlen pre + 1 = zlen (pre ++ [PInt z])) by (rewrite zlen_app; reflexivity).
    assert (E2 : pre ++ PInt z :: items ++ o :: rest = (pre ++ [PInt z]) ++ items ++ o :: rest)
      by (rewrite <- app_assoc; reflexivity).
    rewrite E1, E2.
    replace (a ++ wrap (bits k) z :: c) with ((a ++ [wrap (bits k) z]) ++ c) by (rewrite <- app_assoc; reflexivity).
    cbn [length] in *. rewrite IH; [|assumption|rewrite !zlen_app; change (zlen [PInt z]) with 1; change (zlen [wrap (bits k) z]) with 1; lia|lia].
    rewrite <- app_assoc. cbn [map elem_val app]. reflexivity.
Qed.

(** The failing item is stored as -1; the part of the slice behind it and the
    rest of the list stay. *)
Lemma setslice_bad k sl items vs o e rest s : zlen s <= SSIZE_MAX -> step_of sl = 1 ->
  Forall2 (stores (bits k)) items vs -> rejected o e ->
  exists a b c, s = a ++ b ++ c /\ (forall ws, py_setslice s sl ws = a ++ ws ++ c) /\
  setitem_slice k sl (AssSeq (src_items (items ++ o :: rest))) s =
  (Raise e, a ++ vs ++ -1 :: skipn (length vs + 1) b ++ c).
Proof.
  intros L S F R. apply stores_good in F. destruct F as [G <-].
  destruct (slice_split s sl) as (a & b & c & E & La & Lb & P).
  exists a, b, c. split; [exact E|]. split; [exact P|].
  unfold setitem_slice.
  destruct (unpack_step1 s sl L S) as (start & stop & -> & Adj). cbn [with_]. rewrite Adj.
  change (negb (1 =? 1)) with false. cbv iota. cbn [src_len src_items].
  rewrite <- Lb, <- La. clear La Lb Adj P. subst s. clear L S.
  set (its := items ++ o :: rest).
  assert (Li : zlen its = zlen items + 1 + zlen rest) by (unfold its; rewrite zlen_app, zlen_cons; lia).
  pose proof (zlen_nonneg rest). pose proof (zlen_nonneg items). pose proof (zlen_nonneg b).
  assert (EB : Z.to_nat (zlen b) = length b) by (unfold zlen; lia).
  rewrite map_length.
  destruct (Z.lt_ge_cases (zlen items) (zlen b)) as [C|C].
  - (* fails while overwriting *)
    assert (AL : forall n, (length items < n)%nat -> (n <= length b)%nat ->
      assign_loop k (src_items its) n 0 (zlen a) (a ++ b ++ c) =
      (Raise e, a ++ map (elem_val k) items ++ -1 :: skipn (length items + 1) b ++ c)).
    { intros n N1 N2. pose proof (assign_loop_bad k [] items o e rest (zlen a) n a (firstn n b) (skipn n b ++ c) G R) as Q.
      cbn [app] in Q. change (zlen []) with 0 in Q. rewrite Z.add_0_r in Q.
      specialize (Q eq_refl ltac:(rewrite firstn_length; lia) N1).
      rewrite app_assoc with (l := firstn n b) in Q. rewrite firstn_skipn in Q. fold its in Q. rewrite Q.
      do 3 f_equal. rewrite app_assoc. f_equal. f_equal.
      rewrite <- (firstn_skipn n b) at 3. rewrite skipn_app.
      rewrite firstn_length. replace (length items + 1 - Nat.min n (length b))%nat with 0%nat by lia.
      reflexivity. }
    assert (LB : (length items < length b)%nat) by (unfold zlen in C; lia).
    destruct (Z.eqb_spec (zlen its) (zlen b)) as [E1|E1]; [|destruct (Z.ltb_spec (zlen its) (zlen b)) as [E2|E2]].
    + rewrite EB, AL by lia. reflexivity.
    + rewrite AL by (unfold zlen in *; lia). reflexivity.
    + rewrite EB, AL by lia. reflexivity.
  - (* fails while inserting *)
    destruct (Z.eqb_spec (zlen its) (zlen b)) as [E1|E1]; [lia|]. destruct (Z.ltb_spec (zlen its) (zlen b)) as [E2|E2]; [lia|].
    assert (N : (length b <= length items)%nat) by (unfold zlen in C; lia).
    pose proof (assign_loop_ok k [] its (zlen a) (length b) a b c) as Q.
    cbn [app] in Q. change (zlen []) with 0 in Q.
    assert (FN : firstn (length b) its = firstn (length b) items).
    { unfold its. rewrite firstn_app. replace (length b - length items)%nat with 0%nat by lia. cbn. apply app_nil_r. }
    rewrite FN in Q. rewrite EB, Q; [|apply Forall_firstn; exact G|unfold its; rewrite app_length; lia|reflexivity|lia].
    cbn [fst snd].
    rewrite app_assoc.
    pose proof (insert_loop_bad k (firstn (length b) items) (skipn (length b) items) o e rest (zlen a)
      (Z.to_nat (zlen its - zlen b)) (a ++ map (elem_val k) (firstn (length b) items)) c
      (Forall_skipn _ _ _ G) R) as Q2.
    rewrite app_assoc with (l := firstn (length b) items) in Q2. rewrite firstn_skipn in Q2. fold its in Q2.
    assert (ZL : zlen (firstn (length b) items) = zlen b) by (unfold zlen; rewrite firstn_length; lia).
    rewrite ZL in Q2. rewrite Q2.
    + cbn [then_ret fst snd obind]. unfold then_ret. cbn [fst snd obind]. f_equal.
      rewrite (skipn_all2 (n := length items + 1) b) by lia. cbn [app]. rewrite <- app_assoc. f_equal.
      rewrite app_assoc. f_equal. rewrite <- map_app, firstn_skipn. reflexivity.
    + rewrite zlen_app. unfold zlen at 2. rewrite map_length. fold (zlen (firstn (length b) items)). lia.
    + rewrite skipn_length. unfold zlen in *. lia.
Qed.

(** ** Assigning a list to a slice of itself *)
Definition exact_reads (cfg : config) (k : kind) (v : Z) : Prop := pl_val (from_elem cfg k v) = v.

Lemma cycled_len s lo n : length (cycled s lo n) = (lo + n)%nat.
Proof. unfold cycled. rewrite map_length, seq_length. reflexivity. Qed.

Lemma cycled_0 s lo : (lo <= length s)%nat -> cycled s lo 0 = firstn lo s.
Proof.
  intros H. unfold cycled. rewrite Nat.add_0_r.
  apply nth_ext with (d := 0) (d' := 0); rewrite map_length, seq_length; [rewrite firstn_length; lia|].
  intros i Hi. rewrite (nth_indep _ 0 ((fun p => nth (p mod lo) s 0) 0%nat)) by (rewrite map_length, seq_length; assumption).
  rewrite (map_nth (fun p => nth (p mod lo) s 0)), seq_nth by assumption. cbn [Nat.add].
  rewrite Nat.mod_small by assumption. rewrite <- (firstn_skipn lo s) at 1. apply app_nth1. rewrite firstn_length. lia.
Qed.

Lemma cycled_S s lo n : cycled s lo (S n) = cycled s lo n ++ [nth ((lo + n) mod lo) s 0].
Proof. unfold cycled. rewrite Nat.add_succ_r, seq_S, map_app. reflexivity. Qed.

Lemma cycled_nth s lo n i : (i < lo + n)%nat -> nth_error (cycled s lo n) i = Some (nth (i mod lo) s 0).
Proof.
  intros H. unfold cycled. rewrite nth_error_map, (nth_error_nth' _ 0%nat) by (rewrite seq_length; assumption).
  rewrite seq_nth by assumption. reflexivity.
Qed.

Lemma self_read cfg k s lo n rest : (0 < lo)%nat -> (lo <= length s)%nat ->
  Forall (in_range k) s -> Forall (exact_reads cfg k) s ->
  exists z, get_as_int cfg k (cycled s lo n ++ rest) (Z.of_nat n) = Ret (PInt z) /\
    as_long (PInt z) = Ret z /\ wrap (bits k) z = nth ((lo + n) mod lo) s 0.
Proof.
  intros L1 L2 F X. unfold get_as_int, znth. destruct (Z.ltb_spec (Z.of_nat n) 0); [lia|].
  rewrite Nat2Z.id, nth_error_app1 by (rewrite cycled_len; lia). rewrite cycled_nth by lia.
  set (v := nth (n mod lo) s 0). assert (I : In v s).
  { apply nth_In. pose proof (Nat.mod_upper_bound n lo). lia. }
  rewrite Forall_forall in F, X. specialize (F v I). specialize (X v I). unfold exact_reads in X.
  exists v. rewrite X. split; [reflexivity|]. split.
  - cbn. rewrite (proj2 (in_sbits_b_spec 64 v)) by (eapply in_range_64; eauto). reflexivity.
  - rewrite wrap_id by (try exact F; apply bits_ge). unfold v. f_equal.
    rewrite Nat.add_mod, Nat.mod_same, Nat.add_0_l, Nat.mod_mod by lia. reflexivity.
Qed.

Lemma self_assign_loop cfg k s lo m n b c : (0 < lo)%nat -> (lo <= length s)%nat ->
  Forall (in_range k) s -> Forall (exact_reads cfg k) s -> length b = m ->
  assign_loop k (src_self cfg k) m (Z.of_nat n) (Z.of_nat lo) (cycled s lo n ++ b ++ c)
  = (Ret tt, cycled s lo (n + m) ++ c).
Proof.
  intros L1 L2 F X. revert n b. induction m as [|m IH]; intros n b Hb.
  - destruct b; [|discriminate]. cbn [assign_loop app]. rewrite Nat.add_0_r. reflexivity.
  - destruct b as [|x b]; [discriminate|]. cbn [assign_loop src_get src_self].
    destruct (self_read cfg k s lo n ((x :: b) ++ c) L1 L2 F X) as (z & -> & -> & W).
    cbn [app]. rewrite zset_mid by (unfold zlen; rewrite cycled_len; lia). rewrite W.
    replace (cycled s lo n ++ nth ((lo + n) mod lo) s 0 :: b ++ c) with (cycled s lo (S n) ++ b ++ c)
      by (rewrite cycled_S, <- app_assoc; reflexivity).
    replace (Z.of_nat n + 1) with (Z.of_nat (S n)) by lia. rewrite IH by (cbn in Hb; lia).
    rewrite Nat.add_succ_comm. reflexivity.
Qed.

Lemma self_insert_loop cfg k s lo m n c : (0 < lo)%nat -> (lo <= length s)%nat ->
  Forall (in_range k) s -> Forall (exact_reads cfg k) s ->
  insert_loop k (src_self cfg k) m (Z.of_nat n) (Z.of_nat lo) (cycled s lo n ++ c)
  = (Ret tt, cycled s lo (n + m) ++ c).
Proof.
  intros L1 L2 F X. revert n. induction m as [|m IH]; intros n.
  - cbn [insert_loop app]. rewrite Nat.add_0_r. reflexivity.
  - cbn [insert_loop src_get src_self].
    destruct (self_read cfg k s lo n c L1 L2 F X) as (z & -> & -> & W).
    rewrite zinsert_mid by (unfold zlen; rewrite cycled_len; lia). rewrite W.
    replace (cycled s lo n ++ nth ((lo + n) mod lo) s 0 :: c) with (cycled s lo (S n) ++ c)
      by (rewrite cycled_S, <- app_assoc; reflexivity).
    replace (Z.of_nat n + 1) with (Z.of_nat (S n)) by lia. rewrite IH.
    rewrite Nat.add_succ_comm. reflexivity.
Qed.

Lemma self_slice cfg k sl s : zlen s <= SSIZE_MAX -> step_of sl = 1 ->
  Forall (in_range k) s -> Forall (exact_reads cfg k) s ->
  forall a b c, s = a ++ b ++ c -> (forall ws, py_setslice s sl ws = a ++ ws ++ c) ->
  zlen a = lo_of s sl -> zlen b = Z.max 0 (hi_of s sl - lo_of s sl) -> a <> [] ->
  setitem_slice k sl (AssSeq (src_self cfg k)) s =
  (Ret VNone, cycled s (length a) (length s) ++ c).
Proof.
  intros L S F X a b c E P La Lb Na. unfold setitem_slice.
  destruct (unpack_step1 s sl L S) as (start & stop & -> & Adj). cbn [with_]. rewrite Adj.
  change (negb (1 =? 1)) with false. cbv iota. cbn [src_len src_self].
  rewrite <- Lb, <- La. clear Adj.
  assert (A0 : (0 < length a)%nat) by (destruct a; [contradiction|cbn; lia]).
  assert (LS : length s = (length a + length b + length c)%nat) by (rewrite E, !app_length; lia).
  assert (A1 : (length a <= length s)%nat) by lia.
  unfold zlen. destruct (Z.eqb_spec (Z.of_nat (length s)) (Z.of_nat (length b))) as [|_]; [lia|].
  destruct (Z.ltb_spec (Z.of_nat (length s)) (Z.of_nat (length b))) as [|_]; [lia|].
  rewrite Nat2Z.id.
  pose proof (self_assign_loop cfg k s (length a) (length b) 0 b c A0 A1 F X eq_refl) as Q.
  rewrite cycled_0 in Q by assumption.
  replace (firstn (length a) s) with a in Q
    by (rewrite E, firstn_app, firstn_all, Nat.sub_diag, firstn_O, app_nil_r; reflexivity).
  rewrite <- E in Q. change (Z.of_nat 0) with 0 in Q. rewrite Q. cbn [fst snd].
  rewrite Nat.add_0_l.
  replace (Z.to_nat (Z.of_nat (length s) - Z.of_nat (length b))) with (length s - length b)%nat by lia.
  rewrite (self_insert_loop cfg k s (length a) (length s - length b) (length b) c A0 A1 F X).
  replace (length b + (length s - length b))%nat with (length s) by lia. reflexivity.
Qed.

Lemma self_slice_at cfg k (i j : Z) s : zlen s <= SSIZE_MAX ->
  Forall (in_range k) s -> Forall (exact_reads cfg k) s -> 0 < i <= j -> j <= zlen s ->
  setitem_slice k {| sl_start := Some i; sl_stop := Some j; sl_step := None |} (AssSeq (src_self cfg k)) s =
  (Ret VNone, cycled s (Z.to_nat i) (length s) ++ skipn (Z.to_nat j) s).
Proof.
  intros L F X Hi Hj. set (sl := {| sl_start := Some i; sl_stop := Some j; sl_step := None |}).
  destruct (slice_split s sl) as (a & b & c & E & La & Lb & P).
  assert (Lo : lo_of s sl = i). { unfold lo_of, sl, clamp, rel; cbn. destruct (Z.ltb_spec i 0); lia. }
  assert (Hh : hi_of s sl = j). { unfold hi_of, sl, clamp, rel; cbn. destruct (Z.ltb_spec j 0); lia. }
  assert (Na : a <> []). { intros ->. change (zlen []) with 0 in La. lia. }
  rewrite (self_slice cfg k sl s L eq_refl F X a b c E P La Lb Na).
  rewrite Lo in *. rewrite Hh in *.
  f_equal. f_equal; [f_equal; unfold zlen in La; lia|].
  rewrite E, app_assoc, skipn_app. unfold zlen in *. rewrite skipn_all2 by (rewrite app_length; lia).
  rewrite app_length. replace (Z.to_nat j - (length a + length b))%nat with 0%nat by lia. reflexivity.
Qed.

(** Reads are exact for 64-bit lists and before Python 3.12. *)
Lemma exact_reads_big cfg v : in_range KBig v -> exact_reads cfg KBig v.
Proof. intros _. unfold exact_reads. cbn [from_elem]. apply mk_pylong_val. Qed.
