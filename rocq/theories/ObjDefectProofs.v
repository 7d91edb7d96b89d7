(** Object lists: what goes wrong outside the counted calls. *)
From Coq Require Import ZArith List Bool Lia Arith.
From Verif Require Import Base PyLongModel PyLongProofs MemModel PyListSpec ListLemmas ArrayListModel ArrayListProofs StdListModel StdListProofs
  LinkedListModel LinkedListProofs ObjModel ObjArrayModel ObjLinkedModel ObjWorldModel ObjSpec ObjLemmas ObjArrayProofs ObjLinkedProofs
  ObjHistoryProofs ArrayListMoreModel ObjMoreModel ObjMoreSpec ObjMoreProofs.
Import ListNotations.
Local Open Scope Z_scope.

(** ** Histories with arbitrary objects *)
Ltac wsimp := repeat (first [progress cbn | progress unfold incref, decref, upd | progress rewrite ?Z.eqb_refl, ?andb_true_r | 
  match goal with H : is_obj ?o = true |- context [is_obj ?o] => rewrite H end |
  match goal with H : (?o =? 0) = false |- context [?o =? 0] => rewrite H end |
  match goal with H : (?o =? ?p) = false |- context [?o =? ?p] => rewrite H end ]).
Lemma obj_nz o : is_obj o = true -> (o =? 0) = false.
Proof. intros H. pose proof (obj_pos o H). destruct (Z.eqb_spec o 0); lia. Qed.

Definition steal_history (o : Z) : list event :=
  [EvAcquire o; EvNew (Some (SPyList [o])); EvNew (Some (SObj 0)); EvRelease o; EvFree 0; EvFree 1].
Lemma a_init_steals f o : is_obj o = true -> wrun (steal_history o) (empty_world (ArrayClass f)) = Undef UseAfterFree.
Proof.
  intros H. pose proof (obj_nz o H) as N. unfold steal_history. cbn [wrun wstep]. rewrite H. cbn [negb obind].
  unfold possible, new_ref, upd. cbn -[Z.eqb incref decref]. unfold incref, decref, upd. wsimp. reflexivity.
Qed.
Lemma l_init_steals o : is_obj o = true -> wrun (steal_history o) (empty_world LinkedClass) = Undef UseAfterFree.
Proof.
  intros H. pose proof (obj_nz o H) as N. unfold steal_history. cbn [wrun wstep]. rewrite H. cbn [negb obind].
  unfold possible, new_ref, upd. cbn -[Z.eqb incref decref]. unfold incref, decref, upd. wsimp. reflexivity.
Qed.

Definition leak_history (o p : Z) : list event :=
  [EvAcquire o; EvNew (Some (SPyList [o])); EvAcquire p; EvCall 0 (CSet (PInt 0) p); EvRelease o; EvRelease p; EvFree 0].
Lemma a_set_leaks_history f o p : is_obj o = true -> is_obj p = true -> o <> p -> exists w,
  wrun (leak_history o p) (empty_world (ArrayClass f)) = Ret w /\ w_lists w = [None] /\ w_ext w o = 0 /\ w_rc w o = 1 /\ w_rc w p = 0.
Proof.
  intros H G NE. pose proof (obj_nz o H) as N. pose proof (obj_nz p G) as M.
  assert (X : (o =? p) = false) by (apply Z.eqb_neq; exact NE). assert (Y : (p =? o) = false) by (apply Z.eqb_neq; auto).
  unfold leak_history. cbn [wrun wstep]. rewrite H. cbn [negb obind].
  unfold possible, new_ref, upd. cbn -[Z.eqb incref decref]. unfold incref, decref, upd. wsimp. eexists. split; [reflexivity|]. wsimp. auto.
Qed.
Lemma l_set_leaks_history o p : is_obj o = true -> is_obj p = true -> o <> p -> exists w,
  wrun (leak_history o p) (empty_world LinkedClass) = Ret w /\ w_lists w = [None] /\ w_ext w o = 0 /\ w_rc w o = 1 /\ w_rc w p = 0.
Proof.
  intros H G NE. pose proof (obj_nz o H) as N. pose proof (obj_nz p G) as M.
  assert (X : (o =? p) = false) by (apply Z.eqb_neq; exact NE). assert (Y : (p =? o) = false) by (apply Z.eqb_neq; auto).
  unfold leak_history. cbn [wrun wstep]. rewrite H. cbn [negb obind].
  unfold possible, new_ref, upd. cbn -[Z.eqb incref decref]. unfold incref, decref, upd. wsimp. eexists. split; [reflexivity|]. wsimp. auto.
Qed.

Local Arguments Z.pow : simpl never.
Local Arguments Z.add : simpl never.
Local Arguments Z.sub : simpl never.
Local Arguments Z.mul : simpl never.
Local Arguments Z.of_nat : simpl never.
Local Arguments Z.to_nat : simpl never.

(** ** None *)
Lemma acquire_none {K} k : forall (w : world K), exists w', wrun (repeat (EvAcquire PyNone) k) w = Ret w' /\
  w_lists w' = w_lists w /\ w_rc w' PyNone = w_rc w PyNone + Z.of_nat k.
Proof.
  induction k as [|k IH]; intros w; cbn [repeat wrun].
  - exists w. split; [reflexivity|]. split; [reflexivity|lia].
  - cbn [wstep]. change (negb (is_obj PyNone)) with false. cbn [obind].
    destruct (IH {| w_lists := w_lists w; w_rc := new_ref PyNone (w_rc w); w_ext := new_ref PyNone (w_ext w); w_log := w_log w |}) as (w' & E & L & C).
    exists w'. split; [exact E|]. split; [exact L|]. rewrite C. cbn [w_rc]. unfold new_ref, upd. rewrite Z.eqb_refl. lia.
Qed.
Lemma wrun_app {K} a b (w : world K) : wrun (a ++ b) w = obind (wrun a w) (wrun b).
Proof.
  revert w. induction a as [|e a IH]; intros w; cbn [app wrun obind]; [reflexivity|].
  rewrite obind_assoc. apply obind_ext. exact IH.
Qed.
Lemma decref_none n : forall rc, rc PyNone < Z.of_nat n -> 0 <= rc PyNone -> decref_all (repeat PyNone n) rc = Undef UseAfterFree.
Proof.
  induction n as [|n IH]; intros rc H P; [lia|]. cbn [repeat decref_all]. unfold decref. change (PyNone =? 0) with false. cbv iota.
  destruct (Z.leb_spec (rc PyNone) 0); [reflexivity|]. cbn [obind]. apply IH; unfold upd; rewrite Z.eqb_refl; lia.
Qed.
Definition none_history (k : nat) : list event :=
  repeat (EvAcquire PyNone) k ++ [EvNew None; EvCall 0 (CResize (PInt (Z.of_nat k + 1))); EvFree 0].
Lemma a_resize_none f k : Z.of_nat k + 1 <= SSIZE_MAX -> wrun (none_history k) (empty_world (ArrayClass f)) = Undef UseAfterFree.
Proof.
  intros H. unfold none_history. rewrite wrun_app. destruct (acquire_none k (empty_world (ArrayClass f))) as (w & -> & L & C).
  assert (E : forall r, k_call (ArrayClass f) (CResize (PInt (Z.of_nat k + 1))) [] r = (Ret ONone, (repeat PyNone (S k), r))).
  { intros r. cbn [k_call ArrayClass a_call]. unfold a_resize. replace (in_sbits_b 64 (Z.of_nat k + 1)) with true.
    2:{ symmetry. apply in_sbits_b_spec. unfold in_sbits. destruct ssize_consts as [EA EB]. rewrite EA in H. pose proof (Z.pow_pos_nonneg 2 63). lia. }
    cbv zeta. destruct (Z.ltb_spec (Z.of_nat k + 1) 0); [lia|]. rewrite firstn_nil. cbn [app length].
    replace (Z.to_nat (Z.of_nat k + 1) - 0)%nat with (S k) by lia. reflexivity. }
  cbn [obind wrun wstep]. unfold possible. cbn [forallb andb k_init ArrayClass a_init obind w_lists]. rewrite L. cbn [empty_world w_lists app nth_error].
  cbn [call_map forallb call_held call_made call_arg andb w_rc]. change (@nil (k_list (ArrayClass f))) with (@nil vec) in *. rewrite E.
  cbn [obind w_lists set_list nth_error app result_new w_rc]. 
  change (k_free (ArrayClass f) (repeat PyNone (S k)) (w_rc w)) with (decref_all (repeat PyNone (S k)) (w_rc w)).
  rewrite decref_none; [reflexivity| |]; rewrite C; cbn [w_rc empty_world]; lia.
Qed.

(** ** Calls of ObjectArrayList *)
Section Array.
Variables (f : cpu) (s : vec) (rc d : counts).
Hypothesis (D : forall x, 0 <= d x) (R : forall x, rc x = occ s x + d x) (F : Forall obj s) (Hl : zlen s <= SSIZE_MAX).

(** Item assignment: the replaced object keeps a reference nobody has. *)
Lemma a_set_leaks z p old q o : s = p ++ old :: q -> rel (zlen s) z = zlen p -> obj o -> 0 < d o ->
  exists rc', a_call f (CSet (PInt z) o) s rc = (Ret ONone, (p ++ o :: q, rc')) /\
    forall x, rc' x = occ (p ++ o :: q) x + d x + occ [old] x.
Proof.
  intros E Z0 O P. assert (B : 0 <= zlen p < zlen s) by (rewrite E, zlen_app; unfold zlen; cbn [length]; lia).
  assert (G : in_sbits_b 64 z = true).
  { destruct (in_sbits_b 64 z) eqn:G; [reflexivity|]. pose proof (index_fits s Hl z G) as X. rewrite Z0, (proj2 (rel_bounds_dec _ _) B) in X. discriminate. }
  cbn [a_call]. unfold a_ass_subscript. cbn [as_index]. rewrite G. cbn [owith]. unfold a_setitem. cbv zeta.
  rewrite index_same by (apply in_sbits_b_spec; exact G). rewrite Z0, idx_test, (proj2 (rel_bounds_dec _ _) B). cbn [negb].
  assert (ZS : zset s (zlen p) o = Some (p ++ o :: q)) by (rewrite E; apply zset_mid; reflexivity). rewrite ZS.
  destruct (incref_ok o rc O) as (rc' & I1 & I2); [rewrite R; pose proof (occ_nonneg s o); lia|]. rewrite I1. cbn [owith].
  exists rc'. split; [reflexivity|]. intros x. rewrite I2, R, E, !occ_app. cbn [occ]. lia.
Qed.

(** resize: contents as documented, counts untouched. *)
Lemma a_resize_counts n : 0 <= n <= SSIZE_MAX ->
  let s' := firstn (Z.to_nat n) s ++ repeat PyNone (Z.to_nat n - length s) in
  a_call f (CResize (PInt n)) s rc = (Ret ONone, (s', rc)) /\
  forall x, rc x = occ s' x + d x + occ (skipn (Z.to_nat n) s) x - (if x =? PyNone then Z.max 0 (n - zlen s) else 0).
Proof.
  intros H s'. split.
  - cbn [a_call a_resize]. replace (in_sbits_b 64 n) with true.
    2:{ symmetry. apply in_sbits_b_spec. unfold in_sbits. destruct ssize_consts as [EA EB]. rewrite EA in H. pose proof (Z.pow_pos_nonneg 2 63). lia. }
    cbv zeta. destruct (Z.ltb_spec n 0); [lia|]. reflexivity.
  - intros x. unfold s'. rewrite R, (occ_split s (Z.to_nat n)), occ_app.
    assert (Q : forall m, occ (repeat PyNone m) x = if x =? PyNone then Z.of_nat m else 0).
    { induction m as [|m IH]; cbn [repeat occ]; [destruct (x =? PyNone); reflexivity|]. rewrite IH, (Z.eqb_sym PyNone). destruct (x =? PyNone); lia. }
    rewrite Q. unfold zlen. destruct (x =? PyNone); lia.
Qed.

(** Slice assignment that grows the list. *)
Lemma a_setslice_grow sl ys v : v = SetTo (OSame ys) \/ v = SetTo (OList ys) -> step_of sl = 1 -> slice_len s sl < zlen ys ->
  Forall (fun o => obj o /\ 0 < d o) ys ->
  exists rc', a_call f (CSetSlice sl v) s rc = (Ret ONone, (py_setslice s sl ys, rc')) /\
    forall x, rc' x = occ (py_setslice s sl ys) x + d x - occ (skipn (Z.to_nat (slice_len s sl)) ys) x.
Proof.
  intros V S1 SL P. destruct (unpack_step1 s sl Hl S1) as (start & stop & U & Adj).
  assert (EL := slice_len_eq s sl _ _ _ _ _ _ Hl U Adj). rewrite Z.max_r in EL by lia.
  cbn [a_call]. unfold a_setitem_slice. rewrite U. cbn [owith]. rewrite Adj. change (negb (1 =? 1)) with false. cbv iota zeta.
  destruct (slice_split s sl) as (a & b & c & E & La & Lb & Pp). rewrite Pp, EL in *. rewrite <- Lb in *.
  assert (Fb : Forall obj b) by (rewrite E in F; apply Forall_app in F; destruct F as [_ F']; apply Forall_app in F'; apply F').
  assert (Hb : forall x, occ s x = occ a x + occ b x + occ c x) by (intros x; rewrite E, !occ_app; lia).
  assert (NB : (length b <= length ys)%nat) by (unfold zlen in SL; lia).
  destruct (fast_copy_ok ys a b c rc NB Fb) as (rc' & Ef & Rf).
  { intros x. rewrite R, Hb. pose proof (occ_nonneg a x). pose proof (occ_nonneg c x). specialize (D x). lia. }
  { eapply Forall_impl; [|exact P]. cbn beta. intros x [O X]. split; [exact O|]. rewrite R, Hb.
    pose proof (occ_nonneg a x). pose proof (occ_nonneg c x). lia. }
  exists rc'. split.
  - assert (Q : (if zlen ys =? zlen b then done_ (fast_copy ys (zlen b) (lo_of s sl) s rc) s rc
     else if zlen ys <? zlen b then done_ (obind (fast_copy ys (zlen ys) (lo_of s sl) s rc) (fun '(s0, rc) =>
             drop_range (lo_of s sl + zlen ys) (zlen b - zlen ys) (hi_of s sl) s0 rc)) s rc
     else done_ (obind (fast_copy ys (zlen b) (lo_of s sl) s rc) (fun '(s0, rc) =>
             omap (fun s => (s, rc)) (insert_range (lo_of s sl + zlen b) (skipn (Z.to_nat (zlen b)) ys) s0))) s rc)
       = (Ret ONone, (a ++ ys ++ c, rc'))).
    { destruct (Z.eqb_spec (zlen ys) (zlen b)); [lia|]. destruct (Z.ltb_spec (zlen ys) (zlen b)); [lia|]. rewrite <- La.
      replace (fast_copy ys (zlen b) (zlen a) s rc) with (fast_copy ys (zlen b) (zlen a) (a ++ b ++ c) rc) by (rewrite <- E; reflexivity).
      rewrite Ef. cbn [obind]. unfold insert_range.
      replace (zlen a + zlen b) with (zlen (a ++ firstn (length b) ys)) by (rewrite zlen_app; unfold zlen; rewrite firstn_length; lia).
      rewrite (app_assoc a (firstn (length b) ys) c).
      destruct (Z.leb_spec 0 (zlen (a ++ firstn (length b) ys))); [|pose proof (zlen_nonneg (a ++ firstn (length b) ys)); lia].
      destruct (Z.leb_spec (zlen (a ++ firstn (length b) ys)) (zlen ((a ++ firstn (length b) ys) ++ c))); [|rewrite (zlen_app _ c) in *; pose proof (zlen_nonneg c); lia].
      cbn [andb omap obind]. unfold done_. cbn [owith]. f_equal. f_equal. replace (Z.to_nat (zlen (a ++ firstn (length b) ys))) with (length (a ++ firstn (length b) ys)) by (unfold zlen; lia).
      rewrite firstn_app_len, skipn_app_len. replace (Z.to_nat (zlen b)) with (length b) by (unfold zlen; lia).
      rewrite <- app_assoc. rewrite (app_assoc (firstn (length b) ys)), firstn_skipn. reflexivity. }
    destruct V as [-> | ->]; exact Q.
  - intros x. rewrite Rf, R, Hb, !occ_app. rewrite (occ_split ys (length b) x). replace (Z.to_nat (zlen b)) with (length b) by (unfold zlen; lia). lia.
Qed.

(** a *= n for n <= 0. *)
Lemma a_imul_zero n : n <= 0 -> a_call f (CImul n) s rc = (Ret OSelf, ([], rc)).
Proof.
  intros H. cbn [a_call]. unfold a_imul. cbv zeta. replace (if n <? 0 then 0 else n) with 0 by (destruct (Z.ltb_spec n 0); lia). reflexivity.
Qed.

(** ** Undefined behaviour *)
Lemma a_del_slice sl : a_call f (CSetSlice sl SetDel) s rc = (if step_of sl =? 0 then Raise ValueError else Undef NullDeref, (s, rc)).
Proof.
  cbn [a_call]. unfold a_setitem_slice. destruct (unpack_cases sl) as [[E U]|[E (start & stop & step & U)]]; rewrite U; cbn [owith].
  - rewrite (proj2 (Z.eqb_eq _ _) E). reflexivity.
  - destruct (PySlice_AdjustIndices _ _ _ _) as [[? ?] ?]. rewrite (proj2 (Z.eqb_neq _ _) E). reflexivity.
Qed.

Lemma incref_cases o r : (exists r', incref o r = Ret r') \/ exists u, incref o r = Undef u.
Proof. unfold incref. destruct (o =? 0), (r o <=? 0); eauto. Qed.
Lemma decref_cases o r : (exists r', decref o r = Ret r') \/ exists u, decref o r = Undef u.
Proof. unfold decref. destruct (o =? 0), (r o <=? 0); eauto. Qed.
Lemma fast_loop_cases src n : forall i start v r, (exists x, fast_loop src n i start v r = Ret x) \/ exists u, fast_loop src n i start v r = Undef u.
Proof.
  induction n as [|n IH]; intros i start v r; cbn [fast_loop]; [eauto|].
  destruct (znth v (start + i)); cbn [or_ub obind]; [|eauto]. destruct (decref_cases z r) as [[r1 ->]|[u ->]]; cbn [obind]; [|eauto].
  destruct (zset v (start + i) 0); cbn [or_ub obind]; [|eauto]. destruct (src l i); cbn [or_ub obind]; [|eauto].
  destruct (incref_cases z0 r1) as [[r2 ->]|[u ->]]; cbn [obind]; [|eauto]. apply IH.
Qed.
Lemma copy_in_cases src : forall start v, (exists x, copy_in src start v = Ret x) \/ exists u, copy_in src start v = Undef u.
Proof. induction src as [|o src IH]; intros start v; cbn [copy_in]; [eauto|]. destruct (zset v start o); cbn [or_ub obind]; [apply IH|eauto]. Qed.
Lemma fast_self_cases n start : (exists x, fast_copy_self n start s rc = Ret x) \/ exists u, fast_copy_self n start s rc = Undef u.
Proof.
  unfold fast_copy_self. destruct (fast_loop_cases znth (Z.to_nat n) 0 start s rc) as [[[v r] ->]|[u ->]]; cbn [obind]; [|eauto].
  destruct (_ && _); [eauto|]. destruct (copy_in_cases (firstn (Z.to_nat n) v) start v) as [[w ->]|[u ->]]; cbn; eauto.
Qed.
Lemma a_self_slice sl : s <> [] -> step_of sl = 1 -> exists u, fst (a_call f (CSetSlice sl (SetTo OSelfArg)) s rc) = Undef u.
Proof.
  intros N S1. destruct (unpack_step1 s sl Hl S1) as (start & stop & U & Adj).
  cbn [a_call]. unfold a_setitem_slice. rewrite U. cbn [owith]. rewrite Adj. change (negb (1 =? 1)) with false. cbv iota zeta.
  pose proof (lo_hi_bounds s sl) as [B1 B2]. set (lo := lo_of s sl) in *. set (hi := hi_of s sl) in *.
  assert (L0 : 0 < zlen s) by (destruct s; [contradiction|unfold zlen; cbn [length]; lia]).
  destruct (Z.eqb_spec (zlen s) (Z.max 0 (hi - lo))) as [EL|NL].
  - assert (lo = 0) as -> by lia. rewrite <- EL. unfold fast_copy_self. replace (Z.to_nat (zlen s)) with (S (length s - 1)) by (unfold zlen in *; lia).
    cbn [fast_loop]. destruct s as [|x s0] eqn:Es; [contradiction|]. change (0 + 0) with 0. change (znth (x :: s0) 0) with (Some x). cbn [or_ub obind].
    destruct (decref_cases x rc) as [[r1 ->]|[u ->]]; cbn [obind]; [|exists u; reflexivity].
    change (zset (x :: s0) 0 0) with (Some (0 :: s0)). cbn [or_ub obind]. change (znth (0 :: s0) 0) with (Some 0). cbn [or_ub obind].
    change (incref 0 r1) with (@Undef counts NullDeref). exists NullDeref. reflexivity.
  - destruct (fast_self_cases (Z.max 0 (hi - lo)) lo) as [[x ->]|[u ->]]; cbn; eauto.
Qed.
End Array.

(** Slice assignment from a sequence without length, slice [|a|+1 : |a|+1+|b|]. *)
Definition bounds (i j : Z) : slice := {| sl_start := Some i; sl_stop := Some j; sl_step := None |}.
Lemma bounds_lo_hi (s : list Z) i j : 0 <= i <= zlen s -> 0 <= j <= zlen s -> lo_of s (bounds i j) = i /\ hi_of s (bounds i j) = j.
Proof.
  intros A B. unfold lo_of, hi_of, bounds, clamp, rel. cbn [sl_start sl_stop].
  destruct (Z.ltb_spec i 0), (Z.ltb_spec j 0); try lia.
Qed.
Lemma a_nolen_eats f (a : list Z) x b c e rc : zlen (a ++ (x :: b) ++ c) <= SSIZE_MAX -> Forall obj (x :: b) -> (forall y, occ (x :: b) y <= rc y) ->
  exists rc', a_call f (CSetSlice (bounds (zlen a + 1) (zlen a + 1 + zlen b)) (SetNoLen e)) (a ++ (x :: b) ++ c) rc = (RetPending ONone e, (a ++ c, rc')) /\
    forall y, rc' y = rc y - occ (x :: b) y.
Proof.
  intros Hl Fb Hb. set (s := a ++ (x :: b) ++ c) in *. set (sl := bounds (zlen a + 1) (zlen a + 1 + zlen b)).
  assert (LS : zlen s = zlen a + 1 + zlen b + zlen c) by (unfold s; rewrite !zlen_app; unfold zlen; cbn [length]; lia).
  pose proof (zlen_nonneg a). pose proof (zlen_nonneg b). pose proof (zlen_nonneg c).
  destruct (bounds_lo_hi s (zlen a + 1) (zlen a + 1 + zlen b)) as [LO HI]; [lia|lia|].
  destruct (unpack_step1 s sl Hl eq_refl) as (start & stop & U & Adj). unfold sl in Adj. rewrite LO, HI in Adj. fold sl in Adj.
  cbn [a_call]. unfold a_setitem_slice. rewrite U. cbn [owith]. rewrite Adj. change (negb (1 =? 1)) with false. cbv iota zeta.
  destruct (drop_range_ok (x :: b) a c (Z.max 0 (zlen a + 1 + zlen b - (zlen a + 1)) + 1) (zlen a + 1 - 1) (zlen a + 1 + zlen b) rc) as (rc' & E & R'); auto;
    try (unfold zlen; cbn [length]; lia).
  fold s in E. rewrite E. cbn [owith]. eauto.
Qed.
Lemma a_nolen_before f (b c : list Z) e rc : zlen (b ++ c) <= SSIZE_MAX ->
  fst (a_call f (CSetSlice (bounds 0 (zlen b)) (SetNoLen e)) (b ++ c) rc) = Undef OutOfBounds.
Proof.
  intros Hl. set (s := b ++ c) in *. pose proof (zlen_nonneg b). pose proof (zlen_nonneg c).
  assert (LS : zlen s = zlen b + zlen c) by (unfold s; rewrite !zlen_app; lia).
  destruct (bounds_lo_hi s 0 (zlen b)) as [LO HI]; [lia|lia|].
  destruct (unpack_step1 s (bounds 0 (zlen b)) Hl eq_refl) as (start & stop & U & Adj). rewrite LO, HI in Adj.
  cbn [a_call]. unfold a_setitem_slice. rewrite U. cbn [owith]. rewrite Adj. change (negb (1 =? 1)) with false. cbv iota zeta.
  unfold drop_range. replace (Z.to_nat (Z.max 0 (zlen b - 0) + 1)) with (S (length b)) by (unfold zlen; lia). cbn [drop_loop]. change (0 - 1) with (-1).
  change (znth s (-1)) with (@None Z). reflexivity.
Qed.

(** ** imul *)
Lemma imul_invariant n s rc : 2 <= n -> s <> [] -> kept rc s -> forall k,
  exists x, imul_steps n k {| l_i := 1; l_j := 0; l_vec := s; l_rc := rc |} = Running x /\ zlen (l_vec x) = zlen s + Z.of_nat k.
Proof.
  intros N NE K. assert (G : forall k j v r, zlen v = zlen s + j -> 0 <= j -> kept r v ->
    exists x, imul_steps n k {| l_i := 1; l_j := j; l_vec := v; l_rc := r |} = Running x /\ zlen (l_vec x) = zlen v + Z.of_nat k).
  { assert (L0 : 0 < zlen s) by (destruct s; [contradiction|unfold zlen; cbn [length]; lia]).
    induction k as [|k IH]; intros j v r L J KV; cbn [imul_steps].
    - eexists. split; [reflexivity|]. cbn [l_vec]. lia.
    - unfold imul_step at 1. cbn [l_i l_j l_vec l_rc]. destruct (Z.ltb_spec 1 n); [|lia]. destruct (Z.ltb_spec j (zlen v)); [|lia].
      destruct (znth_in v j) as [o Eo]; [lia|]. rewrite Eo. assert (I0 : In o v) by (apply (or_ub_in OutOfBounds v j); rewrite Eo; reflexivity).
      destruct (proj1 (Forall_forall _ _) KV o I0) as [O P]. destruct (incref_ok o r O P) as (r' & -> & C).
      destruct (IH (j + 1) (v ++ [o]) r') as (x & E & Lx).
      + rewrite zlen_app. unfold zlen at 2. cbn [length]. lia.
      + lia.
      + apply Forall_app. assert (KV' : kept r' v) by (apply (kept_mono r r'); [intros y; rewrite C; pose proof (occ_nonneg [o] y); lia|exact KV]).
        split; [exact KV'|]. constructor; [|constructor]. exact (proj1 (Forall_forall _ _) KV' o I0).
      + exists x. split; [exact E|]. rewrite Lx, zlen_app. unfold zlen at 2. cbn [length]. lia. }
  intros k. apply (G k 0 s rc); [lia|lia|exact K].
Qed.
Lemma a_imul_never n s rc k : 2 <= n -> s <> [] -> kept rc s -> reserve_fails (zlen s) n = false -> a_imul k n s rc = None.
Proof.
  intros N NE K RF. unfold a_imul. cbv zeta. destruct (Z.ltb_spec n 0); [lia|]. destruct (Z.eqb_spec n 0); [lia|]. rewrite RF.
  destruct (imul_invariant n s rc N NE K k) as (x & -> & _). reflexivity.
Qed.
Lemma a_imul_grows n s rc k : 2 <= n -> s <> [] -> kept rc s -> exists v i j r,
  imul_steps n k {| l_i := 1; l_j := 0; l_vec := s; l_rc := rc |} = Running {| l_i := i; l_j := j; l_vec := v; l_rc := r |} /\ zlen v = zlen s + Z.of_nat k.
Proof. intros N NE K. destruct (imul_invariant n s rc N NE K k) as ([i j v r] & E & L). exists v, i, j, r. split; [exact E|exact L]. Qed.
Lemma a_imul_one s rc k : a_imul (S k) 1 s rc = Some (if reserve_fails (zlen s) 1 then (Raise RuntimeError, (s, rc)) else (Ret OSelf, (s, rc))).
Proof. unfold a_imul. cbv zeta. change (if 1 <? 0 then 0 else 1) with 1. change (1 =? 0) with false. cbv iota. destruct (reserve_fails (zlen s) 1); reflexivity. Qed.
Lemma a_imul_empty n rc k : 1 <= n -> (Z.to_nat n <= k)%nat -> a_imul k n [] rc = Some (Ret OSelf, ([], rc)).
Proof.
  intros N K. unfold a_imul. cbv zeta. destruct (Z.ltb_spec n 0); [lia|]. destruct (Z.eqb_spec n 0); [lia|].
  replace (reserve_fails (zlen []) n) with false by reflexivity. destruct k as [|k]; [lia|].
  rewrite imul_empty by lia. reflexivity.
Qed.
Lemma a_imul_too_large n s rc k : 1 <= n -> reserve_fails (zlen s) n = true -> a_imul k n s rc = Some (Raise RuntimeError, (s, rc)).
Proof.
  intros N RF. unfold a_imul. cbv zeta. destruct (Z.ltb_spec n 0); [lia|]. destruct (Z.eqb_spec n 0); [lia|]. rewrite RF. reflexivity.
Qed.

(** ** Calls of ObjectLinkedList *)
Section Linked.
Variables (l : ll) (rc d : counts).
Hypothesis (W : lwf l) (D : forall x, 0 <= d x) (R : forall x, rc x = occ (vals l) x + d x) (F : Forall obj (vals l)) (Hl : zlen (vals l) <= SSIZE_MAX).

Lemma idx_fits z : 0 <= rel (zlen (vals l)) z < zlen (vals l) -> in_sbits_b 64 z = true.
Proof.
  intros B. destruct (in_sbits_b 64 z) eqn:G; [reflexivity|]. pose proof (index_fits (vals l) Hl z G) as X. rewrite (proj2 (rel_bounds_dec _ _) B) in X. discriminate.
Qed.

Lemma l_set_leaks z p old q o : vals l = p ++ old :: q -> rel (zlen (vals l)) z = zlen p -> obj o -> 0 < d o ->
  exists l' rc', l_call (CSet (PInt z) o) l rc = (Ret ONone, (l', rc')) /\ lwf l' /\ vals l' = p ++ o :: q /\
    forall x, rc' x = occ (vals l') x + d x + occ [old] x.
Proof.
  intros E Z0 O P. assert (B : 0 <= zlen p < zlen (vals l)) by (rewrite E, zlen_app; unfold zlen; cbn [length]; lia).
  pose proof (idx_fits z) as G. rewrite Z0 in G. specialize (G B).
  cbn [l_call]. unfold l_ass_subscript. cbn [as_index]. rewrite G. cbn [owith]. unfold l_setitem. rewrite lsize_vals. cbv zeta.
  rewrite index_same by (apply in_sbits_b_spec; exact G). rewrite Z0, idx_test, (proj2 (rel_bounds_dec _ _) B). cbn [negb].
  rewrite at_pos by exact W. cbn [owith]. replace (Z.to_nat (zlen p)) with (length p) by (unfold zlen; lia).
  destruct (assign_pos (lst l) (length p) o W) as (s' & A1 & A2 & _ & A4 & _).
  { rewrite size_values. fold (vals l). rewrite E, app_length. cbn [length]. lia. }
  rewrite A1. cbn [owith]. destruct (incref_ok o rc O) as (rc' & I1 & I2); [rewrite R; pose proof (occ_nonneg (vals l) o); lia|]. rewrite I1. cbn [owith].
  fold (vals l) in A4. rewrite E, firstn_app_len, skipn_app_S in A4.
  exists (put l s'), rc'. split; [reflexivity|]. split; [exact A2|]. split; [exact A4|].
  intros x. rewrite I2, R. unfold vals, put. cbn [lst]. rewrite A4. fold (vals l). rewrite E, !occ_app. cbn [occ]. lia.
Qed.

Lemma l_extend_self_leaks : exists l' rc', l_call (CExtend OSelfArg) l rc = (Ret ONone, (l', rc')) /\ lwf l' /\ vals l' = vals l ++ vals l /\
  forall x, rc' x = occ (vals l') x + d x + occ (vals l) x.
Proof.
  cbn [l_call l_extend]. destruct (append_range_ok (vals l) (lst l) W) as (A1 & A2 & _). fold (vals l) in *. rewrite A2.
  pose proof (live_s (vals l) rc d D R F) as L.
  destruct (incref_all_ok (vals l ++ vals l) rc) as (rc' & I1 & I2).
  { apply Forall_app. split; exact L. }
  rewrite I1. cbn [owith]. eexists _, rc'. split; [reflexivity|]. split; [exact A1|]. split; [exact A2|].
  intros x. rewrite I2, R.
  replace (vals (bump l (append_range (lst l) (vals l)))) with (vals l ++ vals l) by (symmetry; exact A2). rewrite !occ_app. lia.
Qed.

Lemma l_imul_zero n : n <= 0 -> exists l', l_call (CImul n) l rc = (Ret OSelf, (l', rc)) /\ lwf l' /\ vals l' = [].
Proof.
  intros H. cbn [l_call]. unfold l_imul. cbv zeta. replace (if n <? 0 then 0 else n) with 0 by (destruct (Z.ltb_spec n 0); lia).
  change (0 =? 0) with true. cbv iota. eexists. split; [reflexivity|]. destruct (clear_ok (lst l)) as (A & B & _). split; [exact A|exact B].
Qed.

Lemma l_del_slice sl : l_call (CSetSlice sl SetDel) l rc = (if step_of sl =? 0 then Raise ValueError else Undef NullDeref, (l, rc)).
Proof.
  cbn [l_call]. unfold l_setitem_slice. destruct (unpack_cases sl) as [[E U]|[E (start & stop & step & U)]]; rewrite U; cbn [owith].
  - rewrite (proj2 (Z.eqb_eq _ _) E). reflexivity.
  - destruct (PySlice_AdjustIndices _ _ _ _) as [[? ?] ?]. rewrite (proj2 (Z.eqb_neq _ _) E). reflexivity.
Qed.

Lemma l_pop_freed z : 0 <= rel (zlen (vals l)) z < zlen (vals l) -> fst (l_call (CPop (Some (PInt z))) l rc) = Undef UseAfterFree.
Proof.
  intros B. pose proof (idx_fits z B) as G. cbn [l_call]. unfold l_pop. pose proof (nodes_vals l) as NV.
  destruct (nodes (lst l)) as [|n ns] eqn:EN.
  { rewrite (proj1 NV eq_refl) in B. unfold zlen in B. cbn [length] in B. lia. }
  cbn [as_long]. rewrite G. cbn [owith]. rewrite lsize_vals. cbv zeta.
  replace (if z <? 0 then z + zlen (vals l) else z) with (rel (zlen (vals l)) z) by (unfold rel; destruct (z <? 0); lia).
  rewrite idx_test, (proj2 (rel_bounds_dec _ _) B). cbn [negb]. set (p := rel (zlen (vals l)) z) in *.
  rewrite at_pos by exact W. cbn [owith]. assert (PS : (Z.to_nat p < size (lst l))%nat) by (rewrite size_values; fold (vals l); unfold zlen in B; lia).
  destruct (erase_pos (lst l) (Z.to_nat p) W PS) as (s' & A1 & A2 & A3 & A4 & A5 & A6). rewrite A1. cbn [owith].
  destruct (pos_of_itpos (lst l) (Z.to_nat p) W PS) as (i & w & I & _). rewrite I. specialize (A6 i I).
  unfold deref. destruct (pos_of (nodes s') i) as [q|] eqn:Q; [|reflexivity]. exfalso. apply (proj2 (pos_of_none (nodes s') i)) in A6. congruence.
Qed.
End Linked.

(** ** Searching *)
Lemma first_where_find p s : match first_where p s with Some i => find_from p s = i /\ (i < length s)%nat | None => find_from p s = length s end.
Proof.
  induction s as [|x s IH]; cbn [first_where find_from length]; [reflexivity|]. destruct (p x); [lia|].
  destruct (first_where p s); cbn [option_map]; [|lia]. destruct IH. split; [|lia]. congruence.
Qed.
Lemma a_count_spec f o s rc : a_call f (CCount o) s rc = (Ret (ONum (py_count identical o s)), (s, rc)).
Proof.
  cbn [a_call]. unfold a_count. rewrite std_count_filter. unfold py_count.
  rewrite (filter_ext (matches identical o) (fun x => x =? o)); [reflexivity|]. intros x. unfold matches, identical. apply orb_false_r.
Qed.
Lemma matches_id o : forall x, matches identical o x = (x =? o).
Proof. intros x. unfold matches, identical. apply orb_false_r. Qed.
Lemma first_where_ext p q s : (forall x, In x s -> p x = q x) -> first_where p s = first_where q s.
Proof.
  induction s as [|x s IH]; intros H; cbn [first_where]; [reflexivity|]. rewrite (H x (or_introl eq_refl)), IH; [reflexivity|]. intros y Y. apply H. right. exact Y.
Qed.
Lemma find_from_ext p q (s : list Z) : (forall x, p x = q x) -> find_from p s = find_from q s.
Proof. intros H. induction s as [|x s IH]; cbn [find_from]; [reflexivity|]. rewrite H, IH. reflexivity. Qed.
Lemma a_index_spec f o s rc : a_call f (CIndex o None None) s rc = (omap ONum (py_index identical o s), (s, rc)).
Proof.
  cbn [a_call]. unfold a_index. cbn [owith]. cbv zeta. pose proof (zlen_nonneg s).
  change (0 <? 0) with false. cbv iota. destruct (Z.ltb_spec (zlen s) 0); [lia|]. rewrite Z.ltb_irrefl. change (0 <? 0) with false. cbv iota.
  destruct (Z.ltb_spec (zlen s) 0); [lia|]. replace (Z.to_nat (zlen s - 0)) with (length s) by (unfold zlen; lia).
  rewrite find_all_arr. cbn [owith]. rewrite (find_from_ext _ (matches identical o)) by (intros; symmetry; apply matches_id).
  unfold py_index. pose proof (first_where_find (matches identical o) s) as H2. destruct (first_where (matches identical o) s) as [i|].
  - destruct H2 as [-> L]. destruct (Z.eqb_spec (Z.of_nat i) (zlen s)) as [E|E]; [unfold zlen in E; lia|]. reflexivity.
  - rewrite H2. fold (zlen s). rewrite Z.eqb_refl. reflexivity.
Qed.
Lemma a_contains_spec f b o s rc : a_call f (CContains b o) s rc = (Ret (OBool (b && py_in identical o s)), (s, rc)).
Proof.
  cbn [a_call]. unfold a_contains. destruct b; [|reflexivity]. cbn [negb andb]. rewrite find_all_arr. cbn [owith].
  rewrite (find_from_ext _ (matches identical o)) by (intros; symmetry; apply matches_id). unfold zlen. rewrite eqb_of_nat. repeat f_equal. unfold py_in.
  pose proof (find_from_le (matches identical o) s) as L. clear - L. induction s as [|x s IH]; cbn [find_from existsb length]; [reflexivity|].
  destruct (matches identical o x); [reflexivity|]. cbn [orb]. rewrite <- IH by (apply find_from_le). reflexivity.
Qed.
Lemma py_remove_first eq o s : py_remove eq o s = match first_where (matches eq o) s with Some i => Ret (firstn i s ++ skipn (S i) s) | None => Raise ValueError end.
Proof. reflexivity. Qed.
Lemma a_remove_spec f o s rc : obj o -> 0 < rc o -> exists rc', a_call f (CRemove o) s rc =
  match py_remove identical o s with Ret s' => (Ret ONone, (s', rc')) | _ => (Raise ValueError, (s, rc)) end.
Proof.
  intros O P. destruct (decref_ok o rc O P) as (rc' & D1 & _). exists rc'.
  cbn [a_call]. unfold a_remove. rewrite find_all_arr. cbn [owith]. rewrite (find_from_ext _ (matches identical o)) by (intros; symmetry; apply matches_id).
  unfold py_remove. pose proof (first_where_find (matches identical o) s) as H2. destruct (first_where (matches identical o) s) as [i|].
  - destruct H2 as [-> L]. destruct (Z.eqb_spec (Z.of_nat i) (zlen s)) as [E|E]; [unfold zlen in E; lia|]. rewrite zerase_n by exact L. rewrite D1. reflexivity.
  - rewrite H2. fold (zlen s). rewrite Z.eqb_refl. reflexivity.
Qed.

(** When no other object is equal, identity and equality agree. *)
Lemma matches_eq eq o s : (forall x, In x s -> eq x o = true -> x = o) -> forall x, In x s -> matches eq o x = matches identical o x.
Proof.
  intros H x X. unfold matches, identical. rewrite orb_false_r. destruct (Z.eqb_spec x o) as [E|N]; [reflexivity|]. cbn [orb].
  destruct (eq x o) eqn:E; [|reflexivity]. destruct (N (H x X E)).
Qed.
Lemma search_agrees eq o s : (forall x, In x s -> eq x o = true -> x = o) ->
  py_index eq o s = py_index identical o s /\ py_count eq o s = py_count identical o s /\ py_in eq o s = py_in identical o s /\
  py_remove eq o s = py_remove identical o s.
Proof.
  intros H. pose proof (matches_eq eq o s H) as M. unfold py_index, py_remove. rewrite (first_where_ext _ _ s M).
  split; [reflexivity|]. split; [|split; [|reflexivity]].
  - unfold py_count. do 2 f_equal. clear H. induction s as [|x s IH]; [reflexivity|]. cbn [filter]. rewrite M by (left; reflexivity).
    rewrite IH by (intros y Y; apply M; right; exact Y). reflexivity.
  - unfold py_in. clear H. induction s as [|x s IH]; [reflexivity|]. cbn [existsb]. rewrite M by (left; reflexivity).
    rewrite IH by (intros y Y; apply M; right; exact Y). reflexivity.
Qed.
Lemma count_le eq o s : py_count identical o s <= py_count eq o s.
Proof.
  unfold py_count. induction s as [|x s IH]; [cbn; lia|]. cbn [filter]. rewrite matches_id. change (matches eq o x) with ((x =? o) || eq x o).
  destruct (x =? o); cbn [orb length]; [lia|]. destruct (eq x o); cbn [length]; lia.
Qed.
Lemma count_differs eq o s x : In x s -> x <> o -> eq x o = true -> py_count identical o s < py_count eq o s.
Proof.
  intros X N E. unfold py_count. induction s as [|y s IH]; [destruct X|]. cbn [filter]. rewrite matches_id. change (matches eq o y) with ((y =? o) || eq y o).
  destruct X as [->|X].
  - rewrite (proj2 (Z.eqb_neq x o) N), E. cbn [orb length]. pose proof (count_le eq o s) as L. unfold py_count in L. lia.
  - specialize (IH X). destruct (y =? o); cbn [orb length]; [lia|]. destruct (eq y o); cbn [length]; lia.
Qed.
(** An equal object before every identical one is found by Python only. *)
Lemma index_differs eq o a x b : (forall y, In y a -> y <> o) -> x <> o -> eq x o = true ->
  py_index eq o (a ++ x :: b) <> py_index identical o (a ++ x :: b) /\ py_remove eq o (a ++ x :: b) <> py_remove identical o (a ++ x :: b).
Proof.
  intros A N E. unfold py_index, py_remove.
  assert (FI : first_where (matches identical o) (a ++ x :: b) = option_map (fun i => length a + S i)%nat (first_where (matches identical o) b)).
  { clear E. induction a as [|y a IH]; cbn [app first_where length].
    - rewrite matches_id, (proj2 (Z.eqb_neq x o) N). reflexivity.
    - rewrite matches_id, (proj2 (Z.eqb_neq y o)) by (apply A; left; reflexivity). rewrite IH by (intros z Z0; apply A; right; exact Z0).
      destruct (first_where (matches identical o) b); reflexivity. }
  assert (FE : exists i, first_where (matches eq o) (a ++ x :: b) = Some i /\ (i <= length a)%nat).
  { clear FI A. induction a as [|y a IH]; cbn [app first_where length].
    - exists O. unfold matches. rewrite E, orb_true_r. split; [reflexivity|lia].
    - destruct (matches eq o y); [exists O; split; [reflexivity|lia]|]. destruct IH as (i & -> & L). exists (S i). split; [reflexivity|lia]. }
  destruct FE as (i & -> & L). rewrite FI. destruct (first_where (matches identical o) b) as [j|] eqn:J; cbn [option_map]; [|split; discriminate].
  split; [intros H; injection H as H; lia|]. intros H0.
  assert (H : firstn i (a ++ x :: b) ++ skipn (S i) (a ++ x :: b) = firstn (length a + S j) (a ++ x :: b) ++ skipn (S (length a + S j)) (a ++ x :: b)) by congruence.
  clear H0.
  (* the element at position i differs *)
  assert (Q : py_count identical o (firstn i (a ++ x :: b) ++ skipn (S i) (a ++ x :: b)) =
              py_count identical o (firstn (length a + S j) (a ++ x :: b) ++ skipn (S (length a + S j)) (a ++ x :: b))) by (rewrite H; reflexivity).
  assert (C : forall k y, nth_error (a ++ x :: b) k = Some y ->
     py_count identical o (a ++ x :: b) = py_count identical o (firstn k (a ++ x :: b) ++ skipn (S k) (a ++ x :: b)) + (if y =? o then 1 else 0)).
  { intros k y Y. set (t := a ++ x :: b) in *. rewrite <- (firstn_skipn k t) at 1. rewrite (skipn_nth t k y Y). unfold py_count. rewrite !filter_app. cbn [filter].
    rewrite matches_id. destruct (y =? o); rewrite !app_length; cbn [length]; lia. }
  assert (NI : exists y, nth_error (a ++ x :: b) i = Some y /\ y <> o).
  { destruct (Nat.eq_dec i (length a)) as [->|NE].
    - exists x. rewrite nth_error_app2, Nat.sub_diag by lia. split; [reflexivity|exact N].
    - destruct (nth_error a i) as [y|] eqn:Y; [|apply nth_error_None in Y; lia]. exists y. rewrite nth_error_app1 by lia. split; [exact Y|].
      apply A. exact (nth_error_In _ _ Y). }
  destruct NI as (y & Y & NY). pose proof (C i y Y) as C1. rewrite (proj2 (Z.eqb_neq y o) NY) in C1.
  assert (NJ : nth_error (a ++ x :: b) (length a + S j) = Some o).
  { rewrite nth_error_app2 by lia. replace (length a + S j - length a)%nat with (S j) by lia. cbn [nth_error].
    clear - J. revert j J. induction b as [|z b IH]; intros j J; [discriminate|]. cbn [first_where] in J. rewrite matches_id in J.
    destruct (Z.eqb_spec z o) as [->|]; [injection J as <-; reflexivity|]. destruct (first_where (matches identical o) b) as [k|]; [|discriminate].
    injection J as <-. cbn [nth_error]. apply IH. reflexivity. }
  pose proof (C _ o NJ) as C2. rewrite Z.eqb_refl in C2. lia.
Qed.

(** The linked list searches like the array list. *)
Lemma l_search_sim f c l rc : lwf l -> match c with CIndex _ _ _ | CCount _ | CRemove _ | CContains _ _ => true | _ => false end = true ->
  osim (l_call c l rc) (a_call f c (vals l) rc).
Proof.
  intros W H. destruct c; try discriminate; cbn [l_call a_call].
  - apply index_osim; exact W.
  - apply count_osim; exact W.
  - apply remove_osim; exact W.
  - apply contains_osim; exact W.
Qed.

(** ** Further facts for the property theorems *)
Lemma all_freed {K} (w : world K) : balanced w -> Forall (fun s => s = None) (w_lists w) -> forall o, w_rc w o = w_ext w o.
Proof.
  intros B A o. rewrite B. enough (in_lists w o = 0) by lia. unfold in_lists. clear B. induction (w_lists w) as [|s r IH]; [reflexivity|].
  inversion A; subst. cbn [fold_right]. apply IH. assumption.
Qed.

Lemma l_repeat_copies n l rc d : lwf l -> (forall x, 0 <= d x) -> (forall x, rc x = occ (vals l) x + d x) -> Forall obj (vals l) ->
  zlen (vals l) <= SSIZE_MAX -> 1 <= n ->
  (exists l' rc', l_call (CImul n) l rc = (Ret OSelf, (l', rc')) /\ lwf l' /\ vals l' = concat (repeat (vals l) (Z.to_nat n)) /\
    forall x, rc' x = occ (vals l') x + d x) /\
  (exists m rc', l_call (CMul n) l rc = (Ret (ONew m), (l, rc')) /\ lwf m /\ vals m = concat (repeat (vals l) (Z.to_nat n)) /\
    forall x, rc' x = rc x + occ (vals m) x).
Proof.
  intros W D R F Hl N.
  assert (HS : (zlen (vals l) <=? SLOTS) = true) by (apply Z.leb_le; exact Hl). assert (HN : (1 <=? n) = true) by (apply Z.leb_le; exact N). split.
  - assert (C : l_counted (CImul n) (vals l) = true) by (unfold l_counted; rewrite HS, HN; reflexivity).
    destruct (l_call_ok l rc d W D R F Hl (CImul n)) as [G A]; [split; [constructor|exact I]|exact C|].
    assert (A' : l_agrees (CImul n) (vals l) = true) by (unfold l_agrees; rewrite C; reflexivity). specialize (A A').
    destruct (l_call (CImul n) l rc) as [v [l' rc']]. unfold lresult in A. cbn [fst snd py_obj] in A. injection A as A1 A2.
    destruct G as (_ & G2 & _ & _ & _ & _ & G7). destruct v as [[| | | | |c|]|e|a e|u]; try discriminate A1; try (destruct a; discriminate A1).
    exists l', rc'. split; [reflexivity|]. split; [exact G2|]. split; [exact A2|]. intros x. rewrite G7. cbn [result_owned owned new_items occ]. fold (vals l'). lia.
  - assert (C : l_counted (CMul n) (vals l) = true) by (unfold l_counted; rewrite HS; reflexivity).
    destruct (l_call_ok l rc d W D R F Hl (CMul n)) as [G A]; [split; [constructor|exact I]|exact C|].
    assert (A' : l_agrees (CMul n) (vals l) = true) by (unfold l_agrees; rewrite C; reflexivity). specialize (A A').
    assert (ES : fst (snd (l_call (CMul n) l rc)) = l).
    { cbn [l_call]. unfold l_mul. cbv zeta. destruct ((if n <? 0 then 0 else n) =? 0); [reflexivity|]. destruct (l_mul_loop _ _ _ _) as [[? ?]|?|[? ?] ?|?]; reflexivity. }
    destruct (l_call (CMul n) l rc) as [v [l' rc']]. cbn [fst snd] in ES. subst l'. unfold lresult in A. cbn [fst snd py_obj] in A. injection A as A1.
    destruct G as (_ & _ & _ & _ & _ & G6 & G7). destruct v as [[| | | | |c|]|e|a e|u]; try discriminate A1; try (destruct a; discriminate A1).
    cbn in A1. injection A1 as A1. exists c, rc'. split; [reflexivity|]. split; [apply G6; reflexivity|]. split; [exact A1|].
    intros x. rewrite G7, R. cbn [result_owned owned new_items occ]. fold (vals l). lia.
Qed.

(** A comparison that empties the list during its first question. *)
Lemma a_emptied (cmp : oracle) now x s y ys : x <> y -> s <> [] -> length s = length ys -> now O = [] ->
  (cmp O Eq_ x y = Ret true -> a_compare cmp now Eq_ (oseq (y :: ys)) (x :: s) = Undef OutOfBounds) /\
  (cmp O Ne_ x y = Ret false -> a_compare cmp now Ne_ (oseq (y :: ys)) (x :: s) = Undef OutOfBounds).
Proof.
  intros N NE L E. assert (ZL : (zlen (y :: ys) =? zlen (x :: s)) = true) by (apply Z.eqb_eq; unfold zlen; cbn [length]; lia).
  assert (TN : Z.to_nat (zlen (y :: ys)) = S (length ys)) by (unfold zlen; cbn [length]; lia).
  destruct ys as [|y2 ys]; [destruct s; [contradiction|discriminate]|].
  assert (G0 : (fun i => match znth (y :: y2 :: ys) i with Some o => Ret o | None => Raise IndexError end) (Z.of_nat 0) = Ret y) by reflexivity.
  split; intros A; cbn [a_compare a_eq a_ne oseq seq_size]; rewrite ZL, TN; cbn [negb length a_eq_loop a_ne_loop].
  all: change (znth (y :: y2 :: ys) (Z.of_nat 0)) with (Some y); change (znth (x :: s) (Z.of_nat 0)) with (Some x); cbn [obind or_ub rich_bool].
  all: rewrite (proj2 (Z.eqb_neq x y) N), A; cbn [obind]; rewrite E.
  all: change (znth (y :: y2 :: ys) (Z.of_nat 1)) with (Some y2); change (znth (@nil Z) (Z.of_nat 1)) with (@None Z); reflexivity.
Qed.
Lemma l_emptied (cmp : oracle) now l x s y ys : lwf l -> vals l = x :: s -> x <> y -> length s = length ys -> now O = clear_ (lst l) ->
  (cmp O Eq_ x y = Ret true -> l_compare cmp now Eq_ (oseq (y :: ys)) l = Undef UseAfterFree) /\
  (cmp O Ne_ x y = Ret false -> l_compare cmp now Ne_ (oseq (y :: ys)) l = Undef UseAfterFree).
Proof.
  intros W V N L E. assert (SZ : lsize l = zlen (x :: s)) by (rewrite <- V; apply lsize_vals).
  assert (ZL : (zlen (y :: ys) =? lsize l) = true) by (rewrite SZ; apply Z.eqb_eq; unfold zlen; cbn [length]; lia).
  assert (TN : Z.to_nat (zlen (y :: ys)) = S (length ys)) by (unfold zlen; cbn [length]; lia).
  assert (P0 : (0 < size (lst l))%nat) by (rewrite size_values; fold (vals l); rewrite V; cbn [length]; lia).
  destruct (pos_of_itpos (lst l) 0 W P0) as (i & w & I0 & _).
  assert (DR : deref (lst l) (begin_ (lst l)) = Ret x).
  { change (begin_ (lst l)) with (itpos (lst l) 0). apply deref_pos; [exact W|]. fold (vals l). rewrite V. reflexivity. }
  assert (NX : it_next (clear_ (lst l)) (begin_ (lst l)) = Undef UseAfterFree).
  { change (begin_ (lst l)) with (itpos (lst l) 0). rewrite I0. reflexivity. }
  split; intros A; cbn [l_compare oseq seq_size]; rewrite ZL, TN; cbn [negb l_eq_loop l_ne_loop].
  all: change (znth (y :: ys) (Z.of_nat 0)) with (Some y); cbn [obind]; rewrite DR; cbn [obind rich_bool].
  all: rewrite (proj2 (Z.eqb_neq x y) N), A; cbn [obind]; rewrite E, NX; reflexivity.
Qed.
