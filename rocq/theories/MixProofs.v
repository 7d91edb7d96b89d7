(** Proofs about operands of another class. *)
From Coq Require Import ZArith List Bool Arith Lia.
From Verif Require Import Base PyLongModel PyLongProofs PyListSpec ListLemmas ArrayListModel ArrayListProofs ArrayListSpec
  ArrayListFacts ArrayListMoreModel ArrayListCmpProofs ArrayListMoreProofs ArrayListMulProofs ArrayWorldProofs
  StdListModel StdListProofs LinkedListSpec LinkedListModel LinkedListProofs LinkedListFacts MixModel MixSpec.
Import ListNotations.
Local Open Scope Z_scope.
Local Arguments Z.pow : simpl never.
Local Arguments Z.of_nat : simpl never.
Local Arguments Z.to_nat : simpl never.
Local Arguments Z.modulo : simpl never.

Lemma recognised_copied c x : recognised c x = true <-> copied c x.
Proof.
  unfold recognised, copied. rewrite andb_true_iff. destruct (exact x); [|split; intros [A _]; discriminate].
  destruct c as [[]|], (class_of (obj x)) as [[]|]; cbn [same_class]; split; intros [_ B]; split; congruence.
Qed.

(** ** Iterating *)
Lemma drain_step {I} (next : I -> outcome Z * I) n it : drain next (S n) it =
  match next it with
  | (Ret v, it') => omap (cons v) (drain next n it')
  | (Raise StopIteration, _) => Ret []
  | (Raise e, _) => Raise e
  | (RetPending _ e, _) => Raise e
  | (Undef u, _) => Undef u
  end.
Proof. reflexivity. Qed.
Lemma drain_arr s : forall pre suf, s = pre ++ suf ->
  drain (fun it => iter_next it s) (S (length suf)) {| it_index := zlen pre; it_rev := false |} = Ret suf.
Proof.
  intros pre suf. revert pre. induction suf as [|v suf IH]; intros pre E; cbn [length]; rewrite drain_step.
  - assert (N : iter_next {| it_index := zlen pre; it_rev := false |} s = (Raise StopIteration, {| it_index := zlen pre; it_rev := false |})).
    { rewrite app_nil_r in E. subst s. unfold iter_next. destruct pre; [reflexivity|]. cbn [it_rev it_index]. rewrite Z.leb_refl. reflexivity. }
    rewrite N. reflexivity.
  - assert (N : iter_next {| it_index := zlen pre; it_rev := false |} s = (Ret v, {| it_index := zlen pre + 1; it_rev := false |})).
    { unfold iter_next. destruct s as [|a s']; [destruct pre; discriminate|]. rewrite E. cbn [it_rev it_index].
      rewrite znth_mid by reflexivity. destruct (Z.leb_spec (zlen (pre ++ v :: suf)) (zlen pre)) as [H|H]; [|reflexivity].
      rewrite zlen_app, zlen_cons in H. pose proof (zlen_nonneg suf). lia. }
    rewrite N. specialize (IH (pre ++ [v])). rewrite <- app_assoc, zlen_app in IH. change (zlen [v]) with 1 in IH. rewrite (IH E). reflexivity.
Qed.

Lemma ssize_64 : SSIZE_MAX < 2 ^ 64.
Proof. reflexivity. Qed.

Definition at_pos (l : ll) (p : nat) : liter :=
  {| li_index := Z.of_nat p; li_rev := false; li_cache := itpos (lst l) p; li_mod := modc l |}.
Lemma lnext_at l p v : lwf l -> zlen (vals l) < 2 ^ 64 -> nth_error (vals l) p = Some v ->
  liter_next (at_pos l p) l = (Ret v, at_pos l (S p)).
Proof.
  intros W L N. assert (P : (p < length (vals l))%nat) by (apply nth_error_Some; congruence).
  unfold liter_next. destruct (nodes (lst l)) as [|a r] eqn:E.
  { unfold vals, values in P. rewrite E in P. cbn in P. lia. }
  cbn [at_pos li_rev li_index]. rewrite lsize_vals. destruct (Z.leb_spec (zlen (vals l)) (Z.of_nat p)) as [H|H]; [unfold zlen in H; lia|].
  unfold update_cache. cbn [li_mod li_cache at_pos]. rewrite Z.eqb_refl. cbn [obind li_cache at_pos]. rewrite (deref_pos (lst l) p v W N). cbn [obind].
  rewrite next_pos; [|exact W|rewrite size_vals; exact P]. cbn [obind li_index li_mod at_pos].
  assert (U : usize (Z.of_nat p + 1) = Z.of_nat (S p)) by (unfold usize; rewrite Z.mod_small; unfold zlen in L; lia).
  rewrite U. reflexivity.
Qed.
Lemma lnext_end l : liter_next (at_pos l (length (vals l))) l = (Raise StopIteration, at_pos l (length (vals l))).
Proof.
  unfold liter_next. destruct (nodes (lst l)); [reflexivity|]. cbn [at_pos li_rev li_index]. rewrite lsize_vals.
  unfold zlen. rewrite Z.leb_refl. reflexivity.
Qed.
Lemma drain_lnk l : lwf l -> zlen (vals l) < 2 ^ 64 -> forall pre suf, vals l = pre ++ suf ->
  drain (fun it => liter_next it l) (S (length suf)) (at_pos l (length pre)) = Ret suf.
Proof.
  intros W L pre suf. revert pre. induction suf as [|v suf IH]; intros pre E; cbn [length]; rewrite drain_step.
  - rewrite app_nil_r in E. rewrite <- E, lnext_end. reflexivity.
  - rewrite (lnext_at l (length pre) v W L) by (rewrite E, nth_error_app2, Nat.sub_diag by lia; reflexivity).
    specialize (IH (pre ++ [v])). rewrite <- app_assoc, app_length in IH. cbn [length] in IH. rewrite Nat.add_1_r in IH. rewrite (IH E). reflexivity.
Qed.
Lemma iterate_ok o : valid o -> iterate o = Ret (held o).
Proof.
  intros (L & _ & W). destruct o as [k s|l]; cbn [iterate held].
  - exact (drain_arr s [] s eq_refl).
  - unfold liter_create. cbn [obind]. rewrite size_vals. cbn [held] in L.
    apply (drain_lnk l W) with (pre := []); [|reflexivity]. pose proof ssize_64. unfold vals. lia.
Qed.

(** ** Elements *)
Lemma bits_width c : bits (match c with CArr k => k | CLnk => KInt end) = width c.
Proof. destruct c as [[]|]; reflexivity. Qed.
Definition tkind (c : cls) : kind := match c with CArr k => k | CLnk => KInt end.

Lemma item_seen cfg o v : in_range (elem_kind o) v -> pl_val (from_elem cfg (elem_kind o) v) = seen (py312 cfg) o v.
Proof.
  intros R. unfold seen. destruct o as [[]|l]; cbn [class_of elem_kind from_elem] in *.
  2: apply mk_pylong_val.
  all: destruct (py312 cfg); cbn [andb]; [apply from_int_312_value; exact R|rewrite from_int_old; apply mk_pylong_val].
Qed.
Lemma items_stand cfg c o vs : Forall (in_range (elem_kind o)) vs ->
  exists ws, Forall2 (stores (width c)) (map (item cfg (elem_kind o)) vs) ws /\ Forall2 (stands_for (py312 cfg) c o) vs ws.
Proof.
  induction 1 as [|v vs R F (ws & A & B)]; [exists []; split; constructor|].
  exists (wrap (width c) (seen (py312 cfg) o v) :: ws).
  assert (X : reduced (width c) (seen (py312 cfg) o v) (wrap (width c) (seen (py312 cfg) o v))).
  { rewrite <- (bits_width c). apply reduced_wrap. reflexivity. }
  split; constructor; try assumption.
  exists (pl_val (from_elem cfg (elem_kind o) v)). split; [reflexivity|]. split; [apply from_elem_range; exact R|].
  rewrite item_seen by exact R. exact X.
Qed.

(** The argument, either way. *)
Lemma as_arg_ok cfg c x : valid (obj x) ->
  exists ws, taken (py312 cfg) c x (held (obj x)) ws /\
  ((copied c x /\ as_arg cfg c x = Ret (ASame ws)) \/
   (~ copied c x /\ exists items, as_arg cfg c x = Ret (AIter items None) /\ Forall2 (stores (width c)) items ws)).
Proof.
  intros V. unfold as_arg. destruct (recognised c x) eqn:R.
  - apply recognised_copied in R. exists (held (obj x)). split; [split; [auto|contradiction]|]. left. auto.
  - assert (N : ~ copied c x) by (rewrite <- recognised_copied, R; discriminate).
    destruct V as (L & F & W). destruct (items_stand cfg c (obj x) _ F) as (ws & A & B).
    exists ws. split; [split; [contradiction|auto]|]. right. split; [exact N|].
    rewrite iterate_ok by (split; auto). cbn [omap obind]. eexists. split; [reflexivity|exact A].
Qed.

Lemma make_ok cfg c x : valid (obj x) ->
  exists o ws, make cfg c x = Ret o /\ class_of o = c /\ held o = ws /\ taken (py312 cfg) c x (held (obj x)) ws.
Proof.
  intros V. destruct (as_arg_ok cfg c x V) as (ws & T & [[_ E]|[_ (items & E & F)]]); unfold make; rewrite E; cbn [obind].
  - destruct c as [k|].
    + exists (Arr k ws), ws. split; [reflexivity|]. auto.
    + destruct (linit_same ws) as (l & E' & W & VV & _). rewrite E'. exists (Lnk l), ws. split; [reflexivity|]. auto.
  - destruct c as [k|].
    + exists (Arr k ws), ws. rewrite <- bits_width in F. cbn [init]. rewrite (init_items_good k items ws [] F). split; [reflexivity|]. auto.
    + destruct (linit_stores (AIter items None) items ws (or_intror eq_refl) F) as (l & E' & W & VV & _). rewrite E'.
      exists (Lnk l), ws. split; [reflexivity|]. auto.
Qed.

Lemma extend_ok cfg inplace t x : valid t -> valid (obj x) ->
  exists t' ws, extend_with cfg inplace t x = (Ret (if inplace then (if recognised (class_of t) x then VNone else VSelf) else VNone), t') /\
    class_of t' = class_of t /\ held t' = held t ++ ws /\ taken (py312 cfg) (class_of t) x (held (obj x)) ws.
Proof.
  intros (_ & _ & W) V. destruct (as_arg_ok cfg (class_of t) x V) as (ws & T & [[C E]|[C (items & E & F)]]); unfold extend_with; rewrite E.
  - assert (R : recognised (class_of t) x = true) by (apply recognised_copied; exact C). rewrite R.
    destruct t as [k s|l]; cbn [class_of] in *.
    + exists (Arr k (s ++ ws)), ws. destruct inplace; cbn; auto.
    + destruct (append_range_ok ws (lst l) W) as (W' & V' & _).
      destruct inplace; eexists (Lnk _), ws; (split; [reflexivity|]); auto.
  - assert (R : recognised (class_of t) x = false) by (destruct (recognised (class_of t) x) eqn:Q; [apply recognised_copied in Q; contradiction|reflexivity]).
    rewrite R. destruct t as [k s|l]; cbn [class_of] in *.
    + rewrite <- (bits_width (CArr k)) in F. exists (Arr k (s ++ ws)), ws.
      destruct inplace; cbn [iadd extend]; rewrite (extend_items_good k items ws None s F); cbn; auto.
    + destruct inplace; cbn [liadd lextend].
      * destruct (lextend_stores (fun l => l) items ws None F l W) as (l' & E' & V' & W' & _). rewrite E'.
        exists (Lnk l'), ws. split; [reflexivity|]. auto.
      * destruct (lextend_stores (fun l => bump l (lst l)) items ws None F l W) as (l' & E' & V' & W' & _). rewrite E'.
        eexists (Lnk _), ws. split; [reflexivity|]. auto.
Qed.

Lemma add_ok cfg t x : add_with cfg t x = Raise (if recognised (class_of t) x then MemoryError else TypeError).
Proof. unfold add_with. destruct t; cbn [class_of]; destruct (recognised _ x); reflexivity. Qed.

(** ** Through the sequence protocol *)
Lemma seq_len_ok o : seq_len o = Ret (zlen (held o)).
Proof. destruct o; cbn [seq_len held]; [reflexivity|]. rewrite lsize_vals. reflexivity. Qed.
Lemma seq_item_ok cfg o : valid o -> forall i, seq_item cfg o i = get_items (map (item cfg (elem_kind o)) (held o)) i.
Proof.
  intros (_ & _ & W) i. unfold seq_item, get_items. rewrite znth_map. unfold znth at 1. destruct (Z.ltb_spec i 0) as [H|H]; [reflexivity|].
  assert (G : forall k s, obind (fst (getitem cfg k i s)) (fun v => match v with VElem p => Ret (PInt (pl_val p)) | _ => Raise SystemError end)
              = match option_map (item cfg k) (nth_error s (Z.to_nat i)) with Some o => Ret o | None => Raise IndexError end).
  { intros k s. unfold getitem. cbv zeta. destruct (Z.ltb_spec i 0); [lia|]. cbn [orb]. destruct (Z.leb_spec (zlen s) i) as [B|B].
    - rewrite (proj2 (nth_error_None s (Z.to_nat i))) by (unfold zlen in B; lia). destruct (i <? 0); reflexivity.
    - unfold znth. rewrite (proj2 (Z.ltb_ge i 0)) by lia. cbn [orb]. destruct (nth_error s (Z.to_nat i)) eqn:E; [reflexivity|].
      apply nth_error_None in E. unfold zlen in B. lia. }
  destruct o as [k s|l]; cbn [elem_kind held].
  - apply G.
  - destruct (getitem_sim cfg i l W) as (S1 & _ & _). rewrite S1. apply G.
Qed.

Lemma eq_loop_ext k g1 g2 : (forall i, g1 i = g2 i) -> forall n i s, eq_loop k g1 n i s = eq_loop k g2 n i s.
Proof.
  intros H. induction n as [|n IH]; intros i s; cbn [eq_loop]; [reflexivity|]. rewrite H.
  destruct (g2 i) as [o| | |]; try reflexivity. destruct (znth s i); [|reflexivity].
  destruct (conv_pending k o) as [v [e|]]; [reflexivity|]. destruct (z =? v); [apply IH|reflexivity].
Qed.
Lemma ord_seq_ext k r g1 g2 z : (forall i, g1 i = g2 i) -> forall n i p s, ord_seq k r g1 z n i p s = ord_seq k r g2 z n i p s.
Proof.
  intros H. induction n as [|n IH]; intros i p s; cbn [ord_seq]; [reflexivity|]. rewrite H.
  destruct (g2 i) as [o| | |]; try reflexivity. destruct (znth s i); [|reflexivity].
  destruct (conv_pending k o) as [v e]. cbv zeta. destruct (z0 =? v); [apply IH|reflexivity].
Qed.
Lemma compare_ext k c len g1 g2 s : (forall i, g1 i = g2 i) -> compare_ k c (CSeq len g1) s = compare_ k c (CSeq len g2) s.
Proof.
  intros H. assert (E : eq_ k (CSeq len g1) s = eq_ k (CSeq len g2) s).
  { unfold eq_. destruct (seq_size len). destruct (negb _); [reflexivity|]. apply eq_loop_ext. exact H. }
  assert (O : forall r, ord_ k r (CSeq len g1) s = ord_ k r (CSeq len g2) s).
  { intros r. unfold ord_. destruct (seq_size len). apply ord_seq_ext. exact H. }
  destruct c; cbn [compare_]; unfold ne_; rewrite ?E, ?O; reflexivity.
Qed.
Lemma leq_loop_ext g1 g2 : (forall i, g1 i = g2 i) -> forall n i it s, leq_loop g1 n i it s = leq_loop g2 n i it s.
Proof.
  intros H. induction n as [|n IH]; intros i it s; cbn [leq_loop]; [reflexivity|]. rewrite H.
  destruct (g2 i) as [o| | |]; try reflexivity. destruct (deref s it) as [x| | |]; cbn [obind]; try reflexivity;
  (destruct (conv_pending KInt o) as [v [?|]]; [reflexivity|]); (destruct (negb _); [reflexivity|]);
  destruct (it_next s it); cbn [obind]; rewrite ?IH; reflexivity.
Qed.
Lemma lord_loop_ext r g1 g2 : (forall i, g1 i = g2 i) -> forall n i it p s, lord_loop r g1 n i it p s = lord_loop r g2 n i it p s.
Proof.
  intros H. induction n as [|n IH]; intros i it p s; cbn [lord_loop]; [reflexivity|]. rewrite H.
  destruct (g2 i) as [o| | |]; try reflexivity. destruct (deref s it) as [x| | |]; cbn [obind]; try reflexivity;
  destruct (conv_pending KInt o) as [v ?]; cbv zeta; (destruct (negb _); [reflexivity|]);
  destruct (it_next s it); cbn [obind]; rewrite ?IH; reflexivity.
Qed.
Lemma lcompare_ext c len g1 g2 l : (forall i, g1 i = g2 i) -> lcompare c (CSeq len g1) l = lcompare c (CSeq len g2) l.
Proof.
  intros H. assert (E : leq (CSeq len g1) l = leq (CSeq len g2) l).
  { unfold leq. destruct (seq_size len). destruct (negb _); [reflexivity|]. apply leq_loop_ext. exact H. }
  assert (O : forall r, lord r (CSeq len g1) l = lord r (CSeq len g2) l).
  { intros r. unfold lord. destruct len; try reflexivity. destruct (negb _); [reflexivity|]. apply lord_loop_ext. exact H. }
  destruct c; cbn [lcompare]; unfold lne; rewrite ?E, ?O; reflexivity.
Qed.

Lemma compare_ok cfg c t x : valid t -> valid (obj x) ->
  exists b ws, compare_with cfg c t x = Ret b /\ read_as (py312 cfg) t x ws /\ (b = true <-> slot_sem c t ws).
Proof.
  intros (L & F & W) V. pose proof V as (Lx & Fx & Wx).
  assert (Z64 : forall A (f : Z -> A), zlen (map f (held (obj x))) < 2 ^ 64) by (intros A f; pose proof ssize_64; unfold zlen in *; rewrite map_length; lia).
  unfold compare_with. rewrite seq_len_ok. destruct t as [k s|l].
  - destruct (recognised (CArr k) x) eqn:R.
    + pose proof R as R'. apply recognised_copied in R'. destruct R' as [Ex C].
      destruct (compare_same k c s (held (obj x))) as (b & E & B); [exact F| |].
      { destruct (obj x) as [k' s'|l']; cbn [class_of] in C; inversion C. subst k'. exact Fx. }
      exists b, (held (obj x)). split; [exact E|]. split; [|exact B]. split; [auto|]. intros N. exfalso. apply N. split; assumption.
    + destruct (items_stand cfg (CArr k) (obj x) _ Fx) as (ws & A & B).
      rewrite (compare_ext k c _ _ (get_items (map (item cfg (elem_kind (obj x))) (held (obj x)))) s (seq_item_ok cfg (obj x) V)).
      replace (zlen (held (obj x))) with (zlen (map (item cfg (elem_kind (obj x))) (held (obj x)))) by (unfold zlen; rewrite map_length; reflexivity).
      rewrite <- (bits_width (CArr k)) in A.
      destruct (compare_items k c s _ ws (Z64 _ _) A) as (b & E & Q). exists b, ws. split; [exact E|]. split; [|exact Q].
      split; [|auto]. intros N. apply recognised_copied in N. congruence.
  - destruct (items_stand cfg CLnk (obj x) _ Fx) as (ws & A & B).
    rewrite (lcompare_ext c _ _ (get_items (map (item cfg (elem_kind (obj x))) (held (obj x)))) l (seq_item_ok cfg (obj x) V)).
    replace (zlen (held (obj x))) with (zlen (map (item cfg (elem_kind (obj x))) (held (obj x)))) by (unfold zlen; rewrite map_length; reflexivity).
    destruct (lcompare_items c _ ws l W A) as (b & E & Q). exists b, ws. split; [exact E|]. split; [exact B|]. exact Q.
Qed.

Lemma swapped_sem c s ys : cmp_sem (swapped c) ys s <-> cmp_sem c s ys.
Proof. destruct c; cbn [swapped cmp_sem]; intuition congruence. Qed.
(** A subclass instance on the right of its own exact class: Python's order. *)
Lemma rich_sub cfg c x y k s ys : obj x = Arr k s -> obj y = Arr k ys -> exact x = true -> valid (obj x) -> valid (obj y) ->
  exists b, rich_compare cfg c x y true = Ret b /\ (b = true <-> cmp_sem c s ys).
Proof.
  intros X Y E Vx Vy. unfold rich_compare. destruct (compare_ok cfg (swapped c) (obj y) x Vy Vx) as (b & ws & R & T & B).
  exists b. split; [exact R|]. rewrite B. rewrite Y in T |- *. cbn [read_as slot_sem] in *. destruct T as [T _].
  rewrite T by (split; [exact E|rewrite X; reflexivity]). rewrite X. cbn [held]. apply swapped_sem.
Qed.

Lemma lassign_ext s1 s2 : (forall s i, src_get s1 s i = src_get s2 s i) -> forall n i it s,
  lassign_loop s1 n i it s = lassign_loop s2 n i it s.
Proof.
  intros H. induction n as [|n IH]; intros i it s; cbn [lassign_loop]; [reflexivity|]. rewrite H.
  destruct (src_get s2 (values s) i) as [o| | |]; try reflexivity. destruct (conv_pending KInt o) as [v [e|]];
  destruct (assign s it v) as [s'| | |]; try reflexivity. destruct (it_next s' it); try reflexivity. apply IH.
Qed.
Lemma linsert_ext s1 s2 : (forall s i, src_get s1 s i = src_get s2 s i) -> forall n i it s,
  linsert_loop s1 n i it s = linsert_loop s2 n i it s.
Proof.
  intros H. induction n as [|n IH]; intros i it s; cbn [linsert_loop]; [reflexivity|]. rewrite H.
  destruct (src_get s2 (values s) i) as [o| | |]; try reflexivity. destruct (conv_pending KInt o) as [v [e|]];
  destruct (insert_ s it v) as [s'| | |]; try reflexivity. apply IH.
Qed.
Lemma lsetslice_ext sl s1 s2 l : (forall s, src_len s1 s = src_len s2 s) -> (forall s i, src_get s1 s i = src_get s2 s i) ->
  lsetitem_slice sl (AssSeq s1) l = lsetitem_slice sl (AssSeq s2) l.
Proof.
  intros HL HG. unfold lsetitem_slice. destruct (PySlice_Unpack sl) as [[[a b] c]| | |]; try reflexivity.
  cbn [lwith]. destruct (PySlice_AdjustIndices (lsize l) a b c) as [[x y] z]. rewrite HL.
  destruct (seq_size _) as [n p]. destruct (negb (c =? 1)); [reflexivity|].
  destruct (at_z (lst l) x) as [it| | |]; try reflexivity. cbn [lwith]. rewrite !(lassign_ext s1 s2 HG).
  destruct (n =? z); [reflexivity|]. destruct (n <? z); [reflexivity|].
  destruct (lassign_loop s2 (Z.to_nat z) 0 it (lst l)) as [[| | |] s']; cbn [fst snd]; try reflexivity. rewrite (linsert_ext s1 s2 HG). reflexivity.
Qed.

Lemma assign_ok cfg sl t x : valid t -> valid (obj x) -> step_of sl = 1 ->
  exists t' ws, assign_slice cfg sl t x = (Ret VNone, t') /\ class_of t' = class_of t /\ held t' = py_setslice (held t) sl ws /\
    Forall2 (stands_for (py312 cfg) (class_of t) (obj x)) (held (obj x)) ws.
Proof.
  intros (L & F & W) V St. pose proof V as (Lx & Fx & Wx). destruct (items_stand cfg (class_of t) (obj x) _ Fx) as (ws & A & B).
  set (items := map (item cfg (elem_kind (obj x))) (held (obj x))) in *.
  assert (H1 : forall s : list Z, seq_len (obj x) = src_len (src_items items) s).
  { intros s. rewrite seq_len_ok. cbn [src_items src_len]. unfold items, zlen. rewrite map_length. reflexivity. }
  assert (H2 : forall (s : list Z) i, seq_item cfg (obj x) i = src_get (src_items items) s i).
  { intros s i. rewrite (seq_item_ok cfg (obj x) V i). reflexivity. }
  unfold assign_slice. set (src := {| src_len := _; src_get := _ |}).
  destruct t as [k s|l]; cbn [class_of] in *.
  - rewrite (setitem_slice_ext k sl src (src_items items) s H1 H2). rewrite <- (bits_width (CArr k)) in A.
    rewrite (setslice_stores k sl items ws s L St A). exists (Arr k (py_setslice s sl ws)), ws. auto.
  - rewrite (lsetslice_ext sl src (src_items items) l H1 H2). change (width CLnk) with (bits KInt) in A.
    destruct (stores_good KInt items ws A) as [G M]. destruct (lsetitem_slice_ok sl items l W L St G) as (s' & E & W' & V').
    rewrite E. exists (Lnk (put l s')), ws. split; [reflexivity|]. split; [reflexivity|]. split; [|exact B]. cbn [held put lst]. rewrite V', M. reflexivity.
Qed.

(** ** When the elements arrive *)
Lemma stands_exact py312 c o v : in_range (elem_kind o) v ->
  stands_for py312 c o v v <->
  - 2 ^ (width c - 1) <= v < 2 ^ (width c - 1) /\ (py312 = false \/ class_of o = CArr KBig \/ 0 <= v \/ v = - 2 ^ 31).
Proof.
  intros R. unfold stands_for, reduced.
  assert (W : width c = 32 \/ width c = 64) by (destruct c as [[]|]; auto).
  assert (E1 : 2 ^ 31 = 2147483648) by reflexivity. assert (E2 : 2 ^ 32 = 4294967296) by reflexivity.
  assert (E3 : 2 ^ 64 = 18446744073709551616) by reflexivity.
  assert (S1 : (seen py312 o v = v /\ (py312 = false \/ class_of o = CArr KBig \/ 0 <= v)) \/
               (py312 = true /\ class_of o <> CArr KBig /\ v < 0 /\ seen py312 o v = - (2 ^ 32 + v))).
  { unfold seen. destruct (class_of o) as [[]|]; auto; destruct py312; cbn [andb]; auto; destruct (Z.ltb_spec v 0); auto; right; repeat split; congruence. }
  assert (RI : class_of o <> CArr KBig -> - 2147483648 <= v < 2147483648).
  { intros N. destruct o as [[]|]; cbn [class_of elem_kind] in *; try congruence; unfold in_range, in_sbits in R; change (bits KInt) with 32 in R; change (2 ^ (32 - 1)) with 2147483648 in R; exact R. }
  destruct S1 as [[S1 D]|(P & N & Ng & S1)]; rewrite S1.
  - split; [tauto|]. intros [B _]. split; [exact B|]. exists 0. lia.
  - specialize (RI N). split.
    + intros [B (m & M)]. split; [exact B|]. right. right. right. rewrite E2 in M.
      destruct W as [W|W]; rewrite W in M; rewrite ?E2, ?E3 in M; rewrite E1; lia.
    + intros [B [C|[C|[C|C]]]]; try congruence; try lia. split; [exact B|]. exists 0. rewrite C, E1, E2. lia.
Qed.

(** ** A list extended by its own iterator *)
Lemma nth_snoc (s : list Z) w j : nth_error (s ++ [w]) j = if (j <? length s)%nat then nth_error s j else if (j =? length s)%nat then Some w else None.
Proof.
  destruct (Nat.ltb_spec j (length s)); [apply nth_error_app1; assumption|]. rewrite nth_error_app2 by assumption.
  destruct (Nat.eqb_spec j (length s)) as [->|N]; [rewrite Nat.sub_diag; reflexivity|].
  destruct (j - length s)%nat as [|d] eqn:D; [lia|]. destruct d; reflexivity.
Qed.
Lemma grown_snoc f n s t v w : grown f n s t -> (0 < length s)%nat -> nth_error t n = Some v -> f v w -> grown f (S n) s (t ++ [w]).
Proof.
  intros (L & P & G) Q N H. split; [rewrite app_length, L; cbn; lia|]. split.
  - rewrite firstn_app, P. replace (length s - length t)%nat with 0%nat by lia. apply app_nil_r.
  - intros j a b A B. rewrite nth_snoc in A, B. destruct (Nat.ltb_spec (length s + j) (length t)) as [C|C].
    + destruct (Nat.ltb_spec j (length t)); [|lia]. eapply G; eassumption.
    + destruct (Nat.eqb_spec (length s + j) (length t)) as [D|D]; [|discriminate].
      assert (j = n) by lia. subst j. destruct (Nat.ltb_spec n (length t)); [|lia]. congruence.
Qed.
Lemma grown_refl (f : Z -> Z -> Prop) s : grown f 0 s s.
Proof.
  split; [lia|]. split; [apply firstn_all|]. intros j v w A B. assert (length s + j < length s)%nat by (apply nth_error_Some; congruence). lia.
Qed.

Lemma own_ok cfg k s m : (0 < length s)%nat -> Forall (in_range k) s ->
  exists t, own_rounds cfg k m (iter_create false s) s = (None, t) /\
    grown (stands_for (py312 cfg) (CArr k) (Arr k [])) m s t /\ Forall (in_range k) t.
Proof.
  intros P F.
  assert (G : forall m n t, grown (stands_for (py312 cfg) (CArr k) (Arr k [])) n s t -> Forall (in_range k) t ->
    exists t', own_rounds cfg k m {| it_index := Z.of_nat n; it_rev := false |} t = (None, t') /\
      grown (stands_for (py312 cfg) (CArr k) (Arr k [])) (n + m) s t' /\ Forall (in_range k) t').
  { clear m. induction m as [|m IH]; intros n t H Ft; cbn [own_rounds].
    - exists t. rewrite Nat.add_0_r. auto.
    - pose proof H as (L & _ & _). destruct (nth_error t n) as [v|] eqn:N; [|apply nth_error_None in N; lia].
      assert (X : iter_next {| it_index := Z.of_nat n; it_rev := false |} t = (Ret v, {| it_index := Z.of_nat n + 1; it_rev := false |})).
      { unfold iter_next. destruct t as [|a t']; [cbn in L; lia|]. cbn [it_rev it_index].
        destruct (Z.leb_spec (zlen (a :: t')) (Z.of_nat n)) as [B|B]; [unfold zlen in B; lia|].
        unfold znth. rewrite (proj2 (Z.ltb_ge _ _)), Nat2Z.id, N by lia. reflexivity. }
      rewrite X.
      assert (Rv : in_range k v) by (rewrite Forall_forall in Ft; apply Ft; eapply nth_error_In; eauto).
      destruct (items_stand cfg (CArr k) (Arr k []) [v]) as (ws & A & B); [constructor; [exact Rv|constructor]|].
      inversion B as [|v' w vs' ws' B1 B2]; subst. inversion B2; subst. inversion A as [|o w' os' ws' A1 A2]; subst. cbn [elem_kind] in A1.
      rewrite <- (bits_width (CArr k)) in A1. apply stores_elem in A1. rewrite A1.
      replace (Z.of_nat n + 1) with (Z.of_nat (S n)) by lia. rewrite <- Nat.add_succ_comm. apply IH.
      + eapply grown_snoc; eauto.
      + apply Forall_app. split; [exact Ft|]. constructor; [|constructor]. destruct B1 as [B1 _].
        rewrite <- (bits_width (CArr k)) in B1. exact B1. }
  exact (G m 0%nat s (grown_refl _ s) F).
Qed.

Lemma itpos_push (l : slist Z) w p : StdListProofs.wf l -> (p < size l)%nat -> itpos (push_back l w) p = itpos l p.
Proof. intros W H. unfold itpos, id_at. unfold push_back. cbn [nodes]. rewrite nth_error_app1 by exact H. reflexivity. Qed.

Lemma lown_ok cfg l m : lwf l -> (2 <= length (vals l))%nat -> zlen (vals l) + Z.of_nat m < 2 ^ 64 -> Forall (in_range KInt) (vals l) ->
  exists it l', liter_create false l = Ret it /\ lown_rounds cfg m it None l = (None, l') /\
    grown (stands_for (py312 cfg) CLnk (Lnk l)) m (vals l) (vals l') /\ lwf l'.
Proof.
  intros W P Z64 F. exists (at_pos l 0).
  assert (G : forall m n t, lwf t -> modc t = modc l -> grown (stands_for (py312 cfg) CLnk (Lnk l)) n (vals l) (vals t) ->
    Forall (in_range KInt) (vals t) -> zlen (vals t) + Z.of_nat m < 2 ^ 64 ->
    exists t', lown_rounds cfg m (at_pos t n) None t = (None, t') /\
      grown (stands_for (py312 cfg) CLnk (Lnk l)) (n + m) (vals l) (vals t') /\ lwf t').
  { clear m Z64. induction m as [|m IH]; intros n t Wt Mt H Ft Z64; cbn [lown_rounds].
    - exists t. rewrite Nat.add_0_r. auto.
    - pose proof H as (L & _ & _). destruct (nth_error (vals t) n) as [v|] eqn:N; [|apply nth_error_None in N; lia].
      rewrite (lnext_at t n v Wt ltac:(lia) N).
      assert (Rv : in_range KInt v) by (rewrite Forall_forall in Ft; apply Ft; eapply nth_error_In; eauto).
      destruct (items_stand cfg CLnk (Lnk l) [v]) as (ws & A & B); [constructor; [exact Rv|constructor]|].
      inversion B as [|v' w vs' ws' B1 B2]; subst. inversion B2; subst. inversion A as [|o w' os' ws' A1 A2]; subst. cbn [elem_kind] in A1.
      change (width CLnk) with (bits KInt) in A1. rewrite (conv_stores KInt _ w A1).
      destruct (push_back_ok (lst t) w Wt) as (W' & V' & _).
      assert (AP : at_pos t (S n) = at_pos (put t (push_back (lst t) w)) (S n)).
      { unfold at_pos. cbn [put lst modc]. rewrite itpos_push; [reflexivity|exact Wt|]. rewrite size_vals. lia. }
      rewrite AP, <- Nat.add_succ_comm.
      assert (Vt : vals (put t (push_back (lst t) w)) = vals t ++ [w]) by (unfold vals; cbn [put lst]; exact V').
      apply IH.
      + exact W'.
      + exact Mt.
      + rewrite Vt. eapply grown_snoc; eauto. lia.
      + rewrite Vt. apply Forall_app. split; [exact Ft|]. constructor; [|constructor]. destruct B1 as [B1 _]. exact B1.
      + rewrite Vt, zlen_app. change (zlen [w]) with 1. lia. }
  destruct (G m 0%nat l W eq_refl (grown_refl _ _) F Z64) as (t' & E & H & W'). exists t'. split; [reflexivity|]. auto.
Qed.
(** One element: after the first round the iterator stands at the end of the
    list it was, which is no element of the longer one. *)
Lemma lown_one cfg l v m : lwf l -> vals l = [v] -> in_range KInt v ->
  exists it l', liter_create false l = Ret it /\ lown_rounds cfg (S (S m)) it None l = (Some (Undef IterBeforeBegin), l') /\
    exists w, stands_for (py312 cfg) CLnk (Lnk l) v w /\ vals l' = [v; w].
Proof.
  intros W V R. exists (at_pos l 0).
  destruct (items_stand cfg CLnk (Lnk l) [v]) as (ws & A & B); [constructor; [exact R|constructor]|].
  inversion B as [|v' w vs' ws' B1 B2]; subst. inversion B2; subst. inversion A as [|o w' os' ws' A1 A2]; subst. cbn [elem_kind] in A1.
  change (width CLnk) with (bits KInt) in A1.
  exists (put l (push_back (lst l) w)). split; [reflexivity|].
  destruct (push_back_ok (lst l) w W) as (W' & V' & _).
  assert (Vt : vals (put l (push_back (lst l) w)) = [v; w]) by (unfold vals; cbn [put lst]; rewrite V'; unfold vals in V; rewrite V; reflexivity).
  split; [|exists w; auto].
  change (S (S m)) with (S (S m)). cbn [lown_rounds]. rewrite (lnext_at l 0 v W); [|rewrite V; reflexivity|rewrite V; reflexivity].
  rewrite (conv_stores KInt _ w A1). set (t := put l (push_back (lst l) w)) in *.
  assert (X : liter_next (at_pos l 1) t = (Undef IterBeforeBegin, at_pos l 1)).
  { unfold liter_next. destruct (nodes (lst t)) as [|a r] eqn:E; [unfold vals, values in Vt; rewrite E in Vt; discriminate|].
    cbn [at_pos li_rev li_index]. rewrite lsize_vals, Vt. cbn [zlen length]. 
    change (zlen [v; w] <=? Z.of_nat 1) with false. cbv iota.
    unfold update_cache. cbn [li_mod li_cache at_pos]. change (modc t) with (modc l). rewrite Z.eqb_refl. cbn [obind li_cache].
    assert (I : itpos (lst l) 1 = None).
    { unfold itpos, id_at. assert (S1 : size (lst l) = 1%nat) by (rewrite size_vals, V; reflexivity).
      rewrite (proj2 (nth_error_None _ _)); [reflexivity|]. unfold size in S1. lia. }
    cbn [li_cache at_pos]. rewrite I. reflexivity. }
  rewrite X. reflexivity.
Qed.
