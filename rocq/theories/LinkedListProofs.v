(** Lemmas about LinkedListModel: the linked list methods agree with the array
    list methods on the sequence of values. *)
From Coq Require Import ZArith List Bool Arith Lia Permutation Sorted.
From Verif Require Import Base PyLongModel PyLongProofs PyListSpec ListLemmas ArrayListModel ArrayListProofs
  ArrayListMoreModel StdListModel StdListProofs LinkedListModel.
Import ListNotations.
Local Open Scope Z_scope.
Local Arguments Z.pow : simpl never.
Local Arguments Z.of_nat : simpl never.
Local Arguments Z.to_nat : simpl never.
Local Arguments Z.modulo : simpl never.

Definition vals (l : ll) : list Z := values (lst l).
Definition lwf (l : ll) : Prop := wf (lst l).
Definition sim (r : lres) (s : res) : Prop := fst r = fst s /\ vals (snd r) = snd s /\ lwf (snd r).

Lemma lsize_vals l : lsize l = zlen (vals l).
Proof. unfold lsize, vals, zlen. rewrite size_values. reflexivity. Qed.
Lemma size_vals l : size (lst l) = length (vals l).
Proof. apply size_values. Qed.
Lemma begin_pos l : begin_ (lst l) = itpos (lst l) 0.
Proof. reflexivity. Qed.
Lemma end_pos l : end_ = itpos (lst l) (0 + length (vals l)).
Proof. rewrite itpos_end; [reflexivity|]. rewrite size_vals. lia. Qed.
Lemma nodes_vals l : nodes (lst l) = [] <-> vals l = [].
Proof. unfold vals, values. destruct (nodes (lst l)); cbn; split; congruence. Qed.

Lemma sim_with {A} (o : outcome A) l f g s : vals l = s -> lwf l -> (forall a, sim (f a) (g a)) ->
  sim (lwith o l f) (with_ o s g).
Proof. intros V W H. destruct o; cbn; [apply H| | |]; repeat split; auto; apply W. Qed.
Lemma sim_same v l : lwf l -> sim (v, l) (v, vals l).
Proof. intros W. repeat split; auto; apply W. Qed.

(** std::find on the vector and on the list. *)
Lemma std_find_from s v k : forall a, (a + k <= length s)%nat ->
  std_find s v k (Z.of_nat a) = Ret (Z.of_nat (a + find_from (fun x => x =? v) (firstn k (skipn a s)))).
Proof.
  induction k as [|k IH]; intros a H; cbn [std_find].
  - cbn. rewrite Nat.add_0_r. reflexivity.
  - unfold znth. destruct (Z.ltb_spec (Z.of_nat a) 0); [lia|]. rewrite Nat2Z.id.
    destruct (nth_error s a) as [x|] eqn:E; [|apply nth_error_None in E; lia].
    rewrite (skipn_nth _ _ _ E). cbn [firstn find_from]. destruct (x =? v); [rewrite Nat.add_0_r; reflexivity|].
    replace (Z.of_nat a + 1) with (Z.of_nat (S a)) by lia. rewrite IH by lia. do 2 f_equal. lia.
Qed.
Lemma find_from_le eqb (s : list Z) : (find_from eqb s <= length s)%nat.
Proof. induction s as [|x s IH]; cbn; [lia|]. destruct (eqb x); lia. Qed.

Lemma find_all l v : lwf l ->
  std_find_it (lst l) (fun x => x =? v) (size (lst l)) (begin_ (lst l)) end_
  = Ret (itpos (lst l) (find_from (fun x => x =? v) (vals l))).
Proof.
  intros W. rewrite begin_pos, (end_pos l). rewrite find_ok by (auto; rewrite ?size_vals; lia).
  cbn [skipn Nat.add]. rewrite firstn_all2; [reflexivity|]. unfold vals. lia.
Qed.
Lemma find_all_arr s v : std_find s v (length s) 0 = Ret (Z.of_nat (find_from (fun x => x =? v) s)).
Proof. change 0 with (Z.of_nat 0). rewrite (std_find_from s v (length s) 0) by lia. cbn [skipn]. rewrite firstn_all. reflexivity. Qed.

Lemma eqb_of_nat a b : (Z.of_nat a =? Z.of_nat b) = (a =? b)%nat.
Proof. destruct (Nat.eqb_spec a b) as [->|N]; [apply Z.eqb_refl|]. apply Z.eqb_neq. lia. Qed.

Lemma index_sim o a b l : lwf l -> sim (lindex o a b l) (index KInt o a b (vals l)).
Proof.
  intros W. unfold lindex, index. rewrite lsize_vals.
  apply sim_with; auto. intros value. apply sim_with; auto. intros start. apply sim_with; auto. intros stop.
  cbv zeta. set (st := if (if start <? 0 then start + zlen (vals l) else start) <? 0 then 0 else _).
  set (en := if zlen (vals l) <? _ then _ else _).
  assert (Hs : 0 <= st). { unfold st. destruct (Z.ltb_spec (if start <? 0 then start + zlen (vals l) else start) 0); lia. }
  assert (He : en <= zlen (vals l)). { unfold en. destruct (Z.ltb_spec (zlen (vals l)) (if stop <? 0 then stop + zlen (vals l) else stop)); lia. }
  clearbody st en. destruct (Z.ltb_spec en st) as [C|C]; [apply sim_same; auto|].
  rewrite !at_pos by exact W. cbn [lwith].
  set (p := Z.to_nat st). set (k := Z.to_nat (en - st)). assert (Ep : st = Z.of_nat p) by (unfold p; lia).
  replace (Z.to_nat en) with (p + k)%nat by (unfold p, k; lia). unfold zlen in He.
  assert (Hk : (p + k <= length (vals l))%nat) by (unfold p, k; lia).
  rewrite find_ok by (auto; rewrite ?size_vals; lia). rewrite Ep, std_find_from by lia. cbn [lwith with_].
  fold (vals l). set (f := find_from _ _). assert (Hf : (f <= k)%nat).
  { unfold f. etransitivity; [apply find_from_le|]. rewrite firstn_length. lia. }
  rewrite itpos_eqb by (auto; rewrite size_vals; lia).
  replace (Z.of_nat (p + f) =? en) with (p + f =? p + k)%nat.
  2:{ rewrite <- eqb_of_nat. f_equal. unfold p, k. lia. }
  destruct (Nat.eqb_spec (p + f) (p + k)); [apply sim_same; auto|].
  rewrite begin_pos. pose proof (distance_ok (lst l) W (size (lst l)) 0 (p + f)) as D. cbn [Nat.add] in D.
  rewrite D by (rewrite ?size_vals; lia). cbn [lwith]. apply sim_same; auto.
Qed.

Lemma std_count_filter s v : std_count s v = Z.of_nat (length (filter (fun x => x =? v) s)).
Proof. induction s as [|x s IH]; [reflexivity|]. cbn [std_count filter]. rewrite IH. destruct (x =? v); cbn [length]; lia. Qed.
Lemma count_sim o l : lwf l -> sim (lcount o l) (count KInt o (vals l)).
Proof.
  intros W. unfold lcount, count. apply sim_with; auto. intros v. rewrite begin_pos.
  rewrite (count_ok (lst l) _ W _ 0 (size (lst l))) by lia. cbn [lwith skipn]. rewrite std_count_filter. apply sim_same; auto.
Qed.
Lemma contains_sim o l : lwf l -> sim (lcontains o l) (contains KInt o (vals l)).
Proof.
  intros W. unfold lcontains, contains. destruct o; [|apply sim_same; auto]. apply sim_with; auto. intros v.
  rewrite find_all, find_all_arr by exact W. cbn [lwith with_]. rewrite (end_pos l).
  rewrite itpos_eqb by (auto; rewrite ?size_vals; try apply find_from_le; lia). unfold zlen. rewrite eqb_of_nat.
  apply sim_same; auto.
Qed.

Lemma zerase_n (s : list Z) p : (p < length s)%nat -> zerase s (Z.of_nat p) = Some (firstn p s ++ skipn (S p) s).
Proof.
  intros H. destruct (nth_error s p) as [x|] eqn:E; [|apply nth_error_None in E; lia].
  pose proof (firstn_skipn p s) as FS. rewrite (skipn_nth _ _ _ E) in FS. rewrite <- FS at 1.
  rewrite zerase_mid; [reflexivity|]. unfold zlen. rewrite firstn_length. lia.
Qed.
Lemma zset_n (s : list Z) p v : (p < length s)%nat -> zset s (Z.of_nat p) v = Some (firstn p s ++ v :: skipn (S p) s).
Proof.
  intros H. destruct (nth_error s p) as [x|] eqn:E; [|apply nth_error_None in E; lia].
  pose proof (firstn_skipn p s) as FS. rewrite (skipn_nth _ _ _ E) in FS. rewrite <- FS at 1.
  rewrite zset_mid; [reflexivity|]. unfold zlen. rewrite firstn_length. lia.
Qed.
Lemma zinsert_n (s : list Z) p v : (p <= length s)%nat -> zinsert s (Z.of_nat p) v = Some (firstn p s ++ v :: skipn p s).
Proof.
  intros H. rewrite <- (firstn_skipn p s) at 1. rewrite zinsert_mid; [reflexivity|]. unfold zlen. rewrite firstn_length. lia.
Qed.

Lemma insert_sim oi ov l : lwf l -> sim (linsert oi ov l) (insert KInt oi ov (vals l)).
Proof.
  intros W. unfold linsert, insert. rewrite lsize_vals. apply sim_with; auto. intros i. apply sim_with; auto. intros v.
  cbv zeta. set (p := if i <? 0 then _ else _).
  assert (Hp : 0 <= p <= zlen (vals l)).
  { unfold p. pose proof (zlen_nonneg (vals l)). destruct (Z.ltb_spec i 0); [lia|]. destruct (Z.ltb_spec (zlen (vals l)) i); lia. }
  clearbody p. rewrite at_pos by exact W. cbn [lwith]. unfold zlen in Hp.
  destruct (insert_pos (lst l) (Z.to_nat p) v W) as (s' & E & W' & V' & _); [rewrite size_vals; lia|]. rewrite E. cbn [lwith].
  replace (zinsert (vals l) p v) with (zinsert (vals l) (Z.of_nat (Z.to_nat p)) v) by (f_equal; lia). rewrite zinsert_n by lia.
  split; [reflexivity|]. split; [exact V'|exact W'].
Qed.

Lemma remove_sim o l : lwf l -> sim (lremove o l) (remove KInt o (vals l)).
Proof.
  intros W. unfold lremove, remove. apply sim_with; auto. intros v.
  rewrite find_all, find_all_arr by exact W. cbn [lwith with_]. pose proof (find_from_le (fun x => x =? v) (vals l)) as F.
  rewrite (end_pos l). rewrite itpos_eqb by (auto; rewrite ?size_vals; lia). unfold zlen. rewrite eqb_of_nat. cbn [Nat.add].
  destruct (Nat.eqb_spec (find_from (fun x => x =? v) (vals l)) (length (vals l))) as [E|E]; [apply sim_same; auto|].
  set (p := find_from _ _) in *. destruct (erase_pos (lst l) p W) as (s' & E' & W' & V' & _); [rewrite size_vals; lia|].
  rewrite E'. cbn [lwith]. rewrite zerase_n by lia. split; [reflexivity|]. split; [exact V'|exact W'].
Qed.

Lemma getitem_sim cfg i l : lwf l -> sim (lgetitem cfg i l) (getitem cfg KInt i (vals l)).
Proof.
  intros W. unfold lgetitem, getitem. rewrite lsize_vals. cbv zeta. set (p := if i <? 0 then _ else _).
  rewrite idx_test. destruct (_ && _) eqn:B; cbn [negb]; [|apply sim_same; auto]. apply rel_bounds_dec in B.
  rewrite at_pos by exact W. cbn [obind]. rewrite znth_default by exact B. unfold zlen in B.
  assert (N : nth_error (vals l) (Z.to_nat p) = Some (get_default (vals l) p)).
  { unfold get_default. apply nth_error_nth'. lia. }
  rewrite (deref_pos (lst l) _ _ W N). cbn [lwith]. apply sim_same; auto.
Qed.
Lemma subscript_sim cfg o l : lwf l -> sim (lsubscript cfg o l) (subscript cfg KInt o (vals l)).
Proof. intros W. unfold lsubscript, subscript. apply sim_with; auto. intros i. apply getitem_sim; auto. Qed.

Lemma slice_read_sim cfg l step start n : forall i, lwf l ->
  (forall j, i <= j < i + Z.of_nat n -> 0 <= start + j * step < zlen (vals l)) ->
  lslice_read cfg (lst l) n i start step = slice_read cfg KInt (vals l) n i start step.
Proof.
  induction n as [|n IH]; intros i W B; cbn [lslice_read slice_read]; [reflexivity|].
  unfold ssz at 1 3. destruct (in_sbits_b 64 (i * step)); cbn [obind]; [|reflexivity].
  unfold ssz. destruct (in_sbits_b 64 (start + i * step)); cbn [obind]; [|reflexivity].
  pose proof (B i ltac:(lia)) as Bi. unfold at_z. destruct (Z.ltb_spec (start + i * step) 0); [lia|].
  rewrite at_pos by exact W. cbn [obind]. rewrite znth_default by exact Bi. cbn [or_ub obind].
  assert (N : nth_error (vals l) (Z.to_nat (start + i * step)) = Some (get_default (vals l) (start + i * step))).
  { unfold get_default. apply nth_error_nth'. unfold zlen in Bi. lia. }
  rewrite (deref_pos (lst l) _ _ W N). cbn [obind]. rewrite IH; [reflexivity|exact W|]. intros j Hj. apply B. lia.
Qed.
Lemma getitem_slice_sim cfg sl l : lwf l -> zlen (vals l) <= SSIZE_MAX ->
  sim (lgetitem_slice cfg sl l) (getitem_slice cfg KInt sl (vals l)).
Proof.
  intros W Hl. unfold lgetitem_slice, getitem_slice. rewrite lsize_vals.
  destruct (unpack_cases sl) as [[E U]|[E (start & stop & step & U)]]; rewrite U; cbn [lwith with_]; [apply sim_same; auto|].
  pose proof (slice_positions_eq (length (vals l)) sl start stop step Hl U) as P. fold (zlen (vals l)) in P.
  destruct (PySlice_AdjustIndices (zlen (vals l)) start stop step) as [[a b] c]. destruct P as (P1 & P2 & P3).
  rewrite slice_read_sim; [|exact W|intros j Hj; apply P2; lia]. apply sim_with; auto. intros r. apply sim_same; auto.
Qed.

Lemma to_list_sim cfg l : lwf l -> sim (lto_list cfg l) (to_list cfg KInt (vals l)).
Proof.
  intros W. unfold lto_list, to_list. rewrite begin_pos, read_all_ok by (auto; lia). cbn [lwith skipn].
  rewrite firstn_all2 by (rewrite size_values; lia). apply sim_same; auto.
Qed.
Lemma copy_sim l : lwf l -> sim (lcopy l) (copy (vals l)).
Proof. intros W. apply sim_same; auto. Qed.
Lemma len_sim l : lwf l -> sim (llen l) (len (vals l)).
Proof. intros W. unfold llen, len. rewrite lsize_vals. apply sim_same; auto. Qed.
Lemma clear_sim l : lwf l -> sim (lclear l) (clear (vals l)).
Proof. intros W. split; [reflexivity|]. split; [reflexivity|apply clear_ok]. Qed.

Lemma lreverse_ok l : lwf l -> exists s, lreverse l = (Ret VNone, put l s) /\ values s = rev (vals l) /\ ids s = ids (lst l) /\ wf s.
Proof.
  intros W. unfold lreverse. rewrite begin_pos, (end_pos l).
  destruct (StdListProofs.reverse_ok (size (lst l)) (lst l) [] (vals l) [] W) as (s & E & W' & I & V & _).
  - cbn. rewrite app_nil_r. reflexivity.
  - rewrite size_vals. lia.
  - cbn [length] in E. rewrite E. cbn [lwith]. exists s. cbn [app] in V. rewrite app_nil_r in V. auto.
Qed.
Lemma reverse_sim cfg l : lwf l -> Forall (in_range KInt) (vals l) -> sim (lreverse l) (reverse cfg KInt (vals l)).
Proof.
  intros W F. destruct (lreverse_ok l W) as (s & -> & V & _ & W'). rewrite ArrayListProofs.reverse_ok by exact F.
  split; [reflexivity|]. split; [exact V|exact W'].
Qed.

(** Unchecked conversions that succeed. *)
Lemma conv_ok o v : as_elem KInt o = Ret v -> conv_pending KInt o = (v, None).
Proof.
  unfold as_elem, conv_pending. destruct (as_long o); cbn [obind]; intros H; try discriminate. congruence.
Qed.
Lemma append_sim v l : lwf l -> in_range KInt v -> sim (lappend (PInt v) l) (append KInt (PInt v) (vals l)).
Proof.
  intros W R. unfold lappend, append. rewrite (conv_ok _ v) by (apply as_elem_ok; exact R). rewrite as_elem_ok by exact R.
  cbn [with_ ret_with]. destruct (push_back_ok (lst l) v W) as (W' & V' & _). split; [reflexivity|]. split; [exact V'|exact W'].
Qed.

Lemma lextend_ok after vs fin : (forall l, vals (after l) = vals l /\ (lwf l -> lwf (after l))) ->
  Forall (in_range KInt) vs -> forall l, lwf l ->
  exists l', lextend_items after (map PInt vs) fin None l = (match fin with None => Ret tt | Some e => Raise e end, after l') /\
    lwf l' /\ vals l' = vals l ++ vs /\ modc l' = modc l.
Proof.
  intros AF F. induction F as [|v vs R F IH]; intros l W; cbn [map lextend_items].
  - exists l. rewrite app_nil_r. destruct fin; auto.
  - rewrite (conv_ok _ v) by (apply as_elem_ok; exact R). destruct (push_back_ok (lst l) v W) as (W1 & V1 & _).
    destruct (IH (put l (push_back (lst l) v)) W1) as (l' & E & W' & V' & M'). exists l'. split; [exact E|]. split; [exact W'|].
    split; [|exact M']. rewrite V'. unfold vals at 1. cbn [put lst]. rewrite V1, <- app_assoc. reflexivity.
Qed.
Lemma extend_sim how vs l : lwf l -> Forall (in_range KInt) vs ->
  sim (lstep {| py312 := false; feat := {| avx512 := false; avx2 := false; sse41 := false; ssse3 := false |} |} (OExtend how vs) l)
      (Ret VNone, vals l ++ vs).
Proof.
  intros W F. destruct how; cbn [lstep lextend].
  1,2: destruct (lextend_ok (fun l => bump l (lst l)) vs None (fun l => conj eq_refl (fun H => H)) F l W) as (l' & E & W' & V' & M');
    rewrite E; split; [reflexivity|]; split; [exact V'|exact W'].
  destruct (append_range_ok vs (lst l) W) as (W' & V' & _). split; [reflexivity|]. split; [exact V'|exact W'].
Qed.

Lemma pop_sim cfg l : lwf l -> sim (lpop cfg None l) (pop cfg KInt None (vals l)).
Proof.
  intros W. unfold lpop, pop. pose proof (nodes_vals l) as NV.
  destruct (nodes (lst l)) as [|n ns] eqn:E.
  - rewrite (proj1 NV eq_refl). split; [reflexivity|]. split; [apply NV; reflexivity|exact W].
  - assert (NE : vals l <> []) by (intros X; apply NV in X; discriminate). clear NV.
    destruct (vals l) as [|x0 s0] eqn:Es; [contradiction|]. rewrite <- Es in *. clear Es x0 s0.
    destruct (exists_last NE) as (s & v & EV).
    rewrite (back_ok (lst l) v s W EV). cbn [lwith].
    destruct (pop_back_ok (lst l) W) as (l' & P & W' & V' & _); [congruence|]. rewrite P. cbn [lwith].
    assert (ZN : znth (vals l) (zlen (vals l) - 1) = Some v).
    { rewrite EV. apply znth_mid. rewrite zlen_app. change (zlen [v]) with 1. lia. }
    rewrite ZN. split; [reflexivity|]. split; [exact V'|exact W'].
Qed.

Lemma setitem_sim i ov l : lwf l -> (forall o, ov = Some o -> exists v, as_elem KInt o = Ret v) ->
  sim (lsetitem i ov l) (setitem KInt i ov (vals l)).
Proof.
  intros W OV. unfold lsetitem, setitem. rewrite lsize_vals. cbv zeta. set (p := if i <? 0 then _ else _).
  rewrite idx_test. destruct (_ && _) eqn:B; cbn [negb]; [|apply sim_same; auto]. apply rel_bounds_dec in B.
  rewrite at_pos by exact W. cbn [lwith]. unfold zlen in B.
  assert (Hp : (Z.to_nat p < size (lst l))%nat) by (rewrite size_vals; lia).
  destruct ov as [o|].
  - destruct (OV o eq_refl) as (v & E). rewrite (conv_ok o v E), E. cbn [with_].
    destruct (assign_pos (lst l) (Z.to_nat p) v W Hp) as (s' & A & W' & _ & V' & _). rewrite A. cbn [lwith ret_with].
    replace (zset (vals l) p v) with (zset (vals l) (Z.of_nat (Z.to_nat p)) v) by (f_equal; lia). rewrite zset_n by lia. split; [reflexivity|]. split; [exact V'|exact W'].
  - destruct (erase_pos (lst l) (Z.to_nat p) W Hp) as (s' & A & W' & V' & _). rewrite A. cbn [lwith].
    replace (zerase (vals l) p) with (zerase (vals l) (Z.of_nat (Z.to_nat p))) by (f_equal; lia). rewrite zerase_n by lia. split; [reflexivity|]. split; [exact V'|exact W'].
Qed.
Lemma ass_subscript_sim oi ov l : lwf l -> (forall o, ov = Some o -> exists v, as_elem KInt o = Ret v) ->
  sim (lass_subscript oi ov l) (ass_subscript KInt oi ov (vals l)).
Proof. intros W OV. unfold lass_subscript, ass_subscript. apply sim_with; auto. intros i. apply setitem_sim; auto. Qed.

(** ** Slice assignment *)
Lemma conv_good o : good o -> conv_pending KInt o = (elem_val KInt o, None).
Proof.
  intros (z & -> & H). unfold conv_pending. cbn [as_long elem_val]. rewrite (proj2 (in_sbits_b_spec 64 z)) by exact H. reflexivity.
Qed.
Lemma firstn_app_len {B} (a b : list B) : firstn (length a) (a ++ b) = a.
Proof. rewrite firstn_app, Nat.sub_diag, firstn_all. cbn. apply app_nil_r. Qed.
Lemma skipn_app_len {B} (a b : list B) : skipn (length a) (a ++ b) = b.
Proof. rewrite skipn_app, Nat.sub_diag, skipn_all. reflexivity. Qed.
Lemma skipn_app_S {B} (a b : list B) x : skipn (S (length a)) (a ++ x :: b) = b.
Proof. rewrite skipn_app, skipn_all2 by lia. replace (S (length a) - length a)%nat with 1%nat by lia. reflexivity. Qed.

Lemma lassign_loop_ok : forall its pre a b c s, wf s -> values s = a ++ b ++ c -> length b = length its -> Forall good its ->
  forall rest, exists s', lassign_loop (src_items (pre ++ its ++ rest)) (length its) (zlen pre) (itpos s (length a)) s
    = (Ret (itpos s' (length a + length its)), s') /\ wf s' /\ ids s' = ids s /\
    values s' = a ++ map (elem_val KInt) its ++ c.
Proof.
  induction its as [|o its IH]; intros pre a b c s W V L G rest; cbn [length lassign_loop].
  - exists s. rewrite Nat.add_0_r. destruct b; [|discriminate]. auto.
  - destruct b as [|x b]; [discriminate|]. inversion G as [|? ? Go Gr]; subst.
    cbn [src_get src_items]. rewrite <- app_comm_cons. rewrite znth_mid by reflexivity. rewrite (conv_good o Go).
    assert (Hs : (length a < size s)%nat) by (rewrite size_values, V, !app_length; cbn; lia).
    destruct (assign_pos s (length a) (elem_val KInt o) W Hs) as (s1 & E1 & W1 & I1 & V1 & _). rewrite E1.
    rewrite (itpos_ids s s1) by (symmetry; exact I1).
    rewrite next_pos by (auto; rewrite size_ids, I1, <- size_ids; exact Hs).
    rewrite V in V1. rewrite firstn_app_len in V1. cbn [app] in V1. rewrite skipn_app_S in V1.
    replace (a ++ elem_val KInt o :: b ++ c) with ((a ++ [elem_val KInt o]) ++ b ++ c) in V1 by (rewrite <- app_assoc; reflexivity).
    destruct (IH (pre ++ [o]) (a ++ [elem_val KInt o]) b c s1 W1 V1 ltac:(cbn in L; lia) Gr rest) as (s' & E & W' & I' & V').
    rewrite zlen_app in E. change (zlen [o]) with 1 in E. rewrite app_length in E. cbn [length] in E. rewrite Nat.add_1_r in E.
    rewrite <- app_assoc in E. cbn [app] in E. rewrite E. exists s'. split.
    + do 2 f_equal. f_equal. lia.
    + split; [exact W'|]. split; [congruence|]. rewrite V', <- app_assoc. reflexivity.
Qed.

Lemma linsert_loop_ok : forall its pre a c s, wf s -> values s = a ++ c -> Forall good its ->
  exists s', linsert_loop (src_items (pre ++ its)) (length its) (zlen pre) (itpos s (length a)) s = (Ret tt, s') /\ wf s' /\
    values s' = a ++ map (elem_val KInt) its ++ c.
Proof.
  induction its as [|o its IH]; intros pre a c s W V G; cbn [length linsert_loop].
  - exists s. auto.
  - inversion G as [|? ? Go Gr]; subst. cbn [src_get src_items]. rewrite znth_mid by reflexivity. rewrite (conv_good o Go).
    assert (Hs : (length a <= size s)%nat) by (rewrite size_values, V, !app_length; cbn; lia).
    destruct (insert_pos s (length a) (elem_val KInt o) W Hs) as (s1 & E1 & W1 & V1 & I1 & _). rewrite E1.
    rewrite V in V1. rewrite firstn_app_len, skipn_app_len in V1.
    replace (a ++ elem_val KInt o :: c) with ((a ++ [elem_val KInt o]) ++ c) in V1 by (rewrite <- app_assoc; reflexivity).
    destruct (IH (pre ++ [o]) (a ++ [elem_val KInt o]) c s1 W1 V1 Gr) as (s' & E & W' & V').
    rewrite zlen_app in E. change (zlen [o]) with 1 in E. rewrite app_length in E. cbn [length] in E. rewrite Nat.add_1_r in E.
    rewrite <- app_assoc in E. cbn [app] in E.
    assert (IP : itpos s1 (S (length a)) = itpos s (length a)).
    { rewrite !itpos_nth, I1. rewrite nth_error_app2 by (rewrite firstn_length; lia). rewrite firstn_length, <- size_ids, Nat.min_l by lia.
      replace (S (length a) - length a)%nat with 1%nat by lia. cbn [nth_error].
      rewrite <- (firstn_skipn (length a) (ids s)) at 2.
      rewrite nth_error_app2 by (rewrite firstn_length; lia). rewrite firstn_length, <- size_ids, Nat.min_l, Nat.sub_diag by lia. reflexivity. }
    rewrite IP in E. rewrite E. exists s'. split; [reflexivity|]. split; [exact W'|]. rewrite V', <- app_assoc. reflexivity.
Qed.

Lemma lsetitem_slice_ok sl items l : lwf l -> zlen (vals l) <= SSIZE_MAX -> step_of sl = 1 -> Forall good items ->
  exists s', lsetitem_slice sl (AssSeq (src_items items)) l = (Ret VNone, put l s') /\ wf s' /\
    values s' = py_setslice (vals l) sl (map (elem_val KInt) items).
Proof.
  intros W Hl Hs G. unfold lsetitem_slice. rewrite lsize_vals.
  destruct (unpack_step1 (vals l) sl Hl Hs) as (start & stop & -> & Adj). cbn [lwith]. rewrite Adj.
  destruct (slice_split (vals l) sl) as (a & b & c & E & La & Lb & P).
  rewrite P. clear P. change (negb (1 =? 1)) with false. cbv iota. cbn [src_len src_items seq_size].
  pose proof (lo_hi_bounds (vals l) sl) as [B1 B2].
  set (lo := lo_of (vals l) sl) in *. set (hi := hi_of (vals l) sl) in *. clearbody lo hi.
  set (L := Z.max 0 (hi - lo)) in *. clear Adj Hl.
  unfold at_z. destruct (Z.ltb_spec lo 0); [lia|]. rewrite at_pos by exact W. cbn [lwith].
  rewrite (zlen_to_nat a lo La). cbv zeta. unfold vals in E.
  destruct (Z.eqb_spec (zlen items) L) as [EL|NL]; [|destruct (Z.ltb_spec (zlen items) L) as [LT|GT]].
  - replace (Z.to_nat L) with (length items) by (unfold zlen in *; lia).
    destruct (lassign_loop_ok items [] a b c (lst l) W E ltac:(unfold zlen in *; lia) G []) as (s' & Es & W' & _ & V').
    cbn [app] in Es. rewrite app_nil_r in Es. change (zlen (@nil pyobj)) with 0 in Es. fold (src_items items). rewrite Es.
    cbn [fst snd omap obind]. exists s'. auto.
  - destruct (zsplit_le b (zlen items)) as (b1 & b2 & Eb & Lb1); [pose proof (zlen_nonneg items); lia|].
    rewrite (zlen_to_nat items _ eq_refl). rewrite Eb, <- app_assoc in E.
    destruct (lassign_loop_ok items [] a b1 (b2 ++ c) (lst l) W E ltac:(unfold zlen in *; lia) G []) as (s1 & Es & W1 & _ & V1).
    cbn [app] in Es. rewrite app_nil_r in Es. change (zlen (@nil pyobj)) with 0 in Es. fold (src_items items). rewrite Es. cbn [fst snd].
    assert (Lb2 : Z.to_nat (L - zlen items) = length b2).
    { rewrite Eb, zlen_app in Lb. unfold zlen in *. lia. }
    rewrite Lb2. assert (S1 : size s1 = (length a + length items + length b2 + length c)%nat).
    { rewrite size_values, V1, !app_length, map_length. lia. }
    rewrite advance_pos by (auto; lia). cbn [obind].
    destruct (erase_range_ok (size s1) (length b2) s1 (length a + length items) W1 ltac:(lia) ltac:(lia)) as (s2 & E2 & W2 & V2 & _).
    rewrite E2. cbn [fst snd obind]. exists s2. split; [reflexivity|]. split; [exact W2|]. rewrite V2, V1.
    assert (LA : (length a + length items)%nat = length (a ++ map (elem_val KInt) items)) by (rewrite app_length, map_length; reflexivity).
    rewrite LA. rewrite (app_assoc a). rewrite firstn_app_len. rewrite <- (skipn_skipn (length b2)).
    rewrite skipn_app_len, skipn_app_len, <- app_assoc. reflexivity.
  - assert (GG : Forall good (firstn (length b) items) /\ Forall good (skipn (length b) items)).
    { rewrite <- (firstn_skipn (length b) items) in G. apply Forall_app in G. exact G. }
    assert (Lf : length (firstn (length b) items) = length b) by (rewrite firstn_length; unfold zlen in *; lia).
    destruct (lassign_loop_ok (firstn (length b) items) [] a b c (lst l) W E (eq_sym Lf) (proj1 GG) (skipn (length b) items))
      as (s1 & Es & W1 & _ & V1).
    cbn [app] in Es. rewrite firstn_skipn in Es. rewrite Lf in Es. change (zlen (@nil pyobj)) with 0 in Es.
    rewrite (zlen_to_nat b L Lb). fold (src_items items). rewrite Es. cbn [fst snd].
    rewrite (app_assoc a) in V1.
    destruct (linsert_loop_ok (skipn (length b) items) (firstn (length b) items) (a ++ map (elem_val KInt) (firstn (length b) items)) c s1 W1 V1 (proj2 GG))
      as (s2 & E2 & W2 & V2).
    rewrite firstn_skipn in E2. rewrite app_length, map_length, Lf in E2.
    assert (Zf : zlen (firstn (length b) items) = L) by (unfold zlen in *; lia). rewrite Zf in E2.
    replace (Z.to_nat (zlen items - L)) with (length (skipn (length b) items)) by (rewrite skipn_length; unfold zlen in *; lia).
    rewrite E2. cbn [fst snd obind]. exists s2. split; [reflexivity|]. split; [exact W2|].
    rewrite V2, <- app_assoc, (app_assoc (map _ _)), <- map_app, firstn_skipn. reflexivity.
Qed.
