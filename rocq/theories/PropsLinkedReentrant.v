(** Property theorems C68: user code that runs inside a call of an integer
    linked list and changes the list. *)
From Coq Require Import ZArith List Bool Lia.
From Verif Require Import Base PyLongModel PyLongProofs PyListSpec ListLemmas ArrayListModel ArrayListProofs ArrayListSpec
  ArrayListMoreModel ArrayListCmpProofs StdListModel LinkedListModel LinkedListProofs LinkedListFacts
  LinkedReentrantModel LinkedReentrantSpec LinkedReentrantProofs LinkedReentrantMore PropsArrayList.
Import ListNotations.
Local Open Scope Z_scope.

(** * C68 *)
(** append, insert, remove, count, subscript read, deletion, slice read and
    index with a stop: whatever the arguments' code does to the list, the call
    is that code followed by the Python method on the list it left, and the
    nodes stay well linked. *)
Theorem C68_atomic : forall cfg c l, proper l -> largs_sane c -> largs_fit c -> lsize_read_last c ->
  fst (mstep cfg c l) = expected cfg KInt (fst (latomic c l)) /\ vals (snd (mstep cfg c l)) = snd (latomic c l) /\
  lwf (snd (mstep cfg c l)).
Proof. exact latomic_ok. Qed.
Print Assumptions C68_atomic.

(** append of something that does not convert: -1 is appended to the list its
    code left, and None is returned with the error set. *)
Theorem C68_append_unconverted : forall cfg o l e l1, unconverted o l e l1 -> lwf l1 ->
  exists l2, mstep cfg (MAppend o) l = (RetPending VNone e, l2) /\ vals l2 = vals l1 ++ [-1] /\ lwf l2.
Proof. exact append_bad. Qed.
Print Assumptions C68_append_unconverted.

(** index without a stop stops at the size the list had when the call began,
    so it misses an element that Python's list finds. *)
Theorem C68_index_default : forall cfg o oa l, proper l -> largs_sane (MIndex o oa None) -> largs_fit (MIndex o oa None) ->
  match levaluate [Some o; oa] l with
  | (inl [Some v; a], l') =>
      fst (mstep cfg (MIndex o oa None) l) = expected cfg KInt (fst (py_step (OIndex v a (Some (zlen (vals l)))) (vals l'))) /\
      vals (snd (mstep cfg (MIndex o oa None) l)) = vals l'
  | (inl _, _) => False
  | (inr e, l') => mstep cfg (MIndex o oa None) l = (Raise e, l')
  end.
Proof. exact index_default_l. Qed.
Print Assumptions C68_index_default.

Theorem C68_index_default_refuted : forall cfg v l, proper l -> zlen (vals l) < SSIZE_MAX -> in_sbits 32 v -> ~ In v (vals l) ->
  fst (mstep cfg (MIndex (appending v v) None None) l) = Raise ValueError /\
  latomic (MIndex (appending v v) None None) l = (SRet (SNum (zlen (vals l))), vals l ++ [v]).
Proof. exact index_grow_l. Qed.
Print Assumptions C68_index_default_refuted.

(** pop(i), exactly: the position is computed with the old size. In range it
    is undefined: the node is read after its erasure (C30), or, if the code
    shortened the list to the position, the end node is erased. *)
Theorem C68_pop : forall cfg o l i l1, lwf l1 -> vals l <> [] -> o l = (Ret (PInt i), l1) -> in_sbits 64 i ->
  let p := rel (zlen (vals l)) i in
  fst (mstep cfg (MPop o) l) =
  if (0 <=? p) && (p <? zlen (vals l)) then Undef (if p <? zlen (vals l1) then UseAfterFree else IterBeforeBegin)
  else Raise IndexError.
Proof. exact pop_exact_l. Qed.
Print Assumptions C68_pop.

(** x[i] = v, exactly: the position is checked before the value's code runs. *)
Theorem C68_set_exact : forall cfg oi ov l i l1 v l2, lwf l2 -> oi l = (Ret (PInt i), l1) -> in_sbits 64 i ->
  ov l1 = (Ret (PInt v), l2) -> in_sbits 32 v ->
  let p := rel (zlen (vals l1)) i in
  (~ 0 <= p < zlen (vals l1) -> mstep cfg (MSet oi ov) l = (Raise IndexError, l1)) /\
  (0 <= p < zlen (vals l1) -> p < zlen (vals l2) -> exists l3, mstep cfg (MSet oi ov) l = (Ret VNone, l3) /\
     vals l3 = firstn (Z.to_nat p) (vals l2) ++ v :: skipn (S (Z.to_nat p)) (vals l2) /\ lwf l3) /\
  (0 <= p < zlen (vals l1) -> zlen (vals l2) <= p -> mstep cfg (MSet oi ov) l = (Undef IterBeforeBegin, l2)).
Proof. exact set_exact_l. Qed.
Print Assumptions C68_set_exact.

Theorem C68_set_unconverted : forall cfg oi ov l i l1 e l2, lwf l2 -> oi l = (Ret (PInt i), l1) -> in_sbits 64 i ->
  unconverted ov l1 e l2 ->
  let p := rel (zlen (vals l1)) i in 0 <= p < zlen (vals l1) -> p < zlen (vals l2) ->
  exists l3, mstep cfg (MSet oi ov) l = (RetPending VNone e, l3) /\
    vals l3 = firstn (Z.to_nat p) (vals l2) ++ -1 :: skipn (S (Z.to_nat p)) (vals l2) /\ lwf l3.
Proof. exact set_bad. Qed.
Print Assumptions C68_set_unconverted.

(** Every in-range x[i] = v whose value's code empties the list is undefined. *)
Theorem C68_set_clear_refuted : forall cfg l i v, proper l -> in_sbits 32 v -> in_sbits 64 i ->
  0 <= rel (zlen (vals l)) i < zlen (vals l) ->
  fst (mstep cfg (MSet (plain_int i) (clearing v)) l) = Undef IterBeforeBegin.
Proof. exact set_clear_l. Qed.
Print Assumptions C68_set_clear_refuted.

(** Slice assignment: free of undefined behaviour when the code of the sequence
    removes no node and reorders none, and its length is a number. *)
Theorem C68_slice_assign_safe : forall sl q l, proper l -> largs_sane (MGetSlice sl) -> largs_fit (MGetSlice sl) ->
  (forall t, exists n, 0 <= n /\ fst (s_len q t) = Ret n) ->
  lseq_all (@lreturns) q -> lseq_all (@keeps_nodes) q -> ldefined (fst (lsetitem_slice_u sl q l)).
Proof. exact lsetitem_slice_safe. Qed.
Print Assumptions C68_slice_assign_safe.

(** The slice's own bounds may change the list freely; a sequence that leaves
    the list alone is assigned as Python does. *)
Theorem C68_slice_assign_atomic : forall cfg sl q zs l, proper l -> largs_sane (MGetSlice sl) ->
  lyields_opt (ls_step sl) (fun z => z = 1) -> lstands_for q zs -> Forall (fun v => in_sbits 32 v) zs ->
  let p := match levaluate (larguments (MGetSlice sl)) l with
     | (inl [c; a; b], l') => py_step (OSetSlice {| sl_start := a; sl_stop := b; sl_step := c |} zs) (vals l')
     | (inl _, l') => (SRaise TypeError, vals l')
     | (inr e, l') => (SRaise e, vals l')
     end in
  fst (lsetitem_slice_u sl q l) = expected cfg KInt (fst p) /\ vals (snd (lsetitem_slice_u sl q l)) = snd p /\
  lwf (snd (lsetitem_slice_u sl q l)).
Proof. exact setslice_atomic_l. Qed.
Print Assumptions C68_slice_assign_atomic.

(** A conversion that fails inside a slice assignment: the ints before it are
    in place, -1 stands where the failed item would go, and the rest of the
    slice is still there. *)
Theorem C68_slice_unconverted : forall sl q l start stop l1 m zs e, lunpack_u sl l = (Ret (start, stop, 1), l1) -> lwf l1 ->
  (forall t, s_len q t = (Ret m, t)) -> lints_then_bad q 0 zs e -> Forall (fun v => in_sbits 32 v) zs -> zlen zs < m ->
  let '(a, b, n) := PySlice_AdjustIndices (zlen (vals l1)) start stop 1 in
  exists l', lsetitem_slice_u sl q l = (Raise e, l') /\ lwf l' /\
    vals l' = firstn (Z.to_nat a) (vals l1) ++ zs ++ -1 :: skipn (Z.to_nat (a + Z.min n (zlen zs + 1))) (vals l1).
Proof. exact setslice_bad_l. Qed.
Print Assumptions C68_slice_unconverted.

(** Code of the first item that removes the first node of the slice. *)
Theorem C68_slice_erased_refuted : forall sl q l start stop l1 m o l2 i,
  lunpack_u sl l = (Ret (start, stop, 1), l1) -> lwf l1 -> (forall t, s_len q t = (Ret m, t)) -> 0 < m ->
  let '(a, b, n) := PySlice_AdjustIndices (zlen (vals l1)) start stop 1 in
  0 < n -> s_get q 0 l1 = (Ret o, l2) -> nth_error (ids (lst l1)) (Z.to_nat a) = Some i ->
  ~ In i (ids (lst (snd (o l2)))) -> fst (lsetitem_slice_u sl q l) = Undef UseAfterFree.
Proof. exact slice_erased. Qed.
Print Assumptions C68_slice_erased_refuted.

(** A sequence whose [__len__] raises: one element after the slice is erased
    with it, or the end of the list is passed. *)
Theorem C68_len_raises_refuted : forall sl q l e start stop l1 l2, lunpack_u sl l = (Ret (start, stop, 1), l1) ->
  s_len q l1 = (Raise e, l2) -> lwf l2 -> zlen (vals l2) = zlen (vals l1) ->
  let '(a, b, n) := PySlice_AdjustIndices (zlen (vals l1)) start stop 1 in
  (a + n = zlen (vals l1) -> fst (lsetitem_slice_u sl q l) = Undef IterBeforeBegin) /\
  (a + n < zlen (vals l1) -> exists l', lsetitem_slice_u sl q l = (RetPending VNone e, l') /\ lwf l' /\
     vals l' = firstn (Z.to_nat a) (vals l2) ++ skipn (Z.to_nat (a + n + 1)) (vals l2)).
Proof. exact len_raises_l. Qed.
Print Assumptions C68_len_raises_refuted.

(** Comparison with a sequence ([!=] inherits the null dereference of C31). *)
Theorem C68_compare_safe : forall c q l, lwf l -> c <> Ne_ -> lseq_all (@lreturns) q -> lseq_all (@keeps_nodes) q ->
  ldefined (fst (lcompare_u c q l)).
Proof. exact lcompare_safe. Qed.
Print Assumptions C68_compare_safe.

(** A sequence that leaves the list alone is compared as in C31. *)
Theorem C68_compare_plain : forall c q zs l, lwf l -> lstands_for q zs -> Forall (fun v => in_sbits 32 v) zs ->
  exists b, lcompare_u c q l = (Ret b, l) /\
    (b = true <-> match c with Eq_ => vals l = zs | Ne_ => vals l <> zs | _ => llord_sem c (vals l) zs end).
Proof. exact lcompare_plain. Qed.
Print Assumptions C68_compare_plain.

Theorem C68_compare_unconverted : forall c q zs x rest e l, lwf l -> vals l = zs ++ x :: rest ->
  (forall t, s_len q t = (Ret (zlen (vals l)), t)) -> lints_then_bad q 0 zs e -> Forall (fun v => in_sbits 32 v) zs ->
  (is_ord c -> x <> -1) ->
  exists b, lcompare_u c q l = (RetPending b e, l) /\
    (b = true <-> match c with Eq_ => False | Ne_ => True | Lt_ => x < -1 | Le_ => x <= -1 | Gt_ => -1 < x | Ge_ => -1 <= x end).
Proof. exact compare_bad_l. Qed.
Print Assumptions C68_compare_unconverted.

(** A [__getitem__] that removes the first node. *)
Theorem C68_compare_erased_refuted : forall c q l m l1 o l2 i, s_len q l = (Ret m, l1) -> m = zlen (vals l1) ->
  s_get q 0 l1 = (Ret o, l2) -> hd_error (ids (lst l1)) = Some i -> ~ In i (ids (lst l2)) ->
  fst (lcompare_u c q l) = Undef UseAfterFree.
Proof. exact compare_erased. Qed.
Print Assumptions C68_compare_erased_refuted.

(** A slice whose step comes out as 0: ValueError, in reading and assignment,
    after the step's code and before any other. *)
Theorem C68_zero_step : forall cfg sl q o l l1, ls_step sl = Some o -> o l = (Ret (PInt 0), l1) ->
  mstep cfg (MGetSlice sl) l = (Raise ValueError, l1) /\ lsetitem_slice_u sl q l = (Raise ValueError, l1).
Proof. exact zero_step_l. Qed.
Print Assumptions C68_zero_step.

(** extend and +=: the loop of appends [ltrace], with the same list contents
    and exception for both; it has one outcome only. extend counts as one
    modification, unless left from inside the loop; += as none. *)
Theorem C68_extend : forall it l, lreturns (n_start it) -> Forall lreturns (n_items it) -> lreturns (n_end it) ->
  (forall nx l o, In nx (n_items it) -> fst (nx l) = Ret o -> lreturns o) ->
  (exists e l1, n_start it l = (Raise e, l1) /\ lextend_u it l = (Raise e, l1) /\ liadd_u it l = (Raise e, l1)) \/
  (exists l1 r c l', n_start it l = (Ret tt, l1) /\ ltrace (n_items it) (n_end it) l1 r c l' /\
     fst (lextend_u it l) = match r with None => Ret VNone | Some e => Raise e end /\
     lst (snd (lextend_u it l)) = lst l' /\ modc (snd (lextend_u it l)) = (if c then modc l' + 1 else modc l') /\
     liadd_u it l = (match r with None => Ret VSelf | Some e => Raise e end, l')).
Proof. exact extend_l. Qed.
Print Assumptions C68_extend.

Theorem C68_extend_unique : forall items fin l r1 c1 t1 r2 c2 t2,
  ltrace items fin l r1 c1 t1 -> ltrace items fin l r2 c2 t2 -> r1 = r2 /\ c1 = c2 /\ t1 = t2.
Proof. exact (fun items fin l r1 c1 t1 r2 c2 t2 A B => ltrace_det items fin l r1 c1 t1 A r2 c2 t2 B). Qed.
Print Assumptions C68_extend_unique.

(** The list's own methods that add nodes or change values keep every node, so
    they are harmless in the code of an item; removal and sort are not. *)
Theorem C68_adds_only_keeps : forall cfg o, adds_only o -> keeps_nodes (lstep cfg o).
Proof. exact adds_only_keeps. Qed.
Print Assumptions C68_adds_only_keeps.

(** ** Concrete cases *)
Definition ex_ll : ll := new_list (copy_of [3; 1; 2]).
Definition ex_sl (a b : Z) : lslice := {| ls_start := Some (plain_int a); ls_stop := Some (plain_int b); ls_step := None |}.

Example C68_ex_proper : proper ex_ll.
Proof. exact ex_ll_proper. Qed.

Example C68_ex_insert :
  largs_sane (MInsert (appending 9 (-1)) (plain_int 7)) /\ largs_fit (MInsert (appending 9 (-1)) (plain_int 7)) /\
  fst (mstep ex_cfg (MInsert (appending 9 (-1)) (plain_int 7)) ex_ll) = Ret VNone /\
  vals (snd (mstep ex_cfg (MInsert (appending 9 (-1)) (plain_int 7)) ex_ll)) = [3; 1; 2; 7; 9].
Proof.
  split; [|split; [|split; vm_compute; reflexivity]].
  - intros u [E|[E|[]]]; inversion E; subst; [apply appending_sane; unfold in_sbits; split; vm_compute; congruence|apply plain_sane].
  - split; intros l z l' E; inversion E; subst; unfold in_sbits; split; vm_compute; congruence.
Qed.

Example C68_ex_stale :
  fst (mstep ex_cfg (MPop (appending 8 (-1))) ex_ll) = Undef UseAfterFree /\
  fst (mstep ex_cfg (MPop (clearing 1)) ex_ll) = Undef IterBeforeBegin /\
  fst (mstep ex_cfg (MSet (plain_int 2) (clearing 4)) ex_ll) = Undef IterBeforeBegin /\
  vals (snd (mstep ex_cfg (MSet (plain_int 2) (appending 5 4)) ex_ll)) = [3; 1; 4; 5] /\
  fst (mstep ex_cfg (MIndex (appending 7 7) None None) ex_ll) = Raise ValueError.
Proof. split; [|split; [|split; [|split]]]; vm_compute; reflexivity. Qed.

(** x[0:2] = [appends 5 and is 8, 9]: allowed, and its hypotheses. *)
Example C68_ex_slice :
  lseq_all (@keeps_nodes) (seq_of [appending 5 8; plain_int 9]) /\ lseq_all (@lreturns) (seq_of [appending 5 8; plain_int 9]) /\
  fst (lsetitem_slice_u (ex_sl 0 2) (seq_of [appending 5 8; plain_int 9]) ex_ll) = Ret VNone /\
  vals (snd (lsetitem_slice_u (ex_sl 0 2) (seq_of [appending 5 8; plain_int 9]) ex_ll)) = [8; 9; 2; 5].
Proof.
  split; [|split; [|split; vm_compute; reflexivity]].
  - apply seq_of_all; [intros os; apply same_keeps; intros; reflexivity|intros i os; apply same_keeps; intros l; cbn; destruct (znth os i); reflexivity|].
    intros o [<-|[<-|[]]]; [apply appending_keeps|apply same_keeps; reflexivity].
  - apply seq_of_all; [intros os l; left; eexists; reflexivity|intros i os l; cbn; destruct (znth os i); [left|right]; eexists; reflexivity|].
    intros o [<-|[<-|[]]] l; left; eexists; reflexivity.
Qed.

(** The item's code removes the first element, or sorts: the iterator is lost,
    or runs into the end of the list. *)
Example C68_ex_slice_bad :
  fst (lsetitem_slice_u (ex_sl 0 3) (seq_of [removing_first 7; plain_int 8; plain_int 9]) ex_ll) = Undef UseAfterFree /\
  fst (lsetitem_slice_u (ex_sl 0 3) (seq_of [sorting 7; plain_int 8; plain_int 9]) ex_ll) = Undef IterBeforeBegin /\
  ~ keeps_nodes (sorting 7) /\ ~ keeps_nodes (removing_first 7) /\
  fst (lcompare_u Eq_ (seq_of [removing_first 3; plain_int 1; plain_int 2]) ex_ll) = Undef UseAfterFree /\
  fst (lcompare_u Lt_ (seq_of [clearing 3; plain_int 1; plain_int 2]) ex_ll) = Undef UseAfterFree.
Proof.
  split; [vm_compute; reflexivity|]. split; [vm_compute; reflexivity|]. split; [exact sorting_moves|]. split; [exact removing_removes|].
  split; vm_compute; reflexivity.
Qed.

Definition bad_lseq : lseq := {| s_len := fun l => (Raise (UserError 3), l); s_get := s_get (seq_of [plain_int 8]) |}.
Example C68_ex_len :
  (let r := lsetitem_slice_u (ex_sl 0 1) bad_lseq ex_ll in fst r = RetPending VNone (UserError 3) /\ vals (snd r) = [2]) /\
  fst (lsetitem_slice_u (ex_sl 1 3) bad_lseq ex_ll) = Undef IterBeforeBegin.
Proof. split; [split|]; vm_compute; reflexivity. Qed.

Example C68_ex_stands : lstands_for (seq_of [plain_int 3; plain_int 1; plain_int 2]) [3; 1; 2] /\
  lcompare_u Eq_ (seq_of [plain_int 3; plain_int 1; plain_int 2]) ex_ll = (Ret true, ex_ll) /\
  lcompare_u Lt_ (seq_of [plain_int 3; plain_int 5; plain_int 2]) ex_ll = (Ret true, ex_ll) /\
  vals (snd (lsetitem_slice_u (ex_sl 1 1) (seq_of [plain_int 3; plain_int 1; plain_int 2]) ex_ll)) = [3; 3; 1; 2; 1; 2].
Proof.
  split; [|split; [|split]; vm_compute; reflexivity]. split; [reflexivity|]. intros i z Hi E l.
  exists (plain_int z). split; [|reflexivity]. cbn [seq_of s_get]. unfold znth. destruct (Z.ltb_spec i 0); [lia|].
  destruct (Z.to_nat i) as [|[|[|n]]]; cbn in *; try (injection E as <-; reflexivity). destruct n; discriminate.
Qed.

Example C68_ex_unconverted :
  let bad : iobj := fun l => (Ret (PObj 0), l) in
  lints_then_bad (seq_of [plain_int 3; bad; plain_int 2]) 0 [3] TypeError /\
  (let r := lsetitem_slice_u (ex_sl 0 2) (seq_of [plain_int 8; bad]) ex_ll in fst r = Raise TypeError /\ vals (snd r) = [8; -1; 2]) /\
  (let r := lsetitem_slice_u (ex_sl 1 1) (seq_of [plain_int 8; bad]) ex_ll in fst r = Raise TypeError /\ vals (snd r) = [3; 8; -1; 1; 2]) /\
  lcompare_u Eq_ (seq_of [plain_int 3; bad; plain_int 2]) ex_ll = (RetPending false TypeError, ex_ll) /\
  lcompare_u Gt_ (seq_of [plain_int 3; bad; plain_int 2]) ex_ll = (RetPending true TypeError, ex_ll).
Proof.
  split; [|split; [split|split; [split|split]]; vm_compute; reflexivity]. split.
  - intros l. exists (plain_int 3). split; reflexivity.
  - intros l. eexists. split; [reflexivity|]. intros l'. right; left. split; [reflexivity|]. exists 0. reflexivity.
Qed.

(** extend with an iterator that removes what was appended before, and one
    whose second item does not convert. *)
Example C68_ex_extend :
  let it := {| n_start := fun l => (Ret tt, l);
               n_items := [ (fun l => (Ret (plain_int 4), l)); (fun l => (Ret (appending 6 7), snd (lclear l))) ];
               n_end := fun l => (Ret tt, l) |} in
  fst (lextend_u it ex_ll) = Ret VNone /\ vals (snd (lextend_u it ex_ll)) = [6; 7] /\
  fst (liadd_u it ex_ll) = Ret VSelf /\ vals (snd (liadd_u it ex_ll)) = [6; 7].
Proof. split; [|split; [|split]]; vm_compute; reflexivity. Qed.
Example C68_ex_extend_bad :
  let it := {| n_start := fun l => (Ret tt, l);
               n_items := [ (fun l => (Ret (plain_int 4), l)); (fun l => (Ret (fun l => (Ret (PObj 0), l)), l)); (fun l => (Ret (plain_int 5), l)) ];
               n_end := fun l => (Ret tt, l) |} in
  fst (lextend_u it ex_ll) = Raise TypeError /\ vals (snd (lextend_u it ex_ll)) = [3; 1; 2; 4; -1].
Proof. split; vm_compute; reflexivity. Qed.

(** x[::i] where i's __index__ appends 9 and gives 0. *)
Example C68_ex_zero : let r := mstep ex_cfg (MGetSlice {| ls_start := None; ls_stop := None; ls_step := Some (appending 9 0) |}) ex_ll in
  fst r = Raise ValueError /\ vals (snd r) = vals ex_ll ++ [9].
Proof. split; vm_compute; reflexivity. Qed.
