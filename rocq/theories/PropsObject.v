(** Property theorems C32 (object half), C35-C40, C50-C56: ObjectArrayList,
    ObjectLinkedList and their iterators. Objects are identified by their
    address; [w_rc] are the reference counts in memory, [w_ext] the references
    the program itself holds. *)
From Coq Require Import ZArith List Bool Arith Lia.
From Verif Require Import Base PyListSpec ListLemmas ArrayListModel ArrayListProofs ArrayListMoreModel StdListModel StdListProofs
  LinkedListModel LinkedListProofs ObjModel ObjArrayModel ObjLinkedModel ObjWorldModel ObjSpec ObjLemmas ObjHistoryProofs
  ObjMoreModel ObjMoreSpec ObjMoreProofs ObjDefectProofs LinkSliceSpec LinkSliceProofs PropsLinkedList.
Import ListNotations.
Local Open Scope Z_scope.

Definition ex_cpu : cpu := {| avx512 := true; avx2 := true; sse41 := true; ssse3 := true |}.
(** A history with several lists: construction from lists and from an iterator
    that fails, calls of most methods, destruction. *)
Definition ex_history : list event :=
  [EvAcquire 5; EvAcquire 6; EvAcquire 7; EvNew (Some (SPyList [5; 6; 5])); EvNew (Some (SIter [8; 9] (Some (UserError 1))));
   EvCall 0 (CAppend 7); EvNew None; EvCall 1 (CExtend (SObj 0)); EvCall 1 (CInsert (PInt (-2)) 6); EvCall 0 (CRemove 5);
   EvCall 1 (CPop (Some (PInt 9))); EvCall 1 (CPop None); EvCall 0 (CSetSlice {| sl_start := Some 0; sl_stop := Some 2; sl_step := None |} (SetTo (SIter [8; 8; 8] None)));
   EvCall 1 (CMul 2); EvCall 2 CReverse; EvCall 2 (CDel (PInt 1)); EvCall 0 (CGetSlice {| sl_start := None; sl_stop := None; sl_step := Some (-2) |});
   EvRelease 5; EvFree 0; EvCall 1 CCopy; EvCall 1 CClear; EvFree 1].

(** * C35 *)
(** [a_counted] (ObjSpec) are the calls covered: everything except item
    assignment to a valid index, resize to another size, [a *= n] with n <> 1,
    slice deletion, and slice assignment of the list itself, of a list longer
    than the slice or of a sequence without length; construction from
    another non-empty list of the class is excluded too (C36, C38, C51). *)
Theorem C35_balanced : forall f es, counted_run a_counted es (empty_world (ArrayClass f)) = true ->
  exists w, wrun es (empty_world (ArrayClass f)) = Ret w /\ balanced w /\
    forall j s, contents w j = Some s -> Forall (fun o => 0 < w_rc w o) s.
Proof. exact a_balanced. Qed.
Print Assumptions C35_balanced.
(** Once every list is destroyed only the program's own references remain. *)
Theorem C35_all_released : forall f es w, counted_run a_counted es (empty_world (ArrayClass f)) = true ->
  wrun es (empty_world (ArrayClass f)) = Ret w -> Forall (fun s => s = None) (w_lists w) -> forall o, w_rc w o = w_ext w o.
Proof.
  intros f es w C E A. destruct (a_balanced f es C) as (w' & E' & B & _). rewrite E in E'. injection E' as <-. exact (all_freed w B A).
Qed.
Print Assumptions C35_all_released.
Example C35_ex : counted_run a_counted ex_history (empty_world (ArrayClass ex_cpu)) = true /\
  match wrun ex_history (empty_world (ArrayClass ex_cpu)) with
  | Ret w => map (w_rc w) [5; 6; 7; 8; 9] = [6; 6; 3; 1; 0] /\ map (w_ext w) [5; 6; 7; 8; 9] = [0; 1; 3; 1; 0]
             /\ contents w 2 = Some [5; 6; 5; 5; 6; 6; 5] /\ contents w 3 = Some [5; 6; 6; 5]
  | _ => False
  end.
Proof. split; [vm_compute; reflexivity|]. vm_compute. auto. Qed.

(** * C36 *)
(** [d] are the references outside this list. The state before each call is
    balanced; the equations say by how much it is off afterwards. *)
Theorem C36_item_assignment_leaks : forall f s rc d z p old q o,
  (forall x, 0 <= d x) -> (forall x, rc x = occ s x + d x) -> zlen s <= SSIZE_MAX ->
  s = p ++ old :: q -> rel (zlen s) z = zlen p -> is_obj o = true -> 0 < d o ->
  exists rc', a_call f (CSet (PInt z) o) s rc = (Ret ONone, (p ++ o :: q, rc')) /\
    forall x, rc' x = occ (p ++ o :: q) x + d x + occ [old] x.
Proof. intros f s rc d z p old q o D R H E Z0 O P. exact (a_set_leaks f s rc d R H z p old q o E Z0 O P). Qed.
Print Assumptions C36_item_assignment_leaks.
Theorem C36_leak_history : forall f o p, is_obj o = true -> is_obj p = true -> o <> p -> exists w,
  wrun [EvAcquire o; EvNew (Some (SPyList [o])); EvAcquire p; EvCall 0 (CSet (PInt 0) p); EvRelease o; EvRelease p; EvFree 0]
    (empty_world (ArrayClass f)) = Ret w /\ w_lists w = [None] /\ w_ext w o = 0 /\ w_rc w o = 1 /\ w_rc w p = 0.
Proof. exact a_set_leaks_history. Qed.
Print Assumptions C36_leak_history.
Theorem C36_construction_takes_no_references : forall ys rc, a_init (Some (OSame ys)) rc = (Ret ys, rc).
Proof. reflexivity. Qed.
Print Assumptions C36_construction_takes_no_references.
(** Freeing both lists releases an object that is gone. *)
Theorem C36_construction_history : forall f o, is_obj o = true ->
  wrun [EvAcquire o; EvNew (Some (SPyList [o])); EvNew (Some (SObj 0)); EvRelease o; EvFree 0; EvFree 1] (empty_world (ArrayClass f))
  = Undef UseAfterFree.
Proof. exact a_init_steals. Qed.
Print Assumptions C36_construction_history.
Theorem C36_resize : forall f s rc d n, (forall x, rc x = occ s x + d x) -> 0 <= n <= SSIZE_MAX ->
  let s' := firstn (Z.to_nat n) s ++ repeat PyNone (Z.to_nat n - length s) in
  a_call f (CResize (PInt n)) s rc = (Ret ONone, (s', rc)) /\
  forall x, rc x = occ s' x + d x + occ (skipn (Z.to_nat n) s) x - (if x =? PyNone then Z.max 0 (n - zlen s) else 0).
Proof. intros f s rc d n R. exact (a_resize_counts f s rc d R n). Qed.
Print Assumptions C36_resize.
(** However many references to None exist, resize and destruction release more. *)
Theorem C36_resize_frees_none : forall f k, Z.of_nat k + 1 <= SSIZE_MAX ->
  wrun (repeat (EvAcquire PyNone) k ++ [EvNew None; EvCall 0 (CResize (PInt (Z.of_nat k + 1))); EvFree 0]) (empty_world (ArrayClass f))
  = Undef UseAfterFree.
Proof. exact a_resize_none. Qed.
Print Assumptions C36_resize_frees_none.
Theorem C36_growing_slice_assignment : forall f s rc d sl ys v,
  (forall x, 0 <= d x) -> (forall x, rc x = occ s x + d x) -> Forall (fun o => is_obj o = true) s -> zlen s <= SSIZE_MAX ->
  v = SetTo (OSame ys) \/ v = SetTo (OList ys) -> step_of sl = 1 -> slice_len s sl < zlen ys ->
  Forall (fun o => is_obj o = true /\ 0 < d o) ys ->
  exists rc', a_call f (CSetSlice sl v) s rc = (Ret ONone, (py_setslice s sl ys, rc')) /\
    forall x, rc' x = occ (py_setslice s sl ys) x + d x - occ (skipn (Z.to_nat (slice_len s sl)) ys) x.
Proof. intros f s rc d sl ys v D R F H. exact (a_setslice_grow f s rc d D R F H sl ys v). Qed.
Print Assumptions C36_growing_slice_assignment.
Theorem C36_repetition_by_zero_leaks : forall f n s rc d, n <= 0 -> (forall x, rc x = occ s x + d x) ->
  exists rc', a_call f (CImul n) s rc = (Ret OSelf, ([], rc')) /\ forall x, rc' x = occ [] x + d x + occ s x.
Proof. intros f n s rc d N R. exists rc. split; [exact (a_imul_zero f s rc n N)|]. intros x. rewrite R. cbn [occ]. lia. Qed.
Print Assumptions C36_repetition_by_zero_leaks.
Definition ex_rc (s : list Z) (ext : list Z) : counts := fun x => occ s x + occ ext x.
Example C36_ex : a_call ex_cpu (CSetSlice {| sl_start := Some 1; sl_stop := Some 2; sl_step := None |} (SetTo (OList [7; 8; 9]))) [5; 6; 5] (ex_rc [5; 6; 5] [7; 8; 9; 6])
  = (Ret ONone, ([5; 7; 8; 9; 5], snd (snd (a_call ex_cpu (CSetSlice {| sl_start := Some 1; sl_stop := Some 2; sl_step := None |} (SetTo (OList [7; 8; 9]))) [5; 6; 5] (ex_rc [5; 6; 5] [7; 8; 9; 6]))))) /\
  map (snd (snd (a_call ex_cpu (CSetSlice {| sl_start := Some 1; sl_stop := Some 2; sl_step := None |} (SetTo (OList [7; 8; 9]))) [5; 6; 5] (ex_rc [5; 6; 5] [7; 8; 9; 6])))) [5; 6; 7; 8; 9]
  = [2; 1; 2; 1; 1] /\
  map (snd (snd (a_call ex_cpu (CSet (PInt (-1)) 7) [5; 6] (ex_rc [5; 6] [7])))) [5; 6; 7] = [1; 1; 2].
Proof. vm_compute. auto. Qed.

(** * C37 *)
(** Searches use identity alone: the answers of a Python list whose objects
    equal nothing but themselves. *)
Theorem C37_search_by_identity : forall f o s rc,
  a_call f (CIndex o None None) s rc = (omap ONum (py_index identical o s), (s, rc)) /\
  a_call f (CCount o) s rc = (Ret (ONum (py_count identical o s)), (s, rc)) /\
  (forall isint, a_call f (CContains isint o) s rc = (Ret (OBool (isint && py_in identical o s)), (s, rc))) /\
  (is_obj o = true -> 0 < rc o -> exists rc', a_call f (CRemove o) s rc =
     match py_remove identical o s with Ret s' => (Ret ONone, (s', rc')) | _ => (Raise ValueError, (s, rc)) end).
Proof.
  intros f o s rc. split; [apply a_index_spec|]. split; [apply a_count_spec|]. split; [intros; apply a_contains_spec|apply a_remove_spec].
Qed.
Print Assumptions C37_search_by_identity.
(** The linked list gives the array list's answers, contents and counts. *)
Theorem C37_linked : forall f c l rc, lwf l ->
  match c with CIndex _ _ _ | CCount _ | CRemove _ | CContains _ _ => true | _ => false end = true ->
  let r := l_call c l rc in let a := a_call f c (vals l) rc in
  observe vals (fst r) = fst a /\ vals (fst (snd r)) = fst (snd a) /\ snd (snd r) = snd (snd a).
Proof. intros f c l rc W H. destruct (l_search_sim f c l rc W H) as (A & B & C & _). auto. Qed.
Print Assumptions C37_linked.
Theorem C37_agrees_without_equal_objects : forall eq o s, (forall x, In x s -> eq x o = true -> x = o) ->
  py_index eq o s = py_index identical o s /\ py_count eq o s = py_count identical o s /\ py_in eq o s = py_in identical o s /\
  py_remove eq o s = py_remove identical o s.
Proof. exact search_agrees. Qed.
Print Assumptions C37_agrees_without_equal_objects.
Theorem C37_count_refuted : forall eq o s x, In x s -> x <> o -> eq x o = true -> py_count identical o s < py_count eq o s.
Proof. exact count_differs. Qed.
Print Assumptions C37_count_refuted.
Theorem C37_index_remove_refuted : forall eq o a x b, (forall y, In y a -> y <> o) -> x <> o -> eq x o = true ->
  py_index eq o (a ++ x :: b) <> py_index identical o (a ++ x :: b) /\ py_remove eq o (a ++ x :: b) <> py_remove identical o (a ++ x :: b).
Proof. exact index_differs. Qed.
Print Assumptions C37_index_remove_refuted.
Theorem C37_membership_refuted : forall f eq o s rc, In o s -> fst (a_call f (CContains false o) s rc) = Ret (OBool false) /\ py_in eq o s = true.
Proof.
  intros f eq o s rc I. split; [reflexivity|]. unfold py_in. apply existsb_exists. exists o. split; [exact I|]. unfold matches. rewrite Z.eqb_refl. reflexivity.
Qed.
Print Assumptions C37_membership_refuted.
Example C37_ex : fst (a_call ex_cpu (CIndex 7 None None) [5; 6; 7; 7] (ex_rc [5; 6; 7; 7] [7])) = Ret (ONum 2) /\
  py_index (fun x y => (x =? 6) && (y =? 7)) 7 [5; 6; 7; 7] = Ret 1.
Proof. vm_compute. auto. Qed.

(** * C38 *)
Theorem C38_never_returns : forall n s rc k, 2 <= n -> s <> [] -> Forall (fun o => is_obj o = true /\ 0 < rc o) s ->
  (zlen s * n) mod 2 ^ 64 <= 2 ^ 60 - 1 ->
  a_imul k n s rc = None /\
  exists v i j r, imul_steps n k {| l_i := 1; l_j := 0; l_vec := s; l_rc := rc |} = Running {| l_i := i; l_j := j; l_vec := v; l_rc := r |} /\
    zlen v = zlen s + Z.of_nat k.
Proof.
  intros n s rc k N NE K M. split; [apply a_imul_never; auto|apply a_imul_grows; auto].
  unfold reserve_fails, max_size. apply Z.ltb_ge. exact M.
Qed.
Print Assumptions C38_never_returns.
Theorem C38_otherwise_returns : forall n s rc k, (Z.to_nat (Z.max 1 n) <= k)%nat ->
  (n <= 0 -> a_imul k n s rc = Some (Ret OSelf, ([], rc))) /\
  (n = 1 -> zlen s <= 2 ^ 60 - 1 -> a_imul k n s rc = Some (Ret OSelf, (s, rc))) /\
  (1 <= n -> s = [] -> a_imul k n s rc = Some (Ret OSelf, ([], rc))) /\
  (1 <= n -> 2 ^ 60 - 1 < (zlen s * n) mod 2 ^ 64 -> a_imul k n s rc = Some (Raise RuntimeError, (s, rc))).
Proof.
  intros n s rc k K. split; [|split; [|split]].
  - intros N. unfold a_imul. cbv zeta. replace (if n <? 0 then 0 else n) with 0 by (destruct (Z.ltb_spec n 0); lia). reflexivity.
  - intros -> M. destruct k as [|k]; [change (Z.to_nat (Z.max 1 1)) with 1%nat in K; lia|]. rewrite a_imul_one. unfold reserve_fails, max_size.
    rewrite Z.mul_1_r. pose proof (zlen_nonneg s). rewrite Z.mod_small by (change (2 ^ 64) with 18446744073709551616; change (2 ^ 60) with 1152921504606846976 in M; lia).
    destruct (Z.ltb_spec (2 ^ 60 - 1) (zlen s)); [lia|]. reflexivity.
  - intros N ->. apply a_imul_empty; lia.
  - intros N M. apply a_imul_too_large; [exact N|]. unfold reserve_fails, max_size. apply Z.ltb_lt. exact M.
Qed.
Print Assumptions C38_otherwise_returns.
Example C38_ex : a_imul 1000 2 [5; 6] (ex_rc [5; 6] [6]) = None.
Proof. vm_compute. reflexivity. Qed.

(** * C39 *)
(** [ask c x y]: what the objects answer; may raise. [<>] needs objects whose
    [!=] negates their [==]. *)
Theorem C39_equality_is_python : forall (ask : asker) s ys,
  a_compare (fun _ => ask) (fun _ => s) Eq_ (oseq ys) s = py_compare ask Eq_ s ys /\
  ((forall x y, ask Ne_ x y = omap negb (ask Eq_ x y)) -> a_compare (fun _ => ask) (fun _ => s) Ne_ (oseq ys) s = py_compare ask Ne_ s ys).
Proof. intros ask s ys. split; [apply a_eq_python|]. intros C. exact (a_ne_python ask C s ys). Qed.
Print Assumptions C39_equality_is_python.
Theorem C39_equality_linked : forall (ask : asker) l ys, lwf l ->
  l_compare (fun _ => ask) (fun _ => lst l) Eq_ (oseq ys) l = py_compare ask Eq_ (vals l) ys /\
  ((forall x y, ask Ne_ x y = omap negb (ask Eq_ x y)) -> l_compare (fun _ => ask) (fun _ => lst l) Ne_ (oseq ys) l = py_compare ask Ne_ (vals l) ys).
Proof. intros ask l ys W. split; [apply l_eq_python; exact W|]. intros C. exact (l_ne_python ask C l ys W). Qed.
Print Assumptions C39_equality_linked.
Theorem C39_ordering : forall cmp now lnow c s ys l, order_op c = true -> lwf l -> vals l = s ->
  a_compare cmp now c (oseq ys) s = first_pair (cmp O) c s ys /\ l_compare cmp lnow c (oseq ys) l = first_pair (cmp O) c s ys.
Proof. intros cmp now lnow c s ys l O W <-. split; [apply a_order; exact O|apply l_order; assumption]. Qed.
Print Assumptions C39_ordering.
(** Python's answer when the first pair decides. *)
Theorem C39_ordering_right_when_first_pair_differs : forall ask c x s y ys, order_op c = true -> length s = length ys -> x <> y -> ask Eq_ x y = Ret false ->
  first_pair ask c (x :: s) (y :: ys) = py_compare ask c (x :: s) (y :: ys).
Proof. exact first_pair_python. Qed.
Print Assumptions C39_ordering_right_when_first_pair_differs.
(** Different lengths: [<] and [>=] give the same answer, Python's opposite
    ones, so one of them is wrong. *)
Theorem C39_different_lengths_refuted : forall ask s ys b, length s <> length ys ->
  (forall x y, x <> y -> exists r, ask Eq_ x y = Ret r) -> (forall x y, ask Ge_ x y = omap negb (ask Lt_ x y)) ->
  py_compare ask Lt_ s ys = Ret b ->
  first_pair ask Lt_ s ys = first_pair ask Ge_ s ys /\ py_compare ask Ge_ s ys = Ret (negb b).
Proof.
  intros ask s ys b N T C P. split; [unfold first_pair; rewrite (proj2 (Nat.eqb_neq _ _) N); reflexivity|exact (py_opposites ask s ys b T C P)].
Qed.
Print Assumptions C39_different_lengths_refuted.
(** Equal first pairs: the rest is never looked at. *)
Theorem C39_reflexivity_refuted : forall ask c, order_op c = true -> first_pair ask c [] [] = Ret false /\
  py_compare ask c [] [] = Ret match c with Le_ | Ge_ => true | _ => false end.
Proof. intros ask c O. destruct c; try discriminate; split; reflexivity. Qed.
Print Assumptions C39_reflexivity_refuted.
Theorem C39_later_pairs_ignored_refuted : forall ask x y z, x <> y -> ask Lt_ z z = Ret false -> ask Lt_ x y = Ret true -> ask Eq_ x y = Ret false ->
  first_pair ask Lt_ [z; x] [z; y] = Ret false /\ py_compare ask Lt_ [z; x] [z; y] = Ret true.
Proof.
  intros ask x y z N A B C. split; [exact A|]. unfold py_compare. cbn [length Nat.eqb py_differ]. unfold py_same. rewrite Z.eqb_refl. cbn [obind].
  rewrite (proj2 (Z.eqb_neq x y) N), C. exact B.
Qed.
Print Assumptions C39_later_pairs_ignored_refuted.
(** Objects whose [!=] is not the negation of [==]. *)
Theorem C39_incoherent_items_refuted : exists ask s ys,
  a_compare (fun _ => ask) (fun _ => s) Ne_ (oseq ys) s <> py_compare ask Ne_ s ys.
Proof. exists (fun c _ _ => Ret true), [5], [6]. discriminate. Qed.
Print Assumptions C39_incoherent_items_refuted.
Definition ex_ask : asker := fun c x y =>
  Ret match c with Eq_ => x =? y | Ne_ => negb (x =? y) | Lt_ => x <? y | Le_ => x <=? y | Gt_ => y <? x | Ge_ => y <=? x end.
Example C39_ex : map (fun c => a_compare (fun _ => ex_ask) (fun _ => [5; 7; 6]) c (oseq [5; 7; 6]) [5; 7; 6]) [Eq_; Ne_; Lt_; Le_; Gt_; Ge_]
  = map Ret [true; false; false; true; false; true] /\
  first_pair ex_ask Lt_ [5; 9] [5; 7; 6] = Ret true /\ py_compare ex_ask Lt_ [5; 9] [5; 7; 6] = Ret false.
Proof. vm_compute. auto. Qed.

(** * C40 *)
(** [l_counted] (ObjSpec): everything except [pop(i)] and item assignment with a
    valid index, [extend] of the list itself, [a *= n] with n <= 0, slice
    deletion, slice assignment with a step; construction from a non-empty list
    of the class is excluded too. *)
Theorem C40_balanced : forall es, counted_run l_counted es (empty_world LinkedClass) = true ->
  exists w, wrun es (empty_world LinkedClass) = Ret w /\ balanced w /\
    forall j s, contents w j = Some s -> Forall (fun o => 0 < w_rc w o) s.
Proof. exact l_balanced. Qed.
Print Assumptions C40_balanced.
Theorem C40_all_released : forall es w, counted_run l_counted es (empty_world LinkedClass) = true ->
  wrun es (empty_world LinkedClass) = Ret w -> Forall (fun s => s = None) (w_lists w) -> forall o, w_rc w o = w_ext w o.
Proof.
  intros es w C E A. destruct (l_balanced es C) as (w' & E' & B & _). rewrite E in E'. injection E' as <-. exact (all_freed w B A).
Qed.
Print Assumptions C40_all_released.
Theorem C40_item_assignment_leaks : forall l rc d z p old q o, lwf l -> (forall x, 0 <= d x) -> (forall x, rc x = occ (vals l) x + d x) ->
  zlen (vals l) <= SSIZE_MAX -> vals l = p ++ old :: q -> rel (zlen (vals l)) z = zlen p -> is_obj o = true -> 0 < d o ->
  exists l' rc', l_call (CSet (PInt z) o) l rc = (Ret ONone, (l', rc')) /\ lwf l' /\ vals l' = p ++ o :: q /\
    forall x, rc' x = occ (vals l') x + d x + occ [old] x.
Proof. intros l rc d z p old q o W D R H. exact (l_set_leaks l rc d W R H z p old q o). Qed.
Print Assumptions C40_item_assignment_leaks.
Theorem C40_leak_history : forall o p, is_obj o = true -> is_obj p = true -> o <> p -> exists w,
  wrun [EvAcquire o; EvNew (Some (SPyList [o])); EvAcquire p; EvCall 0 (CSet (PInt 0) p); EvRelease o; EvRelease p; EvFree 0]
    (empty_world LinkedClass) = Ret w /\ w_lists w = [None] /\ w_ext w o = 0 /\ w_rc w o = 1 /\ w_rc w p = 0.
Proof. exact l_set_leaks_history. Qed.
Print Assumptions C40_leak_history.
Theorem C40_extend_self_leaks : forall l rc d, lwf l -> (forall x, 0 <= d x) -> (forall x, rc x = occ (vals l) x + d x) ->
  Forall (fun o => is_obj o = true) (vals l) ->
  exists l' rc', l_call (CExtend OSelfArg) l rc = (Ret ONone, (l', rc')) /\ lwf l' /\ vals l' = vals l ++ vals l /\
    forall x, rc' x = occ (vals l') x + d x + occ (vals l) x.
Proof. intros l rc d W D R F. exact (l_extend_self_leaks l rc d W D R F). Qed.
Print Assumptions C40_extend_self_leaks.
Theorem C40_repetition_by_zero_leaks : forall n l rc, n <= 0 -> exists l', l_call (CImul n) l rc = (Ret OSelf, (l', rc)) /\ lwf l' /\ vals l' = [].
Proof. intros n l rc N. exact (l_imul_zero l rc n N). Qed.
Print Assumptions C40_repetition_by_zero_leaks.
Theorem C40_construction_history : forall o, is_obj o = true ->
  wrun [EvAcquire o; EvNew (Some (SPyList [o])); EvNew (Some (SObj 0)); EvRelease o; EvFree 0; EvFree 1] (empty_world LinkedClass) = Undef UseAfterFree.
Proof. exact l_init_steals. Qed.
Print Assumptions C40_construction_history.
Definition ex_lhistory : list event :=
  [EvAcquire 5; EvAcquire 6; EvAcquire 7; EvNew (Some (SPyList [5; 6; 5])); EvNew (Some (SIter [8; 9] (Some (UserError 1))));
   EvCall 0 (CAppend 7); EvNew None; EvCall 1 (CExtend (SObj 0)); EvCall 1 (CInsert (PInt (-2)) 6); EvCall 0 (CRemove 5);
   EvCall 1 (CPop None); EvCall 0 (CSetSlice {| sl_start := Some 0; sl_stop := Some 2; sl_step := None |} (SetTo (SObj 1)));
   EvCall 1 (CImul 3); EvCall 1 CReverse; EvCall 1 (CDel (PInt 1)); EvCall 0 (CGetSlice {| sl_start := None; sl_stop := None; sl_step := Some (-2) |});
   EvRelease 5; EvFree 0; EvCall 1 CCopy; EvFree 1].
Example C40_ex : counted_run l_counted ex_lhistory (empty_world LinkedClass) = true /\
  match wrun ex_lhistory (empty_world LinkedClass) with
  | Ret w => map (w_rc w) [5; 6; 7; 8; 9] = [7; 7; 3; 0; 0] /\ map (w_ext w) [5; 6; 7; 8; 9] = [1; 2; 3; 0; 0]
             /\ contents w 2 = Some [5; 6; 5; 5; 6; 6; 5; 5; 6; 6; 5]
  | _ => False
  end.
Proof. split; [vm_compute; reflexivity|]. vm_compute. auto. Qed.

(** * C32, object half *)
Theorem C32_object_lists : forall n l rc d, lwf l -> (forall x, 0 <= d x) -> (forall x, rc x = occ (vals l) x + d x) ->
  Forall (fun o => is_obj o = true) (vals l) -> zlen (vals l) <= SSIZE_MAX -> 1 <= n ->
  (exists l' rc', l_call (CImul n) l rc = (Ret OSelf, (l', rc')) /\ lwf l' /\ vals l' = concat (repeat (vals l) (Z.to_nat n)) /\
    forall x, rc' x = occ (vals l') x + d x) /\
  (exists m rc', l_call (CMul n) l rc = (Ret (ONew m), (l, rc')) /\ lwf m /\ vals m = concat (repeat (vals l) (Z.to_nat n)) /\
    forall x, rc' x = rc x + occ (vals m) x).
Proof. exact l_repeat_copies. Qed.
Print Assumptions C32_object_lists.
Theorem C32_object_lists_by_zero : forall n l rc, n <= 0 -> (exists l', l_call (CImul n) l rc = (Ret OSelf, (l', rc)) /\ vals l' = []) /\
  exists m, l_call (CMul n) l rc = (Ret (ONew m), (l, rc)) /\ vals m = [].
Proof.
  intros n l rc N. split; [destruct (l_imul_zero l rc n N) as (l' & E & _ & V); eauto|].
  cbn [l_call]. unfold l_mul. cbv zeta. replace (if n <? 0 then 0 else n) with 0 by (destruct (Z.ltb_spec n 0); lia). eexists. split; reflexivity.
Qed.
Print Assumptions C32_object_lists_by_zero.
Example C32_object_ex : vals (fst (snd (l_call (CImul 4) (ex_list [5; 6]) (ex_rc [5; 6] [])))) = [5; 6; 5; 6; 5; 6; 5; 6].
Proof. vm_compute. reflexivity. Qed.

(** * C50 *)
(** [a_agrees] (ObjSpec) are the calls covered. *)
Theorem C50_array_histories_like_python : forall f es, counted_run a_agrees es (empty_world (ArrayClass f)) = true ->
  exists w p, wrun es (empty_world (ArrayClass f)) = Ret w /\ wrun es (empty_world PythonClass) = Ret p /\ same_run w p.
Proof. exact a_like_python. Qed.
Print Assumptions C50_array_histories_like_python.
(** Where covered calls end: these differ from Python in every state. *)
Theorem C50_excluded_refuted : forall f s rc ys,
  Forall (fun o => is_obj o = true /\ 0 < rc o) ys ->
  fst (a_call f (CIadd (OSame ys)) s rc) = Ret ONone /\ fst (py_obj (CIadd (OSame ys)) s) = Ret OSelf /\
  fst (a_call f (CAdd (OSame ys)) s rc) = Raise MemoryError /\ fst (py_obj (CAdd (OSame ys)) s) = Ret (ONew (s ++ ys)).
Proof.
  intros f s rc ys K. split; [|split; [reflexivity|split; reflexivity]]. cbn [a_call a_iadd].
  destruct (incref_all_ok ys rc K) as (rc' & -> & _). reflexivity.
Qed.
Print Assumptions C50_excluded_refuted.
Example C50_ex : counted_run a_agrees ex_history (empty_world (ArrayClass ex_cpu)) = true.
Proof. vm_compute. reflexivity. Qed.

(** * C51 *)
Theorem C51_slice_deletion : forall f s rc sl, a_call f (CSetSlice sl SetDel) s rc = (if step_of sl =? 0 then Raise ValueError else Undef NullDeref, (s, rc)).
Proof. exact a_del_slice. Qed.
Print Assumptions C51_slice_deletion.
Theorem C51_extend_self : forall f s rc, fst (a_call f (CExtend OSelfArg) s rc) = Undef Overlap /\ fst (a_call f (CIadd OSelfArg) s rc) = Undef Overlap.
Proof. split; reflexivity. Qed.
Print Assumptions C51_extend_self.
Theorem C51_self_slice_assignment : forall f s rc d sl, (forall x, rc x = occ s x + d x) ->
  Forall (fun o => is_obj o = true) s -> zlen s <= SSIZE_MAX -> s <> [] -> step_of sl = 1 ->
  exists u, fst (a_call f (CSetSlice sl (SetTo OSelfArg)) s rc) = Undef u.
Proof. intros f s rc d sl R F H. exact (a_self_slice f s rc d R F H sl). Qed.
Print Assumptions C51_self_slice_assignment.
(** A sequence without length assigned to [s[i:j]], i >= 1: item i-1 goes too,
    and None is returned with the error pending; i = 0 reads before the vector. *)
Theorem C51_no_length : forall f a x b c e rc, zlen (a ++ (x :: b) ++ c) <= SSIZE_MAX -> Forall (fun o => is_obj o = true) (x :: b) ->
  (forall y, occ (x :: b) y <= rc y) ->
  exists rc', a_call f (CSetSlice {| sl_start := Some (zlen a + 1); sl_stop := Some (zlen a + 1 + zlen b); sl_step := None |} (SetNoLen e)) (a ++ (x :: b) ++ c) rc
      = (RetPending ONone e, (a ++ c, rc')) /\
    forall y, rc' y = rc y - occ (x :: b) y.
Proof. exact a_nolen_eats. Qed.
Print Assumptions C51_no_length.
Theorem C51_no_length_at_start : forall f b c e rc, zlen (b ++ c) <= SSIZE_MAX ->
  fst (a_call f (CSetSlice {| sl_start := Some 0; sl_stop := Some (zlen b); sl_step := None |} (SetNoLen e)) (b ++ c) rc) = Undef OutOfBounds.
Proof. exact a_nolen_before. Qed.
Print Assumptions C51_no_length_at_start.
Example C51_ex : fst (snd (a_call ex_cpu (CSetSlice {| sl_start := Some 2; sl_stop := Some 3; sl_step := None |} (SetNoLen TypeError)) [5; 6; 7; 8] (ex_rc [5; 6; 7; 8] [])))
  = [5; 8] /\ fst (a_call ex_cpu (CSetSlice {| sl_start := Some 1; sl_stop := None; sl_step := None |} (SetTo OSelfArg)) [5; 6] (ex_rc [5; 6] [])) = Undef Overlap.
Proof. vm_compute. auto. Qed.

(** * C52 *)
Theorem C52_pop_index : forall l rc z, lwf l -> zlen (vals l) <= SSIZE_MAX -> 0 <= rel (zlen (vals l)) z < zlen (vals l) ->
  fst (l_call (CPop (Some (PInt z))) l rc) = Undef UseAfterFree.
Proof. intros l rc z W H. exact (l_pop_freed l rc W H z). Qed.
Print Assumptions C52_pop_index.
Theorem C52_slice_deletion : forall l rc sl, l_call (CSetSlice sl SetDel) l rc = (if step_of sl =? 0 then Raise ValueError else Undef NullDeref, (l, rc)).
Proof. exact l_del_slice. Qed.
Print Assumptions C52_slice_deletion.
(** Slice assignment from a list or another ObjectLinkedList, any bounds and any
    step: [d] are the references held elsewhere. *)
Theorem C52_slice_assignment : forall l rc d sl ys v, lwf l -> Forall obj (vals l) -> (forall x, 0 <= d x) -> (forall x, rc x = occ (vals l) x + d x) ->
  Forall (fun o => obj o /\ 0 < d o) ys -> zlen (vals l) + zlen ys <= SSIZE_MAX -> step_of sl <> 0 -> v = OList ys \/ v = OSame ys ->
  let r := l_call (CSetSlice sl (SetTo v)) l rc in
  match linked_setslice (vals l) sl ys with
  | Some s' => fst r = Ret ONone /\ lwf (fst (snd r)) /\ vals (fst (snd r)) = s' /\ forall x, snd (snd r) x = occ s' x + d x
  | None => exists u, fst r = Undef u
  end.
Proof. intros l rc d sl ys v W F D R Fy Hz NZ V. exact (slice_exact d D l rc W F R sl ys Fy Hz NZ v V). Qed.
Print Assumptions C52_slice_assignment.
(** Which ones leave the list's nodes. *)
Theorem C52_assignment_undefined : forall l rc d sl ys v, lwf l -> Forall obj (vals l) -> (forall x, 0 <= d x) -> (forall x, rc x = occ (vals l) x + d x) ->
  Forall (fun o => obj o /\ 0 < d o) ys -> zlen (vals l) + zlen ys <= SSIZE_MAX -> step_of sl <> 0 -> v = OList ys \/ v = OSame ys ->
  let r := l_call (CSetSlice sl (SetTo v)) l rc in
  (exists u, fst r = Undef u) <-> ~ in_reach (vals l) sl ys.
Proof. intros l rc d sl ys v W F D R Fy Hz NZ V. exact (slice_undefined d D l rc W F R sl ys Fy Hz NZ v V). Qed.
Print Assumptions C52_assignment_undefined.
(** As many items as places: Python's result. *)
Theorem C52_equal_size : forall l rc d sl ys v, lwf l -> Forall obj (vals l) -> (forall x, 0 <= d x) -> (forall x, rc x = occ (vals l) x + d x) ->
  Forall (fun o => obj o /\ 0 < d o) ys -> zlen (vals l) + zlen ys <= SSIZE_MAX -> step_of sl <> 0 -> v = OList ys \/ v = OSame ys ->
  let r := l_call (CSetSlice sl (SetTo v)) l rc in
  zlen ys = slice_len (vals l) sl -> fst r = Ret ONone /\ strided (vals l) sl ys (vals (fst (snd r))).
Proof. intros l rc d sl ys v W F D R Fy Hz NZ V. exact (slice_same_size d D l rc W F R sl ys Fy Hz NZ v V). Qed.
Print Assumptions C52_equal_size.
(** Otherwise Python raises ValueError for a step other than 1; here the call is
    undefined or changes the list. *)
Theorem C52_wrong_size : forall l rc d sl ys v, lwf l -> Forall obj (vals l) -> (forall x, 0 <= d x) -> (forall x, rc x = occ (vals l) x + d x) ->
  Forall (fun o => obj o /\ 0 < d o) ys -> zlen (vals l) + zlen ys <= SSIZE_MAX -> step_of sl <> 0 -> v = OList ys \/ v = OSame ys ->
  let r := l_call (CSetSlice sl (SetTo v)) l rc in
  zlen ys <> slice_len (vals l) sl -> in_reach (vals l) sl ys ->
  fst r = Ret ONone /\ zlen (vals (fst (snd r))) = zlen (vals l) + zlen ys - slice_len (vals l) sl /\ vals (fst (snd r)) <> vals l.
Proof. intros l rc d sl ys v W F D R Fy Hz NZ V. exact (slice_wrong_size d D l rc W F R sl ys Fy Hz NZ v V). Qed.
Print Assumptions C52_wrong_size.
(** Crossing bounds: inserted before the stop, then written from the start on. *)
Theorem C52_crossing_bounds : forall l rc d sl ys v, lwf l -> Forall obj (vals l) -> (forall x, 0 <= d x) -> (forall x, rc x = occ (vals l) x + d x) ->
  Forall (fun o => obj o /\ 0 < d o) ys -> zlen (vals l) + zlen ys <= SSIZE_MAX -> step_of sl <> 0 -> v = OList ys \/ v = OSame ys ->
  let r := l_call (CSetSlice sl (SetTo v)) l rc in
  step_of sl = 1 -> last_of (vals l) sl < first_of (vals l) sl ->
  let a := Z.to_nat (first_of (vals l) sl) in let b := Z.to_nat (last_of (vals l) sl) in
  let s' := firstn a (firstn b (vals l) ++ ys ++ skipn b (vals l)) ++ ys ++ skipn a (vals l) in
  fst r = Ret ONone /\ vals (fst (snd r)) = s' /\
  (s' = py_setslice (vals l) sl ys <-> firstn a (firstn b (vals l) ++ ys ++ skipn b (vals l)) = firstn a (vals l)).
Proof. intros l rc d sl ys v W F D R Fy Hz NZ V. exact (slice_crossing d D l rc W F R sl ys Fy Hz NZ v V). Qed.
Print Assumptions C52_crossing_bounds.
(** One list of six under steps of 2, 3 and -1. *)
Example C52_slice_ex : let sl k := {| sl_start := None; sl_stop := None; sl_step := Some k |} in
  let run k ys := let r := l_call (CSetSlice (sl k) (SetTo (OList ys))) (ex_list [5; 6; 7; 8; 9; 10]) (ex_rc [5; 6; 7; 8; 9; 10] [11; 12; 13; 14; 15]) in (fst r, vals (fst (snd r))) in
  run 2 [11; 12; 13] = (Ret ONone, [11; 6; 12; 8; 13; 10]) /\ run 2 [11; 12] = (Ret ONone, [11; 6; 12; 8; 10]) /\
  run 3 [11; 12; 13] = (Ret ONone, [11; 6; 7; 12; 9; 10; 13]) /\ (exists u, fst (run 2 [11; 12; 13; 14; 15]) = Undef u) /\ (exists u, fst (run (-1) []) = Undef u) /\
  linked_setslice [5; 6; 7; 8; 9; 10] (sl 2) [11; 12; 13; 14; 15] = None /\ linked_setslice [5; 6; 7; 8; 9; 10] (sl 2) [11; 12] = Some [11; 6; 12; 8; 10] /\
  in_reach [5; 6; 7; 8; 9; 10] (sl 2) [11; 12] /\ ~ in_reach [5; 6; 7; 8; 9; 10] (sl (-1)) [].
Proof.
  vm_compute. repeat (apply conj; [first [reflexivity|eexists; reflexivity|left; reflexivity]|]). intros [H|[[_ H]|[H _]]]; try discriminate H. apply H. reflexivity.
Qed.
(** Slice assignment with a step can write through end(). *)
Theorem C52_stepped_assignment_refuted : exists l rc sl ys u, lwf l /\ step_of sl = 2 /\ (forall x, occ (vals l ++ ys) x <= rc x) /\
  fst (l_call (CSetSlice sl (SetTo (OList ys))) l rc) = Undef u.
Proof.
  exists (ex_list [5; 6]), (ex_rc [5; 6; 7; 8; 9] []), {| sl_start := None; sl_stop := None; sl_step := Some 2 |}, [7; 8; 9]. eexists.
  split; [apply ex_list_wf|]. split; [reflexivity|]. split; [|vm_compute; reflexivity].
  intros x. rewrite (proj2 (ex_list_wf _)). unfold ex_rc. change ([5; 6] ++ [7; 8; 9]) with [5; 6; 7; 8; 9]. cbn [occ]. lia.
Qed.
Print Assumptions C52_stepped_assignment_refuted.
(** Crossing bounds: inserted at the stop, and later items overwritten. *)
Theorem C52_crossing_bounds_refuted : exists l rc sl ys l' rc', lwf l /\ step_of sl = 1 /\
  l_call (CSetSlice sl (SetTo (OList ys))) l rc = (Ret ONone, (l', rc')) /\ vals l' <> py_setslice (vals l) sl ys.
Proof.
  exists (ex_list [5; 6; 7; 8]), (ex_rc [5; 6; 7; 8] [9]), {| sl_start := Some 3; sl_stop := Some 1; sl_step := None |}, [9].
  eexists _, _. split; [apply ex_list_wf|]. split; [reflexivity|]. split; [vm_compute; reflexivity|]. vm_compute. discriminate.
Qed.
Print Assumptions C52_crossing_bounds_refuted.
Example C52_ex : fst (l_call (CPop (Some (PInt (-2)))) (ex_list [5; 6; 7]) (ex_rc [5; 6; 7] [])) = Undef UseAfterFree /\
  vals (fst (snd (l_call (CSetSlice {| sl_start := Some 3; sl_stop := Some 1; sl_step := None |} (SetTo (OList [9]))) (ex_list [5; 6; 7; 8]) (ex_rc [5; 6; 7; 8] [9])))) = [5; 9; 6; 9; 8].
Proof. vm_compute. auto. Qed.

(** * C53 *)
(** An item comparison that empties the list: the next item is read outside the
    vector, or the next node from a freed one. [now O] is the list after the
    first comparison. *)
Theorem C53_array : forall (cmp : oracle) now x s y ys, x <> y -> s <> [] -> length s = length ys -> now O = [] ->
  (cmp O Eq_ x y = Ret true -> a_compare cmp now Eq_ (oseq (y :: ys)) (x :: s) = Undef OutOfBounds) /\
  (cmp O Ne_ x y = Ret false -> a_compare cmp now Ne_ (oseq (y :: ys)) (x :: s) = Undef OutOfBounds).
Proof. exact a_emptied. Qed.
Print Assumptions C53_array.
Theorem C53_linked : forall (cmp : oracle) now l x s y ys, lwf l -> vals l = x :: s -> x <> y -> length s = length ys -> now O = clear_ (lst l) ->
  (cmp O Eq_ x y = Ret true -> l_compare cmp now Eq_ (oseq (y :: ys)) l = Undef UseAfterFree) /\
  (cmp O Ne_ x y = Ret false -> l_compare cmp now Ne_ (oseq (y :: ys)) l = Undef UseAfterFree).
Proof. exact l_emptied. Qed.
Print Assumptions C53_linked.
Example C53_ex : a_compare (fun _ _ _ _ => Ret true) (fun _ => []) Eq_ (oseq [8; 9]) [5; 6] = Undef OutOfBounds.
Proof. reflexivity. Qed.

(** * C54 *)
(** [text o]: repr(o), or the error it raises. *)
Theorem C54_repr : forall text s l, (forall o t e, text o <> RetPending t e) -> lwf l -> vals l = s ->
  a_repr text s = py_repr text s /\ l_repr text l = py_repr text s.
Proof. intros text s l N W <-. split; [apply a_repr_ok; exact N|apply l_repr_ok; assumption]. Qed.
Print Assumptions C54_repr.
Definition ex_text (o : Z) : outcome (list Z) := if o =? 7 then Raise (UserError 3) else Ret [48 + o].
Example C54_ex : a_repr ex_text [5; 6] = Ret [91; 53; 44; 32; 54; 93] /\ a_repr ex_text [5; 7; 6] = Raise (UserError 3) /\
  a_repr ex_text [] = Ret [91; 93] /\ l_repr ex_text (ex_list [5; 6]) = Ret [91; 53; 44; 32; 54; 93].
Proof. vm_compute. auto. Qed.

(** * C55 *)
Theorem C55_linked_histories_like_python : forall es, counted_run l_agrees es (empty_world LinkedClass) = true ->
  exists w p, wrun es (empty_world LinkedClass) = Ret w /\ wrun es (empty_world PythonClass) = Ret p /\ same_run w p.
Proof. exact l_like_python. Qed.
Print Assumptions C55_linked_histories_like_python.
Example C55_ex : counted_run l_agrees ex_lhistory (empty_world LinkedClass) = true.
Proof. vm_compute. reflexivity. Qed.

(** * C56 *)
(** The object iterators answer what the integer iterators answer (C16, C17,
    C33, C34), and add one reference to each object they hand out; [vs] are the
    list contents at each call. *)
Theorem C56_array_iterator : forall vs it rc, Forall (Forall (fun o => is_obj o = true /\ 0 < rc o)) vs ->
  exists rc', oa_run it vs rc = (iter_run it vs, rc') /\ forall x, rc' x = rc x + occ (handed_out (iter_run it vs)) x.
Proof. exact oa_run_ok. Qed.
Print Assumptions C56_array_iterator.
Theorem C56_linked_iterator : forall ls it rc, Forall (fun l => Forall (fun o => is_obj o = true /\ 0 < rc o) (vals l)) ls ->
  exists rc', ol_run it ls rc = (liter_run it ls, rc') /\ forall x, rc' x = rc x + occ (handed_out (liter_run it ls)) x.
Proof. exact ol_run_ok. Qed.
Print Assumptions C56_linked_iterator.
Example C56_ex : fst (oa_run (iter_create true [5; 6; 5]) [[5; 6; 5]; [5; 7; 5]; [5; 7; 5]; [5; 7; 5]] (ex_rc [5; 6; 7] [])) = [Ret 5; Ret 7; Ret 5; Raise StopIteration] /\
  map (snd (oa_run (iter_create true [5; 6; 5]) [[5; 6; 5]; [5; 7; 5]; [5; 7; 5]; [5; 7; 5]] (ex_rc [5; 6; 7] []))) [5; 6; 7] = [3; 1; 2].
Proof. vm_compute. auto. Qed.
