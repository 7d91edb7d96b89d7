(** Property theorems C01-C09, C13, C15: IntArrayList and BigIntArrayList. *)
From Coq Require Import ZArith List Bool Lia.
From Verif Require Import Base PyLongModel PyLongProofs MemModel QReverseModel PyListSpec PyHeapSpec
  ListLemmas ArrayListModel ArrayListProofs ArrayListSpec ArrayListFacts ArrayWorldModel ArrayWorldProofs.
Import ListNotations.
Local Open Scope Z_scope.

Definition ex_cfg : config :=
  {| py312 := false; feat := {| avx512 := false; avx2 := true; sse41 := true; ssse3 := true |} |}.
Definition ex_cfg312 : config :=
  {| py312 := true; feat := {| avx512 := false; avx2 := true; sse41 := true; ssse3 := true |} |}.
Definition mk_slice (a b c : option Z) : slice := {| sl_start := a; sl_stop := b; sl_step := c |}.

(** * C01 *)
(** Every history of calls agrees with the Python list: results, exceptions
    and final contents. *)
Theorem C01_history_refines_python_list : forall cfg k ops s,
  Forall (in_range k) s -> history_ok k ops s ->
  run cfg k ops s = (map (expected cfg k) (fst (py_run ops s)), snd (py_run ops s)).
Proof. exact run_refines. Qed.
Print Assumptions C01_history_refines_python_list.

(** Element objects in the results are the canonical Python integers for the
    64-bit list and before Python 3.12 (for the other case see C18). *)
Theorem C01_elements_canonical : forall cfg k v,
  k = KBig \/ py312 cfg = false -> from_elem cfg k v = mk_pylong v.
Proof. exact elements_canonical. Qed.
Print Assumptions C01_elements_canonical.

(** A raising call leaves the list unchanged. *)
Theorem C01_raise_keeps_contents : forall cfg k o s e s',
  Forall (in_range k) s -> zlen s <= SSIZE_MAX -> op_ok k s o ->
  step cfg k o s = (Raise e, s') -> s' = s.
Proof. exact step_raise_keeps. Qed.
Print Assumptions C01_raise_keeps_contents.

(** Two edges outside [op_ok] where the answer differs from Python's: pop of an
    index beyond the ssize range on an empty list, and index with a bound
    beyond the ssize range. *)
Theorem C01_pop_huge_empty_refuted : forall cfg k z, ~ in_sbits 64 z ->
  fst (step cfg k (OPop (Some z)) []) = Raise IndexError /\
  fst (py_step (OPop (Some z)) []) = SRaise OverflowError.
Proof. exact pop_huge_empty. Qed.
Print Assumptions C01_pop_huge_empty_refuted.

Theorem C01_index_huge_bound_refuted : forall cfg k v s z,
  zlen s <= SSIZE_MAX -> in_range k v -> 2 ^ 63 <= z -> In v s ->
  fst (step cfg k (OIndex v None (Some z)) s) = Raise OverflowError /\
  exists p, fst (py_step (OIndex v None (Some z)) s) = SRet (SNum p).
Proof. exact index_huge_bound. Qed.
Print Assumptions C01_index_huge_bound_refuted.

Definition ex_ops : list op :=
  [OAppend 5; OExtend FromIterator [7; -2; 5]; OInsert (-100) 1; OPop (Some (-2)); OReverse;
   OSetSlice (mk_slice (Some 1) (Some (-1)) None) [8; 9; 10];
   OIndex 9 (Some (-3)) None; ORemove 77; OGetSlice (mk_slice None None (Some (-2)))].
Example C01_ex : Forall (in_range KInt) [3] /\ history_ok KInt ex_ops [3] /\
  snd (run ex_cfg KInt ex_ops [3]) = [5; 8; 9; 10; 1] /\
  py_run ex_ops [3] = ([SRet SNone; SRet SNone; SRet SNone; SRet (SElem (-2)); SRet SNone; SRet SNone;
     SRet (SNum 2); SRaise ValueError; SRet (SList [1; 9; 5])], [5; 8; 9; 10; 1]).
Proof.
  assert (R : forall v, -100 <= v <= 100 -> in_range KInt v).
  { intros v H. unfold in_range, in_sbits. change (2 ^ (bits KInt - 1)) with 2147483648. lia. }
  split; [repeat constructor; apply R; lia|]. split; [|split; [vm_compute; reflexivity|vm_compute; reflexivity]].
  cbv [history_ok ex_ops py_step snd]. cbn -[Z.pow in_range].
  repeat split; try discriminate; try (apply R; lia); repeat constructor; try (apply R; lia); intros; discriminate.
Qed.

(** * C02 *)
(** append, item assignment, extend and construction accept exactly the 64-bit
    integers ([stores]) and store the reduction; everything else is rejected
    with the list unchanged. *)
Theorem C02_stored_value_unique : forall k o,
  (exists v, stores (bits k) o v) \/ (exists e, rejected o e).
Proof. exact elem_total. Qed.
Print Assumptions C02_stored_value_unique.

Theorem C02_append : forall k o s,
  (forall v, stores (bits k) o v -> append k o s = (Ret VNone, s ++ [v])) /\
  (forall e, rejected o e -> append k o s = (Raise e, s)).
Proof. exact (fun k o s => conj (fun v H => append_stores k o v s H) (fun e H => append_rejects k o e s H)). Qed.
Print Assumptions C02_append.

Theorem C02_setitem : forall k o i a x c,
  zlen (a ++ x :: c) <= SSIZE_MAX -> rel (zlen (a ++ x :: c)) i = zlen a ->
  (forall v, stores (bits k) o v ->
     ass_subscript k (PInt i) (Some o) (a ++ x :: c) = (Ret VNone, a ++ v :: c)) /\
  (forall e, rejected o e ->
     ass_subscript k (PInt i) (Some o) (a ++ x :: c) = (Raise e, a ++ x :: c)).
Proof. exact setitem_both. Qed.
Print Assumptions C02_setitem.

Theorem C02_extend_and_construct : forall k items vs s, Forall2 (stores (bits k)) items vs ->
  extend k (AList items) s = (Ret VNone, s ++ vs) /\
  extend k (AIter items None) s = (Ret VNone, s ++ vs) /\
  init k (IArg (AList items)) = Ret (VNewList vs).
Proof. exact extend_construct. Qed.
Print Assumptions C02_extend_and_construct.

(** In-range values round-trip, 64-bit lists store the value itself, and every
    64-bit value outside 32 bits is changed by a 32-bit list. *)
Theorem C02_round_trip : forall k z v, stores (bits k) (PInt z) v -> in_range k z -> v = z.
Proof. exact stores_in_range. Qed.
Print Assumptions C02_round_trip.

Theorem C02_big_exact : forall o v, stores 64 o v <-> o = PInt v /\ - 2 ^ 63 <= v < 2 ^ 63.
Proof. exact stores_big. Qed.
Print Assumptions C02_big_exact.

Theorem C02_int_silent_change : forall z v s,
  stores 32 (PInt z) v -> ~ (- 2 ^ 31 <= z < 2 ^ 31) ->
  append KInt (PInt z) s = (Ret VNone, s ++ [v]) /\ v <> z.
Proof. exact (fun z v s H N => conj (append_stores KInt (PInt z) v s H) (stores_out_of_range KInt z v H N)). Qed.
Print Assumptions C02_int_silent_change.

(** insert alone rejects every value outside the element type. *)
Theorem C02_insert_rejects : forall k i z s, in_sbits 64 i -> ~ in_range k z ->
  insert k (PInt i) (PInt z) s = (Raise OverflowError, s).
Proof. exact insert_rejects. Qed.
Print Assumptions C02_insert_rejects.

Example C02_ex : append KInt (PInt 4294967301) [1] = (Ret VNone, [1; 5]) /\
  stores 32 (PInt 4294967301) 5 /\ rejected (PInt (2 ^ 63)) OverflowError /\
  append KBig (PInt 4294967301) [1] = (Ret VNone, [1; 4294967301]).
Proof.
  split; [reflexivity|]. split; [|split; [split; [right; vm_compute; discriminate|reflexivity]|reflexivity]].
  exists 4294967301. split; [reflexivity|]. split; [split; vm_compute; congruence|].
  split; [split; vm_compute; congruence|exists (-1); reflexivity].
Qed.

(** * C03 *)
Theorem C03_construct_items : forall k items vs, Forall2 (stores (bits k)) items vs ->
  init k (IArg (AList items)) = Ret (VNewList vs) /\
  init k (IArg (AIter items None)) = Ret (VNewList vs).
Proof. exact construct_items. Qed.
Print Assumptions C03_construct_items.

Theorem C03_bad_item_runtime_error : forall k items e fin, Exists (fun o => rejected o e) items ->
  init k (IArg (AList items)) = Raise RuntimeError /\
  init k (IArg (AIter items fin)) = Raise RuntimeError.
Proof. exact construct_bad. Qed.
Print Assumptions C03_bad_item_runtime_error.

Theorem C03_iterator_error : forall k items vs e, Forall2 (stores (bits k)) items vs ->
  init k (IArg (AIter items (Some e))) = Raise e.
Proof. exact construct_iter_err. Qed.
Print Assumptions C03_iterator_error.

Theorem C03_int_argument_empty : forall k z, in_sbits 64 z -> init k (IInt z) = Ret (VNewList []).
Proof. exact construct_int. Qed.
Print Assumptions C03_int_argument_empty.

(** Programs over several names: construction from another list and copy make
    fresh objects; every program without [x += y] of two lists agrees with
    Python's reference semantics. *)
Theorem C03_programs_refine_python : forall cfg k p w, wf k w -> prog_ok cfg k p w ->
  prog cfg k p w = (map (expected cfg k) (fst (py_prog p w)), snd (py_prog p w)).
Proof. exact prog_refines. Qed.
Print Assumptions C03_programs_refine_python.

Theorem C03_copy_is_fresh : forall cfg k w x y j t, lookup w y = Some (j, t) ->
  forall st, st = SFrom x y \/ st = SCopy x y ->
  exec cfg k st w = (Ret VNone, alloc w x t) /\
  lookup (alloc w x t) x = Some (length (heap w), t) /\ (j < length (heap w))%nat.
Proof. exact from_fresh. Qed.
Print Assumptions C03_copy_is_fresh.

(** A statement, whatever its arguments and outcome, changes no other object. *)
Theorem C03_frame : forall cfg k st w n t, nth_error (heap w) n = Some t ->
  (forall x i s, target st = Some x -> lookup w x = Some (i, s) -> i <> n) ->
  nth_error (heap (snd (exec cfg k st w))) n = Some t.
Proof. exact exec_frame. Qed.
Print Assumptions C03_frame.

Definition ex_prog : list stmt :=
  [SNew 0 [1; 2]; SFrom 1 0; SAlias 2 0; SCall 2 (OAppend 9); SExtend 1 0; SCopy 3 1; SCall 1 OClear;
   SSetSlice 3 (mk_slice (Some 0) (Some 1) None) 0].
Example C03_ex : wf KInt {| heap := []; env := [] |} /\
  prog_ok ex_cfg KInt ex_prog {| heap := []; env := [] |} /\
  heap (snd (prog ex_cfg KInt ex_prog {| heap := []; env := [] |})) = [[1; 2; 9]; []; [1; 2; 9; 2; 1; 2; 9]].
Proof.
  assert (R : forall v, -100 <= v <= 100 -> in_range KInt v).
  { intros v H. unfold in_range, in_sbits. change (2 ^ (bits KInt - 1)) with 2147483648. lia. }
  split; [constructor|]. split; [|vm_compute; reflexivity].
  cbn -[Z.pow in_range SSIZE_MAX zlen exact_reads]. unfold lookup, alloc, bind_name, set_obj. cbn -[Z.pow in_range SSIZE_MAX zlen exact_reads].
  repeat split; intros;
  repeat match goal with H : Some _ = Some _ |- _ => injection H as <- <- end; try discriminate;
  repeat constructor; try (apply R; lia); try (apply exact_reads_old; reflexivity); vm_compute; try congruence.
Qed.

(** * C04 *)
Theorem C04_failed_extend_keeps_prefix : forall k items vs o e rest fin s,
  Forall2 (stores (bits k)) items vs -> rejected o e ->
  extend k (AList (items ++ o :: rest)) s = (Raise e, s ++ vs) /\
  extend k (AIter (items ++ o :: rest) fin) s = (Raise e, s ++ vs) /\
  iadd k (AList (items ++ o :: rest)) s = (Raise e, s ++ vs) /\
  iadd k (AIter (items ++ o :: rest) fin) s = (Raise e, s ++ vs).
Proof. exact extend_bad. Qed.
Print Assumptions C04_failed_extend_keeps_prefix.

Theorem C04_raising_iterator_keeps_prefix : forall k items vs e s,
  Forall2 (stores (bits k)) items vs ->
  extend k (AIter items (Some e)) s = (Raise e, s ++ vs) /\
  iadd k (AIter items (Some e)) s = (Raise e, s ++ vs).
Proof. exact extend_iter_err. Qed.
Print Assumptions C04_raising_iterator_keeps_prefix.
Theorem C04_not_iterable : forall k s, extend k AOther s = (Raise TypeError, s) /\ iadd k AOther s = (Raise TypeError, s).
Proof. intros k s. split; reflexivity. Qed.
Print Assumptions C04_not_iterable.

Example C04_ex : extend KInt (AIter [PInt 4; PInt (2 ^ 32 + 6); PObj 1; PInt 8] None) [1; 2]
  = (Raise TypeError, [1; 2; 4; 6]).
Proof. reflexivity. Qed.

(** * C05 *)
Theorem C05_index_least : forall k v oa ob s,
  zlen s <= SSIZE_MAX -> in_range k v -> in_ssize_opt oa -> in_ssize_opt ob ->
  let '(lo, hi) := window (zlen s) oa ob in
  (exists p, first_in s v lo hi p /\
     index k (PInt v) (option_map PInt oa) (option_map PInt ob) s = (Ret (VInt p), s)) \/
  ((forall p, ~ first_in s v lo hi p) /\
     index k (PInt v) (option_map PInt oa) (option_map PInt ob) s = (Raise ValueError, s)).
Proof. exact index_char. Qed.
Print Assumptions C05_index_least.

Theorem C05_value_out_of_range : forall k z oa ob s, ~ in_range k z ->
  index k (PInt z) oa ob s = (Raise OverflowError, s).
Proof. exact index_rejects. Qed.
Print Assumptions C05_value_out_of_range.

Example C05_ex : window 5 (Some (-2)) (Some 100) = (3, 100) /\
  index KInt (PInt 7) (Some (PInt (-2))) (Some (PInt 100)) [7; 1; 7; 2; 7] = (Ret (VInt 4), [7; 1; 7; 2; 7]) /\
  index KInt (PInt 7) (Some (PInt 3)) (Some (PInt (-1))) [7; 1; 7; 2; 7] = (Raise ValueError, [7; 1; 7; 2; 7]).
Proof. repeat split. Qed.

(** * C06 *)
Theorem C06_contains : forall k o v s, stores (bits k) o v ->
  exists b, contains k o s = (Ret (VBool b), s) /\ (b = true <-> In v s).
Proof. exact contains_char. Qed.
Print Assumptions C06_contains.

Theorem C06_count : forall k o v s, stores (bits k) o v ->
  count k o s = (Ret (VInt (Z.of_nat (count_occ Z.eq_dec s v))), s).
Proof. exact count_char. Qed.
Print Assumptions C06_count.

Theorem C06_remove : forall k o v s, stores (bits k) o v ->
  (~ In v s /\ remove k o s = (Raise ValueError, s)) \/
  (exists a c, s = a ++ v :: c /\ ~ In v a /\ remove k o s = (Ret VNone, a ++ c)).
Proof. exact remove_char. Qed.
Print Assumptions C06_remove.

Theorem C06_rejected : forall k o e s, rejected o e ->
  contains k o s = (match o with PInt _ => Raise e | PObj _ => Ret (VBool false) end, s) /\
  count k o s = (Raise e, s) /\ remove k o s = (Raise e, s).
Proof.
  exact (fun k o e s H => conj (contains_rejects k o e s H) (conj (count_rejects k o e s H) (remove_rejects k o e s H))).
Qed.
Print Assumptions C06_rejected.

(** For every 64-bit z outside 32 bits there is a list that does not hold z and
    for which membership answers True and remove deletes another integer. *)
Theorem C06_false_membership_refuted : forall z, - 2 ^ 63 <= z < 2 ^ 63 -> ~ (- 2 ^ 31 <= z < 2 ^ 31) ->
  exists v, ~ In z [v] /\ in_range KInt v /\
  contains KInt (PInt z) [v] = (Ret (VBool true), [v]) /\
  remove KInt (PInt z) [v] = (Ret VNone, []).
Proof. exact false_membership. Qed.
Print Assumptions C06_false_membership_refuted.

Example C06_ex : contains KInt (PInt 4294967301) [5] = (Ret (VBool true), [5]) /\
  contains KBig (PInt 4294967301) [5] = (Ret (VBool false), [5]) /\
  contains KInt (PInt (2 ^ 70)) [5] = (Raise OverflowError, [5]).
Proof. repeat split. Qed.

(** * C07 *)
Theorem C07_slice_read : forall cfg k sl s, zlen s <= SSIZE_MAX ->
  getitem_slice cfg k sl s =
  if step_of sl =? 0 then (Raise ValueError, s)
  else (Ret (VPyList (map (from_elem cfg k) (py_getslice s sl))), s).
Proof. exact getitem_slice_ok. Qed.
Print Assumptions C07_slice_read.

Example C07_ex : py_getslice [10; 11; 12; 13; 14] (mk_slice (Some (2 ^ 80)) (Some (-6)) (Some (-2))) = [14; 12; 10] /\
  getitem_slice ex_cfg KBig (mk_slice (Some (2 ^ 80)) (Some (-6)) (Some (-2))) [10; 11; 12; 13; 14] =
  (Ret (VPyList [mk_pylong 14; mk_pylong 12; mk_pylong 10]), [10; 11; 12; 13; 14]).
Proof. split; vm_compute; reflexivity. Qed.

(** * C08 *)
Theorem C08_slice_assign : forall k sl items vs s, zlen s <= SSIZE_MAX -> step_of sl = 1 ->
  Forall2 (stores (bits k)) items vs ->
  setitem_slice k sl (AssSeq (src_items items)) s = (Ret VNone, py_setslice s sl vs).
Proof. exact setslice_stores. Qed.
Print Assumptions C08_slice_assign.

Theorem C08_other_steps : forall k sl src s, step_of sl <> 1 -> step_of sl <> 0 ->
  setitem_slice k sl (AssSeq src) s = (Raise NotImplementedError, s).
Proof. exact setslice_step. Qed.
Print Assumptions C08_other_steps.

(** From another list of the class: exact before 3.12 and for BigIntArrayList... *)
Theorem C08_from_other_list : forall cfg k sl t s, zlen s <= SSIZE_MAX -> step_of sl = 1 ->
  Forall (in_range k) t -> k = KBig \/ py312 cfg = false \/ Forall (fun v => 0 <= v) t ->
  setitem_slice k sl (AssSeq (src_same cfg k t)) s = (Ret VNone, py_setslice s sl t).
Proof. exact setslice_other. Qed.
Print Assumptions C08_from_other_list.

(** ... but from 3.12 on every negative element changes its sign on the way. *)
Theorem C08_from_other_list_312_refuted : forall cfg sl t s, py312 cfg = true ->
  zlen s <= SSIZE_MAX -> step_of sl = 1 -> Forall (in_range KInt) t ->
  setitem_slice KInt sl (AssSeq (src_same cfg KInt t)) s =
  (Ret VNone, py_setslice s sl (map (fun v => if v =? - 2 ^ 31 then v else Z.abs v) t)).
Proof. exact setslice_other_312. Qed.
Print Assumptions C08_from_other_list_312_refuted.

(** A list assigned to a slice of itself: the part before the slice is repeated
    periodically over len(s) further entries, instead of Python's insertion. *)
Theorem C08_self_assignment_refuted : forall cfg k i j s, zlen s <= SSIZE_MAX ->
  Forall (in_range k) s -> Forall (exact_reads cfg k) s -> 0 < i <= j -> j <= zlen s ->
  setitem_slice k (mk_slice (Some i) (Some j) None) (AssSeq (src_self cfg k)) s =
  (Ret VNone, cycled s (Z.to_nat i) (length s) ++ skipn (Z.to_nat j) s).
Proof. exact self_slice_at. Qed.
Print Assumptions C08_self_assignment_refuted.

Example C08_ex_self :
  setitem_slice KInt (mk_slice (Some 1) (Some 2) None) (AssSeq (src_self ex_cfg KInt)) [1; 2; 3]
  = (Ret VNone, [1; 1; 1; 1; 3]) /\
  py_setslice [1; 2; 3] (mk_slice (Some 1) (Some 2) None) [1; 2; 3] = [1; 1; 2; 3; 3].
Proof. split; reflexivity. Qed.

(** Deleting a slice dereferences a null pointer. *)
Theorem C08_delete_slice_crashes : forall k sl s, step_of sl <> 0 ->
  setitem_slice k sl AssDel s = (Undef NullDeref, s).
Proof. exact setslice_del. Qed.
Print Assumptions C08_delete_slice_crashes.

Example C08_ex : setitem_slice KInt (mk_slice (Some 3) (Some 1) None) (AssSeq (src_items [PInt 8; PInt 9])) [1; 2; 3; 4]
  = (Ret VNone, [1; 2; 3; 8; 9; 4]) /\
  setitem_slice KInt (mk_slice (Some 1) None None) (AssSeq (src_items [PInt 8])) [1; 2; 3; 4] = (Ret VNone, [1; 8]).
Proof. split; reflexivity. Qed.

(** * C09 *)
Theorem C09_failed_slice_assign : forall k sl items vs o e rest s, zlen s <= SSIZE_MAX -> step_of sl = 1 ->
  Forall2 (stores (bits k)) items vs -> rejected o e ->
  exists a b c, s = a ++ b ++ c /\ (forall ws, py_setslice s sl ws = a ++ ws ++ c) /\
  setitem_slice k sl (AssSeq (src_items (items ++ o :: rest))) s =
  (Raise e, a ++ vs ++ -1 :: skipn (length vs + 1) b ++ c).
Proof. exact setslice_bad. Qed.
Print Assumptions C09_failed_slice_assign.

(** Hence never all-or-nothing when an item precedes the bad one and the slice
    is empty: the list has grown. *)
Theorem C09_not_atomic_refuted : forall k items vs o e rest s (p : Z), zlen s <= SSIZE_MAX ->
  0 <= p <= zlen s -> Forall2 (stores (bits k)) items vs -> rejected o e ->
  snd (setitem_slice k (mk_slice (Some p) (Some p) None) (AssSeq (src_items (items ++ o :: rest))) s)
  = firstn (Z.to_nat p) s ++ vs ++ -1 :: skipn (Z.to_nat p) s.
Proof. exact setslice_bad_empty. Qed.
Print Assumptions C09_not_atomic_refuted.

Example C09_ex :
  setitem_slice KInt (mk_slice (Some 1) (Some 4) None)
    (AssSeq (src_items [PInt 7; PObj 0; PInt 9])) [1; 2; 3; 4; 5] = (Raise TypeError, [1; 7; -1; 4; 5]) /\
  setitem_slice KInt (mk_slice (Some 1) (Some 1) None)
    (AssSeq (src_items [PInt 7; PInt (2 ^ 64); PInt 9])) [1; 2] = (Raise OverflowError, [1; 7; -1; 2]).
Proof. split; reflexivity. Qed.

(** * C13 *)
Theorem C13_resize : forall n s, 0 <= n < 2 ^ 63 ->
  exists s', resize (PInt n) s = (Ret VNone, s') /\ zlen s' = n /\
  forall i, 0 <= i < n -> nth_error s' (Z.to_nat i) =
    Some (match nth_error s (Z.to_nat i) with Some v => v | None => 0 end).
Proof. exact resize_char. Qed.
Print Assumptions C13_resize.

Theorem C13_resize_rejects : forall n s, n < 0 \/ 2 ^ 63 <= n -> resize (PInt n) s = (Raise ValueError, s).
Proof. exact resize_rejects. Qed.
Print Assumptions C13_resize_rejects.

Example C13_ex : resize (PInt 4) [7; 8] = (Ret VNone, [7; 8; 0; 0]) /\ resize (PInt 1) [7; 8] = (Ret VNone, [7]).
Proof. split; reflexivity. Qed.

(** * C15 *)
Theorem C15_add_python_list : forall cfg k s items, exists ps,
  add cfg k (AddList items) s = (Ret (VConcat ps items), s) /\
  Forall2 (fun p v => p = from_elem cfg k v) ps s.
Proof. exact add_list. Qed.
Print Assumptions C15_add_python_list.

Theorem C15_add_same_class : forall cfg k s ys, add cfg k (AddSame ys) s = (Raise MemoryError, s).
Proof. exact (fun _ _ _ _ => eq_refl). Qed.
Print Assumptions C15_add_same_class.

(** [x += y] for two lists: the object grows but the name is bound to None. *)
Theorem C15_iadd_rebinds_none : forall cfg k w x y i s j t,
  lookup w x = Some (i, s) -> lookup w y = Some (j, t) -> i <> j ->
  exec cfg k (SIadd x y) w = (Ret VNone, bind_name (set_obj w i (s ++ t)) x RNone).
Proof. exact iadd_rebinds. Qed.
Print Assumptions C15_iadd_rebinds_none.

Theorem C15_iadd_other_iterable : forall k items vs s, Forall2 (stores (bits k)) items vs ->
  iadd k (AList items) s = (Ret VSelf, s ++ vs) /\ iadd k (AIter items None) s = (Ret VSelf, s ++ vs).
Proof. exact iadd_items. Qed.
Print Assumptions C15_iadd_other_iterable.

(** ... and the name stays bound to the object, which has grown. *)
Theorem C15_iadd_list_keeps_name : forall cfg k w x vs i s,
  lookup w x = Some (i, s) -> Forall (in_range k) vs ->
  exec cfg k (SIaddList x vs) w = (Ret VNone, set_obj w i (s ++ vs)).
Proof.
  intros cfg k w x vs i s L F. unfold exec. rewrite L.
  assert (S : Forall2 (stores (bits k)) (map PInt vs) vs).
  { clear L. induction F as [|v vs R _ IH]; cbn [map]; constructor; [|exact IH].
    exists v. split; [reflexivity|]. unfold in_range, in_sbits, reduced in *. destruct k; cbn [bits] in *.
    - split; [lia|]. split; [exact R|]. exists 0. lia.
    - split; [lia|]. split; [exact R|]. exists 0. lia. }
  rewrite (proj1 (iadd_items k (map PInt vs) vs s S)). reflexivity.
Qed.
Print Assumptions C15_iadd_list_keeps_name.

Example C15_ex :
  exec ex_cfg KInt (SIadd 0 1) {| heap := [[1]; [2; 3]]; env := [RObj 0; RObj 1] |} =
  (Ret VNone, {| heap := [[1; 2; 3]; [2; 3]]; env := [RNone; RObj 1] |}).
Proof. reflexivity. Qed.
