(** Property theorems C67: buffer views of the integer array lists, and the
    memory they show. [grow c n] is the capacity std::vector allocates when it
    has [c] and needs [n]; [sort] is whatever [sort()] does to the elements. *)
From Coq Require Import ZArith List Bool Lia.
From Verif Require Import Base PyLongModel MemModel PyListSpec ListLemmas ArrayListModel ArrayListProofs
  ViewSpec ViewModel ViewProofs PropsArrayList.
Import ListNotations.
Local Open Scope Z_scope.

(** * C67 *)
(** Any history of creating, changing and dropping lists, exporting views and
    reading and writing through them: each answer is the specification's, up to
    the first use of a view the specification calls freed. *)
Theorem C67_refines : forall cfg k grow sort, (forall c n, n <= grow c n) ->
  (forall s, length (sort s) = length s) -> (forall s, Forall (in_range k) s -> Forall (in_range k) (sort s)) ->
  forall os, hist_ok (op_ok k) (in_range k) SSIZE_MAX grow (in_sbits_b (bits k)) sort os empty_world ->
  Forall2 (agree cfg k) (fst (vrun cfg k grow sort os empty_store))
    (fst (arun grow (in_sbits_b (bits k)) sort os empty_world)).
Proof. exact views_refine. Qed.
Print Assumptions C67_refines.

(** The only thing that can go wrong is use of freed memory, and only at a
    view. *)
Theorem C67_only_freed : forall cfg k grow sort, (forall c n, n <= grow c n) ->
  (forall s, length (sort s) = length s) -> (forall s, Forall (in_range k) s -> Forall (in_range k) (sort s)) ->
  forall os, hist_ok (op_ok k) (in_range k) SSIZE_MAX grow (in_sbits_b (bits k)) sort os empty_world ->
  forall u, In (Undef u) (fst (vrun cfg k grow sort os empty_store)) ->
  u = UseAfterFree /\ exists os1 o os2, os = os1 ++ o :: os2 /\
    match o with VGet _ _ | VPut _ _ _ | VShape _ => True | _ => False end.
Proof. exact views_only_freed. Qed.
Print Assumptions C67_only_freed.

(** Every live buffer belongs to exactly one live list: nothing leaks and
    nothing is freed twice. *)
Theorem C67_no_leak : forall cfg k grow sort, (forall c n, n <= grow c n) ->
  (forall s, length (sort s) = length s) -> (forall s, Forall (in_range k) s -> Forall (in_range k) (sort s)) ->
  forall os, hist_ok (op_ok k) (in_range k) SSIZE_MAX grow (in_sbits_b (bits k)) sort os empty_world ->
  ~ In AFreed (fst (arun grow (in_sbits_b (bits k)) sort os empty_world)) ->
  let w := snd (vrun cfg k grow sort os empty_store) in
  forall b c, heap w b = Some c ->
    exists i v, objs w i = Some v /\ v_ptr v = Some b /\
      forall i' v', objs w i' = Some v' -> v_ptr v' = Some b -> i' = i.
Proof. exact views_no_leak. Qed.
Print Assumptions C67_no_leak.

(** Which steps end a view: dropping its list, and a call that needs more room
    than its list has. No other. *)
Theorem C67_when_freed : forall (cfg : config) k grow sort, (forall c n, n <= grow c n) ->
  (forall s, length (sort s) = length s) -> (forall s, Forall (in_range k) s -> Forall (in_range k) (sort s)) ->
  let fits := in_sbits_b (bits k) in
  forall os n v o,
  hist_ok (op_ok k) (in_range k) SSIZE_MAX grow fits sort os empty_world ->
  ~ In AFreed (fst (arun grow fits sort os empty_world)) ->
  let a := snd (arun grow fits sort os empty_world) in
  aviews a n = Some v ->
  (valid_view (snd (astep grow fits sort o a)) v <> None <->
   valid_view a v <> None /\
   match o with
   | VDrop j => j <> av_list v
   | VCall j m => j = av_list v -> forall l, lists a (av_list v) = Some l -> wanted m (a_items l) <= a_room l
   | _ => True
   end).
Proof. exact when_freed. Qed.
Print Assumptions C67_when_freed.

(** A program that neither drops the list nor lets it outgrow the length it had
    at the export reads through the view what the list contains now. *)
Theorem C67_view_shows : forall cfg k grow sort, (forall c n, n <= grow c n) ->
  (forall s, length (sort s) = length s) -> (forall s, Forall (in_range k) s -> Forall (in_range k) (sort s)) ->
  let fits := in_sbits_b (bits k) in
  forall os1 i os2 j l l',
  let a1 := snd (arun grow fits sort os1 empty_world) in
  let os := os1 ++ VView i :: os2 in
  let a' := snd (arun grow fits sort os empty_world) in
  hist_ok (op_ok k) (in_range k) SSIZE_MAX grow fits sort os empty_world ->
  ~ In AFreed (fst (arun grow fits sort os empty_world)) ->
  lists a1 i = Some l -> stays_within i (zlen (a_items l)) grow fits sort os2 (snd (astep grow fits sort (VView i) a1)) ->
  lists a' i = Some l' -> 0 <= j < zlen (a_items l) ->
  exists z, fst (vexec cfg k grow sort (VGet (a_count a1) j) (snd (vrun cfg k grow sort os empty_store))) = Ret (VInt z) /\
    (j < zlen (a_items l') -> z = get_default (a_items l') j).
Proof. exact view_shows. Qed.
Print Assumptions C67_view_shows.

(** A view of a list that is gone reads freed memory: the export took no
    reference. *)
Theorem C67_dropped_refuted : forall cfg k grow sort, (forall c n, n <= grow c n) ->
  (forall s, length (sort s) = length s) -> (forall s, Forall (in_range k) s -> Forall (in_range k) (sort s)) ->
  forall vs j, Forall (in_range k) vs -> 0 <= j < zlen vs ->
  fst (vrun cfg k grow sort [VNew vs; VView 0; VDrop 0; VGet 0 j] empty_store) =
  [Ret VNone; Ret VNone; Ret VNone; Undef UseAfterFree].
Proof. exact view_dropped. Qed.
Print Assumptions C67_dropped_refuted.

(** So does a view of a list that had to move: CPython's own types refuse the
    resize with BufferError, these lists do it. *)
Theorem C67_outgrown_refuted : forall cfg k grow sort, (forall c n, n <= grow c n) ->
  (forall s, length (sort s) = length s) -> (forall s, Forall (in_range k) s -> Forall (in_range k) (sort s)) ->
  forall vs m j, Forall (in_range k) vs -> op_ok k vs m -> zlen vs <= SSIZE_MAX -> 0 <= j < zlen vs ->
  grow 0 (zlen vs) < wanted m vs ->
  fst (vrun cfg k grow sort [VNew vs; VView 0; VCall 0 m; VGet 0 j] empty_store) =
  [Ret VNone; Ret VNone; expected cfg k (fst (py_step m vs)); Undef UseAfterFree].
Proof. exact view_outgrown. Qed.
Print Assumptions C67_outgrown_refuted.

(** One [shape] field serves all views of a list: a second export changes the
    shape read through the first. *)
Theorem C67_shape_refuted : forall cfg k grow sort, (forall c n, n <= grow c n) ->
  (forall s, length (sort s) = length s) -> (forall s, Forall (in_range k) s -> Forall (in_range k) (sort s)) ->
  forall vs v, Forall (in_range k) vs -> in_range k v -> zlen vs <= SSIZE_MAX ->
  fst (vrun cfg k grow sort [VNew vs; VView 0; VShape 0; VCall 0 (OAppend v); VView 0; VShape 0; VLen 0] empty_store) =
  [Ret VNone; Ret VNone; Ret (VInt (zlen vs)); Ret VNone; Ret VNone; Ret (VInt (zlen vs + 1)); Ret (VInt (zlen vs))].
Proof. exact view_shape_shared. Qed.
Print Assumptions C67_shape_refuted.

(** * Concrete cases *)
Definition ex_grow (c n : Z) : Z := Z.max (2 * c) n.
Lemma ex_grow_ok c n : n <= ex_grow c n.
Proof. unfold ex_grow. lia. Qed.

(** Writes through a view reach the list, writes to the list show in the view;
    a popped element stays readable behind the end, until an append lands on
    it. *)
Definition ex_hist : list vop :=
  [VNew [5; 6; 7]; VView 0; VPut 0 (-1) 9; VCall 0 (OIndex 9 None None); VCall 0 (OSet 0 4); VGet 0 0;
   VCall 0 (OPop None); VGet 0 2; VPut 0 2 8; VCall 0 (OAppend 1); VGet 0 2; VLen 0; VPut 0 0 (2 ^ 31); VGet 0 3].
Example ex_shared : fst (vrun ex_cfg KInt ex_grow (@rev Z) ex_hist empty_store) =
  [Ret VNone; Ret VNone; Ret VNone; Ret (VInt 2); Ret VNone; Ret (VInt 4);
   Ret (VElem (from_elem ex_cfg KInt 9)); Ret (VInt 9); Ret VNone; Ret VNone; Ret (VInt 1); Ret (VInt 3); Raise ValueError; Raise IndexError].
Proof. vm_compute. reflexivity. Qed.
Example ex_shared_ok : hist_ok (op_ok KInt) (in_range KInt) SSIZE_MAX ex_grow (in_sbits_b 32) (@rev Z) ex_hist empty_world.
Proof.
  unfold ex_hist. cbn [hist_ok suitable].
  assert (L : forall n, n <= 10 -> n <= SSIZE_MAX) by (intros; unfold SSIZE_MAX; lia).
  repeat (split; [first [exact I | intros a E; vm_compute in E; injection E as <-; cbn [a_items]; split; [|apply L; cbn; lia] | idtac] |]);
    try exact I; cbn [op_ok in_ssize_opt]; repeat constructor; try (unfold in_range, in_sbits; cbn; lia); try discriminate.
Qed.
Example ex_shared_within : stays_within 0 3 ex_grow (in_sbits_b 32) (@rev Z) (skipn 2 ex_hist)
  (snd (arun ex_grow (in_sbits_b 32) (@rev Z) (firstn 2 ex_hist) empty_world)).
Proof.
  unfold ex_hist. cbn [skipn stays_within].
  repeat (split; [first [exact I | intros _ a E; vm_compute in E; injection E as <-; vm_compute; discriminate] |]); exact I.
Qed.

(** Two lists: the fourth element moves the first list, the other's view stays
    good; the first view then reads freed memory. *)
Example ex_two : fst (vrun ex_cfg KInt ex_grow (@rev Z)
  [VNew [1; 2; 3]; VNew [7; 8]; VView 0; VView 1; VCall 0 (OAppend 4); VGet 1 0; VSorted 1; VGet 1 0; VGet 0 0; VGet 1 1] empty_store) =
  [Ret VNone; Ret VNone; Ret VNone; Ret VNone; Ret VNone; Ret (VInt 7); Ret VNone; Ret (VInt 8); Undef UseAfterFree].
Proof. vm_compute. reflexivity. Qed.
Example ex_outgrown : ex_grow 0 (zlen [1; 2; 3]) < wanted (OAppend 4) [1; 2; 3].
Proof. vm_compute. reflexivity. Qed.
