(** Property theorems C66: user code that runs inside a call of an integer
    array list and changes the list. *)
From Coq Require Import ZArith List Bool Lia.
From Verif Require Import Base PyLongModel MemModel PyListSpec ListLemmas ArrayListModel ArrayListProofs
  ArrayListSpec ArrayListFacts ArrayListMoreModel ArrayListCmpProofs ReentrantModel ReentrantSpec ReentrantProofs
  PropsArrayList.
Import ListNotations.
Local Open Scope Z_scope.

(** * C66 *)
(** append, insert, remove, count, subscript read, deletion, slice read and
    index with a stop: whatever the arguments' code does to the list, the call
    is that code followed by the Python method on the list it left. *)
Theorem C66_atomic : forall cfg k c s, Forall (fun v => in_sbits (bits k) v) s -> zlen s <= SSIZE_MAX ->
  args_sane k c -> args_fit k c -> size_read_last c ->
  rstep cfg k c s = (expected cfg k (fst (atomic_call c s)), snd (atomic_call c s)).
Proof. exact atomic_ok. Qed.
Print Assumptions C66_atomic.

(** index without a stop stops at the size the list had when the call began. *)
Theorem C66_index_default : forall cfg k o oa s, Forall (fun v => in_sbits (bits k) v) s -> zlen s <= SSIZE_MAX ->
  args_sane k (RIndex o oa None) -> args_fit k (RIndex o oa None) ->
  rstep cfg k (RIndex o oa None) s =
  match evaluate [Some o; oa] s with
  | (inl [Some v; a], s') => (expected cfg k (fst (py_step (OIndex v a (Some (zlen s))) s')), s')
  | (inl _, s') => (Undef OutOfBounds, s')
  | (inr e, s') => (Raise e, s')
  end.
Proof. exact index_default_ok. Qed.
Print Assumptions C66_index_default.

(** So it misses an element that Python's list finds. *)
Theorem C66_index_default_refuted : forall cfg k v s, Forall (in_range k) s -> zlen s < SSIZE_MAX ->
  in_range k v -> ~ In v s ->
  rstep cfg k (RIndex (appender v v) None None) s = (Raise ValueError, s ++ [v]) /\
  atomic_call (RIndex (appender v v) None None) s = (SRet (SNum (zlen s)), s ++ [v]).
Proof. exact index_grow. Qed.
Print Assumptions C66_index_default_refuted.

(** pop(i): exact behaviour. The position is computed with the old size and
    used on the new list. *)
Theorem C66_pop_exact : forall cfg k o s i s1, Forall (in_range k) s1 /\ zlen s1 <= SSIZE_MAX -> s <> [] ->
  act o s = (Ret (PInt i), s1) -> in_sbits 64 i ->
  let p := rel (zlen s) i in
  pop_u cfg k o s =
  if (0 <=? p) && (p <? zlen s) then
    if p <? zlen s1 then (Ret (VElem (from_elem cfg k (get_default s1 p))), firstn (Z.to_nat p) s1 ++ skipn (Z.to_nat p + 1) s1)
    else (Undef OutOfBounds, s1)
  else (Raise IndexError, s1).
Proof. exact pop_exact. Qed.
Print Assumptions C66_pop_exact.

Theorem C66_pop_same_size : forall cfg k o s, Forall (in_range k) s /\ zlen s <= SSIZE_MAX -> s <> [] ->
  args_sane k (RPop o) -> args_fit k (RPop o) -> zlen (snd (act o s)) = zlen s ->
  rstep cfg k (RPop o) s = (expected cfg k (fst (atomic_call (RPop o) s)), snd (atomic_call (RPop o) s)).
Proof. exact pop_keeps_size. Qed.
Print Assumptions C66_pop_same_size.

Theorem C66_pop_shrink_refuted : forall cfg k s i, s <> [] -> 0 <= rel (zlen s) i < zlen s -> in_sbits 64 i ->
  rstep cfg k (RPop (emptier i)) s = (Undef OutOfBounds, []) /\
  atomic_call (RPop (emptier i)) s = (SRaise IndexError, []).
Proof. exact pop_shrink. Qed.
Print Assumptions C66_pop_shrink_refuted.

Theorem C66_pop_grow_refuted : forall cfg k a y x, Forall (in_range k) (a ++ [y]) -> zlen (a ++ [y]) < SSIZE_MAX ->
  in_range k x ->
  rstep cfg k (RPop (appender x (-1))) (a ++ [y]) = (Ret (VElem (from_elem cfg k y)), a ++ [x]) /\
  atomic_call (RPop (appender x (-1))) (a ++ [y]) = (SRet (SElem x), a ++ [y]).
Proof. exact pop_grow. Qed.
Print Assumptions C66_pop_grow_refuted.

(** Item assignment: the position is checked before the value is converted. *)
Theorem C66_set_exact : forall cfg k oi ov s i s1 v s2, Forall (in_range k) s1 /\ zlen s1 <= SSIZE_MAX ->
  act oi s = (Ret (PInt i), s1) -> in_sbits 64 i -> act ov s1 = (Ret (PInt v), s2) -> in_range k v ->
  let p := rel (zlen s1) i in
  rstep cfg k (RSet oi ov) s =
  if (0 <=? p) && (p <? zlen s1) then
    if p <? zlen s2 then (Ret VNone, firstn (Z.to_nat p) s2 ++ v :: skipn (Z.to_nat p + 1) s2)
    else (Undef OutOfBounds, s2)
  else (Raise IndexError, s1).
Proof. exact set_exact. Qed.
Print Assumptions C66_set_exact.

Theorem C66_set_same_size : forall cfg k oi ov s i s1 v s2, Forall (in_range k) s1 /\ zlen s1 <= SSIZE_MAX ->
  act oi s = (Ret (PInt i), s1) -> in_sbits 64 i -> act ov s1 = (Ret (PInt v), s2) -> in_range k v ->
  zlen s2 = zlen s1 -> let p := rel (zlen s1) i in 0 <= p < zlen s1 ->
  rstep cfg k (RSet oi ov) s = (expected cfg k (fst (atomic_call (RSet oi ov) s)), snd (atomic_call (RSet oi ov) s)).
Proof. exact set_keeps_size. Qed.
Print Assumptions C66_set_same_size.

Theorem C66_set_shrink_refuted : forall cfg k s oi i v, zlen s <= SSIZE_MAX -> Forall (in_range k) s ->
  act oi s = (Ret (PInt i), s) -> in_sbits 64 i -> in_range k v -> 0 <= rel (zlen s) i < zlen s ->
  rstep cfg k (RSet oi (emptier v)) s = (Undef OutOfBounds, []).
Proof. exact set_shrink. Qed.
Print Assumptions C66_set_shrink_refuted.

(** Slice assignment: free of undefined behaviour when no code of the sequence
    makes the list shorter and its length is a number; with the insertion
    position formed first, when in addition no code invalidates pointers. *)
Theorem C66_slice_assign_safe : forall ord k sl q s,
  (forall u, In (Some u) [u_step sl; u_start sl; u_stop sl] -> returns u) ->
  (forall t, exists n, 0 <= n /\ fst (act (q_len q) t) = Ret n) ->
  seq_all (@returns) q -> seq_all (@never_shrinks) q -> (ord = ConvFirst \/ seq_all (@keeps_buffer) q) ->
  defined (fst (setitem_slice_u ord k sl q s)).
Proof. exact setitem_slice_safe. Qed.
Print Assumptions C66_slice_assign_safe.

(** The slice's own bounds may change the list freely; a sequence that leaves
    the list alone is assigned as Python does. *)
Theorem C66_slice_assign_atomic : forall cfg ord k sl q zs s, Forall (in_range k) s /\ zlen s <= SSIZE_MAX ->
  args_sane k (RGetSlice sl) -> yields_opt (u_step sl) (fun z => z = 1) -> stands_for q zs -> Forall (in_range k) zs ->
  setitem_slice_u ord k sl q s =
  match evaluate (arguments (RGetSlice sl)) s with
  | (inl [c; a; b], s') => let r := py_step (OSetSlice {| sl_start := a; sl_stop := b; sl_step := c |} zs) s' in
                           (expected cfg k (fst r), snd r)
  | (inl _, s') => (Undef OutOfBounds, s')
  | (inr e, s') => (Raise e, s')
  end.
Proof. exact setslice_atomic. Qed.
Print Assumptions C66_slice_assign_atomic.

(** A conversion that fails inside a slice assignment: the ints before it are
    in place, -1 stands where the failed item would go, and the rest of the
    slice is still there. *)
Theorem C66_slice_unconverted : forall ord k sl q s start stop s1 m zs e,
  unpack_u sl s = (Ret (start, stop, 1), s1) -> (forall t, act (q_len q) t = (Ret m, t)) ->
  ints_then_bad q 0 zs e -> Forall (in_range k) zs -> zlen zs < m ->
  let '(a, b, n) := PySlice_AdjustIndices (zlen s1) start stop 1 in
  setitem_slice_u ord k sl q s =
    (Raise e, firstn (Z.to_nat a) s1 ++ zs ++ -1 :: skipn (Z.to_nat (a + Z.min n (zlen zs + 1))) s1).
Proof. exact setslice_bad. Qed.
Print Assumptions C66_slice_unconverted.

(** A slice whose step comes out as 0: ValueError, in reading and assignment,
    after the step's code and before any other. *)
Theorem C66_zero_step : forall cfg ord k sl q o s s1, u_step sl = Some o -> act o s = (Ret (PInt 0), s1) ->
  rstep cfg k (RGetSlice sl) s = (Raise ValueError, s1) /\ setitem_slice_u ord k sl q s = (Raise ValueError, s1).
Proof. exact zero_step_u. Qed.
Print Assumptions C66_zero_step.

Theorem C66_slice_shrink_refuted : forall ord k sl q s start stop s1 m o s2 v s3,
  unpack_u sl s = (Ret (start, stop, 1), s1) -> (forall t, act (q_len q) t = (Ret m, t)) -> 0 < m ->
  let '(a, b, n) := PySlice_AdjustIndices (zlen s1) start stop 1 in
  0 < n -> act (q_get q 0) s1 = (Ret o, s2) -> act o s2 = (Ret (PInt v), s3) -> zlen s3 <= a ->
  fst (setitem_slice_u ord k sl q s) = Undef OutOfBounds.
Proof. exact setslice_shrink. Qed.
Print Assumptions C66_slice_shrink_refuted.

Theorem C66_slice_stale_refuted : forall k sl q s start stop s1 m o s2,
  unpack_u sl s = (Ret (start, stop, 1), s1) -> (forall t, act (q_len q) t = (Ret m, t)) -> 0 < m ->
  let '(a, b, n) := PySlice_AdjustIndices (zlen s1) start stop 1 in
  n = 0 -> act (q_get q 0) s1 = (Ret o, s2) -> inval o s2 = true ->
  fst (setitem_slice_u IterFirst k sl q s) = Undef UseAfterFree.
Proof. exact setslice_stale. Qed.
Print Assumptions C66_slice_stale_refuted.

(** A sequence whose [__len__] raises: one element before the slice is erased
    with it, or memory before the buffer is used. *)
Theorem C66_len_raises_refuted : forall ord k sl q s e start stop s1 s2,
  unpack_u sl s = (Ret (start, stop, 1), s1) -> act (q_len q) s1 = (Raise e, s2) -> zlen s2 = zlen s1 ->
  let '(a, b, n) := PySlice_AdjustIndices (zlen s1) start stop 1 in
  a <= b ->
  (a = 0 -> fst (setitem_slice_u ord k sl q s) = Undef OutOfBounds) /\
  (0 < a -> setitem_slice_u ord k sl q s =
     (RetPending VNone e, firstn (Z.to_nat (a - 1)) s2 ++ skipn (Z.to_nat b) s2)).
Proof. exact len_raises. Qed.
Print Assumptions C66_len_raises_refuted.

(** Comparison with a sequence ([!=] inherits the null dereference of C10). *)
Theorem C66_compare_safe : forall k c q s, c <> Ne_ -> seq_all (@returns) q -> seq_all (@never_shrinks) q ->
  defined (fst (compare_u k c q s)).
Proof. exact compare_safe. Qed.
Print Assumptions C66_compare_safe.

Theorem C66_compare_plain : forall k c q zs s, stands_for q zs -> zlen zs < 2 ^ 64 -> Forall (in_range k) zs ->
  exists b, compare_u k c q s = (Ret b, s) /\ (b = true <-> cmp_sem c s zs).
Proof. exact compare_plain. Qed.
Print Assumptions C66_compare_plain.

(** A conversion that fails at the first item not known to be equal: the
    comparison answers with the error set (a SystemError in Python), as if the
    item were -1, and [==] as if it were different. *)
Theorem C66_compare_unconverted : forall k c q m zs x rest e, (forall t, act (q_len q) t = (Ret m, t)) ->
  ints_then_bad q 0 zs e -> Forall (in_range k) zs -> zlen zs < m ->
  match c with Eq_ | Ne_ => m = zlen (zs ++ x :: rest) | _ => x <> -1 end ->
  exists b, compare_u k c q (zs ++ x :: rest) = (RetPending b e, zs ++ x :: rest) /\
    (b = true <-> match c with Eq_ => False | Ne_ => True | Lt_ => x < -1 | Le_ => x <= -1 | Gt_ => -1 < x | Ge_ => -1 <= x end).
Proof. exact compare_bad. Qed.
Print Assumptions C66_compare_unconverted.

Theorem C66_compare_shrink_refuted : forall k c q s m s1 o s2, act (q_len q) s = (Ret m, s1) -> 0 < m -> m = zlen s1 ->
  act (q_get q 0) s1 = (Ret o, s2) -> s2 = [] -> fst (compare_u k c q s) = Undef OutOfBounds.
Proof. exact compare_shrink. Qed.
Print Assumptions C66_compare_shrink_refuted.

(** extend and += : always the loop of appends, whatever the iterator does. *)
Theorem C66_extend : forall k it s, returns (i_start it) -> Forall returns (i_items it) -> returns (i_end it) ->
  (forall nx t o, In nx (i_items it) -> fst (act nx t) = Ret o -> returns o) ->
  match act (i_start it) s with
  | (Ret _, s0) => exists r, trace k (i_items it) (i_end it) s0 r (snd (extend_u k it s)) /\
      fst (extend_u k it s) = match r with None => Ret VNone | Some e => Raise e end /\
      snd (iadd_u k it s) = snd (extend_u k it s) /\
      fst (iadd_u k it s) = match r with None => Ret VSelf | Some e => Raise e end
  | (Raise e, s0) => extend_u k it s = (Raise e, s0) /\ iadd_u k it s = (Raise e, s0)
  | _ => False
  end.
Proof. exact extend_ok. Qed.
Print Assumptions C66_extend.

Theorem C66_extend_unique : forall k items fin s r1 t1 r2 t2,
  trace k items fin s r1 t1 -> trace k items fin s r2 t2 -> r1 = r2 /\ t1 = t2.
Proof. exact trace_fun. Qed.
Print Assumptions C66_extend_unique.

(** sort with a key function that changes the list. *)
Theorem C66_sort_key : forall u s vs s1, act u s = (Ret vs, s1) ->
  sort_key_u u s = if inval u s then (Undef UseAfterFree, s1) else (Ret VNone, vs).
Proof. exact sort_key_ok. Qed.
Print Assumptions C66_sort_key.

(** ** Concrete cases *)
(** insert(index object that appends 9, 7): position relative to the grown list. *)
Example C66_ex_insert :
  args_sane KInt (RInsert (appender 9 (-1)) (plain 7)) /\ args_fit KInt (RInsert (appender 9 (-1)) (plain 7)) /\
  rstep ex_cfg KInt (RInsert (appender 9 (-1)) (plain 7)) [1; 2] = (Ret VNone, [1; 2; 7; 9]).
Proof.
  assert (P : sane KInt (plain 7)).
  { intros s F L. split; [exact F|]. split; [exact L|]. left. eexists. reflexivity. }
  split; [|split; [|vm_compute; reflexivity]].
  - intros u [E|[E|[]]]; inversion E; subst; [|exact P]. apply appender_sane. unfold in_range, in_sbits. split; vm_compute; congruence.
  - split; intros s z s' E; cbn in E; inversion E; subst; unfold in_sbits; split; vm_compute; congruence.
Qed.

Example C66_ex_pop : rstep ex_cfg KInt (RPop (emptier 1)) [5; 6; 7] = (Undef OutOfBounds, []) /\
  rstep ex_cfg KInt (RPop (appender 8 (-1))) [5; 6; 7] = (Ret (VElem (from_elem ex_cfg KInt 7)), [5; 6; 8]) /\
  rstep ex_cfg KInt (RSet (plain 2) (emptier 4)) [5; 6; 7] = (Undef OutOfBounds, []) /\
  rstep ex_cfg KInt (RSet (plain 2) (appender 3 4)) [5; 6; 7] = (Ret VNone, [5; 6; 4; 3]).
Proof. repeat split; vm_compute; reflexivity. Qed.

(** A sequence of two items whose second conversion appends to the list. *)
Definition ex_seq (z : Z) (o : uobj) : useq :=
  {| q_len := {| act := fun s => (Ret 2, s); inval := fun _ => false |};
     q_get := fun i => {| act := fun s => (if i =? 0 then Ret (plain z) else if i =? 1 then Ret o else Raise IndexError, s);
                          inval := fun _ => false |} |}.
Definition ex_slice (a b : Z) : uslice := {| u_start := Some (plain a); u_stop := Some (plain b); u_step := None |}.

Example C66_ex_slice :
  setitem_slice_u ConvFirst KInt (ex_slice 1 2) (ex_seq 8 (appender 5 9)) [1; 2; 3] = (Ret VNone, [1; 8; 9; 3; 5]) /\
  setitem_slice_u IterFirst KInt (ex_slice 1 2) (ex_seq 8 (appender 5 9)) [1; 2; 3] = (Undef UseAfterFree, [1; 8; 3; 5]) /\
  setitem_slice_u ConvFirst KInt (ex_slice 1 3) (ex_seq 8 (emptier 9)) [1; 2; 3] = (Undef OutOfBounds, []) /\
  setitem_slice_u IterFirst KInt (ex_slice 0 3) (ex_seq 8 (plain 9)) [1; 2; 3] = (Ret VNone, [8; 9]).
Proof. repeat split; vm_compute; reflexivity. Qed.

Example C66_ex_stands : stands_for (ex_seq 8 (plain 9)) [8; 9] /\
  seq_all (@never_shrinks) (ex_seq 8 (appender 5 9)) /\ seq_all (@returns) (ex_seq 8 (appender 5 9)) /\
  compare_u KInt Lt_ (ex_seq 8 (plain 9)) [8; 7; 100] = (Ret true, [8; 7; 100]) /\
  compare_u KInt Eq_ (ex_seq 8 (emptier 9)) [8; 9] = (Ret true, []).
Proof.
  assert (PL : forall z, leaves_alone (plain z)) by (intros z s; split; reflexivity).
  split; [|split; [|split; [|split; vm_compute; reflexivity]]].
  - split; [intros s; reflexivity|]. intros i z Hi E s.
    destruct (Z.to_nat i) as [|[|[|n]]] eqn:J; cbn in E; try discriminate; inversion E; subst.
    + assert (i = 0) by lia. subst i. exists (plain 8). split; [reflexivity|]. split; [apply PL|]. intros t; reflexivity.
    + assert (i = 1) by lia. subst i. exists (plain 9). split; [reflexivity|]. split; [apply PL|]. intros t; reflexivity.
  - split; [intros s; cbn; lia|]. intros i. split; [intros s; cbn; lia|]. intros s o E. cbn in E.
    destruct (i =? 0); [inversion E; subst; intros t; cbn; lia|]. destruct (i =? 1); [|discriminate].
    inversion E; subst. intros t. cbn [act appender snd]. destruct (zlen t <? SSIZE_MAX); [rewrite zlen_app; change (zlen [5]) with 1|]; lia.
  - split; [intros s; left; eexists; reflexivity|]. intros i. split.
    + intros s. cbn. destruct (i =? 0); [left; eexists; reflexivity|]. destruct (i =? 1); [left|right]; eexists; reflexivity.
    + intros s o E. cbn in E. destruct (i =? 0); [inversion E; subst; intros t; left; eexists; reflexivity|].
      destruct (i =? 1); [|discriminate]. inversion E; subst. intros t; left; eexists; reflexivity.
Qed.

(** A length that raises, on x[1:2] = q and x[0:1] = q. *)
Definition bad_len : useq := {| q_len := {| act := fun s => (Raise (UserError 3), s); inval := fun _ => false |};
  q_get := q_get (ex_seq 8 (plain 9)) |}.
Example C66_ex_len : setitem_slice_u ConvFirst KInt (ex_slice 1 2) bad_len [1; 2; 3] = (RetPending VNone (UserError 3), [3]) /\
  setitem_slice_u ConvFirst KInt (ex_slice 0 1) bad_len [1; 2; 3] = (Undef OutOfBounds, [1; 2; 3]).
Proof. split; vm_compute; reflexivity. Qed.

(** extend with an iterator that removes what was appended before. *)
Example C66_ex_extend :
  let it := {| i_start := {| act := fun s => (Ret tt, s); inval := fun _ => false |};
               i_items := [ {| act := fun s => (Ret (plain 4), s); inval := fun _ => false |};
                            {| act := fun s => (Ret (appender 6 7), []); inval := fun _ => true |} ];
               i_end := {| act := fun s => (Ret tt, s); inval := fun _ => false |} |} in
  extend_u KInt it [1] = (Ret VNone, [6; 7]) /\ iadd_u KInt it [1] = (Ret VSelf, [6; 7]).
Proof. split; vm_compute; reflexivity. Qed.

Example C66_ex_sort :
  let u := {| act := fun s => (Ret [1; 2; 3], s ++ [0]); inval := fun s => 2 <=? zlen s |} in
  sort_key_u u [3; 2; 1] = (Undef UseAfterFree, [3; 2; 1; 0]).
Proof. reflexivity. Qed.

(** x[0:2] = [8, obj] and x[1:1] = [8, obj] where obj has no [__index__]. *)
Example C66_ex_unconverted :
  let bad := {| act := fun s => (Ret (PObj 0), s); inval := fun _ => false |} in
  ints_then_bad (ex_seq 8 bad) 0 [8] TypeError /\
  setitem_slice_u ConvFirst KInt (ex_slice 0 2) (ex_seq 8 bad) [1; 2; 3] = (Raise TypeError, [8; -1; 3]) /\
  setitem_slice_u IterFirst KInt (ex_slice 1 1) (ex_seq 8 bad) [1; 2; 3] = (Raise TypeError, [1; 8; -1; 2; 3]) /\
  compare_u KInt Eq_ (ex_seq 8 bad) [8; 2] = (RetPending false TypeError, [8; 2]) /\
  compare_u KInt Gt_ (ex_seq 8 bad) [8; 2] = (RetPending true TypeError, [8; 2]).
Proof.
  split; [|split; [|split; [|split]]; vm_compute; reflexivity]. split.
  - intros s. exists (plain 8). split; [reflexivity|]. split; [split; reflexivity|reflexivity].
  - intros s. eexists. split; [reflexivity|]. split; [split; reflexivity|]. intros t. right; left. split; [reflexivity|]. exists 0. reflexivity.
Qed.

(** x[::i] where i's __index__ appends 9 and gives 0. *)
Example C66_ex_zero : rstep ex_cfg KInt (RGetSlice {| u_start := None; u_stop := None; u_step := Some (appender 9 0) |}) [1; 2] =
  (Raise ValueError, [1; 2; 9]).
Proof. vm_compute. reflexivity. Qed.
