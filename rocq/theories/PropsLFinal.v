(** C75: finalizers that call back into an object linked list. *)
From Coq Require Import ZArith List Bool Lia.
From Verif Require Import Base PyListSpec StdListModel LinkedListModel ObjModel ObjSpec ObjLinkedModel LinkSliceSpec LFinalModel LFinalSpec LFinalProofs LFinalMore LFinalSlice PropsArrayList.
Import ListNotations.
Local Open Scope Z_scope.

(** Finalizers that leave the lists alone, or only append: del x[i] removes the
    element Python removes, and every reference keeps exactly one owner. *)
Theorem C75_del_polite : forall F s i, polite F -> balanced s ->
  let k := rel (zlen (items s)) i in 0 <= k < zlen (items s) ->
  exists s', f_del F i s = Ret s' /\
    items s' = firstn (Z.to_nat k) (items s) ++ skipn (Z.to_nat k + 1) (items s) /\ srcs s' = srcs s /\ balanced s'.
Proof. exact del_polite. Qed.
Print Assumptions C75_del_polite.

Theorem C75_del_appending : forall Q F s i, runs Q -> appends Q F -> balanced s ->
  let k := rel (zlen (items s)) i in 0 <= k < zlen (items s) ->
  exists s' more, f_del F i s = Ret s' /\ Q more /\
    items s' = (firstn (Z.to_nat k) (items s) ++ skipn (Z.to_nat k + 1) (items s)) ++ more /\ srcs s' = srcs s /\ balanced s'.
Proof. exact del_appending. Qed.
Print Assumptions C75_del_appending.

(** Any finalizers that keep the node of their own object: the node that stood
    at [k] before the finalizer ran is removed, from whatever list is there
    afterwards. *)
Theorem C75_del_keeping : forall F s x k i o, keeps F -> balanced s ->
  k = rel (zlen (items s)) x -> 0 <= k -> nth_error (nodes (nds s)) (Z.to_nat k) = Some (i, o) ->
  exists t s', f_del F x s = Ret s' /\ (t = s \/ refs s o = 1 /\ F o s = inl t) /\
    nds s' = without i (nds t) /\ srcs s' = srcs s /\ balanced s'.
Proof. exact del_keeping. Qed.
Print Assumptions C75_del_keeping.

(** del x[i] with any finalizer whatever, exactly. *)
Theorem C75_del_exact : forall F x k i o s,
  linked s -> k = rel (zlen (items s)) x -> 0 <= k -> nth_error (nodes (nds s)) (Z.to_nat k) = Some (i, o) ->
  o <> 0 -> refs s o = 1 -> (forall t, F o s = inl t -> linked t) ->
  f_del F x s =
  match F o s with
  | inr u => Undef u
  | inl t => if refs t o <=? 0 then Undef UseAfterFree
             else if existsb (Nat.eqb i) (ids (nds t))
                  then Ret (with_nds (without i (nds t)) (with_refs (upd (refs t) o (refs t o - 1)) t))
                  else Undef UseAfterFree
  end.
Proof. exact del_exact. Qed.
Print Assumptions C75_del_exact.

(** No finalizer runs while somebody else refers to the object. *)
Theorem C75_del_shared : forall F x k i o s,
  linked s -> k = rel (zlen (items s)) x -> 0 <= k -> nth_error (nodes (nds s)) (Z.to_nat k) = Some (i, o) ->
  o <> 0 -> 1 < refs s o ->
  f_del F x s = Ret (with_nds (without i (nds s)) (with_refs (upd (refs s) o (refs s o - 1)) s)).
Proof. exact del_shared. Qed.
Print Assumptions C75_del_shared.

(** A finalizer that deletes its own element again frees the object twice. *)
Theorem C75_del_twice_refuted : forall F G x k i o s,
  linked s -> k = rel (zlen (items s)) x -> 0 <= k -> nth_error (nodes (nds s)) (Z.to_nat k) = Some (i, o) ->
  o <> 0 -> refs s o = 1 ->
  G o s = inl s -> F o s = match f_del G x s with Ret t => inl t | Undef u => inr u | _ => inl s end ->
  f_del F x s = Undef UseAfterFree.
Proof. exact del_itself. Qed.
Print Assumptions C75_del_twice_refuted.

(** remove never runs a finalizer: its argument is still referenced by the
    caller. *)
Theorem C75_remove : forall F o s, o <> 0 -> balanced s -> 1 <= held s o ->
  match occurrences (items s) o with
  | [] => f_remove F o s = Raise ValueError
  | k :: _ => exists i, nth_error (nodes (nds s)) (Z.to_nat k) = Some (i, o) /\
      f_remove F o s = Ret (with_refs (upd (refs s) o (refs s o - 1)) (with_nds (without i (nds s)) s))
  end.
Proof. exact remove_balanced. Qed.
Print Assumptions C75_remove.

(** clear. What finalizers append meanwhile is visited by the loop as well, so
    if the loop ends, everything has been released. *)
Theorem C75_clear_polite : forall F s fuel, polite F -> balanced s -> (length (items s) <= fuel)%nat ->
  exists s', f_clear fuel F s = Some (Ret s') /\ items s' = [] /\ srcs s' = srcs s /\ balanced s'.
Proof. exact clear_polite. Qed.
Print Assumptions C75_clear_polite.

Theorem C75_clear_appending : forall Q F s fuel r, runs Q -> appends Q F -> balanced s -> f_clear fuel F s = Some r ->
  exists s', r = Ret s' /\ items s' = [] /\ srcs s' = srcs s /\ balanced s'.
Proof. exact clear_appending. Qed.
Print Assumptions C75_clear_appending.

(** Finalizers that keep the node of their own object: defined, and no object
    is freed that somebody refers to. *)
Theorem C75_clear_keeping : forall F s fuel r, keeps F -> balanced s -> f_clear fuel F s = Some r ->
  exists s', r = Ret s' /\ items s' = [] /\ srcs s' = srcs s /\ forall p, p <> 0 -> 0 <= held s' p /\ 0 <= slack s' p.
Proof. exact clear_keeping. Qed.
Print Assumptions C75_clear_keeping.

(** The number of steps allowed does not matter once it is enough. *)
Theorem C75_clear_fuel : forall F n m s r, (n <= m)%nat -> f_clear n F s = Some r -> f_clear m F s = Some r.
Proof. exact clear_fuel. Qed.
Print Assumptions C75_clear_fuel.

(** clear never returns when every finalizer appends one more object. *)
Theorem C75_clear_endless_refuted : forall F o0 b s fuel,
  balanced s -> items s = b ++ [o0] -> 0 < o0 -> refs s o0 = 1 -> (forall n, o0 < n -> refs s n = 0) -> respawns F o0 ->
  f_clear fuel F s = None.
Proof. exact clear_endless. Qed.
Print Assumptions C75_clear_endless_refuted.

(** What a finalizer inserts in front is dropped and never released. *)
Theorem C75_clear_front_refuted : forall F o i x s fuel,
  balanced s -> In (i, o) (nodes (nds s)) -> refs s o = 1 -> only o F -> x <> 0 -> x <> o -> fronts F o x ->
  (length (items s) <= fuel)%nat ->
  exists s', f_clear fuel F s = Some (Ret s') /\ items s' = [] /\ srcs s' = srcs s /\
    forall p, p <> 0 -> 0 <= held s' p /\ slack s' p = occ [x] p.
Proof. exact clear_front. Qed.
Print Assumptions C75_clear_front_refuted.

(** clear is undefined when a finalizer removes the element of its own object,
    and when one reads an element already released. *)
Theorem C75_clear_removed_refuted : forall F o i s fuel,
  balanced s -> In (i, o) (nodes (nds s)) -> refs s o = 1 -> only o F -> removes F o i ->
  (length (items s) <= fuel)%nat -> f_clear fuel F s = Some (Undef UseAfterFree).
Proof. exact clear_removed. Qed.
Print Assumptions C75_clear_removed_refuted.

Theorem C75_clear_read_refuted : forall F o i s a c fuel,
  balanced s -> nodes (nds s) = a ++ (i, o) :: c -> a <> [] -> refs s o = 1 -> only o F ->
  (forall t, F o t = match f_get 0 t with Ret t' => inl t' | Undef u => inr u | _ => inl t end) ->
  (length (items s) <= fuel)%nat -> f_clear fuel F s = Some (Undef NullDeref).
Proof. exact clear_read. Qed.
Print Assumptions C75_clear_read_refuted.

(** Slice assignment: the list of C52, and one owner per reference. *)
Theorem C75_slice_polite : forall F sl s,
  polite F -> balanced s -> zlen (items s) + zlen (srcs s) <= SSIZE_MAX -> step_of sl <> 0 ->
  match linked_setslice (items s) sl (srcs s) with
  | Some r => exists s', f_setslice F sl s = (Ret tt, s') /\ items s' = r /\ srcs s' = srcs s /\ balanced s'
  | None => exists u, fst (f_setslice F sl s) = Undef u
  end.
Proof. exact slice_polite. Qed.
Print Assumptions C75_slice_polite.

Theorem C75_slice_appending : forall Q F sl s r,
  runs Q -> appends Q F -> balanced s -> zlen (items s) + zlen (srcs s) <= SSIZE_MAX -> step_of sl <> 0 ->
  linked_setslice (items s) sl (srcs s) = Some r ->
  exists s' more, f_setslice F sl s = (Ret tt, s') /\ Q more /\ items s' = r ++ more /\ srcs s' = srcs s /\ balanced s'.
Proof. exact slice_appending. Qed.
Print Assumptions C75_slice_appending.

Theorem C75_slice_zero : forall F sl s, step_of sl = 0 -> f_setslice F sl s = (Raise ValueError, s).
Proof. exact slice_zero. Qed.
Print Assumptions C75_slice_zero.

(** Undefined when a finalizer removes the element of its own object. *)
Theorem C75_slice_removed_refuted : forall F i j k nid o s,
  balanced s -> zlen (items s) + zlen (srcs s) <= SSIZE_MAX -> 0 <= i -> i <= k < j -> j <= zlen (items s) ->
  nth_error (nodes (nds s)) (Z.to_nat k) = Some (nid, o) -> refs s o = 1 -> only o F -> removes F o nid ->
  fst (f_setslice F (mk_slice (Some i) (Some j) None) s) = Undef UseAfterFree.
Proof. exact slice_removed. Qed.
Print Assumptions C75_slice_removed_refuted.

(** Deallocation: no other code can reach the list any more, so its finalizers
    leave it alone. *)
Theorem C75_dealloc : forall F s fuel, polite F -> balanced s -> (length (items s) <= fuel)%nat ->
  exists s', f_dealloc fuel F s = Some (Ret s') /\ items s' = [] /\ srcs s' = srcs s /\ balanced s'.
Proof. exact dealloc_polite. Qed.
Print Assumptions C75_dealloc.

(** Without finalizers the calls are those of C50. *)
Theorem C75_del_without : forall x s l, linked s -> lst l = nds s ->
  as_call (f_del quiet x s) s l = l_setitem x None l (refs s).
Proof. exact quiet_del. Qed.
Print Assumptions C75_del_without.

Theorem C75_clear_without : forall s l fuel, linked s -> lst l = nds s -> (length (items s) <= fuel)%nat ->
  exists r, f_clear fuel quiet s = Some r /\ as_call r s l = l_clear l (refs s).
Proof. exact quiet_clear. Qed.
Print Assumptions C75_clear_without.
(** Reading an item takes the reference it returns and nothing else. *)
Theorem C75_get i s : balanced s -> - zlen (items s) <= i < zlen (items s) ->
  exists o s', znth (items s) (if i <? 0 then zlen (items s) + i else i) = Some o /\ f_get i s = Ret s' /\ balanced s' /\
    nds s' = nds s /\ srcs s' = srcs s /\ forall p, held s' p = held s p + occ [o] p /\ refs s' p = refs s p + occ [o] p.
Proof. exact (fget_ok i s). Qed.
Print Assumptions C75_get.

(** ** Cases *)
(** Objects 1, 2, 3 in nodes 10, 11, 12; 1 is shared with the source, 3 belongs
    to the program too, 2 to the list alone; 4 to the source. *)
Definition ex_held (p : Z) : Z := if p =? 3 then 1 else if p =? 9 then 4 else 0.
Definition ex_world : nst :=
  {| nds := {| nodes := [(10%nat, 1); (11%nat, 2); (12%nat, 3)]; fresh := 13%nat |}; srcs := [1; 4]; held := ex_held;
     refs := fun p => ex_held p + occ [1; 2; 3] p + occ [1; 4] p |}.
Example ex_world_balanced : balanced ex_world.
Proof.
  split; [split; [repeat constructor; cbn; intuition lia|repeat constructor; cbn; lia]|]. split; [|split; cbn; intuition lia].
  intros p _. split; [|unfold slack; cbn [ex_world nds srcs refs held items values nodes map snd]; lia].
  cbn [ex_world held]. unfold ex_held. destruct (p =? 3), (p =? 9); lia.
Qed.
(** Finalizers: one gives up a reference of the program to object 9, one
    appends object 9 to the list. *)
Definition ex_polite : nfins := fun _ s =>
  if 1 <=? held s 9 then inl {| nds := nds s; srcs := srcs s; held := upd (held s) 9 (held s 9 - 1); refs := upd (refs s) 9 (refs s 9 - 1) |}
  else inl s.
Definition ex_append : nfins := fun _ s => inl (with_nds (push_back (nds s) 9) (with_refs (upd (refs s) 9 (refs s 9 + 1)) s)).
(** Finalizers of object 2 alone: one removes its node, one drops the first
    element of the list, one inserts 9 in front, one reads x[0]. *)
Definition ex_cuts : nfins := fun o s => if o =? 2 then inl (with_nds (without 11 (nds s)) s) else inl s.
Definition ex_front : nfins := fun o s =>
  if o =? 2 then inl (with_nds {| nodes := (fresh (nds s), 9) :: nodes (nds s); fresh := S (fresh (nds s)) |}
                       (with_refs (upd (refs s) 9 (refs s 9 + 1)) s)) else inl s.
Definition ex_reads : nfins := fun o s =>
  if o =? 2 then match f_get 0 s with Ret t => inl t | Undef u => inr u | _ => inl s end else inl s.
Definition ex_self : nfins := fun o s =>
  if o =? 2 then match f_del quiet 1 s with Ret t => inl t | Undef u => inr u | _ => inl s end else inl s.
(** Objects from 20 on append a new object each. *)
Definition ex_spawns : nfins := fun o s =>
  if o <? 20 then inl s else inl (with_nds (push_back (nds s) (o + 1)) (with_refs (upd (refs s) (o + 1) 1) s)).

Example ex_polite_ok : polite ex_polite.
Proof.
  intros o s _ L. unfold ex_polite. destruct (Z.leb_spec 1 (held s 9)); eexists _, []; (split; [reflexivity|]); (split; [reflexivity|]); rewrite app_nil_r.
  - cbn [nds]. split; [reflexivity|]. split; [exact L|]. split; [reflexivity|]. intros p Hp. unfold slack, items. cbn [nds srcs refs held]. unfold upd.
    destruct (Z.eqb_spec p 9) as [->|]; split; lia.
  - split; [reflexivity|]. split; [exact L|]. auto.
Qed.
Definition nines (m : list Z) : Prop := Forall (eq 9) m.
Example nines_runs : runs nines.
Proof.
  split; [constructor|]. split; [intros x y; unfold nines; rewrite Forall_app; auto|].
  intros x H K. unfold nines in H. rewrite Forall_forall in H. discriminate (H 0 K).
Qed.
Example ex_append_ok : appends nines ex_append.
Proof.
  intros o s _ [L1 L2]. eexists _, [(fresh (nds s), 9)]. split; [reflexivity|]. split; [repeat constructor|]. split; [reflexivity|].
  split; [|split; [reflexivity|]].
  - unfold linked, ids. cbn [nds with_nds push_back nodes fresh]. rewrite map_app. cbn [map fst]. split.
    + apply StdListProofs.NoDup_insert; rewrite app_nil_r; [exact L1|]. intros HI. rewrite Forall_forall in L2. specialize (L2 _ HI). lia.
    + apply Forall_app. split; [eapply Forall_impl; [|exact L2]; cbn; lia|repeat constructor; lia].
  - intros p Hp. split; [auto|]. unfold slack, items, values. cbn [nds with_nds with_refs push_back nodes srcs refs held]. rewrite map_app, ObjLemmas.occ_app. cbn [map snd]. unfold upd.
    change (occ [9] p) with ((if 9 =? p then 1 else 0) + 0). rewrite (Z.eqb_sym 9 p). destruct (Z.eqb_spec p 9) as [->|]; lia.
Qed.
Example ex_cuts_removes : only 2 ex_cuts /\ removes ex_cuts 2 11.
Proof.
  split; [intros p t Hp; unfold ex_cuts; destruct (Z.eqb_spec p 2); [contradiction|reflexivity]|].
  intros t. eexists. split; [reflexivity|]. cbn [nds with_nds]. unfold ids, without. cbn [nodes]. intros H. apply in_map_iff in H. destruct H as ([i o] & Ei & H). cbn [fst] in Ei. subst i.
  apply filter_In in H. destruct H as [_ H]. discriminate H.
Qed.
Example ex_front_fronts : only 2 ex_front /\ fronts ex_front 2 9.
Proof. split; [intros p t Hp; unfold ex_front; destruct (Z.eqb_spec p 2); [contradiction|reflexivity]|]. intros t. reflexivity. Qed.
(** Inserting in front keeps the node of the dying object. *)
Example ex_front_keeps : keeps ex_front.
Proof.
  intros o s a i c R L E NC. unfold ex_front. destruct (Z.eqb_spec o 2) as [->|].
  - eexists _, ((fresh (nds s), 9) :: a), c. split; [reflexivity|]. cbn [nds with_nds nodes]. split; [rewrite E; reflexivity|]. split; [exact NC|].
    split; [cbn [map snd In]; intuition lia|]. split; [|split; [reflexivity|]].
    + destruct L as [L1 L2]. unfold linked, ids in *. cbn [nds with_nds nodes fresh map fst]. split.
      * constructor; [|exact L1]. intros HI. rewrite Forall_forall in L2. specialize (L2 _ HI). lia.
      * constructor; [lia|]. eapply Forall_impl; [|exact L2]. cbn. lia.
    + intros p Hp. split; [auto|]. unfold slack, items, values. cbn [nds with_nds with_refs nodes srcs refs held map snd occ]. unfold upd.
      rewrite (Z.eqb_sym 9 p). destruct (Z.eqb_spec p 9) as [->|]; lia.
  - exists s, a, c. split; [reflexivity|]. split; [exact E|]. split; [exact NC|]. split; [auto|]. split; [exact L|]. auto.
Qed.
Definition ex_last : nst :=
  {| nds := {| nodes := [(10%nat, 1); (11%nat, 20)]; fresh := 12%nat |}; srcs := []; held := fun _ => 0; refs := occ [1; 20] |}.
Example ex_last_endless :
  balanced ex_last /\ items ex_last = [1] ++ [20] /\ refs ex_last 20 = 1 /\ (forall n, 20 < n -> refs ex_last n = 0) /\ respawns ex_spawns 20.
Proof.
  split; [|split; [reflexivity|split; [reflexivity|split]]].
  - split; [split; [repeat constructor; cbn; intuition lia|repeat constructor; cbn; lia]|]. split; [|split; cbn; intuition lia].
    intros p _. split; [cbn; lia|]. unfold slack. cbn [ex_last nds srcs refs held items values nodes map snd]. change (occ [] p) with 0. unfold items, values. cbn [ex_last nds nodes map snd]. lia.
  - intros n Hn. cbn [ex_last refs occ]. destruct (Z.eqb_spec 20 n), (Z.eqb_spec 1 n); lia.
  - split; [intros p t Hp; unfold ex_spawns; destruct (Z.ltb_spec p 20); [reflexivity|lia]|].
    intros o t Ho _. unfold ex_spawns. destruct (Z.ltb_spec o 20); [lia|reflexivity].
Qed.

Definition shown (x : outcome nst) : outcome (list Z * list Z) :=
  match x with Ret t => Ret (items t, map (refs t) [1; 2; 3; 4; 9]) | Raise e => Raise e | RetPending _ e => Raise e | Undef u => Undef u end.
Definition shown2 (x : outcome unit * nst) : outcome unit * list Z * list Z := (fst x, items (snd x), map (refs (snd x)) [1; 2; 3; 4; 9]).
Example C75_del_ex :
  map (refs ex_world) [1; 2; 3; 4; 9] = [2; 1; 2; 1; 4] /\
  shown (f_del ex_polite (-2) ex_world) = Ret ([1; 3], [2; 0; 2; 1; 3]) /\
  shown (f_del ex_append 1 ex_world) = Ret ([1; 3; 9], [2; 0; 2; 1; 5]) /\
  shown (f_del ex_append 0 ex_world) = Ret ([2; 3], [1; 1; 2; 1; 4]) /\
  shown (f_del ex_cuts 1 ex_world) = Undef UseAfterFree /\
  (* unlike in the array list, the element that dies is the one that goes *)
  shown (f_del ex_front 1 ex_world) = Ret ([9; 1; 3], [2; 0; 2; 1; 5]) /\
  shown (f_del ex_self 1 ex_world) = Undef UseAfterFree /\
  shown (f_del ex_front 3 ex_world) = Raise IndexError.
Proof. vm_compute. auto 10. Qed.
Example C75_remove_ex :
  shown (f_remove ex_cuts 3 ex_world) = Ret ([1; 2], [2; 1; 1; 1; 4]) /\ 1 <= held ex_world 3 /\
  shown (f_remove ex_cuts 9 ex_world) = Raise ValueError.
Proof. vm_compute. repeat split; discriminate. Qed.
Example C75_clear_ex :
  option_map shown (f_clear 3 ex_polite ex_world) = Some (Ret ([], [1; 0; 1; 1; 3])) /\
  (* 9 is visited and released again *)
  option_map shown (f_clear 4 ex_append ex_world) = Some (Ret ([], [1; 0; 1; 1; 4])) /\
  f_clear 3 ex_append ex_world = None /\
  (* 9 is lost: counted once more, owned by nobody *)
  option_map shown (f_clear 3 ex_front ex_world) = Some (Ret ([], [1; 0; 1; 1; 5])) /\
  option_map shown (f_clear 3 ex_cuts ex_world) = Some (Undef UseAfterFree) /\
  option_map shown (f_clear 3 ex_reads ex_world) = Some (Undef NullDeref) /\
  option_map shown (f_clear 50 ex_spawns ex_last) = None /\
  option_map shown (f_dealloc 3 ex_polite ex_world) = Some (Ret ([], [1; 0; 1; 1; 3])).
Proof. vm_compute. auto 10. Qed.
Example C75_slice_ex :
  shown2 (f_setslice ex_append (mk_slice (Some 1) (Some 2) None) ex_world) = (Ret tt, [1; 1; 4; 3; 9], [3; 0; 2; 2; 5]) /\
  shown2 (f_setslice ex_append (mk_slice None None None) ex_world) = (Ret tt, [1; 4; 9], [2; 0; 1; 2; 5]) /\
  (* every second element, from the end *)
  shown2 (f_setslice ex_polite (mk_slice None None (Some (-2))) ex_world) = (Ret tt, [4; 2; 1], [2; 1; 1; 2; 4]) /\
  linked_setslice [1; 2; 3] (mk_slice None None (Some (-1))) [1; 4] = None /\
  linked_setslice [1; 2; 3] (mk_slice None None (Some 2)) [1; 4] = Some [1; 2; 4] /\
  linked_setslice [1; 2; 3] (mk_slice (Some 1) (Some 2) (Some 2)) [1; 4] = Some [1; 1; 4; 4] /\
  linked_setslice [1; 2; 3] (mk_slice (Some 2) None (Some 2)) [1; 4] = None /\
  fst (f_setslice ex_polite (mk_slice (Some 2) None (Some 2)) ex_world) = Undef IterBeforeBegin /\
  fst (f_setslice ex_cuts (mk_slice (Some 0) (Some 3) None) ex_world) = Undef UseAfterFree /\
  fst (f_setslice ex_cuts (mk_slice (Some 1) (Some 2) None) ex_world) = Undef UseAfterFree /\
  fst (f_setslice ex_polite (mk_slice None None (Some 0)) ex_world) = Raise ValueError.
Proof. vm_compute. auto 20. Qed.
Example C75_get_ex : shown (f_get (-2) ex_world) = Ret ([1; 2; 3], [2; 2; 2; 1; 4]) /\ f_get 3 ex_world = Raise IndexError.
Proof. split; reflexivity. Qed.
