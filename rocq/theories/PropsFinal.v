(** C70: finalizers that call back into an object array list. *)
From Coq Require Import ZArith List Bool Lia.
From Verif Require Import Base PyListSpec ObjModel ObjSpec ObjArrayModel FinalModel FinalSpec FinalProofs FinalMore PropsArrayList.
Import ListNotations.
Local Open Scope Z_scope.

(** Finalizers that leave the lists alone, or only append within the buffer:
    del x[i] removes the element Python removes, and every reference keeps
    exactly one owner. *)
Theorem C70_del_polite : forall F s i, polite F -> balanced s ->
  let k := rel (zlen (slots s)) i in 0 <= k < zlen (slots s) ->
  exists s', f_del F i s = Ret s' /\
    slots s' = firstn (Z.to_nat k) (slots s) ++ skipn (Z.to_nat k + 1) (slots s) /\ src s' = src s /\ balanced s'.
Proof. exact del_polite. Qed.
Print Assumptions C70_del_polite.

Theorem C70_del_appending : forall Q F s i, runs Q -> appends Q F -> balanced s ->
  let k := rel (zlen (slots s)) i in 0 <= k < zlen (slots s) ->
  exists s' more, f_del F i s = Ret s' /\ Q more /\
    slots s' = (firstn (Z.to_nat k) (slots s) ++ skipn (Z.to_nat k + 1) (slots s)) ++ more /\ src s' = src s /\ balanced s'.
Proof. exact del_appending. Qed.
Print Assumptions C70_del_appending.

(** del x[i] with any finalizer whatever, exactly: the element is released
    first and the list is erased at [k] afterwards, whatever is there by then. *)
Theorem C70_del_exact : forall F i k o s,
  k = rel (zlen (slots s)) i -> znth (slots s) k = Some o -> o <> 0 -> rc s o = 1 ->
  f_del F i s =
  match F o s with
  | inr u => Undef u
  | inl t => if rc t o <=? 0 then Undef UseAfterFree
             else if negb (buf t =? buf s) then Undef UseAfterFree
             else if zlen (slots t) <=? k then Undef OutOfBounds
             else Ret (with_slots (firstn (Z.to_nat k) (slots t) ++ skipn (Z.to_nat k + 1) (slots t))
                        (with_rc (upd (rc t) o (rc t o - 1)) t))
  end.
Proof. exact del_dying. Qed.
Print Assumptions C70_del_exact.

(** No finalizer runs while somebody else refers to the object. *)
Theorem C70_del_shared : forall F i k o s,
  k = rel (zlen (slots s)) i -> znth (slots s) k = Some o -> o <> 0 -> 1 < rc s o ->
  f_del F i s = Ret (with_slots (firstn (Z.to_nat k) (slots s) ++ skipn (Z.to_nat k + 1) (slots s))
                      (with_rc (upd (rc s) o (rc s o - 1)) s)).
Proof. exact del_shared. Qed.
Print Assumptions C70_del_shared.

(** A finalizer that inserts in front of the list leaves the freed object in
    it, and reading it back is a use after free. *)
Theorem C70_del_dangling_refuted : forall F i k o x s,
  k = rel (zlen (slots s)) i -> znth (slots s) k = Some o -> balanced s -> rc s o = 1 -> x <> o ->
  F o s = inl (with_slots (x :: slots s) (with_rc (upd (rc s) x (rc s x + 1)) s)) ->
  exists t, f_del F i s = Ret t /\ znth (slots t) k = Some o /\ rc t o = 0 /\ f_get k t = Undef UseAfterFree.
Proof. exact del_dangling. Qed.
Print Assumptions C70_del_dangling_refuted.

(** A finalizer that deletes its own element again frees the object twice. *)
Theorem C70_del_twice_refuted : forall F G i k o s,
  k = rel (zlen (slots s)) i -> znth (slots s) k = Some o -> o <> 0 -> rc s o = 1 ->
  G o s = inl s -> F o s = match f_del G i s with Ret t => inl t | Undef u => inr u | _ => inl s end ->
  f_del F i s = Undef UseAfterFree.
Proof. exact del_itself. Qed.
Print Assumptions C70_del_twice_refuted.

(** remove never runs a finalizer: its argument is still referenced by the
    caller. *)
Theorem C70_remove : forall F o s, o <> 0 -> balanced s -> 1 <= ext s o ->
  f_remove F o s =
  match occurrences (slots s) o with
  | [] => Raise ValueError
  | k :: _ => Ret (with_rc (upd (rc s) o (rc s o - 1))
                (with_slots (firstn (Z.to_nat k) (slots s) ++ skipn (Z.to_nat k + 1) (slots s)) s))
  end.
Proof. exact remove_balanced. Qed.
Print Assumptions C70_remove.

(** clear empties the list; what finalizers append meanwhile is dropped from it
    and never released. *)
Theorem C70_clear_polite : forall F s, polite F -> balanced s ->
  exists s', f_clear F s = Ret s' /\ slots s' = [] /\ src s' = src s /\ balanced s'.
Proof. exact clear_polite. Qed.
Print Assumptions C70_clear_polite.

Theorem C70_clear_appending : forall Q F s, runs Q -> appends Q F -> balanced s ->
  exists s' more, f_clear F s = Ret s' /\ Q more /\ slots s' = [] /\ src s' = src s /\
    forall p, p <> 0 -> 0 <= ext s' p /\ slack s' p = occ more p.
Proof. exact clear_appending. Qed.
Print Assumptions C70_clear_appending.

(** clear is undefined when a finalizer shortens the list or makes it
    reallocate, and when one reads an element already released. *)
Theorem C70_clear_spoiled_refuted : forall F o s,
  balanced s -> In o (slots s) -> rc s o = 1 -> only o F -> spoils F o (buf s) (zlen (slots s)) ->
  exists u, f_clear F s = Undef u.
Proof. exact clear_spoiled. Qed.
Print Assumptions C70_clear_spoiled_refuted.

Theorem C70_clear_read_refuted : forall F o s a c,
  balanced s -> slots s = a ++ o :: c -> a <> [] -> rc s o = 1 -> only o F ->
  (forall t, F o t = match f_get 0 t with Ret t' => inl t' | Undef u => inr u | _ => inl t end) ->
  f_clear F s = Undef NullDeref.
Proof. exact clear_read. Qed.
Print Assumptions C70_clear_read_refuted.

(** Slice assignment with step 1: Python's list, and balanced counts but for
    the references the fast path does not take (C51). *)
Theorem C70_slice_polite : forall F fast sl s,
  polite F -> balanced s -> zlen (slots s) <= SSIZE_MAX -> step_of sl = 1 ->
  exists s', f_setslice F fast sl s = (Ret tt, s') /\ slots s' = py_setslice (slots s) sl (src s) /\ src s' = src s /\
    forall p, p <> 0 -> 0 <= ext s' p /\
      slack s' p = if fast then - occ (skipn (Z.to_nat (slice_len (slots s) sl)) (src s)) p else 0.
Proof. exact slice_polite. Qed.
Print Assumptions C70_slice_polite.
(** Any other step is refused before anything is touched. *)
Theorem C70_slice_step : forall F fast sl s, step_of sl <> 1 ->
  f_setslice F fast sl s = (Raise (if step_of sl =? 0 then ValueError else NotImplementedError), s).
Proof. exact slice_step. Qed.
Print Assumptions C70_slice_step.
Example C70_slice_step_ex :
  step_of (mk_slice (Some 0) (Some 2) (Some (-1))) <> 1 /\ step_of (mk_slice None None (Some 0)) <> 1.
Proof. cbn. lia. Qed.

Theorem C70_slice_appending : forall Q F fast sl s,
  runs Q -> appends Q F -> balanced s -> zlen (slots s) <= SSIZE_MAX -> step_of sl = 1 ->
  exists s' more, f_setslice F fast sl s = (Ret tt, s') /\ Q more /\
    slots s' = py_setslice (slots s) sl (src s) ++ more /\ src s' = src s /\
    forall p, p <> 0 -> 0 <= ext s' p /\
      slack s' p = if fast then - occ (skipn (Z.to_nat (slice_len (slots s) sl)) (src s)) p else 0.
Proof. exact slice_appending. Qed.
Print Assumptions C70_slice_appending.

Theorem C70_slice_spoiled_refuted : forall F fast i j k o s,
  balanced s -> zlen (slots s) <= SSIZE_MAX -> 0 <= i -> i <= k < j -> j <= zlen (slots s) ->
  znth (slots s) k = Some o -> rc s o = 1 -> only o F -> spoils F o (buf s) j ->
  exists u, fst (f_setslice F fast (mk_slice (Some i) (Some j) None) s) = Undef u.
Proof. exact slice_spoiled. Qed.
Print Assumptions C70_slice_spoiled_refuted.

(** Deallocation: no other code can reach the list any more, so its finalizers
    leave it alone. *)
Theorem C70_dealloc : forall F s, polite F -> balanced s ->
  exists s', f_dealloc F s = Ret s' /\ slots s' = [] /\ src s' = src s /\ balanced s'.
Proof. exact dealloc_polite. Qed.
Print Assumptions C70_dealloc.

(** Without finalizers the calls are those of C50. *)
Theorem C70_del_without : forall i s, as_call (f_del quiet i s) s = a_setitem i None (slots s) (rc s).
Proof. exact quiet_del. Qed.
Print Assumptions C70_del_without.

Theorem C70_clear_without : forall s, as_call (f_clear quiet s) s = a_clear (slots s) (rc s).
Proof. exact quiet_clear. Qed.
Print Assumptions C70_clear_without.

(** ** Cases *)
(** Objects 1, 2, 3 in the list; 1 is shared with the source, 3 belongs to the
    program too, 2 to the list alone; 4 and 5 to the source. *)
Definition ex_ext (p : Z) : Z := if p =? 3 then 1 else if p =? 9 then 4 else 0.
Definition ex_world : ost :=
  {| slots := [1; 2; 3]; buf := 100; src := [1; 4]; sbuf := 200; ext := ex_ext;
     rc := fun p => ex_ext p + occ [1; 2; 3] p + occ [1; 4] p |}.
Example ex_world_balanced : balanced ex_world.
Proof.
  split; [|split; cbn; intuition lia]. intros p _. split; [|unfold slack; cbn [ex_world slots src rc ext]; lia].
  cbn [ex_world ext]. unfold ex_ext. destruct (p =? 3), (p =? 9); lia.
Qed.
(** Finalizers: one gives up a reference of the program to object 9, one
    appends object 9 to the list. *)
Definition ex_polite : fins := fun _ s =>
  if 1 <=? ext s 9 then inl {| slots := slots s; buf := buf s; src := src s; sbuf := sbuf s; ext := upd (ext s) 9 (ext s 9 - 1); rc := upd (rc s) 9 (rc s 9 - 1) |}
  else inl s.
Definition ex_append : fins := fun _ s =>
  inl {| slots := slots s ++ [9]; buf := buf s; src := src s; sbuf := sbuf s; ext := ext s; rc := upd (rc s) 9 (rc s 9 + 1) |}.
(** Finalizers of object 2 alone: one pops the last element, one appends with
    a reallocation, one inserts 9 in front. *)
Definition ex_pops : fins := fun o s =>
  if o =? 2 then inl {| slots := firstn 2 (slots s); buf := 101; src := src s; sbuf := sbuf s; ext := ext s; rc := rc s |} else inl s.
Definition ex_front : fins := fun o s =>
  if o =? 2 then inl (with_slots (9 :: slots s) (with_rc (upd (rc s) 9 (rc s 9 + 1)) s)) else inl s.
Definition ex_reads : fins := fun o s =>
  if o =? 2 then match f_get 0 s with Ret t => inl t | Undef u => inr u | _ => inl s end else inl s.
Definition ex_self : fins := fun o s =>
  if o =? 2 then match f_del ex_polite 1 s with Ret t => inl t | Undef u => inr u | _ => inl s end else inl s.

Example ex_polite_ok : polite ex_polite.
Proof.
  intros o s _. unfold ex_polite. destruct (Z.leb_spec 1 (ext s 9)); eexists _, []; (split; [reflexivity|]); (split; [reflexivity|]); rewrite app_nil_r.
  - cbn [slots buf src sbuf ext]. do 4 (split; [reflexivity|]). intros p Hp. unfold slack. cbn [slots src rc ext]. unfold upd.
    destruct (Z.eqb_spec p 9) as [->|]; split; lia.
  - auto 10.
Qed.
Definition nines (m : list Z) : Prop := Forall (eq 9) m.
Example nines_runs : runs nines.
Proof.
  split; [constructor|]. split; [intros x y; unfold nines; rewrite Forall_app; auto|].
  intros x H K. unfold nines in H. rewrite Forall_forall in H. discriminate (H 0 K).
Qed.
Example ex_append_ok : appends nines ex_append.
Proof.
  intros o s _. eexists _, [9]. split; [reflexivity|]. split; [repeat constructor|]. cbn [slots buf src sbuf ext].
  do 4 (split; [reflexivity|]). intros p Hp. split; [auto|]. unfold slack. cbn [slots src rc ext]. rewrite ObjLemmas.occ_app. unfold upd.
  change (occ [9] p) with ((if 9 =? p then 1 else 0) + 0). rewrite (Z.eqb_sym 9 p). destruct (Z.eqb_spec p 9) as [->|]; lia.
Qed.
Example ex_pops_spoils : only 2 ex_pops /\ spoils ex_pops 2 100 3.
Proof.
  split; [intros p t Hp; unfold ex_pops; destruct (Z.eqb_spec p 2); [contradiction|reflexivity]|].
  intros t. eexists. split; [reflexivity|]. cbn [src sbuf buf]. split; [reflexivity|]. split; [reflexivity|]. left. discriminate.
Qed.

Definition shown (x : outcome ost) : outcome (list Z * list Z) :=
  match x with Ret t => Ret (slots t, map (rc t) [1; 2; 3; 4; 9]) | Raise e => Raise e | RetPending _ e => Raise e | Undef u => Undef u end.
Definition shown2 (x : outcome unit * ost) : outcome unit * list Z * list Z := (fst x, slots (snd x), map (rc (snd x)) [1; 2; 3; 4; 9]).
Example C70_del_ex :
  map (rc ex_world) [1; 2; 3; 4; 9] = [2; 1; 2; 1; 4] /\
  shown (f_del ex_polite (-2) ex_world) = Ret ([1; 3], [2; 0; 2; 1; 3]) /\
  shown (f_del ex_append 1 ex_world) = Ret ([1; 3; 9], [2; 0; 2; 1; 5]) /\
  shown (f_del ex_append 0 ex_world) = Ret ([2; 3], [1; 1; 2; 1; 4]) /\
  shown (f_del ex_pops 1 ex_world) = Undef UseAfterFree /\
  shown (f_del ex_front 1 ex_world) = Ret ([9; 2; 3], [2; 0; 2; 1; 5]) /\
  shown (f_del ex_self 1 ex_world) = Undef UseAfterFree /\
  shown (f_del ex_front 3 ex_world) = Raise IndexError.
Proof. vm_compute. auto 10. Qed.
Example C70_remove_ex :
  shown (f_remove ex_pops 3 ex_world) = Ret ([1; 2], [2; 1; 1; 1; 4]) /\ 1 <= ext ex_world 3 /\
  shown (f_remove ex_pops 9 ex_world) = Raise ValueError.
Proof. vm_compute. repeat split; discriminate. Qed.
Example C70_clear_ex :
  shown (f_clear ex_polite ex_world) = Ret ([], [1; 0; 1; 1; 3]) /\
  (* 9 is lost: counted once more, owned by nobody *)
  shown (f_clear ex_append ex_world) = Ret ([], [1; 0; 1; 1; 5]) /\
  shown (f_clear ex_pops ex_world) = Undef UseAfterFree /\
  shown (f_clear ex_reads ex_world) = Undef NullDeref /\
  shown (f_dealloc ex_polite ex_world) = Ret ([], [1; 0; 1; 1; 3]).
Proof. vm_compute. auto 10. Qed.
Example C70_slice_ex :
  shown2 (f_setslice ex_append false (mk_slice (Some 1) (Some 2) None) ex_world) = (Ret tt, [1; 1; 4; 3; 9], [3; 0; 2; 2; 5]) /\
  (* the fast path: 4 is referenced by both lists and counted once *)
  shown2 (f_setslice ex_append true (mk_slice (Some 1) (Some 2) None) ex_world) = (Ret tt, [1; 1; 4; 3; 9], [3; 0; 2; 1; 5]) /\
  shown2 (f_setslice ex_append true (mk_slice None None None) ex_world) = (Ret tt, [1; 4; 9], [2; 0; 1; 2; 5]) /\
  fst (f_setslice ex_pops true (mk_slice (Some 0) (Some 3) None) ex_world) = Undef UseAfterFree /\
  fst (f_setslice ex_pops false (mk_slice (Some 1) (Some 2) None) ex_world) = Undef UseAfterFree.
Proof. vm_compute. auto 10. Qed.
