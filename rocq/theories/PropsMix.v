(** Property theorem C87: lists of one int class given to another, and
    instances of Python subclasses. *)
From Coq Require Import ZArith List Bool Arith Lia.
From Verif Require Import Base PyListSpec ArrayListModel ArrayListProofs ArrayListSpec ArrayListMoreModel ArrayListCmpProofs
  StdListModel LinkedListModel LinkedListProofs LinkedListFacts MixModel MixSpec MixProofs PropsArrayList PropsLinkedList.
Import ListNotations.
Local Open Scope Z_scope.

(** * C87 *)
(** [valid]: a list of the class; [taken]: C values are copied from the exact
    class, otherwise each element is read as an object ([seen]) and reduced to
    the width of the new list. *)
Theorem C87_construct : forall cfg c x, valid (obj x) ->
  exists o ws, make cfg c x = Ret o /\ class_of o = c /\ held o = ws /\ taken (py312 cfg) c x (held (obj x)) ws.
Proof. exact make_ok. Qed.
Print Assumptions C87_construct.
Theorem C87_extend : forall cfg inplace t x, valid t -> valid (obj x) ->
  exists t' ws, extend_with cfg inplace t x = (Ret (if inplace : bool then (if recognised (class_of t) x then VNone else VSelf) else VNone), t') /\
    class_of t' = class_of t /\ held t' = held t ++ ws /\ taken (py312 cfg) (class_of t) x (held (obj x)) ws.
Proof. exact extend_ok. Qed.
Print Assumptions C87_extend.
Theorem C87_recognised : forall c x, recognised c x = true <-> copied c x.
Proof. exact recognised_copied. Qed.
Print Assumptions C87_recognised.
(** x + y never works for two lists of these classes. *)
Theorem C87_add_refuted : forall cfg t x, add_with cfg t x = Raise (if recognised (class_of t) x then MemoryError else TypeError).
Proof. exact add_ok. Qed.
Print Assumptions C87_add_refuted.
Theorem C87_slice : forall cfg sl t x, valid t -> valid (obj x) -> step_of sl = 1 ->
  exists t' ws, assign_slice cfg sl t x = (Ret VNone, t') /\ class_of t' = class_of t /\ held t' = py_setslice (held t) sl ws /\
    Forall2 (stands_for (py312 cfg) (class_of t) (obj x)) (held (obj x)) ws.
Proof. exact assign_ok. Qed.
Print Assumptions C87_slice.
(** The comparison slots: an array list's answers are Python's about [ws], a
    linked list's those of C31. *)
Theorem C87_compare : forall cfg c t x, valid t -> valid (obj x) ->
  exists b ws, compare_with cfg c t x = Ret b /\ read_as (py312 cfg) t x ws /\ (b = true <-> slot_sem c t ws).
Proof. exact compare_ok. Qed.
Print Assumptions C87_compare.
(** An array list on the left of an instance of a subclass of its class:
    Python asks the right operand, which finds the exact class. *)
Theorem C87_subclass_right : forall cfg c x y k s ys, obj x = Arr k s -> obj y = Arr k ys -> exact x = true -> valid (obj x) -> valid (obj y) ->
  exists b, rich_compare cfg c x y true = Ret b /\ (b = true <-> cmp_sem c s ys).
Proof. exact rich_sub. Qed.
Print Assumptions C87_subclass_right.

(** Exactly these elements arrive unchanged. *)
Theorem C87_exact : forall py312 c o v, in_range (elem_kind o) v ->
  stands_for py312 c o v v <->
  - 2 ^ (width c - 1) <= v < 2 ^ (width c - 1) /\ (py312 = false \/ class_of o = CArr KBig \/ 0 <= v \/ v = - 2 ^ 31).
Proof. exact stands_exact. Qed.
Print Assumptions C87_exact.
(** From Python 3.12 on, every other negative element of an int list changes:
    by its sign in a 32-bit list, by more in a BigIntArrayList. *)
Theorem C87_negative_refuted : forall o v w, class_of o <> CArr KBig -> - 2 ^ 31 < v < 0 ->
  (stands_for true CLnk o v w <-> w = - v) /\ (stands_for true (CArr KInt) o v w <-> w = - v) /\
  (stands_for true (CArr KBig) o v w <-> w = - (2 ^ 32 + v)).
Proof.
  intros o v w C R. unfold stands_for.
  assert (S1 : seen true o v = - (2 ^ 32 + v)).
  { unfold seen. destruct (class_of o) as [[]|]; try congruence; cbn [andb]; rewrite (proj2 (Z.ltb_lt v 0)) by lia; reflexivity. }
  rewrite S1. unfold reduced. cbn [width]. change (2 ^ (32 - 1)) with 2147483648. change (2 ^ (64 - 1)) with 9223372036854775808.
  change (2 ^ 31) with 2147483648 in R. change (2 ^ 32) with 4294967296. change (2 ^ 64) with 18446744073709551616.
  split; [|split]; (split; [intros [B (m & M)]; lia|]); intros ->; (split; [lia|]); [exists 1|exists 1|exists 0]; lia.
Qed.
Print Assumptions C87_negative_refuted.

(** x.extend(x), for x of a subclass, or x.extend(iter(x)): an array list that
    is not empty grows for ever. *)
Theorem C87_own_iterator_refuted : forall cfg k s n, (0 < length s)%nat -> Forall (in_range k) s ->
  exists t, own_rounds cfg k n (iter_create false s) s = (None, t) /\
    grown (stands_for (py312 cfg) (CArr k) (Arr k [])) n s t /\ Forall (in_range k) t.
Proof. intros cfg k s n. exact (own_ok cfg k s n). Qed.
Print Assumptions C87_own_iterator_refuted.
(** So does a linked list of at least two; with one element the iterator is
    used at the end of the list. *)
Theorem C87_linked_own_iterator_refuted : forall cfg l n, lwf l -> (2 <= length (vals l))%nat -> zlen (vals l) + Z.of_nat n < 2 ^ 64 -> Forall (in_range KInt) (vals l) ->
  exists it l', liter_create false l = Ret it /\ lown_rounds cfg n it None l = (None, l') /\
    grown (stands_for (py312 cfg) CLnk (Lnk l)) n (vals l) (vals l') /\ lwf l'.
Proof. exact lown_ok. Qed.
Print Assumptions C87_linked_own_iterator_refuted.
Theorem C87_linked_own_end_refuted : forall cfg l v n, lwf l -> vals l = [v] -> in_range KInt v ->
  exists it l', liter_create false l = Ret it /\ lown_rounds cfg (S (S n)) it None l = (Some (Undef IterBeforeBegin), l') /\
    exists w, stands_for (py312 cfg) CLnk (Lnk l) v w /\ vals l' = [v; w].
Proof. exact lown_one. Qed.
Print Assumptions C87_linked_own_end_refuted.
(** Only the empty list is done, at once. *)
Theorem C87_own_empty : forall cfg k n, own_rounds cfg k (S n) (iter_create false []) [] = (Some (Ret tt), []) /\
  forall l, vals l = [] -> exists it, liter_create false l = Ret it /\ lown_rounds cfg (S n) it None l = (Some (Ret tt), l).
Proof.
  intros cfg k n. split; [reflexivity|]. intros l V. eexists. split; [reflexivity|]. cbn [lown_rounds]. unfold liter_next.
  unfold vals, values in V. destruct (nodes (lst l)) as [|a r]; [reflexivity|discriminate].
Qed.
Print Assumptions C87_own_empty.

Example C87_ex : let x := {| exact := true; obj := Arr KInt [-5; 7] |} in let y := {| exact := false; obj := Arr KInt [-5; 7] |} in
  valid (obj x) /\ make ex_cfg312 (CArr KInt) x = Ret (Arr KInt [-5; 7]) /\ make ex_cfg312 (CArr KInt) y = Ret (Arr KInt [5; 7]) /\
  make ex_cfg (CArr KInt) y = Ret (Arr KInt [-5; 7]) /\ make ex_cfg312 (CArr KBig) x = Ret (Arr KBig [-4294967291; 7]) /\
  make ex_cfg (CArr KInt) {| exact := true; obj := Arr KBig [4294967299; -1] |} = Ret (Arr KInt [3; -1]) /\
  extend_with ex_cfg312 true (Arr KInt [1]) {| exact := true; obj := Lnk (ex_list [2; -3]) |} = (Ret VSelf, Arr KInt [1; 2; 3]) /\
  rich_compare ex_cfg312 Eq_ x y true = Ret true /\ rich_compare ex_cfg312 Eq_ y y false = Ret false /\
  rich_compare ex_cfg312 Lt_ y {| exact := true; obj := Lnk (ex_list [-5; 7]) |} false = Ret true.
Proof.
  split.
  { split; [vm_compute; discriminate|]. split; [|exact I]. repeat (constructor; [vm_compute; split; congruence|]). constructor. }
  vm_compute. auto 12.
Qed.
Example C87_own_ex : own_rounds ex_cfg312 KInt 3 (iter_create false [-1; 2]) [-1; 2] = (None, [-1; 2; 1; 2; 1]) /\
  match liter_create false (ex_list [-1; 2]) with Ret it => let r := lown_rounds ex_cfg312 3 it None (ex_list [-1; 2]) in (fst r, vals (snd r)) = (None, [-1; 2; 1; 2; 1]) | _ => False end /\
  match liter_create false (ex_list [4]) with Ret it => fst (lown_rounds ex_cfg312 9 it None (ex_list [4])) = Some (Undef IterBeforeBegin) | _ => False end.
Proof. vm_compute. auto. Qed.
