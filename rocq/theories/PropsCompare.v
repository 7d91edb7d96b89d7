(** C72: comparison and repr of the object lists while user code changes them. *)
From Coq Require Import ZArith List Bool Lia.
From Verif Require Import Base PyListSpec ArrayListModel ArrayListMoreModel StdListModel StdListProofs CompareModel LinkedReentrantSpec LinkedReentrantProofs CompareSpec CompareProofs CompareRepr.
Import ListNotations.
Local Open Scope Z_scope.

(** ** ObjectArrayList *)

(** Methods that keep both lengths and let nothing die: [==] and [!=] with a
    Python list do what list's do, user code included. *)
Theorem C72_array_like_python : forall X (u : world (list Z) X) peer c s r s',
  returns u -> list_operand u peer -> items_alive u fst -> peers_alive u peer ->
  keeps u same_length -> keeps u (fun s s' => length (peer s') = length (peer s)) -> keeps u (nothing_dies u) ->
  c = Eq_ \/ c = Ne_ -> (c = Ne_ -> ne_is_not_eq u) ->
  a_comp u c s = (r, s') -> py_compares u fst peer c s r s'.
Proof. intros X u peer c s r s' N LO L LP K1 K2 K3 Q QN. apply a_like_python; assumption. Qed.
Print Assumptions C72_array_like_python.

(** Methods that do not shorten the list and let nothing die: no comparison is
    undefined, whatever the right operand. *)
Theorem C72_array_safe : forall X (u : world (list Z) X) c s,
  returns u -> items_alive u fst -> keeps u no_shorter -> keeps u (nothing_dies u) -> defined (fst (a_comp u c s)).
Proof. intros X u c s N L K1 K2. apply a_safe; assumption. Qed.
Print Assumptions C72_array_safe.

(** [==] and [!=] are undefined exactly when the sizes agree at the start and a
    pair is reached whose index is past the end once the right item was read,
    or whose borrowed element is dead at one of its reads. *)
Theorem C72_array_equality_undefined : forall X (u : world (list Z) X) c s e, returns u -> c = Eq_ \/ c = Ne_ ->
  (fst (a_comp u c s) = Undef e <->
   exists s0 i s1, w_len u s = (Ret (zlen (fst s0)), s0) /\ (i < length (fst s0))%nat /\ reached u c i s0 s1 /\ falls u c i s1 e).
Proof. intros X u c s e N Q. apply a_eqne_exact; assumption. Qed.
Print Assumptions C72_array_equality_undefined.
Theorem C72_array_order_undefined : forall X (u : world (list Z) X) c s e, returns u -> ordering c ->
  (fst (a_comp u c s) = Undef e <->
   exists s0, w_len u s = (Ret (zlen (fst s0)), s0) /\ (0 < length (fst s0))%nat /\ falls u c 0 s0 e).
Proof. intros X u c s e N Q. apply a_ord_exact; assumption. Qed.
Print Assumptions C72_array_order_undefined.

(** repr: [__repr__] methods that keep the length give Python's text and state. *)
Theorem C72_array_repr : forall X (u : world (list Z) X) s n,
  returns u -> (forall o s, same_length s (snd (w_repr u o s))) -> (length (fst s) <= n)%nat ->
  exists r s', a_repr_u u n s = Some (r, s') /\ py_spells u fst s r s'.
Proof. intros X u s n N K. apply a_repr_python; assumption. Qed.
Print Assumptions C72_array_repr.
(** It is undefined exactly when the list is empty after an item other than the
    last one was printed. *)
Theorem C72_array_repr_undefined : forall X (u : world (list Z) X) s e, returns u ->
  ((exists n s', a_repr_u u n s = Some (Undef e, s')) <->
   e = OutOfBounds /\ fst s <> [] /\ exists j s1, (0 < j)%nat /\ printed u j s s1 /\ fst s1 = []).
Proof. intros X u s e N. apply a_repr_exact. exact N. Qed.
Print Assumptions C72_array_repr_undefined.
Theorem C72_array_repr_safe : forall X (u : world (list Z) X) s n r s',
  returns u -> (forall o s, fst s <> [] -> fst (snd (w_repr u o s)) <> []) -> a_repr_u u n s = Some (r, s') -> defined r.
Proof. intros X u s n r s' N K. apply a_repr_safe; assumption. Qed.
Print Assumptions C72_array_repr_safe.
(** A [__repr__] that leaves one item has it printed again; Python stops. *)
Theorem C72_array_repr_again_refuted : forall X (u : world (list Z) X) x0 o p l t o' y s1 t2 s2,
  w_repr u o (o :: p :: l, x0) = (Ret t, ([o'], y)) -> s1 = ([o'], y) -> w_repr u o' s1 = (Ret t2, s2) ->
  forall n, (2 <= n)%nat ->
  a_repr_u u n (o :: p :: l, x0) = Some (Ret ([91] ++ t ++ [44; 32] ++ t2 ++ [93]), s2) /\
  py_spells u fst (o :: p :: l, x0) (Ret ([91] ++ t ++ [93])) s1.
Proof. intros X u. apply a_repr_again. Qed.
Print Assumptions C72_array_repr_again_refuted.
(** Items appended by the last one are not printed; Python prints them. *)
Theorem C72_array_repr_late_refuted : forall X (u : world (list Z) X) x0 o t s1 p t2 s2,
  w_repr u o ([o], x0) = (Ret t, s1) -> fst s1 = [o; p] -> w_repr u p s1 = (Ret t2, s2) -> length (fst s2) = 2%nat ->
  forall n, (1 <= n)%nat ->
  a_repr_u u n ([o], x0) = Some (Ret ([91] ++ t ++ [93]), s1) /\
  py_spells u fst ([o], x0) (Ret ([91] ++ t ++ [44; 32] ++ t2 ++ [93])) s2.
Proof. intros X u. apply a_repr_late. Qed.
Print Assumptions C72_array_repr_late_refuted.

(** ** ObjectLinkedList *)

Theorem C72_linked_like_python : forall X (u : world (slist Z) X) peer c s r s',
  let mine := fun s : slist Z * X => values (fst s) in
  returns u -> list_operand u peer -> items_alive u mine -> peers_alive u peer ->
  keeps u same_nodes -> keeps u (fun s s' => length (peer s') = length (peer s)) -> keeps u (nothing_dies u) ->
  well s -> c = Eq_ \/ c = Ne_ -> (c = Ne_ -> ne_is_not_eq u) ->
  l_comp u c s = (r, s') -> py_compares u mine peer c s r s'.
Proof. intros X u peer c s r s' mine N LO L LP K1 K2 K3 W Q QN. apply l_like_python; assumption. Qed.
Print Assumptions C72_linked_like_python.
(** Methods that only add nodes and let nothing die. *)
Theorem C72_linked_safe : forall X (u : world (slist Z) X) c s,
  returns u -> items_alive u (fun s => values (fst s)) -> keeps u keeps_links -> keeps u (nothing_dies u) -> well s ->
  defined (fst (l_comp u c s)).
Proof. intros X u c s N L K1 K2. apply l_safe; assumption. Qed.
Print Assumptions C72_linked_safe.
Theorem C72_linked_equality_undefined : forall X (u : world (slist Z) X) c s e, returns u -> c = Eq_ \/ c = Ne_ ->
  (fst (l_comp u c s) = Undef e <->
   exists s0 i it s1, w_len u s = (Ret (zlen (values (fst s0))), s0) /\ (i < length (values (fst s0)))%nat /\
     lreached u c i s0 it s1 /\ lfalls u c i it s1 e).
Proof. intros X u c s e N Q. apply l_eqne_exact; assumption. Qed.
Print Assumptions C72_linked_equality_undefined.
Theorem C72_linked_order_undefined : forall X (u : world (slist Z) X) c s e, returns u -> ordering c ->
  (fst (l_comp u c s) = Undef e <->
   exists s0 w s1, w_len u s = (Ret (zlen (values (fst s0))), s0) /\ (0 < length (values (fst s0)))%nat /\ w_get u 0 s0 = (Ret w, s1) /\
   (deref (fst s1) (begin_ (fst s0)) = Undef e \/
    (e = UseAfterFree /\ exists v, deref (fst s1) (begin_ (fst s0)) = Ret v /\ read_dead u c v w s1))).
Proof. intros X u c s e N Q. apply l_ord_exact; assumption. Qed.
Print Assumptions C72_linked_order_undefined.

Theorem C72_linked_repr : forall X (u : world (slist Z) X) s n,
  returns u -> (forall o s, same_nodes s (snd (w_repr u o s))) -> well s -> (length (values (fst s)) <= n)%nat ->
  exists r s', l_repr_u u n s = Some (r, s') /\ py_spells u (fun s => values (fst s)) s r s'.
Proof. intros X u s n N K. apply l_repr_python; assumption. Qed.
Print Assumptions C72_linked_repr.
Theorem C72_linked_repr_undefined : forall X (u : world (slist Z) X) s e, returns u ->
  ((exists n s', l_repr_u u n s = Some (Undef e, s')) <-> exists i it s1, lprinted u i s it s1 /\ lstuck u i it s1 e).
Proof. intros X u s e N. apply l_repr_exact. exact N. Qed.
Print Assumptions C72_linked_repr_undefined.
(** Adding nodes at the end is harmless; at the front it is not (see
    [C72_linked_repr_front_refuted]). *)
Theorem C72_linked_repr_safe : forall X (u : world (slist Z) X) s n r s',
  returns u -> (forall o s, appends s (snd (w_repr u o s))) -> well s -> l_repr_u u n s = Some (r, s') -> defined r.
Proof. intros X u s n r s' N K. apply l_repr_safe; assumption. Qed.
Print Assumptions C72_linked_repr_safe.
Theorem C72_linked_repr_emptied_refuted : forall X (u : world (slist Z) X) s o p l t s1,
  well s -> values (fst s) = o :: p :: l -> w_repr u o s = (Ret t, s1) -> values (fst s1) = [] ->
  forall n, (1 <= n)%nat -> l_repr_u u n s = Some (Undef UseAfterFree, s1).
Proof. intros X u. apply l_repr_emptied. Qed.
Print Assumptions C72_linked_repr_emptied_refuted.

(** ** Concrete runs *)

(** The right operand is a Python list, the second component of the state.
    [call] is what a comparison method does to the lists and answers, [get]
    what reading an item does to them, [rep] what [__repr__] does. *)
Definition mem (o : Z) (l : list Z) : bool := existsb (Z.eqb o) l.
Definition ex_world {C} (vals : C -> list Z) (get : C * list Z -> C * list Z)
  (call : cmp_op -> Z -> Z -> C * list Z -> option bool * (C * list Z)) (rep : Z -> C * list Z -> list Z * (C * list Z)) : world C (list Z) :=
  {| w_alive := fun s o => mem o (vals (fst s)) || mem o (snd s);
     w_len := fun s => (Ret (zlen (snd s)), s);
     w_get := fun i s => (match nth_error (snd s) (Z.to_nat i) with Some w => Ret w | None => Raise IndexError end, get s);
     w_sub := fun _ _ => false;
     w_call := fun c a b s => (Ret (option_map (fun t s => (Ret t, s)) (fst (call c a b s))), snd (call c a b s));
     w_fin := fun _ s => s;
     w_repr := fun o s => (Ret (fst (rep o s)), snd (rep o s)) |}.
Lemma ex_returns {C} vals get call rep : returns (@ex_world C vals get call rep).
Proof.
  split; [intros s; left; eexists; reflexivity|]. split; [|split; [intros c a b s; left; eexists; reflexivity|split]].
  - intros i s. cbn. destruct (nth_error (snd s) (Z.to_nat i)); [left|right]; eexists; reflexivity.
  - intros c a b s0 t s1 s H. cbn in H. destruct (fst (call c a b s0)); cbn in H; [|discriminate]. injection H as <- _. left. eexists. reflexivity.
  - intros o s. left. eexists. reflexivity.
Qed.
Lemma mem_in o l : In o l -> mem o l = true.
Proof. intros H. apply existsb_exists. exists o. split; [exact H|apply Z.eqb_refl]. Qed.
Lemma ex_alive {C} vals get call rep : items_alive (@ex_world C vals get call rep) (fun s => vals (fst s)) /\ peers_alive (@ex_world C vals get call rep) snd.
Proof. split; intros s o H; cbn; rewrite (mem_in _ _ H); [|destruct (mem o (vals (fst s)))]; reflexivity. Qed.
Lemma ex_operand {C} vals call rep : list_operand (@ex_world C vals (fun s => s) call rep) snd.
Proof. split; intros; cbn; [reflexivity|]. rewrite Nat2Z.id. reflexivity. Qed.

Definition calm {C} (c : cmp_op) (a b : Z) (s : C) : option bool * C :=
  (match c with Eq_ => Some (a mod 10 =? b mod 10) | Ne_ => Some (negb (a mod 10 =? b mod 10)) | Lt_ => Some (a <? b) | _ => None end, s).
Definition digits {C} (o : Z) (s : C) : list Z * C := ([o], s).
Lemma calm_keeps {C} vals (R : C * list Z -> C * list Z -> Prop) : (forall s, R s s) -> keeps (ex_world vals (fun s => s) calm digits) R.
Proof.
  intros RR s s' H. destruct H; cbn; try apply RR.
  cbn [w_call ex_world] in H. destruct (fst (calm c a b s0)); [|discriminate H]. injection H as <- _. apply RR.
Qed.

(** The hypotheses of the positive theorems hold for lists of objects compared
    by their last digit. *)
Definition ex_calm : world (list Z) (list Z) := ex_world (fun l => l) (fun s => s) calm digits.
Example C72_array_ex :
  returns ex_calm /\ list_operand ex_calm snd /\ items_alive ex_calm fst /\ peers_alive ex_calm snd /\
  keeps ex_calm same_length /\ keeps ex_calm no_shorter /\ keeps ex_calm (fun s s' => length (snd s') = length (snd s)) /\ keeps ex_calm (nothing_dies ex_calm) /\ ne_is_not_eq ex_calm /\
  (forall o s, same_length s (snd (w_repr ex_calm o s))) /\
  fst (a_comp ex_calm Eq_ ([1; 2; 3], [11; 2; 33])) = Ret true /\
  fst (a_comp ex_calm Ne_ ([1; 2; 3], [11; 2; 34])) = Ret true /\
  fst (a_comp ex_calm Lt_ ([1; 2], [2; 0])) = Ret true /\
  fst (a_comp ex_calm Ge_ ([1; 2], [2; 0])) = Raise TypeError /\
  a_repr_u ex_calm 3 ([1; 2; 3], []) = Some (Ret [91; 1; 44; 32; 2; 44; 32; 3; 93], ([1; 2; 3], [])).
Proof.
  split; [apply ex_returns|]. split; [apply ex_operand|]. split; [apply (ex_alive (fun l => l))|]. split; [apply (ex_alive (fun l => l))|].
  split; [apply calm_keeps; intros; reflexivity|]. split; [apply calm_keeps; intros; apply le_n|]. split; [apply calm_keeps; intros; reflexivity|].
  split; [apply calm_keeps; intros s o H; exact H|]. split; [intros a b s; reflexivity|].
  split; [intros; reflexivity|]. split; [reflexivity|]. split; [reflexivity|]. split; [reflexivity|]. split; reflexivity.
Qed.

(** An [__eq__] that empties the left list; one that does so and returns
    NotImplemented; a [__getitem__] that empties it; an [__eq__] that appends to
    it: the list is longer than the right operand, and equal. *)
Definition answer {C} (b : option bool) (f : C -> C) (c : cmp_op) (x y : Z) (s : C * list Z) : option bool * (C * list Z) := (b, (f (fst s), snd s)).
Definition ex_clears := ex_world (fun l : list Z => l) (fun s => s) (answer (Some true) (fun _ => [])) digits.
Definition ex_declines := ex_world (fun l : list Z => l) (fun s => s) (answer None (fun _ => [])) digits.
Definition ex_reads := ex_world (fun l : list Z => l) (fun s => ([], snd s)) (answer (Some true) (fun l => l)) digits.
Definition ex_grows := ex_world (fun l : list Z => l) (fun s => s) (answer (Some true) (fun l => l ++ [9])) digits.
Theorem C72_array_refuted :
  (returns ex_clears /\ items_alive ex_clears fst /\ list_operand ex_clears snd /\
   fst (a_comp ex_clears Eq_ ([1; 2], [3; 4])) = Undef OutOfBounds) /\
  (returns ex_declines /\ items_alive ex_declines fst /\ list_operand ex_declines snd /\
   fst (a_comp ex_declines Eq_ ([1], [3])) = Undef UseAfterFree /\ fst (a_comp ex_declines Lt_ ([1], [3])) = Undef UseAfterFree) /\
  (returns ex_reads /\ items_alive ex_reads fst /\ fst (a_comp ex_reads Lt_ ([1], [3])) = Undef OutOfBounds) /\
  (returns ex_grows /\ items_alive ex_grows fst /\ list_operand ex_grows snd /\
   a_comp ex_grows Eq_ ([1], [3]) = (Ret true, ([1; 9], [3])) /\ py_compares ex_grows fst snd Eq_ ([1], [3]) (Ret false) ([1; 9], [3])).
Proof.
  split; [split; [apply ex_returns|split; [apply (ex_alive (fun l => l))|split; [apply ex_operand|reflexivity]]]|].
  split; [split; [apply ex_returns|split; [apply (ex_alive (fun l => l))|split; [apply ex_operand|split; reflexivity]]]|].
  split; [split; [apply ex_returns|split; [apply (ex_alive (fun l => l))|reflexivity]]|].
  split; [apply ex_returns|]. split; [apply (ex_alive (fun l => l))|]. split; [apply ex_operand|]. split; [reflexivity|].
  apply eq_walk; [reflexivity|]. apply (wk_equal ex_grows fst snd 0 ([1], [3]) 1 3 ([1; 9], [3]) (Ret false) ([1; 9], [3])); try reflexivity; [lia|].
  apply (wk_end ex_grows fst snd 1 ([1; 9], [3])). right. cbn. lia.
Qed.
Print Assumptions C72_array_refuted.

(** [__repr__]: emptied by the first of two items. *)
Definition ex_wipes := ex_world (fun l : list Z => l) (fun s => s) calm (fun o s => ([o], ([], snd s))).
Example C72_array_repr_ex :
  returns ex_wipes /\ printed ex_wipes 1 ([1; 2], []) ([], []) /\
  a_repr_u ex_wipes 5 ([1; 2], []) = Some (Undef OutOfBounds, ([], [])) /\
  a_repr_u ex_wipes 5 ([1], []) = Some (Ret [91; 1; 93], ([], [])).
Proof.
  split; [apply ex_returns|]. split; [|split; reflexivity].
  apply (pr_item ex_wipes 0 ([1; 2], []) ([1; 2], []) 1 [1]); [constructor|cbn; lia|reflexivity|reflexivity].
Qed.
Definition ex_keeps_one := ex_world (fun l : list Z => l) (fun s => s) calm (fun o s => ([o], (firstn 1 (fst s), snd s))).
Definition ex_adds := ex_world (fun l : list Z => l) (fun s => s) calm (fun o s => ([o], (if o =? 7 then fst s else [o; 7], snd s))).
Example C72_array_repr_sizes_ex :
  a_repr_u ex_keeps_one 5 ([1; 2; 3], []) = Some (Ret [91; 1; 44; 32; 1; 93], ([1], [])) /\
  w_repr ex_keeps_one 1 ([1; 2; 3], []) = (Ret [1], ([1], [])) /\
  a_repr_u ex_adds 5 ([1], []) = Some (Ret [91; 1; 93], ([1; 7], [])) /\
  w_repr ex_adds 1 ([1], []) = (Ret [1], ([1; 7], [])) /\ w_repr ex_adds 7 ([1; 7], []) = (Ret [7], ([1; 7], [])).
Proof. split; [reflexivity|]. split; [reflexivity|]. split; [reflexivity|]. split; reflexivity. Qed.

Definition ex_lcalm : world (slist Z) (list Z) := ex_world values (fun s => s) calm digits.
Definition ex_two : slist Z := {| nodes := [(0%nat, 1); (1%nat, 2)]; fresh := 2 |}.
Lemma ex_two_wf : wf ex_two.
Proof. split; cbn; [constructor; [intros [E|[]]; discriminate|constructor; [intros []|constructor]]|constructor; [lia|constructor; [lia|constructor]]]. Qed.
Example C72_linked_ex :
  well (ex_two, [11; 2]) /\ returns ex_lcalm /\ list_operand ex_lcalm snd /\ items_alive ex_lcalm (fun s => values (fst s)) /\ peers_alive ex_lcalm snd /\
  keeps ex_lcalm same_nodes /\ keeps ex_lcalm keeps_links /\ keeps ex_lcalm (fun s s' => length (snd s') = length (snd s)) /\
  keeps ex_lcalm (nothing_dies ex_lcalm) /\ ne_is_not_eq ex_lcalm /\
  (forall o s, same_nodes s (snd (w_repr ex_lcalm o s))) /\ (forall o s, appends s (snd (w_repr ex_lcalm o s))) /\
  fst (l_comp ex_lcalm Eq_ (ex_two, [11; 2])) = Ret true /\ fst (l_comp ex_lcalm Ne_ (ex_two, [11; 3])) = Ret true /\
  fst (l_comp ex_lcalm Lt_ (ex_two, [2; 0])) = Ret true /\
  l_repr_u ex_lcalm 3 (ex_two, []) = Some (Ret [91; 1; 44; 32; 2; 93], (ex_two, [])).
Proof.
  split; [apply ex_two_wf|]. split; [apply ex_returns|]. split; [apply ex_operand|]. split; [apply (ex_alive values)|]. split; [apply (ex_alive values)|].
  split; [apply calm_keeps; intros; split; auto|]. split; [apply calm_keeps; intros s W; split; [exact W|apply subseq_refl]|].
  split; [apply calm_keeps; intros; reflexivity|]. split; [apply calm_keeps; intros s o H; exact H|]. split; [intros a b s; reflexivity|].
  split; [intros; split; auto|]. split; [intros o s W; split; [exact W|exists []; symmetry; apply app_nil_r]|].
  split; [reflexivity|]. split; [reflexivity|]. split; reflexivity.
Qed.

(** The same four programs, and [__repr__] methods that insert two items at the
    front: the iterator runs past the end. *)
Definition ex_none : slist Z := {| nodes := []; fresh := 2 |}.
Definition ex_lclears := ex_world values (fun s => s) (answer (Some true) (fun _ => ex_none)) (fun o s => ([o], (ex_none, snd s))).
Definition ex_ldeclines := ex_world values (fun s => s) (answer None (fun _ => ex_none)) digits.
Definition ex_lreads := ex_world values (fun s => (ex_none, snd s)) (answer (Some true) (fun l => l)) digits.
Definition ex_lgrows := ex_world values (fun s => s) (answer (Some true) (fun l => push_back l 9)) digits.
Definition push_front2 (l : slist Z) : slist Z := {| nodes := (fresh l, 8) :: (S (fresh l), 8) :: nodes l; fresh := S (S (fresh l)) |}.
Definition ex_fronts := ex_world values (fun s => s) calm (fun o s => ([o], (push_front2 (fst s), snd s))).
Theorem C72_linked_refuted :
  (returns ex_lclears /\ items_alive ex_lclears (fun s => values (fst s)) /\ list_operand ex_lclears snd /\
   fst (l_comp ex_lclears Eq_ (ex_two, [3; 4])) = Undef UseAfterFree) /\
  (returns ex_ldeclines /\ items_alive ex_ldeclines (fun s => values (fst s)) /\ list_operand ex_ldeclines snd /\
   fst (l_comp ex_ldeclines Eq_ (ex_two, [3; 4])) = Undef UseAfterFree /\ fst (l_comp ex_ldeclines Lt_ (ex_two, [3; 4])) = Undef UseAfterFree) /\
  (returns ex_lreads /\ items_alive ex_lreads (fun s => values (fst s)) /\ fst (l_comp ex_lreads Lt_ (ex_two, [3; 4])) = Undef UseAfterFree) /\
  (returns ex_lgrows /\ items_alive ex_lgrows (fun s => values (fst s)) /\ list_operand ex_lgrows snd /\
   fst (l_comp ex_lgrows Eq_ (ex_two, [3; 4])) = Ret true /\
   exists s', py_compares ex_lgrows (fun s => values (fst s)) snd Eq_ (ex_two, [3; 4]) (Ret false) s').
Proof.
  split; [split; [apply ex_returns|split; [apply (ex_alive values)|split; [apply ex_operand|reflexivity]]]|].
  split; [split; [apply ex_returns|split; [apply (ex_alive values)|split; [apply ex_operand|split; reflexivity]]]|].
  split; [split; [apply ex_returns|split; [apply (ex_alive values)|reflexivity]]|].
  split; [apply ex_returns|]. split; [apply (ex_alive values)|]. split; [apply ex_operand|]. split; [reflexivity|].
  eexists. apply eq_walk; [reflexivity|].
  eapply (wk_equal ex_lgrows _ snd 0 (ex_two, [3; 4]) 1 3); [reflexivity|reflexivity|lia|reflexivity|].
  eapply (wk_equal ex_lgrows _ snd 1 _ 2 4); [reflexivity|reflexivity|lia|reflexivity|].
  apply (wk_end ex_lgrows (fun s => values (fst s)) snd 2). right. cbn. lia.
Qed.
Print Assumptions C72_linked_refuted.
Theorem C72_linked_repr_front_refuted :
  returns ex_fronts /\ (forall o s, keeps_links s (snd (w_repr ex_fronts o s))) /\ well (ex_two, [3; 4]) /\
  exists n s', l_repr_u ex_fronts n (ex_two, [3; 4]) = Some (Undef IterBeforeBegin, s').
Proof.
  split; [apply ex_returns|]. split; [|split; [apply ex_two_wf|exists 5%nat; eexists; reflexivity]].
  intros o s W. split.
  - destruct W as [ND F]. unfold ids in *. split; cbn.
    + constructor; [|constructor; [|exact ND]].
      * intros [E|I]; [lia|]. rewrite Forall_forall in F. specialize (F _ I). lia.
      * intros I. rewrite Forall_forall in F. specialize (F _ I). lia.
    + constructor; [lia|]. constructor; [lia|]. eapply Forall_impl; [|exact F]. cbn. intros. lia.
  - cbn. unfold ids. cbn. do 2 apply sub_skip. apply subseq_refl.
Qed.
Print Assumptions C72_linked_repr_front_refuted.
