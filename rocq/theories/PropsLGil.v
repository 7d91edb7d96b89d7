(** C78: threads that share a linked list or an object array list while reverse
    has given up the interpreter lock. *)
From Coq Require Import ZArith List Bool Lia.
From Verif Require Import Base PyListSpec ArrayListModel GilModel GilSpec GilProofs GilCalls GilRaces
  LGilModel LGilSpec LGilProofs LGilCalls LGilRaces LGilObjects.
Import ListNotations.
Local Open Scope Z_scope.

(** A call alone does what it does to a Python list and touches no node that
    is not allocated. *)
Theorem C78_alone : forall o M s, in_nodes M s ->
  fst (exec (lprog o) M) = fst (alone o s) /\ in_nodes (snd (exec (lprog o) M)) (snd (alone o s)).
Proof. exact lexec. Qed.
Print Assumptions C78_alone.
Theorem C78_clean : forall o M s, in_nodes M s -> clean (lprog o) M.
Proof. exact lclean. Qed.
Print Assumptions C78_clean.

(** Any number of threads, any calls, any schedule: if no data race can be
    reached, every call behaves as if it ran alone, in some order that keeps
    the order of each thread. *)
Theorem C78_serial : forall M s calls c, in_nodes M s -> race_free (lstart M calls) -> reaches (lstart M calls) c -> quiet c ->
  exists order, in_nodes (mem c) (snd (in_turn order s)) /\
    forall t, answers (thr c t) = of_thread t (fst (in_turn order s)) /\
      exists rest, calls t = of_thread t order ++ rest /\ todo (thr c t) = map lprog rest.
Proof. exact lserial. Qed.
Print Assumptions C78_serial.

(** There is no race as long as nobody reverses ... *)
Theorem C78_locked : forall M calls, (forall t o, In o (calls t) -> o <> LReverse) -> race_free (lstart M calls).
Proof. exact locked_free. Qed.
Print Assumptions C78_locked.

(** ... or as long as one thread reverses, reads and stores elements and all
    others only take len(). *)
Theorem C78_owner : forall M calls u, (forall o, In o (calls u) -> keeps_nodes o = true) ->
  (forall t o, t <> u -> In o (calls t) -> o = LLen) -> race_free (lstart M calls).
Proof. exact owner_free. Qed.
Print Assumptions C78_owner.

(** Reverse races with every call of another thread that touches a value other
    than that in the middle, ... *)
Theorem C78_value_race_refuted : forall M s calls t u n o rt ru, in_nodes M s -> t <> u ->
  calls t = LReverse :: rt -> calls u = o :: ru -> meets s n o -> (2 * n + 1 <> length s)%nat -> ~ race_free (lstart M calls).
Proof. exact value_race. Qed.
Print Assumptions C78_value_race_refuted.

(** ... with every call that adds or removes a node, on every list, ... *)
Theorem C78_node_race_refuted : forall M s calls t u o rt ru, in_nodes M s -> t <> u ->
  calls t = LReverse :: rt -> calls u = o :: ru -> relinks s o -> ~ race_free (lstart M calls).
Proof. exact node_race. Qed.
Print Assumptions C78_node_race_refuted.

(** ... and with every call that removes one it can go on to a freed node. *)
Theorem C78_freed_refuted : forall M s calls t u o rt ru, in_nodes M s -> t <> u ->
  calls t = LReverse :: rt -> calls u = o :: ru -> frees s o -> exists c, reaches (lstart M calls) c /\ uses_freed c.
Proof. exact freed_used. Qed.
Print Assumptions C78_freed_refuted.

(** Nobody waits for ever. *)
Theorem C78_progress : forall M calls c t, reaches (lstart M calls) c ->
  now (thr c t) <> None \/ todo (thr c t) <> [] -> exists u c', step_of_thread u c c'.
Proof. exact lmoves. Qed.
Print Assumptions C78_progress.

(** The object array list: without a race the list owns one reference for each
    of its elements at all times, and an object never loses another one; only
    x[i] = v leaves it with more. *)
Theorem C78_object_serial : forall M s extra calls c, counted M s extra -> (forall t o, In o (calls t) -> names o) ->
  race_free (ostart M calls) -> reaches (ostart M calls) c -> quiet c ->
  exists order extra', counted (mem c) (snd (oturn order s)) extra' /\
    (forall o, 0 <= o -> extra o <= extra' o /\ ((forall t b, In b (calls t) -> stores_one b = false) -> extra' o = extra o)) /\
    forall t, answers (thr c t) = of_thread t (fst (oturn order s)) /\
      exists rest, calls t = of_thread t order ++ rest /\ todo (thr c t) = map oprog rest.
Proof. exact oserial. Qed.
Print Assumptions C78_object_serial.
Theorem C78_object_locked : forall M calls, (forall t o, In o (calls t) -> o <> BReverse) -> race_free (ostart M calls).
Proof. exact olocked. Qed.
Print Assumptions C78_object_locked.
Theorem C78_object_owner : forall M calls u, (forall o, In o (calls u) -> o = BReverse \/ o = BLen) ->
  (forall t o, t <> u -> In o (calls t) -> o = BLen) -> race_free (ostart M calls).
Proof. exact oowner. Qed.
Print Assumptions C78_object_owner.

(** While one thread reverses [a; b] another one deletes the first element:
    the list is left with an object nobody has a reference to, and the other
    object is never freed. *)
Theorem C78_object_refuted : forall a b, 0 <= a -> 0 <= b -> a <> b ->
  counted (two_objects a b) [a; b] (fun _ => 0) /\
  exists c, reaches (ostart (two_objects a b) two_calls) c /\ quiet c /\ (forall t, todo (thr c t) = []) /\
    holds (mem c) [b] /\ mem c (count_of b) = 0 /\ mem c (count_of a) = 1.
Proof. intros a b A B N. split; [exact (two_counted a b A B N)|exact (reference_lost a b A B N)]. Qed.
Print Assumptions C78_object_refuted.

(** ** Examples *)
(** The list [10; 20; 30] in nodes 1, 2, 3; node 4 is the next to be handed out. *)
Definition ex_mem : memory := fun l =>
  match l with
  | Head => 3
  | Cell i => nth (Z.to_nat i) [1; 3; 0; 0; 4;   2; 0; 10; 1; 0;   3; 1; 20; 1; 0;   0; 2; 30; 1; 0] 0
  end.
Example C78_ex_nodes : in_nodes ex_mem [10; 20; 30].
Proof.
  exists [1; 2; 3]. split; [vm_compute; intuition|]. split; [|split; [|vm_compute; intuition]].
  - repeat constructor; cbn; intuition lia.
  - intros p [<-|[<-|[<-|[]]]]; vm_compute; auto.
Qed.
(** Two threads that only take the lock-holding calls, and one thread that
    reverses beside one that asks for the size. *)
Example C78_ex_free :
  race_free (lstart ex_mem (fun t => [LAppend 5; LPop; LInsert 1 7; LDel 0; LClear; LToList])) /\
  race_free (lstart ex_mem (fun t => if Nat.eqb t 0 then [LReverse; LSet 1 5; LToList] else [LLen])).
Proof.
  split.
  - apply C78_locked. intros t o. cbn. intuition (subst; discriminate).
  - apply (C78_owner _ _ 0%nat).
    + cbn. intuition (subst; reflexivity).
    + intros [|t] o; cbn; intuition.
Qed.
Example C78_ex_order :
  in_turn [(0%nat, LReverse); (1%nat, LLen); (0%nat, LSet 0 9); (2%nat, LInsert (-1) 4); (1%nat, LPop); (0%nat, LDel 5); (1%nat, LContains 4)] [10; 20; 30]
  = ([(0%nat, Ret VNone); (1%nat, Ret (VInt 3)); (0%nat, Ret VNone); (2%nat, Ret VNone); (1%nat, Ret (VInt 10)); (0%nat, Raise IndexError); (1%nat, Ret (VBool true))], [9; 20; 4]).
Proof. vm_compute. reflexivity. Qed.
(** Reverse and the values next to it, in one run. *)
Example C78_ex_run :
  match fires (repeat 0 4 ++ repeat 1 3 ++ repeat 0 9)%nat
    (lstart ex_mem (fun t => match t with 0%nat => [LReverse] | 1%nat => [LLen] | _ => [] end)) with
  | Some c => (answers (thr c 0), answers (thr c 1), map (fun p => mem c (vl p)) [1; 2; 3]) = ([Ret VNone], [Ret (VInt 3)], [30; 20; 10])
  | None => False
  end.
Proof. vm_compute. reflexivity. Qed.
Example C78_ex_races :
  ~ race_free (lstart ex_mem (fun t => if Nat.eqb t 0 then [LReverse] else [LGet (-1)])) /\
  ~ race_free (lstart ex_mem (fun t => if Nat.eqb t 0 then [LReverse] else [LInsert 1 8])) /\
  (exists c, reaches (lstart ex_mem (fun t => if Nat.eqb t 0 then [LReverse] else [LDel 1])) c /\ uses_freed c).
Proof.
  split; [|split].
  - refine (C78_value_race_refuted ex_mem [10; 20; 30] _ 0%nat 1%nat 2%nat (LGet (-1)) [] [] C78_ex_nodes _ eq_refl eq_refl eq_refl _); discriminate.
  - refine (C78_node_race_refuted ex_mem [10; 20; 30] _ 0%nat 1%nat (LInsert 1 8) [] [] C78_ex_nodes _ eq_refl eq_refl I). discriminate.
  - refine (C78_freed_refuted ex_mem [10; 20; 30] _ 0%nat 1%nat (LDel 1) [] [] C78_ex_nodes _ eq_refl eq_refl _); discriminate.
Qed.
(** The object list: an order, and its reference counts. *)
Example C78_ex_objects :
  race_free (ostart (two_objects 3 8) (fun t => [BDel (-1); BSet 0 5; BLen])) /\
  race_free (ostart (two_objects 3 8) (fun t => if Nat.eqb t 2 then [BReverse; BReverse] else [BLen])) /\
  oturn [(1%nat, BReverse); (0%nat, BDel 0); (1%nat, BSet (-1) 8)] [3; 8] = ([(1%nat, Ret VNone); (0%nat, Ret VNone); (1%nat, Ret VNone)], [8]).
Proof.
  split; [|split; [|reflexivity]].
  - apply C78_object_locked. intros t o. cbn. intuition (subst; discriminate).
  - apply (C78_object_owner _ _ 2%nat).
    + cbn. intuition.
    + intros t o N. cbn. destruct (Nat.eqb_spec t 2); [congruence|]. cbn. intuition.
Qed.
