(** C73: threads that call methods of one list while a method has given up the
    interpreter lock. *)
From Coq Require Import ZArith List Bool Lia.
From Verif Require Import Base PyListSpec ArrayListModel ArrayListProofs ArrayListMoreModel SimdSortModel GilModel GilSpec GilProofs
  GilCalls GilRaces PropsArrayList.
Import ListNotations.
Local Open Scope Z_scope.

(** Any number of threads, any calls, any schedule: if no data race can be
    reached, every call behaves as if it ran alone, in some order that keeps
    the order of each thread. *)
Theorem C73_serial : forall cfg k M s calls c, holds M s -> race_free (start cfg k M calls) ->
  reaches (start cfg k M calls) c -> quiet c ->
  exists order, holds (mem c) (snd (one_by_one cfg k order s)) /\
    forall t, answers (thr c t) = of_thread t (fst (one_by_one cfg k order s)) /\
      exists rest, calls t = of_thread t order ++ rest /\ todo (thr c t) = map (prog_of cfg k) rest.
Proof. exact serial_calls. Qed.
Print Assumptions C73_serial.

(** A call alone is the call of the single-threaded model (what is left behind
    where [*=] is undefined is not compared). *)
Theorem C73_alone : forall cfg k c s, Forall (in_range k) s -> zlen s * ez k <= SSIZE_MAX ->
  alone cfg k c s = match c with
                    | COp o => step cfg k o s
                    | CSort r => sort_nokey cfg k r s
                    | CMul n => mul cfg k n s
                    | CIMul n spare => (fst (imul cfg k n spare s),
                        match fst (imul cfg k n spare s) with Undef _ => snd (alone cfg k c s) | _ => snd (imul cfg k n spare s) end)
                    end.
Proof. exact alone_model. Qed.
Print Assumptions C73_alone.

(** There is no race as long as nobody calls sort, reverse, [*]
    or [*=] with a positive number ... *)
Theorem C73_locked : forall cfg k M calls, (forall t c, In c (calls t) -> unlocks c = false) ->
  race_free (start cfg k M calls).
Proof. exact held_race_free. Qed.
Print Assumptions C73_locked.

(** ... or as long as everybody only reads, [*] included ... *)
Theorem C73_readers : forall cfg k M calls, (forall t c, In c (calls t) -> reader c = true) ->
  race_free (start cfg k M calls).
Proof. exact readers_race_free. Qed.
Print Assumptions C73_readers.

(** ... or as long as one thread sorts, reverses, reads and stores elements and
    all others only take len(). *)
Theorem C73_owner : forall cfg k M calls o, (forall c, In c (calls o) -> keeps_size c = true) ->
  (forall t c, t <> o -> In c (calls t) -> c = COp OLen) -> race_free (start cfg k M calls).
Proof. exact owner_race_free. Qed.
Print Assumptions C73_owner.

(** A call that has given up the lock races with every call of another thread
    that touches an element it touches, when one of the two writes it, ... *)
Theorem C73_element_race_refuted : forall cfg k M s calls t u w c rt ru p, holds M s -> t <> u ->
  calls t = w :: rt -> calls u = c :: ru -> unlocks w = true ->
  touches (zlen s) p w -> touches (zlen s) p c -> writer w || writer c = true ->
  ~ race_free (start cfg k M calls).
Proof. exact element_race. Qed.
Print Assumptions C73_element_race_refuted.

(** ... and with every call that changes the size, on every list. *)
Theorem C73_size_race_refuted : forall cfg k M s calls t u w c rt ru, holds M s -> t <> u ->
  calls t = w :: rt -> calls u = c :: ru -> unlocks w = true -> resizes (zlen s) c ->
  ~ race_free (start cfg k M calls).
Proof. exact size_race. Qed.
Print Assumptions C73_size_race_refuted.

(** [*=] with a number above 1 changes the size of a list with elements without
    the lock, so it races with every call that looks at the size. *)
Theorem C73_imul_race_refuted : forall cfg k M s calls t u m sp c rt ru, holds M s -> t <> u ->
  calls t = CIMul m sp :: rt -> calls u = c :: ru -> s <> [] -> 2 <= m -> uses_size c ->
  ~ race_free (start cfg k M calls).
Proof. exact imul_race. Qed.
Print Assumptions C73_imul_race_refuted.

(** Two threads that reverse a list of two elements can lose one of them. *)
Theorem C73_lost_refuted : forall cfg k x y, exists c,
  reaches (start cfg k (memory_of [x; y]) (fun t => if Nat.ltb t 2 then [COp OReverse] else [])) c /\
  quiet c /\ (forall t, todo (thr c t) = []) /\ holds (mem c) [y; y].
Proof. exact lost. Qed.
Print Assumptions C73_lost_refuted.

(** Nobody waits for ever: while a thread has something to do, somebody can
    take a step. *)
Theorem C73_progress : forall cfg k M calls c t, reaches (start cfg k M calls) c ->
  now (thr c t) <> None \/ todo (thr c t) <> [] -> exists u c', step_of_thread u c c'.
Proof. exact calls_move. Qed.
Print Assumptions C73_progress.

(** ** Examples *)
Lemma memory_holds s : holds (memory_of s) s.
Proof.
  split; [reflexivity|]. intros i v E. cbn. unfold get_default. rewrite Nat2Z.id. now apply nth_error_nth.
Qed.

(** Thread 0 reverses and appends nothing, thread 1 asks for the size: no race. *)
Definition ex_calls (t : nat) : list call :=
  match t with
  | 0%nat => [COp OReverse; COp (OSet 0 9); CSort 0]
  | 1%nat => [COp OLen; COp OLen]
  | _ => []
  end.
Example C73_ex_owner : race_free (start ex_cfg KInt (memory_of [1; 2; 3]) ex_calls) /\ holds (memory_of [1; 2; 3]) [1; 2; 3].
Proof.
  split; [|apply memory_holds]. apply (C73_owner _ _ _ _ 0%nat).
  - cbn. intros c [<-|[<-|[<-|[]]]]; reflexivity.
  - intros [|[|t]] c N; cbn; [congruence| |tauto]. intros [<-|[<-|[]]]; reflexivity.
Qed.

(** An order and what comes out of it. *)
Example C73_ex_order :
  one_by_one ex_cfg KInt [(0%nat, COp OReverse); (1%nat, COp OLen); (0%nat, COp (OSet 0 9)); (1%nat, COp OLen); (0%nat, CSort 0)] [1; 2; 3]
  = ([(0%nat, Ret VNone); (1%nat, Ret (VInt 3)); (0%nat, Ret VNone); (1%nat, Ret (VInt 3)); (0%nat, Ret VNone)], [1; 2; 9]) /\
  of_thread 1 (fst (one_by_one ex_cfg KInt [(0%nat, COp OReverse); (1%nat, COp OLen)] [1; 2; 3])) = [Ret (VInt 3)].
Proof. vm_compute. auto. Qed.

(** The schedule in which the other thread asks for the size in the middle of
    reverse is one of the executions C73_serial speaks about. *)
Example C73_ex_run :
  match fires [0; 0; 0; 0; 1; 1; 1; 0; 0; 0; 0; 0]%nat
    (start ex_cfg KInt (memory_of [1; 2; 3]) (fun t => match t with 0%nat => [COp OReverse] | 1%nat => [COp OLen] | _ => [] end)) with
  | Some c => (answers (thr c 0), answers (thr c 1), [mem c (Cell 0); mem c (Cell 1); mem c (Cell 2)]) =
              ([Ret VNone], [Ret (VInt 3)], [3; 2; 1])
  | None => False
  end.
Proof. vm_compute. reflexivity. Qed.

Example C73_ex_readers : race_free (start ex_cfg KBig (memory_of [4; 5]) (fun t => [CMul 3; COp (OGet (-1)); COp OToList])).
Proof. apply C73_readers. cbn. intros t c [<-|[<-|[<-|[]]]]; reflexivity. Qed.

Example C73_ex_locked : race_free (start ex_cfg KBig (memory_of [4; 5]) (fun t => [COp (OAppend 3); COp (OPop None); CMul 0])).
Proof. apply C73_locked. cbn. intros t c [<-|[<-|[<-|[]]]]; reflexivity. Qed.

(** Reading the first element while another thread sorts; appending while
    another thread repeats. *)
Example C73_ex_races :
  ~ race_free (start ex_cfg KInt (memory_of [1; 2; 3]) (fun t => if Nat.eqb t 0 then [CSort 0] else [COp (OGet 0)])) /\
  ~ race_free (start ex_cfg KInt (memory_of []) (fun t => if Nat.eqb t 0 then [CMul 2] else [COp (OAppend 7)])).
Proof.
  split.
  - refine (C73_element_race_refuted ex_cfg KInt (memory_of [1; 2; 3]) [1; 2; 3] _ 0%nat 1%nat (CSort 0) (COp (OGet 0)) [] [] 0
      (memory_holds _) _ eq_refl eq_refl eq_refl _ _ eq_refl); [discriminate|cbn; unfold zlen; cbn; lia|reflexivity].
  - refine (C73_size_race_refuted ex_cfg KInt (memory_of []) [] _ 0%nat 1%nat (CMul 2) (COp (OAppend 7)) [] []
      (memory_holds _) _ eq_refl eq_refl eq_refl _); [discriminate|cbn; unfold in_sbits; lia].
Qed.

(** len() while another thread runs x *= 2; and x *= 1 among readers. *)
Example C73_ex_imul :
  ~ race_free (start ex_cfg KInt (memory_of [1]) (fun t => if Nat.eqb t 0 then [CIMul 2 []] else [COp OLen])) /\
  race_free (start ex_cfg KInt (memory_of [1]) (fun t => [CIMul 1 []; COp OLen])) /\
  alone ex_cfg KInt (CIMul 0 []) [4; 5] = (Ret VSelf, []) /\ alone ex_cfg KInt (CIMul 1 []) [4; 5] = (Ret VSelf, [4; 5]).
Proof.
  split; [|split; [|split; vm_compute; reflexivity]].
  - refine (C73_imul_race_refuted ex_cfg KInt (memory_of [1]) [1] _ 0%nat 1%nat 2 [] (COp OLen) [] []
      (memory_holds _) _ eq_refl eq_refl _ _ I); [discriminate|discriminate|lia].
  - apply C73_readers. cbn. intros t c [<-|[<-|[]]]; reflexivity.
Qed.

(** The middle element of an odd list is not touched by reverse, so storing
    there does not count as a race by C73_element_race_refuted. *)
Example C73_ex_middle : touches 3 0 (COp OReverse) /\ ~ touches 3 1 (COp OReverse) /\ touches 3 2 (COp (OSet (-1) 5)).
Proof. cbn. unfold in_sbits. split; [lia|]. split; [lia|]. split; [reflexivity|lia]. Qed.
