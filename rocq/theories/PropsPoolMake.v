(** Property theorems C44, construction: workers that run while the next ones
    are made, threads that cannot be had, and pools without workers. *)
From Coq Require Import List Bool Arith Lia.
From Verif Require Import PoolModel PoolSpec PoolProofs PoolMakeModel PoolMakeProofs.
Import ListNotations.

(** A pool whose constructor has returned is in a state of the machine of the
    other C44 theorems, however far its workers have got; nothing is submitted
    yet. *)
Theorem C44_construct : forall count granted xs s, mrun count granted xs 0 pool0 = MRunning count s ->
  (forall i, i < count -> granted i = true) /\ reachable count s /\ p_next s = 0.
Proof. exact make_built. Qed.
Print Assumptions C44_construct.
(** If every thread can be had, construction neither throws nor fails, and the
    next thread can be made at any moment. *)
Theorem C44_construct_total : forall count granted xs, (forall i, i < count -> granted i = true) ->
  mrun count granted xs 0 pool0 = MBlocked \/
  exists made s, mrun count granted xs 0 pool0 = MRunning made s /\ made <= count /\
    (made < count -> mrun count granted (xs ++ [MNew]) 0 pool0 = MRunning (S made) s).
Proof. exact make_total. Qed.
Print Assumptions C44_construct_total.
(** Thread [r] cannot be had: with r = 0 only the exception leaves the
    constructor. *)
Theorem C44_first_refused : forall count granted xs, 0 < count -> granted 0 = false ->
  match mrun count granted xs 0 pool0 with MRunning m s => m = 0 /\ s = pool0 | MBlocked | MThrown => True | MFault _ => False end.
Proof. exact first_refused. Qed.
Print Assumptions C44_first_refused.
(** With r > 0 no exception ever does: the attempt always ends the process or
    is undefined. *)
Theorem C44_refused_refuted : forall count granted xs r, 0 < r -> r < count -> (forall i, i < r -> granted i = true) -> granted r = false ->
  mrun count granted xs 0 pool0 <> MThrown /\
  (forall s, mrun count granted xs 0 pool0 = MRunning r s -> exists f, mrun count granted (xs ++ [MNew]) 0 pool0 = MFault f) /\
  (forall m s, mrun count granted xs 0 pool0 = MRunning m s -> m <= r).
Proof. exact later_refused. Qed.
Print Assumptions C44_refused_refuted.
(** Which of them, depends on how far the first worker got. *)
Theorem C44_refused_ways : forall count granted r, 0 < r -> r < count -> (forall i, i < r -> granted i = true) -> granted r = false ->
  mrun count granted (repeat MNew r ++ [MNew]) 0 pool0 = MFault MTerminate /\
  mrun count granted (repeat MNew r ++ [MWork 0; MNew]) 0 pool0 = MFault MLocked /\
  mrun count granted (repeat MNew r ++ [MWork 0; MWork 0; MNew]) 0 pool0 = MFault MWaiting.
Proof. exact refused_ways. Qed.
Print Assumptions C44_refused_ways.
(** hardware_concurrency may return 0: such a pool runs nothing, and every
    future it hands out is broken. *)
Theorem C44_no_workers_refuted : forall s, reachable 0 s -> p_ran s = [] /\ forall k, k < p_next s -> ~ submitting s k -> p_fut s k = FBroken.
Proof. exact no_workers. Qed.
Print Assumptions C44_no_workers_refuted.

(** Three threads; the first sleeps and wakes by itself meanwhile. *)
Example C44_construct_ex : exists s, mrun 3 (fun _ => true) [MNew; MWork 0; MWork 0; MNew; MSpurious 0; MWork 1; MNew] 0 pool0 = MRunning 3 s /\
  p_w s 0 = WWoken /\ p_w s 1 = WTest /\ p_w s 2 = WLock /\ p_mutex s = Some (HW 1).
Proof. eexists. split; [vm_compute; reflexivity|]. split; [reflexivity|]. split; [reflexivity|]. split; reflexivity. Qed.
Example C44_refused_ex :
  mrun 4 (fun i => Nat.ltb i 2) [MNew; MNew; MWork 1; MWork 1; MNew] 0 pool0 = MFault MWaiting /\
  mrun 4 (fun i => Nat.ltb i 2) [MNew; MNew; MWork 1; MWork 1; MSpurious 1; MNew] 0 pool0 = MFault MTerminate /\
  mrun 4 (fun _ => false) [MNew] 0 pool0 = MThrown.
Proof. split; [reflexivity|]. split; reflexivity. Qed.
Example C44_no_workers_ex : exists s, prun 0 [TSubmit 0 false; TSub 0 None; TSub 0 None; TSub 0 None; TSub 0 None; TSub 0 None] pool0 = POk s /\
  p_queue s = [0] /\ p_next s = 1 /\ ~ submitting s 0 /\ p_fut s 0 = FBroken.
Proof.
  apply prun_gives. vm_compute. split; [reflexivity|]. split; [reflexivity|]. split; [|reflexivity].
  intros (j & H). cbn in H. unfold setf in H. destruct j; cbn in H; intuition discriminate.
Qed.
