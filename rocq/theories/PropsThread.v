(** Property theorems C43, C44: the JIT function table and the thread pool,
    under every interleaving of their threads. *)
From Coq Require Import ZArith List Bool Arith Lia.
From Verif Require Import Base AsmModel AsmSpec AsmProofs PoolModel PoolSpec PoolProofs.
Import ListNotations.
Local Open Scope Z_scope.

(** * C43 *)
(** At most one thread is between lock() and unlock(). *)
Theorem C43_exclusive : forall win es s, arun win es start = AOk s -> forall t u, inside (pc s t) = true -> inside (pc s u) = true -> t = u.
Proof. exact exclusive. Qed.
Print Assumptions C43_exclusive.
(** With makeFunction and freeFunction alone at most one thread is at the table. *)
Theorem C43_no_race : forall es s, only_locking es -> arun true es start = AOk s ->
  forall t u, at_table (pc s t) = true -> at_table (pc s u) = true -> t = u.
Proof. exact no_race. Qed.
Print Assumptions C43_no_race.
(** When no call is in progress an address is in the table iff it was handed
    out once more than it was taken back. *)
Theorem C43_table : forall es s, only_locking es -> arun true es start = AOk s -> quiet s ->
  forall a, (tget (tbl s) a <> None <-> made s a = freed s a + 1) /\ (tget (tbl s) a = None <-> made s a = freed s a).
Proof. exact table_is. Qed.
Print Assumptions C43_table.
(** As long as no freeFunction has failed the mutex is given back and nobody is
    stuck. *)
Theorem C43_released : forall win es s, arun win es start = AOk s -> no_failed_free s -> quiet s -> lk s = None.
Proof. exact released. Qed.
Print Assumptions C43_released.
Theorem C43_progress : forall es s, only_locking es -> arun true es start = AOk s -> no_failed_free s ->
  (forall t, inside (pc s t) = true -> forall ok, exists s', astep true t (Go ok) s = AOk s') /\
  (quiet s -> forall t, waiting (pc s t) = true -> forall ok, exists s', astep true t (Go ok) s = AOk s').
Proof. exact progress. Qed.
Print Assumptions C43_progress.
(** The only undefined step is locking again after one's own failed freeFunction. *)
Theorem C43_only_relock : forall es s t x f, only_locking es -> arun true es start = AOk s -> locking x = true -> astep true t x s = AFault f ->
  f = FRelock /\ exists c r, In (t, c, r) (tr s) /\ failed_free (t, c, r) = true.
Proof. exact no_fault. Qed.
Print Assumptions C43_only_relock.
(** One freeFunction by itself: an address that is in the table is given back,
    with its entry and nothing else; for any other argument, an int or not,
    ValueError. Nothing that is not an address is ever in the table. *)
Theorem C43_free : forall s t addr p v, pc s t = PIdle -> lk s = None -> points addr p -> tget (tbl s) p = Some v -> In p (live s) ->
  exists s', arun true ((t, CallFree addr) :: repeat (t, Go true) 6) s = AOk s' /\
    tr s' = (t, CFree p, RDone) :: tr s /\ (forall q, tget (tbl s') q = if p =? q then None else tget (tbl s) q) /\
    (forall q, In q (live s') <-> In q (live s) /\ q <> p) /\ lk s' = None.
Proof. exact free_known. Qed.
Print Assumptions C43_free.
Theorem C43_free_unknown : forall s t addr p, pc s t = PIdle -> lk s = None -> points addr p -> tget (tbl s) p = None ->
  exists s', arun true [(t, CallFree addr); (t, Go true); (t, Go true)] s = AOk s' /\
    tr s' = (t, CFree p, RErr EValueError) :: tr s /\ tbl s' = tbl s /\ live s' = live s /\ lk s' = Some t.
Proof. exact free_unknown. Qed.
Print Assumptions C43_free_unknown.
Theorem C43_no_null : forall es s, only_locking es -> arun true es start = AOk s -> tget (tbl s) 0 = None.
Proof. exact no_null_run. Qed.
Print Assumptions C43_no_null.
(** Once a freeFunction of thread [t] has failed, in every continuation the
    mutex stays locked, no locking call returns, and whoever tries to lock
    blocks for ever ([t] itself: undefined behaviour). *)
Theorem C43_failed_free_refuted : forall es s t c r, arun true es start = AOk s -> In (t, c, r) (tr s) -> failed_free (t, c, r) = true ->
  forall es' s', arun true es' s = AOk s' ->
    lk s' = Some t /\
    (exists new, tr s' = new ++ tr s /\ Forall (fun e => unlocked_return e = true) new) /\
    forall u ok, waiting (pc s' u) = true -> astep true u (Go ok) s' = if Nat.eqb t u then AFault FRelock else ABlocked.
Proof. exact stuck_for_ever. Qed.
Print Assumptions C43_failed_free_refuted.
(** The Fast variants do not lock: two threads can be at the table together. *)
Theorem C43_fast_race_refuted : exists es s, arun true es start = AOk s /\ at_table (pc s 0%nat) = true /\ at_table (pc s 1%nat) = true /\ no_failed_free s.
Proof.
  exists [(0%nat, CallMake (Some [195]) (Some 4096) (Some 4)); (1%nat, CallMakeFast [195] (Some 8192) (Some 4)); (0%nat, Go true)].
  apply arun_gives. vm_compute. split; [reflexivity|]. split; [reflexivity|constructor].
Qed.
Print Assumptions C43_fast_race_refuted.
(** freeFunctionFast gives the block back before it erases the entry; another
    thread can be given the same address in between and loses its entry: the
    address it was handed is then unknown, and freeing it locks the table up. *)
Theorem C43_fast_lost_entry_refuted : exists es s, arun true es start = AOk s /\
  tr s = [(1%nat, CFree 4096, RErr EValueError); (0%nat, CFreeFast 4096, RDone); (1%nat, CMakeFast, RPtr 4096); (0%nat, CMake, RPtr 4096)] /\ lk s = Some 1%nat.
Proof.
  exists [(0%nat, CallMake (Some [195]) (Some 4096) (Some 4)); (0%nat, Go true); (0%nat, Go true); (0%nat, Go true);
          (0%nat, CallFreeFast (PInt 4096)); (0%nat, Go true); (0%nat, Go true); (0%nat, Go true);
          (1%nat, CallMakeFast [195] (Some 4096) (Some 4)); (1%nat, Go true);
          (0%nat, Go true);
          (1%nat, CallFree (PInt 4096)); (1%nat, Go true); (1%nat, Go true)].
  apply arun_gives. vm_compute. split; reflexivity.
Qed.
Print Assumptions C43_fast_lost_entry_refuted.
(** freeFunctionFast of an address that was never handed out enters it into the
    table, where it stays when the call fails; freeFunction then accepts it and
    gives a block back that does not exist. *)
Theorem C43_fast_phantom_refuted : exists es s, arun true es start = AOk s /\
  tr s = [(0%nat, CFreeFast 4096, RErr EOSError)] /\ tget (tbl s) 4096 = Some (0, 0) /\
  arun true [(0%nat, CallFree (PInt 4096)); (0%nat, Go true); (0%nat, Go true); (0%nat, Go true); (0%nat, Go true)] s = AFault FBadFree.
Proof.
  exists [(0%nat, CallFreeFast (PInt 4096)); (0%nat, Go true); (0%nat, Go false)].
  apply arun_gives. vm_compute. split; [reflexivity|]. split; reflexivity.
Qed.
Print Assumptions C43_fast_phantom_refuted.
(** Elsewhere than on Windows every call raises NotImplementedError. *)
Theorem C43_not_windows : forall es s, arun false es start = AOk s ->
  tbl s = [] /\ live s = [] /\ lk s = None /\ Forall (fun e => snd e = RErr ENotImplemented) (tr s).
Proof. exact not_windows. Qed.
Print Assumptions C43_not_windows.

(** Two threads make and free functions, one waiting for the other. *)
Definition two_threads : list (nat * act) :=
  [(0%nat, CallMake (Some [195]) (Some 4096) (Some 4)); (1%nat, CallMake (Some [144; 195]) (Some 8192) (Some 4)); (0%nat, Go true)].
Example C43_example_waits : exists s, arun true two_threads start = AOk s /\ inside (pc s 0%nat) = true /\ waiting (pc s 1%nat) = true /\ astep true 1%nat (Go true) s = ABlocked.
Proof. apply arun_gives. vm_compute. split; [reflexivity|]. split; reflexivity. Qed.
Example C43_example_done : exists s, arun true (two_threads ++ [(0%nat, Go true); (0%nat, Go true); (1%nat, Go true); (1%nat, Go true); (1%nat, Go true); (0%nat, CallFree (PInt 8192)); (0%nat, Go true); (0%nat, Go true); (0%nat, Go true); (0%nat, Go true); (0%nat, Go true); (0%nat, Go true)]) start = AOk s /\
  only_locking two_threads /\ tbl s = [(4096, (1, 4))] /\ live s = [4096] /\ lk s = None /\
  tr s = [(0%nat, CFree 8192, RDone); (1%nat, CMake, RPtr 8192); (0%nat, CMake, RPtr 4096)].
Proof. apply arun_gives. vm_compute. split; [repeat constructor|]. split; [reflexivity|]. split; [reflexivity|]. split; reflexivity. Qed.
(** freeFunction with a negative int, and with a string. *)
Example C43_free_ex : points (PInt (-4096)) (2 ^ 64 - 4096) /\ points (PObj 5) 0 /\
  exists s, arun true [(0%nat, CallMake (Some [195]) (Some (2 ^ 64 - 4096)) (Some 4)); (0%nat, Go true); (0%nat, Go true); (0%nat, Go true)] start = AOk s /\
    pc s 0%nat = PIdle /\ lk s = None /\ tget (tbl s) (2 ^ 64 - 4096) = Some (1, 4) /\ In (2 ^ 64 - 4096) (live s) /\ tget (tbl s) 0 = None.
Proof.
  split; [left; split; [split; [discriminate | reflexivity] | reflexivity]|]. split; [reflexivity|].
  apply arun_gives. vm_compute. split; [reflexivity|]. split; [reflexivity|]. split; [reflexivity|]. split; [left|]; reflexivity.
Qed.
(** A failed free, and the table is locked for good. *)
Example C43_example_failed : exists s, arun true [(0%nat, CallFree (PInt 4096)); (0%nat, Go true); (0%nat, Go true); (1%nat, CallFree (PInt 4096))] start = AOk s /\
  In (0%nat, CFree 4096, RErr EValueError) (tr s) /\ astep true 1%nat (Go true) s = ABlocked.
Proof. apply arun_gives. vm_compute. split; [left; reflexivity|reflexivity]. Qed.

(** * C44 *)
Local Open Scope nat_scope.
(** Two workers are never in tasks at the same time. *)
Theorem C44_one_task : forall n s i j k l, reachable n s -> running (p_w s i) = Some k -> running (p_w s j) = Some l -> i = j.
Proof. exact one_task. Qed.
Print Assumptions C44_one_task.
(** Tasks begin in the order in which they were queued, each at most once. *)
Theorem C44_fifo : forall n s, reachable n s -> p_pushed s = p_ran s ++ taken n s ++ p_queue s /\ NoDup (p_pushed s).
Proof. exact fifo. Qed.
Print Assumptions C44_fifo.
(** A task begins, and ends, only while its submit call stands between
    unlocking the mutex and destroying the task. *)
Theorem C44_window : forall n s i k s', reachable n s -> running (p_w s i) = Some k -> pstep n (TWork i) s = POk s' -> exists j, p_s s j = SDestroy k.
Proof. exact runs_in_window. Qed.
Print Assumptions C44_window.
(** A task whose submit has returned before it began never begins; the worker
    that takes it uses a destroyed object. *)
Theorem C44_returned_never_begins : forall n s k xs s', reachable n s -> k < p_next s -> ~ submitting s k -> prun n xs s = POk s' -> In k (p_ran s') -> In k (p_ran s).
Proof. exact returned_never_begins. Qed.
Print Assumptions C44_returned_never_begins.
(** If the queue is refused memory, submit lets go of the mutex, leaves the
    queue, the workers and all other calls alone, wakes nobody, breaks its future, and the
    task never runs. *)
Theorem C44_submit_refused : forall n s j k, reachable n s -> p_s s j = SPush k ->
  exists s', prun n [TRefuse j; TSub j None; TSub j None] s = POk s' /\
    p_mutex s' = None /\ p_queue s' = p_queue s /\ p_pushed s' = p_pushed s /\ p_w s' = p_w s /\ p_d s' = p_d s /\
    (forall i, p_s s' i = if Nat.eqb i j then SIdle else p_s s i) /\ p_fut s' k = FBroken /\
    forall xs s2, prun n xs s' = POk s2 -> ~ In k (p_ran s2).
Proof. exact submit_refused. Qed.
Print Assumptions C44_submit_refused.
Theorem C44_dangling : forall n s i k, reachable n s -> ~ submitting s k -> p_w s i = WInvoke k -> pstep n (TWork i) s = PFault PDangling.
Proof. exact dangles. Qed.
Print Assumptions C44_dangling.
(** Whatever the number of workers, one submit is enough. *)
Theorem C44_dangling_refuted : forall n, 0 < n ->
  prun n [TWork 0; TWork 0; TSubmit 0 false; TSub 0 None; TSub 0 None; TSub 0 (Some 0); TSub 0 None; TSub 0 None; TWork 0; TWork 0; TWork 0] pool0 = PFault PDangling.
Proof. intros [|n] L; [inversion L|]. reflexivity. Qed.
Print Assumptions C44_dangling_refuted.
(** When submit has returned the future is settled: ready if the task was run
    in the window, broken if not. It is never pending. *)
Theorem C44_future : forall n s k, reachable n s -> k < p_next s -> ~ submitting s k ->
  (p_fut s k = FReady /\ In k (p_ran s)) \/ p_fut s k = FBroken.
Proof. exact future_settled. Qed.
Print Assumptions C44_future.
(** After shutdown is set no task begins, whatever is left in the queue. *)
Theorem C44_shutdown : forall n s xs s', reachable n s -> p_shut s = true -> prun n xs s = POk s' -> p_shut s' = true /\ p_ran s' = p_ran s.
Proof. exact nothing_after_shutdown. Qed.
Print Assumptions C44_shutdown.
(** A task that submits to the same pool locks a mutex its worker holds;
    until then everybody else waits. *)
Theorem C44_self_submit_refuted : forall n s i k, reachable n s -> p_w s i = WBody k -> p_self s k = true ->
  pstep n (TWork i) s = PFault PRelock /\
  forall xs s', prun n xs s = POk s' -> p_mutex s' = Some (HW i) /\ p_w s' i = WBody k /\ p_ran s' = p_ran s /\
    (forall j w q, p_s s' j = SLock q -> pstep n (TSub j w) s' = PBlocked) /\
    (forall j, In (p_w s' j) [WLock; WWoken] -> pstep n (TWork j) s' = PBlocked) /\
    (p_d s' = DLock -> pstep n TDest s' = PBlocked).
Proof. exact self_submit. Qed.
Print Assumptions C44_self_submit_refuted.
(** No wake-up is lost, and nobody blocks while holding the mutex. *)
Theorem C44_no_lost_wakeup : forall n s, reachable n s -> p_shut s = false -> p_queue s <> [] -> 0 < n -> p_mutex s = None ->
  exists i, i < n /\ pstep n (TWork i) s <> PBlocked.
Proof. exact nobody_forgotten. Qed.
Print Assumptions C44_no_lost_wakeup.
Theorem C44_holder_moves : forall n s h, reachable n s -> p_mutex s = Some h ->
  exists x, In x (match h with HW i => [TWork i] | HS j => TSub j None :: map (fun i => TSub j (Some i)) (seq 0 n) | HD => [TDest] end) /\ pstep n x s <> PBlocked.
Proof. exact holder_moves. Qed.
Print Assumptions C44_holder_moves.
(** The destructor's join comes to an end: every worker can go on until it has
    left, then join returns. *)
Theorem C44_join : forall n s, reachable n s -> p_d s = DJoin -> p_mutex s = None ->
  (forall i, i < n -> p_w s i <> WDone -> pstep n (TWork i) s <> PBlocked) /\
  ((forall i, i < n -> p_w s i = WDone) -> pstep n TDest s <> PBlocked).
Proof. exact join_returns. Qed.
Print Assumptions C44_join.

(** A task that is run: the worker gets the mutex before submit destroys it. *)
Definition lucky : list pact :=
  [TSubmit 0 false; TSub 0 None; TSub 0 None; TSub 0 None; TSub 0 None; TWork 0; TWork 0; TWork 0; TWork 0; TSub 0 None; TWork 0].
Example C44_example_lucky : exists s, prun 2 lucky pool0 = POk s /\ p_ran s = [0] /\ p_fut s 0 = FReady /\ p_queue s = [] /\ ~ submitting s 0.
Proof.
  apply prun_gives. vm_compute. split; [reflexivity|]. split; [reflexivity|]. split; [reflexivity|].
  intros (j & H). cbn in H. unfold setf in H. destruct j; cbn in H; intuition discriminate.
Qed.
(** A self-submitting task inside its body. *)
Example C44_example_self : exists s, prun 2 [TSubmit 0 true; TSub 0 None; TSub 0 None; TSub 0 None; TSub 0 None; TWork 1; TWork 1; TWork 1] pool0 = POk s /\ p_w s 1 = WBody 0 /\ p_self s 0 = true.
Proof. apply prun_gives. vm_compute. split; reflexivity. Qed.
(** Destruction with a task still queued: it is not run, join returns. *)
Definition destroyed : list pact :=
  [TSubmit 0 false; TSub 0 None; TSub 0 None; TSub 0 None; TSub 0 None; TSub 0 None; TDestroy; TDest; TDest; TDest; TDest; TWork 0; TWork 0; TWork 0; TDest].
Example C44_example_destroyed : exists s, prun 1 destroyed pool0 = POk s /\ p_d s = DDone /\ p_queue s = [0] /\ p_ran s = [] /\ p_fut s 0 = FBroken.
Proof. apply prun_gives. vm_compute. split; [reflexivity|]. split; [reflexivity|]. split; reflexivity. Qed.
(** A queued task and a sleeping worker that has been woken. *)
Example C44_example_queue : exists s, prun 2 [TWork 0; TWork 0; TSubmit 0 false; TSub 0 None; TSub 0 None; TSub 0 (Some 0); TSub 0 None] pool0 = POk s /\
  p_queue s = [0] /\ p_mutex s = None /\ p_shut s = false /\ p_w s 0 = WWoken /\ submitting s 0.
Proof. apply prun_gives. vm_compute. split; [reflexivity|]. split; [reflexivity|]. split; [reflexivity|]. split; [reflexivity|]. exists 0. cbn. tauto. Qed.
(** One submit refused, the next one runs. *)
Example C44_example_refused : exists s, prun 1 [TSubmit 0 false; TSub 0 None; TRefuse 0; TSub 0 None; TSub 0 None;
    TSubmit 0 false; TSub 0 None; TSub 0 None; TSub 0 None; TSub 0 None; TWork 0; TWork 0; TWork 0; TWork 0; TWork 0] pool0 = POk s /\
  p_ran s = [1] /\ p_fut s 0 = FBroken /\ p_fut s 1 = FReady /\ p_queue s = [].
Proof. eexists. split; [vm_compute; reflexivity|]. repeat split. Qed.
