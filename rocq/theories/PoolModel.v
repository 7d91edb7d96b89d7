(** ScheduledThreadPool (utils/thread/ScheduledThreadPool.h and .cpp) under
    any interleaving of its workers, of threads that submit, and of the
    destructor. Despite the name tasks carry no due time: the queue is plain.

    Steps are cut at the mutex, the condition variable and the task object. A
    task is the number of the submit call that made it; its packaged_task is a
    local variable of that call. Simplifications: a task's result is left out
    (packaged_task stores exceptions, so bodies always end); the queue
    may be refused memory, which leaves it as it was (std::deque), and a
    packaged_task that is refused its own (.h 25, 39) throws before anything
    is touched and is no step; the threads' creation is in PoolMakeModel; calling submit during
    or after destruction is not excluded (the language already forbids it). *)
From Coq Require Import ZArith List Bool Arith.
Import ListNotations.

(** worker(), .cpp 15-29. [WSleep]: in wait(), the mutex released; [WWoken]:
    about to take it back; [WInvoke k]: popped; [WBody k]: inside task(). *)
Inductive wpc := WLock | WTest | WSleep | WWoken | WInvoke (k : nat) | WBody (k : nat) | WEnd | WExit | WDone.
(** submit, .h 23-48: locals are destroyed in reverse order, so the lock goes
    before the task ([SDestroy k]: unlocked, task about to be destroyed). *)
Inductive spc := SIdle | SLock (k : nat) | SPush (k : nat) | SNotify (k : nat) | SUnlock (k : nat) | SDestroy (k : nat).
(** ~ScheduledThreadPool, .cpp 39-51. *)
Inductive dpc := DNone | DLock | DSet | DUnlock | DNotify | DJoin | DDone.
Inductive holder := HW (i : nat) | HS (j : nat) | HD.
Inductive future := FPending | FReady | FBroken.

Record pool := {
  p_mutex : option holder;
  p_queue : list nat;
  p_shut : bool;
  p_w : nat -> wpc;
  p_s : nat -> spc;
  p_d : dpc;
  p_next : nat;                (* number of submit calls begun *)
  p_alive : nat -> bool;       (* the packaged_task exists *)
  p_self : nat -> bool;        (* the body submits to this pool *)
  p_fut : nat -> future;
  p_pushed : list nat;         (* order of entry into the queue *)
  p_ran : list nat             (* order of bodies begun *)
}.

Definition pool0 : pool :=
  {| p_mutex := None; p_queue := []; p_shut := false; p_w := fun _ => WLock; p_s := fun _ => SIdle; p_d := DNone; p_next := 0;
     p_alive := fun _ => false; p_self := fun _ => false; p_fut := fun _ => FPending; p_pushed := []; p_ran := [] |}.

Definition setf {A} (f : nat -> A) (i : nat) (x : A) : nat -> A := fun j => if Nat.eqb j i then x else f j.

Definition with_mutex (s : pool) (m : option holder) := {| p_mutex := m; p_queue := p_queue s; p_shut := p_shut s; p_w := p_w s; p_s := p_s s; p_d := p_d s; p_next := p_next s; p_alive := p_alive s; p_self := p_self s; p_fut := p_fut s; p_pushed := p_pushed s; p_ran := p_ran s |}.
Definition with_queue (s : pool) (q : list nat) := {| p_mutex := p_mutex s; p_queue := q; p_shut := p_shut s; p_w := p_w s; p_s := p_s s; p_d := p_d s; p_next := p_next s; p_alive := p_alive s; p_self := p_self s; p_fut := p_fut s; p_pushed := p_pushed s; p_ran := p_ran s |}.
Definition with_shut (s : pool) := {| p_mutex := p_mutex s; p_queue := p_queue s; p_shut := true; p_w := p_w s; p_s := p_s s; p_d := p_d s; p_next := p_next s; p_alive := p_alive s; p_self := p_self s; p_fut := p_fut s; p_pushed := p_pushed s; p_ran := p_ran s |}.
Definition with_w (s : pool) (w : nat -> wpc) := {| p_mutex := p_mutex s; p_queue := p_queue s; p_shut := p_shut s; p_w := w; p_s := p_s s; p_d := p_d s; p_next := p_next s; p_alive := p_alive s; p_self := p_self s; p_fut := p_fut s; p_pushed := p_pushed s; p_ran := p_ran s |}.
Definition with_s (s : pool) (x : nat -> spc) := {| p_mutex := p_mutex s; p_queue := p_queue s; p_shut := p_shut s; p_w := p_w s; p_s := x; p_d := p_d s; p_next := p_next s; p_alive := p_alive s; p_self := p_self s; p_fut := p_fut s; p_pushed := p_pushed s; p_ran := p_ran s |}.
Definition with_d (s : pool) (d : dpc) := {| p_mutex := p_mutex s; p_queue := p_queue s; p_shut := p_shut s; p_w := p_w s; p_s := p_s s; p_d := d; p_next := p_next s; p_alive := p_alive s; p_self := p_self s; p_fut := p_fut s; p_pushed := p_pushed s; p_ran := p_ran s |}.
(** A new packaged_task and its future. *)
Definition with_task (s : pool) (self : bool) := {| p_mutex := p_mutex s; p_queue := p_queue s; p_shut := p_shut s; p_w := p_w s; p_s := p_s s; p_d := p_d s; p_next := S (p_next s); p_alive := setf (p_alive s) (p_next s) true; p_self := setf (p_self s) (p_next s) self; p_fut := p_fut s; p_pushed := p_pushed s; p_ran := p_ran s |}.
Definition with_pushed (s : pool) (k : nat) := {| p_mutex := p_mutex s; p_queue := p_queue s ++ [k]; p_shut := p_shut s; p_w := p_w s; p_s := p_s s; p_d := p_d s; p_next := p_next s; p_alive := p_alive s; p_self := p_self s; p_fut := p_fut s; p_pushed := p_pushed s ++ [k]; p_ran := p_ran s |}.
Definition with_ran (s : pool) (k : nat) := {| p_mutex := p_mutex s; p_queue := p_queue s; p_shut := p_shut s; p_w := p_w s; p_s := p_s s; p_d := p_d s; p_next := p_next s; p_alive := p_alive s; p_self := p_self s; p_fut := p_fut s; p_pushed := p_pushed s; p_ran := p_ran s ++ [k] |}.
Definition with_fut (s : pool) (k : nat) (f : future) := {| p_mutex := p_mutex s; p_queue := p_queue s; p_shut := p_shut s; p_w := p_w s; p_s := p_s s; p_d := p_d s; p_next := p_next s; p_alive := p_alive s; p_self := p_self s; p_fut := setf (p_fut s) k f; p_pushed := p_pushed s; p_ran := p_ran s |}.
Definition with_dead (s : pool) (k : nat) := {| p_mutex := p_mutex s; p_queue := p_queue s; p_shut := p_shut s; p_w := p_w s; p_s := p_s s; p_d := p_d s; p_next := p_next s; p_alive := setf (p_alive s) k false; p_self := p_self s; p_fut := p_fut s; p_pushed := p_pushed s; p_ran := p_ran s |}.

Definition wgo (s : pool) (i : nat) (p : wpc) : pool := with_w s (setf (p_w s) i p).
Definition sgo (s : pool) (j : nat) (p : spc) : pool := with_s s (setf (p_s s) j p).

(** [PRelock]: a thread locks the mutex it holds; [PDangling]: the reference
    to a destroyed task object is used. *)
Inductive pfault := PRelock | PDangling.
Inductive pres := POk (s : pool) | PBlocked | PFault (f : pfault).

Inductive pact :=
| TSubmit (j : nat) (self : bool)     (* thread j calls submit *)
| TSub (j : nat) (w : option nat)     (* ... and goes on; w: the worker notify_one wakes *)
| TWork (i : nat)                     (* worker i goes on *)
| TSpurious (i : nat)                 (* worker i wakes up by itself *)
| TDestroy                            (* the destructor is called *)
| TDest                               (* ... and goes on *)
| TRefuse (j : nat).                  (* thread j in submit finds no memory for the queue: std::bad_alloc *)

Definition asleep (s : pool) (i : nat) : bool := match p_w s i with WSleep => true | _ => false end.
(** notify_one: some sleeping worker, if there is one. *)
Definition notify_one (n : nat) (s : pool) (w : option nat) : option pool :=
  match w with
  | Some i => if Nat.ltb i n && asleep s i then Some (wgo s i WWoken) else None
  | None => if existsb (asleep s) (seq 0 n) then None else Some s
  end.
Definition notify_all (s : pool) : pool := with_w s (fun i => match p_w s i with WSleep => WWoken | p => p end).

(** [n]: number of workers. *)
Definition pstep (n : nat) (x : pact) (s : pool) : pres :=
  match x with
  | TSubmit j self =>
      match p_s s j with SIdle => POk (sgo (with_task s self) j (SLock (p_next s))) | _ => PBlocked end
  | TSub j w =>
      match p_s s j with
      | SIdle => PBlocked
      | SLock k => match p_mutex s with None => POk (sgo (with_mutex s (Some (HS j))) j (SPush k)) | Some _ => PBlocked end
      | SPush k => POk (sgo (with_pushed s k) j (SNotify k))
      | SNotify k => match notify_one n s w with Some s' => POk (sgo s' j (SUnlock k)) | None => PBlocked end
      | SUnlock k => POk (sgo (with_mutex s None) j (SDestroy k))
      | SDestroy k => POk (sgo (with_dead (match p_fut s k with FPending => with_fut s k FBroken | _ => s end) k) j SIdle)
      end
  | TWork i =>
      if negb (Nat.ltb i n) then PBlocked else
      match p_w s i with
      | WLock | WWoken => match p_mutex s with None => POk (wgo (with_mutex s (Some (HW i))) i WTest) | Some _ => PBlocked end
      | WTest =>
          if p_shut s then POk (wgo s i WExit)
          else match p_queue s with
               | [] => POk (wgo (with_mutex s None) i WSleep)
               | k :: q => POk (wgo (with_queue s q) i (WInvoke k))
               end
      | WSleep => PBlocked
      | WInvoke k => if p_alive s k then POk (wgo (with_ran s k) i (WBody k)) else PFault PDangling
      | WBody k =>
          if p_self s k then PFault PRelock                   (* submit locks the mutex this worker holds *)
          else if p_alive s k then POk (wgo (with_fut s k FReady) i WEnd) else PFault PDangling
      | WEnd => POk (wgo (with_mutex s None) i WLock)
      | WExit => POk (wgo (with_mutex s None) i WDone)
      | WDone => PBlocked
      end
  | TSpurious i => if Nat.ltb i n && asleep s i then POk (wgo s i WWoken) else PBlocked
  | TDestroy => match p_d s with DNone => POk (with_d s DLock) | _ => PBlocked end
  | TDest =>
      match p_d s with
      | DNone | DDone => PBlocked
      | DLock => match p_mutex s with None => POk (with_d (with_mutex s (Some HD)) DSet) | Some _ => PBlocked end
      | DSet => POk (with_d (with_shut s) DUnlock)
      | DUnlock => POk (with_d (with_mutex s None) DNotify)
      | DNotify => POk (with_d (notify_all s) DJoin)
      | DJoin => if forallb (fun i => match p_w s i with WDone => true | _ => false end) (seq 0 n) then POk (with_d s DDone) else PBlocked
      end
  (* the lock_guard unlocks, then the task and its future are destroyed *)
  | TRefuse j => match p_s s j with SPush k => POk (sgo s j (SUnlock k)) | _ => PBlocked end
  end.

Fixpoint prun (n : nat) (xs : list pact) (s : pool) : pres :=
  match xs with
  | [] => POk s
  | x :: r => match pstep n x s with POk s' => prun n r s' | b => b end
  end.
