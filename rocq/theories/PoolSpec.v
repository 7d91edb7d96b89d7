(** Specification vocabulary for the thread pool. *)
From Coq Require Import List Bool Arith.
From Verif Require Import PoolModel.
Import ListNotations.

(** A state some interleaving reaches with [n] workers. *)
Definition reachable (n : nat) (s : pool) : Prop := exists xs, prun n xs pool0 = POk s.

(** The call of submit that made task [k] has not returned. *)
Definition submitting (s : pool) (k : nat) : Prop :=
  exists j, In (p_s s j) [SLock k; SPush k; SNotify k; SUnlock k; SDestroy k].

(** A worker is executing, or about to execute, a task. *)
Definition running (p : wpc) : option nat := match p with WInvoke k | WBody k => Some k | _ => None end.

(** Taken from the queue but not begun. *)
Definition taken (n : nat) (s : pool) : list nat :=
  flat_map (fun i => match p_w s i with WInvoke k => [k] | _ => [] end) (seq 0 n).

(** Which thread an action belongs to. *)
Definition of_worker (i : nat) (x : pact) : bool := match x with TWork j => Nat.eqb i j | _ => false end.

(** Not asleep. *)
Definition awake (p : wpc) : bool := match p with WSleep | WDone => false | _ => true end.
