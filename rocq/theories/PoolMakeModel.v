(** The constructors of ScheduledThreadPool (utils/thread/ScheduledThreadPool.cpp
    7-13, 31-37): the threads start one by one and run while the next ones are
    made. emplace_back fails if the system refuses a thread or memory for the
    vector; nobody catches that, so the members are destroyed in reverse order
    of their declaration (.h 51-55): shutdown, tasksReady, mutex, tasks, threads.

    Simplified: the destructions look at the state in which the exception was
    thrown; the other threads do not go on between them. *)
From Coq Require Import List Bool Arith.
From Verif Require Import PoolModel.
Import ListNotations.

(** [MWaiting]: tasksReady is destroyed under a thread that waits on it;
    [MLocked]: mutex is destroyed while a thread holds it; [MTerminate]: the
    destructor of a joinable std::thread calls std::terminate. *)
Inductive mfault := MWaiting | MLocked | MTerminate.
Inductive mres :=
| MRunning (made : nat) (s : pool)   (* the constructor has made that many threads *)
| MBlocked
| MThrown                            (* the exception leaves the constructor *)
| MFault (f : mfault).

Inductive mact :=
| MNew               (* initThreads: the next thread *)
| MWork (i : nat)    (* thread i goes on *)
| MSpurious (i : nat).

(** Destruction of the members with [made] threads running. *)
Definition unwind (made : nat) (s : pool) : mres :=
  if existsb (asleep s) (seq 0 made) then MFault MWaiting
  else match p_mutex s with
       | Some _ => MFault MLocked
       | None => if Nat.eqb made 0 then MThrown else MFault MTerminate
       end.

(** [granted i]: thread [i] and its place in the vector can be had. *)
Definition mstep (count : nat) (granted : nat -> bool) (x : mact) (made : nat) (s : pool) : mres :=
  match x with
  | MNew => if Nat.ltb made count then (if granted made then MRunning (S made) s else unwind made s) else MBlocked
  | MWork i => match pstep made (TWork i) s with POk s' => MRunning made s' | _ => MBlocked end
  | MSpurious i => match pstep made (TSpurious i) s with POk s' => MRunning made s' | _ => MBlocked end
  end.
Fixpoint mrun (count : nat) (granted : nat -> bool) (xs : list mact) (made : nat) (s : pool) : mres :=
  match xs with
  | [] => MRunning made s
  | x :: r => match mstep count granted x made s with MRunning m s' => mrun count granted r m s' | b => b end
  end.
