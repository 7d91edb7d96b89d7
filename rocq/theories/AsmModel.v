(** The JIT function table (unsafe/ASM.cpp 14-15, 173-320) under any
    interleaving of threads.

    A call is cut at the mutex operations and at the accesses to the shared
    table. What the allocator and VirtualProtect answer is an input of the
    step. Simplifications: nothing is assumed about the GIL (the methods never
    release it, so an ordinary build allows fewer interleavings and a thread
    that blocks in lock() also stops every other Python thread); [run] and
    [runFast] do not touch the table or the lock and are left out; the bytes of
    the code are not stored; std::bad_alloc by the table itself is in AsmMapModel. *)
From Coq Require Import ZArith List Bool Arith.
From Verif Require Import Base UnsafeModel.
Import ListNotations.
Local Open Scope Z_scope.

(** address -> (size, old protection). *)
Definition table := list (Z * (Z * Z)).
Fixpoint tget (m : table) (a : Z) : option (Z * Z) :=
  match m with [] => None | (k, v) :: r => if k =? a then Some v else tget r a end.
Definition terase (m : table) (a : Z) : table := filter (fun e => negb (fst e =? a)) m.
Definition tput (m : table) (a : Z) (v : Z * Z) : table := (a, v) :: terase m a.

Inductive aexn := ETypeError | EValueError | EMemoryError | EOSError | ENotImplemented.
Inductive aret := RPtr (a : Z) | RDone | RErr (e : aexn).
Inductive acall := CMake | CMakeFast | CFree (a : Z) | CFreeFast (a : Z).

(** Where a thread is. *)
Inductive apc :=
| PIdle
(* makeFunction 215, 218, 220 *)
| PMakeLock (a : Z) (v : Z * Z) | PMakeInsert (a : Z) (v : Z * Z) | PMakeUnlock (a : Z)
(* freeFunction 270, 273, 284, 289, 290, 292 *)
| PFreeLock (a : Z) | PFreeLookup (a : Z) | PFreeProtect (a : Z) | PFreeRelease (a : Z) | PFreeErase (a : Z) | PFreeUnlock (a : Z)
(* makeFunctionFast 251; freeFunctionFast 304, 306, 312, 313 *)
| PFastInsert (a : Z) (v : Z * Z) | PFastLookup (a : Z) | PFastProtect (a : Z) | PFastRelease (a : Z) | PFastErase (a : Z).

(** [lk]: the thread that locked the mutex; [live]: blocks from alignedAlloc;
    [tr]: the calls that returned, latest first. *)
Record astate := { lk : option nat; tbl : table; live : list Z; pc : nat -> apc; tr : list (nat * acall * aret) }.
Definition start : astate := {| lk := None; tbl := []; live := []; pc := fun _ => PIdle; tr := [] |}.

Definition setpc (f : nat -> apc) (t : nat) (p : apc) : nat -> apc := fun u => if Nat.eqb u t then p else f u.
Definition goto (s : astate) (t : nat) (p : apc) : astate := {| lk := lk s; tbl := tbl s; live := live s; pc := setpc (pc s) t p; tr := tr s |}.
Definition return_ (s : astate) (t : nat) (c : acall) (r : aret) : astate :=
  {| lk := lk s; tbl := tbl s; live := live s; pc := setpc (pc s) t PIdle; tr := (t, c, r) :: tr s |}.
Definition with_lk (s : astate) (l : option nat) : astate := {| lk := l; tbl := tbl s; live := live s; pc := pc s; tr := tr s |}.
Definition with_tbl (s : astate) (m : table) : astate := {| lk := lk s; tbl := m; live := live s; pc := pc s; tr := tr s |}.
Definition with_live (s : astate) (l : list Z) : astate := {| lk := lk s; tbl := tbl s; live := l; pc := pc s; tr := tr s |}.

(** [FRelock]: locking a std::mutex the thread already holds; [FBadFree]:
    alignedFree of something not allocated; [FAssert]: the assertion in
    makeFunction (217) fails. *)
Inductive afault := FRelock | FBadFree | FAssert.
Inductive ares := AOk (s : astate) | ABlocked | AFault (f : afault).

(** What a thread does next: begin a call, or go on with the one it is in;
    [ok]: VirtualProtect succeeds. *)
Inductive act :=
| CallMake (code : option (list Z)) (alloc : option Z) (prot : option Z)
| CallMakeFast (code : list Z) (alloc : option Z) (prot : option Z)
| CallFree (addr : pyobj)
| CallFreeFast (addr : pyobj)
| Go (ok : bool).

Definition mem_z (a : Z) (l : list Z) : bool := existsb (Z.eqb a) l.
(** alignedAlloc: a fresh address or std::bad_alloc. *)
Definition fresh_block (l : list Z) (o : option Z) : option Z :=
  match o with Some a => if (0 <? a) && negb (mem_z a l) then o else None | None => None end.
(** alignedFree. *)
Definition release_block (l : list Z) (a : Z) : list Z := filter (fun x => negb (x =? a)) l.

(** PyLong_AsVoidPtr, whose failure is not looked at (266, 303). *)
Definition target_of (addr : pyobj) : Z := match as_ptr addr with Ret a => a | _ => 0 end.

(** std::mutex::lock. *)
Definition lock_then (s : astate) (t : nat) (p : apc) : ares :=
  match lk s with
  | None => AOk (goto (with_lk s (Some t)) t p)
  | Some u => if Nat.eqb u t then AFault FRelock else ABlocked
  end.

(** Both makers up to the table (173-213, 228-249). *)
Definition begin_make (s : astate) (t : nat) (c : acall) (size : Z) (alloc prot : option Z) (next : Z -> Z * Z -> apc) : ares :=
  match fresh_block (live s) alloc with
  | None => AOk (return_ s t c (RErr EMemoryError))
  | Some a =>
      match prot with
      | None => AOk (return_ s t c (RErr EOSError))
      | Some p => AOk (goto (with_live s (a :: live s)) t (next a (size, p)))
      end
  end.

Definition astep (win : bool) (t : nat) (x : act) (s : astate) : ares :=
  match pc s t, x with
  | PIdle, Go _ => ABlocked
  | PIdle, CallMake code alloc prot =>
      if negb win then AOk (return_ s t CMake (RErr ENotImplemented))
      else match code with
           | None => AOk (return_ s t CMake (RErr ETypeError))
           | Some b => if zlen b =? 0 then AOk (return_ s t CMake (RErr EValueError))
                       else begin_make s t CMake (zlen b) alloc prot PMakeLock
           end
  | PIdle, CallMakeFast b alloc prot =>
      if negb win then AOk (return_ s t CMakeFast (RErr ENotImplemented))
      else begin_make s t CMakeFast (zlen b) alloc prot PFastInsert
  | PIdle, CallFree addr =>
      if negb win then AOk (return_ s t (CFree (target_of addr)) (RErr ENotImplemented)) else AOk (goto s t (PFreeLock (target_of addr)))
  | PIdle, CallFreeFast addr =>
      if negb win then AOk (return_ s t (CFreeFast (target_of addr)) (RErr ENotImplemented)) else AOk (goto s t (PFastLookup (target_of addr)))
  (* makeFunction *)
  | PMakeLock a v, Go _ => lock_then s t (PMakeInsert a v)
  | PMakeInsert a v, Go _ =>
      match tget (tbl s) a with
      | Some _ => AFault FAssert
      | None => AOk (goto (with_tbl s (tput (tbl s) a v)) t (PMakeUnlock a))
      end
  | PMakeUnlock a, Go _ => AOk (return_ (with_lk s None) t CMake (RPtr a))
  (* freeFunction *)
  | PFreeLock a, Go _ => lock_then s t (PFreeLookup a)
  | PFreeLookup a, Go _ =>
      match tget (tbl s) a with
      | None => AOk (return_ s t (CFree a) (RErr EValueError))
      | Some _ => AOk (goto s t (PFreeProtect a))
      end
  | PFreeProtect a, Go ok => if ok then AOk (goto s t (PFreeRelease a)) else AOk (return_ s t (CFree a) (RErr EOSError))
  | PFreeRelease a, Go _ =>
      if mem_z a (live s) then AOk (goto (with_live s (release_block (live s) a)) t (PFreeErase a)) else AFault FBadFree
  | PFreeErase a, Go _ => AOk (goto (with_tbl s (terase (tbl s) a)) t (PFreeUnlock a))
  | PFreeUnlock a, Go _ => AOk (return_ (with_lk s None) t (CFree a) RDone)
  (* makeFunctionFast *)
  | PFastInsert a v, Go _ => AOk (return_ (with_tbl s (tput (tbl s) a v)) t CMakeFast (RPtr a))
  (* freeFunctionFast *)
  | PFastLookup a, Go _ =>
      let m := match tget (tbl s) a with None => tput (tbl s) a (0, 0) | Some _ => tbl s end in
      AOk (goto (with_tbl s m) t (PFastProtect a))
  | PFastProtect a, Go ok => if ok then AOk (goto s t (PFastRelease a)) else AOk (return_ s t (CFreeFast a) (RErr EOSError))
  | PFastRelease a, Go _ =>
      if mem_z a (live s) then AOk (goto (with_live s (release_block (live s) a)) t (PFastErase a)) else AFault FBadFree
  | PFastErase a, Go _ => AOk (return_ (with_tbl s (terase (tbl s) a)) t (CFreeFast a) RDone)
  | _, _ => ABlocked
  end.

Fixpoint arun (win : bool) (es : list (nat * act)) (s : astate) : ares :=
  match es with
  | [] => AOk s
  | (t, x) :: r => match astep win t x s with AOk s' => arun win r s' | b => b end
  end.
