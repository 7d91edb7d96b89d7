(** Page protections under unsafe/ASM.cpp (Windows): run 45-115, runFast
    117-171, makeFunction 173-226, makeFunctionFast 228-257, freeFunction
    259-298, freeFunctionFast 300-320, and calling what makeFunction returned
    (Unsafe.callVoid, or a pointer given to native code).

    VirtualProtect works on whole pages: it sets the protection of every page
    the region touches and reports the one the first of them had. Addresses come
    from the allocator, so a page may hold several functions and other data.

    Simplified: one thread (the interleavings are in AsmModel); the machine code
    changes neither memory, protections nor the table, and all of it is run; the
    memory that is written is writable; the answers of the allocator and whether
    VirtualProtect succeeds are inputs. *)
From Coq Require Import ZArith List Bool.
From Verif Require Import Base AsmModel.
Import ListNotations.
Local Open Scope Z_scope.

Definition PAGE : Z := 4096.
(** PAGE_EXECUTE_READWRITE; PAGE_READWRITE. *)
Definition RWX : Z := 64.
Definition RW : Z := 4.
(** PAGE_EXECUTE, _READ, _READWRITE, _WRITECOPY. *)
Definition executable (p : Z) : bool := (p =? 16) || (p =? 32) || (p =? 64) || (p =? 128).

(** [prot]: protection by page number; [blocks]: what alignedAlloc handed out,
    with its contents; [tbl]: map; [locked]: the mutex. *)
Record pst := { prot : Z -> Z; blocks : list (Z * list Z); tbl : table; locked : bool }.
Definition with_prot (f : Z -> Z) (s : pst) : pst := {| prot := f; blocks := blocks s; tbl := tbl s; locked := locked s |}.
Definition with_blocks (b : list (Z * list Z)) (s : pst) : pst := {| prot := prot s; blocks := b; tbl := tbl s; locked := locked s |}.
Definition with_tbl (t : table) (s : pst) : pst := {| prot := prot s; blocks := blocks s; tbl := t; locked := locked s |}.
Definition with_lock (b : bool) (s : pst) : pst := {| prot := prot s; blocks := blocks s; tbl := tbl s; locked := b |}.

Definition in_pages (a n q : Z) : bool := (a / PAGE <=? q) && (q <=? (a + n - 1) / PAGE).
(** VirtualProtect(a, n, p, &old): fails for an empty region, or when [ok] says so. *)
Definition virtual_protect (ok : bool) (a n p : Z) (s : pst) : option (Z * pst) :=
  if ok && (0 <? n)
  then Some (prot s (a / PAGE), with_prot (fun q => if in_pages a n q then p else prot s q) s)
  else None.

(** alignedAlloc: 16-byte aligned memory apart from what is allocated, or std::bad_alloc. *)
Definition overlaps (a n b m : Z) : bool := (a <? b + m) && (b <? a + n).
Definition aligned_alloc (answer : option Z) (code : list Z) (s : pst) : option (Z * pst) :=
  match answer with
  | Some a => if (0 <? a) && (a mod 16 =? 0) && forallb (fun e => negb (fst e =? a) && negb (overlaps a (zlen code) (fst e) (zlen (snd e)))) (blocks s)
              then Some (a, with_blocks ((a, code) :: blocks s) s) else None
  | None => None
  end.
Fixpoint block_at (bs : list (Z * list Z)) (a : Z) : option (list Z) :=
  match bs with [] => None | (k, c) :: r => if k =? a then Some c else block_at r a end.
(** alignedFree *)
Definition aligned_free (a : Z) (s : pst) : option pst :=
  match block_at (blocks s) a with
  | Some _ => Some (with_blocks (filter (fun e => negb (fst e =? a)) (blocks s)) s)
  | None => None
  end.

(** [Ran]: the bytes that were run. [FNoExec]: an instruction on a page that is
    not executable; [FGone]: a call of what is not a function any more;
    [FAssert]: the assertion of makeFunction (217). *)
Inductive fault := FNoExec | FGone | FBadFree | FRelock | FAssert.
Inductive pret := PNone | PPtr (a : Z) | PErr (e : aexn) | PFault (f : fault).
Definition pres : Type := pret * list Z * pst.
(** The pages an instruction is fetched from. *)
Definition can_run (s : pst) (a n : Z) : bool :=
  forallb (fun i => executable (prot s ((a + Z.of_nat i) / PAGE))) (seq 0 (Z.to_nat n)).

(** The end of run and runFast from VirtualProtect on (84-110, 133-149,
    151-163); [free_it]: the code was copied. *)
Definition release (free_it : bool) (a : Z) (r : pret) (ran : list Z) (s : pst) : pres :=
  if free_it then match aligned_free a s with Some s => (r, ran, s) | None => (PFault FBadFree, ran, s) end else (r, ran, s).
Definition run_at (free_it : bool) (a : Z) (code : list Z) (ok1 ok2 : bool) (s : pst) : pres :=
  match virtual_protect ok1 a (zlen code) RWX s with
  | None => release free_it a (PErr EOSError) [] s
  | Some (old, s) =>
      if can_run s a (zlen code) then
        match virtual_protect ok2 a (zlen code) old s with
        | None => release free_it a (PErr EOSError) code s
        | Some (_, s) => release free_it a PNone code s
        end
      else (PFault FNoExec, [], s)
  end.
Definition run_code (at_ : Z) (code : list Z) (answer : option Z) (ok1 ok2 : bool) (s : pst) : pres :=
  if at_ mod 16 =? 0 then run_at false at_ code ok1 ok2 s
  else match aligned_alloc answer code s with
       | None => (PErr EMemoryError, [], s)
       | Some (a, s) => run_at true a code ok1 ok2 s
       end.
(** The argument: [Code at_ b] is a bytes object whose characters are at [at_]. *)
Inductive parg := WrongCount | NotBytes | Code (at_ : Z) (b : list Z).
(** ASM_run *)
Definition run (x : parg) (answer : option Z) (ok1 ok2 : bool) (s : pst) : pres :=
  match x with
  | WrongCount | NotBytes => (PErr ETypeError, [], s)
  | Code at_ b => if zlen b =? 0 then (PErr EValueError, [], s) else run_code at_ b answer ok1 ok2 s
  end.

(** The common part of the makers: allocate, copy, protect. *)
Definition make_at (code : list Z) (answer : option Z) (ok : bool) (s : pst) (k : Z -> Z -> pst -> pres) : pres :=
  match aligned_alloc answer code s with
  | None => (PErr EMemoryError, [], s)
  | Some (a, s) =>
      match virtual_protect ok a (zlen code) RWX s with
      | None => release true a (PErr EOSError) [] s
      | Some (old, s) => k a old s
      end
  end.
Definition make (x : parg) (answer : option Z) (ok : bool) (s : pst) : pres :=
  match x with
  | WrongCount | NotBytes => (PErr ETypeError, [], s)
  | Code _ b =>
      if zlen b =? 0 then (PErr EValueError, [], s)
      else make_at b answer ok s (fun a old s =>
           if locked s then (PFault FRelock, [], s)
           else match tget (tbl s) a with
                | Some _ => (PFault FAssert, [], s)
                | None => (PPtr a, [], with_tbl (tput (tbl s) a (zlen b, old)) s)
                end)
  end.
Definition make_fast (b : list Z) (answer : option Z) (ok : bool) (s : pst) : pres :=
  make_at b answer ok s (fun a old s => (PPtr a, [], with_tbl (tput (tbl s) a (zlen b, old)) s)).

(** 289-290 and 312-313: free, forget. *)
Definition forget (a : Z) (s : pst) : option pst :=
  match aligned_free a s with Some s => Some (with_tbl (terase (tbl s) a) s) | None => None end.
Definition free_function (a : Z) (ok : bool) (s : pst) : pres :=
  if locked s then (PFault FRelock, [], s)
  else match tget (tbl s) a with
       | None => (PErr EValueError, [], with_lock true s)
       | Some (n, old) =>
           match virtual_protect ok a n old s with
           | None => (PErr EOSError, [], with_lock true s)
           | Some (_, s) => match forget a s with Some s => (PNone, [], s) | None => (PFault FBadFree, [], s) end
           end
       end.
Definition free_fast (a : Z) (ok : bool) (s : pst) : pres :=
  let '(n, old) := match tget (tbl s) a with Some v => v | None => (0, 0) end in
  let s := match tget (tbl s) a with Some _ => s | None => with_tbl (tput (tbl s) a (0, 0)) s end in
  match virtual_protect ok a n old s with
  | None => (PErr EOSError, [], s)
  | Some (_, s) => match forget a s with Some s => (PNone, [], s) | None => (PFault FBadFree, [], s) end
  end.
(** A call of the function at [a]. *)
Definition call_at (a : Z) (s : pst) : pres :=
  match block_at (blocks s) a with
  | None => (PFault FGone, [], s)
  | Some c => if can_run s a (zlen c) then (PNone, c, s) else (PFault FNoExec, [], s)
  end.

Inductive pcall :=
  | KRun (x : parg) (answer : option Z) (ok1 ok2 : bool) | KRunFast (at_ : Z) (b : list Z) (answer : option Z) (ok1 ok2 : bool)
  | KMake (x : parg) (answer : option Z) (ok : bool) | KMakeFast (b : list Z) (answer : option Z) (ok : bool)
  | KFree (a : Z) (ok : bool) | KFreeFast (a : Z) (ok : bool) | KCall (a : Z).
Definition pstep (c : pcall) (s : pst) : pres :=
  match c with
  | KRun x answer ok1 ok2 => run x answer ok1 ok2 s
  | KRunFast at_ b answer ok1 ok2 => run_code at_ b answer ok1 ok2 s
  | KMake x answer ok => make x answer ok s
  | KMakeFast b answer ok => make_fast b answer ok s
  | KFree a ok => free_function a ok s
  | KFreeFast a ok => free_fast a ok s
  | KCall a => call_at a s
  end.
(** What the calls answered and ran, and the last state; a fault ends the process. *)
Fixpoint prun (cs : list pcall) (s : pst) : list (pret * list Z) * pst :=
  match cs with
  | [] => ([], s)
  | c :: r => match pstep c s with
              | (PFault f, b, s) => ([(PFault f, b)], s)
              | (x, b, s) => let '(xs, s) := prun r s in ((x, b) :: xs, s)
              end
  end.
