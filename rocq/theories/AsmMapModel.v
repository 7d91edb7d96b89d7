(** The JIT functions of unsafe/ASM.cpp (173-320) over the hash table they are
    kept in (14), in one thread, with memory that may be refused.

    AsmModel has the threads and a plain list for a table; here the table is the
    one of HashMemModel and every access to it may find the heap empty. The
    methods are noexcept and catch nothing around [map[target]], so
    std::bad_alloc ends the process. Simplifications: Windows (elsewhere every
    method raises NotImplementedError); one thread; arguments of the right type
    (AsmModel has the others); the string made for the message of freeFunction
    (277) and the int returned (221, 252) find memory. *)
From Coq Require Import ZArith List Bool.
From Verif Require Import Base HashSpec HashModel HashMemModel.
Import ListNotations.
Local Open Scope Z_scope.

(** A call, with what the machine answers to it. [alloc]: alignedAlloc;
    [prot]: VirtualProtect and the old protection; [ok]: VirtualProtect when it
    is undone. *)
Inductive jcall :=
| JMake (size : Z) (alloc prot : option Z)
| JMakeFast (size : Z) (alloc prot : option Z)
| JFree (a : Z) (ok : bool)
| JFreeFast (a : Z) (ok : bool).

(** How a call ends; after the last six nothing follows. [ODone], [OKept]: the
    size and protection given to VirtualProtect, which undid it or did not
    (OSError). [OBad]: the table is
    used with its buckets gone, or breaks in another way. *)
Inductive jout := OPtr (a : Z) | ODone (v : Z * Z) | OKept (v : Z * Z) | OValueError | OMemoryError | OOSError
| OTerminate | ORelock | OBadFree | OAssert | OBad | OLoops.

Record jst := { jmap : mtab (Z * Z); jlive : list Z; jlocked : bool }.
(** ASM.cpp 14-15. *)
Definition jstart : jst := {| jmap := Live empty_table; jlive := []; jlocked := false |}.
Inductive jres := Goes (s : jst) (o : jout) | Stops (o : jout).

Section Calls.
Variable hash : Z -> Z.
(** Assertions are compiled in. *)
Variable dbg : bool.

(** An access to the table; [k] goes on with the answer. *)
Definition access (gv gb : bool) (m : mtab (Z * Z)) (o : op (Z * Z)) (k : mtab (Z * Z) -> ans (Z * Z) -> jres) : jres :=
  match mem_step hash (0, 0) gv gb m o with
  | Ok (m', Some a) => k m' a
  | Ok (_, None) => Stops OTerminate
  | Throws => Stops OTerminate
  | Loops => Stops OLoops
  | Bad _ => Stops OBad
  end.

Definition known (a : Z) (l : list Z) : bool := existsb (Z.eqb a) l.
(** alignedAlloc: an address not in use, or std::bad_alloc. *)
Definition new_block (l : list Z) (o : option Z) : option Z :=
  match o with Some a => if (0 <? a) && negb (known a l) then o else None | None => None end.

(** ASM.cpp 198-213, 233-249: the block, and its protection. *)
Definition block (s : jst) (alloc prot : option Z) (k : Z -> Z -> jres) : jres :=
  match new_block (jlive s) alloc with
  | None => Goes s OMemoryError
  | Some a => match prot with None => Goes s OOSError | Some p => k a p end
  end.
(** ASM.cpp 287-290, 306-313: the protection undone, the block released, the
    entry erased. [fail]: how the method leaves the lock when it cannot. *)
Definition unmake (gv gb : bool) (s : jst) (m : mtab (Z * Z)) (a : Z) (v : Z * Z) (ok : bool) (fail : bool) : jres :=
  if negb ok then Goes {| jmap := m; jlive := jlive s; jlocked := fail |} (OKept v)
  else if negb (known a (jlive s)) then Stops OBadFree
  else access gv gb m (OErase a) (fun m' _ =>
    Goes {| jmap := m'; jlive := filter (fun x => negb (x =? a)) (jlive s); jlocked := jlocked s |} (ODone v)).

Definition jstep (gv gb : bool) (s : jst) (c : jcall) : jres :=
  match c with
  (* makeFunction 173-226; lock 215, assert 217, map[target] = ... 218 *)
  | JMake size alloc prot =>
      if size =? 0 then Goes s OValueError
      else block s alloc prot (fun a p =>
        if jlocked s then Stops ORelock
        else
          let put m := access gv gb m (OSet a (size, p)) (fun m' _ => Goes {| jmap := m'; jlive := a :: jlive s; jlocked := false |} (OPtr a)) in
          if dbg then access gv gb (jmap s) (OFind a) (fun m r => match r with AVal (Some _) => Stops OAssert | _ => put m end)
          else put (jmap s))
  (* makeFunctionFast 228-257 *)
  | JMakeFast size alloc prot =>
      block s alloc prot (fun a p =>
        access gv gb (jmap s) (OSet a (size, p)) (fun m' _ => Goes {| jmap := m'; jlive := a :: jlive s; jlocked := jlocked s |} (OPtr a)))
  (* freeFunction 259-298; the lock stays locked at 279 and 286 *)
  | JFree a ok =>
      if jlocked s then Stops ORelock
      else access gv gb (jmap s) (OAt a) (fun m r =>
        match r with
        | AThrow => Goes {| jmap := m; jlive := jlive s; jlocked := true |} OValueError
        | AVal (Some v) => unmake gv gb s m a v ok true
        | _ => Stops OBad
        end)
  (* freeFunctionFast 300-319; map[target] makes an entry when there is none *)
  | JFreeFast a ok => access gv gb (jmap s) (OGet a) (fun m r =>
      match r with AVal (Some v) => unmake gv gb s m a v ok (jlocked s) | _ => Stops OBad end)
  end.

(** What a sequence of calls answers; each with what memory is granted: [gv]
    for the vector of the entries, [gb] for the buckets. *)
Fixpoint jrun (s : jst) (cs : list (bool * bool * jcall)) : list jout :=
  match cs with
  | [] => []
  | (gv, gb, c) :: r => match jstep gv gb s c with Goes s' o => o :: jrun s' r | Stops o => [o] end
  end.
End Calls.
