(** What the JIT functions answer, told with a finite map and the number of its
    buckets. *)
From Coq Require Import ZArith List Bool.
From Verif Require Import HashSpec HashMemSpec AsmMapModel.
Import ListNotations.
Local Open Scope Z_scope.

(** [jk]: the table has 2^jk buckets. *)
Record jspec := { jent : list (Z * (Z * Z)); jk : Z; jblk : list Z; jheld : bool }.
Definition jspec0 : jspec := {| jent := []; jk := 2; jblk := []; jheld := false |}.

(** Room for a key: [Some] of the number of buckets' exponent, or the process
    ends. *)
Definition space (gv gb : bool) (s : jspec) (a : Z) : option Z :=
  match lookup (jent s) a with
  | Some _ => Some (jk s)
  | None => if negb gv then None else if count (jent s) <? room (jk s) then Some (jk s) else if gb then Some (jk s + 1) else None
  end.
Definition spec_make (gv gb : bool) (s : jspec) (a : Z) (v : Z * Z) : option jspec * jout :=
  match space gv gb s a with
  | None => (None, OTerminate)
  | Some k => (Some {| jent := bind (jent s) a v; jk := k; jblk := a :: jblk s; jheld := jheld s |}, OPtr a)
  end.
Definition usable (s : jspec) (a : Z) : bool := (0 <? a) && negb (existsb (Z.eqb a) (jblk s)).
(** The block [a] is given back, the table having 2^k buckets by now. *)
Definition spec_free (s : jspec) (k : Z) (a : Z) (v : Z * Z) : option jspec * jout :=
  if existsb (Z.eqb a) (jblk s) then (Some {| jent := without (jent s) a; jk := k; jblk := filter (fun x => negb (x =? a)) (jblk s); jheld := jheld s |}, ODone v)
  else (None, OBadFree).

Definition spec_call (dbg gv gb : bool) (s : jspec) (c : jcall) : option jspec * jout :=
  match c with
  | JMake size (Some a) prot =>
      if size =? 0 then (Some s, OValueError)
      else if negb (usable s a) then (Some s, OMemoryError)
      else match prot with
           | None => (Some s, OOSError)
           | Some p =>
               if jheld s then (None, ORelock)
               else match lookup (jent s) a with
                    | Some _ => if dbg then (None, OAssert) else spec_make gv gb s a (size, p)
                    | None => spec_make gv gb s a (size, p)
                    end
           end
  | JMake size None _ => (Some s, if size =? 0 then OValueError else OMemoryError)
  | JMakeFast size (Some a) prot =>
      if negb (usable s a) then (Some s, OMemoryError)
      else match prot with None => (Some s, OOSError) | Some p => spec_make gv gb s a (size, p) end
  | JMakeFast _ None _ => (Some s, OMemoryError)
  | JFree a ok =>
      if jheld s then (None, ORelock)
      else match lookup (jent s) a with
           | None => (Some {| jent := jent s; jk := jk s; jblk := jblk s; jheld := true |}, OValueError)
           | Some v => if ok then spec_free s (jk s) a v else (Some {| jent := jent s; jk := jk s; jblk := jblk s; jheld := true |}, OKept v)
           end
  | JFreeFast a ok =>
      match space gv gb s a with
      | None => (None, OTerminate)
      | Some k =>
          let v := match lookup (jent s) a with Some v => v | None => (0, 0) end in
          if ok then spec_free s k a v
          else (Some {| jent := match lookup (jent s) a with Some _ => jent s | None => bind (jent s) a (0, 0) end;
                        jk := k; jblk := jblk s; jheld := jheld s |}, OKept v)
      end
  end.
Fixpoint spec_calls (dbg : bool) (s : jspec) (cs : list (bool * bool * jcall)) : list jout :=
  match cs with
  | [] => []
  | (gv, gb, c) :: r => match spec_call dbg gv gb s c with (Some s', o) => o :: spec_calls dbg s' r | (None, o) => [o] end
  end.
(** Before each call the table has at most [n] entries. *)
Fixpoint few (n : Z) (dbg : bool) (s : jspec) (cs : list (bool * bool * jcall)) : Prop :=
  match cs with
  | [] => True
  | (gv, gb, c) :: r => count (jent s) <= n /\ match spec_call dbg gv gb s c with (Some s', _) => few n dbg s' r | _ => True end
  end.
