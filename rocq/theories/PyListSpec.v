(** Specification of the Python list, written from the Python language and
    library reference (sequence operations, slices). Independent of the model
    of the C++ code. Elements are integers; the extra method [resize] of the
    library is specified as documented (truncate or fill with 0). *)
From Coq Require Import ZArith List Bool.
From Verif Require Import Base.
Import ListNotations.
Local Open Scope Z_scope.

(** A slice object; [None] is an omitted bound. *)
Record slice := { sl_start : option Z; sl_stop : option Z; sl_step : option Z }.

Definition step_of (sl : slice) : Z := match sl_step sl with None => 1 | Some k => k end.

(** "If i or j is negative, the index is relative to the end of the sequence". *)
Definition rel (len i : Z) : Z := if i <? 0 then i + len else i.

(** All positions of a list of length [n], ascending. *)
Definition positions (n : nat) : list Z := map Z.of_nat (seq 0 n).

(** Positions selected by [s[i:j:k]]. Ascending for k > 0: the x with
    i <= x < j and x = i (mod k), an omitted or too small i being 0 and an
    omitted j the end. Descending for k < 0: the x with j < x <= i and
    x = i (mod k), an omitted or too large i being the last position and an
    omitted j "before the beginning". *)
Definition slice_positions (n : nat) (sl : slice) : list Z :=
  let len := Z.of_nat n in
  let k := step_of sl in
  if 0 <? k then
    let i := match sl_start sl with None => 0 | Some i => Z.max 0 (rel len i) end in
    let j := match sl_stop sl with None => len | Some j => rel len j end in
    filter (fun x => (i <=? x) && (x <? j) && ((x - i) mod k =? 0)) (positions n)
  else
    let i := match sl_start sl with None => len - 1 | Some i => Z.min (len - 1) (rel len i) end in
    let j := match sl_stop sl with None => -1 | Some j => rel len j end in
    filter (fun x => (x <=? i) && (j <? x) && ((i - x) mod (- k) =? 0)) (rev (positions n)).

Definition get_default (s : list Z) (x : Z) : Z := nth (Z.to_nat x) s 0.

Definition py_getslice (s : list Z) (sl : slice) : list Z :=
  map (get_default s) (slice_positions (length s) sl).

(** [s[i:j] = vs]: the items between the clamped bounds are replaced; when the
    bounds cross, the insertion point is i. *)
Definition clamp (len x : Z) : Z := Z.max 0 (Z.min len x).

Definition py_setslice (s : list Z) (sl : slice) (vs : list Z) : list Z :=
  let len := Z.of_nat (length s) in
  let i := match sl_start sl with None => 0 | Some i => clamp len (rel len i) end in
  let j := match sl_stop sl with None => len | Some j => clamp len (rel len j) end in
  firstn (Z.to_nat i) s ++ vs ++ skipn (Z.to_nat (Z.max i j)) s.

(** Positions holding [v]. *)
Definition occurrences (s : list Z) (v : Z) : list Z :=
  filter (fun x => get_default s x =? v) (positions (length s)).

(** Calls of the list API. *)
Inductive extend_from := FromList | FromIterator | FromSameType.

Inductive op :=
| OAppend (v : Z)
| OExtend (how : extend_from) (vs : list Z)
| OInsert (i v : Z)
| OPop (i : option Z)
| ORemove (v : Z)
| OReverse
| OClear
| OResize (n : Z)
| OLen
| OGet (i : Z)
| OSet (i v : Z)
| ODel (i : Z)
| OGetSlice (sl : slice)
| OSetSlice (sl : slice) (vs : list Z)
| OIndex (v : Z) (start stop : option Z)
| OCount (v : Z)
| OContains (v : Z)
| OToList
| OCopy.

(** Results. *)
Inductive sval :=
| SNone
| SBool (b : bool)
| SNum (z : Z)           (* a length, position or count *)
| SElem (v : Z)          (* an element of the list *)
| SList (vs : list Z)    (* a new Python list *)
| SSame (vs : list Z).   (* a new list of the same class *)

Inductive sres := SRet (v : sval) | SRaise (e : exn).

Definition in_ssize (z : Z) : bool := in_sbits_b 64 z.

(** One call on a Python list: result and new contents. *)
Definition py_step (o : op) (s : list Z) : sres * list Z :=
  let len := Z.of_nat (length s) in
  match o with
  | OAppend v => (SRet SNone, s ++ [v])
  | OExtend _ vs => (SRet SNone, s ++ vs)
  | OInsert i v =>
      if in_ssize i then
        let p := Z.to_nat (clamp len (rel len i)) in
        (SRet SNone, firstn p s ++ v :: skipn p s)
      else (SRaise OverflowError, s)
  | OPop oi =>
      let i := match oi with None => -1 | Some i => i end in
      if in_ssize i then
        let p := rel len i in
        if (0 <=? p) && (p <? len)
        then (SRet (SElem (get_default s p)), firstn (Z.to_nat p) s ++ skipn (Z.to_nat p + 1) s)
        else (SRaise IndexError, s)
      else (SRaise OverflowError, s)
  | ORemove v =>
      match occurrences s v with
      | [] => (SRaise ValueError, s)
      | p :: _ => (SRet SNone, firstn (Z.to_nat p) s ++ skipn (Z.to_nat p + 1) s)
      end
  | OReverse => (SRet SNone, rev s)
  | OClear => (SRet SNone, [])
  | OResize n =>
      if (0 <=? n) && in_ssize n
      then (SRet SNone, firstn (Z.to_nat n) s ++ repeat 0 (Z.to_nat n - length s))
      else (SRaise ValueError, s)
  | OLen => (SRet (SNum len), s)
  | OGet i =>
      let p := rel len i in
      if (0 <=? p) && (p <? len) then (SRet (SElem (get_default s p)), s)
      else (SRaise IndexError, s)
  | OSet i v =>
      let p := rel len i in
      if (0 <=? p) && (p <? len)
      then (SRet SNone, firstn (Z.to_nat p) s ++ v :: skipn (Z.to_nat p + 1) s)
      else (SRaise IndexError, s)
  | ODel i =>
      let p := rel len i in
      if (0 <=? p) && (p <? len)
      then (SRet SNone, firstn (Z.to_nat p) s ++ skipn (Z.to_nat p + 1) s)
      else (SRaise IndexError, s)
  | OGetSlice sl =>
      if step_of sl =? 0 then (SRaise ValueError, s)
      else (SRet (SList (py_getslice s sl)), s)
  | OSetSlice sl vs => (SRet SNone, py_setslice s sl vs)
  | OIndex v st en =>
      let i := match st with None => 0 | Some i => Z.max 0 (rel len i) end in
      let j := match en with None => len | Some j => rel len j end in
      match filter (fun x => (i <=? x) && (x <? j)) (occurrences s v) with
      | [] => (SRaise ValueError, s)
      | p :: _ => (SRet (SNum p), s)
      end
  | OCount v => (SRet (SNum (Z.of_nat (length (occurrences s v)))), s)
  | OContains v => (SRet (SBool (match occurrences s v with [] => false | _ => true end)), s)
  | OToList => (SRet (SList s), s)
  | OCopy => (SRet (SSame s), s)
  end.

(** A whole history: results in order and final contents. *)
Fixpoint py_run (ops : list op) (s : list Z) : list sres * list Z :=
  match ops with
  | [] => ([], s)
  | o :: r => let '(x, s1) := py_step o s in
              let '(xs, s2) := py_run r s1 in (x :: xs, s2)
  end.

(** Lengths reached along a history. *)
Fixpoint py_states (ops : list op) (s : list Z) : list (list Z) :=
  match ops with
  | [] => [s]
  | o :: r => s :: py_states r (snd (py_step o s))
  end.
