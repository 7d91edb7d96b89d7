(** Slice assignment of ObjectLinkedList with any step and bounds, in terms of
    Python values: what the code does instead of Python's rule. *)
From Coq Require Import ZArith List Bool.
From Verif Require Import Base PyListSpec ObjModel ObjSpec.
Import ListNotations.
Local Open Scope Z_scope.

(** The bounds of a slice, from the language reference: clamped to 0 .. len for
    a positive step, to -1 .. len - 1 for a negative one. *)
Definition first_of (s : list Z) (sl : slice) : Z :=
  let len := zlen s in
  if 0 <? step_of sl
  then match sl_start sl with None => 0 | Some i => Z.max 0 (Z.min len (rel len i)) end
  else match sl_start sl with None => len - 1 | Some i => Z.max (-1) (Z.min (len - 1) (rel len i)) end.
Definition last_of (s : list Z) (sl : slice) : Z :=
  let len := zlen s in
  if 0 <? step_of sl
  then match sl_stop sl with None => len | Some i => Z.max 0 (Z.min len (rel len i)) end
  else match sl_stop sl with None => -1 | Some i => Z.max (-1) (Z.min (len - 1) (rel len i)) end.

(** [s[i] = y]; [None]: there is no such item. *)
Definition place (s : list Z) (i y : Z) : option (list Z) :=
  if (0 <=? i) && (i <? zlen s) then Some (firstn (Z.to_nat i) s ++ y :: skipn (Z.to_nat i + 1) s) else None.
(** [s[i] = y0; s[i+k] = y1; ...] *)
Fixpoint place_all (s : list Z) (i k : Z) (ys : list Z) : option (list Z) :=
  match ys with
  | [] => Some s
  | y :: r => match place s i y with Some s' => place_all s' (i + k) k r | None => None end
  end.
(** [n] consecutive items from [i] on are removed. *)
Definition cut (s : list Z) (i n : Z) : option (list Z) :=
  if i + n <=? zlen s then Some (firstn (Z.to_nat i) s ++ skipn (Z.to_nat (i + n)) s) else None.
(** [new] is inserted before [i]; before the end for -1. *)
Definition insert_at (s : list Z) (i : Z) (new : list Z) : list Z :=
  let p := Z.to_nat (if i <? 0 then zlen s else i) in firstn p s ++ new ++ skipn p s.

(** Fewer new items than places: the surplus is cut out as one run from the
    first place not written, whatever the step. More: the surplus is inserted at
    the stop. Then all new items are written at start, start + step, ... *)
Definition linked_setslice (s : list Z) (sl : slice) (ys : list Z) : option (list Z) :=
  let a := first_of s sl in let k := step_of sl in let n := slice_len s sl in let m := zlen ys in
  match (if m <? n then cut s (a + m * k) (n - m)
         else Some (insert_at s (last_of s sl) (skipn (Z.to_nat n) ys))) with
  | Some s' => place_all s' a k ys
  | None => None
  end.

(** The assignments that only touch existing items: not too few new items for a
    negative step, not too many for a step other than 1. *)
Definition in_reach (s : list Z) (sl : slice) (ys : list Z) : Prop :=
  let a := first_of s sl in let k := step_of sl in let n := slice_len s sl in let m := zlen ys in
  if m <? n then 0 < k \/ (m = 0 /\ a + n <= zlen s) \/ (0 < m /\ a + (n - m) < zlen s)
  else m = n \/ (0 < k /\ a + (m - 1) * k < zlen s + (m - n)) \/ (k < 0 /\ 0 <= a + (m - 1) * k).
(** Python's [s[i:j:k] = ys] with as many items as places: place number [t]
    holds item number [t], the other places are unchanged. *)
Definition strided (s : list Z) (sl : slice) (ys s' : list Z) : Prop :=
  let ps := slice_positions (length s) sl in
  length s' = length s /\
  (forall t p, nth_error ps t = Some p -> znth s' p = nth_error ys t) /\
  (forall p, ~ In p ps -> znth s' p = znth s p).
