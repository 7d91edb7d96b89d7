(** What the calls of IntLinkedList should do when requests for nodes are
    refused, in terms of the values of the list and of the number of requests
    that are met. *)
From Coq Require Import ZArith List Bool Arith Permutation.
From Verif Require Import Base LMemModel.
Import ListNotations.
Local Open Scope list_scope.

(** How many of the [n] requests from number [k] on are met before the first
    that is refused. *)
Fixpoint met (grant : nat -> bool) (k n : nat) : nat :=
  match n with O => O | S j => if grant k then S (met grant (S k) j) else O end.
Definition enough (grant : nat -> bool) (m : mem) (n : nat) : bool := n <=? met grant (asked m) n.

(** Values read from items: all, those up to and with the first that does not
    convert, and those before it. *)
Definition values_of (is_ : list item) : list Z := map fst is_.
Fixpoint failed (is_ : list item) : option exn :=
  match is_ with [] => None | (_, Some e) :: _ => Some e | (_, None) :: r => failed r end.
Fixpoint through (is_ : list item) : list Z :=
  match is_ with [] => [] | (v, Some _) :: _ => [v] | (v, None) :: r => v :: through r end.
Fixpoint before (is_ : list item) : list Z :=
  match is_ with [] => [] | (_, Some _) :: _ => [] | (v, None) :: r => v :: before r end.

(** The elements [n] times over. *)
Fixpoint times (n : nat) (xs : list Z) : list Z := match n with O => [] | S k => xs ++ times k xs end.

(** How a construction from items ends when there is memory, and how extend
    does: the error of the item that does not convert shows at the next item or
    at the end, unless the iterator fails there itself. *)
Definition init_end (is_ : list item) (fin : option exn) : ending :=
  match failed is_, fin with Some _, _ => Raises RuntimeError | None, Some e => Raises e | None, None => Returns None end.
Definition extend_ends (is_ : list item) (fin : option exn) : ending :=
  match failed is_, fin with
  | None, None => Returns None
  | None, Some e => Raises e
  | Some e, None => Raises e
  | Some e, Some x => if length (through is_) =? length is_ then Raises x else Raises e
  end.

(** ** The nodes *)
(** Nodes that are allocated: those of the list and those of the rest, each once. *)
Definition owns (m : mem) (l : lst) (rest : list nat) : Prop :=
  NoDup (live m) /\ Permutation (live m) (addrs l ++ rest) /\ Forall (fun a => a < asked m) (live m).
(** Calls that make a list of the values [ys], asking for one node each: they
    return it, or raise with every node given back. *)
Definition makes (g : nat -> bool) (obj : bool) (ys : list Z) (m : mem) (rest : list nat) (r : made) : Prop :=
  let '(x, o, m') := r in
  if obj then
    if enough g m (length ys)
    then x = Returns None /\ exists l, o = Some l /\ vals l = ys /\ owns m' l rest
    else x = Raises RuntimeError /\ o = None /\ owns m' [] rest
  else x = Raises MemoryError /\ o = None /\ m' = m.
(** All lists of a program together. *)
Definition nodes_of (p : list (option lst)) : list nat :=
  concat (map (fun o => match o with Some l => addrs l | None => [] end) p).
Definition accounted (w : world) : Prop :=
  NoDup (live (heap w)) /\ Permutation (live (heap w)) (nodes_of (pool w)) /\ Forall (fun a => a < asked (heap w)) (live (heap w)).
(** A list is not constructed twice. *)
Definition once (e : event) : bool := match e with EAgain _ _ => false | _ => true end.
(** Every reference goes away in the end. *)
Definition drop_all (w : world) : list event := map EDrop (seq 0 (length (pool w))).
