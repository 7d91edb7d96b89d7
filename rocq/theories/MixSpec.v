(** What a list of another class, or an instance of a subclass, is taken for. *)
From Coq Require Import ZArith List Bool.
From Verif Require Import Base PyListSpec ArrayListModel ArrayListProofs ArrayListSpec StdListModel StdListProofs LinkedListModel LinkedListProofs
  ArrayListMoreModel ArrayListCmpProofs LinkedListFacts MixModel.
Import ListNotations.
Local Open Scope Z_scope.

(** A list of the class with elements of its range. *)
Definition valid (o : lobj) : Prop :=
  zlen (held o) <= SSIZE_MAX /\ Forall (in_range (elem_kind o)) (held o) /\ match o with Lnk l => lwf l | Arr _ _ => True end.
Definition width (c : cls) : Z := match c with CArr KBig => 64 | _ => 32 end.
(** The integer PyLong_AsLong reads from an element object: a negative 32-bit
    element loses 2^32 from Python 3.12 on (C18). *)
Definition seen (py312 : bool) (o : lobj) (v : Z) : Z :=
  match class_of o with
  | CArr KBig => v
  | _ => if py312 && (v <? 0) then - (2 ^ 32 + v) else v
  end.
(** [w] stands for the element [v] of [o] in a list of class [c]; [copied]:
    C values are copied instead. *)
Definition stands_for (py312 : bool) (c : cls) (o : lobj) (v w : Z) : Prop := reduced (width c) (seen py312 o v) w.
Definition copied (c : cls) (x : operand) : Prop := exact x = true /\ class_of (obj x) = c.
Definition taken (py312 : bool) (c : cls) (x : operand) (vs ws : list Z) : Prop :=
  (copied c x -> ws = vs) /\ (~ copied c x -> Forall2 (stands_for py312 c (obj x)) vs ws).

(** What the comparison slots answer. *)
Definition slot_sem (c : cmp_op) (t : lobj) (ws : list Z) : Prop :=
  match t with
  | Arr _ s => cmp_sem c s ws
  | Lnk l => match c with Eq_ => held t = ws | Ne_ => held t <> ws | _ => llord_sem c (held t) ws end
  end.
(** Array lists copy C values from their own class; linked lists never do. *)
Definition read_as (py312 : bool) (t : lobj) (x : operand) (ws : list Z) : Prop :=
  match t with
  | Arr k _ => taken py312 (CArr k) x (held (obj x)) ws
  | Lnk _ => Forall2 (stands_for py312 CLnk (obj x)) (held (obj x)) ws
  end.

(** [t] is [s] followed by [n] elements, each [f] of the one [length s] places
    before. *)
Definition grown (f : Z -> Z -> Prop) (n : nat) (s t : list Z) : Prop :=
  length t = (length s + n)%nat /\ firstn (length s) t = s /\
  forall j v w, nth_error t j = Some v -> nth_error t (length s + j) = Some w -> f v w.
