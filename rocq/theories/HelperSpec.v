(** What an int constant and an iteration step should be. *)
From Coq Require Import ZArith List Bool.
From Verif Require Import Base PyLongModel ArrayListSpec HelperModel.
Import ListNotations.
Local Open Scope Z_scope.

(** Python's decimal numerals: digits in groups with one underscore between. *)
Inductive numeral : list Z -> list Z -> Prop :=
| num_one d : 0 <= d <= 9 -> numeral [48 + d] [d]
| num_digit d t ds : 0 <= d <= 9 -> numeral t ds -> numeral ((48 + d) :: t) (d :: ds)
| num_bar d t ds : 0 <= d <= 9 -> numeral t ds -> numeral ((48 + d) :: 95 :: t) (d :: ds).
Definition blank (t : list Z) : Prop := Forall (fun c => c = 32 \/ 9 <= c <= 13) t.
(** Text that int() reads as [z], with [ds] as its digits. *)
Definition reads_as (t : list Z) (z : Z) (ds : list Z) : Prop :=
  exists pre body post neg sign, t = pre ++ sign ++ body ++ post /\ blank pre /\ blank post /\ numeral body ds /\
    (if neg : bool then sign = [45] else sign = [] \/ sign = [43]) /\ z = (if neg then - dec_value ds else dec_value ds).
(** The digits base 2^30 of an int, as the code generator has to write them. *)
Definition written_as (z : Z) (neg : bool) (count : Z) (digits : list Z) : Prop :=
  exists p, pl_wf p /\ pl_val p = z /\ count = zlen (pl_digits p) /\ (z <> 0 -> neg = (z <? 0)) /\
    exists more, digits = pl_digits p ++ more.
(** The slots of the five builtin types return iterators or fail. *)
Definition builtin_slots (o : object) : Prop :=
  type_is o <> TOther -> exists m, tp_iter o = Some m /\ forall x, m <> NoIterator x.
(** The iterator of an object: that of its type, else one over its sequence. *)
Definition iterates_with (o : object) (i : Z) : Prop :=
  tp_iter o = Some (Iterator i) \/ tp_iter o = None /\ sequence o = Some (Iterator i).
