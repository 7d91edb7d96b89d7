(** Specification of Python's < where the pre-sort check of the sort takes
    shortcuts. *)
From Coq Require Import ZArith List Bool Arith.
From Verif Require Import Base PyLongModel PreSortModel.
Import ListNotations.
Local Open Scope Z_scope.

(** Strings: the first differing code point decides, or the length. *)
Inductive str_less : list Z -> list Z -> Prop :=
| SL_end c r : str_less [] (c :: r)
| SL_head c d r s : c < d -> str_less (c :: r) (d :: s)
| SL_tail c r s : str_less r s -> str_less (c :: r) (c :: s).

(** Tuples: the first items that are not equal decide, or the length. *)
Inductive tup_less (rcb : cop -> pv -> pv -> outcome bool) : list pv -> list pv -> outcome bool -> Prop :=
| TL_both : tup_less rcb [] [] (Ret false)
| TL_left y s : tup_less rcb [] (y :: s) (Ret true)
| TL_right x r : tup_less rcb (x :: r) [] (Ret false)
| TL_same x r y s o : rcb CEq x y = Ret true -> tup_less rcb r s o -> tup_less rcb (x :: r) (y :: s) o
| TL_differ x r y s : rcb CEq x y = Ret false -> tup_less rcb (x :: r) (y :: s) (rcb CLt x y)
| TL_error x r y s e : rcb CEq x y = Raise e -> tup_less rcb (x :: r) (y :: s) (Raise e).

(** What the interpreter's comparison does. Ints: of at most one digit; strings:
    code points are not negative. *)
Record interpreter (rcb : cop -> pv -> pv -> outcome bool) (slot : ptype -> option Z) (fn : Z -> pv -> pv -> answer) (flt : Z -> Z -> bool) : Prop := {
  i_int : forall a b, pl_compact a = true -> pl_compact b = true -> rcb CLt (VInt a) (VInt b) = Ret (pl_val a <? pl_val b);
  i_float : forall a b, rcb CLt (VFloat a) (VFloat b) = Ret (flt a b);
  i_str : forall a b, Forall (fun c => 0 <= c) (a ++ b) -> exists r, rcb CLt (VStr a) (VStr b) = Ret r /\ (r = true <-> str_less a b);
  i_tuple : forall a b o, tup_less rcb a b o -> rcb CLt (VTup a) (VTup b) = o;
  i_answers : forall op v w, (exists r, rcb op v w = Ret r) \/ (exists e, rcb op v w = Raise e);
  i_slot : forall v w k, type_of v = type_of w -> slot (type_of v) = Some k ->
    match fn k v w with ANotImplemented => True | AError e => rcb CLt v w = Raise e | ABool b => rcb CLt v w = Ret b end
}.

(** Every string in a key has code points that are not negative, every int
    object its digits. *)
Inductive sound : pv -> Prop :=
| S_int p : Forall (fun d => 0 <= d) (pl_digits p) -> (pl_digits p = [] -> pl_neg p = false) -> sound (VInt p)
| S_float b : sound (VFloat b)
| S_str c : Forall (fun x => 0 <= x) c -> sound (VStr c)
| S_tup l : Forall sound l -> sound (VTup l)
| S_obj c i : sound (VObj c i).
