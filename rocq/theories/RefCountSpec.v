(** Specification vocabulary for reference counts. *)
From Coq Require Import ZArith List Bool.
From Verif Require Import Base RefCountModel.
Import ListNotations.
Local Open Scope Z_scope.

(** References to [o] that a history leaves unaccounted for: each object
    handed out by as_object, each decref, minus each incref. *)
Definition debt1 (o : Z) (op : rop) (v : outcome rval) : Z :=
  match op, v with
  | RAsObject _, Ret (RObj x) => if x =? o then 1 else 0
  | RDecref x, Ret RNone => if x =? o then 1 else 0
  | RIncref x, Ret RNone => if x =? o then -1 else 0
  | _, _ => 0
  end.
Fixpoint debt (o : Z) (ops : list rop) (vs : list (outcome rval)) : Z :=
  match ops, vs with op :: r, v :: vr => debt1 o op v + debt o r vr | _, _ => 0 end.

(** References held by lists at once, the largest number over a history. *)
Fixpoint held_max (es : list lref) (held : Z) : Z :=
  match es with
  | [] => held
  | e :: r => Z.max held (held_max r (match e with LTake => held + 1 | LRelease => held - 1 | _ => held end))
  end.
(** Lists release only what they hold. *)
Fixpoint releases_held (es : list lref) (held : Z) : Prop :=
  match es with
  | [] => 0 <= held
  | e :: r => 0 <= held /\ releases_held r (match e with LTake => held + 1 | LRelease => held - 1 | _ => held end)
  end.

(** [k] times the same calls. *)
Fixpoint rounds (k : nat) (ops : list rop) : list rop := match k with O => [] | S k => ops ++ rounds k ops end.
