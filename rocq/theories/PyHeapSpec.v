(** Several list variables: a heap of lists and names bound to them, with
    Python's reference semantics. Independent of the model of the C++ code. *)
From Coq Require Import ZArith List Bool.
From Verif Require Import Base PyListSpec.
Import ListNotations.
Local Open Scope Z_scope.

(** What a name is bound to: None or the list object with that number. *)
Inductive ref := RNone | RObj (id : nat).
Record world := { heap : list (list Z); env : list ref }.

(** Statements over names (numbers). A name that is not bound to a list makes
    the statement raise (AttributeError / TypeError, not distinguished). *)
Inductive stmt :=
| SNew (x : nat) (vs : list Z)          (* x = C([vs]) *)
| SFrom (x y : nat)                     (* x = C(y) *)
| SCopy (x y : nat)                     (* x = y.copy() *)
| SAlias (x y : nat)                    (* x = y *)
| SCall (x : nat) (o : op)              (* x.o(...) *)
| SExtend (x y : nat)                   (* x.extend(y) *)
| SIadd (x y : nat)                     (* x += y *)
| SIaddList (x : nat) (vs : list Z)     (* x += [vs] *)
| SSetSlice (x : nat) (sl : slice) (y : nat). (* x[sl] = y *)

Definition lookup (w : world) (x : nat) : option (nat * list Z) :=
  match nth x (env w) RNone with
  | RNone => None
  | RObj i => option_map (pair i) (nth_error (heap w) i)
  end.

Fixpoint put {A} (l : list A) (i : nat) (d v : A) : list A :=
  match i, l with
  | O, [] => [v]
  | O, _ :: r => v :: r
  | S j, [] => d :: put [] j d v
  | S j, x :: r => x :: put r j d v
  end.

Definition bind_name (w : world) (x : nat) (r : ref) : world :=
  {| heap := heap w; env := put (env w) x RNone r |}.
Definition set_obj (w : world) (i : nat) (s : list Z) : world :=
  {| heap := put (heap w) i [] s; env := env w |}.
(** A fresh object bound to a name. *)
Definition alloc (w : world) (x : nat) (s : list Z) : world :=
  bind_name {| heap := heap w ++ [s]; env := env w |} x (RObj (length (heap w))).

Definition no_list (w : world) : sres * world := (SRaise TypeError, w).

Definition py_exec (st : stmt) (w : world) : sres * world :=
  match st with
  | SNew x vs => (SRet SNone, alloc w x vs)
  | SFrom x y | SCopy x y =>
      match lookup w y with
      | Some (_, s) => (SRet SNone, alloc w x s)
      | None => no_list w end
  | SAlias x y => (SRet SNone, bind_name w x (nth y (env w) RNone))
  | SCall x o =>
      match lookup w x with
      | Some (i, s) => let '(r, s') := py_step o s in (r, set_obj w i s')
      | None => no_list w end
  | SExtend x y | SIadd x y =>
      match lookup w x, lookup w y with
      | Some (i, s), Some (_, t) => (SRet SNone, set_obj w i (s ++ t))
      | _, _ => no_list w end
  | SIaddList x vs =>
      match lookup w x with
      | Some (i, s) => (SRet SNone, set_obj w i (s ++ vs))
      | None => no_list w end
  | SSetSlice x sl y =>
      match lookup w x, lookup w y with
      | Some (i, s), Some (_, t) => (SRet SNone, set_obj w i (py_setslice s sl t))
      | _, _ => no_list w end
  end.

Fixpoint py_prog (p : list stmt) (w : world) : list sres * world :=
  match p with
  | [] => ([], w)
  | st :: r => let '(x, w1) := py_exec st w in
               let '(xs, w2) := py_prog r w1 in (x :: xs, w2)
  end.
