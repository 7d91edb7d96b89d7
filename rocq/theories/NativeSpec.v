(** How a call through the C API goes (PyObject_Vectorcall): the callee gets the
    arguments, and the counts change by the reference to the result only. *)
From Coq Require Import ZArith List Bool.
From Verif Require Import Base ObjModel ObjSpec NativeModel.
Import ListNotations.
Local Open Scope Z_scope.

Definition result (r : option Z) : list Z := match r with Some o => [o] | None => [] end.
(** The counts of mortal objects, with references [plus] more and [less] fewer. *)
Definition shifted (E : env) (rc rc' : counts) (plus less : list Z) : Prop :=
  forall o, rc' o = rc o + (if imm E o then 0 else occ plus o - occ less o).
(** The callee was called once, with these arguments. *)
Definition called (E : env) (c : callable) (pos : list Z) (kw : list (Z * Z)) (less : list Z) (rc : counts) (x : nres) : Prop :=
  exists r rc', x = Done r rc' [(id c, pos, kw)] /\ r = answer E (id c) pos kw /\ shifted E rc rc' (result r) less.
(** The references the callers of a call hold are enough for what it releases. *)
Definition enough (E : env) (rc : counts) (r : option Z) (less : list Z) : Prop :=
  forall o, imm E o = false -> occ less o <= rc o + occ (result r) o.
(** A class whose metaclass has its tp_vectorcall, or a callable that is no bound
    method and has a vectorcall of its own. *)
Definition direct (c : callable) : bool :=
  if type_vec c then is_class c else have_vec c && own_vec c && negb (is_method c).
(** Nothing to do with vectorcall. *)
Definition plain (c : callable) : bool := negb (type_vec c) && negb (have_vec c).
(** The same call [n] times, each result released. *)
Fixpoint again (E : env) (c : callable) (args : list Z) (n : nat) (rc : counts) : option counts :=
  match n with
  | O => Some rc
  | S n => match call_no_kwargs E c args rc with
           | Done r rc _ => match match r with Some r => dec E r rc | None => Some rc end with
                            | Some rc => again E c args n rc
                            | None => None
                            end
           | Crash _ => None
           end
  end.
