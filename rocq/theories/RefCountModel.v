(** Reference counts as the interpreter and this library change them, with the
    immortal objects of Python 3.12, and the Unsafe methods on references
    (unsafe/Unsafe.cpp). 64-bit CPython; for 3.12 and 3.13 the count field is
    64 bits wide and the interpreter looks at its low 32 bits. *)
From Coq Require Import ZArith List Bool.
From Verif Require Import Base UnsafeModel.
Import ListNotations.
Local Open Scope Z_scope.

(** CPython's Py_INCREF: before 3.12 plain; from 3.12 on it does nothing when
    the low half is all ones. *)
Definition py_incref (py312 : bool) (c : Z) : Z := if py312 && (c mod 2 ^ 32 =? 2 ^ 32 - 1) then c else c + 1.
(** CPython's Py_DECREF: from 3.12 on it does nothing when the low half is
    negative as an int32_t. *)
Definition py_decref (py312 : bool) (c : Z) : Z := if py312 && (2 ^ 31 <=? c mod 2 ^ 32) then c else c - 1.
(** PyFast_DECREF, utils/PythonUtils.h 19-25: it looks at the sign of the 64-bit
    field (PyFast_INCREF, 12-17, which is used nowhere, likewise). *)
Definition fast_decref (c : Z) : Z := if c <? 0 then c else c - 1.

(** The count of one object and the references to it held by lists of this
    library: they take with Py_INCREF and release with SAFE_DECREF
    (PythonUtils.h 37-42); the rest of the program uses Py_INCREF, Py_DECREF. *)
Inductive lref := LTake | LRelease | LProgIncref | LProgDecref.
Definition lstep (py312 : bool) (e : lref) (c : Z) : Z :=
  match e with
  | LTake | LProgIncref => py_incref py312 c
  | LRelease => fast_decref c
  | LProgDecref => py_decref py312 c
  end.
Definition lrun (py312 : bool) (es : list lref) (c : Z) : Z := fold_left (fun c e => lstep py312 e c) es c.

(** Unsafe_getAddress, 245-247 (PyLong_FromVoidPtr). An object is its address. *)
Definition get_address (o : Z) : pyobj := PInt o.

(** Unsafe_as_object, 249-251: no reference is taken. NULL without an
    exception is turned into SystemError by the interpreter. *)
Definition as_object (addr : pyobj) : outcome Z :=
  match as_ptr addr with
  | Ret a => if a =? 0 then Raise SystemError else Ret a
  | r => r
  end.

(** The counts in memory and the references a program holds. *)
Record rstate := { r_rc : Z -> Z; r_own : Z -> Z }.
Definition set_at (f : Z -> Z) (o v : Z) : Z -> Z := fun x => if x =? o then v else f x.

(** What the program does: copy or drop a reference it holds, call as_object
    on a number, call incref/decref/refcnt (298-310) on an object it holds. *)
Inductive rop :=
| RCopy (o : Z) | RDrop (o : Z)
| RAsObject (addr : pyobj)
| RIncref (o : Z) | RDecref (o : Z) | RRefcnt (o : Z).

(** [RSkip]: the program holds no such reference, nothing happens. *)
Inductive rval := RSkip | RNone | RNum (z : Z) | RObj (o : Z).

Definition rstep (py312 : bool) (op : rop) (s : rstate) : outcome rval * rstate :=
  let with_held o (k : outcome rval * rstate) :=
    if r_own s o <=? 0 then (Ret RSkip, s) else if r_rc s o <=? 0 then (Undef UseAfterFree, s) else k in
  match op with
  | RCopy o => with_held o (Ret RNone, {| r_rc := set_at (r_rc s) o (py_incref py312 (r_rc s o)); r_own := set_at (r_own s) o (r_own s o + 1) |})
  | RDrop o => with_held o (Ret RNone, {| r_rc := set_at (r_rc s) o (py_decref py312 (r_rc s o)); r_own := set_at (r_own s) o (r_own s o - 1) |})
  | RAsObject addr =>
      match as_object addr with
      | Ret o => if r_rc s o <=? 0 then (Undef UseAfterFree, s)
                 else (Ret (RObj o), {| r_rc := r_rc s; r_own := set_at (r_own s) o (r_own s o + 1) |})
      | Raise e => (Raise e, s)
      | _ => (Raise SystemError, s)
      end
  | RIncref o => with_held o (Ret RNone, {| r_rc := set_at (r_rc s) o (py_incref py312 (r_rc s o)); r_own := r_own s |})
  | RDecref o => with_held o (Ret RNone, {| r_rc := set_at (r_rc s) o (py_decref py312 (r_rc s o)); r_own := r_own s |})
  | RRefcnt o => with_held o (Ret (RNum (r_rc s o)), s)
  end.

Fixpoint rrun (py312 : bool) (ops : list rop) (s : rstate) : outcome (list (outcome rval) * rstate) :=
  match ops with
  | [] => Ret ([], s)
  | op :: r =>
      match rstep py312 op s with
      | (Undef u, _) => Undef u
      | (v, s') => omap (fun p => (v :: fst p, snd p)) (rrun py312 r s')
      end
  end.
