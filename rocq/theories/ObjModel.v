(** Objects with reference counts, and the vocabulary shared by the object
    lists (objects/ObjectArrayList.cpp, objects/ObjectLinkedList.cpp).

    An object is its address ([is_obj]); 0 is the null pointer. The count of an address is
    0 when no object lives there. Simplifications: releasing the last reference
    only makes the count 0 (no finalizer runs list code, and what the dead
    object referred to is not followed); the objects are mortal, so the counts
    of None and of other singletons are those of Python before 3.12 (for
    immortal objects see RefCountModel.v, C57); the reference to None returned by
    Py_RETURN_NONE and the one to the list itself are left out; allocation does
    not fail; an iterator is the list of items it yields and how it ends, and
    does not touch the list it is read into. *)
From Coq Require Import ZArith List Bool.
From Verif Require Import Base PyListSpec.
Import ListNotations.
Local Open Scope Z_scope.

Definition counts := Z -> Z.
Definition upd (rc : counts) (o v : Z) : counts := fun x => if x =? o then v else rc x.

(** Addresses of objects, as a signed 64-bit number. *)
Definition is_obj (o : Z) : bool := (0 <? o) && (o <? 2 ^ 63).

(** Py_INCREF. *)
Definition incref (o : Z) (rc : counts) : outcome counts :=
  if o =? 0 then Undef NullDeref
  else if rc o <=? 0 then Undef UseAfterFree
  else Ret (upd rc o (rc o + 1)).

(** PyFast_DECREF, utils/PythonUtils.h 19-25, called by SAFE_DECREF 37-42. *)
Definition decref (o : Z) (rc : counts) : outcome counts :=
  if o =? 0 then Undef NullDeref
  else if rc o <=? 0 then Undef UseAfterFree
  else Ret (upd rc o (rc o - 1)).

(** A new reference delivered by the interpreter (PyIter_Next,
    PySequence_GetItem); the object may have been made for the occasion. *)
Definition new_ref (o : Z) (rc : counts) : counts := upd rc o (rc o + 1).

Definition new_refs (os : list Z) (rc : counts) : counts := fold_left (fun rc o => new_ref o rc) os rc.

(** for (item : items) Py_INCREF(item), and SAFE_DECREF. *)
Fixpoint incref_all (os : list Z) (rc : counts) : outcome counts :=
  match os with [] => Ret rc | o :: r => obind (incref o rc) (incref_all r) end.
Fixpoint decref_all (os : list Z) (rc : counts) : outcome counts :=
  match os with [] => Ret rc | o :: r => obind (decref o rc) (decref_all r) end.

(** Py_None. *)
Definition PyNone : Z := 1.

(** Values returned to Python; [C] is the list class. *)
Inductive oval (C : Type) :=
| ONone
| OBool (b : bool)
| ONum (z : Z)
| OElem (o : Z)             (* a reference handed over *)
| OPyList (os : list Z)     (* a new Python list holding its elements *)
| ONew (c : C)              (* a new list of the class *)
| OSelf.
Arguments ONone {C}.
Arguments OBool {C} b.
Arguments ONum {C} z.
Arguments OElem {C} o.
Arguments OPyList {C} os.
Arguments ONew {C} c.
Arguments OSelf {C}.

(** An iterable argument; [OSelfArg] is the list itself. *)
Inductive oarg :=
| OSame (ys : list Z)                       (* another list of the class, contents *)
| OSelfArg
| OList (items : list Z)                    (* a Python list *)
| OIter (items : list Z) (fin : option exn) (* other: tuple, iterator, ... *)
| OOther.                                   (* neither iterable nor a sequence *)

(** Right-hand side of a slice assignment. As a sequence, [OIter items None] is
    a tuple and [OIter items (Some e)] claims one item more, whose reading
    fails with [e]. *)
Inductive sset (A : Type) :=
| SetDel                    (* del a[i:j] passes NULL *)
| SetNoLen (e : exn)        (* a sequence without length *)
| SetTo (a : A).
Arguments SetDel {A}.
Arguments SetNoLen {A} e.
Arguments SetTo {A} a.

(** Calls; [A] is the type of iterable arguments. *)
Inductive ocall (A : Type) :=
| CAppend (o : Z)
| CExtend (a : A)
| CIadd (a : A)
| CAdd (a : A)
| CPop (i : option pyobj)
| CIndex (o : Z) (start stop : option pyobj)
| CCount (o : Z)
| CInsert (i : pyobj) (o : Z)
| CRemove (o : Z)
| CLen
| CGet (i : pyobj)
| CGetSlice (sl : slice)
| CSet (i : pyobj) (o : Z)
| CDel (i : pyobj)
| CSetSlice (sl : slice) (v : sset A)
| CResize (n : pyobj)
| CToList
| CCopy
| CMul (n : Z)
| CImul (n : Z)
| CContains (isint : bool) (o : Z)
| CReverse
| CClear.
Arguments CAppend {A} o.
Arguments CExtend {A} a.
Arguments CIadd {A} a.
Arguments CAdd {A} a.
Arguments CPop {A} i.
Arguments CIndex {A} o start stop.
Arguments CCount {A} o.
Arguments CInsert {A} i o.
Arguments CRemove {A} o.
Arguments CLen {A}.
Arguments CGet {A} i.
Arguments CGetSlice {A} sl.
Arguments CSet {A} i o.
Arguments CDel {A} i.
Arguments CSetSlice {A} sl v.
Arguments CResize {A} n.
Arguments CToList {A}.
Arguments CCopy {A}.
Arguments CMul {A} n.
Arguments CImul {A} n.
Arguments CContains {A} isint o.
Arguments CReverse {A}.
Arguments CClear {A}.

(** Length and items of a sequence given as [OIter]. *)
Definition seq_len (items : list Z) (fin : option exn) : Z :=
  match fin with None => zlen items | Some _ => zlen items + 1 end.
Definition seq_get (items : list Z) (fin : option exn) (i : Z) : outcome Z :=
  match znth items i with
  | Some o => Ret o
  | None => Raise (match fin with Some e => e | None => IndexError end)
  end.

(** A method's result: what the interpreter sees, list and counts afterwards. *)
Definition ores (C : Type) : Type := outcome (oval C) * (C * counts).

(** Continue after a step that leaves list and counts alone when it fails. *)
Definition owith {C A} (x : outcome A) (s : C) (rc : counts) (f : A -> ores C) : ores C :=
  match x with
  | Ret a => f a
  | Raise e => (Raise e, (s, rc))
  | RetPending _ e => (Raise e, (s, rc))
  | Undef u => (Undef u, (s, rc))
  end.
