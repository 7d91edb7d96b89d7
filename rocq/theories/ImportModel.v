(** The import of the extension module: PyInit___pyfastutil (PyFastUtil.cpp
    31-60), the fourteen module functions it calls (PyInit_IntArrayList,
    ints/IntArrayList.cpp 1250-1265, and the same function for every class),
    and the three Python files that take the classes out.

    Simplifications: what the slots of a type are set to is not part of the
    state (LifeModel and CompareModel have the slots); simd::initBitonicSort is
    in SortModel; the memory a PyModule_Create and the memory an insertion into
    a module's dictionary needs is one request each. *)
From Coq Require Import ZArith List Bool String.
From Verif Require Import Base.
Import ListNotations.
Local Open Scope string_scope.
Local Open Scope Z_scope.

(** The static type objects, by the name they are added under, and the modules
    in the order in which they are made. *)
Inductive obj := OType (c : string) | OMod (i : nat).
Definition same_obj (a b : obj) : bool :=
  match a, b with OType c, OType d => String.eqb c d | OMod i, OMod j => Nat.eqb i j | _, _ => false end.

(** Reference counts, the dictionaries of the modules, the error indicator, the
    next module, the requests for memory so far. *)
Record ist := { cnt : obj -> Z; dict : nat -> list (string * obj); exc : option exn; nxt : nat; asked : nat }.
Definition with_exc (e : option exn) (s : ist) : ist := {| cnt := cnt s; dict := dict s; exc := e; nxt := nxt s; asked := asked s |}.
Definition bump (o : obj) (d : Z) (s : ist) : ist :=
  {| cnt := fun p => if same_obj o p then cnt s p + d else cnt s p; dict := dict s; exc := exc s; nxt := nxt s; asked := asked s |}.
Definition ask (s : ist) : ist := {| cnt := cnt s; dict := dict s; exc := exc s; nxt := nxt s; asked := S (asked s) |}.
Definition set_dict (m : nat) (d : list (string * obj)) (s : ist) : ist :=
  {| cnt := cnt s; dict := fun i => if Nat.eqb m i then d else dict s i; exc := exc s; nxt := nxt s; asked := asked s |}.

(** Py_INCREF; Py_DECREF, which takes a module down with the references of its
    dictionary. *)
Definition inc (o : obj) (s : ist) : ist := bump o 1 s.
Definition dec (o : obj) (s : ist) : ist :=
  let s := bump o (-1) s in
  match o with
  | OMod m => if cnt s o =? 0 then set_dict m [] (fold_left (fun s e => bump (snd e) (-1) s) (dict s m) s) else s
  | OType _ => s
  end.

Section Memory.
(** Whether the n-th request for memory is granted. *)
Variable G : nat -> bool.

(** PyModule_Create. *)
Definition module_create (s : ist) : ist * option nat :=
  if G (asked s) then
    let m := nxt s in
    (ask {| cnt := fun p => if same_obj (OMod m) p then 1 else cnt s p; dict := fun i => if Nat.eqb m i then [] else dict s i;
            exc := exc s; nxt := S m; asked := asked s |}, Some m)
  else (with_exc (Some MemoryError) (ask s), None).

Fixpoint entry (d : list (string * obj)) (name : string) : option obj :=
  match d with [] => None | (k, v) :: r => if String.eqb k name then Some v else entry r name end.
(** PyDict_SetItem: the place of a key stays. *)
Fixpoint put (d : list (string * obj)) (name : string) (o : obj) : list (string * obj) :=
  match d with [] => [(name, o)] | (k, v) :: r => if String.eqb k name then (k, o) :: r else (k, v) :: put r name o end.
(** PyModule_AddObject: takes over the caller's reference, unless it fails;
    NULL is an error of its own (TypeError before
    Python 3.10), but does not replace one that is set. [true]: 0 is returned. *)
Definition add_object (m : nat) (name : string) (o : option obj) (s : ist) : ist * bool :=
  match o with
  | None => (match exc s with None => with_exc (Some SystemError) s | Some _ => s end, false)
  | Some o =>
      if G (asked s) then
        let old := entry (dict s m) name in
        let s := set_dict m (put (dict s m) name o) (ask s) in
        (match old with Some x => dec x s | None => s end, true)
      else (with_exc (Some MemoryError) (ask s), false)
  end.

(** PyInit_IntArrayList and its like: the module of one class. *)
Definition init_one (c : string) (s : ist) : ist * option obj :=
  match module_create s with
  | (s, None) => (s, None)
  | (s, Some m) =>
      match add_object m c (Some (OType c)) (inc (OType c) s) with
      | (s, true) => (s, Some (OMod m))
      | (s, false) => (dec (OMod m) (dec (OType c) s), None)
      end
  end.

(** PyFastUtil.cpp 39-57. *)
Definition classes : list string :=
  ["IntArrayList"; "IntArrayListIter"; "BigIntArrayList"; "BigIntArrayListIter"; "IntLinkedList"; "IntLinkedListIter";
   "ObjectArrayList"; "ObjectArrayListIter"; "ObjectLinkedList"; "ObjectLinkedListIter";
   "Unsafe"; "SIMD"; "SIMDLowAVX512"; "ASM"].
(** What PyModule_AddObject returns is not looked at. *)
Fixpoint add_all (p : nat) (cs : list string) (s : ist) : ist :=
  match cs with
  | [] => s
  | c :: r => let (s, o) := init_one c s in add_all p r (fst (add_object p c o s))
  end.
(** PyInit___pyfastutil, 31-60. *)
Definition py_init (s : ist) : ist * option nat :=
  match module_create s with
  | (s, None) => (s, None)
  | (s, Some p) => (add_all p classes s, Some p)
  end.

(** What the interpreter does with the result (CPython,
    _PyImport_LoadDynamicModuleWithSpec): an error indicator that is set beside
    a module is an error, and the module is forgotten. *)
Inductive loaded := Loaded (p : nat) | Failed (e : exn).
Definition load (s : ist) : ist * loaded :=
  match py_init s with
  | (s, None) => (with_exc None s, Failed (match exc s with Some e => e | None => SystemError end))
  | (s, Some p) => match exc s with None => (s, Loaded p) | Some _ => (with_exc None s, Failed SystemError) end
  end.
End Memory.

(** ints.py 1-22, objects.py 1-13 and unsafe/__init__.py 1-20: first all the
    modules are taken out of the extension module, then the class of each. *)
Definition ints_py : list string := ["IntArrayList"; "IntArrayListIter"; "BigIntArrayList"; "BigIntArrayListIter"; "IntLinkedList"; "IntLinkedListIter"].
Definition objects_py : list string := ["ObjectArrayList"; "ObjectArrayListIter"; "ObjectLinkedList"; "ObjectLinkedListIter"].
Definition unsafe_py : list string := ["Unsafe"; "ASM"; "SIMD"; "SIMDLowAVX512"].
Inductive pyerr := ImportError | AttributeError.
Fixpoint from_import (d : list (string * obj)) (names : list string) : list (string * obj) + pyerr :=
  match names with
  | [] => inl []
  | n :: r => match entry d n with
              | None => inr ImportError
              | Some o => match from_import d r with inl l => inl ((n, o) :: l) | inr e => inr e end
              end
  end.
Fixpoint take_out (s : ist) (l : list (string * obj)) : list (string * obj) + pyerr :=
  match l with
  | [] => inl []
  | (n, o) :: r =>
      match (match o with OMod m => entry (dict s m) n | OType _ => None end) with
      | None => inr AttributeError
      | Some t => match take_out s r with inl l => inl ((n, t) :: l) | inr e => inr e end
      end
  end.
Definition py_file (s : ist) (p : nat) (names : list string) : list (string * obj) + pyerr :=
  match from_import (dict s p) names with inl l => take_out s l | inr e => inr e end.
