(** The helpers for natively compiled code in utils/PythonUtils.h 171-307:
    PyFast_CallNoArgs 250-264, PyFast_CallNoKwargs 266-284, PyFast_Call 286-307,
    what they build their arguments with (PyFast_TuplePack 195-201,
    PyFast_DictPackWithTuple 203-226) and PyFast_LoadGlobal 171-193. Nothing in
    the repository calls them yet.

    A call reaches its callee in one of three ways: the tp_vectorcall of the
    callable's type, the vectorcall pointer kept in the callable, or tp_call.
    The state is the reference counts; what the callee answers is an input.

    Simplified: the callee leaves all counts alone but for the result it hands
    over, and keeps neither the tuple nor the dict it is given; the hashes that
    come with keyword names are theirs and the names of one call differ. *)
From Coq Require Import ZArith List Bool.
From Verif Require Import Base ObjModel.
Import ListNotations.
Local Open Scope Z_scope.

(** A callable: its type's tp_vectorcall, Py_TPFLAGS_HAVE_VECTORCALL, its own
    vectorcall pointer, tp_call; whether it is a bound method (PyMethod_Type), a class. *)
Record callable := {
  id : Z; type_vec : bool; have_vec : bool; own_vec : bool; tp_call : bool; is_method : bool; is_class : bool }.
(** Wrong turns: a null function pointer is called; a bound method writes before
    the arguments; the constructor of a type is called with an instance in place
    of the type; a null pointer is written through; a dead object is touched. *)
Inductive wrong := NullCall | BeforeArgs | NotAType | NullWrite | DeadObject.
(** [answer]: what the callee returns; [imm]: immortal objects; [memory]:
    whether a tuple, a dict can be made. *)
Record env := { answer : Z -> list Z -> list (Z * Z) -> option Z; imm : Z -> bool; tuple_ok : bool; dict_ok : bool }.
(** The result (NULL: None), the counts, and who was called with what. *)
Inductive nres := Done (r : option Z) (rc : counts) (seen : list (Z * list Z * list (Z * Z))) | Crash (w : wrong).

Definition inc (E : env) (o : Z) (rc : counts) : counts := if imm E o then rc else upd rc o (rc o + 1).
(** Py_DECREF *)
Definition dec (E : env) (o : Z) (rc : counts) : option counts :=
  if imm E o then Some rc else if rc o <=? 0 then None else Some (upd rc o (rc o - 1)).
Fixpoint decs (E : env) (os : list Z) (rc : counts) : option counts :=
  match os with [] => Some rc | o :: r => match dec E o rc with Some rc => decs E r rc | None => None end end.
Definition incs (E : env) (os : list Z) (rc : counts) : counts := fold_left (fun rc o => inc E o rc) os rc.

(** The callee runs and hands over its result. *)
Definition enter (E : env) (c : callable) (pos : list Z) (kw : list (Z * Z)) (rc : counts) : option Z * counts :=
  match answer E (id c) pos kw with Some r => (Some r, inc E r rc) | None => (None, rc) end.
(** type->tp_vectorcall(callable, ...): the function that makes instances of the
    type. For type itself it treats the callable as the class to be called. *)
Definition by_type (E : env) (c : callable) (pos : list Z) (kw : list (Z * Z)) (rc : counts) : nres :=
  if is_class c then let (r, rc) := enter E c pos kw rc in Done r rc [(id c, pos, kw)] else Crash NotAType.
(** The callable's own vectorcall. GET_NARGS_F (245) tells a bound method that
    the slot before the arguments is its to use. [args]: there is an array. *)
Definition by_slot (E : env) (c : callable) (args : bool) (pos : list Z) (kw : list (Z * Z)) (rc : counts) : nres :=
  if negb (own_vec c) then Crash NullCall
  else if is_method c then Crash (if args then BeforeArgs else NullWrite)
  else let (r, rc) := enter E c pos kw rc in Done r rc [(id c, pos, kw)].

(** PyFast_CallNoArgs *)
Definition call_no_args (E : env) (c : callable) (rc : counts) : nres :=
  if type_vec c then by_type E c [] [] rc
  else if have_vec c then by_slot E c false [] [] rc
  else if tp_call c then let (r, rc) := enter E c [] [] rc in Done r rc [(id c, [], [])]
  else Crash NullCall.

(** PyFast_TuplePack: the pointers are copied, no reference is taken; releasing
    the tuple releases its items. *)
Definition tuple_pack (E : env) : bool := tuple_ok E.
Definition tuple_free (E : env) (items : list Z) (rc : counts) : option counts := decs E items rc.
(** PyFast_DictPackWithTuple: the dict takes a reference to each key and value. *)
Definition dict_pack (E : env) (kw : list (Z * Z)) (rc : counts) : option counts :=
  if dict_ok E then Some (incs E (map fst kw ++ map snd kw) rc)
  else match kw with [] => Some rc | _ => None end.
Definition dict_free (E : env) (kw : list (Z * Z)) (rc : counts) : option counts :=
  if dict_ok E then decs E (map fst kw ++ map snd kw) rc else None.

(** PyFast_CallNoKwargs *)
Definition call_no_kwargs (E : env) (c : callable) (args : list Z) (rc : counts) : nres :=
  if type_vec c then by_type E c args [] rc
  else if have_vec c then by_slot E c true args [] rc
  else if negb (tuple_pack E) then Crash NullWrite
  else if negb (tp_call c) then Crash NullCall
  else let (r, rc) := enter E c args [] rc in
       match tuple_free E args rc with Some rc => Done r rc [(id c, args, [])] | None => Crash DeadObject end.

(** PyFast_Call: the values of the keywords follow the positional arguments. *)
Definition call_kw (E : env) (c : callable) (args : list Z) (n : nat) (names : list Z) (rc : counts) : nres :=
  let pos := firstn n args in
  let kw := combine names (skipn n args) in
  if type_vec c then by_type E c pos kw rc
  else if have_vec c then by_slot E c true pos kw rc
  else if negb (tuple_pack E) then Crash NullWrite
  else match dict_pack E kw rc with
       | None => Crash NullWrite
       | Some rc =>
           if negb (tp_call c) then Crash NullCall
           else let (r, rc) := enter E c pos kw rc in
                match tuple_free E pos rc with
                | None => Crash DeadObject
                | Some rc => match dict_free E kw rc with
                             | Some rc => Done r rc [(id c, pos, kw)]
                             | None => Crash (if dict_ok E then DeadObject else NullWrite)
                             end
                end
       end.

(** PyFast_LoadGlobal: PyThreadState_GetFrame, PyFrame_GetGlobals and
    PyFrame_GetBuiltins return new references; [frame] is None when no Python
    code is running. The lookups are borrowed. *)
Record globals := { frame : option Z; gdict : Z; bdict : Z; glob : Z -> option Z; builtin : Z -> option Z }.
Definition load_global (E : env) (G : globals) (name : Z) (rc : counts) : nres :=
  match frame G with
  | None => Crash NullWrite
  | Some f =>
      let rc := inc E (bdict G) (inc E (gdict G) (inc E f rc)) in
      match match glob G name with Some v => Some v | None => builtin G name end with
      | Some v => Done (Some v) (inc E v rc) []
      | None => Done None rc []
      end
  end.
Fixpoint load_many (E : env) (G : globals) (names : list Z) (rc : counts) : option counts :=
  match names with
  | [] => Some rc
  | x :: r => match load_global E G x rc with
              | Done v rc _ => match match v with Some v => dec E v rc | None => Some rc end with
                               | Some rc => load_many E G r rc
                               | None => None
                               end
              | Crash _ => None
              end
  end.
