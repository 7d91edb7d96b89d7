(** ints/IntIntHashMap.cpp: construction and copy of the int to int map. The
    class is compiled but not registered with the module; a program reaches it
    through PyInit_IntIntHashMap only.

    Keys and values are ints or objects without [__index__]; user code called
    during the construction is represented by the answers it gives. *)
From Coq Require Import ZArith List Bool.
From Verif Require Import Base PyLongModel HashModel.
Import ListNotations.
Local Open Scope Z_scope.

(** [key_first]: whether the compiler evaluates the first argument of a call
    before the second. *)
Record mapcfg := { m_py312 : bool; key_first : bool }.

(** A C value and the error the conversion has set, if any. *)
Definition conv (r : outcome Z) : Z * option exn :=
  match r with Ret z => (z, None) | Raise e => (-1, Some e) | RetPending z e => (z, Some e) | Undef _ => (-1, None) end.
(** convert, 15-17: PyLong_AsLong is narrowed to int. *)
Definition convert (cfg : mapcfg) (o : pyobj) : Z * option exn :=
  match o with
  | PInt z => conv (PyFast_AsInt (m_py312 cfg) (mk_pylong z))
  | PObj _ => let '(z, e) := conv (as_long o) in (wrap 32 z, e)
  end.
(** [int] made from PyLong_AsLong, 207. *)
Definition as_int (o : pyobj) : Z * option exn := let '(z, e) := conv (as_long o) in (wrap 32 z, e).
(** A later error replaces the one that is set. *)
Definition later (a b : option exn) : option exn := match b with Some _ => b | None => a end.

Definition state : Type := table Z * option exn.
(** map.emplace(convert(key), convert(value)). *)
Definition put (cfg : mapcfg) (s : state) (k v : pyobj) : run state :=
  let '(kz, ke) := convert cfg k in
  let '(vz, ve) := convert cfg v in
  let p := if key_first cfg then later (later (snd s) ke) ve else later (later (snd s) ve) ke in
  rbind (emplace hash_int (fst s) kz vz) (fun '(t, _, _) => Ok (t, p)).
(** map[PyLong_AsLong(key)] = PyLong_AsLong(value), 207: the right side of an
    assignment is evaluated first. *)
Definition put_last (s : state) (k v : pyobj) : run state :=
  let '(vz, ve) := as_int v in
  let '(kz, ke) := as_int k in
  rbind (assign hash_int 0 (fst s) kz vz) (fun t => Ok (t, later (later (snd s) ve) ke)).

(** Return with the error indicator looked at. *)
Definition checked (s : state) : outcome (table Z) := match snd s with Some e => Raise e | None => Ret (fst s) end.

(** PyDict_Next loop, 87-96: the error is looked at after the loop only. *)
Fixpoint dict_loop (cfg : mapcfg) (items : list (pyobj * pyobj)) (s : state) : run state :=
  match items with [] => Ok s | (k, v) :: r => rbind (put cfg s k v) (dict_loop cfg r) end.

(** The mapping branch, 98-142. PyMapping_Keys hands out a new list or an error,
    so the loop in 126-139 is never entered; each key comes with the answer of
    PyObject_GetItem. Line 107 releases [keys] and sets it to null, 140 releases
    it again. *)
Fixpoint mapping_loop (cfg : mapcfg) (items : list (pyobj * outcome pyobj)) (s : state) : run (outcome (table Z)) :=
  match items with
  | [] => Ok (Undef NullDeref)
  | (k, Ret v) :: r => rbind (put cfg s k v) (mapping_loop cfg r)
  | (_, Raise e) :: r | (_, RetPending _ e) :: r => Ok (Raise e)
  | (_, Undef u) :: r => Ok (Undef u)
  end.

(** Entries of an iterable: a list, a tuple, another iterable (its items up to
    the end or its first error), or an object that is not iterable. *)
Inductive entry := EList (l : list pyobj) | ETuple (l : list pyobj) | EIter (l : list pyobj) | ENone.
(** The loop over an iterator, 192-237. PyIter_Next is called with a null pointer
    for an entry that is not iterable (219-222); the items of another iterable
    beyond the second are ignored; an error of its iterator is replaced by
    ValueError. [tail] is the error the iterator ends with: it is not looked at
    after the loop. *)
Fixpoint iter_loop (cfg : mapcfg) (es : list entry) (tail : option exn) (s : state) : run (outcome (table Z)) :=
  match es with
  | [] => Ok (match tail with Some e => RetPending (fst s) e | None => Ret (fst s) end)
  | e :: r =>
      let go (x : run state) := rbind x (fun s => match snd s with Some e => Ok (Raise e) | None => iter_loop cfg r tail s end) in
      match e with
      | EList [k; v] => go (put_last s k v)
      | ETuple [k; v] => go (put cfg s k v)
      | EIter (k :: v :: _) => go (put cfg s k v)
      | EList _ | ETuple _ | EIter _ => Ok (Raise ValueError)
      | ENone => Ok (Undef NullDeref)
      end
  end.
(** The loop over a list or tuple that is an iterator itself (a subclass with
    __next__), 146-190: the entries that are lists are read as tuples, so two
    fields of the list object are taken for objects. *)
Fixpoint fast_loop (cfg : mapcfg) (es : list entry) (s : state) : run (outcome (table Z)) :=
  match es with
  | [] => Ok (Ret (fst s))
  | e :: r =>
      let go (x : run state) := rbind x (fun s => match snd s with Some e => Ok (Raise e) | None => fast_loop cfg r s end) in
      match e with
      | EList [k; v] => Ok (Undef OutOfBounds)
      | ETuple [k; v] => go (put cfg s k v)
      | EIter (k :: v :: _) => go (put cfg s k v)
      | EList _ | ETuple _ | EIter _ => Ok (Raise ValueError)
      | ENone => Ok (Undef NullDeref)
      end
  end.

(** Arguments: another map, a dict, an iterator with its entries and the error
    it ends with, a list or tuple that is an iterator, another mapping with a
    [keys] attribute (its items, or the error of [keys]), anything else. *)
Inductive arg :=
| AMap (t : table Z) | ADict (items : list (pyobj * pyobj)) | AIter (es : list entry) (tail : option exn) | ASeqIter (es : list entry)
| AMapping (m : list (pyobj * outcome pyobj) + exn) | AOther.
(** AttributeError. *)
Definition no_keys : exn := UserError 0.
(** PyMapping_Keys and PyObject_GetItem of an argument. *)
Definition keys_of (a : arg) : list (pyobj * outcome pyobj) + exn :=
  match a with
  | ADict items => inl (map (fun '(k, v) => (k, Ret v)) items)
  | AMapping m => m
  | _ => inr no_keys
  end.
Definition from_mapping (cfg : mapcfg) (a : arg) : run (outcome (table Z)) :=
  match keys_of a with inl items => mapping_loop cfg items (empty_table, None) | inr e => Ok (Raise e) end.

Record call := { positional : list arg; kw_map : option arg; kw_iterable : option arg; kw_other : bool }.
(** Argument parsing, 31-47: [arg1] and [arg2], or TypeError. *)
Definition parse (c : call) : option (option arg * option arg) :=
  match positional c with
  | _ :: _ :: _ => None
  | p => if kw_other c then None
         else match p, kw_map c with
              | [_], Some _ => None
              | [a], None => Some (Some a, kw_iterable c)
              | _, m => Some (m, kw_iterable c)
              end
  end.

(** IntIntHashMap_init, 19-247. [captured]: whether an earlier call has made the
    static lambda of 66, which refers to the local variables of that call; it is
    called in 82 or 83 and reads extraKwargs through the reference. The format
    string has no place for extraKwargs, so it is null in the call that made
    the lambda. std::exception becomes RuntimeError. *)
Definition handler (r : run (outcome (table Z))) : run (outcome (table Z)) :=
  match r with Throws => Ok (Raise RuntimeError) | x => x end.
Definition fill (cfg : mapcfg) (arg1 arg2 : option arg) : run (outcome (table Z)) :=
  handler
  match arg1 with
  | None => Ok (Ret empty_table)
  | Some (AMap t) => Ok (Ret (copy t))
  | Some (ADict items) => rbind (dict_loop cfg items (empty_table, None)) (fun s => Ok (checked s))
  | Some (AIter es tail) =>
      match arg2 with Some a => from_mapping cfg a | None => iter_loop cfg es tail (empty_table, None) end
  | Some (ASeqIter es) =>
      match arg2 with Some a => from_mapping cfg a | None => fast_loop cfg es (empty_table, None) end
  | Some (AMapping m) => from_mapping cfg (AMapping m)
  | Some AOther => Ok (Raise TypeError)
  end.
Definition init (cfg : mapcfg) (captured : bool) (c : call) : run (outcome (table Z)) * bool :=
  match parse c with
  | None => (Ok (Raise TypeError), captured)
  | Some (Some AOther, _) => (Ok (Raise TypeError), captured)
  | Some (arg1, arg2) => if captured then (Ok (Undef Dangling), true) else (fill cfg arg1 arg2, true)
  end.

(** IntIntHashMap_copy, 254-269: a new object is constructed first. *)
Definition no_args : call := {| positional := []; kw_map := None; kw_iterable := None; kw_other := false |}.
Definition copy_method (cfg : mapcfg) (captured : bool) (t : table Z) : run (outcome (table Z)) * bool :=
  let '(r, c) := init cfg captured no_args in
  (rbind r (fun o => Ok (obind o (fun _ => Ret (copy t)))), c).
