(** What a map built from pairs holds, as finite maps: vocabulary for C71. *)
From Coq Require Import ZArith List Bool.
From Verif Require Import Base HashModel HashSpec MapModel.
Import ListNotations.
Local Open Scope Z_scope.

(** The C int an object is turned into, and the error that sets. *)
Definition int_of (py312 : bool) (o : pyobj) : Z :=
  match o with
  | PInt z => if py312 then (if in_sbits_b 32 z then z else -1) else Z.sgn z * (Z.abs z mod 2 ^ 30)
  | PObj _ => -1
  end.
Definition error_of (py312 : bool) (o : pyobj) : option exn :=
  match o with
  | PInt z => if py312 && negb (in_sbits_b 32 z) then Some OverflowError else None
  | PObj _ => Some TypeError
  end.
Definition long_error (o : pyobj) : option exn :=
  match o with PInt z => if in_sbits_b 64 z then None else Some OverflowError | PObj _ => Some TypeError end.
(** Ints that every path stores as they are. *)
Definition plain (py312 : bool) (z : Z) : Prop := if py312 then in_sbits 32 z else Z.abs z < 2 ^ 30.

(** A binding made only if the key is new, or in any case. *)
Definition keep (l : list (Z * Z)) (k v : Z) : list (Z * Z) :=
  match lookup l k with Some _ => l | None => bind l k v end.
Definition keep_all (kvs : list (Z * Z)) : list (Z * Z) -> list (Z * Z) := fold_left (fun l '(k, v) => keep l k v) kvs.
(** dict(pairs) *)
Definition py_dict (kvs : list (Z * Z)) : list (Z * Z) := fold_left (fun l '(k, v) => bind l k v) kvs [].

(** A pair of objects as ints. *)
Definition ints (cfg : mapcfg) (kv : pyobj * pyobj) : Z * Z := (int_of (m_py312 cfg) (fst kv), int_of (m_py312 cfg) (snd kv)).

(** The last error of a run of conversions. *)
Fixpoint last_error (es : list (option exn)) : option exn :=
  match es with
  | [] => None
  | e :: r => match last_error r with Some x => Some x | None => e end
  end.
(** The conversions of a pair in the order they are made. *)
Definition errors (cfg : mapcfg) (kv : pyobj * pyobj) : list (option exn) :=
  let k := error_of (m_py312 cfg) (fst kv) in let v := error_of (m_py312 cfg) (snd kv) in
  if key_first cfg then [k; v] else [v; k].

(** An entry of an iterable that is a pair of plain ints: [true] if a later
    entry with the same key replaces an earlier one. *)
Inductive good (py312 : bool) : entry -> bool -> Z -> Z -> Prop :=
| good_list k v : plain py312 k -> plain py312 v -> good py312 (EList [PInt k; PInt v]) true k v
| good_tuple k v : plain py312 k -> plain py312 v -> good py312 (ETuple [PInt k; PInt v]) false k v
| good_iter k v more : plain py312 k -> plain py312 v -> good py312 (EIter (PInt k :: PInt v :: more)) false k v.
Inductive goods (py312 : bool) : list entry -> list (bool * (Z * Z)) -> Prop :=
| goods_nil : goods py312 [] []
| goods_cons e b k v es r : good py312 e b k v -> goods py312 es r -> goods py312 (e :: es) ((b, (k, v)) :: r).
Definition enter (l : list (Z * Z)) (e : bool * (Z * Z)) : list (Z * Z) :=
  let '(b, (k, v)) := e in if b then bind l k v else keep l k v.

(** The first answer of PyObject_GetItem that is an error. *)
Fixpoint first_error (items : list (pyobj * outcome pyobj)) : option exn :=
  match items with [] => None | (_, Raise e) :: _ => Some e | _ :: r => first_error r end.
Definition answers (items : list (pyobj * outcome pyobj)) : Prop :=
  Forall (fun kv => match snd kv with Ret _ | Raise _ => True | _ => False end) items.

(** A construction whose arguments are accepted: IntIntHashMap(), or with one
    argument that is usable, by position or as __map; __iterable beside it. *)
Definition accepted (c : call) : Prop :=
  kw_other c = false /\
  ((positional c = [] /\ kw_map c <> Some AOther) \/
   (exists a, positional c = [a] /\ kw_map c = None /\ a <> AOther)).

(** An entry that stops the construction, and how. *)
Definition stop_of (cfg : mapcfg) (e : entry) : option (outcome (table Z)) :=
  let pair (first second : option exn) := option_map Raise (last_error [first; second]) in
  let put k v := let ke := error_of (m_py312 cfg) k in let ve := error_of (m_py312 cfg) v in
                 if key_first cfg then pair ke ve else pair ve ke in
  match e with
  | EList [k; v] => pair (long_error v) (long_error k)
  | ETuple [k; v] => put k v
  | EIter (k :: v :: _) => put k v
  | ENone => Some (Undef NullDeref)
  | _ => Some (Raise ValueError)
  end.
(** A call with one positional argument. *)
Definition one (a : arg) : call := {| positional := [a]; kw_map := None; kw_iterable := None; kw_other := false |}.
(** The pairs a list or tuple that is an iterator may hold. *)
Definition no_lists (es : list entry) : Prop := forall k v, ~ In (EList [k; v]) es.
