(** The remaining helpers for natively compiled code in utils/PythonUtils.h:
    PyFast_FromDigits (159-169), PyFast_GetIter (228-243), PyFast_Next (309-311).
    No caller exists yet. *)
From Coq Require Import ZArith List Bool.
From Verif Require Import Base PyLongModel.
Import ListNotations.
Local Open Scope Z_scope.

(** ** PyFast_FromDigits *)
(** CPython's PyLong_FromString(text, nullptr, 10): white space, a sign, digits
    with single underscores between them, white space, the end of the string.
    Characters are ASCII codes; the terminating 0 is left out. *)
Definition is_space (c : Z) : bool := ((9 <=? c) && (c <=? 13)) || (c =? 32).
Definition is_digit (c : Z) : bool := (48 <=? c) && (c <=? 57).
Fixpoint skip_space (t : list Z) : list Z :=
  match t with c :: r => if is_space c then skip_space r else t | [] => [] end.
(** [bar]: no digit has been read since the last underscore or the beginning. *)
Fixpoint scan (bar : bool) (t : list Z) (ds : list Z) : option (list Z * list Z) :=
  match t with
  | c :: r => if is_digit c then scan false r (ds ++ [c - 48])
              else if c =? 95 then (if bar then None else scan true r ds)
              else if bar then None else Some (ds, t)
  | [] => if bar then None else Some (ds, [])
  end.
Definition sign_of (t : list Z) : bool * list Z :=
  match t with
  | c :: r => if c =? 43 then (false, r) else if c =? 45 then (true, r) else (false, t)
  | [] => (false, [])
  end.
Definition ten (ds : list Z) : Z := fold_left (fun a d => a * 10 + d) ds 0.
(** [limit]: sys.get_int_max_str_digits(), 0 for none (older versions have none). *)
Definition from_string (limit : Z) (text : list Z) : outcome pylong :=
  let '(neg, t) := sign_of (skip_space text) in
  match scan true t [] with
  | None => Raise ValueError
  | Some (ds, rest) =>
      if (0 <? limit) && (limit <? zlen ds) then Raise ValueError
      else match skip_space rest with
           | [] => Ret (mk_pylong (if neg then - ten ds else ten ds))
           | _ => Raise ValueError
           end
  end.
(** _PyLong_FromDigits of 3.12: zero for no digits, else the digits as they are. *)
Definition from_digits (neg : bool) (count : Z) (digits : list Z) : outcome pylong :=
  if count =? 0 then Ret (mk_pylong 0)
  else if (count <? 0) || (zlen digits <? count) then Undef OutOfBounds
  else Ret {| pl_neg := neg; pl_digits := firstn (Z.to_nat count) digits |}.
Definition PyFast_FromDigits (py312 : bool) (limit : Z) (text : list Z) (neg : bool) (count : Z) (digits : list Z) : outcome pylong :=
  if py312 then from_digits neg count digits else from_string limit text.

(** ** PyFast_GetIter and PyFast_Next *)
(** What a tp_iter slot returns: an iterator, something else, or an error. *)
Inductive made := Iterator (i : Z) | NoIterator (o : Z) | Failed (e : exn).
Inductive kind := TList | TTuple | TDict | TSet | TUnicode | TOther.
(** The slots of an object's type; [sequence]: the type has sq_item, and the
    answer of PySeqIter_New. *)
Record object := { type_is : kind; tp_iter : option made; sequence : option made }.
(** CPython's PyObject_GetIter: what is no iterator is released. *)
Definition object_get_iter (o : object) : outcome Z :=
  match tp_iter o with
  | None => match sequence o with Some (Iterator i) => Ret i | Some (NoIterator _) => Raise TypeError | Some (Failed e) => Raise e | None => Raise TypeError end
  | Some (Iterator i) => Ret i
  | Some (NoIterator _) => Raise TypeError
  | Some (Failed e) => Raise e
  end.
Definition slot (o : object) : outcome Z :=
  match tp_iter o with Some (Iterator i) | Some (NoIterator i) => Ret i | Some (Failed e) => Raise e | None => Undef NullDeref end.
Definition PyFast_GetIter (o : object) : outcome Z :=
  match type_is o with
  | TList | TTuple | TDict | TSet | TUnicode => slot o
  | TOther => object_get_iter o
  end.

(** A step of tp_iternext: an item, the end without an error, or an error set
    (which may be StopIteration). *)
Inductive nextres := Item (o : Z) | Ended | NextFails (e : exn).
(** What the caller finds: the returned pointer and the error indicator. *)
Definition found : Type := option Z * option exn.
Definition PyFast_Next (iternext : option nextres) : outcome found :=
  match iternext with
  | None => Undef NullDeref
  | Some (Item o) => Ret (Some o, None)
  | Some Ended => Ret (None, None)
  | Some (NextFails e) => Ret (None, Some e)
  end.
(** CPython's PyIter_Next clears StopIteration. *)
Definition iter_next (iternext : option nextres) : outcome found :=
  match iternext with
  | None => Undef NullDeref
  | Some (Item o) => Ret (Some o, None)
  | Some Ended | Some (NextFails StopIteration) => Ret (None, None)
  | Some (NextFails e) => Ret (None, Some e)
  end.
