(** Operands of another class: a list of one of the three int classes given to
    a list of another, and instances of Python subclasses. The sources call the
    classes final ("IntArrayList is a final class", IntArrayList.cpp 57,
    IntLinkedList.cpp 39), but the types carry Py_TPFLAGS_BASETYPE
    (IntArrayList.cpp 1231, BigIntArrayList.cpp 1233, IntLinkedList.cpp 1141)
    and an operand is recognised only by its exact type.

    Simplified: the Python subclasses define no methods of their own, so the
    slots are the inherited ones; counts of references are in IRefModel. *)
From Coq Require Import ZArith List Bool.
From Verif Require Import Base PyLongModel PyListSpec ArrayListModel ArrayListMoreModel StdListModel LinkedListModel.
Import ListNotations.
Local Open Scope Z_scope.

Inductive cls := CArr (k : kind) | CLnk.
Inductive lobj := Arr (k : kind) (s : list Z) | Lnk (l : ll).
Definition class_of (o : lobj) : cls := match o with Arr k _ => CArr k | Lnk _ => CLnk end.
Definition same_class (a b : cls) : bool :=
  match a, b with CArr KInt, CArr KInt | CArr KBig, CArr KBig | CLnk, CLnk => true | _, _ => false end.
(** [exact]: the type is the class itself, not a Python subclass of it. *)
Record operand := { exact : bool; obj : lobj }.
(** [Py_TYPE(x) == &IntArrayListType]: IntArrayList.cpp 57, 251, 703, 742, 917,
    967, 999, 1031, 1063; BigIntArrayList.cpp 57, 251, 705, 744, 919, 969, 1001,
    1033, 1065; IntLinkedList.cpp 39, 206, 664, 703. *)
Definition recognised (c : cls) (x : operand) : bool := exact x && same_class c (class_of (obj x)).
Definition held (o : lobj) : list Z := match o with Arr _ s => s | Lnk l => values (lst l) end.
Definition elem_kind (o : lobj) : kind := match o with Arr k _ => k | Lnk _ => KInt end.

(** What PyLong_AsLong sees of the object made for an element (see get_as_int). *)
Definition item (cfg : config) (k : kind) (v : Z) : pyobj := PInt (pl_val (from_elem cfg k v)).

(** PyObject_GetIter and PyIter_Next until StopIteration, which PyIter_Next
    clears; tp_iter of the classes is IntArrayListIter_create and its siblings. *)
Fixpoint drain {I} (next : I -> outcome Z * I) (n : nat) (it : I) : outcome (list Z) :=
  match n with
  | O => Raise SystemError   (* not reached: one call more than elements *)
  | S m => match next it with
           | (Ret v, it') => omap (cons v) (drain next m it')
           | (Raise StopIteration, _) => Ret []
           | (Raise e, _) => Raise e
           | (RetPending _ e, _) => Raise e
           | (Undef u, _) => Undef u
           end
  end.
Definition iterate (o : lobj) : outcome (list Z) :=
  match o with
  | Arr _ s => drain (fun it => iter_next it s) (S (length s)) (iter_create false s)
  | Lnk l => obind (liter_create false l) (drain (fun it => liter_next it l) (S (size (lst l))))
  end.

(** The iterable argument of class [c]'s functions. *)
Definition as_arg (cfg : config) (c : cls) (x : operand) : outcome arg :=
  if recognised c x then Ret (ASame (held (obj x)))
  else omap (fun vs => AIter (map (item cfg (elem_kind (obj x))) vs) None) (iterate (obj x)).

(** Construction: IntArrayList.cpp 42-111, BigIntArrayList.cpp 42-111,
    IntLinkedList.cpp 23-93. *)
Definition make (cfg : config) (c : cls) (x : operand) : outcome lobj :=
  obind (as_arg cfg c x) (fun a =>
  match c with
  | CArr k => obind (init k (IArg a)) (fun v => match v with VNewList s => Ret (Arr k s) | _ => Raise SystemError end)
  | CLnk => omap Lnk (linit (IArg a))
  end).

(** extend: IntArrayList.cpp 239-290, IntLinkedList.cpp 194-240; [inplace] is
    +=: 738-782 and 699-736. *)
Definition extend_with (cfg : config) (inplace : bool) (t : lobj) (x : operand) : outcome val * lobj :=
  match as_arg cfg (class_of t) x with
  | Ret a =>
      match t with
      | Arr k s => let r := (if inplace then iadd else extend) k a s in (fst r, Arr k (snd r))
      | Lnk l => let r := (if inplace then liadd else lextend) a l in (fst r, Lnk (snd r))
      end
  | Raise e => (Raise e, t)
  | RetPending _ e => (Raise e, t)
  | Undef u => (Undef u, t)
  end.

(** +: IntArrayList.cpp 702-736, IntLinkedList.cpp 663-697. Another class is no
    Python list, so PySequence_Concat fails. *)
Definition add_with (cfg : config) (t : lobj) (x : operand) : outcome val :=
  let a := if recognised (class_of t) x then AddSame (held (obj x)) else AddOther in
  match t with Arr k s => fst (add cfg k a s) | Lnk l => fst (ladd cfg a l) end.

(** PySequence_Size and PySequence_GetItem: the len and item functions of the
    operand's class; the callers ask for no negative index. *)
Definition seq_len (o : lobj) : outcome Z :=
  match o with Arr _ s => Ret (zlen s) | Lnk l => Ret (lsize l) end.
Definition seq_item (cfg : config) (o : lobj) (i : Z) : outcome pyobj :=
  if i <? 0 then Raise IndexError
  else obind (match o with Arr k s => fst (getitem cfg k i s) | Lnk l => fst (lgetitem cfg i l) end) (fun v =>
       match v with VElem p => Ret (PInt (pl_val p)) | _ => Raise SystemError end).

(** The comparison slots: IntArrayList.cpp 914-1110, IntLinkedList.cpp 856-1043.
    The linked list recognises no class. *)
Definition compare_with (cfg : config) (c : cmp_op) (t : lobj) (x : operand) : outcome bool :=
  let a := CSeq (seq_len (obj x)) (seq_item cfg (obj x)) in
  match t with
  | Arr k s => compare_ k c (if recognised (CArr k) x then CSame (held (obj x)) else a) s
  | Lnk l => lcompare c a l
  end.
(** x < y and so on: CPython's do_richcompare asks the right operand first if
    its class is a proper subclass of the left one's ([sub]). *)
Definition swapped (c : cmp_op) : cmp_op :=
  match c with Lt_ => Gt_ | Gt_ => Lt_ | Le_ => Ge_ | Ge_ => Le_ | _ => c end.
Definition rich_compare (cfg : config) (c : cmp_op) (x y : operand) (sub : bool) : outcome bool :=
  if sub then compare_with cfg (swapped c) (obj y) x else compare_with cfg c (obj x) y.

(** x[i:j] = y: IntArrayList.cpp 599-688, IntLinkedList.cpp 567-661. *)
Definition assign_slice (cfg : config) (sl : slice) (t : lobj) (x : operand) : outcome val * lobj :=
  let src := {| src_len := fun _ => seq_len (obj x); src_get := fun _ => seq_item cfg (obj x) |} in
  match t with
  | Arr k s => let r := setitem_slice k sl (AssSeq src) s in (fst r, Arr k (snd r))
  | Lnk l => let r := lsetitem_slice sl (AssSeq src) l in (fst r, Lnk (snd r))
  end.

(** The item loop of extend and += (IntArrayList.cpp 270-286, IntLinkedList.cpp
    218-232) when it reads an iterator over the list it extends: x.extend(x)
    for an instance of a subclass, x.extend(iter(x)) for any list. The first
    [n] rounds; [None]: still running. *)
Fixpoint own_rounds (cfg : config) (k : kind) (n : nat) (it : iter) (s : list Z) : option (outcome unit) * list Z :=
  match n with
  | O => (None, s)
  | S m =>
      match iter_next it s with
      | (Ret v, it') =>
          match as_elem k (item cfg k v) with
          | Ret w => own_rounds cfg k m it' (s ++ [w])
          | Raise e => (Some (Raise e), s)
          | RetPending _ e => (Some (Raise e), s)
          | Undef u => (Some (Undef u), s)
          end
      | (Raise StopIteration, _) => (Some (Ret tt), s)
      | (Raise e, _) => (Some (Raise e), s)
      | (RetPending _ e, _) => (Some (Raise e), s)
      | (Undef u, _) => (Some (Undef u), s)
      end
  end.
Fixpoint lown_rounds (cfg : config) (n : nat) (it : liter) (pend : option exn) (l : ll) : option (outcome unit) * ll :=
  match n with
  | O => (None, l)
  | S m =>
      match liter_next it l with
      | (Ret v, it') =>
          match pend with
          | Some e => (Some (Raise e), l)
          | None => let '(w, err) := conv_pending KInt (item cfg KInt v) in
                    lown_rounds cfg m it' err (put l (push_back (lst l) w))
          end
      | (Raise StopIteration, _) => (Some match pend with Some e => Raise e | None => Ret tt end, l)
      | (Raise e, _) => (Some (Raise e), l)
      | (RetPending _ e, _) => (Some (Raise e), l)
      | (Undef u, _) => (Some (Undef u), l)
      end
  end.
