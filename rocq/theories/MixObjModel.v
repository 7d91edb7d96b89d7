(** Object lists given a list of the other object class, or an instance of a
    Python subclass. As in MixModel the sources call the classes final, but the
    types carry Py_TPFLAGS_BASETYPE (ObjectArrayList.cpp 1192,
    ObjectLinkedList.cpp 1102) and an operand is recognised by its exact type.

    Simplified: the operand is not the list itself (C51, C40; its own iterator
    is below); the subclasses define no methods of their own; the reference to
    the iterator is left out. *)
From Coq Require Import ZArith List Bool.
From Verif Require Import Base PyListSpec ArrayListModel ArrayListMoreModel StdListModel LinkedListModel ObjModel ObjArrayModel ObjLinkedModel ObjMoreModel.
Import ListNotations.
Local Open Scope Z_scope.

Inductive ocls := CObjArr | CObjLnk.
Inductive olist := OArr (s : vec) | OLnk (l : ll).
Definition ocls_of (o : olist) : ocls := match o with OArr _ => CObjArr | OLnk _ => CObjLnk end.
Definition oheld (o : olist) : list Z := match o with OArr s => s | OLnk l => values (lst l) end.
(** [oexact]: the type is the class itself. *)
Record ooperand := { oexact : bool; olst : olist }.
(** ObjectArrayList.cpp 57, 213, 701; ObjectLinkedList.cpp 39, 165, 618. *)
Definition orecognised (c : ocls) (x : ooperand) : bool :=
  oexact x && match c, ocls_of (olst x) with CObjArr, CObjArr | CObjLnk, CObjLnk => true | _, _ => false end.

(** while ((item = PyIter_Next(iter)) != nullptr) push_back(item):
    ObjectArrayList.cpp 88-91, 244-252, 722-732; ObjectLinkedList.cpp 67-70,
    182-189, 633-642. The list keeps the reference the item comes with. *)
Fixpoint pull {I T} (next : I -> counts -> outcome Z * (I * counts)) (push : T -> Z -> T) (n : nat) (it : I) (t : T) (rc : counts) : outcome unit * (T * counts) :=
  match n with
  | O => (Raise SystemError, (t, rc))   (* not reached: one call more than elements *)
  | S m => match next it rc with
           | (Ret o, (it', rc')) => pull next push m it' (push t o) rc'
           | (Raise StopIteration, (_, rc')) => (Ret tt, (t, rc'))
           | (Raise e, (_, rc')) => (Raise e, (t, rc'))
           | (RetPending _ e, (_, rc')) => (Raise e, (t, rc'))
           | (Undef u, (_, rc')) => (Undef u, (t, rc'))
           end
  end.
(** PyObject_GetIter of the operand first. *)
Definition pull_from {T} (x : olist) (push : T -> Z -> T) (t : T) (rc : counts) : outcome unit * (T * counts) :=
  match x with
  | OArr s => pull (fun it => oa_next it s) push (S (length s)) (iter_create false s) t rc
  | OLnk l => match liter_create false l with
              | Ret it => pull (fun it => ol_next it l) push (S (size (lst l))) it t rc
              | Raise e => (Raise e, (t, rc))
              | RetPending _ e => (Raise e, (t, rc))
              | Undef u => (Undef u, (t, rc))
              end
  end.
Definition vpush (s : vec) (o : Z) : vec := s ++ [o].
Definition lpush (l : ll) (o : Z) : ll := put l (push_back (lst l) o).

Definition answer {T} (v : oval olist) (w : T -> olist) (r : outcome unit * (T * counts)) : outcome (oval olist) * (olist * counts) :=
  (match fst r with Ret _ => Ret v | Raise e => Raise e | RetPending _ e => Raise e | Undef u => Undef u end, (w (fst (snd r)), snd (snd r))).
(** The None or self of the functions of the list's own class. *)
Definition plain {C} (v : outcome (oval C)) : outcome (oval olist) :=
  match v with
  | Ret ONone => Ret ONone
  | Ret OSelf => Ret OSelf
  | Ret _ => Undef NullDeref   (* not reached: extend and += return nothing else *)
  | Raise e => Raise e
  | RetPending _ e => Raise e
  | Undef u => Undef u
  end.

(** extend: ObjectArrayList.cpp 201-262, ObjectLinkedList.cpp 153-200;
    [inplace] is +=: 697-743 and 614-654. *)
Definition oextend (inplace : bool) (t : olist) (x : ooperand) (rc : counts) : outcome (oval olist) * (olist * counts) :=
  let v := if inplace then OSelf else ONone in
  match t with
  | OArr s =>
      if orecognised CObjArr x
      then let '(r, (s', rc')) := (if inplace then a_iadd else a_extend) (OSame (oheld (olst x))) s rc in (plain r, (OArr s', rc'))
      else answer v OArr (pull_from (olst x) vpush s rc)
  | OLnk l =>
      if orecognised CObjLnk x
      then let '(r, (l', rc')) := (if inplace then l_iadd else l_extend) (OSame (oheld (olst x))) l rc in (plain r, (OLnk l', rc'))
      else answer v (fun l' => OLnk (if inplace then l' else bump l' (lst l'))) (pull_from (olst x) lpush l rc)
  end.

(** Construction: ObjectArrayList.cpp 42-101, ObjectLinkedList.cpp 23-81. *)
Definition omake (c : ocls) (x : ooperand) (rc : counts) : outcome olist * counts :=
  let built (r : outcome unit * (olist * counts)) :=
    (match fst r with Ret _ => Ret (fst (snd r)) | Raise e => Raise e | RetPending _ e => Raise e | Undef u => Undef u end, snd (snd r)) in
  match c with
  | CObjArr =>
      if orecognised c x then let '(r, rc') := a_init (Some (OSame (oheld (olst x)))) rc in (omap OArr r, rc')
      else let '(r, (s, rc')) := pull_from (olst x) vpush [] rc in built (r, (OArr s, rc'))
  | CObjLnk =>
      if orecognised c x then let '(r, rc') := l_init (Some (OSame (oheld (olst x)))) rc in (omap OLnk r, rc')
      else let '(r, (l, rc')) := pull_from (olst x) lpush (new_list empty) rc in built (r, (OLnk l, rc'))
  end.

(** The same loop when it reads an iterator over the list it extends:
    x.extend(x) for an instance of a subclass, x.extend(iter(x)) for any list.
    The first [n] rounds; [None]: still running. *)
Fixpoint oown {I T} (next : I -> T -> counts -> outcome Z * (I * counts)) (push : T -> Z -> T) (n : nat) (it : I) (t : T) (rc : counts) : option (outcome unit) * (T * counts) :=
  match n with
  | O => (None, (t, rc))
  | S m => match next it t rc with
           | (Ret o, (it', rc')) => oown next push m it' (push t o) rc'
           | (Raise StopIteration, (_, rc')) => (Some (Ret tt), (t, rc'))
           | (Raise e, (_, rc')) => (Some (Raise e), (t, rc'))
           | (RetPending _ e, (_, rc')) => (Some (Raise e), (t, rc'))
           | (Undef u, (_, rc')) => (Some (Undef u), (t, rc'))
           end
  end.
