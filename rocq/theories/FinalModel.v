(** objects/ObjectArrayList.cpp once more, with finalizers: releasing the last
    reference to an object runs its [__del__], and that code may call methods
    of the very list the release belongs to.

    The state is the vector with the identity of its buffer, the list given on
    the right of a slice assignment with the identity of its array, the
    reference counts, and how many of the references are held by the rest of
    the program. A finalizer is any function of this state; code that never
    returns is left out, and so are weak reference callbacks. Memory inside the
    buffer beyond the size counts as outside the list. *)
From Coq Require Import ZArith List Bool.
From Verif Require Import Base PyListSpec ArrayListModel ObjModel.
Import ListNotations.
Local Open Scope Z_scope.

Record ost := { slots : list Z; buf : Z; src : list Z; sbuf : Z; rc : counts; ext : counts }.
Definition with_slots (l : list Z) (s : ost) : ost :=
  {| slots := l; buf := buf s; src := src s; sbuf := sbuf s; rc := rc s; ext := ext s |}.
Definition with_rc (c : counts) (s : ost) : ost :=
  {| slots := slots s; buf := buf s; src := src s; sbuf := sbuf s; rc := c; ext := ext s |}.

(** What [__del__] of an object does, or the undefined behaviour it runs into;
    its exceptions are printed and dropped by the interpreter. *)
Definition fins := Z -> ost -> ost + ub.

(** PyFast_DECREF, utils/PythonUtils.h 19-25. At count 0 the interpreter gives
    the object a reference of its own, runs the finalizer, and takes the
    reference back (PyObject_CallFinalizerFromDealloc); an object that is
    referenced again by then lives on. *)
Definition release (F : fins) (o : Z) (s : ost) : outcome ost :=
  if o =? 0 then Undef NullDeref
  else if rc s o <=? 0 then Undef UseAfterFree
  else if rc s o =? 1 then
    match F o s with
    | inr u => Undef u
    | inl s' => if rc s' o <=? 0 then Undef UseAfterFree
                else Ret (with_rc (upd (rc s') o (rc s' o - 1)) s')
    end
  else Ret (with_rc (upd (rc s) o (rc s o - 1)) s).

(** Access through a pointer to element [i] of the buffer [b]. *)
Definition load (b i : Z) (s : ost) : outcome Z :=
  if b =? buf s then or_ub OutOfBounds (znth (slots s) i) else Undef UseAfterFree.
Definition store (b i o : Z) (s : ost) : outcome ost :=
  if b =? buf s then obind (or_ub OutOfBounds (zset (slots s) i o)) (fun l => Ret (with_slots l s))
  else Undef UseAfterFree.
(** The same for the source array. *)
Definition load_src (b i : Z) (s : ost) : outcome Z :=
  if b =? sbuf s then or_ub OutOfBounds (znth (src s) i) else Undef UseAfterFree.

(** SAFE_DECREF, utils/PythonUtils.h 37-42, of a slot of the vector: the slot
    is cleared after the object is released. *)
Definition safe_decref (F : fins) (b i : Z) (s : ost) : outcome ost :=
  obind (load b i s) (fun o => obind (release F o s) (store b i 0)).

(** SAFE_DECREF of [n] neighbouring slots. *)
Fixpoint drop_slots (F : fins) (b : Z) (n : nat) (i : Z) (s : ost) : outcome ost :=
  match n with
  | O => Ret s
  | S m => obind (safe_decref F b i s) (drop_slots F b m (i + 1))
  end.

(** ObjectArrayList_dealloc, 103-109: [item] is a copy of the slot. *)
Fixpoint dealloc_loop (F : fins) (b : Z) (n : nat) (i : Z) (s : ost) : outcome ost :=
  match n with
  | O => Ret s
  | S m => obind (obind (load b i s) (fun o => release F o s)) (dealloc_loop F b m (i + 1))
  end.
Definition f_dealloc (F : fins) (s : ost) : outcome ost :=
  obind (dealloc_loop F (buf s) (length (slots s)) 0 s) (fun s => Ret (with_slots [] s)).

(** ObjectArrayList_clear, 866-874: the loop runs over the range fixed at its
    beginning. *)
Definition f_clear (F : fins) (s : ost) : outcome ost :=
  obind (drop_slots F (buf s) (length (slots s)) 0 s) (fun s => Ret (with_slots [] s)).

(** ObjectArrayList_remove, 390-415: erased first, then released. *)
Definition f_remove (F : fins) (o : Z) (s : ost) : outcome ost :=
  obind (std_find (slots s) o (length (slots s)) 0) (fun it =>
  if it =? zlen (slots s) then Raise ValueError
  else obind (or_ub OutOfBounds (zerase (slots s) it)) (fun l => release F o (with_slots l s))).

(** ObjectArrayList_setitem with a null value, 500-517: released first, then
    erased at the index checked at the beginning. *)
Definition f_del (F : fins) (pyIndex : Z) (s : ost) : outcome ost :=
  let size := zlen (slots s) in
  let pyIndex := if pyIndex <? 0 then size + pyIndex else pyIndex in
  if (pyIndex <? 0) || (size <=? pyIndex) then Raise IndexError
  else obind (safe_decref F (buf s) pyIndex s) (fun s =>
       obind (or_ub OutOfBounds (zerase (slots s) pyIndex)) (fun l => Ret (with_slots l s))).

(** ObjectArrayList_getitem, 449-466: the counts after x[i] and its object. *)
Definition f_get (pyIndex : Z) (s : ost) : outcome ost :=
  let size := zlen (slots s) in
  let pyIndex := if pyIndex <? 0 then size + pyIndex else pyIndex in
  if (pyIndex <? 0) || (size <=? pyIndex) then Raise IndexError
  else obind (or_ub OutOfBounds (znth (slots s) pyIndex)) (fun o =>
       obind (incref o (rc s)) (fun c =>
       Ret {| slots := slots s; buf := buf s; src := src s; sbuf := sbuf s; rc := c; ext := upd (ext s) o (ext s o + 1) |})).

(** ** Slice assignment, 533-656 *)
(** fastCopy, 567-573. *)
Fixpoint fast_release (F : fins) (b sb : Z) (n : nat) (i start : Z) (s : ost) : outcome ost :=
  match n with
  | O => Ret s
  | S m =>
      obind (safe_decref F b (start + i) s) (fun s =>
      obind (load_src sb i s) (fun o =>
      obind (incref o (rc s)) (fun c => fast_release F b sb m (i + 1) start (with_rc c s))))
  end.
Fixpoint fast_write (b sb : Z) (n : nat) (i start : Z) (s : ost) : outcome ost :=
  match n with
  | O => Ret s
  | S m =>
      obind (load_src sb i s) (fun o =>
      obind (store b (start + i) o s) (fast_write b sb m (i + 1) start))
  end.
Definition f_fast_copy (F : fins) (b sb n start : Z) (s : ost) : outcome ost :=
  obind (fast_release F b sb (Z.to_nat n) 0 start s) (fast_write b sb (Z.to_nat n) 0 start).

(** genericCopy, 576-586, of a sequence that is not changed by reading it
    (PySequence_GetItem hands out a new reference). An error leaves the state
    the loop has reached. *)
Definition get_item (i : Z) (s : ost) : outcome (Z * ost) :=
  match znth (src s) i with
  | Some o => obind (incref o (rc s)) (fun c => Ret (o, with_rc c s))
  | None => Raise IndexError
  end.
Definition failed {A} (x : outcome A) (s : ost) : outcome unit * ost :=
  match x with
  | Ret _ => (Ret tt, s) | Raise e => (Raise e, s) | RetPending _ e => (Raise e, s) | Undef u => (Undef u, s)
  end.
Fixpoint f_generic_copy (F : fins) (b : Z) (n : nat) (i start : Z) (s : ost) : outcome unit * ost :=
  match n with
  | O => (Ret tt, s)
  | S m =>
      match get_item i s with
      | Ret (o, s1) =>
          match obind (safe_decref F b (start + i) s1) (store b (start + i) o) with
          | Ret s2 => f_generic_copy F b m (i + 1) start s2
          | x => failed x s1
          end
      | x => failed x s
      end
  end.
(** Additional elements of the generic path, 641-647. *)
Fixpoint f_generic_insert (n : nat) (i start : Z) (s : ost) : outcome unit * ost :=
  match n with
  | O => (Ret tt, s)
  | S m =>
      match get_item i s with
      | Ret (o, s1) =>
          match zinsert (slots s1) (start + i) o with
          | Some l => f_generic_insert m (i + 1) start (with_slots l s1)
          | None => (Undef OutOfBounds, s1)
          end
      | x => failed x s
      end
  end.

(** The extra elements are released and erased, 614-617. *)
Definition f_drop_range (F : fins) (b a n stop : Z) (s : ost) : outcome ost :=
  obind (drop_slots F b (Z.to_nat n) a s) (fun s =>
  obind (or_ub OutOfBounds (zerase_range (slots s) a stop)) (fun l => Ret (with_slots l s))).
(** vector.insert(begin()+at, first, last) of the source's elements from [k]
    up to the length read at the beginning, 622-626 and 630-634. *)
Definition f_insert_src (at_ k newLength : Z) (s : ost) : outcome ost :=
  if (0 <=? at_) && (at_ <=? zlen (slots s)) && (newLength <=? zlen (src s))
  then Ret (with_slots (firstn (Z.to_nat at_) (slots s)
              ++ firstn (Z.to_nat (newLength - k)) (skipn (Z.to_nat k) (src s))
              ++ skipn (Z.to_nat at_) (slots s)) s)
  else Undef OutOfBounds.

Definition finish (x : outcome ost) (s : ost) : outcome unit * ost :=
  match x with Ret s' => (Ret tt, s') | _ => failed x s end.
Definition andthen (r : outcome unit * ost) (f : ost -> outcome unit * ost) : outcome unit * ost :=
  match fst r with Ret _ => f (snd r) | _ => r end.

(** ObjectArrayList_setitem_slice, 533-656, from [src]: [fast] when the source
    is another ObjectArrayList or a Python list, else a tuple or the like. *)
Definition f_setslice (F : fins) (fast : bool) (sl : slice) (s : ost) : outcome unit * ost :=
  match PySlice_Unpack sl with
  | Ret (start, stop, step) =>
      let '(start, stop, sliceLength) := PySlice_AdjustIndices (zlen (slots s)) start stop step in
      let newLength := zlen (src s) in
      if negb (step =? 1) then (Raise NotImplementedError, s) else
      let b := buf s in
      let copy n := if fast then finish (f_fast_copy F b (sbuf s) n start s) s
                    else f_generic_copy F b (Z.to_nat n) 0 start s in
      if newLength =? sliceLength then copy sliceLength
      else if newLength <? sliceLength then
        andthen (copy newLength) (fun s =>
        finish (f_drop_range F b (start + newLength) (sliceLength - newLength) stop s) s)
      else
        andthen (copy sliceLength) (fun s =>
        if fast then finish (f_insert_src (start + sliceLength) sliceLength newLength s) s
        else f_generic_insert (Z.to_nat (newLength - sliceLength)) sliceLength start s)
  | x => failed x s
  end.
