(** objects/ObjectLinkedList.cpp once more, with finalizers: releasing the last
    reference to an object runs its [__del__], and that code may call methods
    of the very list the release belongs to.

    The state is the std::list with the identities of its nodes, the sequence
    given on the right of a slice assignment, the reference counts, and how many
    of the references are held by the rest of the program. A finalizer is any
    function of this state; code that never returns is left out, and so are
    weak reference callbacks. *)
From Coq Require Import ZArith List Bool.
From Verif Require Import Base PyListSpec ArrayListModel StdListModel LinkedListModel ObjModel ObjLinkedModel.
Import ListNotations.
Local Open Scope Z_scope.

Record nst := { nds : slist Z; srcs : list Z; refs : counts; held : counts }.
Definition with_nds (l : slist Z) (s : nst) : nst := {| nds := l; srcs := srcs s; refs := refs s; held := held s |}.
Definition with_refs (c : counts) (s : nst) : nst := {| nds := nds s; srcs := srcs s; refs := c; held := held s |}.

(** What [__del__] of an object does, or the undefined behaviour it runs into;
    its exceptions are printed and dropped by the interpreter. *)
Definition nfins := Z -> nst -> nst + ub.

(** PyFast_DECREF, utils/PythonUtils.h 19-25. At count 0 the interpreter gives
    the object a reference of its own, runs the finalizer, and takes the
    reference back (PyObject_CallFinalizerFromDealloc); an object that is
    referenced again by then lives on. *)
Definition release (F : nfins) (o : Z) (s : nst) : outcome nst :=
  if o =? 0 then Undef NullDeref
  else if refs s o <=? 0 then Undef UseAfterFree
  else if refs s o =? 1 then
    match F o s with
    | inr u => Undef u
    | inl s' => if refs s' o <=? 0 then Undef UseAfterFree
                else Ret (with_refs (upd (refs s') o (refs s' o - 1)) s')
    end
  else Ret (with_refs (upd (refs s) o (refs s o - 1)) s).

(** SAFE_DECREF( *iter ), utils/PythonUtils.h 37-42: the element is cleared
    after the object is released. *)
Definition safe_decref (F : nfins) (it : iterator) (s : nst) : outcome nst :=
  obind (deref (nds s) it) (fun o => obind (release F o s) (fun s =>
  obind (assign (nds s) it 0) (fun l => Ret (with_nds l s)))).

(** ObjectLinkedList_clear, 770-778: a range-for over the list, whose end is
    the end of the list at the time it is reached; then list.clear(). [None]:
    the loop has not come to its end after [fuel] elements. *)
Fixpoint clear_loop (fuel : nat) (F : nfins) (it : iterator) (s : nst) : option (outcome nst) :=
  if it_eqb it end_ then Some (Ret s)
  else match fuel with
       | O => None
       | S n => match obind (safe_decref F it s) (fun s => obind (it_next (nds s) it) (fun nx => Ret (nx, s))) with
                | Ret (nx, s') => clear_loop n F nx s'
                | Raise e => Some (Raise e) | RetPending _ e => Some (Raise e) | Undef u => Some (Undef u)
                end
       end.
Definition f_clear (fuel : nat) (F : nfins) (s : nst) : option (outcome nst) :=
  option_map (fun x => obind x (fun s => Ret (with_nds (clear_ (nds s)) s))) (clear_loop fuel F (begin_ (nds s)) s).

(** ObjectLinkedList_dealloc, 83-89: [item] is a copy of the element. *)
Fixpoint dealloc_loop (fuel : nat) (F : nfins) (it : iterator) (s : nst) : option (outcome nst) :=
  if it_eqb it end_ then Some (Ret s)
  else match fuel with
       | O => None
       | S n => match obind (obind (deref (nds s) it) (fun o => release F o s)) (fun s => obind (it_next (nds s) it) (fun nx => Ret (nx, s))) with
                | Ret (nx, s') => dealloc_loop n F nx s'
                | Raise e => Some (Raise e) | RetPending _ e => Some (Raise e) | Undef u => Some (Undef u)
                end
       end.
Definition f_dealloc (fuel : nat) (F : nfins) (s : nst) : option (outcome nst) :=
  option_map (fun x => obind x (fun s => Ret (with_nds (clear_ (nds s)) s))) (dealloc_loop fuel F (begin_ (nds s)) s).

(** ObjectLinkedList_remove, 330-355: erased first, then released. *)
Definition f_remove (F : nfins) (o : Z) (s : nst) : outcome nst :=
  obind (std_find_it (nds s) (fun x => x =? o) (size (nds s)) (begin_ (nds s)) end_) (fun it =>
  if it_eqb it end_ then Raise ValueError
  else obind (erase (nds s) it) (fun l => release F o (with_nds l s))).

(** ObjectLinkedList_setitem with a null value, 471-489: released first, then
    the node found at the beginning is erased. *)
Definition f_del (F : nfins) (pyIndex : Z) (s : nst) : outcome nst :=
  let size_ := Z.of_nat (size (nds s)) in
  let pyIndex := if pyIndex <? 0 then size_ + pyIndex else pyIndex in
  if (pyIndex <? 0) || (size_ <=? pyIndex) then Raise IndexError
  else obind (at_ (nds s) (Z.to_nat pyIndex)) (fun it =>
       obind (safe_decref F it s) (fun s =>
       obind (erase (nds s) it) (fun l => Ret (with_nds l s)))).

(** ObjectLinkedList_getitem, 411-433: the counts after x[i] and its object. *)
Definition f_get (pyIndex : Z) (s : nst) : outcome nst :=
  let size_ := Z.of_nat (size (nds s)) in
  let pyIndex := if pyIndex <? 0 then size_ + pyIndex else pyIndex in
  if (pyIndex <? 0) || (size_ <=? pyIndex) then Raise IndexError
  else obind (obind (at_ (nds s) (Z.to_nat pyIndex)) (deref (nds s))) (fun o =>
       obind (incref o (refs s)) (fun c =>
       Ret {| nds := nds s; srcs := srcs s; refs := c; held := upd (held s) o (held s o + 1) |})).

(** ** Slice assignment, 506-573 *)
(** PySequence_GetItem of a sequence that is not changed by reading it: a new
    reference. *)
Definition get_item (i : Z) (s : nst) : outcome (Z * nst) :=
  match znth (srcs s) i with
  | Some o => obind (incref o (refs s)) (fun c => Ret (o, with_refs c s))
  | None => Raise IndexError
  end.
Definition failed {A} (x : outcome A) (s : nst) : outcome unit * nst :=
  match x with
  | Ret _ => (Ret tt, s) | Raise e => (Raise e, s) | RetPending _ e => (Raise e, s) | Undef u => (Undef u, s)
  end.
Definition andthen (r : outcome unit * nst) (f : nst -> outcome unit * nst) : outcome unit * nst :=
  match fst r with Ret _ => f (snd r) | _ => r end.

(** 536-540; [iter] becomes the node behind the erased one. *)
Fixpoint f_drop (F : nfins) (n : nat) (it : iterator) (s : nst) : outcome unit * nst :=
  match n with
  | O => (Ret tt, s)
  | S m =>
      match obind (safe_decref F it s) (fun s => obind (it_next (nds s) it) (fun nx =>
            obind (erase (nds s) it) (fun l => Ret (nx, with_nds l s)))) with
      | Ret (nx, s') => f_drop F m nx s'
      | x => failed x s
      end
  end.
(** 541-551, see [l_grow]. *)
Fixpoint f_grow (n : nat) (i : Z) (it : iterator) (s : nst) : outcome unit * nst :=
  match n with
  | O => (Ret tt, s)
  | S m =>
      match obind (get_item i s) (fun '(o, s) => obind (insert_ (nds s) it o) (fun l => Ret (with_nds l s))) with
      | Ret s' => f_grow m (i + 1) it s'
      | x => failed x s
      end
  end.
(** 553-564: the place is looked up again for every item. *)
Fixpoint f_over (F : nfins) (n : nat) (i start step : Z) (s : nst) : outcome unit * nst :=
  match n with
  | O => (Ret tt, s)
  | S m =>
      match obind (obind (ssz (i * step)) (fun is_ => obind (ssz (start + is_)) (at_z (nds s)))) (fun it =>
            obind (get_item i s) (fun '(o, s) => obind (safe_decref F it s) (fun s =>
            obind (assign (nds s) it o) (fun l => Ret (with_nds l s))))) with
      | Ret s' => f_over F m (i + 1) start step s'
      | x => failed x s
      end
  end.

(** ObjectLinkedList_setitem_slice, 506-573, from [srcs]. *)
Definition f_setslice (F : nfins) (sl : slice) (s : nst) : outcome unit * nst :=
  match PySlice_Unpack sl with
  | Ret (start, stop, step) =>
      let '(start, stop, sliceLength) := PySlice_AdjustIndices (Z.of_nat (size (nds s))) start stop step in
      let newLength := zlen (srcs s) in
      andthen
        (if newLength <? sliceLength then
           match obind (ssz (newLength * step)) (fun x => obind (ssz (start + x)) (at_z (nds s))) with
           | Ret it => f_drop F (Z.to_nat (sliceLength - newLength)) it s
           | x => failed x s
           end
         else if sliceLength <? newLength then
           match at_z (nds s) stop with
           | Ret it => f_grow (Z.to_nat (newLength - sliceLength)) sliceLength it s
           | x => failed x s
           end
         else (Ret tt, s))
        (f_over F (Z.to_nat newLength) 0 start step)
  | x => failed x s
  end.
