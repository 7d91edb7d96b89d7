(** Int lists given an object list: the item loops of IntArrayList.cpp 89-104,
    270-286, 761-777 (BigIntArrayList.cpp likewise) and IntLinkedList.cpp 71-86,
    218-232, 716-728 over the iterators of the object lists. Every item comes
    with a reference, which the loops give back.

    The iterators end with PyErr_SetNone(PyExc_StopIteration)
    (ObjectArrayListIter.cpp 40, 64; ObjectLinkedListIter.cpp 59, 85), which
    replaces an error that is set, and PyIter_Next clears StopIteration. The
    loops of the linked list call PyIter_Next with the error of a conversion set.

    Simplified: [ival] gives what the conversion sees of an object and runs no
    code; memory is granted; the reference to the iterator is left out. *)
From Coq Require Import ZArith List Bool.
From Verif Require Import Base PyListSpec ArrayListModel ArrayListMoreModel StdListModel LinkedListModel ObjModel ObjArrayModel ObjLinkedModel ObjMoreModel MixModel MixObjModel.
Import ListNotations.
Local Open Scope Z_scope.

Section Unbox.
Variable ival : Z -> pyobj.

(** SAFE_DECREF, then the rest. *)
Definition release_then {T} (o : Z) (t : T) (rc : counts) (f : counts -> outcome unit * (T * counts)) : outcome unit * (T * counts) :=
  match decref o rc with
  | Ret rc' => f rc'
  | Raise e | RetPending _ e => (Raise e, (t, rc))
  | Undef u => (Undef u, (t, rc))
  end.

(** The loops that check each conversion: both loops of the array lists and the
    linked list's constructor. [err]: the error raised for that of a conversion. *)
Fixpoint checked {I T} (err : exn -> exn) (k : kind) (push : T -> Z -> T) (next : I -> counts -> outcome Z * (I * counts)) (n : nat) (it : I) (t : T) (rc : counts)
  : outcome unit * (T * counts) :=
  match n with
  | O => (Raise SystemError, (t, rc))   (* not reached: one call more than elements *)
  | S m => match next it rc with
           | (Ret o, (it', rc1)) =>
               let c := as_elem k (ival o) in
               release_then o t rc1 (fun rc2 =>
               match c with
               | Ret v => checked err k push next m it' (push t v) rc2
               | Raise e | RetPending _ e => (Raise (err e), (t, rc2))
               | Undef u => (Undef u, (t, rc2))
               end)
           | (Raise StopIteration, (_, rc1)) => (Ret tt, (t, rc1))
           | (Raise e, (_, rc1)) | (RetPending _ e, (_, rc1)) => (Raise e, (t, rc1))
           | (Undef u, (_, rc1)) => (Undef u, (t, rc1))
           end
  end.

(** IntLinkedList.cpp 218-232 and 716-728: what was converted is stored
    unchecked; [pend] is the error that is set. *)
Fixpoint unchecked {I} (next : I -> counts -> outcome Z * (I * counts)) (n : nat) (it : I) (pend : option exn) (l : ll) (rc : counts)
  : outcome unit * (ll * counts) :=
  match n with
  | O => (Raise SystemError, (l, rc))   (* not reached *)
  | S m => match next it rc with
           | (Ret o, (it', rc1)) =>
               match pend with
               | Some e => release_then o l rc1 (fun rc2 => (Raise e, (l, rc2)))
               | None => let '(v, err) := conv_pending KInt (ival o) in
                         release_then o (lpush l v) rc1 (fun rc2 => unchecked next m it' err (lpush l v) rc2)
               end
           | (Raise StopIteration, (_, rc1)) => (Ret tt, (l, rc1))   (* whatever was set *)
           | (Raise e, (_, rc1)) | (RetPending _ e, (_, rc1)) => (Raise e, (l, rc1))
           | (Undef u, (_, rc1)) => (Undef u, (l, rc1))
           end
  end.

(** A loop over the iterator of [x]. *)
Definition over {T} (x : olist) (loop : forall I, (I -> counts -> outcome Z * (I * counts)) -> nat -> I -> T -> counts -> outcome unit * (T * counts)) (t : T) (rc : counts)
  : outcome unit * (T * counts) :=
  match x with
  | OArr s => loop iter (fun it => oa_next it s) (S (length s)) (iter_create false s) t rc
  | OLnk l => match liter_create false l with
              | Ret it => loop liter (fun it => ol_next it l) (S (size (lst l))) it t rc
              | Raise e | RetPending _ e => (Raise e, (t, rc))
              | Undef u => (Undef u, (t, rc))
              end
  end.

(** extend and, with [inplace], +=. The linked list's extend counts the change
    after the loop (233), not when it returns from inside it (223). *)
Definition unbox_extend (inplace : bool) (t : lobj) (x : olist) (rc : counts) : outcome val * (lobj * counts) :=
  let v := if inplace then VSelf else VNone in
  match t with
  | Arr k s => let '(r, (s', rc')) := over x (fun I => checked (fun e => e) k vpush) s rc in
               (obind r (fun _ => Ret v), (Arr k s', rc'))
  | Lnk l => let '(r, (l', rc')) := over x (fun I next n it l rc => unchecked next n it None l rc) l rc in
             (obind r (fun _ => Ret v), (Lnk (match r with Ret _ => if inplace then l' else bump l' (lst l') | _ => l' end), rc'))
  end.

(** Construction: any error of a conversion becomes RuntimeError. *)
Definition unbox_make (c : cls) (x : olist) (rc : counts) : outcome lobj * counts :=
  match c with
  | CArr k => let '(r, (s, rc')) := over x (fun I => checked (fun _ => RuntimeError) k vpush) [] rc in (obind r (fun _ => Ret (Arr k s)), rc')
  | CLnk => let '(r, (l, rc')) := over x (fun I => checked (fun _ => RuntimeError) KInt lpush) (new_list empty) rc in (obind r (fun _ => Ret (Lnk l)), rc')
  end.
End Unbox.
