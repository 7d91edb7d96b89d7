(** Object lists given a list of one of the three int classes, or an instance
    of a Python subclass of one: ObjectArrayList.cpp 81-93, 229-262, 709-743;
    ObjectLinkedList.cpp 60-72, 175-200, 625-654. The int list's iterator makes
    an int object for every element (IntArrayListIter.cpp 36-70,
    BigIntArrayListIter.cpp 36-70, IntLinkedListIter.cpp 55-93), and the object list
    keeps the reference it comes with.

    Simplified: the objects are mortal, as in ObjModel; the vector or list
    itself gets its memory; the reference to the iterator is left out; the
    object made for an element is given by the integer it stands for. *)
From Coq Require Import ZArith List Bool.
From Verif Require Import Base PyLongModel PyListSpec ArrayListModel ArrayListMoreModel StdListModel LinkedListModel ObjModel ObjArrayModel ObjLinkedModel MixModel MixObjModel.
Import ListNotations.
Local Open Scope Z_scope.

(** [hc]: reference counts; [hv]: the integer an int object stands for; [hn]:
    the next address nobody has used. *)
Record heap := { hc : counts; hv : Z -> Z; hn : Z }.
Definition with_hc (rc : counts) (h : heap) : heap := {| hc := rc; hv := hv h; hn := hn h |}.

(** PyLong_FromLong and PyLong_FromLongLong look into the cache of small ints;
    _PyLong_FromDigits, which PyFast_FromInt calls from 3.12 on
    (utils/PythonUtils.h 149-155), does not. *)
Definition uses_cache (cfg : config) (k : kind) : bool := match k with KBig => true | KInt => negb (py312 cfg) end.

Section Box.
(** [small]: the cached object of an integer; [mem]: whether the object at this
    address can be allocated. *)
Variable small : Z -> option Z.
Variable mem : Z -> bool.

Definition make_int (cfg : config) (k : kind) (v : Z) (h : heap) : outcome Z * heap :=
  let z := pl_val (from_elem cfg k v) in
  match (if uses_cache cfg k then small z else None) with
  | Some o => match incref o (hc h) with
              | Ret rc => (Ret o, with_hc rc h)
              | Raise e => (Raise e, h)
              | RetPending _ e => (Raise e, h)
              | Undef u => (Undef u, h)
              end
  | None => if mem (hn h)
            then (Ret (hn h), {| hc := upd (hc h) (hn h) 1; hv := upd (hv h) (hn h) z; hn := hn h + 1 |})
            else (Raise MemoryError, h)
  end.

(** The loop over PyIter_Next; it ends on NULL and looks for an error then. *)
Fixpoint box {I T} (next : I -> outcome Z * I) (mk : Z -> heap -> outcome Z * heap) (push : T -> Z -> T) (n : nat) (it : I) (t : T) (h : heap) : outcome unit * (T * heap) :=
  match n with
  | O => (Raise SystemError, (t, h))   (* not reached: one call more than elements *)
  | S m => match next it with
           | (Ret v, it') => match mk v h with
                             | (Ret o, h') => box next mk push m it' (push t o) h'
                             | (Raise e, h') => (Raise e, (t, h'))
                             | (RetPending _ e, h') => (Raise e, (t, h'))
                             | (Undef u, h') => (Undef u, (t, h'))
                             end
           | (Raise StopIteration, _) => (Ret tt, (t, h))
           | (Raise e, _) => (Raise e, (t, h))
           | (RetPending _ e, _) => (Raise e, (t, h))
           | (Undef u, _) => (Undef u, (t, h))
           end
  end.
Definition box_from {T} (cfg : config) (x : lobj) (push : T -> Z -> T) (t : T) (h : heap) : outcome unit * (T * heap) :=
  match x with
  | Arr k s => box (fun it => iter_next it s) (make_int cfg k) push (S (length s)) (iter_create false s) t h
  | Lnk l => match liter_create false l with
             | Ret it => box (fun it => liter_next it l) (make_int cfg KInt) push (S (size (lst l))) it t h
             | Raise e => (Raise e, (t, h))
             | RetPending _ e => (Raise e, (t, h))
             | Undef u => (Undef u, (t, h))
             end
  end.

(** extend and, with [inplace], +=. The linked list's extend counts the change
    before it looks for the error (ObjectLinkedList.cpp 191). *)
Definition box_answer {T} (v : oval olist) (w : T -> olist) (r : outcome unit * (T * heap)) : outcome (oval olist) * (olist * heap) :=
  (match fst r with Ret _ => Ret v | Raise e => Raise e | RetPending _ e => Raise e | Undef u => Undef u end, (w (fst (snd r)), snd (snd r))).
Definition extend_int (cfg : config) (inplace : bool) (t : olist) (x : lobj) (h : heap) : outcome (oval olist) * (olist * heap) :=
  let v := if inplace then OSelf else ONone in
  match t with
  | OArr s => box_answer v OArr (box_from cfg x vpush s h)
  | OLnk l => box_answer v (fun l' => OLnk (if inplace then l' else bump l' (lst l'))) (box_from cfg x lpush l h)
  end.

(** Construction. When it fails the object is deallocated, which releases what
    it holds (ObjectArrayList.cpp 103-109, ObjectLinkedList.cpp 83-89). *)
Definition finish (r : outcome unit) (o : olist) (h : heap) : outcome olist * heap :=
  match r with
  | Ret _ => (Ret o, h)
  | Undef u => (Undef u, h)
  | Raise e | RetPending _ e =>
      match (match o with OArr s => a_dealloc s (hc h) | OLnk l => l_dealloc l (hc h) end) with
      | Ret rc => (Raise e, with_hc rc h)
      | Undef u => (Undef u, h)
      | Raise e' | RetPending _ e' => (Raise e', h)
      end
  end.
Definition make_from_int (cfg : config) (c : ocls) (x : lobj) (h : heap) : outcome olist * heap :=
  match c with
  | CObjArr => let '(r, (s, h')) := box_from cfg x vpush [] h in finish r (OArr s) h'
  | CObjLnk => let '(r, (l, h')) := box_from cfg x lpush (new_list empty) h in finish r (OLnk l) h'
  end.
End Box.
