(** Array lists as objects: several lists, names bound to them, and the
    statements of PyHeapSpec executed with the method models of
    ArrayListModel. The vector of an object is owned by the object
    (ints/IntArrayList.h), so an object is just its contents. *)
From Coq Require Import ZArith List Bool.
From Verif Require Import Base PyLongModel MemModel QReverseModel PyListSpec PyHeapSpec ArrayListModel.
Import ListNotations.
Local Open Scope Z_scope.

Definition no_obj (w : world) : outcome val * world := (Raise TypeError, w).

(** Bind a name to the list a call returned. *)
Definition bind_new (w : world) (x : nat) (o : outcome val) : outcome val * world :=
  match o with
  | Ret (VNewList s) => (Ret VNone, alloc w x s)
  | Ret v => (Ret v, w)
  | Raise e => (Raise e, w)
  | RetPending _ e => (Raise e, w)
  | Undef u => (Undef u, w)
  end.

(** [x += ...] binds the name to what the slot returned (IntArrayList_iadd,
    738-782): None on the same-class path, the list itself otherwise. *)
Definition bind_iadd (w : world) (x i : nat) (r : res) : outcome val * world :=
  let w := set_obj w i (snd r) in
  match fst r with
  | Ret VSelf => (Ret VNone, w)
  | Ret VNone => (Ret VNone, bind_name w x RNone)
  | o => (o, w)
  end.

Definition exec (cfg : config) (k : kind) (st : stmt) (w : world) : outcome val * world :=
  match st with
  | SNew x vs => bind_new w x (init k (IArg (AList (map PInt vs))))
  | SFrom x y =>
      match lookup w y with
      | Some (_, t) => bind_new w x (init k (IArg (ASame t)))
      | None => no_obj w end
  | SCopy x y =>
      match lookup w y with
      | Some (_, t) => bind_new w x (fst (copy t))
      | None => no_obj w end
  | SAlias x y => (Ret VNone, bind_name w x (nth y (env w) RNone))
  | SCall x o =>
      match lookup w x with
      | Some (i, s) => let '(r, s') := step cfg k o s in (r, set_obj w i s')
      | None => no_obj w end
  | SExtend x y =>
      match lookup w x, lookup w y with
      | Some (i, s), Some (j, t) =>
          let '(r, s') := extend k (if Nat.eqb i j then ASelf else ASame t) s in (r, set_obj w i s')
      | _, _ => no_obj w end
  | SIadd x y =>
      match lookup w x, lookup w y with
      | Some (i, s), Some (j, t) =>
          bind_iadd w x i (iadd k (if Nat.eqb i j then ASelf else ASame t) s)
      | _, _ => no_obj w end
  | SIaddList x vs =>
      match lookup w x with
      | Some (i, s) => bind_iadd w x i (iadd k (AList (map PInt vs)) s)
      | None => no_obj w end
  | SSetSlice x sl y =>
      match lookup w x, lookup w y with
      | Some (i, s), Some (j, t) =>
          let '(r, s') := setitem_slice k sl
             (AssSeq (if Nat.eqb i j then src_self cfg k else src_same cfg k t)) s in
          (r, set_obj w i s')
      | _, _ => no_obj w end
  end.

Fixpoint prog (cfg : config) (k : kind) (p : list stmt) (w : world) : list (outcome val) * world :=
  match p with
  | [] => ([], w)
  | st :: r => let '(x, w1) := exec cfg k st w in
               let '(xs, w2) := prog cfg k r w1 in (x :: xs, w2)
  end.
