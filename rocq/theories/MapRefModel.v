(** The references IntIntHashMap_init takes and gives back (ints/IntIntHashMap.cpp
    19-247), beside what it computes (MapModel). Counts are those of the objects
    the call meets; what an object holds itself - the items of a new list of keys,
    the entry an iterator runs over - is released when that object dies, and
    conversions change no count. Immortal objects are not treated apart. *)
From Coq Require Import ZArith List Bool.
From Verif Require Import Base PyLongModel HashModel ObjModel MapModel.
Import ListNotations.
Local Open Scope Z_scope.

Definition counts := Z -> Z.
(** [Dead]: an object without references is released once more. *)
Inductive res := Done (r : run (outcome (table Z))) (rc : counts) | Dead.
Definition inc (o : Z) (rc : counts) : counts := upd rc o (rc o + 1).
Definition dec (o : Z) (rc : counts) (k : counts -> res) : res :=
  if rc o <=? 0 then Dead else k (upd rc o (rc o - 1)).

(** Arguments as in MapModel; [ks] is the list of keys that PyMapping_Keys makes,
    and each value comes with its object. An entry: its object, and for one that is neither list nor tuple the iterator
    over it and its first two items. *)
Record rentry := { e_obj : Z; e_iter : Z; e_key : Z; e_val : Z; e_is : entry }.
Inductive rarg :=
| RMap (t : table Z) | RDict (ks : Z) (items : list (Z * (pyobj * pyobj))) | RIter (i : Z) (es : list rentry) (tail : option exn)
| RSeqIter (q : Z) (es : list rentry) | RMapping (ks : Z) (m : list (Z * (pyobj * outcome pyobj)) + exn) | ROther.

(** A step that throws std::exception leaves all as it is (240-243). *)
Definition stepr (x : run state) (rc : counts) (k : state -> res) : res :=
  match x with
  | Ok s => k s
  | r => Done (rbind r (fun s => Ok (Ret (fst s)))) rc
  end.

(** 192-237: PyIter_Next hands out a new reference to the entry, which nothing
    releases. A wrong size returns at once (203, 210, 226). *)
Fixpoint iter_r (cfg : mapcfg) (i : Z) (es : list rentry) (tail : option exn) (s : state) (rc : counts) : res :=
  match es with
  | [] => dec i rc (Done (Ok (match tail with Some e => RetPending (fst s) e | None => Ret (fst s) end)))
  | e :: r =>
      let rc := inc (e_obj e) rc in
      let go (s : state) (rc : counts) :=
        match snd s with Some x => dec i rc (Done (Ok (Raise x))) | None => iter_r cfg i r tail s rc end in
      match e_is e with
      | EList [k; v] => stepr (put_last s k v) rc (fun s => go s rc)
      | ETuple [k; v] => stepr (put cfg s k v) rc (fun s => go s rc)
      | EIter (k :: v :: _) =>
          let rc := inc (e_val e) (inc (e_key e) (inc (e_iter e) rc)) in
          stepr (put cfg s k v) rc (fun s => dec (e_iter e) rc (fun rc => dec (e_key e) rc (fun rc => dec (e_val e) rc (go s))))
      | EIter [_] => Done (Ok (Raise ValueError)) (inc (e_key e) (inc (e_iter e) rc))
      | EIter [] => Done (Ok (Raise ValueError)) (inc (e_iter e) rc)
      | EList _ | ETuple _ => Done (Ok (Raise ValueError)) rc
      | ENone => Done (Ok (Undef NullDeref)) rc
      end
  end.
(** 146-190: the entries are borrowed from the list; [q] is the reference
    PySequence_Fast has taken. *)
Fixpoint fast_r (cfg : mapcfg) (q : Z) (es : list rentry) (s : state) (rc : counts) : res :=
  match es with
  | [] => dec q rc (Done (Ok (Ret (fst s))))
  | e :: r =>
      let go (s : state) (rc : counts) :=
        match snd s with Some x => dec q rc (Done (Ok (Raise x))) | None => fast_r cfg q r s rc end in
      match e_is e with
      | EList [k; v] => Done (Ok (Undef OutOfBounds)) rc
      | ETuple [k; v] => stepr (put cfg s k v) rc (fun s => go s rc)
      | EIter (k :: v :: _) =>
          let rc := inc (e_val e) (inc (e_key e) (inc (e_iter e) rc)) in
          stepr (put cfg s k v) rc (fun s => dec (e_iter e) rc (fun rc => dec (e_key e) rc (fun rc => dec (e_val e) rc (go s))))
      | EIter [_] => Done (Ok (Raise ValueError)) (inc (e_key e) (inc (e_iter e) rc))
      | EIter [] => Done (Ok (Raise ValueError)) (inc (e_iter e) rc)
      | EList _ | ETuple _ => Done (Ok (Raise ValueError)) rc
      | ENone => Done (Ok (Undef NullDeref)) rc
      end
  end.
(** 104-123, 140: the list of keys is referred to by [fastKeys] only; each value
    is fetched and released. *)
Fixpoint mapping_r (cfg : mapcfg) (ks : Z) (items : list (Z * (pyobj * outcome pyobj))) (s : state) (rc : counts) : res :=
  match items with
  | [] => dec ks rc (Done (Ok (Undef NullDeref)))
  | (v, (k, Ret x)) :: r =>
      let rc := inc v rc in stepr (put cfg s k x) rc (fun s => dec v rc (mapping_r cfg ks r s))
  | (_, (_, Raise e)) :: _ | (_, (_, RetPending _ e)) :: _ => dec ks rc (Done (Ok (Raise e)))
  | (_, (_, Undef u)) :: _ => Done (Ok (Undef u)) rc
  end.
(** 99-107: PyMapping_Keys makes the list, PySequence_Fast takes a second
    reference, the first is released. *)
Definition from_mapping_r (cfg : mapcfg) (a : rarg) (rc : counts) : res :=
  match a with
  | RMapping ks (inl items) => dec ks (inc ks (inc ks rc)) (mapping_r cfg ks items (empty_table, None))
  | RMapping _ (inr e) => Done (Ok (Raise e)) rc
  | RDict ks items => dec ks (inc ks (inc ks rc)) (mapping_r cfg ks (map (fun '(v, (k, x)) => (v, (k, Ret x))) items) (empty_table, None))
  | _ => Done (Ok (Raise no_keys)) rc
  end.
Definition caught (r : res) : res := match r with Done r rc => Done (handler r) rc | Dead => Dead end.
(** 80-239; arguments are borrowed. *)
Definition fill_r (cfg : mapcfg) (arg1 arg2 : option rarg) (rc : counts) : res :=
  caught
  match arg1 with
  | None => Done (Ok (Ret empty_table)) rc
  | Some (RMap t) => Done (Ok (Ret (copy t))) rc
  | Some (RDict _ items) => Done (rbind (dict_loop cfg (map snd items) (empty_table, None)) (fun s => Ok (checked s))) rc
  | Some (RIter i es tail) =>
      match arg2 with Some a => from_mapping_r cfg a rc | None => iter_r cfg i es tail (empty_table, None) (inc i rc) end
  | Some (RSeqIter q es) =>
      match arg2 with Some a => from_mapping_r cfg a rc | None => fast_r cfg q es (empty_table, None) (inc q rc) end
  | Some (RMapping ks m) => from_mapping_r cfg (RMapping ks m) rc
  | Some ROther => Done (Ok (Raise TypeError)) rc
  end.
