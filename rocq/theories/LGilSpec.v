(** Specification for C78: lists in nodes, calls one after another, and which
    calls touch what. *)
From Coq Require Import ZArith List Bool.
From Verif Require Import Base PyListSpec ArrayListModel GilModel GilSpec LGilModel.
Import ListNotations.
Local Open Scope Z_scope.

(** Neighbours point to each other. *)
Fixpoint joined (M : memory) (ps : list Z) : Prop :=
  match ps with
  | p :: (q :: _) as r => M (nx p) = q /\ M (pv q) = p /\ joined M r
  | _ => True
  end.
(** The nodes [ps] hold the list [s]. *)
Definition nodes (M : memory) (ps s : list Z) : Prop :=
  joined M (0 :: ps ++ [0]) /\ NoDup ps /\ (forall p, In p ps -> 0 < p < M fresh /\ M (lv p) = 1) /\
  map (fun p => M (vl p)) ps = s /\ M Head = zlen s /\ 0 < M fresh.
Definition in_nodes (M : memory) (s : list Z) : Prop := exists ps, nodes M ps s.

(** What a call alone does to a Python list. *)
Definition position (s : list Z) (i : Z) : option nat :=
  let p := if i <? 0 then zlen s + i else i in
  if (0 <=? p) && (p <? zlen s) then Some (Z.to_nat p) else None.
Definition alone (o : lop) (s : list Z) : outcome val * list Z :=
  match o with
  | LLen => (Ret (VInt (zlen s)), s)
  | LGet i => match position s i with
              | None => (Raise IndexError, s)
              | Some n => (Ret (VInt (nth n s 0)), s)
              end
  | LSet i v => match position s i with
                | None => (Raise IndexError, s)
                | Some n => (Ret VNone, firstn n s ++ v :: skipn (S n) s)
                end
  | LDel i => match position s i with
              | None => (Raise IndexError, s)
              | Some n => (Ret VNone, firstn n s ++ skipn (S n) s)
              end
  | LAppend v => (Ret VNone, s ++ [v])
  | LInsert i v => let n := Z.to_nat (if i <? 0 then Z.max 0 (zlen s + i) else Z.min i (zlen s)) in
                   (Ret VNone, firstn n s ++ v :: skipn n s)
  | LPop => match s with [] => (Raise IndexError, s) | _ => (Ret (VInt (last s 0)), removelast s) end
  | LContains v => (Ret (VBool (existsb (Z.eqb v) s)), s)
  | LToList => (Ret (VNewList s), s)
  | LClear => (Ret VNone, [])
  | LReverse => (Ret VNone, rev s)
  end.
Fixpoint in_turn (order : list (nat * lop)) (s : list Z) : list (nat * outcome val) * list Z :=
  match order with
  | [] => ([], s)
  | (t, o) :: r => let '(a, s1) := alone o s in let '(l, s2) := in_turn r s1 in ((t, a) :: l, s2)
  end.

(** The call leaves the nodes alone. *)
Definition keeps_nodes (o : lop) : bool :=
  match o with LLen | LGet _ | LSet _ _ | LContains _ | LToList | LReverse => true | _ => false end.
(** On the list [s] the call adds or removes a node. *)
Definition relinks (s : list Z) (o : lop) : Prop :=
  match o with
  | LAppend _ | LInsert _ _ | LClear => True
  | LPop => s <> []
  | LDel i => position s i <> None
  | _ => False
  end.
(** On the list [s] the call removes a node. *)
Definition frees (s : list Z) (o : lop) : Prop :=
  match o with
  | LPop | LClear => s <> []
  | LDel i => position s i <> None
  | _ => False
  end.
(** On the list [s] the call reads or writes the value at position [n]. *)
Definition meets (s : list Z) (n : nat) (o : lop) : Prop :=
  match o with
  | LGet i | LSet i _ => position s i = Some n
  | LToList => (n < length s)%nat
  | LContains _ => n = O /\ s <> []
  | _ => False
  end.

(** A thread is about to use the value of a node that has been freed. *)
Definition uses_freed (c : config) : Prop :=
  exists t p w, next (thr c t) = Some (vl p, w) /\ mem c (lv p) = 0.
(** Run alone from [M], the program uses no pointers or value of a node that is
    not allocated. *)
Definition allocated (M : memory) (l : loc) : Prop :=
  forall p, l = nx p \/ l = pv p \/ l = vl p -> p = 0 /\ l <> vl 0 \/ M (lv p) = 1.
Fixpoint clean (p : prog) (M : memory) : Prop :=
  match p with
  | PRet _ => True
  | PRd l k => allocated M l /\ clean (k (M l)) M
  | PWr l v k => allocated M l /\ clean k (store M l v)
  | PRel k | PAcq k => clean k M
  end.

(** ** The object array list *)
Definition oalone (c : oop) (s : list Z) : outcome val * list Z :=
  match c with
  | BLen => (Ret (VInt (zlen s)), s)
  | BReverse => (Ret VNone, rev s)
  | BDel i => match position s i with
              | None => (Raise IndexError, s)
              | Some n => (Ret VNone, firstn n s ++ skipn (S n) s)
              end
  | BSet i o => match position s i with
                | None => (Raise IndexError, s)
                | Some n => (Ret VNone, firstn n s ++ o :: skipn (S n) s)
                end
  end.
Fixpoint oturn (order : list (nat * oop)) (s : list Z) : list (nat * outcome val) * list Z :=
  match order with
  | [] => ([], s)
  | (t, c) :: r => let '(a, s1) := oalone c s in let '(l, s2) := oturn r s1 in ((t, a) :: l, s2)
  end.
(** The memory holds the list [s] of objects, and every object has, apart from
    one reference for each time it is in the list, [extra] references. *)
Definition occurs (o : Z) (s : list Z) : Z := Z.of_nat (count_occ Z.eq_dec s o).
Definition counted (M : memory) (s : list Z) (extra : Z -> Z) : Prop :=
  holds M s /\ Forall (fun o => 0 <= o) s /\ forall o, 0 <= o -> M (count_of o) = occurs o s + extra o.
Definition names (c : oop) : Prop := match c with BSet _ o => 0 <= o | _ => True end.
Definition stores_one (c : oop) : bool := match c with BSet _ _ => true | _ => false end.
(** A memory with two objects in a list and no other reference to them. *)
Definition two_objects (a b : Z) : memory := fun l =>
  match l with
  | Head => 2
  | Cell i => if i =? 0 then a else if i =? 1 then b else if (i =? -1 - a) || (i =? -1 - b) then 1 else 0
  end.
