(** What the calls of the integer lists may do to reference counts: a call
    changes them by the references its result owns and by nothing else. *)
From Coq Require Import ZArith List Bool.
From Verif Require Import Base PyListSpec ObjSpec IRefModel.
Import ListNotations.
Local Open Scope Z_scope.

(** The references a result owns. *)
Definition owned (v : value) : list Z :=
  match v with VObj o => [o] | VList l items => l :: items | VIter i c => [i; c] | VUnit => [] end.
Definition items_of (v : value) : list Z := match v with VObj o => [o] | VList _ items => items | _ => [] end.

(** From [s] to [s'] the references [os] have been added. Immortal objects are
    not counted. *)
Definition adds (E : env) (s s' : rst) (os : list Z) : Prop :=
  forall p, imm E p = false -> cnt s' p = cnt s p + occ os p.

(** Objects from [nxt] on do not exist yet; the constants, the list and the
    cached integers do. *)
Definition lives (E : env) (s : rst) (o : Z) : Prop := imm E o = true \/ 0 < cnt s o.
Definition sane (E : env) (s : rst) : Prop :=
  (forall p, imm E p = false -> 0 <= cnt s p) /\ (forall p, nxt s <= p -> cnt s p = 0 /\ imm E p = false) /\
  lives E s (none E) /\ lives E s (tru E) /\ lives E s (fls E) /\ lives E s (self E) /\
  (forall z o, small E z = Some o \/ small_size E z = Some o -> lives E s o).

(** The objects a call borrows from its caller live; those that iterators,
    sequences and key functions hand over are none of the objects to come. *)
Definition borrowed (c : call) : list Z :=
  match c with
  | KInitSeq q items => q :: items
  | KInitIter a | KExtend (inr a) | KIAdd (inr a) => [it_obj a]
  | KAppend o | KInsert _ o | KSet _ o | KRemove o | KContains o | KIndex o | KCount o => [o]
  | KAdd (Some ys) => ys
  | _ => []
  end.
Definition handed (c : call) : list Z :=
  match c with
  | KInitIter a | KExtend (inr a) | KIAdd (inr a) => it_items a
  | KSetSlice _ _ items | KEq _ items | KNe _ items | KOrder _ _ items => somes items
  | KSortKey keys _ => somes keys
  | _ => []
  end.
Definition callable (E : env) (s : rst) (c : call) : Prop :=
  Forall (lives E s) (borrowed c) /\ Forall (fun o => o < nxt s) (handed c).

(** Python integers for the values [xs]: cached ones or new ones. *)
Inductive ints_for (E : env) (s : rst) : list Z -> list Z -> Prop :=
  | ints_nil : ints_for E s [] []
  | ints_cached z o xs os : small E z = Some o -> ints_for E s xs os -> ints_for E s (z :: xs) (o :: os)
  | ints_new z o xs os : small E z = None -> nxt s <= o -> ints_for E s xs os -> ints_for E s (z :: xs) (o :: os).

(** No allocation fails. *)
Definition plenty (E : env) : Prop := (forall p, alloc E p = true) /\ (forall n, room E n = true).

(** The key function returns for every element. *)
Fixpoint all_keys (n : nat) (keys : list (option Z)) : bool :=
  match n, keys with
  | O, _ => true
  | S n, Some _ :: r => all_keys n r
  | _, _ => false
  end.
Definition keyed (c : call) : bool := match c with KSortKey _ _ => true | _ => false end.
(** Comparing with [!=] a sequence one of whose items cannot be read. *)
Definition broken_ne (c : call) : bool :=
  match c with KNe _ items => existsb (fun o => match o with None => true | _ => false end) items | _ => false end.

(** ** The references left behind *)
(** By a call that returns: one to None when a sort with a key comes to its
    end, and in the linked list one to every integer handed out by item and
    slice reads, to_list and [+]. *)
Definition extra (k : kind) (E : env) (c : call) (s : rst) (v : value) : list Z :=
  match c, k with
  | KSortKey keys _, _ => if all_keys (length (elems s)) keys then [none E] else []
  | KGet _, Linked | KToList, Linked | KGetSlice _, Linked => items_of v
  | KAdd _, Linked => firstn (length (elems s)) (items_of v)
  | _, _ => []
  end.
(** By a call that raises. *)
Definition lost_by (k : kind) (E : env) (c : call) (s : rst) (lost : list Z) : Prop :=
  lost = [] \/
  match c with
  | KInitSeq q _ => lost = [q] /\ exists n, room E n = false
  | KInitIter a => exists n o, room E n = false /\ In o (it_items a) /\
                   (lost = [o; it_obj a] \/ exists i, nxt s <= i /\ lost = [o; i; it_obj a])
  | KSetSlice _ _ items => k = Linked /\ exists n o, room E n = false /\ In (Some o) items /\ lost = [o]
  | KAdd _ => k = Linked /\ ints_for E s (elems s) lost
  | _ => False
  end.
(** The integers in the result stand for the right values. *)
Definition result_ok (E : env) (c : call) (s : rst) (v : value) : Prop :=
  match c with
  | KGet i => exists z o, at_index (zlen (elems s)) i <> None /\ v = VObj o /\
                nth_error (elems s) (Z.to_nat (if i <? 0 then zlen (elems s) + i else i)) = Some z /\ ints_for E s [z] [o]
  | KToList => exists l items, v = VList l items /\ ints_for E s (elems s) items
  | KGetSlice sl => exists l items, v = VList l items /\ ints_for E s (py_getslice (elems s) sl) items
  | KAdd (Some ys) => exists l items, v = VList l (items ++ ys) /\ ints_for E s (elems s) items
  | _ => True
  end.
Definition reads (c : call) : bool :=
  match c with KGet _ | KToList | KGetSlice _ | KAdd _ => true | _ => false end.
Definition grows (c : call) : bool :=
  match c with KExtend (inr _) | KIAdd (inr _) => true | _ => false end.

(** How a call ends. *)
Definition ends (k : kind) (E : env) (c : call) (s : rst) (r : rr value) : Prop :=
  match r with
  | Ok s' v => adds E s s' (owned v ++ extra k E c s v) /\ result_ok E c s v
  | Er s' _ => exists lost, adds E s s' lost /\ lost_by k E c s lost
  | Bad u => u = NullDeref /\ (broken_ne c = true \/ (exists p, alloc E p = false) /\ (keyed c = true \/ k = Linked /\ reads c = true))
  | Killed => (exists n, room E n = false) /\ grows c = true
  end.
