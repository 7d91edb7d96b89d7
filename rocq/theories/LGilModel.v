(** The linked lists and the object array list while reverse has given up the
    interpreter lock: ints/IntLinkedList.cpp 840-847, objects/ObjectLinkedList.cpp
    761-768, objects/ObjectArrayList.cpp 857-864. No other method of these
    classes gives the lock up. Threads, accesses and the lock are those of
    GilModel.

    Linked lists: the shared memory is the size field of the std::list and, for
    every node, its two pointers, its value and whether it is allocated
    (libstdc++'s layout; node 0 is the sentinel in the list object). The values
    are integers or object pointers; what a method does with them apart from
    the list (reference counts, conversions) is left out. Line numbers of
    IntLinkedList.cpp. *)
From Coq Require Import ZArith List Bool.
From Verif Require Import Base PyListSpec ArrayListModel GilModel.
Import ListNotations.
Local Open Scope Z_scope.

(** ** Nodes *)
Definition nx (p : Z) : loc := Cell (5 * p).
Definition pv (p : Z) : loc := Cell (5 * p + 1).
Definition vl (p : Z) : loc := Cell (5 * p + 2).
Definition lv (p : Z) : loc := Cell (5 * p + 3).
(** The allocator: the next node it hands out. Nodes are not reused. *)
Definition fresh : loc := Cell 4.

(** ++ and -- of an iterator, [n] times. *)
Fixpoint ahead (n : nat) (p : Z) (k : Z -> prog) : prog :=
  match n with O => k p | S n => PRd (nx p) (fun q => ahead n q k) end.
Fixpoint back (n : nat) (p : Z) (k : Z -> prog) : prog :=
  match n with O => k p | S n => PRd (pv p) (fun q => back n q k) end.
(** at, utils/Utils.h 11-33. *)
Definition at_node (i : Z) (k : Z -> prog) : prog :=
  PRd Head (fun n =>
  if n <=? i then k 0
  else if n / 2 <? i then PRd (pv 0) (fun p => back (Z.to_nat (n - i - 1)) p k)
  else PRd (nx 0) (fun p => ahead (Z.to_nat i) p k)).
(** std::list::insert: a new node in front of [pos]. *)
Definition insert_node (pos v : Z) (k : prog) : prog :=
  PRd fresh (fun p => PWr fresh (p + 1) (PWr (lv p) 1 (PWr (vl p) v (
  PWr (nx p) pos (PRd (pv pos) (fun q => PWr (pv p) q (PWr (nx q) p (PWr (pv pos) p (
  PRd Head (fun n => PWr Head (n + 1) k)))))))))).
(** std::list::erase. *)
Definition erase_node (p : Z) (k : prog) : prog :=
  PRd Head (fun n => PWr Head (n - 1) (
  PRd (nx p) (fun b => PRd (pv p) (fun a => PWr (nx a) b (PWr (pv b) a (PWr (lv p) 0 k)))))).
(** Values of [n] nodes from [p] on. *)
Fixpoint values (n : nat) (p : Z) (k : list Z -> prog) : prog :=
  match n with
  | O => k []
  | S n => PRd (vl p) (fun v => PRd (nx p) (fun q => values n q (fun vs => k (v :: vs))))
  end.
(** std::find. *)
Fixpoint find (n : nat) (p v : Z) (k : bool -> prog) : prog :=
  match n with
  | O => k false
  | S n => PRd (vl p) (fun x => if x =? v then k true else PRd (nx p) (fun q => find n q v k))
  end.
(** std::list::clear. *)
Fixpoint free_nodes (n : nat) (p : Z) (k : prog) : prog :=
  match n with
  | O => k
  | S n => PRd (nx p) (fun q => PWr (lv p) 0 (free_nodes n q k))
  end.
(** std::reverse for bidirectional iterators: [last] moves one back, the two
    values change places, [first] moves on. The loop is cut off after [fuel]
    rounds. *)
Fixpoint rev_loop (fuel : nat) (first last : Z) (k : prog) : prog :=
  match fuel with
  | O => k
  | S fuel =>
      if first =? last then k
      else PRd (pv last) (fun last =>
           if first =? last then k
           else PRd (vl first) (fun x => PRd (vl last) (fun y => PWr (vl first) y (PWr (vl last) x (
                PRd (nx first) (fun first => rev_loop fuel first last k))))))
  end.

(** ** Methods *)
Inductive lop :=
| LLen | LGet (i : Z) | LSet (i v : Z) | LDel (i : Z) | LAppend (v : Z) | LInsert (i v : Z) | LPop | LContains (v : Z)
| LToList | LClear | LReverse.
Definition index_of (n i : Z) : option Z :=
  let p := if i <? 0 then n + i else i in if (p <? 0) || (n <=? p) then None else Some p.
Definition insert_at (n i : Z) : Z := if i <? 0 then Z.max 0 (n + i) else if n <? i then n else i.
(** len 449-453; getitem 464-486; setitem 524-555; append 175-192; insert
    344-372; pop 243-277; contains 808-830; to_list 140-156; clear 849-854;
    reverse 840-847. Loops that run to the end of the list are given the size,
    read with the lock, as the number of their rounds; so is reverse, whose
    rounds never reach it unless another thread changes the list. *)
Definition lprog (o : lop) : prog :=
  match o with
  | LLen => PRd Head (fun n => PRet (Ret (VInt n)))
  | LGet i => PRd Head (fun n =>
      match index_of n i with
      | None => PRet (Raise IndexError)
      | Some p => at_node p (fun x => PRd (vl x) (fun v => PRet (Ret (VInt v))))
      end)
  | LSet i v => PRd Head (fun n =>
      match index_of n i with
      | None => PRet (Raise IndexError)
      | Some p => at_node p (fun x => PWr (vl x) v (PRet (Ret VNone)))
      end)
  | LDel i => PRd Head (fun n =>
      match index_of n i with
      | None => PRet (Raise IndexError)
      | Some p => at_node p (fun x => erase_node x (PRet (Ret VNone)))
      end)
  | LAppend v => insert_node 0 v (PRet (Ret VNone))
  | LInsert i v => PRd Head (fun n => at_node (insert_at n i) (fun x => insert_node x v (PRet (Ret VNone))))
  | LPop => PRd (nx 0) (fun x =>
      if x =? 0 then PRet (Raise IndexError)
      else PRd (pv 0) (fun p => PRd (vl p) (fun v => erase_node p (PRet (Ret (VInt v))))))
  | LContains v => PRd Head (fun n => PRd (nx 0) (fun p => find (Z.to_nat n) p v (fun b => PRet (Ret (VBool b)))))
  | LToList => PRd Head (fun n => PRd (nx 0) (fun p => values (Z.to_nat n) p (fun vs => PRet (Ret (VNewList vs)))))
  | LClear => PRd Head (fun n => PRd (nx 0) (fun p => free_nodes (Z.to_nat n) p (
      PWr (nx 0) 0 (PWr (pv 0) 0 (PWr Head 0 (PRet (Ret VNone)))))))
  | LReverse => PRd Head (fun n => PRel (PRd (nx 0) (fun p => rev_loop (Z.to_nat n) p 0 (PAcq (PRet (Ret VNone))))))
  end.

(** Any number of threads with any calls, nobody in a call. *)
Definition begin (M : memory) (calls : nat -> list prog) : config :=
  {| mem := M; gil := None; thr := fun t => {| now := None; todo := calls t; answers := [] |} |}.
Definition lstart (M : memory) (calls : nat -> list lop) : config := begin M (fun t => map lprog (calls t)).

(** ** The object array list
    The elements are pointers to objects 0, 1, ...; the reference count of
    object [o] is a location of its own. reverse is that of the integer lists
    (GilModel.p_reverse). ObjectArrayList.cpp 500-531: del x[i] releases the
    element and then moves the later ones down; x[i] = v stores the new
    element and takes a reference to it (and none back for the old one, C50).
    No finalizer is run. *)
Definition count_of (o : Z) : loc := Cell (-1 - o).
Fixpoint move_down (m : nat) (i : Z) (k : prog) : prog :=
  match m with
  | O => k
  | S m => PRd (Cell (i + 1)) (fun v => PWr (Cell i) v (move_down m (i + 1) k))
  end.
Inductive oop := BLen | BReverse | BDel (i : Z) | BSet (i o : Z).
Definition oprog (c : oop) : prog :=
  match c with
  | BLen => PRd Head (fun n => PRet (Ret (VInt n)))
  | BReverse => p_reverse
  | BDel i => PRd Head (fun n =>
      match index_of n i with
      | None => PRet (Raise IndexError)
      | Some p => PRd (Cell p) (fun o => PRd (count_of o) (fun c => PWr (count_of o) (c - 1) (
          PRd Head (fun n => move_down (Z.to_nat (n - p - 1)) p (PWr Head (n - 1) (PRet (Ret VNone)))))))
      end)
  | BSet i o => PRd Head (fun n =>
      match index_of n i with
      | None => PRet (Raise IndexError)
      | Some p => PWr (Cell p) o (PRd (count_of o) (fun c => PWr (count_of o) (c + 1) (PRet (Ret VNone))))
      end)
  end.
Definition ostart (M : memory) (calls : nat -> list oop) : config := begin M (fun t => map oprog (calls t)).
