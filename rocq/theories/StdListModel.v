(** std::list: nodes with identities, iterators that name a node, and the
    member functions used by the linked lists; [at] of utils/Utils.h 11-33.
    A node identity is never reused, so an iterator to an erased node stays
    recognisable: using it is [UseAfterFree]. *)
From Coq Require Import ZArith List Bool Arith.
From Verif Require Import Base.
Import ListNotations.

Record slist (A : Type) := { nodes : list (nat * A); fresh : nat }.
Arguments nodes {A} s.
Arguments fresh {A} s.

(** [None] is end(). *)
Definition iterator := option nat.

Definition values {A} (l : slist A) : list A := map snd (nodes l).
Definition ids {A} (l : slist A) : list nat := map fst (nodes l).
Definition size {A} (l : slist A) : nat := length (nodes l).

Definition empty {A} : slist A := {| nodes := []; fresh := 0 |}.

Definition id_at {A} (ns : list (nat * A)) (p : nat) : iterator := option_map fst (nth_error ns p).

(** Position of a node; [None] if it is not in the list. *)
Fixpoint pos_of {A} (ns : list (nat * A)) (i : nat) : option nat :=
  match ns with
  | [] => None
  | (j, _) :: r => if Nat.eqb j i then Some 0 else option_map S (pos_of r i)
  end.

Definition begin_ {A} (l : slist A) : iterator := id_at (nodes l) 0.
Definition end_ : iterator := None.

(** ++it *)
Definition it_next {A} (l : slist A) (it : iterator) : outcome iterator :=
  match it with
  | None => Undef IterBeforeBegin
  | Some i => match pos_of (nodes l) i with
              | None => Undef UseAfterFree
              | Some p => Ret (id_at (nodes l) (S p))
              end
  end.

(** --it *)
Definition it_prev {A} (l : slist A) (it : iterator) : outcome iterator :=
  let before p := match p with O => Undef IterBeforeBegin | S q => Ret (id_at (nodes l) q) end in
  match it with
  | None => before (size l)
  | Some i => match pos_of (nodes l) i with None => Undef UseAfterFree | Some p => before p end
  end.

(** *it *)
Definition deref {A} (l : slist A) (it : iterator) : outcome A :=
  match it with
  | None => Undef IterBeforeBegin
  | Some i => match pos_of (nodes l) i with
              | None => Undef UseAfterFree
              | Some p => match nth_error (nodes l) p with Some (_, v) => Ret v | None => Undef UseAfterFree end
              end
  end.

Definition set_node {A} (ns : list (nat * A)) (p : nat) (v : A) : list (nat * A) :=
  match nth_error ns p with
  | Some (i, _) => firstn p ns ++ (i, v) :: skipn (S p) ns
  | None => ns
  end.

(** *it = v *)
Definition assign {A} (l : slist A) (it : iterator) (v : A) : outcome (slist A) :=
  match it with
  | None => Undef IterBeforeBegin
  | Some i => match pos_of (nodes l) i with
              | None => Undef UseAfterFree
              | Some p => Ret {| nodes := set_node (nodes l) p v; fresh := fresh l |}
              end
  end.

(** insert(it, v): before the given position. *)
Definition insert_ {A} (l : slist A) (it : iterator) (v : A) : outcome (slist A) :=
  let at_pos p := Ret {| nodes := firstn p (nodes l) ++ (fresh l, v) :: skipn p (nodes l); fresh := S (fresh l) |} in
  match it with
  | None => at_pos (size l)
  | Some i => match pos_of (nodes l) i with None => Undef UseAfterFree | Some p => at_pos p end
  end.

Definition push_back {A} (l : slist A) (v : A) : slist A :=
  {| nodes := nodes l ++ [(fresh l, v)]; fresh := S (fresh l) |}.

(** insert(end(), first, last) with the values read before linking. The
    implementations build the new nodes first and link them afterwards, so a
    range of the list itself is copied as it was (the standard leaves that case
    undefined). *)
Definition append_range {A} (l : slist A) (vs : list A) : slist A := fold_left push_back vs l.

(** list = other: a fresh list with the same values. *)
Definition copy_of {A} (vs : list A) : slist A := append_range empty vs.

(** back(), pop_back() *)
Definition back {A} (l : slist A) : outcome A := obind (it_prev l end_) (deref l).
Definition pop_back {A} (l : slist A) : outcome (slist A) :=
  match nodes l with
  | [] => Undef IterBeforeBegin
  | _ => Ret {| nodes := removelast (nodes l); fresh := fresh l |}
  end.

(** erase(it) *)
Definition erase {A} (l : slist A) (it : iterator) : outcome (slist A) :=
  match it with
  | None => Undef IterBeforeBegin
  | Some i => match pos_of (nodes l) i with
              | None => Undef UseAfterFree
              | Some p => Ret {| nodes := firstn p (nodes l) ++ skipn (S p) (nodes l); fresh := fresh l |}
              end
  end.

Definition it_eqb (a b : iterator) : bool :=
  match a, b with None, None => true | Some i, Some j => Nat.eqb i j | _, _ => false end.

(** erase(first, last): while (first != last) first = erase(first). *)
Fixpoint erase_range {A} (n : nat) (l : slist A) (first last : iterator) : outcome (slist A) :=
  if it_eqb first last then Ret l
  else match n with
       | O => Undef UseAfterFree
       | S m => obind (it_next l first) (fun nx => obind (erase l first) (fun l' => erase_range m l' nx last))
       end.

Definition clear_ {A} (l : slist A) : slist A := {| nodes := []; fresh := fresh l |}.

(** [n] times ++ / -- *)
Fixpoint advance {A} (l : slist A) (n : nat) (it : iterator) : outcome iterator :=
  match n with O => Ret it | S m => obind (it_next l it) (advance l m) end.
Fixpoint retreat {A} (l : slist A) (n : nat) (it : iterator) : outcome iterator :=
  match n with O => Ret it | S m => obind (it_prev l it) (retreat l m) end.

(** at, utils/Utils.h 11-33, with the number of node steps taken. *)
Definition at_steps {A} (l : slist A) (index : nat) : outcome (iterator * nat) :=
  if size l <=? index then Ret (end_, 0)
  else if size l / 2 <? index
       then let toMove := size l - index - 1 in
            obind (it_prev l end_) (fun r => omap (fun it => (it, S toMove)) (retreat l toMove r))
       else omap (fun it => (it, index)) (advance l index (begin_ l)).
Definition at_ {A} (l : slist A) (index : nat) : outcome iterator := omap fst (at_steps l index).

(** std::find(first, last, .) with [n] bounding the number of steps. *)
Fixpoint std_find_it {A} (l : slist A) (eqb : A -> bool) (n : nat) (first last : iterator) : outcome iterator :=
  if it_eqb first last then Ret first
  else match n with
       | O => Undef UseAfterFree
       | S m => obind (deref l first) (fun x =>
                if eqb x then Ret first
                else obind (it_next l first) (fun nx => std_find_it l eqb m nx last))
       end.

(** std::distance(begin(), it). *)
Fixpoint std_distance {A} (l : slist A) (n : nat) (first last : iterator) : outcome Z :=
  if it_eqb first last then Ret 0%Z
  else match n with
       | O => Undef UseAfterFree
       | S m => obind (it_next l first) (fun nx => omap (Z.add 1) (std_distance l m nx last))
       end.

(** std::count(begin(), end(), .) *)
Fixpoint std_count_it {A} (l : slist A) (eqb : A -> bool) (n : nat) (first last : iterator) : outcome Z :=
  if it_eqb first last then Ret 0%Z
  else match n with
       | O => Undef UseAfterFree
       | S m => obind (deref l first) (fun x =>
                obind (it_next l first) (fun nx =>
                omap (Z.add (if eqb x then 1 else 0)%Z) (std_count_it l eqb m nx last)))
       end.

(** std::reverse on bidirectional iterators:
    while (first != last && first != --last) { iter_swap(first, last); ++first; } *)
Fixpoint std_reverse {A} (l : slist A) (n : nat) (first last : iterator) : outcome (slist A) :=
  if it_eqb first last then Ret l
  else match n with
       | O => Undef UseAfterFree
       | S m => obind (it_prev l last) (fun last' =>
                if it_eqb first last' then Ret l
                else obind (deref l first) (fun x => obind (deref l last') (fun y =>
                     obind (assign l first y) (fun l1 => obind (assign l1 last' x) (fun l2 =>
                     obind (it_next l2 first) (fun nx => std_reverse l2 m nx last'))))))
       end.

(** Values from begin() by ++ and *, e.g. IntLinkedList_to_list 145-153. *)
Fixpoint read_all {A} (l : slist A) (n : nat) (it : iterator) : outcome (list A) :=
  match n with
  | O => Ret []
  | S m => obind (deref l it) (fun x => obind (it_next l it) (fun nx =>
           omap (cons x) (read_all l m nx)))
  end.

(** std::list::sort(cmp): "Sorts the list according to the operator< or a
    Compare function object; stable", relinking nodes. The library's algorithm
    is not part of the repository; the unique stable result is computed by
    insertion. [lt x y] is cmp(x, y). *)
Fixpoint ins_node {A} (lt : A -> A -> bool) (n : nat * A) (ns : list (nat * A)) : list (nat * A) :=
  match ns with
  | [] => [n]
  | m :: r => if lt (snd m) (snd n) then m :: ins_node lt n r else n :: ns
  end.
Definition sort_nodes {A} (lt : A -> A -> bool) (ns : list (nat * A)) : list (nat * A) :=
  fold_right (ins_node lt) [] ns.
Definition list_sort {A} (lt : A -> A -> bool) (l : slist A) : slist A :=
  {| nodes := sort_nodes lt (nodes l); fresh := fresh l |}.
