(** The object lists and their iterators before CPython's cycle collector. Their
    types are Py_TPFLAGS_DEFAULT | Py_TPFLAGS_BASETYPE without
    Py_TPFLAGS_HAVE_GC, tp_traverse or tp_clear (objects/ObjectArrayList.cpp
    1189-1201, ObjectLinkedList.cpp 1099-1111, ObjectArrayListIter.cpp 93-102,
    ObjectLinkedListIter.cpp 116-125): the collector neither knows them nor sees
    the references they hold. An instance of a subclass written in Python is
    known, but of its references only those in its dictionary and slots are seen.

    The collector is that of CPython (Modules/gcmodule.c, collect_main):
    update_refs and subtract_refs, move_unreachable, delete_garbage; then whatever
    has no reference any more is released. Simplified: one generation; no
    finalizers, weak references or resurrection; reference counts are those of
    the heap and [ext], the references from elsewhere. *)
From Coq Require Import ZArith List Bool.
From Verif Require Import Base ObjModel ObjSpec.
Import ListNotations.
Local Open Scope Z_scope.

(** [seen]: the references tp_traverse visits; [hidden]: the others. *)
Record node := { nid : Z; tracked : bool; seen : list Z; hidden : list Z }.
Definition heap := list node.
(** A Python list; an object list or an iterator over one; an instance of a
    Python subclass of an object list, with its attributes. *)
Definition py_list (i : Z) (items : list Z) : node := {| nid := i; tracked := true; seen := items; hidden := [] |}.
Definition obj_list (i : Z) (items : list Z) : node := {| nid := i; tracked := false; seen := []; hidden := items |}.
Definition sub_list (i : Z) (attrs items : list Z) : node := {| nid := i; tracked := true; seen := attrs; hidden := items |}.

(** Ob_refcnt of [o]. *)
Definition refcount (H : heap) (ext : Z -> Z) (o : Z) : Z :=
  fold_right (fun n c => occ (seen n) o + occ (hidden n) o + c) (ext o) H.
(** subtract_refs: visit_decref for everything the tracked objects refer to. *)
Definition subtract (H : heap) (c : Z -> Z) : Z -> Z :=
  fold_left (fun c n => if tracked n then fold_left (fun c o => upd c o (c o - 1)) (seen n) c else c) H c.
Definition gc_refs (H : heap) (ext : Z -> Z) : Z -> Z := subtract H (refcount H ext).
(** move_unreachable: what has references from outside, and what is found from
    there. *)
Definition mem_z (o : Z) (l : list Z) : bool := existsb (Z.eqb o) l.
Definition spread (H : heap) (p : Z -> bool) (o : Z) : bool :=
  p o || existsb (fun n => tracked n && p (nid n) && mem_z o (seen n)) H.
(** [p] is tabulated so that it is computed once. *)
Definition table (H : heap) (p : Z -> bool) : list Z := filter p (map nid (filter tracked H)).
Fixpoint rounds (k : nat) (H : heap) (r : list Z) : list Z :=
  match k with O => r | S k => rounds k H (table H (spread H (fun o => mem_z o r))) end.
Definition reachable (H : heap) (ext : Z -> Z) : list Z :=
  let c := gc_refs H ext in rounds (List.length H) H (table H (fun o => 0 <? c o)).
(** delete_garbage: tp_clear of every tracked object that was not reached. *)
Definition clear (r : list Z) (n : node) : node :=
  if tracked n && negb (mem_z (nid n) r) then {| nid := nid n; tracked := true; seen := []; hidden := hidden n |} else n.
(** What has no reference any more is deallocated and gives up its own. *)
Fixpoint release (k : nat) (ext : Z -> Z) (H : heap) : heap :=
  match k with O => H | S k => release k ext (filter (fun n => 0 <? refcount H ext (nid n)) H) end.
Definition collect (ext : Z -> Z) (H : heap) : heap :=
  let r := reachable H ext in release (List.length H) ext (map (clear r) H).
Fixpoint collects (k : nat) (ext : Z -> Z) (H : heap) : heap :=
  match k with O => H | S k => collects k ext (collect ext H) end.
