(** The sort methods that go through CPython_sort (CPythonSortModel.v):
    IntArrayList_sort 450-499, BigIntArrayList_sort 447-497, IntLinkedList_sort
    399-447, ObjectArrayList_sort 417-433, ObjectLinkedList_sort 357-394 - all
    with a key function, the object lists also without.

    Python code that runs inside the sort (key function, comparisons) is an
    oracle.  What it did to the list being sorted is summarised by [touched]:
    the contents of the list when the sorted elements are about to be written
    back, and whether the vector's buffer is still the one [vecData] points to.
    [e] is the exception that a failing callback or allocation has set. *)
From Coq Require Import ZArith List Bool.
From Verif Require Import Base PyLongModel PyListSpec ArrayListModel CPythonSortModel.
Import ListNotations.
Local Open Scope Z_scope.

Inductive touched (V : Type) :=
| Kept (now : list V)       (* same buffer (or linked list), contents now *)
| Moved.                    (* the vector has been reallocated *)
Arguments Kept {V} now.
Arguments Moved {V}.

(** The argument "i" of the format "|Oi". *)
Definition key_reverse (reverseInt : Z) : bool := negb (reverseInt =? 0).

(** PyFast_AsInt (KInt) / PyLong_AsLongLong (KBig) of the sorted objects. *)
Definition to_elem (cfg : config) (k : kind) (p : pylong) : outcome Z :=
  match k with
  | KInt => PyFast_AsInt (py312 cfg) p
  | KBig => if in_sbits_b 64 (pl_val p) then Ret (pl_val p) else RetPending (-1) OverflowError
  end.

(** The write-back loop 485-488: the values stored and the error left pending
    (a failing conversion replaces an earlier error). *)
Fixpoint write_back (cfg : config) (k : kind) (ps : list pylong) (err : option exn)
    : list Z * option exn :=
  match ps with
  | [] => ([], err)
  | p :: r =>
      let '(v, err) := match to_elem cfg k p with
                       | Ret v => (v, err)
                       | RetPending v e => (v, Some e)
                       | Raise e => (-1, Some e)
                       | Undef _ => (-1, err)
                       end in
      let '(vs, err) := write_back cfg k r err in (v :: vs, err)
  end.

(** Py_RETURN_NONE. *)
Definition return_none (err : option exn) : outcome val :=
  match err with None => Ret VNone | Some e => RetPending VNone e end.

(** IntArrayList_sort / BigIntArrayList_sort with a key function: 468-490.
    [mem] is whether PyMem_Malloc of the object array succeeds. *)
Definition sort_key {K} (cfg : config) (k : kind) (keyf : nat -> pylong -> option K)
    (cmp : nat -> K -> K -> option bool) (mem : bool) (grab : Z -> bool) (e : exn)
    (t : touched Z) (reverseInt : Z) (s : list Z) : res :=
  if negb mem then (Raise MemoryError, s)
  else
    let finish (ps : list pylong) (err : option exn) : res :=
      let '(vs, err) := write_back cfg k ps err in
      match t with
      | Kept now => (return_none err, firstn (length now) vs ++ skipn (length vs) now)
      | Moved => if length vs =? 0 then (return_none err, s) else (Undef UseAfterFree, s)
      end%nat in
    match CPython_sort_key keyf cmp grab (map (from_elem cfg k) s) (key_reverse reverseInt) with
    | SortOk ps => finish ps None
    | SortErr ps => finish ps (Some e)
    | SortBad (Ub u) => (Undef u, s)
    | SortBad NoFuel => (Undef OutOfBounds, s)
    end.

(** IntLinkedList_sort with a key function 418-444: the write-back walks
    [vecSize] nodes from begin(); walking past the last one is undefined. *)
Definition linked_sort_key {K} (cfg : config) (keyf : nat -> pylong -> option K)
    (cmp : nat -> K -> K -> option bool) (mem : bool) (grab : Z -> bool) (e : exn)
    (now : list Z) (reverseInt : Z) (s : list Z) : res :=
  if negb mem then (Raise MemoryError, s)
  else
    let finish (ps : list pylong) (err : option exn) : res :=
      let '(vs, err) := write_back cfg KInt ps err in
      if (length now <? length vs)%nat then (Undef IterBeforeBegin, s)
      else (return_none err, vs ++ skipn (length vs) now) in
    match CPython_sort_key keyf cmp grab (map (from_elem cfg KInt) s) (key_reverse reverseInt) with
    | SortOk ps => finish ps None
    | SortErr ps => finish ps (Some e)
    | SortBad (Ub u) => (Undef u, s)
    | SortBad NoFuel => (Undef OutOfBounds, s)
    end.

(** CPython_sort called on an array of objects, with or without key; objects
    are identified by their address. *)
Definition sort_objects {K} (keyf : option (nat -> Z -> option K)) (cmpo : nat -> Z -> Z -> option bool)
    (cmpk : nat -> K -> K -> option bool) (grab : Z -> bool) (reverseInt : Z) (s : list Z) : sort_out Z :=
  match keyf with
  | None => CPython_sort_plain cmpo grab s (key_reverse reverseInt)
  | Some f => CPython_sort_key f cmpk grab s (key_reverse reverseInt)
  end.

(** ObjectArrayList_sort 429-432: sorts the vector's buffer itself and returns
    the result of CPython_sort, so an error is raised.  [stale]: a callback
    made the vector reallocate and the sort then touched the old buffer.  (The
    callbacks changing the list in other ways is not modelled for this class.) *)
Definition object_sort {K} (keyf : option (nat -> Z -> option K)) (cmpo : nat -> Z -> Z -> option bool)
    (cmpk : nat -> K -> K -> option bool) (grab : Z -> bool) (e : exn) (stale : bool)
    (reverseInt : Z) (s : list Z) : outcome val * list Z :=
  match sort_objects keyf cmpo cmpk grab reverseInt s with
  | SortBad (Ub u) => (Undef u, s)
  | SortBad NoFuel => (Undef OutOfBounds, s)
  | SortOk l => if stale then (Undef UseAfterFree, s) else (Ret VNone, l)
  | SortErr l => if stale then (Undef UseAfterFree, s) else (Raise e, l)
  end.

(** ObjectLinkedList_sort 369-393: like the integer one, without conversions. *)
Definition object_linked_sort {K} (keyf : option (nat -> Z -> option K)) (cmpo : nat -> Z -> Z -> option bool)
    (cmpk : nat -> K -> K -> option bool) (mem : bool) (grab : Z -> bool) (e : exn) (now : list Z)
    (reverseInt : Z) (s : list Z) : outcome val * list Z :=
  if negb mem then (Raise MemoryError, s)
  else
    let finish (l : list Z) (err : option exn) :=
      if (length now <? length l)%nat then (Undef IterBeforeBegin, s)
      else (return_none err, l ++ skipn (length l) now) in
    match sort_objects keyf cmpo cmpk grab reverseInt s with
    | SortBad (Ub u) => (Undef u, s)
    | SortBad NoFuel => (Undef OutOfBounds, s)
    | SortOk l => finish l None
    | SortErr l => finish l (Some e)
    end.
