(** Running out of memory in ints/IntArrayList.cpp and ints/BigIntArrayList.cpp:
    which calls ask for memory, and what becomes of a refusal. Line numbers of
    IntArrayList.cpp unless stated otherwise. What the calls compute is
    ArrayListModel and ArrayListMoreModel.

    A refused request of a vector or a string is a C++ exception: std::bad_alloc
    (utils/memory/AlignedAllocator.h 12-30), or std::length_error when the size
    exceeds max_size(). Inside try it becomes a Python exception, outside it
    leaves the extern "C" function, for which no handler exists further up, so
    std::terminate ends the process. An exception that leaves a
    Py_BEGIN_ALLOW_THREADS region skips Py_END_ALLOW_THREADS: the handler calls
    PyErr_SetString without a current thread state, a null dereference. A
    refused Python object is MemoryError.

    Left out: references leaked on these paths, requests made by user code and
    by the interpreter's own part of a call (argument tuples, the int that
    len() returns). *)
From Coq Require Import ZArith List Bool Arith.
From Verif Require Import Base PyLongModel PyListSpec MemModel ArrayListModel ArrayListMoreModel SimdSortModel.
Import ListNotations.
Local Open Scope Z_scope.

(** The memory: whether the n-th request is granted, the largest size of a
    vector and of a string, and the capacity a vector or string of a given size
    takes when a larger one is needed. *)
Record memory := {
  granted : nat -> bool;
  max_size : kind -> Z;
  max_str : Z;
  grown : kind -> Z -> Z -> Z;
  str_grown : Z -> Z -> Z }.

(** The list object: contents, capacity, and the requests made so far. *)
Record world := { vec : list Z; cap : Z; asked : nat }.

(** The end of a call: an ordinary outcome, or std::terminate. *)
Inductive xout := XDone (o : outcome val) | XKilled.
Notation xres := (xout * world)%type.

(** A C++ expression: its value, or a C++ exception. *)
Inductive cxx (A : Type) := Val (a : A) | Throw.
Arguments Val {A} a.
Arguments Throw {A}.

(** vector::push_back, insert and resize make room for [need] elements. The
    result is the capacity. *)
Definition enlarge (M : memory) (k : kind) (size cap need : Z) (n : nat) : cxx Z * nat :=
  if max_size M k <? need then (Throw, n)
  else if need <=? cap then (Val cap, n)
  else if granted M n then (Val (grown M k size need), S n) else (Throw, S n).

(** vector::reserve, copy assignment and the sized constructor take exactly
    what is needed. *)
Definition reserve (M : memory) (k : kind) (cap need : Z) (n : nat) : cxx Z * nat :=
  if max_size M k <? need then (Throw, n)
  else if need <=? cap then (Val cap, n)
  else if granted M n then (Val need, S n) else (Throw, S n).

(** Creation of [c] Python objects, up to the first refusal. *)
Fixpoint objects (M : memory) (c n : nat) : bool * nat :=
  match c with
  | O => (true, n)
  | S c' => if granted M n then objects M c' (S n) else (false, S n)
  end.

Definition count_to (w : world) (n : nat) : world := {| vec := vec w; cap := cap w; asked := n |}.

(** [try { ... } catch (const std::exception &e) { PyErr_SetString(...) }], the
    same around a region without the thread state, and no try. *)
Definition caught {A} (r : cxx A * nat) (w : world) (f : A -> nat -> xres) : xres :=
  match fst r with
  | Val a => f a (snd r)
  | Throw => (XDone (Raise RuntimeError), count_to w (snd r))
  end.
Definition caught_released {A} (r : cxx A * nat) (w : world) (f : A -> nat -> xres) : xres :=
  match fst r with
  | Val a => f a (snd r)
  | Throw => (XDone (Undef NullDeref), count_to w (snd r))
  end.
Definition uncaught {A} (r : cxx A * nat) (w : world) (f : A -> nat -> xres) : xres :=
  match fst r with
  | Val a => f a (snd r)
  | Throw => (XKilled, count_to w (snd r))
  end.

(** A call that asks for nothing. *)
Definition plain (r : res) (w : world) : xres :=
  (XDone (fst r), {| vec := snd r; cap := cap w; asked := asked w |}).

(** append 229-234, insert 415-420, resize 174-179: one vector call in a try.
    The contents change only after room was made. *)
Definition in_try (M : memory) (k : kind) (r : res) (w : world) : xres :=
  match fst r with
  | Ret v => caught (enlarge M k (zlen (vec w)) (cap w) (zlen (snd r)) (asked w)) w (fun c n =>
             (XDone (Ret v), {| vec := snd r; cap := c; asked := n |}))
  | o => (XDone o, w)
  end.

(** The objects of the result are created last: one int (pop 309 and 329, index
    376, count 389, item read 530), or a list and its items (to_list 188-199,
    slice read 549-566). *)
Definition objects_of (v : val) : nat :=
  match v with
  | VInt _ | VElem _ => 1
  | VPyList ps => S (length ps)
  | VConcat ps _ => S (S (length ps))
  | _ => 0
  end.
Definition hand_out (M : memory) (r : res) (w : world) : xres :=
  match fst r with
  | Ret v => let '(ok, n) := objects M (objects_of v) (asked w) in
             (XDone (if ok then Ret v else Raise MemoryError), {| vec := snd r; cap := cap w; asked := n |})
  | _ => plain r w
  end.

(** Item loop of extend, 269-281, and iadd, 760-772: push_back outside a try. *)
Fixpoint xextend_items (M : memory) (k : kind) (v : val) (items : list pyobj) (fin : option exn) (w : world) : xres :=
  match items with
  | [] => (XDone (match fin with None => Ret v | Some e => Raise e end), w)
  | o :: r =>
      match as_elem k o with
      | Ret z => uncaught (enlarge M k (zlen (vec w)) (cap w) (zlen (vec w) + 1) (asked w)) w (fun c n =>
                 xextend_items M k v r fin {| vec := vec w ++ [z]; cap := c; asked := n |})
      | Raise e => (XDone (Raise e), w)
      | RetPending _ e => (XDone (Raise e), w)
      | Undef u => (XDone (Undef u), w)
      end
  end.

(** IntArrayList_extend, 239-290, and IntArrayList_iadd, 738-782, up to the
    value returned: the fast path 253 / 744, PyObject_GetIter, the length hint
    264-267 / 755-758 and the item loop. *)
Definition xextend (M : memory) (k : kind) (fast slow : val) (hint : Z) (a : arg) (w : world) : xres :=
  let iterate items fin :=
    if granted M (asked w) then
      let n := S (asked w) in
      if 0 <? hint then
        uncaught (reserve M k (cap w) (zlen (vec w) + hint) n) w (fun c n =>
        xextend_items M k slow items fin {| vec := vec w; cap := c; asked := n |})
      else xextend_items M k slow items fin (count_to w n)
    else (XDone (Raise MemoryError), count_to w (S (asked w))) in
  match a with
  | ASame ys => uncaught (enlarge M k (zlen (vec w)) (cap w) (zlen (vec w) + zlen ys) (asked w)) w (fun c n =>
                (XDone (Ret fast), {| vec := vec w ++ ys; cap := c; asked := n |}))
  | ASelf => (XDone (Undef Overlap), w)
  | AList items => iterate items None
  | AIter items fin => iterate items fin
  | AOther => (XDone (Raise TypeError), w)
  end.

(** Insertion loop of slice assignment, 677-691, in the try of 630-696. *)
Fixpoint xinsert_loop (M : memory) (k : kind) (items : list pyobj) (n : nat) (i start : Z) (w : world) : xres :=
  match n with
  | O => (XDone (Ret VNone), w)
  | S m =>
      match znth items i with
      | None => (XDone (Raise IndexError), w)
      | Some o =>
          let '(z, err) := match as_long o with
                           | Ret z => (z, None) | Raise e => (-1, Some e)
                           | RetPending z e => (z, Some e) | Undef _ => (-1, None) end in
          caught (enlarge M k (zlen (vec w)) (cap w) (zlen (vec w) + 1) (asked w)) w (fun c n =>
          match zinsert (vec w) (start + i) (wrap (bits k) z) with
          | None => (XDone (Undef OutOfBounds), w)
          | Some s' => let w' := {| vec := s'; cap := c; asked := n |} in
                       match err with
                       | Some e => (XDone (Raise e), w')
                       | None => xinsert_loop M k items m (i + 1) start w'
                       end
          end)
      end
  end.

(** IntArrayList_setitem_slice, 598-700, of a list or tuple. Only the insertion
    loop asks for memory. *)
Definition xsetitem_slice (M : memory) (k : kind) (sl : slice) (items : list pyobj) (w : world) : xres :=
  match PySlice_Unpack sl with
  | Ret (start, stop, step) =>
      let '(start, stop, sliceLength) := PySlice_AdjustIndices (zlen (vec w)) start stop step in
      if (step =? 1) && (sliceLength <? zlen items) then
        let r := assign_loop k (src_items items) (Z.to_nat sliceLength) 0 start (vec w) in
        let w1 := {| vec := snd r; cap := cap w; asked := asked w |} in
        match fst r with
        | Ret _ => xinsert_loop M k items (Z.to_nat (zlen items - sliceLength)) sliceLength start w1
        | Raise e => (XDone (Raise e), w1)
        | RetPending _ e => (XDone (Raise e), w1)
        | Undef u => (XDone (Undef u), w1)
        end
      else plain (setitem_slice k sl (AssSeq (src_items items)) (vec w)) w
  | _ => plain (setitem_slice k sl (AssSeq (src_items items)) (vec w)) w
  end.

(** IntArrayList_copy, 204-219: the object, then the vector's copy assignment. *)
Definition xcopy (M : memory) (k : kind) (w : world) : xres :=
  if granted M (asked w) then
    caught (reserve M k 0 (zlen (vec w)) (S (asked w))) w (fun _ n => (XDone (Ret (VNewList (vec w))), count_to w n))
  else (XDone (Raise MemoryError), count_to w (S (asked w))).

(** IntArrayList_mul, 785-817: the size product is one of size_t; resize throws
    inside Py_BEGIN_ALLOW_THREADS. If the product wrapped, the copies run past
    the (smaller) result. *)
Definition wrap_u64 (z : Z) : Z := z mod 2 ^ 64.
Definition xmul (M : memory) (cfg : config) (k : kind) (n : Z) (w : world) : xres :=
  if granted M (asked w) then
    if n <=? 0 then (XDone (Ret (VNewList [])), count_to w (S (asked w)))
    else
      let exact := zlen (vec w) * n in
      let total := wrap_u64 exact in
      caught_released (enlarge M k 0 0 total (S (asked w))) w (fun _ m =>
      if total =? exact then (XDone (fst (mul cfg k n (vec w))), count_to w m)
      else (XDone (Undef OutOfBounds), count_to w m))
  else (XDone (Raise MemoryError), count_to w (S (asked w))).

(** IntArrayList_imul, 833-864. [spare] as in ArrayListMoreModel.imul. *)
Definition ximul (M : memory) (cfg : config) (k : kind) (n : Z) (spare : bytes) (w : world) : xres :=
  if n <=? 0 then (XDone (Ret VSelf), {| vec := []; cap := cap w; asked := asked w |})
  else
    let exact := zlen (vec w) * n in
    let total := wrap_u64 exact in
    caught_released (enlarge M k (zlen (vec w)) (cap w) total (asked w)) w (fun c m =>
    if total =? exact then
      let r := imul cfg k n spare (vec w) in
      (XDone (fst r), {| vec := snd r; cap := c; asked := m |})
    else (XDone (Undef OutOfBounds), count_to w m)).

(** IntArrayList_sort without key, 462-470. simdsort takes a temporary vector
    for the merge (utils/simd/BitonicSort.cpp 382 and 417, reached from 8
    elements on with AVX2 or AVX-512); otherwise timsort (above 5000 elements)
    makes [tim] requests for its buffer. *)
Definition merges (f : cpu) (size : Z) : bool := (8 <=? size) && (avx2 f || avx512 f).
Definition xsort (M : memory) (cfg : config) (k : kind) (reverseInt : Z) (tim : nat) (w : world) : xres :=
  let size := zlen (vec w) in
  let asks : cxx unit * nat :=
    if merges (feat cfg) size then
      match reserve M k 0 size (asked w) with (Val _, n) => (Val tt, n) | (Throw, n) => (Throw, n) end
    else if 5000 <? size then
      match objects M tim (asked w) with (true, n) => (Val tt, n) | (false, n) => (Throw, n) end
    else (Val tt, asked w) in
  caught_released asks w (fun _ n =>
  let r := sort_nokey cfg k reverseInt (vec w) in
  (XDone (fst r), {| vec := snd r; cap := cap w; asked := n |})).

(** IntArrayList_sort with a key, 471-490: the pointer array is checked, the
    int objects are not and CPython_sort reads them. [after]: what CPython_sort
    and the write-back do. *)
Definition xsort_key (M : memory) (after : res) (w : world) : xres :=
  if granted M (asked w) then
    match objects M (length (vec w)) (S (asked w)) with
    | (true, n) => plain after (count_to w n)
    | (false, n) => (XDone (Undef NullDeref), count_to w n)
    end
  else (XDone (Raise MemoryError), count_to w (S (asked w))).

(** IntArrayList_add, 702-736. Another list of the class always raises (see
    ArrayListModel.add); otherwise to_list and PySequence_Concat. *)
Definition xadd (M : memory) (cfg : config) (k : kind) (a : add_arg) (w : world) : xres :=
  match a with
  | AddOther => match objects M (S (length (vec w))) (asked w) with
                | (true, n) => (XDone (Raise TypeError), count_to w n)
                | (false, n) => (XDone (Raise MemoryError), count_to w n)
                end
  | _ => hand_out M (add cfg k a (vec w)) w
  end.

(** IntArrayList_repr, 1118-1147, outside a try: reserve, then the appends. A
    std::string holds 15 characters without a buffer. The result is an object
    of its own. *)
Definition str_need (M : memory) (size cap need : Z) (n : nat) : cxx Z * nat :=
  if max_str M <? need then (Throw, n)
  else if need <=? cap then (Val cap, n)
  else if granted M n then (Val (str_grown M size need), S n) else (Throw, S n).
Definition str_reserve (M : memory) (need : Z) (n : nat) : cxx Z * nat :=
  if max_str M <? need then (Throw, n)
  else if need <=? 15 then (Val 15, n)
  else if granted M n then (Val need, S n) else (Throw, S n).
Fixpoint repr_asks (M : memory) (s : list Z) (len cap : Z) (n : nat) : cxx unit * nat :=
  match s with
  | [] => match str_need M len cap (len + 1) n with          (* "]" *)
          | (Val _, n) => (Val tt, n) | (Throw, n) => (Throw, n) end
  | v :: r =>
      let l1 := len + zlen (format_int v) in
      match str_need M len cap l1 n with
      | (Throw, n) => (Throw, n)
      | (Val c, n) =>
          match r with
          | [] => repr_asks M r l1 c n
          | _ => match str_need M l1 c (l1 + 2) n with       (* ", " *)
                 | (Throw, n) => (Throw, n)
                 | (Val c, n) => repr_asks M r (l1 + 2) c n
                 end
          end
      end
  end.
(** Its outcome: a text in place of the [val] of other calls. *)
Inductive tout := TDone (o : outcome (list Z)) | TKilled.
Definition xrepr (M : memory) (w : world) : tout * world :=
  let finish n := let '(ok, n) := objects M 1 n in
                  (TDone (if ok then repr_ (vec w) else Raise MemoryError), count_to w n) in
  match vec w with
  | [] => finish (asked w)
  | _ =>
      match str_reserve M (zlen (vec w) * 4) (asked w) with
      | (Throw, n) => (TKilled, count_to w n)
      | (Val c, n) => match repr_asks M (vec w) 1 c n with
                      | (Throw, n) => (TKilled, count_to w n)
                      | (Val _, n) => finish n
                      end
      end
  end.

(** ** Construction *)
(** Item loops of IntArrayList_init, 71-79 and 90-100, in the try of 51-107. *)
Fixpoint xinit_items (M : memory) (k : kind) (items : list pyobj) (fin : option exn) (w : world) : xres :=
  match items with
  | [] => (XDone (match fin with None => Ret (VNewList (vec w)) | Some e => Raise e end), w)
  | o :: r =>
      match as_elem k o with
      | Ret z => caught (enlarge M k (zlen (vec w)) (cap w) (zlen (vec w) + 1) (asked w)) w (fun c n =>
                 xinit_items M k r fin {| vec := vec w ++ [z]; cap := c; asked := n |})
      | _ => (XDone (Raise RuntimeError), w)
      end
  end.

(** IntArrayList_init, 42-111, with the size hint exceptSize. [n]: requests made
    before. *)
Definition xinit (M : memory) (k : kind) (exceptSize : Z) (a : arg) (n : nat) : xres :=
  let w := {| vec := []; cap := 0; asked := n |} in
  caught (if 0 <? exceptSize then reserve M k 0 exceptSize n else (Val 0, n)) w (fun c n =>
  let w := {| vec := []; cap := c; asked := n |} in
  match a with
  | ASame ys => caught (reserve M k c (zlen ys) n) w (fun c n => (XDone (Ret (VNewList ys)), {| vec := ys; cap := c; asked := n |}))
  | ASelf => (XDone (Ret (VNewList [])), w)
  | AList items => xinit_items M k items None w
  | AIter items fin =>
      if granted M n then xinit_items M k items fin (count_to w (S n))
      else (XDone (Raise TypeError), count_to w (S n))     (* 84-87: the error is replaced *)
  | AOther => (XDone (Raise TypeError), w)
  end).

(** IntArrayList_from_range, 118-158, where the loop is defined. *)
Definition xfrom_range (M : memory) (k : kind) (a1 : pyobj) (a2 a3 : option pyobj) (n : nat) : xres :=
  let w := {| vec := []; cap := 0; asked := n |} in
  match eval_range a1 a2 a3 with
  | Ret _ =>
      if granted M n then
        match from_range k a1 a2 a3 with
        | Ret (VNewList l) => caught (enlarge M k 0 0 (zlen l) (S n)) w (fun c n =>
            (XDone (Ret (VNewList l)), {| vec := l; cap := c; asked := n |}))
        | o => (XDone o, count_to w (S n))
        end
      else (XDone (Raise MemoryError), count_to w (S n))
  | Raise e => (XDone (Raise e), w)
  | RetPending _ e => (XDone (Raise e), w)
  | Undef u => (XDone (Undef u), w)
  end.

(** ** Calls *)
Definition xstep (M : memory) (cfg : config) (k : kind) (o : op) (w : world) : xres :=
  let r := step cfg k o (vec w) in
  match o with
  | OAppend _ | OInsert _ _ | OResize _ => in_try M k r w
  | OExtend FromList vs => xextend M k VNone VNone (zlen vs) (AList (map PInt vs)) w
  | OExtend FromIterator vs => xextend M k VNone VNone 0 (AIter (map PInt vs) None) w
  | OExtend FromSameType vs => xextend M k VNone VNone 0 (ASame vs) w
  | OSetSlice sl vs => xsetitem_slice M k sl (map PInt vs) w
  | OCopy => xcopy M k w
  | OPop _ | OIndex _ _ _ | OCount _ | OGet _ | OGetSlice _ | OToList => hand_out M r w
  | ORemove _ | OReverse | OClear | OLen | OSet _ _ | ODel _ | OContains _ => plain r w
  end.

(** A history; it ends with a call that kills the process. *)
Fixpoint xrun (M : memory) (cfg : config) (k : kind) (ops : list op) (w : world) : list xout * world :=
  match ops with
  | [] => ([], w)
  | o :: r => match xstep M cfg k o w with
              | (XKilled, w1) => ([XKilled], w1)
              | (x, w1) => let '(xs, w2) := xrun M cfg k r w1 in (x :: xs, w2)
              end
  end.
