(** Birth and death of the list objects: PyType_GenericNew, the init functions
    with their argument parsing, called once, twice or never, and dealloc, with
    the memory blocks they take and give back. ints/IntArrayList.cpp 23-116,
    ints/BigIntArrayList.cpp 23-116, objects/ObjectArrayList.cpp 23-109,
    ints/IntLinkedList.cpp 23-98, objects/ObjectLinkedList.cpp 23-89; the types
    can be subclassed and are created with PyType_GenericNew (IntArrayList.cpp
    1231-1239 and the like), so user code can make objects whose init never ran.

    Elements are what the list stores: an int, or an object of any kind. Blocks
    are heap allocations of the containers: at most one buffer of a vector, one
    node for each element of a std::list. Reference counts are ObjModel's;
    requests for memory other than the reservation of a given size succeed
    (AllocModel has them fail). *)
From Coq Require Import ZArith List Bool String.
From Verif Require Import Base PyLongModel PyListSpec ArrayListModel.
Import ListNotations.
Local Open Scope Z_scope.

(** The five classes; the first three hold a std::vector, the others a
    std::list. *)
Inductive cls := IntA | BigA | ObjA | IntL | ObjL.
Definition linked (c : cls) : bool := match c with IntL | ObjL => true | _ => false end.

(** An item as an element: PyLong_AsLong and the like, or the object itself. *)
Definition conv (c : cls) (o : pyobj) : outcome pyobj :=
  match c with
  | IntA | IntL => omap PInt (as_elem KInt o)
  | BigA => omap PInt (as_elem KBig o)
  | ObjA | ObjL => Ret o
  end.

(** ** Arguments of a constructor call *)
Inductive carg :=
| CInt (z : Z)                                    (* an int *)
| COf (y : Z)                                     (* an object of exactly this class *)
| CSeq (items : list pyobj)                       (* a Python list or tuple *)
| CIter (items : list pyobj) (fin : option exn)   (* any other iterable *)
| COther.                                         (* not iterable and without __index__ *)
Definition kwargs := list (string * carg).
Fixpoint kw_get (k : kwargs) (name : string) : option carg :=
  match k with
  | [] => None
  | (n, a) :: r => if String.eqb n name then Some a else kw_get r name
  end.
Definition found {A} (o : option A) : Z := match o with Some _ => 1 | None => 0 end.

(** PyArg_ParseTupleAndKeywords with "|On" and {"iterable", "exceptSize"}: too
    many arguments are refused first, then the values are converted in order,
    and keywords that were not used up are refused last. A size converted by
    then stays written. *)
Definition parse_on (pos : list carg) (kw : kwargs) : option exn * option carg * Z :=
  if 2 <? zlen pos + zlen kw then (Some TypeError, None, -1) else
  let k1 := match pos with [] => kw_get kw "iterable" | _ => None end in
  let a1 := match pos with a :: _ => Some a | [] => k1 end in
  let k2 := match pos with _ :: _ :: _ => None | _ => kw_get kw "exceptSize" end in
  let a2 := match pos with _ :: b :: _ => Some b | _ => k2 end in
  let conv2 := match a2 with
               | None => inl (-1)
               | Some (CInt z) => if in_sbits_b 64 z then inl z else inr OverflowError
               | Some _ => inr TypeError
               end in
  match conv2 with
  | inr e => (Some e, a1, -1)
  | inl n => (if found k1 + found k2 <? zlen kw then Some TypeError else None, a1, n)
  end.
(** The same with "|O" and {"iterable"}. *)
Definition parse_o (pos : list carg) (kw : kwargs) : option exn * option carg :=
  if 1 <? zlen pos + zlen kw then (Some TypeError, None) else
  let k1 := match pos with [] => kw_get kw "iterable" | _ => None end in
  (if found k1 <? zlen kw then Some TypeError else None, match pos with a :: _ => Some a | [] => k1 end).

(** parseArgs, IntArrayList.cpp 23-40: the error indicator, pyIterable and
    pySize when it returns. It cannot report failure. *)
Definition parse_args (pos : list carg) (kw : kwargs) : option exn * option carg * Z :=
  match parse_on pos kw with
  | (Some e, _, n) => (Some e, None, n)
  | (None, None, n) => (None, None, n)
  | (None, Some (CInt z), _) =>
      if in_sbits_b 64 z then (None, None, z) else (Some OverflowError, None, -1)
  | (None, Some a, n) => (None, Some a, n)
  end.

(** ** Memory *)
Record mem := { heap : list Z; next : Z }.
Definition alloc (m : mem) : Z * mem := (next m, {| heap := next m :: heap m; next := next m + 1 |}).
Definition free (b : Z) (m : mem) : outcome mem :=
  if existsb (Z.eqb b) (heap m)
  then Ret {| heap := filter (fun x => negb (x =? b)) (heap m); next := next m |}
  else Undef BadFree.
Fixpoint free_all (bs : list Z) (m : mem) : outcome mem :=
  match bs with
  | [] => Ret m
  | b :: r => obind (free b m) (free_all r)
  end.

(** ** Objects *)
(** The container: [built] once its constructor has run; before, it is all
    zeros, which for a vector is an empty vector. The blocks are the buffer or
    the nodes in order; [old] are chains of nodes that were left behind. *)
Record cell := { built : bool; items : list pyobj; own : list Z; cap : Z; modc : Z; old : list (list (Z * pyobj)) }.
Definition raw : cell := {| built := false; items := []; own := []; cap := 0; modc := 0; old := [] |}.
Notation state := (cell * mem)%type.

(** Placement new over the container (IntArrayList.cpp 43, IntLinkedList.cpp
    24-25): whatever was there is forgotten, not destroyed. *)
Definition construct (c : cell) : cell :=
  {| built := true; items := []; own := []; cap := 0; modc := 0;
     old := List.combine (own c) (items c) :: old c |}.

(** vector: room for [need] elements; the capacity is [wish] if a new buffer is
    needed, and the old one is given back. *)
Definition vec_room (need wish : Z) (s : state) : outcome state :=
  let '(c, m) := s in
  if need <=? cap c then Ret (c, m) else
  let '(b, m) := alloc m in
  obind (free_all (own c) m) (fun m =>
  Ret ({| built := built c; items := items c; own := [b]; cap := wish; modc := modc c; old := old c |}, m)).
Definition with_items (l : list pyobj) (c : cell) : cell :=
  {| built := built c; items := l; own := own c; cap := cap c; modc := modc c; old := old c |}.
Definition put_items (l : list pyobj) (s : state) : outcome state := Ret (with_items l (fst s), snd s).
(** push_back of a vector (libstdc++ doubles), and of a std::list: linking a
    node follows the pointers of the container, null in a zeroed one. *)
Definition push (c : cls) (v : pyobj) (s : state) : outcome state :=
  if linked c then
    if built (fst s) then
      let '(b, m) := alloc (snd s) in
      Ret ({| built := true; items := items (fst s) ++ [v]; own := own (fst s) ++ [b]; cap := 0;
              modc := modc (fst s); old := old (fst s) |}, m)
    else Undef NullDeref
  else
    let n := zlen (items (fst s)) in
    obind (vec_room (n + 1) (Z.max (2 * n) (n + 1)) s) (fun s => put_items (items (fst s) ++ [v]) s).
(** Assignment of the elements of another container to a newly constructed one. *)
Fixpoint push_all (c : cls) (vs : list pyobj) (s : state) : outcome state :=
  match vs with
  | [] => Ret s
  | v :: r => obind (push c v s) (push_all c r)
  end.
Definition assign_all (c : cls) (vs : list pyobj) (s : state) : outcome state :=
  if linked c then push_all c vs s
  else obind (vec_room (zlen vs) (zlen vs) s) (fun s => put_items vs s).

(** A failed step in the middle keeps the state reached. *)
Definition settle (x : outcome state) (s : state) : outcome unit * state :=
  match x with
  | Ret s' => (Ret tt, s') | Raise e => (Raise e, s) | RetPending s' e => (RetPending tt e, s') | Undef u => (Undef u, s)
  end.
(** The loops over items, IntArrayList.cpp 71-79 and 91-101; an item that cannot
    be converted is RuntimeError and leaves the elements before it. *)
Fixpoint fill (c : cls) (its : list pyobj) (s : state) : outcome unit * state :=
  match its with
  | [] => (Ret tt, s)
  | o :: r =>
      match conv c o with
      | Ret v => match push c v s with Ret s' => fill c r s' | x => settle x s end
      | _ => (Raise RuntimeError, s)
      end
  end.
(** ObjectArrayList.cpp 61-77: one insert of the whole range. *)
Definition fill_seq (c : cls) (its : list pyobj) (s : state) : outcome unit * state :=
  match c with
  | ObjA => settle (assign_all ObjA its s) s
  | _ => fill c its s
  end.

(** ** The world: named objects of one class, and the heap *)
Record world := { objs : list (Z * cell); wmem : mem }.
Fixpoint find_obj (os : list (Z * cell)) (x : Z) : option cell :=
  match os with
  | [] => None
  | (n, c) :: r => if n =? x then Some c else find_obj r x
  end.
Fixpoint set_obj (os : list (Z * cell)) (x : Z) (c : cell) : list (Z * cell) :=
  match os with
  | [] => []
  | (n, d) :: r => if n =? x then (n, c) :: r else (n, d) :: set_obj r x c
  end.
Fixpoint del_obj (os : list (Z * cell)) (x : Z) : list (Z * cell) :=
  match os with
  | [] => []
  | (n, d) :: r => if n =? x then r else (n, d) :: del_obj r x
  end.

(** Copying from an object of the class: the init functions' first branch. The
    object itself is assigned to itself; the nodes of a zeroed std::list are
    reached through a null pointer. *)
Definition copy_from (c : cls) (os : list (Z * cell)) (x y : Z) (s : state) : outcome unit * state :=
  if x =? y then (Ret tt, s) else
  match find_obj os y with
  | None => (Raise TypeError, s)
  | Some d => if linked c && negb (built d) then (Undef NullDeref, s)
              else settle (assign_all c (items d) s) s
  end.
Definition from_arg (c : cls) (os : list (Z * cell)) (x : Z) (a : option carg) (s : state) : outcome unit * state :=
  match a with
  | None => (Ret tt, s)
  | Some (COf y) => copy_from c os x y s
  | Some (CSeq its) => fill_seq c its s
  | Some (CIter its fin) =>
      match fill c its s with
      | (Ret _, s) => (match fin with None => Ret tt | Some e => Raise e end, s)
      | r => r
      end
  | Some (CInt _) | Some COther => (Raise TypeError, s)
  end.

(** The init functions. [room] says which reservations are granted; a refusal,
    or a size beyond max_size(), is RuntimeError (IntArrayList.cpp 105-108). *)
Definition init_call (room : Z -> bool) (c : cls) (os : list (Z * cell)) (x : Z) (pos : list carg) (kw : kwargs) (s : state)
  : outcome unit * state :=
  let s := (construct (fst s), snd s) in
  if linked c then
    match parse_o pos kw with
    | (Some e, _) => (Raise e, s)                       (* 32-34 *)
    | (None, a) => from_arg c os x a s
    end
  else
    let '(err, a, n) := parse_args pos kw in
    if (0 <? n) && negb (room n) then (Raise RuntimeError, s) else
    match (if 0 <? n then vec_room n n s else Ret s) with
    | Ret s =>
        match err with
        | Some e => (RetPending tt e, s)                (* init returns 0, the error is set *)
        | None => from_arg c os x a s
        end
    | r => settle r s
    end.

(** dealloc: ~vector frees the buffer; ~list walks the nodes from the
    container's first pointer until it is back at the container
    (IntLinkedList.cpp 95-98). *)
Definition dealloc (c : cls) (s : state) : outcome mem :=
  if linked c && negb (built (fst s)) then Undef NullDeref else free_all (own (fst s)) (snd s).

(** ** Calls *)
Inductive lop :=
| LNew (x : Z)                                       (* cls.__new__(cls) *)
| LInit (x : Z) (pos : list carg) (kw : kwargs)      (* x.__init__(...) *)
| LMake (x : Z) (pos : list carg) (kw : kwargs)      (* x = cls(...) *)
| LLen (x : Z) | LGet (x i : Z)
| LAppend (x : Z) (v : pyobj)                        (* of something convertible *)
| LClear (x : Z)
| LDrop (x : Z).                                     (* the last reference goes *)
Inductive lval := LNone | LSize (n : Z) | LItem (v : pyobj).

Definition put_obj (w : world) (x : Z) (s : state) : world := {| objs := set_obj (objs w) x (fst s); wmem := snd s |}.
(** clear: a vector keeps its buffer, a std::list gives all nodes back. *)
Definition clear_call (c : cls) (s : state) : outcome state :=
  if linked c then
    if built (fst s) then
      obind (free_all (own (fst s)) (snd s)) (fun m =>
      Ret ({| built := true; items := []; own := []; cap := 0; modc := modc (fst s) + 1; old := old (fst s) |}, m))
    else Undef NullDeref
  else put_items [] s.
(** append counts as a modification in the linked lists. *)
Definition append_call (c : cls) (v : pyobj) (s : state) : outcome state :=
  obind (push c v s) (fun s =>
  Ret ({| built := built (fst s); items := items (fst s); own := own (fst s); cap := cap (fst s);
          modc := if linked c then modc (fst s) + 1 else modc (fst s); old := old (fst s) |}, snd s)).

Definition on_obj (w : world) (x : Z) (f : cell -> outcome lval * world) : outcome lval * world :=
  match find_obj (objs w) x with None => (Raise TypeError, w) | Some c => f c end.
Definition done (r : outcome state) (w : world) (x : Z) : outcome lval * world :=
  match r with
  | Ret s => (Ret LNone, put_obj w x s)
  | Raise e => (Raise e, w) | RetPending s e => (RetPending LNone e, put_obj w x s) | Undef u => (Undef u, w)
  end.
Definition none_of (o : outcome unit) : outcome lval := omap (fun _ => LNone) o.
Definition drop_obj (c : cls) (w : world) (x : Z) : outcome lval * world :=
  on_obj w x (fun d =>
  match dealloc c (d, wmem w) with
  | Ret m => (Ret LNone, {| objs := del_obj (objs w) x; wmem := m |})
  | Raise e => (Raise e, w) | RetPending m e => (RetPending LNone e, w) | Undef u => (Undef u, w)
  end).
Definition add_obj (w : world) (x : Z) : world := {| objs := objs w ++ [(x, raw)]; wmem := wmem w |}.
Definition init_obj (room : Z -> bool) (c : cls) (w : world) (x : Z) (pos : list carg) (kw : kwargs) : outcome lval * world :=
  on_obj w x (fun d =>
  let '(r, s) := init_call room c (objs w) x pos kw (d, wmem w) in (none_of r, put_obj w x s)).

Definition lstep (room : Z -> bool) (c : cls) (o : lop) (w : world) : outcome lval * world :=
  match o with
  | LNew x => match find_obj (objs w) x with Some _ => (Raise TypeError, w) | None => (Ret LNone, add_obj w x) end
  | LInit x pos kw => init_obj room c w x pos kw
  | LMake x pos kw =>
      match find_obj (objs w) x with
      | Some _ => (Raise TypeError, w)
      | None =>
          let '(r, w1) := init_obj room c (add_obj w x) x pos kw in
          match r with
          | Ret _ => (r, w1)
          | Undef _ => (r, w1)
          | _ => match drop_obj c w1 x with (Ret _, w2) => (r, w2) | (r', w2) => (r', w2) end
          end
      end
  | LLen x => on_obj w x (fun d => (Ret (LSize (zlen (items d))), w))
  | LGet x i => on_obj w x (fun d =>
      let size := zlen (items d) in
      let i := if i <? 0 then size + i else i in
      if (i <? 0) || (size <=? i) then (Raise IndexError, w)
      else match znth (items d) i with Some v => (Ret (LItem v), w) | None => (Undef OutOfBounds, w) end)
  | LAppend x v => on_obj w x (fun d => done (append_call c v (d, wmem w)) w x)
  | LClear x => on_obj w x (fun d => done (clear_call c (d, wmem w)) w x)
  | LDrop x => drop_obj c w x
  end.

Definition start : world := {| objs := []; wmem := {| heap := []; next := 1 |} |}.
(** Nothing is said about what follows undefined behaviour. *)
Fixpoint lrun (room : Z -> bool) (c : cls) (h : list lop) (w : world) : list (outcome lval) * world :=
  match h with
  | [] => ([], w)
  | o :: r =>
      let '(x, w1) := lstep room c o w in
      match x with
      | Undef _ => ([x], w1)
      | _ => let '(xs, w2) := lrun room c r w1 in (x :: xs, w2)
      end
  end.

(** ** Iterators of the linked lists across init *)
(** ints/IntLinkedListIter.cpp 14-33 and 56-90, not reversed: the index, the
    cached node (0 is the container's own end node) and modCount. *)
Record liter := { it_index : Z; it_node : Z; it_mod : Z }.
Definition node_at (c : cell) (i : Z) : Z := match znth (own c) i with Some b => b | None => 0 end.
Definition iter_new (c : cell) : liter := {| it_index := 0; it_node := node_at c 0; it_mod := modc c |}.
(** A node's element and successor, in the chain it belongs to. *)
Fixpoint in_chain (ch : list (Z * pyobj)) (b : Z) : option (pyobj * Z) :=
  match ch with
  | [] => None
  | (n, v) :: r => if n =? b then Some (v, match r with (m, _) :: _ => m | [] => 0 end) else in_chain r b
  end.
Fixpoint in_chains (chs : list (list (Z * pyobj))) (b : Z) : option (pyobj * Z) :=
  match chs with
  | [] => None
  | ch :: r => match in_chain ch b with Some x => Some x | None => in_chains r b end
  end.
Definition iter_next (it : liter) (c : cell) : outcome pyobj * liter :=
  if zlen (items c) =? 0 then (Raise StopIteration, it)
  else if zlen (items c) <=? it_index it then (Raise StopIteration, it)
  else
    let it := if it_mod it =? modc c then it
              else {| it_index := it_index it + 1; it_node := node_at c (it_index it); it_mod := modc c |} in
    if it_node it =? 0 then (Undef IterBeforeBegin, it)
    else match in_chains (List.combine (own c) (items c) :: old c) (it_node it) with
         | None => (Undef UseAfterFree, it)
         | Some (v, nx) => (Ret v, {| it_index := it_index it + 1; it_node := nx; it_mod := it_mod it |})
         end.
Fixpoint iter_run (n : nat) (it : liter) (c : cell) : list (outcome pyobj) :=
  match n with
  | O => []
  | S m => let '(x, it') := iter_next it c in
           match x with Undef _ => [x] | _ => x :: iter_run m it' c end
  end.
