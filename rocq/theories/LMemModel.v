(** The nodes of ints/IntLinkedList.cpp when memory is refused. Line numbers of
    that file unless stated.

    Every node of a std::list<int> is one request to operator new, which may be
    refused (std::bad_alloc). The members of std::list are those of libstdc++
    (bits/stl_list.h, list.tcc), which the repository does not contain: a range
    is copied into a list of its own first and then linked in, a list that is
    given up frees its nodes, and operator= overwrites the nodes there are
    before it inserts or erases.

    Simplified: an item is the value PyLong_AsLong gives with the error it sets;
    indices and slices are given as positions (their arithmetic is in
    LinkedListModel); modCount is left out; Python objects other than the lists
    do not appear (their references are in IRefModel). *)
From Coq Require Import ZArith List Bool Arith.
From Verif Require Import Base.
Import ListNotations.
Local Open Scope list_scope.

(** The nodes allocated now and the number of requests made. *)
Record mem := { live : list nat; asked : nat }.
(** A list: its nodes in order, each with its address and its int. *)
Definition lst := list (nat * Z).
Definition vals (l : lst) : list Z := map snd l.
Definition addrs (l : lst) : list nat := map fst l.

(** The end of a C++ operation. *)
Inductive how := Fine | BadAlloc | Wrong (u : ub).
Definition res : Type := how * lst * mem.

(** operator new for a node: [grant i] is whether request [i] is met. The
    address is the number of the request, so addresses are not used twice. *)
Definition new_node (grant : nat -> bool) (m : mem) : option nat * mem :=
  if grant (asked m) then (Some (asked m), {| live := asked m :: live m; asked := S (asked m) |})
  else (None, {| live := live m; asked := S (asked m) |}).
(** operator delete *)
Fixpoint take_out (a : nat) (xs : list nat) : option (list nat) :=
  match xs with
  | [] => None
  | x :: r => if Nat.eqb x a then Some r else option_map (cons x) (take_out a r)
  end.
Definition free_node (a : nat) (m : mem) : how * mem :=
  match take_out a (live m) with
  | Some r => (Fine, {| live := r; asked := asked m |})
  | None => (Wrong UseAfterFree, m)
  end.
Fixpoint free_nodes (l : lst) (m : mem) : how * mem :=
  match l with
  | [] => (Fine, m)
  | (a, _) :: r => match free_node a m with (Fine, m) => free_nodes r m | bad => bad end
  end.

(** ** std::list *)
(** clear() and the destructor *)
Definition clear_list (l : lst) (m : mem) : res := let '(h, m) := free_nodes l m in (h, [], m).
(** push_back(v); insert(pos, v) *)
Definition insert_at (grant : nat -> bool) (p : nat) (v : Z) (l : lst) (m : mem) : res :=
  match new_node grant m with
  | (Some a, m) => (Fine, firstn p l ++ (a, v) :: skipn p l, m)
  | (None, m) => (BadAlloc, l, m)
  end.
Definition push_back (grant : nat -> bool) (v : Z) (l : lst) (m : mem) : res := insert_at grant (length l) v l m.
(** The list made from a range: when a node is refused, those made before are
    freed again. *)
Fixpoint build (grant : nat -> bool) (vs : list Z) (tmp : lst) (m : mem) : res :=
  match vs with
  | [] => (Fine, tmp, m)
  | v :: r => match push_back grant v tmp m with
              | (Fine, tmp, m) => build grant r tmp m
              | (BadAlloc, tmp, m) => match free_nodes tmp m with (Fine, m) => (BadAlloc, [], m) | (h, m) => (h, [], m) end
              | bad => bad
              end
  end.
(** insert(end(), first, last), of another list or of the same one. *)
Definition append_range (grant : nat -> bool) (vs : list Z) (l : lst) (m : mem) : res :=
  match build grant vs [] m with
  | (Fine, tmp, m) => (Fine, l ++ tmp, m)
  | (h, _, m) => (h, l, m)
  end.
(** erase(pos), and of [n] nodes from a position *)
Fixpoint erase_at (p n : nat) (l : lst) (m : mem) : res :=
  match n with
  | O => (Fine, l, m)
  | S k => match nth_error l p with
           | None => (Wrong IterBeforeBegin, l, m)
           | Some (a, _) => match free_node a m with
                            | (Fine, m) => erase_at p k (firstn p l ++ skipn (S p) l) m
                            | (h, m) => (h, l, m)
                            end
           end
  end.
(** *it = v *)
Definition set_at (p : nat) (v : Z) (l : lst) : option lst :=
  match nth_error l p with Some (a, _) => Some (firstn p l ++ (a, v) :: skipn (S p) l) | None => None end.
(** operator=(const list &) *)
Fixpoint overwrite (p : nat) (vs : list Z) (l : lst) : nat * lst :=
  match vs with
  | [] => (p, l)
  | v :: r => match set_at p v l with Some l => overwrite (S p) r l | None => (p, l) end
  end.
Definition assign_list (grant : nat -> bool) (vs : list Z) (l : lst) (m : mem) : res :=
  let '(p, l) := overwrite 0 vs l in
  if length vs <=? p then erase_at p (length l - p) l m
  else append_range grant (skipn p vs) l m.

(** ** Calls *)
(** How a call ends: [Returns] with an error possibly left set. *)
Inductive ending := Returns (e : option exn) | Raises (e : exn) | Terminates | Corrupt (u : ub).
Definition item : Type := Z * option exn.

(** catch (const std::exception &) *)
Definition caught (r : res) (l_then : option exn) : ending * lst * mem :=
  match r with
  | (Fine, l, m) => (Returns l_then, l, m)
  | (BadAlloc, l, m) => (Raises RuntimeError, l, m)
  | (Wrong u, l, m) => (Corrupt u, l, m)
  end.
(** No handler: the exception leaves an extern "C" function. *)
Definition uncaught (r : res) : ending * lst * mem :=
  match r with
  | (Fine, l, m) => (Returns None, l, m)
  | (BadAlloc, l, m) => (Terminates, l, m)
  | (Wrong u, l, m) => (Corrupt u, l, m)
  end.

(** append, 174-192; insert, 344-371, with the index already brought into the list. *)
Definition append (grant : nat -> bool) (i : item) (l : lst) (m : mem) : ending * lst * mem :=
  caught (push_back grant (fst i) l m) (snd i).
Definition insert (grant : nat -> bool) (p : nat) (v : Z) (l : lst) (m : mem) : ending * lst * mem :=
  caught (insert_at grant p v l m) None.

(** The item loops of extend, 218-232, and of +=, 716-728, which have no handler.
    [fin] is the error the iterator ends with; [pend] the error set and not yet
    looked at. *)
Fixpoint extend_items (grant : nat -> bool) (is_ : list item) (fin pend : option exn) (l : lst) (m : mem) : ending * lst * mem :=
  match is_ with
  | [] => (match fin, pend with Some e, _ => Raises e | None, Some e => Raises e | None, None => Returns None end, l, m)
  | (v, err) :: r =>
      match pend with
      | Some e => (Raises e, l, m)
      | None => match push_back grant v l m with
                | (Fine, l, m) => extend_items grant r fin err l m
                | bad => uncaught bad
                end
      end
  end.
(** The same-class path of extend, 205-210, and of +=, 704-708; [ys] are the
    elements of the other list, or of this one. *)
Definition extend_same (grant : nat -> bool) (ys : list Z) (l : lst) (m : mem) : ending * lst * mem :=
  uncaught (append_range grant ys l m).

(** The item loops of the constructor, 50-58 and 73-82: a conversion error ends
    it with RuntimeError before the item is stored. *)
Fixpoint init_items (grant : nat -> bool) (is_ : list item) (fin : option exn) (l : lst) (m : mem) : ending * lst * mem :=
  match is_ with
  | [] => (match fin with Some e => Raises e | None => Returns None end, l, m)
  | (v, err) :: r =>
      match err with
      | Some _ => (Raises RuntimeError, l, m)
      | None => match push_back grant v l m with
                | (Fine, l, m) => init_items grant r fin l m
                | bad => caught bad None
                end
      end
  end.
(** IntLinkedList_init, 23-90; [SSame]: the elements of another IntLinkedList. *)
Inductive source := SNothing | SSame (ys : list Z) | SItems (is_ : list item) (fin : option exn).
Definition init (grant : nat -> bool) (s : source) (m : mem) : ending * lst * mem :=
  match s with
  | SNothing => (Returns None, [], m)
  | SSame ys => caught (assign_list grant ys [] m) None
  | SItems is_ fin => init_items grant is_ fin [] m
  end.
(** IntLinkedList_dealloc, 93-96. *)
Definition dealloc (l : lst) (m : mem) : how * mem := free_nodes l m.

(** A call that makes a new list ends with the list, or without one. *)
Definition made : Type := ending * option lst * mem.
(** type_call: when __init__ fails, the object is deallocated. *)
Definition construct (grant : nat -> bool) (obj : bool) (s : source) (m : mem) : made :=
  if obj then
    match init grant s m with
    | (Returns e, l, m) => (Returns e, Some l, m)
    | (Raises e, l, m) => match dealloc l m with (Fine, m) => (Raises e, None, m) | (Wrong u, m) => (Corrupt u, None, m) | (BadAlloc, m) => (Terminates, None, m) end
    | (x, l, m) => (x, None, m)
    end
  else (Raises MemoryError, None, m).
(** What a failed call does with the list it was making: [true] runs its
    destructor, [false] only gives the object back (PyObject_Del). *)
Definition give_up (destroy : bool) (l : lst) (m : mem) : made :=
  if destroy then match free_nodes l m with (Fine, m) => (Raises RuntimeError, None, m) | (Wrong u, m) => (Corrupt u, None, m) | (BadAlloc, m) => (Terminates, None, m) end
  else (Raises RuntimeError, None, m).
(** copy, 157-172. *)
Definition copy (grant : nat -> bool) (obj : bool) (xs : list Z) (m : mem) : made :=
  if obj then
    match assign_list grant xs [] m with
    | (Fine, l, m) => (Returns None, Some l, m)
    | (BadAlloc, l, m) => give_up false l m
    | (Wrong u, _, m) => (Corrupt u, None, m)
    end
  else (Raises MemoryError, None, m).
(** from_range, 100-138, with the elements of the range. *)
Fixpoint push_all (grant : nat -> bool) (vs : list Z) (l : lst) (m : mem) : res :=
  match vs with
  | [] => (Fine, l, m)
  | v :: r => match push_back grant v l m with (Fine, l, m) => push_all grant r l m | bad => bad end
  end.
Definition from_range (grant : nat -> bool) (obj : bool) (vs : list Z) (m : mem) : made :=
  if obj then
    match push_all grant vs [] m with
    | (Fine, l, m) => (Returns None, Some l, m)
    | (BadAlloc, l, m) => give_up true l m
    | (Wrong u, _, m) => (Corrupt u, None, m)
    end
  else (Raises MemoryError, None, m).
(** mul, 739-767. *)
Fixpoint mul_loop (grant : nat -> bool) (n : nat) (xs : list Z) (l : lst) (m : mem) : res :=
  match n with
  | O => (Fine, l, m)
  | S k => match append_range grant xs l m with (Fine, l, m) => mul_loop grant k xs l m | bad => bad end
  end.
Definition mul (grant : nat -> bool) (obj : bool) (n : Z) (xs : list Z) (m : mem) : made :=
  if obj then
    match mul_loop grant (Z.to_nat n) xs [] m with
    | (Fine, l, m) => (Returns None, Some l, m)
    | (BadAlloc, l, m) => give_up true l m
    | (Wrong u, _, m) => (Corrupt u, None, m)
    end
  else (Raises MemoryError, None, m).
(** imul, 782-806: every round copies the whole list. *)
Fixpoint imul_loop (grant : nat -> bool) (n : nat) (l : lst) (m : mem) : res :=
  match n with
  | O => (Fine, l, m)
  | S k => match append_range grant (vals l) l m with (Fine, l, m) => imul_loop grant k l m | bad => bad end
  end.
Definition imul (grant : nat -> bool) (n : Z) (l : lst) (m : mem) : ending * lst * mem :=
  caught (if (n <=? 0)%Z then clear_list l m else imul_loop grant (Z.to_nat n - 1) l m) None.

(** setitem_slice, 567-661, of the [n] elements from position [p] (593-661). *)
Fixpoint assign_items (p : nat) (is_ : list item) (l : lst) : ending * lst :=
  match is_ with
  | [] => (Returns None, l)
  | (v, err) :: r => match set_at p v l with
                     | None => (Corrupt IterBeforeBegin, l)
                     | Some l => match err with Some e => (Raises e, l) | None => assign_items (S p) r l end
                     end
  end.
Fixpoint insert_items (grant : nat -> bool) (p : nat) (is_ : list item) (l : lst) (m : mem) : ending * lst * mem :=
  match is_ with
  | [] => (Returns None, l, m)
  | (v, err) :: r => match insert_at grant p v l m with
                     | (Fine, l, m) => match err with Some e => (Raises e, l, m) | None => insert_items grant (S p) r l m end
                     | bad => caught bad None
                     end
  end.
Definition set_slice (grant : nat -> bool) (p n : nat) (is_ : list item) (l : lst) (m : mem) : ending * lst * mem :=
  match assign_items p (firstn n is_) l with
  | (Returns _, l) =>
      if length is_ <=? n then caught (erase_at (p + length is_) (n - length is_) l m) None
      else insert_items grant (p + n) (skipn n is_) l m
  | (x, l) => (x, l, m)
  end.
(** pop, 243-282, remove, 373-398, and deletion of an item, 522-553: one node is
    erased. clear, 848-853. *)
Definition erase_one (p : nat) (l : lst) (m : mem) : ending * lst * mem := caught (erase_at p 1 l m) None.
Definition clear (l : lst) (m : mem) : ending * lst * mem := caught (clear_list l m) None.

(** ** Histories over several lists *)
(** The lists a program holds; [None] is one that was deallocated. *)
Record world := { pool : list (option lst); heap : mem }.
Inductive from := FNothing | FList (j : nat) | FItems (is_ : list item) (fin : option exn).
Inductive event :=
  | ENew (obj : bool) (s : from) | EAgain (i : nat) (s : from)       (* IntLinkedList(...); l.__init__(...) *)
  | EAppend (i : nat) (x : item) | EInsert (i p : nat) (v : Z)
  | EExtend (i : nat) (s : from)                                      (* extend and += *)
  | ECopy (obj : bool) (i : nat) | ERange (obj : bool) (vs : list Z)
  | EMul (obj : bool) (i : nat) (n : Z) | EImul (i : nat) (n : Z)
  | ESlice (i p n : nat) (is_ : list item) | EErase (i p : nat) | EClear (i : nat)
  | EDrop (i : nat).                                                  (* the last reference goes away *)

Definition get (w : world) (i : nat) : option lst := match nth_error (pool w) i with Some o => o | None => None end.
Definition put (i : nat) (o : option lst) (w : world) (m : mem) : world :=
  {| pool := firstn i (pool w) ++ o :: skipn (S i) (pool w); heap := m |}.
Definition source_of (w : world) (s : from) : option source :=
  match s with
  | FNothing => Some SNothing
  | FList j => option_map (fun l => SSame (vals l)) (get w j)
  | FItems is_ fin => Some (SItems is_ fin)
  end.
(** A call on list [i] that leaves another list there. *)
Definition on (w : world) (i : nat) (f : lst -> mem -> ending * lst * mem) : option (ending * world) :=
  match get w i with
  | None => None
  | Some l => let '(x, l, m) := f l (heap w) in Some (x, put i (Some l) w m)
  end.
(** A call that makes a list: it comes last in the pool. *)
Definition making (w : world) (r : made) : ending * world :=
  let '(x, o, m) := r in (x, {| pool := match o with Some l => pool w ++ [Some l] | None => pool w end; heap := m |}).
(** [None]: there is no such list to call. *)
Definition step (grant : nat -> bool) (e : event) (w : world) : option (ending * world) :=
  match e with
  | ENew obj s => option_map (fun s => making w (construct grant obj s (heap w))) (source_of w s)
  | EAgain i s =>
      match get w i, (match s with FList j => if Nat.eqb i j then Some SNothing else source_of w s | _ => source_of w s end) with
      | Some _, Some s => on w i (fun _ m => init grant s m)      (* the old nodes are forgotten, 24 *)
      | _, _ => None
      end
  | EAppend i x => on w i (append grant x)
  | EInsert i p v => on w i (insert grant p v)
  | EExtend i s =>
      match s with
      | FNothing => None
      | FList j => match get w j with Some y => on w i (extend_same grant (vals y)) | None => None end
      | FItems is_ fin => on w i (extend_items grant is_ fin None)
      end
  | ECopy obj i => option_map (fun l => making w (copy grant obj (vals l) (heap w))) (get w i)
  | ERange obj vs => Some (making w (from_range grant obj vs (heap w)))
  | EMul obj i n => option_map (fun l => making w (mul grant obj n (vals l) (heap w))) (get w i)
  | EImul i n => on w i (imul grant n)
  | ESlice i p n is_ => on w i (fun l m => if p + n <=? length l then set_slice grant p n is_ l m else (Raises IndexError, l, m))
  | EErase i p => on w i (fun l m => if p <? length l then erase_one p l m else (Raises IndexError, l, m))
  | EClear i => on w i clear
  | EDrop i => match get w i with
               | None => None
               | Some l => match dealloc l (heap w) with
                           | (Fine, m) => Some (Returns None, put i None w m)
                           | (Wrong u, m) => Some (Corrupt u, w)
                           | (BadAlloc, m) => Some (Terminates, w)
                           end
               end
  end.
(** The endings of the calls made and the last state; std::terminate and
    undefined behaviour end the run. *)
Fixpoint run (grant : nat -> bool) (es : list event) (w : world) : list ending * world :=
  match es with
  | [] => ([], w)
  | e :: r => match step grant e w with
              | None => run grant r w
              | Some (Terminates, w) => ([Terminates], w)
              | Some (Corrupt u, w) => ([Corrupt u], w)
              | Some (x, w) => let '(xs, w) := run grant r w in (x :: xs, w)
              end
  end.
Definition start : world := {| pool := []; heap := {| live := []; asked := 0 |} |}.
