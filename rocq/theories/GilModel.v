(** The methods of the integer array lists that give up the interpreter lock
    (GIL) while they work on the list, and other threads that call methods of
    the same list meanwhile. pyfastutil/src/ints/IntArrayList.cpp: sort
    466-469, mul 804-809, imul 846-855, reverse 901-903; BigIntArrayList.cpp:
    sort 463-466, mul 806-811, imul 848-857, reverse 903-905. Every other method keeps the lock from its
    call to its return.

    A call is a program over shared memory, one access at a time. Shared memory
    is the header of the vector (its begin and end pointers, here one location
    with the size) and its elements. Simplified: the copy into a larger buffer
    and the freeing of the old one when a vector grows beyond its capacity
    are not separate accesses (such a call writes the header in any case). *)
From Coq Require Import ZArith List Bool.
From Verif Require Import Base PyListSpec ArrayListModel ArrayListMoreModel SimdSortModel.
Import ListNotations.
Local Open Scope Z_scope.

Inductive loc := Head | Cell (i : Z).
Definition loc_eqb (a b : loc) : bool :=
  match a, b with
  | Head, Head => true
  | Cell i, Cell j => i =? j
  | _, _ => false
  end.
Definition memory := loc -> Z.
Definition store (M : memory) (l : loc) (v : Z) : memory := fun x => if loc_eqb x l then v else M x.

(** The rest of a call: what it returns, a read, a write, Py_BEGIN_ALLOW_THREADS
    and Py_END_ALLOW_THREADS. *)
Inductive prog :=
| PRet (r : outcome val)
| PRd (l : loc) (k : Z -> prog)
| PWr (l : loc) (v : Z) (k : prog)
| PRel (k : prog)
| PAcq (k : prog).

(** ** Threads
    [now] is the call a thread is in, [todo] the calls it still makes,
    [answers] what its calls have returned. *)
Record thread := { now : option prog; todo : list prog; answers : list (outcome val) }.
Record config := { mem : memory; gil : option nat; thr : nat -> thread }.

Definition put (f : nat -> thread) (t : nat) (x : thread) : nat -> thread :=
  fun u => if Nat.eqb u t then x else f u.
Definition at_ (c : config) (t : nat) (p : option prog) : nat -> thread :=
  put (thr c) t {| now := p; todo := todo (thr c t); answers := answers (thr c t) |}.

(** One step of thread [t]. A call starts and ends with the lock; an access
    needs no lock. *)
Inductive step_of_thread (t : nat) : config -> config -> Prop :=
| st_begin c p r : gil c = None -> now (thr c t) = None -> todo (thr c t) = p :: r ->
    step_of_thread t c {| mem := mem c; gil := Some t;
      thr := put (thr c) t {| now := Some p; todo := r; answers := answers (thr c t) |} |}
| st_rd c l k : now (thr c t) = Some (PRd l k) ->
    step_of_thread t c {| mem := mem c; gil := gil c; thr := at_ c t (Some (k (mem c l))) |}
| st_wr c l v k : now (thr c t) = Some (PWr l v k) ->
    step_of_thread t c {| mem := store (mem c) l v; gil := gil c; thr := at_ c t (Some k) |}
| st_rel c k : now (thr c t) = Some (PRel k) -> gil c = Some t ->
    step_of_thread t c {| mem := mem c; gil := None; thr := at_ c t (Some k) |}
| st_acq c k : now (thr c t) = Some (PAcq k) -> gil c = None ->
    step_of_thread t c {| mem := mem c; gil := Some t; thr := at_ c t (Some k) |}
| st_ret c r : now (thr c t) = Some (PRet r) -> gil c = Some t ->
    step_of_thread t c {| mem := mem c; gil := None;
      thr := put (thr c) t {| now := None; todo := todo (thr c t); answers := answers (thr c t) ++ [r] |} |}.

Inductive reaches (c : config) : config -> Prop :=
| reach_refl : reaches c c
| reach_step c1 c2 t : reaches c c1 -> step_of_thread t c1 c2 -> reaches c c2.

(** ** The calls *)
(** Elements [i], ..., [i + n - 1], read or written in this order. *)
Fixpoint rd_cells (n : nat) (i : Z) (k : list Z -> prog) : prog :=
  match n with
  | O => k []
  | S m => PRd (Cell i) (fun v => rd_cells m (i + 1) (fun s => k (v :: s)))
  end.
Fixpoint wr_cells (s : list Z) (i : Z) (k : prog) : prog :=
  match s with
  | [] => k
  | v :: r => PWr (Cell i) v (wr_cells r (i + 1) k)
  end.
Definition rd_all (k : list Z -> prog) : prog := PRd Head (fun n => rd_cells (Z.to_nat n) 0 k).

(** simdReverse, SIMDUtils.h 174: elements [i] and [n - 1 - i] change places,
    for i below [n / 2]. Simplified: one pair at a time; the vector code loads
    and stores several pairs at once, the same elements in all. *)
Fixpoint swap_loop (m : nat) (i n : Z) (k : prog) : prog :=
  match m with
  | O => k
  | S m => PRd (Cell i) (fun x => PRd (Cell (n - 1 - i)) (fun y =>
           PWr (Cell i) y (PWr (Cell (n - 1 - i)) x (swap_loop m (i + 1) n k))))
  end.

(** reverse: IntArrayList.cpp 898-905, BigIntArrayList.cpp 900-907. *)
Definition p_reverse : prog :=
  PRel (PRd Head (fun n => swap_loop (Z.to_nat (n / 2)) 0 n (PAcq (PRet (Ret VNone))))).

(** sort without key: IntArrayList.cpp 450-469, 491-499. Simplified: a vector
    with more than one element is taken to be read entirely and then written
    entirely. The size stays ([fit]; C20 says that the sorted contents have
    this size for every vector that fits into memory). *)
Definition fit (n : nat) (s : list Z) : list Z := firstn n (s ++ repeat 0 n).
Definition p_sort (cfg : Base.config) (k : kind) (reverseInt : Z) : prog :=
  PRel (PRd Head (fun n =>
    if n <=? 1 then PAcq (PRet (Ret VNone))
    else rd_cells (Z.to_nat n) 0 (fun s =>
         wr_cells (fit (length s) (snd (sort_nokey cfg k reverseInt s))) 0
           (PAcq (PRet (fst (sort_nokey cfg k reverseInt s))))))).

(** The copies of mul, 806-808: data() of the list is read again for each. *)
Fixpoint copies (m size : nat) (k : list (list Z) -> prog) : prog :=
  match m with
  | O => k []
  | S m => PRd Head (fun _ => rd_cells size 0 (fun s => copies m size (fun ss => k (s :: ss))))
  end.

(** mul: IntArrayList.cpp 785-817, BigIntArrayList.cpp 787-819. The result is
    a new list no other thread knows; whether a copy is misaligned depends on
    the size alone (C14). *)
Definition mul_answer (cfg : Base.config) (k : kind) (n : Z) (ss : list (list Z)) : outcome val :=
  match fst (mul cfg k n (hd [] ss)) with
  | Undef u => Undef u
  | _ => Ret (VNewList (concat ss))
  end.
Definition p_mul (cfg : Base.config) (k : kind) (n : Z) : prog :=
  if n <=? 0 then PRet (Ret (VNewList []))
  else PRd Head (fun size => PRel (copies (Z.to_nat n) (Z.to_nat size) (fun ss =>
       PAcq (PRet (mul_answer cfg k n ss))))).

(** imul: IntArrayList.cpp 833-864, BigIntArrayList.cpp 835-866. [spare] as in
    ArrayListMoreModel.imul. The elements behind the old ones are set to 0 by
    resize (848), then the copies go to wherever the model of the single call
    puts them; the old elements are only read. Simplified: all copies are read
    at once and then written at once; resize(selfSize * n) is taken to find the
    size the method read before it gave up the lock (if another thread has
    changed it meanwhile, that was a race). *)
Definition imul_tail (cfg : Base.config) (k : kind) (n : Z) (spare : list Z) (s : list Z) : list Z :=
  skipn (length s) (fit (length s * Z.to_nat n) (snd (imul cfg k n spare s))).
Definition p_imul (cfg : Base.config) (k : kind) (n : Z) (spare : list Z) : prog :=
  if n <=? 0 then PWr Head 0 (PRet (Ret VSelf))
  else PRd Head (fun size => PRel (PRd Head (fun _ =>
    if (n =? 1) || (size <=? 0) then PAcq (PRet (Ret VSelf))
    else wr_cells (repeat 0 (Z.to_nat (size * n - size))) size (PWr Head (size * n) (PRd Head (fun _ =>
         rd_cells (Z.to_nat size) 0 (fun s => wr_cells (imul_tail cfg k n spare s) size
           (PAcq (PRet (fst (imul cfg k n spare s))))))))))).

(** The index an access by position goes to, IntArrayList_getitem 516-531 and
    setitem 568-597. *)
Definition place (n i : Z) : option Z :=
  if in_sbits_b 64 i then
    let p := if i <? 0 then n + i else i in
    if (p <? 0) || (n <=? p) then None else Some p
  else None.

(** The methods that keep the lock. Exact accesses: len 501-505, append
    221-237, clear 907-912, item access 516-531 and 568-597. Simplified: every
    other method that changes the list is taken to read it all and to write
    it all, every other reader to read it all. *)
Definition p_op (cfg : Base.config) (k : kind) (o : op) : prog :=
  match o with
  | OReverse => p_reverse
  | OLen => PRd Head (fun n => PRet (Ret (VInt n)))
  | OAppend v =>
      match as_elem k (PInt v) with
      | Ret w => PRd Head (fun n => PWr (Cell n) w (PWr Head (n + 1) (PRet (Ret VNone))))
      | Raise e => PRet (Raise e)
      | RetPending _ e => PRet (Raise e)
      | Undef u => PRet (Undef u)
      end
  | OClear => PWr Head 0 (PRet (Ret VNone))
  | OGet i => PRd Head (fun n =>
      match place n i with
      | None => PRet (Raise IndexError)
      | Some p => PRd (Cell p) (fun v => PRet (Ret (VElem (from_elem cfg k v))))
      end)
  | OSet i v => PRd Head (fun n =>
      match place n i with
      | None => PRet (Raise IndexError)
      | Some p =>
          match as_elem k (PInt v) with
          | Ret w => PWr (Cell p) w (PRet (Ret VNone))
          | Raise e => PRet (Raise e)
          | RetPending _ e => PRet (Raise e)
          | Undef u => PRet (Undef u)
          end
      end)
  | OGetSlice _ | OIndex _ _ _ | OCount _ | OContains _ | OToList | OCopy =>
      rd_all (fun s => PRet (fst (step cfg k o s)))
  | OExtend _ _ | OInsert _ _ | OPop _ | ORemove _ | OResize _ | ODel _ | OSetSlice _ _ =>
      rd_all (fun s => let '(r, s') := step cfg k o s in
        wr_cells s' 0 (PWr Head (zlen s') (PRet r)))
  end.

Inductive call := COp (o : op) | CSort (reverseInt : Z) | CMul (n : Z) | CIMul (n : Z) (spare : list Z).
Definition prog_of (cfg : Base.config) (k : kind) (c : call) : prog :=
  match c with
  | COp o => p_op cfg k o
  | CSort r => p_sort cfg k r
  | CMul n => p_mul cfg k n
  | CIMul n spare => p_imul cfg k n spare
  end.

(** Any number of threads with any calls, nobody in a call. *)
Definition start (cfg : Base.config) (k : kind) (M : memory) (calls : nat -> list call) : config :=
  {| mem := M; gil := None;
     thr := fun t => {| now := None; todo := map (prog_of cfg k) (calls t); answers := [] |} |}.
