(** Specification for C73: data races, calls one after another, and which
    accesses of a list need which protection. *)
From Coq Require Import ZArith List Bool.
From Verif Require Import Base PyListSpec ArrayListModel ArrayListMoreModel SimdSortModel GilModel.
Import ListNotations.
Local Open Scope Z_scope.

(** The memory holds the list [s]. *)
Definition holds (M : memory) (s : list Z) : Prop :=
  M Head = zlen s /\ forall i v, nth_error s i = Some v -> M (Cell (Z.of_nat i)) = v.

(** A memory that holds the list. *)
Definition memory_of (s : list Z) : memory :=
  fun l => match l with Head => zlen s | Cell i => get_default s i end.

(** The access a thread makes next, if it makes one: location and whether it
    writes. *)
Definition next (x : thread) : option (loc * bool) :=
  match now x with
  | Some (PRd l _) => Some (l, false)
  | Some (PWr l _ _) => Some (l, true)
  | _ => None
  end.

(** Two threads are about to access one location, at least one of them writing
    it: a data race, undefined in C++. *)
Definition racing (c : config) : Prop :=
  exists t u l w w', t <> u /\ next (thr c t) = Some (l, w) /\ next (thr c u) = Some (l, w') /\ (w = true \/ w' = true).
Definition race_free (c : config) : Prop := forall c', reaches c c' -> ~ racing c'.

(** Nobody is in a call. *)
Definition quiet (c : config) : Prop := forall t, now (thr c t) = None.

(** What a call alone does to a list: the models of the single calls, except
    that reverse is taken to reverse, [*] to repeat, sort to keep the length and
    [*=] to keep the old elements and to fill up to [n] times the length (true
    for every list that can exist: C73_alone). *)
Definition alone (cfg : Base.config) (k : kind) (c : call) (s : list Z) : outcome val * list Z :=
  match c with
  | COp OReverse => (Ret VNone, rev s)
  | COp o => step cfg k o s
  | CSort r => (fst (sort_nokey cfg k r s), fit (length s) (snd (sort_nokey cfg k r s)))
  | CMul n =>
      (match fst (mul cfg k n s) with
       | Undef u => Undef u
       | _ => Ret (VNewList (concat (repeat s (Z.to_nat n))))
       end, s)
  | CIMul n spare =>
      if n <=? 0 then (Ret VSelf, [])
      else (fst (imul cfg k n spare s),
            s ++ skipn (length s) (fit (length s * Z.to_nat n) (snd (imul cfg k n spare s))))
  end.

(** Calls of several threads one after another: the answers with their threads,
    and the list at the end. *)
Fixpoint one_by_one (cfg : Base.config) (k : kind) (order : list (nat * call)) (s : list Z) :
    list (nat * outcome val) * list Z :=
  match order with
  | [] => ([], s)
  | (t, c) :: r =>
      let '(a, s1) := alone cfg k c s in
      let '(l, s2) := one_by_one cfg k r s1 in ((t, a) :: l, s2)
  end.

Definition of_thread {A} (t : nat) (l : list (nat * A)) : list A :=
  map snd (filter (fun x => Nat.eqb (fst x) t) l).

(** The call gives up the lock. *)
Definition unlocks (c : call) : bool :=
  match c with
  | COp OReverse | CSort _ => true
  | CMul n | CIMul n _ => 0 <? n
  | COp _ => false
  end.

(** The call only reads the list. *)
Definition reader (c : call) : bool :=
  match c with
  | COp (OLen | OGet _ | OGetSlice _ | OIndex _ _ _ | OCount _ | OContains _ | OToList | OCopy) => true
  | CMul _ => true
  | CIMul n _ => n =? 1
  | _ => false
  end.

(** The call leaves the size field alone. *)
Definition keeps_size (c : call) : bool :=
  match c with
  | COp (OReverse | OSet _ _) | CSort _ => true
  | c => reader c
  end.

(** On a list of [n] elements the call certainly reads or writes the element
    at position [p] ... *)
Definition touches (n p : Z) (c : call) : Prop :=
  match c with
  | COp (OGet i) => place n i = Some p
  | COp (OSet i v) => place n i = Some p /\ in_sbits 64 v
  | COp (OToList | OCopy | OCount _) => 0 <= p < n
  | CMul m => 0 <= p < n /\ 0 < m
  | CSort _ => 0 <= p < n /\ 2 <= n
  | COp OReverse => 0 <= p < n /\ 2 * p + 1 <> n
  | _ => False
  end.

(** ... and may write the elements it touches. *)
Definition writer (c : call) : bool :=
  match c with
  | COp (OSet _ _) | COp OReverse | CSort _ => true
  | _ => false
  end.

(** On a list of [n] elements the call certainly writes the size field. *)
Definition resizes (n : Z) (c : call) : Prop :=
  match c with
  | COp (OAppend v) => in_sbits 64 v
  | COp OClear => True
  | COp (OInsert i v) => in_sbits 64 i /\ in_sbits 32 v
  | COp (OPop None) => 0 < n
  | CIMul m _ => m <= 0 \/ 0 < n /\ 2 <= m
  | _ => False
  end.

(** The call certainly reads or writes the size field: all do, except [*] with
    a number below 1 and the append of a number that is refused. *)
Definition uses_size (c : call) : Prop :=
  match c with
  | COp (OAppend v) => in_sbits 64 v
  | CMul m => 0 < m
  | _ => True
  end.

(** ** Protection
    What may be done with a location: it is accessed with the lock only, or
    never written, or used by one thread only. *)
Inductive rule := Guarded | ReadOnly | Owned (t : nat).
Definition may_read (r : rule) (t : nat) (lock : bool) : Prop :=
  match r with Guarded => lock = true | ReadOnly => True | Owned u => u = t end.
Definition may_write (r : rule) (t : nat) (lock : bool) : Prop :=
  match r with Guarded => lock = true | ReadOnly => False | Owned u => u = t end.

(** The program of thread [t], holding the lock or not, keeps to the rules,
    whatever values it reads. *)
Fixpoint obeys (rules : loc -> rule) (t : nat) (lock : bool) (p : prog) : Prop :=
  match p with
  | PRet _ => lock = true
  | PRd l k => may_read (rules l) t lock /\ forall v, obeys rules t lock (k v)
  | PWr l _ k => may_write (rules l) t lock /\ obeys rules t lock k
  | PRel k => lock = true /\ obeys rules t false k
  | PAcq k => lock = false /\ obeys rules t true k
  end.
