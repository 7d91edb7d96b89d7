(** What an import should give, and what a failed one leaves. *)
From Coq Require Import ZArith List Bool String.
From Verif Require Import Base ImportModel.
Import ListNotations.
Local Open Scope string_scope.
Local Open Scope Z_scope.

(** The classes of the library: those of the stub files. *)
Definition library : list string :=
  ["IntArrayList"; "IntArrayListIter"; "BigIntArrayList"; "BigIntArrayListIter"; "IntLinkedList"; "IntLinkedListIter";
   "ObjectArrayList"; "ObjectArrayListIter"; "ObjectLinkedList"; "ObjectLinkedListIter";
   "Unsafe"; "SIMD"; "SIMDLowAVX512"; "ASM"].

(** Modules from [nxt] on do not exist yet. *)
Definition fresh (s : ist) : Prop := forall m, (nxt s <= m)%nat -> cnt s (OMod m) = 0.

(** What became of a class: no module, a module that could not be given the
    class, a module that the parent did not take, all done. *)
Inductive fate := NoModule | NotFilled | Lost (m : nat) | Bound (m : nat).
Definition module_of (f : fate) : option nat := match f with Lost m | Bound m => Some m | _ => None end.
Definition bound (f : fate) : option nat := match f with Bound m => Some m | _ => None end.
(** The requests of memory of a fate, beginning with [n], are answered so. *)
Definition meets (G : nat -> bool) (n : nat) (f : fate) : Prop :=
  match f with
  | NoModule => G n = false
  | NotFilled => G n = true /\ G (n + 1)%nat = false
  | Lost _ => G n = true /\ G (n + 1)%nat = true /\ G (n + 2)%nat = false
  | Bound _ => G n = true /\ G (n + 1)%nat = true /\ G (n + 2)%nat = true
  end.
Definition requests (f : fate) : nat := match f with NoModule => 1 | NotFilled => 2 | _ => 3 end.
Fixpoint all_meet (G : nat -> bool) (n : nat) (fs : list (string * fate)) : Prop :=
  match fs with [] => True | (_, f) :: r => meets G n f /\ all_meet G (n + requests f) r end.

(** The modules that are left, each with its class. *)
Fixpoint kept (fs : list (string * fate)) : list (string * nat) :=
  match fs with [] => [] | (c, f) :: r => match module_of f with Some m => (c, m) :: kept r | None => kept r end end.
Fixpoint taken (fs : list (string * fate)) : list (string * obj) :=
  match fs with [] => [] | (c, f) :: r => match bound f with Some m => (c, OMod m) :: taken r | None => taken r end end.

(** [s'] comes from [s] by an attempt with parent [p] and these fates. *)
Definition attempt (G : nat -> bool) (s s' : ist) (p : nat) (fs : list (string * fate)) : Prop :=
  map fst fs = library /\ G (asked s) = true /\ all_meet G (S (asked s)) fs /\
  cnt s' (OMod p) = 1 /\ dict s' p = taken fs /\
  NoDup (p :: map snd (kept fs)) /\ (forall m, In m (p :: map snd (kept fs)) -> (nxt s <= m < nxt s')%nat) /\
  (forall c m, In (c, m) (kept fs) -> cnt s' (OMod m) = 1 /\ dict s' m = [(c, OType c)]) /\
  (forall m, ~ In m (p :: map snd (kept fs)) -> cnt s' (OMod m) = cnt s (OMod m)) /\
  (forall m, (m < nxt s)%nat -> dict s' m = dict s m) /\
  (forall c, cnt s' (OType c) = cnt s (OType c) + Z.of_nat (count_occ string_dec (map fst (kept fs)) c)) /\
  fresh s' /\ exc s' = None.

(** A module with all the classes: each in a module of its own, which only the
    parent refers to. *)
Definition complete (s s' : ist) (p : nat) : Prop :=
  map fst (dict s' p) = library /\ cnt s' (OMod p) = 1 /\
  (forall c, In c library -> exists m, m <> p /\ entry (dict s' p) c = Some (OMod m) /\ dict s' m = [(c, OType c)] /\ cnt s' (OMod m) = 1) /\
  forall c, cnt s' (OType c) = cnt s (OType c) + (if in_dec string_dec c library then 1 else 0).

(** A successful import makes this many requests for memory: one for the module
    and three for each class. *)
Definition all_requests : nat := 1 + 3 * List.length library.

(** Attempts one after the other, each with its own luck. *)
Fixpoint after_attempts (Gs : list (nat -> bool)) (s : ist) : ist :=
  match Gs with [] => s | G :: r => after_attempts r (fst (load G s)) end.

(** What a file of the package binds: each name to the class of that name. *)
Definition classes_of (names : list string) : list (string * obj) := map (fun n => (n, OType n)) names.
