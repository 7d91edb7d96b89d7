(** What a linked list call with user code inside it should mean: the
    arguments' code runs first, in the order in which Python converts them, and
    then the Python list method is applied, in one step, to the list that code
    left. [iobj], [lseq], [literable] (pieces of user code) and the list object
    with its nodes come from the model; the methods are PyListSpec's. *)
From Coq Require Import ZArith List Bool.
From Verif Require Import Base PyListSpec ArrayListModel StdListModel LinkedListModel LinkedListProofs LinkedReentrantModel.
Import ListNotations.
Local Open Scope Z_scope.

(** Run the arguments' code in order; an omitted argument runs nothing. *)
Fixpoint levaluate (us : list (option iobj)) (l : ll) : (list (option Z) + exn) * ll :=
  match us with
  | [] => (inl [], l)
  | None :: r =>
      match levaluate r l with
      | (inl zs, l') => (inl (None :: zs), l')
      | (inr e, l') => (inr e, l')
      end
  | Some u :: r =>
      match u l with
      | (Ret (PInt z), l1) =>
          match levaluate r l1 with
          | (inl zs, l') => (inl (Some z :: zs), l')
          | (inr e, l') => (inr e, l')
          end
      | (Raise e, l1) => (inr e, l1)
      | (_, l1) => (inr TypeError, l1)
      end
  end.

(** The arguments of a call in conversion order, and the Python call. *)
Definition larguments (c : mcall) : list (option iobj) :=
  match c with
  | MAppend o | MPop o | MRemove o | MCount o | MGet o | MDel o => [Some o]
  | MInsert oi ov | MSet oi ov => [Some oi; Some ov]
  | MIndex o oa ob => [Some o; oa; ob]
  | MGetSlice sl => [ls_step sl; ls_start sl; ls_stop sl]
  end.
Definition lpython_call (c : mcall) (zs : list (option Z)) : option op :=
  match c, zs with
  | MAppend _, [Some v] => Some (OAppend v)
  | MPop _, [Some i] => Some (OPop (Some i))
  | MRemove _, [Some v] => Some (ORemove v)
  | MCount _, [Some v] => Some (OCount v)
  | MGet _, [Some i] => Some (OGet i)
  | MDel _, [Some i] => Some (ODel i)
  | MInsert _ _, [Some i; Some v] => Some (OInsert i v)
  | MSet _ _, [Some i; Some v] => Some (OSet i v)
  | MIndex _ _ _, [Some v; a; b] => Some (OIndex v a b)
  | MGetSlice _, [k; a; b] => Some (OGetSlice {| sl_start := a; sl_stop := b; sl_step := k |})
  | _, _ => None
  end.

(** "Arguments first, then the method in one step": result and contents. *)
Definition latomic (c : mcall) (l : ll) : sres * list Z :=
  match levaluate (larguments c) l with
  | (inr e, l') => (SRaise e, vals l')
  | (inl zs, l') => match lpython_call c zs with
                    | Some o => py_step o (vals l')
                    | None => (SRaise TypeError, vals l')
                    end
  end.

(** A list object as calls leave it: distinct nodes, elements that fit an int,
    a size that fits ssize_t. *)
Definition proper (l : ll) : Prop :=
  lwf l /\ Forall (fun v => in_sbits 32 v) (vals l) /\ zlen (vals l) <= SSIZE_MAX.

(** Shapes of user code. It leaves a proper list, and returns or raises. *)
Definition lreturns {A} (u : code A) : Prop :=
  forall l, (exists a, fst (u l) = Ret a) \/ (exists e, fst (u l) = Raise e).
Definition lsane {A} (u : code A) : Prop := lreturns u /\ forall l, proper l -> proper (snd (u l)).

(** The integers it yields satisfy [P]; it always yields such an integer. *)
Definition lyields (u : iobj) (P : Z -> Prop) : Prop := forall l z l', u l = (Ret (PInt z), l') -> P z.
Definition lyields_opt (u : option iobj) (P : Z -> Prop) : Prop :=
  match u with None => True | Some u => lyields u P end.
Definition lgives (u : iobj) (P : Z -> Prop) : Prop := forall l, exists z, fst (u l) = Ret (PInt z) /\ P z.

(** The integers fit the parameters of the call; append's argument must also
    convert (see C68_append_unconverted for when it does not). *)
Definition largs_fit (c : mcall) : Prop :=
  match c with
  | MAppend o => lgives o (in_sbits 32)
  | MRemove o | MCount o => lyields o (in_sbits 32)
  | MInsert oi ov | MSet oi ov => lyields oi (in_sbits 64) /\ lyields ov (in_sbits 32)
  | MIndex o oa ob => lyields o (in_sbits 32) /\ lyields_opt oa (in_sbits 64) /\ lyields_opt ob (in_sbits 64)
  | MPop o => lyields o (in_sbits 64)
  | MGetSlice sl => lyields_opt (ls_step sl) (fun z => z <> 0)
  | MGet _ | MDel _ => True
  end.
Definition largs_sane (c : mcall) : Prop := forall u, In (Some u) (larguments c) -> lsane u.

(** Calls that read the size only after the last conversion. *)
Definition lsize_read_last (c : mcall) : Prop :=
  match c with
  | MPop _ | MSet _ _ => False
  | MIndex _ _ ob => ob <> None
  | _ => True
  end.

(** Order-preserving inclusion. *)
Inductive subseq {A} : list A -> list A -> Prop :=
| sub_nil : forall b, subseq [] b
| sub_take : forall x a b, subseq a b -> subseq (x :: a) (x :: b)
| sub_skip : forall x a b, subseq a b -> subseq a (x :: b).

(** It may add nodes and change values, but removes no node and keeps the
    nodes in their order. *)
Definition keeps_nodes {A} (u : code A) : Prop :=
  forall l, lwf l -> lwf (snd (u l)) /\ subseq (ids (lst l)) (ids (lst (snd (u l)))).

(** [P] of every piece of code of a sequence. *)
Definition lseq_all (P : forall A, code A -> Prop) (q : lseq) : Prop :=
  P Z (s_len q) /\ forall i, P iobj (s_get q i) /\
  forall l o, fst (s_get q i l) = Ret o -> P pyobj o.

(** A sequence that behaves like the list [zs] of ints and does not touch the
    list it is compared with or assigned to. *)
Definition lstands_for (q : lseq) (zs : list Z) : Prop :=
  (forall l, s_len q l = (Ret (zlen zs), l)) /\
  forall i z, 0 <= i -> nth_error zs (Z.to_nat i) = Some z ->
    forall l, exists o, s_get q i l = (Ret o, l) /\ forall l', o l' = (Ret (PInt z), l').

Definition ldefined {A} (o : outcome A) : Prop := forall u, o <> Undef u.

(** A conversion that fails, and list::push_back. *)
Definition unconverted (o : iobj) (l : ll) (e : exn) (l' : ll) : Prop :=
  o l = (Raise e, l') \/
  (e = TypeError /\ exists x, o l = (Ret (PObj x), l')) \/
  (e = OverflowError /\ exists z, o l = (Ret (PInt z), l') /\ ~ in_sbits 64 z).
Definition pushed (l : ll) (v : Z) : ll := {| lst := push_back (lst l) v; modc := modc l |}.

(** A sequence whose items from [i] on are the ints [zs] and then an object
    whose conversion fails with [e], all leaving the list alone. *)
Fixpoint lints_then_bad (q : lseq) (i : Z) (zs : list Z) (e : exn) : Prop :=
  match zs with
  | [] => forall l, exists o, s_get q i l = (Ret o, l) /\ forall l', unconverted o l' e l'
  | z :: r => (forall l, exists o, s_get q i l = (Ret o, l) /\ forall l', o l' = (Ret (PInt z), l')) /\
              lints_then_bad q (i + 1) r e
  end.

(** extend as a loop of appends, each piece of user code on the list the
    previous one left. A conversion that fails appends -1, and the exception is
    reported after one more step of the iterator, whose item is dropped.
    [ltrace items fin l r c l']: the loop started on [l] ends in [l'], with an
    exception if [r] is [Some e]; [c]: it was not left from inside. *)
Definition or_own (r : option exn) (e : exn) : option exn := match r with Some e' => Some e' | None => Some e end.
Definition raised {A} (o : outcome A) : option exn := match o with Raise e => Some e | _ => None end.
Inductive ltrace : list (code iobj) -> code unit -> ll -> option exn -> bool -> ll -> Prop :=
| lt_end : forall fin l l', fin l = (Ret tt, l') -> ltrace [] fin l None true l'
| lt_end_raise : forall fin l e l', fin l = (Raise e, l') -> ltrace [] fin l (Some e) true l'
| lt_next_raise : forall nx r fin l e l', nx l = (Raise e, l') -> ltrace (nx :: r) fin l (Some e) true l'
| lt_bad_last : forall nx fin l o l1 e l2 x l', nx l = (Ret o, l1) -> unconverted o l1 e l2 ->
    fin (pushed l2 (-1)) = (x, l') -> ltrace [nx] fin l (or_own (raised x) e) true l'
| lt_bad : forall nx nx' r fin l o l1 e l2 x l', nx l = (Ret o, l1) -> unconverted o l1 e l2 ->
    nx' (pushed l2 (-1)) = (x, l') ->
    ltrace (nx :: nx' :: r) fin l (or_own (raised x) e) (match raised x with Some _ => true | None => false end) l'
| lt_item : forall nx r fin l o l1 z l2 v res c l', nx l = (Ret o, l1) -> o l1 = (Ret (PInt z), l2) ->
    in_sbits 64 z -> in_sbits 32 v -> (exists m, v = z + m * 2 ^ 32) ->
    ltrace r fin (pushed l2 v) res c l' -> ltrace (nx :: r) fin l res c l'.

(** Calls that only add nodes or change values. *)
Definition adds_only (o : op) : Prop :=
  match o with
  | OAppend _ | OExtend _ _ | OInsert _ _ | OReverse | OSet _ _ | OLen | OGet _ | OGetSlice _ | OIndex _ _ _
  | OCount _ | OContains _ | OToList | OCopy => True
  | _ => False
  end.

(** Some integers: a plain one, one whose [__index__] appends [x] (while there
    is room), one that removes the first element, and one that sorts. *)
Definition plain_int (z : Z) : iobj := fun l => (Ret (PInt z), l).
Definition appending (x z : Z) : iobj := fun l =>
  (Ret (PInt z), if zlen (vals l) <? SSIZE_MAX then snd (lappend (PInt x) l) else l).
Definition removing_first (z : Z) : iobj := fun l =>
  (Ret (PInt z), snd (lass_subscript (PInt 0) None l)).
Definition clearing (z : Z) : iobj := fun l => (Ret (PInt z), snd (lclear l)).
Definition sorting (z : Z) : iobj := fun l => (Ret (PInt z), snd (lsort 0 l)).
(** A sequence made of such objects. *)
Definition seq_of (os : list iobj) : lseq :=
  {| s_len := fun l => (Ret (zlen os), l);
     s_get := fun i l => match znth os i with Some o => (Ret o, l) | None => (Raise IndexError, l) end |}.
