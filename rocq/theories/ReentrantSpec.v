(** What a call with user code inside it should mean: the user code of the
    arguments runs first, in the order in which Python converts them, and then
    the Python list method is applied, in one step, to the list as the user
    code left it. Written with PyListSpec only; the record [user] (a piece of
    user code) comes from the model. *)
From Coq Require Import ZArith List Bool.
From Verif Require Import Base PyListSpec ArrayListModel ReentrantModel.
Import ListNotations.
Local Open Scope Z_scope.

(** Run the arguments' code in order; an omitted argument runs nothing. *)
Fixpoint evaluate (us : list (option uobj)) (s : list Z) : (list (option Z) + exn) * list Z :=
  match us with
  | [] => (inl [], s)
  | None :: r =>
      match evaluate r s with
      | (inl zs, s') => (inl (None :: zs), s')
      | (inr e, s') => (inr e, s')
      end
  | Some u :: r =>
      match act u s with
      | (Ret (PInt z), s1) =>
          match evaluate r s1 with
          | (inl zs, s') => (inl (Some z :: zs), s')
          | (inr e, s') => (inr e, s')
          end
      | (Raise e, s1) => (inr e, s1)
      | (_, s1) => (inr TypeError, s1)
      end
  end.

(** The arguments of a call in conversion order, and the Python call. *)
Definition arguments (c : rcall) : list (option uobj) :=
  match c with
  | RAppend o | RPop o | RRemove o | RCount o | RGet o | RDel o => [Some o]
  | RInsert oi ov | RSet oi ov => [Some oi; Some ov]
  | RIndex o oa ob => [Some o; oa; ob]
  | RGetSlice sl => [u_step sl; u_start sl; u_stop sl]
  end.

Definition python_call (c : rcall) (zs : list (option Z)) : option op :=
  match c, zs with
  | RAppend _, [Some v] => Some (OAppend v)
  | RPop _, [Some i] => Some (OPop (Some i))
  | RRemove _, [Some v] => Some (ORemove v)
  | RCount _, [Some v] => Some (OCount v)
  | RGet _, [Some i] => Some (OGet i)
  | RDel _, [Some i] => Some (ODel i)
  | RInsert _ _, [Some i; Some v] => Some (OInsert i v)
  | RSet _ _, [Some i; Some v] => Some (OSet i v)
  | RIndex _ _ _, [Some v; a; b] => Some (OIndex v a b)
  | RGetSlice _, [k; a; b] => Some (OGetSlice {| sl_start := a; sl_stop := b; sl_step := k |})
  | _, _ => None
  end.

(** "Arguments first, then the method in one step." *)
Definition atomic_call (c : rcall) (s : list Z) : sres * list Z :=
  match evaluate (arguments c) s with
  | (inr e, s') => (SRaise e, s')
  | (inl zs, s') => match python_call c zs with
                    | Some o => py_step o s'
                    | None => (SRaise TypeError, s')
                    end
  end.

(** Shapes of user code. *)
(** It leaves a list whose elements fit and whose size fits ssize_t, and
    returns or raises. *)
Definition sane {A} (k : kind) (u : user A) : Prop :=
  forall s, Forall (fun v => in_sbits (bits k) v) s -> zlen s <= SSIZE_MAX ->
  Forall (fun v => in_sbits (bits k) v) (snd (act u s)) /\ zlen (snd (act u s)) <= SSIZE_MAX /\
  ((exists a, fst (act u s) = Ret a) \/ (exists e, fst (act u s) = Raise e)).

(** The integers it yields satisfy [P]. *)
Definition yields (u : uobj) (P : Z -> Prop) : Prop :=
  forall s z s', act u s = (Ret (PInt z), s') -> P z.
Definition yields_opt (u : option uobj) (P : Z -> Prop) : Prop :=
  match u with None => True | Some u => yields u P end.

(** The integers fit the parameters of the call. *)
Definition args_fit (k : kind) (c : rcall) : Prop :=
  match c with
  | RAppend o | RRemove o | RCount o => yields o (in_sbits (bits k))
  | RInsert oi ov | RSet oi ov => yields oi (in_sbits 64) /\ yields ov (in_sbits (bits k))
  | RIndex o oa ob => yields o (in_sbits (bits k)) /\ yields_opt oa (in_sbits 64) /\ yields_opt ob (in_sbits 64)
  | RPop o => yields o (in_sbits 64)
  | RGetSlice sl => yields_opt (u_step sl) (fun z => z <> 0)
  | RGet _ | RDel _ => True
  end.

(** Every argument's code is sane. *)
Definition args_sane (k : kind) (c : rcall) : Prop :=
  forall u, In (Some u) (arguments c) -> sane k u.

(** Calls that read the size only after the last conversion. *)
Definition size_read_last (c : rcall) : Prop :=
  match c with
  | RPop _ | RSet _ _ => False
  | RIndex _ _ ob => ob <> None
  | _ => True
  end.

(** It does not touch the list. *)
Definition leaves_alone {A} (u : user A) : Prop :=
  forall s, snd (act u s) = s /\ inval u s = false.

(** It never makes the list shorter. *)
Definition never_shrinks {A} (u : user A) : Prop :=
  forall s, zlen s <= zlen (snd (act u s)).

(** It returns or raises. *)
Definition returns {A} (u : user A) : Prop :=
  forall s, (exists a, fst (act u s) = Ret a) \/ (exists e, fst (act u s) = Raise e).

(** [P] of every piece of code of a sequence. *)
Definition seq_all (P : forall A, user A -> Prop) (q : useq) : Prop :=
  P Z (q_len q) /\ forall i, P uobj (q_get q i) /\
  forall s o, fst (act (q_get q i) s) = Ret o -> P pyobj o.

(** It does not invalidate pointers into the buffer. *)
Definition keeps_buffer {A} (u : user A) : Prop := forall s, inval u s = false.

(** A sequence that behaves like the list [zs] of ints and does not touch the
    list it is compared with or assigned to. *)
Definition stands_for (q : useq) (zs : list Z) : Prop :=
  (forall s, act (q_len q) s = (Ret (zlen zs), s)) /\
  forall i z, 0 <= i -> nth_error zs (Z.to_nat i) = Some z ->
    forall s, exists o, act (q_get q i) s = (Ret o, s) /\ leaves_alone o /\
      forall t, fst (act o t) = Ret (PInt z).

(** An object whose conversion to an integer fails with [e], and a sequence
    whose items from [i] on are the ints [zs] and then such an object, all
    leaving the list alone. *)
Definition fails_with (o : uobj) (e : exn) : Prop := forall t,
  fst (act o t) = Raise e \/ (e = TypeError /\ exists x, fst (act o t) = Ret (PObj x)) \/
  (e = OverflowError /\ exists z, fst (act o t) = Ret (PInt z) /\ ~ in_sbits 64 z).
Fixpoint ints_then_bad (q : useq) (i : Z) (zs : list Z) (e : exn) : Prop :=
  match zs with
  | [] => forall s, exists o, act (q_get q i) s = (Ret o, s) /\ leaves_alone o /\ fails_with o e
  | z :: r => (forall s, exists o, act (q_get q i) s = (Ret o, s) /\ leaves_alone o /\
                 forall t, fst (act o t) = Ret (PInt z)) /\ ints_then_bad q (i + 1) r e
  end.

(** The value is a defined outcome. *)
Definition defined {A} (o : outcome A) : Prop := forall u, o <> Undef u.

(** extend as a Python loop, [for x in it: self.append(x)]: one piece of user
    code after the other, each on the list the previous one left. [trace k it
    s r s']: the loop started on [s] ends in [s'], with an exception if [r] is
    [Some e]. *)
Inductive trace (k : kind) : list (user uobj) -> user unit -> list Z -> option exn -> list Z -> Prop :=
| tr_end : forall fin s s', act fin s = (Ret tt, s') -> trace k [] fin s None s'
| tr_end_raise : forall fin s e s', act fin s = (Raise e, s') -> trace k [] fin s (Some e) s'
| tr_next_raise : forall nx r fin s e s', act nx s = (Raise e, s') -> trace k (nx :: r) fin s (Some e) s'
| tr_conv_raise : forall nx r fin s o s1 e s', act nx s = (Ret o, s1) -> act o s1 = (Raise e, s') ->
    trace k (nx :: r) fin s (Some e) s'
| tr_conv_range : forall nx r fin s o s1 z s', act nx s = (Ret o, s1) -> act o s1 = (Ret (PInt z), s') ->
    ~ in_sbits 64 z -> trace k (nx :: r) fin s (Some OverflowError) s'
| tr_conv_type : forall nx r fin s o s1 x s', act nx s = (Ret o, s1) -> act o s1 = (Ret (PObj x), s') ->
    trace k (nx :: r) fin s (Some TypeError) s'
| tr_item : forall nx r fin s o s1 z s2 v res s', act nx s = (Ret o, s1) -> act o s1 = (Ret (PInt z), s2) ->
    in_sbits 64 z -> in_sbits (bits k) v -> (exists m, v = z + m * 2 ^ bits k) ->
    trace k r fin (s2 ++ [v]) res s' -> trace k (nx :: r) fin s res s'.

(** Two malicious integers: [__index__] appends [x] (while there is room) or
    empties the list, and yields [z]. *)
Definition appender (x z : Z) : uobj :=
  {| act := fun s => (Ret (PInt z), if zlen s <? SSIZE_MAX then s ++ [x] else s); inval := fun _ => true |}.
Definition emptier (z : Z) : uobj := {| act := fun s => (Ret (PInt z), []); inval := fun _ => true |}.
(** A plain int. *)
Definition plain (z : Z) : uobj := {| act := fun s => (Ret (PInt z), s); inval := fun _ => false |}.
