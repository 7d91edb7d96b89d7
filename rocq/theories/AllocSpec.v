(** What the array list calls should do when memory is short. The results of a
    call with enough memory are PyListSpec's. *)
From Coq Require Import ZArith List Bool.
From Verif Require Import Base PyListSpec ArrayListModel ArrayListProofs AllocModel.
Import ListNotations.
Local Open Scope Z_scope.

(** A C++ library: sizes fit ptrdiff_t, and a vector (string) that grows gets
    room for what it needs, never more than the maximum. *)
Definition sound_memory (M : memory) : Prop :=
  (forall k, 0 <= max_size M k <= SSIZE_MAX) /\ 15 <= max_str M /\
  (forall k size need, need <= max_size M k -> need <= grown M k size need <= max_size M k) /\
  (forall size need, need <= max_str M -> need <= str_grown M size need).

(** The list object is in order. *)
Definition vector_ok (M : memory) (k : kind) (w : world) : Prop :=
  Forall (in_range k) (vec w) /\ zlen (vec w) <= cap w <= max_size M k.

(** Nothing is ever refused. *)
Definition generous (M : memory) : Prop := forall n, granted M n = true.

(** The exceptions with which a call may report a refusal. *)
Definition refusals (o : op) : list exn :=
  match o with
  | OAppend _ | OInsert _ _ | OResize _ => [RuntimeError]
  | OCopy => [RuntimeError; MemoryError]
  | OIndex _ _ _ | OCount _ | OGet _ | OGetSlice _ | OToList | OExtend _ _ => [MemoryError]
  | _ => []
  end.

(** One call with memory possibly short: what Python does, or a refusal that
    leaves the list alone. Two calls leave something behind: a pop whose int
    object is refused has removed the element, and a slice assignment that
    needs room stops after some of the items. *)
Inductive short_step (s : list Z) : op -> sres -> list Z -> Prop :=
| short_done : forall o, short_step s o (fst (py_step o s)) (snd (py_step o s))
| short_refused : forall o e, In e (refusals o) -> short_step s o (SRaise e) s
| short_pop : forall i v s', py_step (OPop i) s = (SRet (SElem v), s') -> short_step s (OPop i) (SRaise MemoryError) s'
| short_slice : forall sl vs m, (m < length vs)%nat -> zlen s < zlen (py_setslice s sl vs) ->
    zlen s <= zlen (py_setslice s sl (firstn m vs)) ->
    short_step s (OSetSlice sl vs) (SRaise RuntimeError) (py_setslice s sl (firstn m vs)).

Inductive short_run : list Z -> list op -> list sres -> list Z -> Prop :=
| short_nil : forall s, short_run s [] [] s
| short_cons : forall s o r ops x s1 s2, short_step s o x s1 -> short_run s1 ops r s2 -> short_run s (o :: ops) (x :: r) s2.

(** Arguments that fit, whatever the list (see ArrayListProofs.op_ok). *)
Definition op_fits (k : kind) (o : op) : Prop := forall s, op_ok k s o.
Definition not_extend (o : op) : Prop := match o with OExtend _ _ => False | _ => True end.

(** The Python objects a call has to make for its result. *)
Definition new_objects (q : sres) : nat :=
  match q with SRet (SNum _) | SRet (SElem _) => 1 | SRet (SList vs) => S (length vs) | _ => 0 end.
Definition reads (o : op) : Prop := match o with OPop _ | OIndex _ _ _ | OCount _ | OGet _ | OGetSlice _ | OToList => True | _ => False end.
