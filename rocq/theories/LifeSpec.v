(** Lists that come and go, as Python has them: vocabulary for C74. *)
From Coq Require Import ZArith List Bool String.
From Verif Require Import Base PyListSpec ArrayListModel LifeModel.
Import ListNotations.
Local Open Scope Z_scope.

(** ** Signatures *)
Definition names (c : cls) : list string :=
  if linked c then ["iterable"%string] else ["iterable"%string; "exceptSize"%string].
(** What the call gives for the n-th parameter. *)
Definition given (c : cls) (pos : list carg) (kw : kwargs) (n : nat) : option carg :=
  match nth_error pos n with
  | Some a => Some a
  | None => option_map snd (find (fun p => String.eqb (fst p) (nth n (names c) ""%string)) kw)
  end.
(** At most as many arguments as parameters, and every keyword names a
    parameter that no position has taken; a size is an int that fits. *)
Definition well_called (c : cls) (pos : list carg) (kw : kwargs) : Prop :=
  (List.length pos <= List.length (names c))%nat /\
  (forall k a, In (k, a) kw -> In k (skipn (List.length pos) (names c))).
Definition good_size (c : cls) (pos : list carg) (kw : kwargs) : Prop :=
  linked c = true \/ given c pos kw 1 = None \/ exists z, given c pos kw 1 = Some (CInt z) /\ in_sbits 64 z.

(** ** Contents *)
(** The items in front of the first one the class cannot hold. *)
Definition holds (c : cls) (o : pyobj) : bool :=
  match c, o with
  | ObjA, _ | ObjL, _ => true
  | BigA, PInt z => in_sbits_b 64 z
  | IntA, PInt z | IntL, PInt z => in_sbits_b 64 z
  | _, PObj _ => false
  end.
(** An int as stored: the low 32 bits of a long in the int classes. *)
Definition stored (c : cls) (o : pyobj) : pyobj :=
  match c, o with
  | IntA, PInt z | IntL, PInt z => PInt ((z + 2 ^ 31) mod 2 ^ 32 - 2 ^ 31)
  | _, _ => o
  end.
Fixpoint taken (c : cls) (its : list pyobj) : list pyobj :=
  match its with
  | o :: r => if holds c o then stored c o :: taken c r else []
  | [] => []
  end.

(** What a call shows: a result returned with the error indicator set is
    SystemError. *)
Inductive answer := Ok (v : lval) | Err (e : exn).
Definition seen (x : outcome lval) : option answer :=
  match x with
  | Ret v => Some (Ok v) | Raise e => Some (Err e) | RetPending _ _ => Some (Err SystemError) | Undef _ => None
  end.

(** An object: whether it has been initialised or appended to, and its list. *)
Definition pyworld := Z -> option (bool * list pyobj).
Definition set_ (st : pyworld) (x : Z) (v : option (bool * list pyobj)) : pyworld := fun y => if y =? x then v else st y.

(** list(argument), for the object [x]. *)
Definition contents (c : cls) (st : pyworld) (x : Z) (a : option carg) : answer * list pyobj :=
  let all its r := (if forallb (holds c) its then r else Err RuntimeError, taken c its) in
  match a with
  | None => (Ok LNone, [])
  | Some (CInt z) => if linked c then (Err TypeError, [])
                     else (if in_sbits_b 64 z then Ok LNone else Err SystemError, [])
  | Some (COf y) => if y =? x then (Ok LNone, [])
                    else match st y with Some (_, l) => (Ok LNone, l) | None => (Err TypeError, []) end
  | Some (CSeq its) => all its (Ok LNone)
  | Some (CIter its fin) => all its match fin with None => Ok LNone | Some e => Err e end
  | Some COther => (Err TypeError, [])
  end.
(** A call with wrong arguments, and the exception it ends with. *)
Definition misused (c : cls) : answer := Err (if linked c then TypeError else SystemError).

(** ** Histories *)
Section Run.
Context (c : cls).
(** [ok pos kw] decides whether a call of the constructor is as it should be. *)
Context (ok : list carg -> kwargs -> bool).

Definition initial (st : pyworld) (x : Z) (pos : list carg) (kw : kwargs) : answer * list pyobj :=
  if ok pos kw then contents c st x (given c pos kw 0) else (misused c, []).
Definition pstep (o : lop) (st : pyworld) : answer * pyworld :=
  match o with
  | LNew x => match st x with Some _ => (Err TypeError, st) | None => (Ok LNone, set_ st x (Some (false, []))) end
  | LInit x pos kw =>
      match st x with
      | None => (Err TypeError, st)
      | Some _ => let '(r, l) := initial st x pos kw in (r, set_ st x (Some (true, l)))
      end
  | LMake x pos kw =>
      match st x with
      | Some _ => (Err TypeError, st)
      | None => let '(r, l) := initial st x pos kw in
                (r, match r with Ok _ => set_ st x (Some (true, l)) | Err _ => st end)
      end
  | LLen x => (match st x with None => Err TypeError | Some (_, l) => Ok (LSize (zlen l)) end, st)
  | LGet x i =>
      (match st x with
       | None => Err TypeError
       | Some (_, l) => match znth l (if i <? 0 then zlen l + i else i) with Some v => Ok (LItem v) | None => Err IndexError end
       end, st)
  | LAppend x v => match st x with None => (Err TypeError, st) | Some (_, l) => (Ok LNone, set_ st x (Some (true, l ++ [v]))) end
  | LClear x => match st x with None => (Err TypeError, st) | Some (u, _) => (Ok LNone, set_ st x (Some (u, []))) end
  | LDrop x => match st x with None => (Err TypeError, st) | Some _ => (Ok LNone, set_ st x None) end
  end.
Fixpoint prun (h : list lop) (st : pyworld) : list answer * pyworld :=
  match h with
  | [] => ([], st)
  | o :: r => let '(a, st1) := pstep o st in let '(as_, st2) := prun r st1 in (a :: as_, st2)
  end.

(** ** What linked lists do not stand *)
Definition uninit (st : pyworld) (x : Z) : bool := match st x with Some (false, _) => true | _ => false end.
(** Appending to, clearing, dropping or copying from an object whose
    constructor never ran. *)
Definition reckless (o : lop) (st : pyworld) : bool :=
  match o with
  | LAppend x _ | LClear x | LDrop x => uninit st x
  | LInit x pos kw => match st x with
                      | None => false
                      | Some _ => ok pos kw && match given c pos kw 0 with Some (COf y) => negb (y =? x) && uninit st y | _ => false end
                      end
  | LMake x pos kw => match st x with
                      | Some _ => false
                      | None => ok pos kw && match given c pos kw 0 with Some (COf y) => negb (y =? x) && uninit st y | _ => false end
                      end
  | _ => false
  end.
Fixpoint careful (h : list lop) (st : pyworld) : bool :=
  match h with
  | [] => true
  | o :: r => negb (reckless o st) && careful r (snd (pstep o st))
  end.

(** ** What a second initialisation costs *)
(** Elements of the objects initialised again, and the number of these calls on
    objects initialised or appended to before. *)
Definition dropped (o : lop) (st : pyworld) : Z :=
  match o with LInit x _ _ => match st x with Some (_, l) => zlen l | None => 0 end | _ => 0 end.
Definition again (o : lop) (st : pyworld) : Z :=
  match o with LInit x _ _ => match st x with Some (true, _) => 1 | _ => 0 end | _ => 0 end.
Fixpoint sum_over (f : lop -> pyworld -> Z) (h : list lop) (st : pyworld) : Z :=
  match h with
  | [] => 0
  | o :: r => f o st + sum_over f r (snd (pstep o st))
  end.
End Run.

(** [ok] tells the proper calls from the others. *)
Definition decides (c : cls) (ok : list carg -> kwargs -> bool) : Prop :=
  forall pos kw, NoDup (map fst kw) -> (ok pos kw = true <-> well_called c pos kw /\ good_size c pos kw).
(** Keywords are the keys of a dict; a size is one that the memory grants. *)
Definition sound_call (room : Z -> bool) (c : cls) (pos : list carg) (kw : kwargs) : Prop :=
  NoDup (map fst kw) /\ forall n z, given c pos kw n = Some (CInt z) -> 0 < z -> room z = true.
Definition sound (room : Z -> bool) (c : cls) (o : lop) : Prop :=
  match o with LInit _ pos kw | LMake _ pos kw => sound_call room c pos kw | _ => True end.

Definition nothing : pyworld := fun _ => None.
Definition owned (w : world) : list Z := List.concat (map (fun p => own (snd p)) (objs w)).

(** What an iterator hands out that was made before the list was initialised
    again: the elements of before, one for each element there is now; where
    there are none left the end node is read as an element. *)
Fixpoint leftovers (n : nat) (before : list pyobj) (now : nat) : list (outcome pyobj) :=
  match n, now, before with
  | O, _, _ => []
  | S n, O, _ => Raise StopIteration :: leftovers n before O
  | S n, S r, v :: o => Ret v :: leftovers n o r
  | S _, S _, [] => [Undef IterBeforeBegin]
  end.
