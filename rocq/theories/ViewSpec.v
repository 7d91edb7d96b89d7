(** What views of a list are: names for its elements, valid while the list
    lives and has not moved. No addresses here: a list has items, room for so
    many, and the number of times it moved; a view knows its list, how often
    that had moved, and a length. *)
From Coq Require Import ZArith List Bool.
From Verif Require Import Base PyListSpec.
Import ListNotations.
Local Open Scope Z_scope.

(** What a program does with lists and views (both numbered from 0). *)
Inductive vop :=
| VNew (vs : list Z)              (* x = IntArrayList([...]) *)
| VCall (i : nat) (o : op)        (* a method or slot of list i *)
| VSorted (i : nat)               (* x.sort() *)
| VDrop (i : nat)                 (* the last reference to list i goes *)
| VView (i : nat)                 (* memoryview(x), or PyObject_GetBuffer *)
| VGet (w : nat) (j : Z)          (* view[j] *)
| VPut (w : nat) (j : Z) (z : Z)  (* view[j] = z *)
| VLen (w : nat)                  (* len(view) *)
| VShape (w : nat).               (* *view->shape, read by a C consumer *)

Record alist := { a_items : list Z; a_room : Z; a_moves : nat; a_shape : Z }.
Record aview := { av_list : nat; av_moves : nat; av_len : Z }.
Record aworld := { lists : nat -> option alist; l_count : nat; aviews : nat -> option aview; a_count : nat }.
Definition empty_world : aworld := {| lists := fun _ => None; l_count := 0; aviews := fun _ => None; a_count := 0 |}.

Definition set_list (w : aworld) (i : nat) (x : option alist) : aworld :=
  {| lists := fun j => if Nat.eqb j i then x else lists w j; l_count := l_count w; aviews := aviews w; a_count := a_count w |}.

(** The list now has [items] and needed room for [need]. *)
Definition moved (grow : Z -> Z -> Z) (a : alist) (items : list Z) (need : Z) : alist :=
  if need <=? a_room a
  then {| a_items := items; a_room := a_room a; a_moves := a_moves a; a_shape := a_shape a |}
  else {| a_items := items; a_room := grow (a_room a) need; a_moves := S (a_moves a); a_shape := a_shape a |}.

(** Room a call wants: the length it leaves, and what extend from a Python
    list asks for. *)
Definition wanted (o : op) (s : list Z) : Z :=
  Z.max (Z.of_nat (length (snd (py_step o s))))
        (match o with OExtend FromList vs => Z.of_nat (length s) + Z.of_nat (length vs) | _ => 0 end).

(** Answers: a Python result, an error, a number, a value left behind by an
    element the list no longer has, or use of freed memory. *)
Inductive answer := APy (r : sres) | AErr (e : exn) | ANum (z : Z) | ALeft | AFreed.

Definition valid_view (w : aworld) (v : aview) : option alist :=
  match lists w (av_list v) with
  | Some a => if Nat.eqb (a_moves a) (av_moves v) then Some a else None
  | None => None
  end.

Definition in_view (v : aview) (j : Z) : bool := (0 <=? rel (av_len v) j) && (rel (av_len v) j <? av_len v).

Definition a_get (w : aworld) (v : aview) (j : Z) : answer :=
  if in_view v j then
    match valid_view w v with
    | None => AFreed
    | Some a => match nth_error (a_items a) (Z.to_nat (rel (av_len v) j)) with Some z => ANum z | None => ALeft end
    end
  else AErr IndexError.

Definition a_put (fits : Z -> bool) (w : aworld) (v : aview) (j z : Z) : answer * aworld :=
  let p := rel (av_len v) j in
  if in_view v j then
    match valid_view w v with
    | None => (AFreed, w)
    | Some a =>
        if fits z then
          (APy (SRet SNone),
           if p <? Z.of_nat (length (a_items a))
           then set_list w (av_list v) (Some {| a_items := firstn (Z.to_nat p) (a_items a) ++ z :: skipn (Z.to_nat p + 1) (a_items a);
                                                a_room := a_room a; a_moves := a_moves a; a_shape := a_shape a |})
           else w)
        else (AErr ValueError, w)
    end
  else (AErr IndexError, w).

Definition astep (grow : Z -> Z -> Z) (fits : Z -> bool) (sort : list Z -> list Z) (o : vop) (w : aworld)
  : answer * aworld :=
  match o with
  | VNew vs =>
      let l := {| a_items := []; a_room := 0; a_moves := 0; a_shape := 0 |} in
      let i := l_count w in
      let w0 := {| lists := fun j => if Nat.eqb j i then Some l else lists w j;
                   l_count := S i; aviews := aviews w; a_count := a_count w |} in
      (APy (SRet SNone), set_list w0 i (Some (moved grow l vs (Z.of_nat (length vs)))))
  | VCall i m =>
      match lists w i with
      | None => (AErr TypeError, w)
      | Some a => let '(r, items) := py_step m (a_items a) in
                  (APy r, set_list w i (Some (moved grow a items (wanted m (a_items a)))))
      end
  | VSorted i =>
      match lists w i with
      | None => (AErr TypeError, w)
      | Some a => (APy (SRet SNone), set_list w i (Some (moved grow a (sort (a_items a)) (Z.of_nat (length (a_items a))))))
      end
  | VDrop i => match lists w i with None => (AErr TypeError, w) | Some _ => (APy (SRet SNone), set_list w i None) end
  | VView i =>
      match lists w i with
      | None => (AErr TypeError, w)
      | Some a =>
          let n := Z.of_nat (length (a_items a)) in
          (APy (SRet SNone),
           {| lists := fun j => if Nat.eqb j i
                then Some {| a_items := a_items a; a_room := a_room a; a_moves := a_moves a; a_shape := n |}
                else lists w j;
              l_count := l_count w;
              aviews := fun j => if Nat.eqb j (a_count w)
                then Some {| av_list := i; av_moves := a_moves a; av_len := n |} else aviews w j;
              a_count := S (a_count w) |})
      end
  | VGet n j => match aviews w n with None => (AErr TypeError, w) | Some v => (a_get w v j, w) end
  | VPut n j z => match aviews w n with None => (AErr TypeError, w) | Some v => a_put fits w v j z end
  | VLen n => match aviews w n with None => (AErr TypeError, w) | Some v => (ANum (av_len v), w) end
  | VShape n => match aviews w n with
                | None => (AErr TypeError, w)
                | Some v => match lists w (av_list v) with None => (AFreed, w) | Some a => (ANum (a_shape a), w) end
                end
  end.

(** A history, up to the first use of freed memory. *)
Fixpoint arun (grow : Z -> Z -> Z) (fits : Z -> bool) (sort : list Z -> list Z) (os : list vop) (w : aworld)
  : list answer * aworld :=
  match os with
  | [] => ([], w)
  | o :: r => match astep grow fits sort o w with
              | (AFreed, w1) => ([AFreed], w1)
              | (x, w1) => let '(xs, w2) := arun grow fits sort r w1 in (x :: xs, w2)
              end
  end.

(** The arguments of each call suit the list it meets ([suits]), and no list
    gets longer than [longest]. *)
Definition suitable (suits : list Z -> op -> Prop) (elem : Z -> Prop) (longest : Z) (w : aworld) (o : vop) : Prop :=
  match o with
  | VNew vs => Forall elem vs
  | VCall i m => forall a, lists w i = Some a -> suits (a_items a) m /\ Z.of_nat (length (a_items a)) <= longest
  | _ => True
  end.

Fixpoint hist_ok (suits : list Z -> op -> Prop) (elem : Z -> Prop) (longest : Z) (grow : Z -> Z -> Z) (fits : Z -> bool)
    (sort : list Z -> list Z) (os : list vop) (w : aworld) : Prop :=
  match os with
  | [] => True
  | o :: r => suitable suits elem longest w o /\
      hist_ok suits elem longest grow fits sort r (snd (astep grow fits sort o w))
  end.

(** Along a history list [i] is not dropped and never needs room for more than
    [n] elements. *)
Fixpoint stays_within (i : nat) (n : Z) (grow : Z -> Z -> Z) (fits : Z -> bool) (sort : list Z -> list Z)
    (os : list vop) (w : aworld) : Prop :=
  match os with
  | [] => True
  | o :: r =>
      match o with
      | VDrop j => j <> i
      | VCall j m => j = i -> forall l, lists w i = Some l -> wanted m (a_items l) <= n
      | _ => True
      end /\ stays_within i n grow fits sort r (snd (astep grow fits sort o w))
  end.
