(** Small specifications used by the array list theorems, beside the Python
    list of PyListSpec. *)
From Coq Require Import ZArith List Bool.
From Verif Require Import Base.
Import ListNotations.
Local Open Scope Z_scope.

(** [v] is the [b]-bit signed value congruent to [z]. *)
Definition reduced (b z v : Z) : Prop :=
  - 2 ^ (b - 1) <= v < 2 ^ (b - 1) /\ exists m, v = z + m * 2 ^ b.

(** An argument object that the element conversion accepts / rejects. *)
Definition fits64 (o : pyobj) : Prop := exists z, o = PInt z /\ - 2 ^ 63 <= z < 2 ^ 63.
Definition rejected (o : pyobj) (e : exn) : Prop :=
  match o with
  | PInt z => (z < - 2 ^ 63 \/ 2 ^ 63 <= z) /\ e = OverflowError
  | PObj _ => e = TypeError
  end.

(** [v] is what storing the object [o] into a [b]-bit slot must leave there. *)
Definition stores (b : Z) (o : pyobj) (v : Z) : Prop :=
  exists z, o = PInt z /\ - 2 ^ 63 <= z < 2 ^ 63 /\ reduced b z v.

(** [p] is the first position of [v] in the window [lo, hi) of [s]. *)
Definition first_in (s : list Z) (v lo hi p : Z) : Prop :=
  0 <= p /\ lo <= p < hi /\ nth_error s (Z.to_nat p) = Some v /\
  forall q, 0 <= q -> lo <= q < p -> nth_error s (Z.to_nat q) <> Some v.

(** Self-assignment of a slice starting at [lo]: what the code computes is the
    list whose first [lo + n] entries repeat [s]'s first [lo] entries. *)
Definition cycled (s : list Z) (lo n : nat) : list Z :=
  map (fun p => nth (p mod lo) s 0) (seq 0 (lo + n)).

(** L is range(start, stop, step): "r[i] = start + step*i where i >= 0 and
    r[i] < stop" (r[i] > stop for a negative step). *)
Definition is_range (start stop step : Z) (L : list Z) : Prop :=
  forall i v, nth_error L i = Some v <->
    v = start + step * Z.of_nat i /\ (if 0 <? step then v < stop else stop < v).

(** Python's comparison of lists of integers: lexicographic order. *)
Inductive lex_lt : list Z -> list Z -> Prop :=
| lex_nil : forall y ys, lex_lt [] (y :: ys)
| lex_head : forall x y xs ys, x < y -> lex_lt (x :: xs) (y :: ys)
| lex_tail : forall x xs ys, lex_lt xs ys -> lex_lt (x :: xs) (x :: ys).

(** Decimal text of an integer (ASCII codes, 48 = "0", 45 = "-"): optional
    sign, digits without leading zero. *)
Definition dec_value (ds : list Z) : Z := fold_left (fun a d => 10 * a + d) ds 0.
Definition decimal_text (v : Z) (t : list Z) : Prop :=
  exists ds, Forall (fun d => 0 <= d <= 9) ds /\ ds <> [] /\
    (forall r, ds = 0 :: r -> r = []) /\ dec_value ds = Z.abs v /\
    t = (if v <? 0 then [45] else []) ++ map (fun d => 48 + d) ds.

(** Text of a Python list of integers: "[", items separated by ", ", "]". *)
Inductive items_text : list Z -> list Z -> Prop :=
| it_one : forall v t, decimal_text v t -> items_text [v] t
| it_more : forall v t vs ts, decimal_text v t -> items_text vs ts -> items_text (v :: vs) (t ++ [44; 32] ++ ts).
Inductive list_text : list Z -> list Z -> Prop :=
| lt_empty : list_text [] [91; 93]
| lt_items : forall vs t, items_text vs t -> list_text vs ([91] ++ t ++ [93]).

(** A parser for such texts. *)
Fixpoint parse_items (cs : list Z) (neg : bool) (cur : option Z) : option (list Z) :=
  match cs with
  | [] => None
  | c :: r =>
      if (48 <=? c) && (c <=? 57) then
        parse_items r neg (Some (10 * match cur with None => 0 | Some a => a end + (c - 48)))
      else match cur with
           | None => if (c =? 45) && negb neg then parse_items r true None else None
           | Some a =>
               let v := if neg then - a else a in
               if c =? 93 then match r with [] => Some [v] | _ => None end
               else if c =? 44 then
                 match r with
                 | sp :: r' => if sp =? 32 then option_map (cons v) (parse_items r' false None) else None
                 | [] => None
                 end
               else None
           end
  end.
Definition parse_list (cs : list Z) : option (list Z) :=
  match cs with
  | [] => None
  | b :: r => if b =? 91 then
                match r with
                | [e] => if e =? 93 then Some [] else None
                | _ => parse_items r false None
                end
              else None
  end.

(** ** Iteration *)
(** CPython's list iterator (Objects/listobject.c): [None] once exhausted. Each
    call sees the list contents of that moment; [None] results stand for
    StopIteration. *)
Fixpoint py_iter_run (pos : option nat) (vs : list (list Z)) : list (option Z) :=
  match vs with
  | [] => []
  | s :: r =>
      match pos with
      | None => None :: py_iter_run None r
      | Some k => match nth_error s k with
                  | Some x => Some x :: py_iter_run (Some (S k)) r
                  | None => None :: py_iter_run None r
                  end
      end
  end.

(** CPython's reverse list iterator. *)
Fixpoint py_rev_run (pos : option nat) (vs : list (list Z)) : list (option Z) :=
  match vs with
  | [] => []
  | s :: r =>
      match pos with
      | None => None :: py_rev_run None r
      | Some k => match nth_error s k with
                  | Some x => Some x :: py_rev_run (match k with O => None | S i => Some i end) r
                  | None => None :: py_rev_run None r
                  end
      end
  end.

(** An iterator that forgets it was exhausted. *)
Fixpoint resuming_run (k : nat) (vs : list (list Z)) : list (outcome Z) :=
  match vs with
  | [] => []
  | s :: r => match nth_error s k with
              | Some x => Ret x :: resuming_run (S k) r
              | None => Raise StopIteration :: resuming_run k r
              end
  end.

Definition shown (o : option Z) : outcome Z := match o with Some x => Ret x | None => Raise StopIteration end.

(** What a for loop sees: everything up to the first call that does not return. *)
Fixpoint for_loop (l : list (outcome Z)) : list (outcome Z) :=
  match l with
  | Ret x :: r => Ret x :: for_loop r
  | e :: _ => [e]
  | [] => []
  end.
