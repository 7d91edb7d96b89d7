(** Specifications for the linked list theorems: calls including sort, and the
    position-based behaviour of the caching iterator. Independent of the model. *)
From Coq Require Import ZArith List Bool Arith.
From Verif Require Import Base PyListSpec.
Import ListNotations.
Local Open Scope Z_scope.

(** A history of list calls and sort(reverse=r). *)
Inductive lcall := LCall (o : op) | LSort (reverse : bool).

(** Sorting integers by insertion ([le] is <= or >=). *)
Fixpoint put_in (le : Z -> Z -> bool) (x : Z) (s : list Z) : list Z :=
  match s with
  | [] => [x]
  | y :: r => if le x y then x :: s else y :: put_in le x r
  end.
Definition py_sort (reverse : bool) (s : list Z) : list Z :=
  fold_right (put_in (if reverse then Z.geb else Z.leb)) [] s.

Definition py_call (c : lcall) (s : list Z) : sres * list Z :=
  match c with
  | LCall o => py_step o s
  | LSort r => (SRet SNone, py_sort r s)
  end.
Fixpoint py_calls (cs : list lcall) (s : list Z) : list sres * list Z :=
  match cs with
  | [] => ([], s)
  | c :: r => let '(x, s1) := py_call c s in
              let '(xs, s2) := py_calls r s1 in (x :: xs, s2)
  end.

(** Calls of a list interleaved with next() on one of its iterators. *)
Inductive levent := EvCall (c : lcall) | EvNext.

(** Python: the iterator is a position; [None] once exhausted. *)
Fixpoint py_play (es : list levent) (pos : option nat) (s : list Z) : list (outcome Z) :=
  match es with
  | [] => []
  | EvCall c :: r => py_play r pos (snd (py_call c s))
  | EvNext :: r =>
      match pos with
      | None => Raise StopIteration :: py_play r None s
      | Some k => match nth_error s k with
                  | Some x => Ret x :: py_play r (Some (S k)) s
                  | None => Raise StopIteration :: py_play r None s
                  end
      end
  end.

(** Calls the modification counter notices. *)
Definition noticed (c : lcall) (s : list Z) : bool :=
  match c with
  | LSort _ => true
  | LCall o =>
      match o with
      | OAppend _ | OExtend _ _ => true
      | OInsert _ _ | OPop _ | ORemove _ => match fst (py_step o s) with SRet _ => true | SRaise _ => false end
      | _ => false
      end
  end.

(** Iterator that keeps an element position and a separate counter for the end
    test; a noticed modification makes it re-seek and counts one step twice. *)
Fixpoint reseek_play (es : list levent) (dirty : bool) (count pos : nat) (s : list Z) : list (outcome Z) :=
  match es with
  | [] => []
  | EvCall c :: r => reseek_play r (dirty || noticed c s) count pos (snd (py_call c s))
  | EvNext :: r =>
      if (length s <=? count)%nat then Raise StopIteration :: reseek_play r dirty count pos s
      else
        let p := if dirty then count else pos in
        Ret (nth p s 0) :: reseek_play r false (if dirty then S (S count) else S count) (S p) s
  end.
