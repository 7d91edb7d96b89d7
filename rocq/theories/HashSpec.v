(** A finite map as an unordered list of bindings, and what the operations of a
    hash map must answer. Nothing here mentions hashes or buckets. *)
From Coq Require Import ZArith List Bool.
Import ListNotations.
Local Open Scope Z_scope.

Section Spec.
Context {V : Type}.
Fixpoint lookup (l : list (Z * V)) (k : Z) : option V :=
  match l with [] => None | (k', v) :: r => if k =? k' then Some v else lookup r k end.
Definition without (l : list (Z * V)) (k : Z) : list (Z * V) := filter (fun e => negb (fst e =? k)) l.
Definition bind (l : list (Z * V)) (k : Z) (v : V) : list (Z * V) := (k, v) :: without l k.

Inductive op :=
| OFind (k : Z) | OAt (k : Z) | OGet (k : Z) | OSet (k : Z) (v : V) | OEmplace (k : Z) (v : V)
| OErase (k : Z) | OClear | OCopy | OSize.
Inductive ans := AVal (v : option V) | AThrow | AFlag (b : bool) (v : option V) | ACount (n : Z) | ANone.

(** [dflt]: the value of a new entry made by [map[k]]. *)
Definition spec_step (dflt : V) (l : list (Z * V)) (o : op) : list (Z * V) * ans :=
  match o with
  | OFind k => (l, AVal (lookup l k))
  | OAt k => (l, match lookup l k with Some v => AVal (Some v) | None => AThrow end)
  | OGet k => match lookup l k with Some v => (l, AVal (Some v)) | None => (bind l k dflt, AVal (Some dflt)) end
  | OSet k v => (bind l k v, ANone)
  | OEmplace k v => match lookup l k with Some w => (l, AFlag false (Some w)) | None => (bind l k v, AFlag true (Some v)) end
  | OErase k => match lookup l k with Some _ => (without l k, ACount 1) | None => (l, ACount 0) end
  | OClear => ([], ANone)
  | OCopy => (l, ANone)
  | OSize => (l, ACount (Z.of_nat (length l)))
  end.
Fixpoint spec_run (dflt : V) (l : list (Z * V)) (os : list op) : list (Z * V) * list ans :=
  match os with
  | [] => (l, [])
  | o :: r => let '(l1, a) := spec_step dflt l o in let '(l2, b) := spec_run dflt l1 r in (l2, a :: b)
  end.

(** The number of entries never exceeds [n]. *)
Fixpoint stays_below (n : Z) (dflt : V) (l : list (Z * V)) (os : list op) : Prop :=
  Z.of_nat (length l) <= n /\
  match os with [] => True | o :: r => stays_below n dflt (fst (spec_step dflt l o)) r end.

(** Two finite maps are the same. *)
Definition same_map (a b : list (Z * V)) : Prop := forall k, lookup a k = lookup b k.
End Spec.
Arguments op V : clear implicits.
Arguments ans V : clear implicits.
