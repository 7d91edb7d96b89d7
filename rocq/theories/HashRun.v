(** Histories of the hash table: each operation of the specification carried
    out by the modelled code. *)
From Coq Require Import ZArith List Bool.
From Verif Require Import Base HashModel HashSpec.
Import ListNotations.
Local Open Scope Z_scope.

Section Run.
Context {V : Type}.
Variable hash : Z -> Z.
Variable dflt : V.
Definition result_of (t : table V) (o : option Z) : run (option V) :=
  match o with None => Ok None | Some i => rbind (value_at t i) (fun v => Ok (Some v)) end.
Definition step (t : table V) (o : op V) : run (table V * ans V) :=
  match o with
  | OFind k => rbind (find hash t k) (fun i => rbind (result_of t i) (fun v => Ok (t, AVal v)))
  | OAt k => match at_key hash t k with Ok v => Ok (t, AVal (Some v)) | Throws => Ok (t, AThrow) | Bad u => Bad u | Loops => Loops end
  | OGet k => rbind (subscript hash dflt t k) (fun '(t', v) => Ok (t', AVal (Some v)))
  | OSet k v => rbind (assign hash dflt t k v) (fun t' => Ok (t', ANone))
  | OEmplace k v => rbind (emplace hash t k v) (fun '(t', i, b) => rbind (value_at t' i) (fun w => Ok (t', AFlag b (Some w))))
  | OErase k => rbind (erase hash t k) (fun '(t', n) => Ok (t', ACount n))
  | OClear => Ok (clear t, ANone)
  | OCopy => Ok (copy t, ANone)
  | OSize => Ok (t, ACount (Z.of_nat (length (m_values t))))
  end.
Fixpoint steps (t : table V) (os : list (op V)) : run (table V * list (ans V)) :=
  match os with
  | [] => Ok (t, [])
  | o :: r => rbind (step t o) (fun '(t1, a) => rbind (steps t1 r) (fun '(t2, b) => Ok (t2, a :: b)))
  end.
End Run.
