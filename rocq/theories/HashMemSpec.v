(** What a hash map does when memory is refused: a finite map with a number of
    buckets, or entries without buckets. *)
From Coq Require Import ZArith List Bool Permutation.
From Verif Require Import HashSpec HashModel HashMemModel.
Import ListNotations.
Local Open Scope Z_scope.

Section Spec.
Context {V : Type}.
Inductive mspec := Working (l : list (Z * V)) (k : Z) (* 2^k buckets *) | Broken (l : list (Z * V)).
(** The entries 2^k buckets take: 0.8 of them, as a float. *)
Definition room (k : Z) : Z := 2 ^ k * 13421773 / 2 ^ 24.
(** The entry behind [n] others is the one for which the buckets are doubled. *)
Definition grows (n : Z) : Prop := exists k, 2 <= k /\ n = room k.
Definition count (l : list (Z * V)) : Z := Z.of_nat (length l).

(** A new entry for key [x]: [v] is what is put in, [w] what it becomes. *)
Definition add (gv gb : bool) (l : list (Z * V)) (k : Z) (x : Z) (v w : V) (a : ans V) : mspec * option (ans V) :=
  if negb gv then (Working l k, None)
  else if count l <? room k then (Working (bind l x w) k, Some a)
  else if gb then (Working (bind l x w) (k + 1), Some a)
  else (Broken (bind l x v), None).

(** [None]: undefined; an answer [None]: std::bad_alloc. *)
Definition spec_mem (dflt : V) (gv gb : bool) (st : mspec) (o : op V) : option (mspec * option (ans V)) :=
  match st with
  | Working l k =>
      match o with
      | OGet x => Some (match lookup l x with Some v => (st, Some (AVal (Some v))) | None => add gv gb l k x dflt dflt (AVal (Some dflt)) end)
      | OSet x v => Some (match lookup l x with Some _ => (Working (bind l x v) k, Some ANone) | None => add gv gb l k x dflt v ANone end)
      | OEmplace x v =>
          Some (match lookup l x with
                | Some w => if gv then (st, Some (AFlag false (Some w))) else (st, None)
                | None => add gv gb l k x v v (AFlag true (Some v))
                end)
      | OCopy =>
          Some (match l with
                | [] => if gb then (Working [] 2, Some ANone) else (Broken [], None)
                | _ => if negb gv then (Broken [], None) else if gb then (st, Some ANone) else (Broken l, None)
                end)
      | _ => let r := spec_step dflt l o in Some (Working (fst r) k, Some (snd r))
      end
  | Broken l =>
      match o with
      | OSize => Some (st, Some (ACount (count l)))
      | OClear => Some (Broken [], Some ANone)
      | OFind _ | OAt _ | OErase _ => match l with [] => Some (st, Some (snd (spec_step dflt [] o))) | _ => None end
      | OGet _ | OSet _ _ => None
      | OEmplace _ _ => if gv then None else Some (st, None)
      | OCopy =>
          match l with
          | [] => Some (if gb then (Working [] 2, Some ANone) else (Broken [], None))
          | _ => if negb gv then Some (Broken [], None) else if gb then None else Some (Broken l, None)
          end
      end
  end.
Fixpoint spec_mems (dflt : V) (st : mspec) (os : list (bool * bool * op V)) : option (mspec * list (option (ans V))) :=
  match os with
  | [] => Some (st, [])
  | (gv, gb, o) :: r =>
      match spec_mem dflt gv gb st o with
      | None => None
      | Some (st1, a) => match spec_mems dflt st1 r with None => None | Some (st2, b) => Some (st2, a :: b) end
      end
  end.
Definition entries (st : mspec) : list (Z * V) := match st with Working l _ | Broken l => l end.
Fixpoint stays_small (n : Z) (dflt : V) (st : mspec) (os : list (bool * bool * op V)) : Prop :=
  count (entries st) <= n /\
  match os with
  | [] => True
  | (gv, gb, o) :: r => match spec_mem dflt gv gb st o with None => True | Some (st1, _) => stays_small n dflt st1 r end
  end.

(** A table holds what the specification says. *)
Definition holds (s : mtab V) (st : mspec) : Prop :=
  match s, st with
  | Live t, Working l k => Permutation (m_values t) l /\ NoDup (map fst l) /\ Z.of_nat (length (m_buckets t)) = 2 ^ k
  | Null vs _, Broken l => Permutation vs l
  | _, _ => False
  end.
End Spec.
Arguments mspec V : clear implicits.

(** The allocator's answers that let [n] entries through. *)
Definition let_in (grants : nat -> bool * bool) (n : nat) : Prop :=
  forall i, (i < n)%nat -> fst (grants i) = true /\ (grows (Z.of_nat i) -> snd (grants i) = true).
(** What IntIntHashMap(dict) has done. *)
Definition init_ok {V} (es : list (Z * V)) (grants : nat -> bool * bool) (r : init_result V) : Prop :=
  match r with
  | IEscapes => False
  | IMade s => let_in grants (length es) /\ exists t, s = Live t /\ Permutation (m_values t) es
  | IRaises s => exists mid e post, es = mid ++ e :: post /\ let_in grants (length mid) /\
      ((exists t, s = Live t /\ Permutation (m_values t) mid /\ fst (grants (length mid)) = false) \/
       (exists vs sh, s = Null vs sh /\ Permutation vs (mid ++ [e]) /\ fst (grants (length mid)) = true /\ grows (Z.of_nat (length mid)) /\ snd (grants (length mid)) = false))
  end.
