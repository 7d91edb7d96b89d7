(** Comparison and repr of Python lists of objects, from the language and
    library reference (list_richcompare, list_repr). *)
From Coq Require Import ZArith List Bool.
From Verif Require Import Base ArrayListMoreModel.
Import ListNotations.
Local Open Scope Z_scope.

(** [ask c x y]: the truth of [x c y] for two different objects. *)
Definition asker := cmp_op -> Z -> Z -> outcome bool.

(** Two items count as equal when they are the same object or compare equal. *)
Definition py_same (ask : asker) (x y : Z) : outcome bool := if x =? y then Ret true else ask Eq_ x y.

(** The first pair that is not equal, if any. *)
Fixpoint py_differ (ask : asker) (s ys : list Z) : outcome (option (Z * Z)) :=
  match s, ys with
  | x :: s, y :: ys => obind (py_same ask x y) (fun b => if b then py_differ ask s ys else Ret (Some (x, y)))
  | _, _ => Ret None
  end.
Definition cmp_len (c : cmp_op) (m n : nat) : bool :=
  match c with
  | Eq_ => (m =? n)%nat | Ne_ => negb (m =? n)%nat
  | Lt_ => (m <? n)%nat | Le_ => (m <=? n)%nat | Gt_ => (n <? m)%nat | Ge_ => (n <=? m)%nat
  end.
Definition py_compare (ask : asker) (c : cmp_op) (s ys : list Z) : outcome bool :=
  match c, (length s =? length ys)%nat with
  | Eq_, false => Ret false
  | Ne_, false => Ret true
  | _, _ =>
      obind (py_differ ask s ys) (fun d =>
      match d, c with
      | None, _ => Ret (cmp_len c (length s) (length ys))
      | Some _, Eq_ => Ret false
      | Some _, Ne_ => Ret true
      | Some (x, y), _ => ask c x y
      end)
  end.

(** What the object lists answer for an ordering instead: by length, then by
    the first pair alone. *)
Definition order_op (c : cmp_op) : bool := match c with Eq_ | Ne_ => false | _ => true end.
Definition first_pair (cmp : asker) (c : cmp_op) (s ys : list Z) : outcome bool :=
  if (length s =? length ys)%nat
  then match s, ys with x :: _, y :: _ => cmp c x y | _, _ => Ret false end
  else Ret (length s <? length ys)%nat.

(** The texts of the items in order, or the first error. *)
Fixpoint py_texts (text : Z -> outcome (list Z)) (s : list Z) : outcome (list (list Z)) :=
  match s with [] => Ret [] | o :: r => obind (text o) (fun t => omap (cons t) (py_texts text r)) end.
Fixpoint commas (ts : list (list Z)) : list Z :=
  match ts with [] => [] | [t] => t | t :: r => t ++ [44; 32] ++ commas r end.
Definition py_repr (text : Z -> outcome (list Z)) (s : list Z) : outcome (list Z) :=
  omap (fun ts => [91] ++ commas ts ++ [93]) (py_texts text s).

(** Elements an iteration handed out. *)
Definition handed_out (xs : list (outcome Z)) : list Z :=
  flat_map (fun x => match x with Ret o => [o] | _ => [] end) xs.

(** Searching with an equality [eq item key] of the objects; identical objects
    always match. *)
Definition matches (eq : Z -> Z -> bool) (o x : Z) : bool := (x =? o) || eq x o.
Definition identical : Z -> Z -> bool := fun _ _ => false.
Fixpoint first_where (p : Z -> bool) (s : list Z) : option nat :=
  match s with [] => None | x :: r => if p x then Some O else option_map S (first_where p r) end.
Definition py_index (eq : Z -> Z -> bool) (o : Z) (s : list Z) : outcome Z :=
  match first_where (matches eq o) s with Some i => Ret (Z.of_nat i) | None => Raise ValueError end.
Definition py_remove (eq : Z -> Z -> bool) (o : Z) (s : list Z) : outcome (list Z) :=
  match first_where (matches eq o) s with Some i => Ret (firstn i s ++ skipn (S i) s) | None => Raise ValueError end.
Definition py_count (eq : Z -> Z -> bool) (o : Z) (s : list Z) : Z := Z.of_nat (length (filter (matches eq o) s)).
Definition py_in (eq : Z -> Z -> bool) (o : Z) (s : list Z) : bool := existsb (matches eq o) s.
