(** What a comparison makes of items that do not convert. *)
From Coq Require Import ZArith List Bool.
From Verif Require Import Base ArrayListSpec.
Import ListNotations.
Local Open Scope Z_scope.

(** What is read from an item: its value, or -1 and the error. *)
Inductive reads (w : Z) : pyobj -> Z * option exn -> Prop :=
| Reads o v : stores w o v -> reads w o (v, None)
| Rejects o e : rejected o e -> reads w o (-1, Some e).
(** The errors met until the first difference. *)
Fixpoint looked (s : list Z) (rs : list (Z * option exn)) : list (option exn) :=
  match s, rs with
  | x :: s', (v, e) :: rs' => e :: (if x =? v then looked s' rs' else [])
  | _, _ => []
  end.
(** The last of them stays set. *)
Fixpoint last_error (es : list (option exn)) : option exn :=
  match es with
  | [] => None
  | e :: es' => match last_error es' with Some f => Some f | None => e end
  end.
Definition left_set (p : option exn) (b : bool) : outcome bool :=
  match p with Some e => RetPending b e | None => Ret b end.
