(** Property theorem C88: object lists given the other object class, and
    instances of Python subclasses. *)
From Coq Require Import ZArith List Bool Arith Lia.
From Verif Require Import Base PyListSpec ArrayListModel ArrayListMoreModel StdListModel LinkedListModel LinkedListProofs LinkedListFacts
  ObjModel ObjArrayModel ObjLinkedModel ObjMoreModel ObjSpec MixSpec MixObjModel MixObjSpec MixObjProofs PropsLinkedList.
Import ListNotations.
Local Open Scope Z_scope.

(** * C88 *)
Theorem C88_recognised : forall c x, orecognised c x = true <-> oexact x = true /\ ocls_of (olst x) = c.
Proof. exact orecognised_copied. Qed.
Print Assumptions C88_recognised.
(** Every operand that is another list: its objects are added in order and one
    reference is taken for each. *)
Theorem C88_extend : forall inplace t x rc, sound t -> sound (olst x) -> alive rc (oheld (olst x)) ->
  exists t' rc', oextend inplace t x rc = (Ret (if inplace : bool then (if orecognised (ocls_of t) x then ONone else OSelf) else ONone), (t', rc')) /\
    ocls_of t' = ocls_of t /\ oheld t' = oheld t ++ oheld (olst x) /\ (forall o, rc' o = rc o + occ (oheld (olst x)) o) /\
    match t' with OArr _ => True | OLnk l => lwf l end.
Proof. exact oextend_ok. Qed.
Print Assumptions C88_extend.
(** Construction takes them unless the operand is of the exact class. *)
Theorem C88_construct : forall c x rc, sound (olst x) -> alive rc (oheld (olst x)) ->
  exists o rc', omake c x rc = (Ret o, rc') /\ ocls_of o = c /\ oheld o = oheld (olst x) /\ match o with OArr _ => True | OLnk l => lwf l end /\
    forall y, rc' y = rc y + (if orecognised c x then 0 else occ (oheld (olst x)) y).
Proof. exact omake_ok. Qed.
Print Assumptions C88_construct.
(** x.extend(x) for x of a subclass, or x.extend(iter(x)). *)
Theorem C88_own_iterator_refuted : forall s rc n, (0 < length s)%nat -> alive rc s ->
  exists t rc', oown oa_next vpush n (iter_create false s) s rc = (None, (t, rc')) /\ grown eq n s t /\
    forall x, rc' x = rc x + occ (skipn (length s) t) x.
Proof. exact oown_ok. Qed.
Print Assumptions C88_own_iterator_refuted.
Theorem C88_linked_own_iterator_refuted : forall l rc n, lwf l -> (2 <= length (vals l))%nat -> zlen (vals l) + Z.of_nat n < 2 ^ 64 -> alive rc (vals l) ->
  exists it l' rc', liter_create false l = Ret it /\ oown ol_next lpush n it l rc = (None, (l', rc')) /\ grown eq n (vals l) (vals l') /\ lwf l' /\
    forall x, rc' x = rc x + occ (skipn (length (vals l)) (vals l')) x.
Proof. exact olown_ok. Qed.
Print Assumptions C88_linked_own_iterator_refuted.
Theorem C88_linked_own_end_refuted : forall l v rc n, lwf l -> vals l = [v] -> alive rc [v] ->
  exists it l' rc', liter_create false l = Ret it /\ oown ol_next lpush (S (S n)) it l rc = (Some (Undef IterBeforeBegin), (l', rc')) /\ vals l' = [v; v] /\
    forall x, rc' x = rc x + occ [v] x.
Proof. exact olown_one. Qed.
Print Assumptions C88_linked_own_end_refuted.

Example C88_ex : let x := {| oexact := true; olst := OLnk (ex_list [16; 32; 16]) |} in let y := {| oexact := false; olst := OArr [16; 48] |} in
  let rc := fun o => if (o =? 16) || (o =? 32) || (o =? 48) then 2 else 0 in
  sound (olst x) /\ alive rc (oheld (olst x)) /\ orecognised CObjArr x = false /\ orecognised CObjArr y = false /\
  fst (oextend true (OArr [48]) x rc) = Ret OSelf /\ oheld (fst (snd (oextend true (OArr [48]) x rc))) = [48; 16; 32; 16] /\
  map (snd (snd (oextend true (OArr [48]) x rc))) [16; 32; 48] = [4; 3; 2] /\
  fst (omake CObjArr y rc) = Ret (OArr [16; 48]) /\ map (snd (omake CObjArr y rc)) [16; 48] = [3; 3] /\
  map (snd (omake CObjArr {| oexact := true; olst := OArr [16; 48] |} rc)) [16; 48] = [2; 2].
Proof.
  split; [split; [vm_compute; discriminate|apply ex_list_wf]|].
  split; [repeat (constructor; [vm_compute; auto|]); constructor|]. vm_compute. auto 12.
Qed.
