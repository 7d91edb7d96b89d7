(** Property theorem C91: int lists given an object list. *)
From Coq Require Import ZArith List Bool Arith Lia.
From Verif Require Import Base PyListSpec ArrayListModel ArrayListProofs ArrayListSpec StdListModel LinkedListModel LinkedListProofs LinkedListFacts
  ObjModel ObjSpec MixModel MixSpec MixObjModel MixObjSpec UnboxModel UnboxProofs PropsLinkedList.
Import ListNotations.
Local Open Scope Z_scope.

(** What an element of class [c] holds after an object was stored: its integer
    reduced to the width of the class. *)
Definition holds_int (ival : Z -> pyobj) (c : cls) (o v : Z) : Prop := stores (width c) (ival o) v.
Definition whole (t : lobj) : Prop := match t with Lnk l => lwf l | Arr _ _ => True end.
Lemma holds_store ival c os vs : Forall2 (holds_int ival c) os vs -> Forall2 (store ival (welt c)) os vs.
Proof. unfold holds_int, store. destruct c as [[]|]; exact (fun H => H). Qed.

(** * C91 *)
(** Objects that all convert. No count changes. *)
Theorem C91_extend : forall ival inplace t x rc vs, whole t -> sound x -> alive rc (oheld x) -> Forall2 (holds_int ival (class_of t)) (oheld x) vs ->
  exists t' rc', unbox_extend ival inplace t x rc = (Ret (if inplace : bool then VSelf else VNone), (t', rc')) /\ class_of t' = class_of t /\ held t' = held t ++ vs /\
    whole t' /\ forall o, rc' o = rc o.
Proof. intros ival inplace t x rc vs W Sx A F. exact (extend_good ival inplace t x rc vs W Sx A (holds_store _ _ _ _ F)). Qed.
Print Assumptions C91_extend.
Theorem C91_construct : forall ival c x rc vs, sound x -> alive rc (oheld x) -> Forall2 (holds_int ival c) (oheld x) vs ->
  exists t rc', unbox_make ival c x rc = (Ret t, rc') /\ class_of t = c /\ held t = vs /\ whole t /\ forall o, rc' o = rc o.
Proof. intros ival c x rc vs Sx A F. exact (make_good ival c x rc vs Sx A (holds_store _ _ _ _ F)). Qed.
Print Assumptions C91_construct.
(** [o] is the first object that does not convert. An array list raises the
    error and keeps what came before; construction raises RuntimeError. *)
Theorem C91_array_stops : forall ival inplace k s x rc os1 o os2 vs e, sound x -> alive rc (oheld x) ->
  oheld x = os1 ++ o :: os2 -> Forall2 (holds_int ival (CArr k)) os1 vs -> rejected (ival o) e ->
  exists rc', unbox_extend ival inplace (Arr k s) x rc = (Raise e, (Arr k (s ++ vs), rc')) /\ forall y, rc' y = rc y.
Proof.
  intros ival inplace k s x rc os1 o os2 vs e Sx A Ex F R.
  destruct (extend_bad ival inplace (Arr k s) x rc os1 o os2 vs e I Sx A Ex (holds_store _ _ _ _ F) R) as (r & t' & rc' & E & C & _ & S' & -> & H).
  exists rc'. split; [|exact S']. rewrite E. destruct t' as [k' s'|]; [|discriminate C]. cbn [class_of held] in *. injection C as ->. rewrite H. reflexivity.
Qed.
Print Assumptions C91_array_stops.
Theorem C91_construct_stops : forall ival c x rc os1 o os2 vs e, sound x -> alive rc (oheld x) ->
  oheld x = os1 ++ o :: os2 -> Forall2 (holds_int ival c) os1 vs -> rejected (ival o) e ->
  exists rc', unbox_make ival c x rc = (Raise RuntimeError, rc') /\ forall y, rc' y = rc y.
Proof. intros ival c x rc os1 o os2 vs e Sx A Ex F R. exact (make_bad ival c x rc os1 o os2 vs e Sx A Ex (holds_store _ _ _ _ F) R). Qed.
Print Assumptions C91_construct_stops.
(** The linked list stores -1 for it and raises, unless it is the last: then
    the iterator's StopIteration takes the place of the error, and the call
    succeeds. *)
Theorem C91_linked_refuted : forall ival inplace l x rc os1 o os2 vs e, lwf l -> sound x -> alive rc (oheld x) ->
  oheld x = os1 ++ o :: os2 -> Forall2 (holds_int ival CLnk) os1 vs -> rejected (ival o) e ->
  exists t' rc', unbox_extend ival inplace (Lnk l) x rc =
    (match os2 with [] => Ret (if inplace : bool then VSelf else VNone) | _ => Raise e end, (t', rc')) /\
    class_of t' = CLnk /\ held t' = held (Lnk l) ++ vs ++ [-1] /\ whole t' /\ forall y, rc' y = rc y.
Proof.
  intros ival inplace l x rc os1 o os2 vs e W Sx A Ex F R.
  destruct (extend_bad ival inplace (Lnk l) x rc os1 o os2 vs e W Sx A Ex (holds_store _ _ _ _ F) R) as (r & t' & rc' & E & C & W' & S' & H & ->).
  exists t', rc'. auto.
Qed.
Print Assumptions C91_linked_refuted.
(** One of these is always the case. *)
Theorem C91_total : forall ival c os, (exists vs, Forall2 (holds_int ival c) os vs) \/
  exists os1 o os2 vs e, os = os1 ++ o :: os2 /\ Forall2 (holds_int ival c) os1 vs /\ rejected (ival o) e.
Proof. intros ival c os. destruct c as [[]|]; [exact (split_store ival KInt os)|exact (split_store ival KBig os)|exact (split_store ival KInt os)]. Qed.
Print Assumptions C91_total.

(** Objects at 16, 32, 48: 7, 2^32 + 3 and a str. *)
Definition ex_ival (o : Z) : pyobj := if o =? 16 then PInt 7 else if o =? 32 then PInt (2 ^ 32 + 3) else PObj o.
Definition ex_rc (o : Z) : Z := if (o =? 16) || (o =? 32) || (o =? 48) then 2 else 0.
Example C91_ex : let l := ex_list [1] in let x := OArr [16; 32; 48] in let y := OLnk (ex_list [16; 48; 32]) in
  lwf l /\ sound x /\ alive ex_rc (oheld x) /\ sound y /\ alive ex_rc (oheld y) /\ Forall2 (holds_int ex_ival CLnk) [16; 32] [7; 3] /\ rejected (ex_ival 48) TypeError /\
  (let '(r, (t, rc)) := unbox_extend ex_ival false (Lnk l) x ex_rc in (r, held t, map rc [16; 32; 48])) = (Ret VNone, [1; 7; 3; -1], [2; 2; 2]) /\
  (let '(r, (t, rc)) := unbox_extend ex_ival false (Lnk l) y ex_rc in (r, held t, map rc [16; 32; 48])) = (Raise TypeError, [1; 7; -1], [2; 2; 2]) /\
  (let '(r, (t, rc)) := unbox_extend ex_ival true (Arr KBig [1]) x ex_rc in (r, held t, map rc [16; 32; 48])) = (Raise TypeError, [1; 7; 4294967299], [2; 2; 2]) /\
  fst (unbox_make ex_ival CLnk x ex_rc) = Raise RuntimeError /\
  fst (unbox_make ex_ival (CArr KInt) (OArr [32; 16]) ex_rc) = Ret (Arr KInt [3; 7]).
Proof.
  split; [apply ex_list_wf|]. split; [split; [vm_compute; discriminate|exact I]|].
  split; [repeat (constructor; [vm_compute; auto|]); constructor|].
  split; [split; [vm_compute; discriminate|apply ex_list_wf]|].
  split; [repeat (constructor; [vm_compute; auto|]); constructor|].
  split.
  { apply Forall2_cons; [exists 7|apply Forall2_cons; [exists (2 ^ 32 + 3)|apply Forall2_nil]]; (split; [reflexivity|]); (split; [vm_compute; split; congruence|]);
      (split; [vm_compute; split; congruence|]); [exists 0|exists (-1)]; reflexivity. }
  split; [reflexivity|]. vm_compute. auto 8.
Qed.
