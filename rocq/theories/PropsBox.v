(** Property theorem C90: object lists given an int list. *)
From Coq Require Import ZArith List Bool Arith Lia.
From Verif Require Import Base PyListSpec ArrayListModel ArrayListProofs ArrayListSpec StdListModel LinkedListModel LinkedListProofs LinkedListFacts
  ObjModel ObjSpec MixModel MixSpec MixObjModel MixObjSpec BoxModel BoxSpec BoxProofs PropsLinkedList.
Import ListNotations.
Local Open Scope Z_scope.

Definition ex_cfg (b : bool) : config := {| py312 := b; feat := {| avx512 := false; avx2 := true; sse41 := true; ssse3 := true |} |}.
(** * C90 *)
(** extend and += add one object for each element, in order, with one reference
    for its place, until memory for one is refused. *)
Theorem C90_extend : forall small mem cfg inplace t x h, sound t -> valid x -> cache_ok small h -> heap_ok h (zlen (held x)) ->
  exists r t' h' vs os, extend_int small mem cfg inplace t x h = (r, (t', h')) /\ ocls_of t' = ocls_of t /\ oheld t' = oheld t ++ os /\
    match t' with OArr _ => True | OLnk l => lwf l end /\ objects_for small (py312 cfg) x h h' vs os /\
    (r = Ret (if inplace : bool then OSelf else ONone) /\ vs = held x \/
     r = Raise MemoryError /\ (exists w v2, held x = vs ++ w :: v2) /\ hn h <= hn h' < hn h + zlen (held x) /\ mem (hn h') = false).
Proof. exact extend_int_ok. Qed.
Print Assumptions C90_extend.
(** Construction: a list that fails gives all references back. *)
Theorem C90_construct : forall small mem cfg c x h, valid x -> cache_ok small h -> heap_ok h (zlen (held x)) -> (forall o, 0 <= hc h o) ->
  (exists t h', make_from_int small mem cfg c x h = (Ret t, h') /\ ocls_of t = c /\ match t with OArr _ => True | OLnk l => lwf l end /\
     objects_for small (py312 cfg) x h h' (held x) (oheld t)) \/
  (exists h', make_from_int small mem cfg c x h = (Raise MemoryError, h') /\ (forall o, hc h' o = hc h o) /\
     hn h <= hn h' < hn h + zlen (held x) /\ mem (hn h') = false).
Proof. exact make_from_int_ok. Qed.
Print Assumptions C90_construct.
(** With memory for every object neither fails. *)
Theorem C90_granted : forall small mem cfg c inplace t x h, sound t -> valid x -> cache_ok small h -> heap_ok h (zlen (held x)) -> (forall o, 0 <= hc h o) ->
  (forall o, hn h <= o < hn h + zlen (held x) -> mem o = true) ->
  (exists t' h' os, extend_int small mem cfg inplace t x h = (Ret (if inplace : bool then OSelf else ONone), (t', h')) /\
     oheld t' = oheld t ++ os /\ objects_for small (py312 cfg) x h h' (held x) os) /\
  (exists t' h', make_from_int small mem cfg c x h = (Ret t', h') /\ objects_for small (py312 cfg) x h h' (held x) (oheld t')).
Proof.
  intros small mem cfg c inplace t x h St V C H Po M. split.
  - destruct (C90_extend small mem cfg inplace t x h St V C H) as (r & t' & h' & vs & os & E & _ & O & _ & B & [(-> & ->)|(_ & _ & N & G)]).
    + exists t', h', os. auto.
    + rewrite (M _ N) in G. discriminate.
  - destruct (C90_construct small mem cfg c x h V C H Po) as [(t' & h' & E & _ & _ & B)|(h' & _ & _ & N & G)].
    + exists t', h'. auto.
    + rewrite (M _ N) in G. discriminate.
Qed.
Print Assumptions C90_granted.
(** The objects stand for exactly these elements; the others are the negative
    elements of 32-bit lists from Python 3.12 on. *)
Theorem C90_exact : forall py312 x v, in_range (elem_kind x) v -> seen py312 x v = v <-> py312 = false \/ class_of x = CArr KBig \/ 0 <= v \/ v = - 2 ^ 31.
Proof. exact seen_exact. Qed.
Print Assumptions C90_exact.
Theorem C90_negative_refuted : exists x h, valid x /\ cache_ok (fun _ => None) h /\ heap_ok h (zlen (held x)) /\
  exists t h', make_from_int (fun _ => None) (fun _ => true) (ex_cfg true) CObjArr x h = (Ret t, h') /\
    held x = [-5] /\ map (hv h') (oheld t) = [- 4294967291].
Proof.
  exists (Arr KInt [-5]), {| hc := fun _ => 0; hv := fun _ => 0; hn := 16 |}.
  split; [split; [vm_compute; discriminate|split; [constructor; [vm_compute; split; congruence|constructor]|exact I]]|].
  split; [intros z o; discriminate|]. split; [split; [reflexivity|split; [vm_compute; discriminate|reflexivity]]|].
  eexists _, _. split; [vm_compute; reflexivity|]. split; vm_compute; reflexivity.
Qed.
Print Assumptions C90_negative_refuted.

(** A cache that keeps 7 at address 3: [7; 1000; 7] is the cached object twice
    and a new one. From 3.12 on a 32-bit list makes three. *)
Definition ex_small (z : Z) : option Z := if z =? 7 then Some 3 else None.
Definition ex_heap : heap := {| hc := fun o => if o =? 3 then 5 else 0; hv := fun o => if o =? 3 then 7 else 0; hn := 16 |}.
Example C90_ex : let x := Lnk (ex_list [7; 1000; 7]) in
  let run cfg mem := extend_int ex_small mem cfg false (OArr [3]) x ex_heap in
  sound (OArr [3]) /\ valid x /\ cache_ok ex_small ex_heap /\ heap_ok ex_heap (zlen (held x)) /\
  (let '(r, (t, h)) := run (ex_cfg false) (fun _ => true) in (r, oheld t, map (hc h) [3; 16; 17], map (hv h) (oheld t))) =
    (Ret ONone, [3; 3; 16; 3], [7; 1; 0], [7; 7; 1000; 7]) /\
  (let '(r, (t, h)) := run (ex_cfg true) (fun _ => true) in (r, oheld t, map (hc h) [3; 16; 17; 18], map (hv h) (oheld t))) =
    (Ret ONone, [3; 16; 17; 18], [5; 1; 1; 1], [7; 7; 1000; 7]) /\
  (let '(r, (t, h)) := run (ex_cfg true) (fun o => o <? 17) in (r, oheld t, map (hc h) [3; 16; 17])) =
    (Raise MemoryError, [3; 16], [5; 1; 0]) /\
  (let '(r, h) := make_from_int ex_small (fun o => o <? 17) (ex_cfg true) CObjLnk x ex_heap in (r, map (hc h) [3; 16; 17])) =
    (Raise MemoryError, [5; 0; 0]).
Proof.
  split; [split; [vm_compute; discriminate|exact I]|].
  split; [split; [vm_compute; discriminate|split; [|apply ex_list_wf]]; repeat (constructor; [vm_compute; split; congruence|]); constructor|].
  split; [intros z o; unfold ex_small; destruct (Z.eqb_spec z 7) as [->|]; [|discriminate]; injection 1 as <-; vm_compute; auto|].
  split; [split; [reflexivity|split; [vm_compute; discriminate|]]; intros o; cbn [ex_heap hn hc]; intros L; destruct (Z.eqb_spec o 3); [lia|reflexivity]|].
  vm_compute. auto.
Qed.
