(** C81: the protections of the pages under generated code (unsafe/ASM.cpp, Windows). *)
From Coq Require Import ZArith List Bool.
From Verif Require Import Base AsmModel PageModel PageSpec PageProofs.
Import ListNotations.
Local Open Scope Z_scope.

(** Running bytes: exactly they are run, the copy is given back, and every page
    they lie on gets the protection the first of those pages had. *)
Theorem C81_run : forall c at_ b answer t s, b <> [] -> target (blocks s) at_ b answer t ->
  c = KRun (Code at_ b) answer true true \/ c = KRunFast at_ b answer true true ->
  exists s', pstep c s = (PNone, b, s') /\ blocks s' = blocks s /\ tbl s' = tbl s /\ locked s' = locked s /\
    forall q, prot s' q = if touches t b q then prot s (t / 4096) else prot s q.
Proof. exact runs. Qed.
Print Assumptions C81_run.

Theorem C81_run_restores : forall c at_ b answer t s, b <> [] -> target (blocks s) at_ b answer t -> even (prot s) t b ->
  c = KRun (Code at_ b) answer true true \/ c = KRunFast at_ b answer true true ->
  exists s', pstep c s = (PNone, b, s') /\ blocks s' = blocks s /\ tbl s' = tbl s /\ locked s' = locked s /\
    forall q, prot s' q = prot s q.
Proof. exact runs_even. Qed.
Print Assumptions C81_run_restores.

Theorem C81_run_restores_refuted : forall c at_ b answer t s q, b <> [] -> target (blocks s) at_ b answer t ->
  touches t b q = true -> prot s q <> prot s (t / 4096) ->
  c = KRun (Code at_ b) answer true true \/ c = KRunFast at_ b answer true true ->
  exists s', pstep c s = (PNone, b, s') /\ prot s' q = prot s (t / 4096) /\ prot s' q <> prot s q.
Proof. exact runs_uneven. Qed.
Print Assumptions C81_run_restores_refuted.

(** Protections that cannot be put back: the pages stay writable and executable. *)
Theorem C81_run_stays : forall c at_ b answer t s, b <> [] -> target (blocks s) at_ b answer t ->
  c = KRun (Code at_ b) answer true false \/ c = KRunFast at_ b answer true false ->
  exists s', pstep c s = (PErr EOSError, b, s') /\ blocks s' = blocks s /\ tbl s' = tbl s /\ locked s' = locked s /\
    forall q, prot s' q = if touches t b q then 64 else prot s q.
Proof. exact runs_stay. Qed.
Print Assumptions C81_run_stays.

(** Refused before anything is run: nothing is left behind. *)
Theorem C81_run_fails : forall at_ b answer t ok2 s, target (blocks s) at_ b answer t ->
  pstep (KRunFast at_ b answer false ok2) s = (PErr EOSError, [], s) /\
  (b <> [] -> pstep (KRun (Code at_ b) answer false ok2) s = (PErr EOSError, [], s)) /\
  (at_ mod 16 <> 0 -> pstep (KRunFast at_ b None true ok2) s = (PErr EMemoryError, [], s) /\
     (b <> [] -> pstep (KRun (Code at_ b) None true ok2) s = (PErr EMemoryError, [], s))).
Proof. exact runs_fail. Qed.
Print Assumptions C81_run_fails.

(** Histories in which a function is freed only when no live function made after
    it shares a page with it: every call answers as it should, and the pages of
    live functions, and only they, are executable beyond what they were. *)
Theorem C81_histories : forall base live cs rs live', hist base live cs rs live' -> forall s, holds base live s ->
  exists s', prun cs s = (rs, s') /\ holds base live' s'.
Proof. exact histories. Qed.
Print Assumptions C81_histories.

Theorem C81_clean : forall base cs rs, hist base [] cs rs [] -> exists s, prun cs (calm base) = (rs, s) /\
  blocks s = [] /\ locked s = false /\ (forall a, tget (tbl s) a = None) /\ forall q, prot s q = base q.
Proof. exact clean. Qed.
Print Assumptions C81_clean.

(** Without that discipline: of two functions on one page the older is freed; the
    newer cannot be run any more, and when it is freed too the page stays
    executable although no function is left. *)
Theorem C81_histories_refuted : forall base a b c d q x y, b <> [] -> d <> [] -> placed [] a b -> placed [(a, b)] c d ->
  even base a b -> even (under base [(a, b)]) c d ->
  touches a b q = true -> touches c d q = true -> executable (base q) = false ->
  exists s, prun [KMake (Code x b) (Some a) true; KMake (Code y d) (Some c) true; KFree a true] (calm base) =
              ([(PPtr a, []); (PPtr c, []); (PNone, [])], s) /\
    pstep (KCall c) s = (PFault FNoExec, [], s) /\
    exists s', pstep (KFree c true) s = (PNone, [], s') /\ blocks s' = [] /\ tbl s' = [] /\
      (touches a b (c / 4096) = true -> prot s' q = 64).
Proof. exact shared. Qed.
Print Assumptions C81_histories_refuted.

Theorem C81_free_refused : forall s a n old, locked s = false -> tget (tbl s) a = Some (n, old) ->
  exists s', pstep (KFree a false) s = (PErr EOSError, [], s') /\ prot s' = prot s /\ blocks s' = blocks s /\ tbl s' = tbl s /\
    (forall ok, pstep (KFree a ok) s' = (PFault FRelock, [], s')) /\ pstep (KFreeFast a false) s = (PErr EOSError, [], s).
Proof. exact free_refused. Qed.
Print Assumptions C81_free_refused.

Lemma touches_one : forall a b p, forallb (fun i => (a + Z.of_nat i) / 4096 =? p) (seq 0 (List.length b)) = true ->
  forall q, touches a b q = true -> q = p.
Proof.
  intros a b p H q T; unfold touches in T; apply existsb_exists in T; destruct T as (i & I & E).
  rewrite forallb_forall in H; apply Z.eqb_eq in E; rewrite <- E; apply Z.eqb_eq, H, I.
Qed.
(** Two functions on page 2, a run from an unaligned bytes object in between, the
    newer freed first; the other way round the newer cannot be called. *)
Example C81_clean_ex :
  hist (fun _ => 4) []
    [KMake (Code 1 [144; 195]) (Some 8192) true; KMakeFast [195] (Some 8208) true; KCall 8192;
     KRun (Code 9 [195]) (Some 12288) true true; KRunFast 9 [195] (Some 8224) true true; KMake (Code 1 [195]) None true;
     KFree 8208 true; KCall 8192; KFreeFast 8192 true]
    [(PPtr 8192, []); (PPtr 8208, []); (PNone, [144; 195]); (PNone, [195]); (PNone, [195]); (PErr EMemoryError, []);
     (PNone, []); (PNone, [144; 195]); (PNone, [])] [] /\
  fst (prun [KMake (Code 1 [144; 195]) (Some 8192) true; KMakeFast [195] (Some 8208) true; KFree 8192 true; KCall 8208] (calm (fun _ => 4)))
    = [(PPtr 8192, []); (PPtr 8208, []); (PNone, []); (PFault FNoExec, [])].
Proof.
  split; [|vm_compute; reflexivity].
  eapply h_make; [left; reflexivity|discriminate|split; [reflexivity|split; [reflexivity|intros ? ? []]]| |].
  { intros q T; apply (touches_one _ _ 2) in T; [subst q; vm_compute; reflexivity|vm_compute; reflexivity]. }
  eapply (h_make _ _ _ 0); [right; reflexivity|discriminate|split; [reflexivity|split; [reflexivity|]]| |].
  { intros k c [E|[]]; inversion E; subst; vm_compute; split; [discriminate|right; discriminate]. }
  { intros q T; apply (touches_one _ _ 2) in T; [subst q; vm_compute; reflexivity|vm_compute; reflexivity]. }
  eapply h_call; [right; left; reflexivity|].
  eapply (h_run _ _ _ 9 [195] (Some 12288)); [left; reflexivity|discriminate|right; split; [vm_compute; discriminate|split; [reflexivity|split; [reflexivity|split; [reflexivity|]]]]| |].
  { intros k c [E|[E|[]]]; inversion E; subst; vm_compute; split; try discriminate; right; discriminate. }
  { intros q T; apply (touches_one _ _ 3) in T; [subst q; vm_compute; reflexivity|vm_compute; reflexivity]. }
  eapply (h_run _ _ _ 9 [195] (Some 8224)); [right; reflexivity|discriminate|right; split; [vm_compute; discriminate|split; [reflexivity|split; [reflexivity|split; [reflexivity|]]]]| |].
  { intros k c [E|[E|[]]]; inversion E; subst; vm_compute; split; try discriminate; right; discriminate. }
  { intros q T; apply (touches_one _ _ 2) in T; [subst q; vm_compute; reflexivity|vm_compute; reflexivity]. }
  eapply (h_no_memory _ _ _ 1 [195] true true); [left; reflexivity|left; discriminate|].
  eapply (h_free _ [] 8208 [195]); [left; reflexivity|intros ? ? []|].
  eapply h_call; [left; reflexivity|].
  eapply (h_free _ [] 8192 [144; 195]); [right; reflexivity|intros ? ? []|].
  apply h_nil.
Qed.
(** Code across a writable and a read-only page: the second becomes writable. *)
Example C81_run_ex :
  let s := calm (fun q => if q =? 2 then 2 else 4) in
  target (blocks s) 8176 (repeat 144 31 ++ [195]) None 8176 /\
  (let '(r, ran, s') := pstep (KRun (Code 8176 (repeat 144 31 ++ [195])) None true true) s in
   (r, ran, prot s' 1, prot s 2, prot s' 2, prot s' 3)) = (PNone, repeat 144 31 ++ [195], 4, 2, 4, 4).
Proof. split; [left; split; reflexivity|vm_compute; reflexivity]. Qed.
