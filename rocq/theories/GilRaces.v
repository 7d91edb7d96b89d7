(** Proofs for C73: calls that race. *)
From Coq Require Import ZArith List Bool Lia Arith.
From Verif Require Import Base PyListSpec PyLongProofs ListLemmas ArrayListModel ArrayListProofs ArrayListMoreModel
  SimdSortModel GilModel GilSpec GilProofs GilCalls.
Import ListNotations.
Local Open Scope Z_scope.
Local Arguments Z.add : simpl never.
Local Arguments Z.sub : simpl never.
Local Arguments Z.mul : simpl never.
Local Arguments Z.of_nat : simpl never.
Local Arguments Z.to_nat : simpl never.
Local Arguments Z.div : simpl never.
Local Arguments sort_nokey : simpl never.
Local Arguments step : simpl never.
Local Arguments mul : simpl never.
Local Arguments imul : simpl never.
Local Arguments imul_tail : simpl never.
Local Arguments as_elem : simpl never.
Local Arguments place : simpl never.

(** From memory [M] the program runs, without taking the lock, to an access of
    [l]; [h] and [h'] say whether it holds the lock before and then. *)
Inductive leads (l : loc) (w : bool) : bool -> memory -> prog -> memory -> bool -> Prop :=
| ld_rd h M k : w = false -> leads l w h M (PRd l k) M h
| ld_wr h M v k : w = true -> leads l w h M (PWr l v k) M h
| ld_skip_rd h M x k M' h' : leads l w h M (k (M x)) M' h' -> leads l w h M (PRd x k) M' h'
| ld_skip_wr h M x v k M' h' : leads l w h (store M x v) k M' h' -> leads l w h M (PWr x v k) M' h'
| ld_skip_rel M k M' h' : leads l w false M k M' h' -> leads l w true M (PRel k) M' h'.

Lemma leads_reaches l w h M p M' h' : leads l w h M p M' h' -> forall c t,
  now (thr c t) = Some p -> mem c = M -> (h = true -> gil c = Some t) ->
  exists c', reaches c c' /\ next (thr c' t) = Some (l, w) /\ mem c' = M' /\
    (forall x, x <> t -> thr c' x = thr c x) /\ (h = true -> h' = false -> gil c' = None) /\
    (h = h' -> gil c' = gil c).
Proof.
  induction 1 as [h M k ->|h M v k ->|h M x k M' h' L IH|h M x v k M' h' L IH|M k M' h' L IH]; intros c t N E G; subst M.
  - exists c. split; [constructor|]. unfold next. rewrite N. do 3 (split; [auto|]). split; [congruence|auto].
  - exists c. split; [constructor|]. unfold next. rewrite N. do 3 (split; [auto|]). split; [congruence|auto].
  - set (c1 := {| mem := mem c; gil := gil c; thr := at_ c t (Some (k (mem c x))) |}).
    destruct (IH c1 t) as (c' & R & A & B & C & D & F); [unfold c1, at_; cbn; now rewrite put_same|reflexivity|exact G|].
    exists c'. split; [eapply reaches_trans; [eapply reaches_one, (st_rd t c x k N)|exact R]|].
    split; [exact A|]. split; [exact B|]. split; [|split; [exact D|exact F]].
    intros y Y. rewrite C by auto. unfold c1, at_; cbn. now apply put_other.
  - set (c1 := {| mem := store (mem c) x v; gil := gil c; thr := at_ c t (Some k) |}).
    destruct (IH c1 t) as (c' & R & A & B & C & D & F); [unfold c1, at_; cbn; now rewrite put_same|reflexivity|exact G|].
    exists c'. split; [eapply reaches_trans; [eapply reaches_one, (st_wr t c x v k N)|exact R]|].
    split; [exact A|]. split; [exact B|]. split; [|split; [exact D|exact F]].
    intros y Y. rewrite C by auto. unfold c1, at_; cbn. now apply put_other.
  - set (c1 := {| mem := mem c; gil := None; thr := at_ c t (Some k) |}).
    destruct (IH c1 t) as (c' & R & A & B & C & D & F); [unfold c1, at_; cbn; now rewrite put_same|reflexivity|discriminate|].
    exists c'. split; [eapply reaches_trans; [eapply reaches_one, (st_rel t c k N (G eq_refl))|exact R]|].
    split; [exact A|]. split; [exact B|]. split; [intros y Y; rewrite C by auto; unfold c1, at_; cbn; now apply put_other|].
    split.
    + intros _ E. rewrite (F (eq_sym E)). reflexivity.
    + intros <-. exfalso. clear - L. remember false as f. remember true as g. revert Heqf Heqg.
      induction L; intros; subst; try discriminate; auto.
Qed.

(** Two calls of different threads that can meet. *)
Lemma meet cfg k M calls t u w c rt ru l wt wu M1 M2 h2 : t <> u ->
  calls t = w :: rt -> calls u = c :: ru ->
  leads l wt true M (prog_of cfg k w) M1 false -> leads l wu true M1 (prog_of cfg k c) M2 h2 ->
  wt = true \/ wu = true -> ~ race_free (start cfg k M calls).
Proof.
  intros TU CT CU LT LU W RF.
  set (c0 := start cfg k M calls).
  set (c1 := {| mem := M; gil := Some t;
     thr := put (thr c0) t {| now := Some (prog_of cfg k w); todo := map (prog_of cfg k) rt; answers := [] |} |}).
  assert (S1 : step_of_thread t c0 c1).
  { apply (st_begin t c0 (prog_of cfg k w) (map (prog_of cfg k) rt)); [reflexivity|reflexivity|]. cbn. now rewrite CT. }
  destruct (leads_reaches _ _ _ _ _ _ _ LT c1 t) as (c2 & R2 & A2 & B2 & C2 & D2 & _);
    [unfold c1; cbn; now rewrite put_same|reflexivity|reflexivity|].
  specialize (D2 eq_refl eq_refl).
  assert (U2 : thr c2 u = {| now := None; todo := map (prog_of cfg k) (c :: ru); answers := [] |}).
  { rewrite C2 by auto. unfold c1. cbn [thr]. rewrite put_other by auto. cbn. now rewrite CU. }
  set (c3 := {| mem := mem c2; gil := Some u;
     thr := put (thr c2) u {| now := Some (prog_of cfg k c); todo := map (prog_of cfg k) ru; answers := answers (thr c2 u) |} |}).
  assert (S3 : step_of_thread u c2 c3).
  { apply (st_begin u c2 (prog_of cfg k c) (map (prog_of cfg k) ru)); [exact D2|now rewrite U2|now rewrite U2]. }
  destruct (leads_reaches _ _ _ _ _ _ _ LU c3 u) as (c4 & R4 & A4 & B4 & C4 & _);
    [unfold c3; cbn; now rewrite put_same|exact B2|reflexivity|].
  apply (RF c4).
  - eapply reaches_trans; [eapply reaches_one, S1|]. eapply reaches_trans; [exact R2|].
    eapply reaches_trans; [eapply reaches_one, S3|exact R4].
  - exists t, u, l, wt, wu. split; [exact TU|]. split; [|split; [exact A4|exact W]].
    rewrite C4 by auto. unfold c3. cbn [thr]. now rewrite put_other by auto.
Qed.

(** ** Where the loops lead *)
Lemma leads_in_rd h M n : forall i k p, i <= p < i + Z.of_nat n -> leads (Cell p) false h M (rd_cells n i k) M h.
Proof.
  induction n as [|n IH]; intros i k p H; [lia|]. cbn [rd_cells]. destruct (Z.eq_dec p i) as [->|N].
  - now apply ld_rd.
  - apply ld_skip_rd. apply IH. lia.
Qed.
Lemma leads_past_rd l w h M n M' h' : forall i k, leads l w h M (k (cells M i n)) M' h' -> leads l w h M (rd_cells n i k) M' h'.
Proof.
  induction n as [|n IH]; intros i k H; cbn [rd_cells cells] in *; [exact H|]. apply ld_skip_rd. now apply IH.
Qed.
Lemma leads_in_wr h s : forall M i k p, i <= p < i + zlen s ->
  exists M', leads (Cell p) true h M (wr_cells s i k) M' h /\ M' Head = M Head.
Proof.
  induction s as [|v s IH]; intros M i k p H; unfold zlen in *; cbn [length wr_cells] in *; [lia|].
  destruct (Z.eq_dec p i) as [->|N].
  - exists M. split; [now apply ld_wr|reflexivity].
  - destruct (IH (store M (Cell i) v) (i + 1) k p) as (M' & L & E); [lia|]. exists M'. split; [now apply ld_skip_wr|].
    rewrite E. apply store_other. discriminate.
Qed.
Lemma leads_past_wr l w h s M' h' : forall M i k, leads l w h (stores M i s) k M' h' -> leads l w h M (wr_cells s i k) M' h'.
Proof.
  induction s as [|v s IH]; intros M i k H; cbn [wr_cells stores] in *; [exact H|]. apply ld_skip_wr. now apply IH.
Qed.

(** Both elements of a pair are read and written. *)
Lemma leads_in_swap w h m : forall M i n k p, 0 <= i -> 2 * (i + Z.of_nat m) <= n ->
  i <= p < i + Z.of_nat m \/ i <= n - 1 - p < i + Z.of_nat m ->
  exists M', leads (Cell p) w h M (swap_loop m i n k) M' h /\ M' Head = M Head.
Proof.
  induction m as [|m IH]; intros M i n k p H0 H1 H; [lia|]. cbn [swap_loop].
  destruct (Z.eq_dec p i) as [->|N1]; [|destruct (Z.eq_dec p (n - 1 - i)) as [->|N2]].
  - exists M. split; [|reflexivity]. destruct w; [|now apply ld_rd].
    apply ld_skip_rd, ld_skip_rd. now apply ld_wr.
  - destruct w; [|exists M; split; [apply ld_skip_rd; now apply ld_rd|reflexivity]].
    exists (store M (Cell i) (M (Cell (n - 1 - i)))). split; [|apply store_other; discriminate].
    apply ld_skip_rd, ld_skip_rd, ld_skip_wr. now apply ld_wr.
  - set (M1 := store (store M (Cell i) (M (Cell (n - 1 - i)))) (Cell (n - 1 - i)) (M (Cell i))).
    destruct (IH M1 (i + 1) n k p) as (M' & L & E); [lia|lia|lia|].
    exists M'. split; [apply ld_skip_rd, ld_skip_rd, ld_skip_wr, ld_skip_wr; exact L|].
    rewrite E. unfold M1. rewrite !store_other by discriminate. reflexivity.
Qed.

Lemma leads_reverse w M n p : M Head = n -> 0 <= p < n -> 2 * p + 1 <> n ->
  exists M', leads (Cell p) w true M p_reverse M' false /\ M' Head = n.
Proof.
  intros E P Q. unfold p_reverse.
  assert (D : 2 * (n / 2) <= n) by (apply Z.mul_div_le; lia).
  assert (D1 : n < 2 * (n / 2) + 2) by (pose proof (Z.mul_succ_div_gt n 2 ltac:(lia)); lia).
  destruct (leads_in_swap w false (Z.to_nat (n / 2)) M 0 n (PAcq (PRet (Ret VNone))) p) as (M' & L & H); [lia|lia|lia|].
  exists M'. split; [|now rewrite H]. apply ld_skip_rel, ld_skip_rd. rewrite E. exact L.
Qed.

Lemma leads_sort_write cfg k r M n p : M Head = n -> 0 <= p < n -> 2 <= n ->
  exists M', leads (Cell p) true true M (p_sort cfg k r) M' false /\ M' Head = n.
Proof.
  intros E P Q. unfold p_sort. set (s := cells M 0 (Z.to_nat n)).
  assert (LS : length s = Z.to_nat n) by apply cells_length.
  destruct (leads_in_wr false (fit (length s) (snd (sort_nokey cfg k r s))) M 0
    (PAcq (PRet (fst (sort_nokey cfg k r s)))) p) as (M' & L & H).
  { unfold zlen. rewrite fit_length, LS. lia. }
  exists M'. split; [|now rewrite H]. apply ld_skip_rel, ld_skip_rd. rewrite E.
  destruct (Z.leb_spec n 1); [lia|]. apply leads_past_rd. exact L.
Qed.

Lemma leads_sort_read cfg k r M n p : M Head = n -> 0 <= p < n -> 2 <= n ->
  leads (Cell p) false true M (p_sort cfg k r) M false.
Proof.
  intros E P Q. unfold p_sort. apply ld_skip_rel, ld_skip_rd. rewrite E.
  destruct (Z.leb_spec n 1); [lia|]. apply leads_in_rd. lia.
Qed.

Lemma leads_mul cfg k m M n p : M Head = n -> 0 <= p < n -> 0 < m ->
  leads (Cell p) false true M (p_mul cfg k m) M false.
Proof.
  intros E P Q. unfold p_mul. destruct (Z.leb_spec m 0); [lia|]. apply ld_skip_rd, ld_skip_rel. rewrite E.
  destruct (Z.to_nat m) as [|m'] eqn:X; [lia|]. cbn [copies]. apply ld_skip_rd. apply leads_in_rd. lia.
Qed.

Lemma as_elem_some k v : in_sbits 64 v -> exists w, as_elem k (PInt v) = Ret w.
Proof.
  intros H. unfold as_elem, as_long. rewrite (proj2 (in_sbits_b_spec 64 v)) by exact H. eexists. reflexivity.
Qed.

(** A call that touches an element gets there, by reading or by writing; a
    writer gets to writing it. *)
Lemma touches_leads cfg k c M n p : M Head = n -> touches n p c ->
  exists w M' h', leads (Cell p) w true M (prog_of cfg k c) M' h'.
Proof.
  intros E T. destruct c as [o|r|m|m sp]; cbn [prog_of touches] in *.
  - destruct o; try contradiction; cbn [p_op] in *.
    + destruct (leads_reverse false M n p E) as (M' & L & _); [tauto|tauto|]. eauto.
    + exists false, M, true. apply ld_skip_rd. rewrite E, T. now apply ld_rd.
    + destruct T as [T V]. destruct (as_elem_some k v V) as [w W]. exists true, M, true.
      apply ld_skip_rd. rewrite E, T, W. now apply ld_wr.
    + exists false, M, true. apply ld_skip_rd. rewrite E. apply leads_in_rd. lia.
    + exists false, M, true. apply ld_skip_rd. rewrite E. apply leads_in_rd. lia.
    + exists false, M, true. apply ld_skip_rd. rewrite E. apply leads_in_rd. lia.
  - exists false, M, false. eapply leads_sort_read; [exact E|tauto|tauto].
  - exists false, M, false. eapply leads_mul; [exact E|tauto|tauto].
  - contradiction.
Qed.

Lemma writer_leads cfg k c M n p : M Head = n -> touches n p c -> writer c = true ->
  exists M' h', leads (Cell p) true true M (prog_of cfg k c) M' h'.
Proof.
  intros E T W. destruct c as [o|r|m|m sp]; cbn [prog_of touches writer] in *; try discriminate.
  - destruct o; try discriminate; cbn [p_op] in *.
    + destruct (leads_reverse true M n p E) as (M' & L & _); [tauto|tauto|]. eauto.
    + destruct T as [T V]. destruct (as_elem_some k v V) as [w W']. exists M, true.
      apply ld_skip_rd. rewrite E, T, W'. now apply ld_wr.
  - destruct (leads_sort_write cfg k r M n p E) as (M' & L & _); [tauto|tauto|]. eauto.
Qed.

(** A call that gives up the lock gets to the element without it. *)
Lemma unlocks_leads cfg k c M n p : M Head = n -> touches n p c -> unlocks c = true ->
  exists M', leads (Cell p) (writer c) true M (prog_of cfg k c) M' false /\ M' Head = n.
Proof.
  intros E T U. destruct c as [o|r|m|m sp]; cbn [prog_of touches unlocks] in *; try discriminate.
  - destruct o; try discriminate. apply leads_reverse; tauto.
  - apply leads_sort_write; tauto.
  - exists M. split; [|exact E]. eapply leads_mul; [exact E|tauto|tauto].
  - contradiction.
Qed.

Lemma element_race cfg k M s calls t u w c rt ru p : holds M s -> t <> u ->
  calls t = w :: rt -> calls u = c :: ru -> unlocks w = true ->
  touches (zlen s) p w -> touches (zlen s) p c -> writer w || writer c = true ->
  ~ race_free (start cfg k M calls).
Proof.
  intros [H _] TU CT CU U TW TC W.
  destruct (unlocks_leads cfg k w M (zlen s) p H TW U) as (M1 & L1 & H1).
  destruct (writer w) eqn:WW.
  - destruct (touches_leads cfg k c M1 (zlen s) p H1 TC) as (wc & M2 & h2 & L2).
    eapply meet; eauto.
  - destruct (writer_leads cfg k c M1 (zlen s) p H1 TC W) as (M2 & h2 & L2).
    eapply meet; eauto.
Qed.

(** ** The size field *)
Lemma unlocks_head cfg k c M : unlocks c = true -> leads Head false true M (prog_of cfg k c) M false.
Proof.
  intros U. destruct c as [o|r|m|m sp]; cbn [prog_of unlocks] in *; try discriminate.
  - destruct o; try discriminate. cbn [p_op]. apply ld_skip_rel. now apply ld_rd.
  - apply ld_skip_rel. now apply ld_rd.
  - unfold p_mul. destruct (Z.leb_spec m 0); [lia|]. apply ld_skip_rd, ld_skip_rel.
    destruct (Z.to_nat m) as [|m'] eqn:X; [lia|]. cbn [copies]. now apply ld_rd.
  - unfold p_imul. destruct (Z.leb_spec m 0); [lia|]. apply ld_skip_rd, ld_skip_rel. now apply ld_rd.
Qed.

Lemma leads_imul cfg k m sp M n : M Head = n -> 0 < n -> 2 <= m ->
  exists M', leads Head true true M (p_imul cfg k m sp) M' false /\ M' Head = n.
Proof.
  intros E P Q. unfold p_imul. destruct (Z.leb_spec m 0); [lia|].
  exists (stores M n (repeat 0 (Z.to_nat (n * m - n)))). split; [|now rewrite stores_head].
  apply ld_skip_rd, ld_skip_rel, ld_skip_rd. rewrite E.
  destruct (Z.eqb_spec m 1); [lia|]. destruct (Z.leb_spec n 0); [lia|]. cbn [orb].
  apply leads_past_wr. now apply ld_wr.
Qed.

Lemma resizes_leads cfg k c M n : M Head = n -> resizes n c -> exists M' h', leads Head true true M (prog_of cfg k c) M' h'.
Proof.
  assert (G : forall o, exists M', leads Head true true M
    (rd_all (fun s => let '(r, s') := step cfg k o s in wr_cells s' 0 (PWr Head (zlen s') (PRet r)))) M' true).
  { intros o. unfold rd_all. set (s := cells M 0 (Z.to_nat (M Head))).
    exists (stores M 0 (snd (step cfg k o s))). apply ld_skip_rd, leads_past_rd. fold s.
    destruct (step cfg k o s) as [r s']. cbn [snd]. apply leads_past_wr. now apply ld_wr. }
  intros E R. destruct c as [o|r|m|m sp]; cbn [prog_of resizes] in *; try contradiction.
  - destruct o; try contradiction; cbn [p_op] in *.
    + destruct (as_elem_some k v R) as [w ->]. eexists _, true. apply ld_skip_rd, ld_skip_wr. now apply ld_wr.
    + destruct (G (OInsert i v)) as [M' L]. eauto.
    + destruct (G (OPop i)) as [M' L]. eauto.
    + exists M, true. now apply ld_wr.
  - destruct R as [R|[R1 R2]].
    + exists M, true. unfold p_imul. destruct (Z.leb_spec m 0); [|lia]. now apply ld_wr.
    + destruct (leads_imul cfg k m sp M n E R1 R2) as (M' & L & _). eauto.
Qed.

Lemma uses_leads cfg k c M : uses_size c -> exists w h', leads Head w true M (prog_of cfg k c) M h'.
Proof.
  intros U. destruct c as [o|r|m|m sp]; cbn [prog_of uses_size] in *.
  - destruct o; cbn [p_op]; unfold rd_all; try (exists false, true; now apply ld_rd).
    + destruct (as_elem_some k v U) as [w ->]. exists false, true. now apply ld_rd.
    + exists false, false. apply ld_skip_rel. now apply ld_rd.
    + exists true, true. now apply ld_wr.
  - exists false, false. apply ld_skip_rel. now apply ld_rd.
  - unfold p_mul. destruct (Z.leb_spec m 0); [lia|]. exists false, true. now apply ld_rd.
  - unfold p_imul. destruct (Z.leb_spec m 0).
    + exists true, true. now apply ld_wr.
    + exists false, true. now apply ld_rd.
Qed.

Lemma imul_race cfg k M s calls t u m sp c rt ru : holds M s -> t <> u ->
  calls t = CIMul m sp :: rt -> calls u = c :: ru -> s <> [] -> 2 <= m -> uses_size c ->
  ~ race_free (start cfg k M calls).
Proof.
  intros [H _] TU CT CU NE Q U.
  assert (0 < zlen s) by (destruct s; [contradiction|unfold zlen; cbn [length]; lia]).
  destruct (leads_imul cfg k m sp M (zlen s) H) as (M1 & L1 & _); [lia|lia|].
  destruct (uses_leads cfg k c M1 U) as (w & h & L). eapply meet; eauto.
Qed.

Lemma size_race cfg k M s calls t u w c rt ru : holds M s -> t <> u ->
  calls t = w :: rt -> calls u = c :: ru -> unlocks w = true -> resizes (zlen s) c ->
  ~ race_free (start cfg k M calls).
Proof.
  intros H TU CT CU U R.
  destruct (resizes_leads cfg k c M (zlen s) (proj1 H) R) as (M2 & h2 & L2).
  pose proof (unlocks_head cfg k w M U) as L1.
  eapply meet; eauto.
Qed.

(** ** Nobody waits for ever *)
Definition lively (c : config) : Prop :=
  (forall t p, now (thr c t) = Some p -> exists h, closes h p /\ (h = true <-> gil c = Some t)) /\
  (forall t, gil c = Some t -> now (thr c t) <> None) /\
  (forall t, Forall (closes true) (todo (thr c t))).

Lemma lively_step t c c1 : lively c -> step_of_thread t c c1 -> lively c1.
Proof.
  intros (GN & GG & GT) ST.
  inversion ST as [? p r G N T|? l k N|? l v k N|? k N G|? k N G|? r N G]; subst;
    (split; [|split]);
    try (intros u; cbn; unfold at_; destruct (Nat.eq_dec u t) as [->|X];
         [rewrite put_same; cbn; first [exact (GT t)|pose proof (GT t) as F; rewrite T in F; now inversion F]
         |rewrite put_other by auto; exact (GT u)]; fail);
    try (intros u; cbn; unfold at_; intros E; destruct (Nat.eq_dec u t) as [->|X];
         [rewrite put_same; cbn; discriminate|rewrite put_other by auto; first [discriminate E|apply GG; exact E|congruence]]; fail);
    try discriminate;
    intros u q; cbn; unfold at_; (destruct (Nat.eq_dec u t) as [->|X];
      [rewrite put_same; cbn; intros E; try discriminate; injection E as <-
      |rewrite put_other by auto; intros E; destruct (GN u q E) as [h [O H]]; exists h; split; [exact O|];
       first [exact H|split; intros Y; [apply H in Y; congruence|first [congruence|apply H; congruence]]]]).
  - exists true. split; [|tauto]. pose proof (GT t) as F. rewrite T in F. now inversion F.
  - destruct (GN t _ N) as [h [O H]]. exists h. split; [apply O|exact H].
  - destruct (GN t _ N) as [h [O H]]. exists h. split; [apply O|exact H].
  - destruct (GN t _ N) as [h [[_ O] H]]. exists false. split; [exact O|split; discriminate].
  - destruct (GN t _ N) as [h [[_ [r ->]] H]]. exists true. cbn. tauto.
Qed.

Lemma busy_steps t p c : lively c -> now (thr c t) = Some p -> gil c = Some t \/ gil c = None ->
  exists c', step_of_thread t c c'.
Proof.
  intros (GN & GG & GT) N G. destruct (GN t p N) as [h [C H]]. destruct p as [r|l k|l v k|k|k]; cbn [closes] in C.
  - eexists. eapply st_ret; [eauto|]. now apply H.
  - eexists. eapply st_rd; eauto.
  - eexists. eapply st_wr; eauto.
  - eexists. eapply st_rel; [eauto|]. apply H. apply C.
  - eexists. eapply st_acq; [eauto|]. destruct C as [-> _]. destruct G as [G|G]; [apply H in G; discriminate|exact G].
Qed.

Lemma lively_moves c t : lively c -> now (thr c t) <> None \/ todo (thr c t) <> [] ->
  exists u c', step_of_thread u c c'.
Proof.
  intros L H. destruct (gil c) as [o|] eqn:G.
  - destruct (now (thr c o)) as [p|] eqn:N; [|destruct L as (_ & GG & _); exfalso; exact (GG o G N)].
    destruct (busy_steps o p c L N) as [c' S]; [now left|]. eauto.
  - destruct (now (thr c t)) as [p|] eqn:N.
    + destruct (busy_steps t p c L N) as [c' S]; [now right|]. eauto.
    + destruct H as [H|H]; [congruence|]. destruct (todo (thr c t)) as [|p r] eqn:T; [congruence|].
      exists t. eexists. eapply st_begin; eauto.
Qed.

Lemma calls_move cfg k M calls c t : reaches (start cfg k M calls) c ->
  now (thr c t) <> None \/ todo (thr c t) <> [] -> exists u c', step_of_thread u c c'.
Proof.
  intros R. apply lively_moves. induction R as [|c1 c2 u R IH S].
  - split; [discriminate|]. split; [discriminate|]. intros u. cbn. apply Forall_forall. intros p X.
    apply in_map_iff in X. destruct X as (x & <- & _). apply prog_closes.
  - eapply lively_step; eauto.
Qed.

(** ** A schedule, executed *)
Definition fire (t : nat) (c : config) : option config :=
  let x := thr c t in
  match now x with
  | None => match todo x, gil c with
            | p :: r, None => Some {| mem := mem c; gil := Some t;
                thr := put (thr c) t {| now := Some p; todo := r; answers := answers x |} |}
            | _, _ => None
            end
  | Some (PRd l k) => Some {| mem := mem c; gil := gil c; thr := at_ c t (Some (k (mem c l))) |}
  | Some (PWr l v k) => Some {| mem := store (mem c) l v; gil := gil c; thr := at_ c t (Some k) |}
  | Some (PRel k) => match gil c with
                     | Some u => if Nat.eqb u t then Some {| mem := mem c; gil := None; thr := at_ c t (Some k) |} else None
                     | None => None
                     end
  | Some (PAcq k) => match gil c with
                     | None => Some {| mem := mem c; gil := Some t; thr := at_ c t (Some k) |}
                     | Some _ => None
                     end
  | Some (PRet r) => match gil c with
                     | Some u => if Nat.eqb u t then Some {| mem := mem c; gil := None;
                         thr := put (thr c) t {| now := None; todo := todo x; answers := answers x ++ [r] |} |} else None
                     | None => None
                     end
  end.

Lemma fire_step t c c' : fire t c = Some c' -> step_of_thread t c c'.
Proof.
  unfold fire. destruct (now (thr c t)) as [[r|l k|l v k|k|k]|] eqn:N.
  - destruct (gil c) as [u|] eqn:G; [|discriminate]. destruct (Nat.eqb_spec u t) as [->|]; [|discriminate].
    intros E. injection E as <-. now apply st_ret.
  - intros E. injection E as <-. now apply st_rd.
  - intros E. injection E as <-. now apply st_wr.
  - destruct (gil c) as [u|] eqn:G; [|discriminate]. destruct (Nat.eqb_spec u t) as [->|]; [|discriminate].
    intros E. injection E as <-. now apply st_rel.
  - destruct (gil c) as [u|] eqn:G; [discriminate|]. intros E. injection E as <-. now apply st_acq.
  - destruct (todo (thr c t)) as [|p r] eqn:T; [discriminate|]. destruct (gil c) eqn:G; [discriminate|].
    intros E. injection E as <-. now apply st_begin.
Qed.

Fixpoint fires (ts : list nat) (c : config) : option config :=
  match ts with
  | [] => Some c
  | t :: r => match fire t c with Some c' => fires r c' | None => None end
  end.
Lemma fires_reaches ts : forall c c', fires ts c = Some c' -> reaches c c'.
Proof.
  induction ts as [|t r IH]; intros c c' E; cbn in E; [injection E as <-; constructor|].
  destruct (fire t c) as [c1|] eqn:F; [|discriminate].
  eapply reaches_trans; [eapply reaches_one, fire_step, F|]. now apply IH.
Qed.

Lemma lost cfg k x y : exists c,
  reaches (start cfg k (memory_of [x; y]) (fun t => if Nat.ltb t 2 then [COp OReverse] else [])) c /\
  quiet c /\ (forall t, todo (thr c t) = []) /\ holds (mem c) [y; y].
Proof.
  set (c0 := start cfg k (memory_of [x; y]) (fun t => if Nat.ltb t 2 then [COp OReverse] else [])).
  set (ts := [0; 0; 0; 0; 0; 0; 1; 1; 1; 1; 1; 1; 0; 0; 0; 1; 1; 1]%nat).
  assert (E : fires ts c0 = Some (match fires ts c0 with Some c => c | None => c0 end)).
  { assert (B : match fires ts c0 with Some _ => true | None => false end = true) by (vm_compute; reflexivity).
    destruct (fires ts c0); [reflexivity|discriminate]. }
  exists (match fires ts c0 with Some c => c | None => c0 end). split; [eapply fires_reaches; exact E|]. clear E.
  split; [|split].
  - intros [|[|t]]; vm_compute; reflexivity.
  - intros [|[|t]]; vm_compute; reflexivity.
  - split; [vm_compute; reflexivity|]. intros [|[|i]] v; cbn [nth_error]; intros H;
      [injection H as <-; vm_compute; reflexivity|injection H as <-; vm_compute; reflexivity|destruct i; discriminate].
Qed.
