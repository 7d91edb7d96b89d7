(** Proofs for C78: calls that race. *)
From Coq Require Import ZArith List Bool Lia Arith.
From Verif Require Import Base PyListSpec ArrayListModel GilModel GilSpec GilProofs GilCalls GilRaces LGilModel LGilSpec LGilProofs LGilCalls.
Import ListNotations.
Local Open Scope Z_scope.
Local Arguments Z.add : simpl never.
Local Arguments Z.sub : simpl never.
Local Arguments Z.mul : simpl never.
Local Arguments Z.of_nat : simpl never.
Local Arguments Z.to_nat : simpl never.
Local Arguments Z.div : simpl never.
Local Arguments Nat.div : simpl never.
Local Arguments nx : simpl never.
Local Arguments pv : simpl never.
Local Arguments vl : simpl never.
Local Arguments lv : simpl never.
Local Arguments fresh : simpl never.
Local Arguments store : simpl never.

Lemma arrives_reaches h M p M' q h' : arrives h M p M' q h' -> forall c t,
  now (thr c t) = Some p -> mem c = M -> (h = true -> gil c = Some t) ->
  exists c', reaches c c' /\ now (thr c' t) = Some q /\ mem c' = M' /\
    (forall x, x <> t -> thr c' x = thr c x) /\ (h = true -> h' = false -> gil c' = None) /\
    (h = h' -> gil c' = gil c).
Proof.
  induction 1 as [h M p|h M x k M' q h' L IH|h M x v k M' q h' L IH|M k M' q h' L IH]; intros c t N E G; subst M.
  - exists c. split; [constructor|]. do 3 (split; [auto|]). split; [congruence|auto].
  - set (c1 := {| mem := mem c; gil := gil c; thr := at_ c t (Some (k (mem c x))) |}).
    destruct (IH c1 t) as (c' & R & A & B & C & D & F); [unfold c1, at_; cbn; now rewrite put_same|reflexivity|exact G|].
    exists c'. split; [eapply reaches_trans; [eapply reaches_one, (st_rd t c x k N)|exact R]|].
    split; [exact A|]. split; [exact B|]. split; [|split; [exact D|exact F]].
    intros y Y. rewrite C by auto. unfold c1, at_; cbn. now apply put_other.
  - set (c1 := {| mem := store (mem c) x v; gil := gil c; thr := at_ c t (Some k) |}).
    destruct (IH c1 t) as (c' & R & A & B & C & D & F); [unfold c1, at_; cbn; now rewrite put_same|reflexivity|exact G|].
    exists c'. split; [eapply reaches_trans; [eapply reaches_one, (st_wr t c x v k N)|exact R]|].
    split; [exact A|]. split; [exact B|]. split; [|split; [exact D|exact F]].
    intros y Y. rewrite C by auto. unfold c1, at_; cbn. now apply put_other.
  - set (c1 := {| mem := mem c; gil := None; thr := at_ c t (Some k) |}).
    destruct (IH c1 t) as (c' & R & A & B & C & D & F); [unfold c1, at_; cbn; now rewrite put_same|reflexivity|discriminate|].
    exists c'. split; [eapply reaches_trans; [eapply reaches_one, (st_rel t c k N (G eq_refl))|exact R]|].
    split; [exact A|]. split; [exact B|]. split; [intros y Y; rewrite C by auto; unfold c1, at_; cbn; now apply put_other|].
    split.
    + intros _ E. rewrite (F (eq_sym E)). reflexivity.
    + intros <-. exfalso. clear - L. remember false as f. remember true as g. revert Heqf Heqg.
      induction L; intros; subst; try discriminate; auto.
Qed.

(** One thread gives up the lock somewhere in its first call and another one
    starts its first call. *)
Lemma interrupt M calls t u p q rt ru M1 p1 : t <> u -> calls t = p :: rt -> calls u = q :: ru ->
  arrives true M p M1 p1 false ->
  exists c, reaches (begin M calls) c /\ now (thr c t) = Some p1 /\ mem c = M1 /\ now (thr c u) = Some q /\ gil c = Some u.
Proof.
  intros TU CT CU LT. set (c0 := begin M calls).
  set (c1 := {| mem := M; gil := Some t; thr := put (thr c0) t {| now := Some p; todo := rt; answers := [] |} |}).
  assert (S1 : step_of_thread t c0 c1) by (apply (st_begin t c0 p rt); [reflexivity|reflexivity|exact CT]).
  destruct (arrives_reaches _ _ _ _ _ _ LT c1 t) as (c2 & R2 & A2 & B2 & C2 & D2 & _);
    [unfold c1; cbn; now rewrite put_same|reflexivity|reflexivity|]. specialize (D2 eq_refl eq_refl).
  assert (U2 : thr c2 u = {| now := None; todo := q :: ru; answers := [] |}).
  { rewrite C2 by auto. unfold c1. cbn [thr]. rewrite put_other by auto. cbn. now rewrite CU. }
  set (c3 := {| mem := mem c2; gil := Some u; thr := put (thr c2) u {| now := Some q; todo := ru; answers := answers (thr c2 u) |} |}).
  assert (S3 : step_of_thread u c2 c3) by (apply (st_begin u c2 q ru); [exact D2|now rewrite U2|now rewrite U2]).
  exists c3. split; [|split; [|split; [|split]]].
  - eapply reaches_trans; [eapply reaches_one, S1|]. eapply reaches_trans; [exact R2|]. eapply reaches_one, S3.
  - cbn. rewrite put_other by auto. exact A2.
  - exact B2.
  - cbn. now rewrite put_same.
  - reflexivity.
Qed.
Definition accesses (p : prog) (l : loc) (w : bool) : Prop :=
  match p with PRd x _ => x = l /\ w = false | PWr x _ _ => x = l /\ w = true | _ => False end.
Lemma accesses_next x p l w : now x = Some p -> accesses p l w -> next x = Some (l, w).
Proof. unfold next. intros ->. destruct p; cbn; try tauto; intros [-> ->]; reflexivity. Qed.
Lemma lmeet M calls t u p q rt ru M1 p1 M2 q2 h2 l w w' : t <> u -> calls t = p :: rt -> calls u = q :: ru ->
  arrives true M p M1 p1 false -> accesses p1 l w -> arrives true M1 q M2 q2 h2 -> accesses q2 l w' ->
  w = true \/ w' = true -> ~ race_free (begin M calls).
Proof.
  intros TU CT CU LT AT LU AU W RF. destruct (interrupt M calls t u p q rt ru M1 p1 TU CT CU LT) as (c3 & R & NT & EM & NU & G).
  destruct (arrives_reaches _ _ _ _ _ _ LU c3 u NU EM (fun _ => G)) as (c4 & R4 & A4 & B4 & C4 & _).
  apply (RF c4); [eapply reaches_trans; eauto|]. exists t, u, l, w, w'. split; [exact TU|]. split; [|split; [|exact W]].
  - rewrite C4 by auto. eapply accesses_next; eauto.
  - eapply accesses_next; eauto.
Qed.

(** ** Where reverse comes along *)
Definition at_ps (ps : list Z) (i : nat) : Z := nth i (ps ++ [0]) 0.
Lemma at_ps_hd ps i : at_ps ps i = hd 0 (skipn i ps).
Proof.
  unfold at_ps. rewrite hd_skipn. destruct (Nat.ltb_spec i (length ps)); [now apply app_nth1|].
  rewrite app_nth2 by lia. destruct (i - length ps)%nat as [|[|n]]; reflexivity.
Qed.
Lemma at_ps_nth ps i : (i < length ps)%nat -> at_ps ps i = nth i ps 0.
Proof. intros L. unfold at_ps. now apply app_nth1. Qed.
Definition rest : prog := PAcq (PRet (Ret VNone)).

Section Rounds.
Context (M : memory) (ps s : list Z).
Context (H : nodes M ps s).
Lemma mid_split n i j : (i < j)%nat -> (j < n)%nat -> n = length ps ->
  ps = firstn i ps ++ (nth i ps 0 :: firstn (j - i - 1) (skipn (S i) ps) ++ [nth j ps 0]) ++ skipn (S j) ps.
Proof.
  intros A B ->. rewrite (split_at ps i) at 1 by lia. f_equal. cbn [app]. f_equal.
  rewrite <- (firstn_skipn (j - i - 1) (skipn (S i) ps)) at 1. rewrite <- app_assoc. f_equal.
  assert (SK : forall (l : list Z) x y, skipn x (skipn y l) = skipn (x + y) l).
  { induction l as [|z l IH]; intros x y; [now rewrite !skipn_nil|]. destruct y as [|y]; [now rewrite Nat.add_0_r|].
    rewrite Nat.add_succ_r. cbn [skipn]. apply IH. }
  rewrite SK. replace (j - i - 1 + S i)%nat with j by lia.
  pose proof (split_at ps j B) as E. pose proof (firstn_skipn j ps) as F. rewrite E in F at 3. apply app_inv_head in F. exact F.
Qed.
Lemma at_round : forall r, (2 * r <= length s)%nat -> exists M1 s1, nodes M1 ps s1 /\
  arrives true M (lprog LReverse) M1 (rev_loop (length s - r) (at_ps ps r) (at_ps ps (length s - r)) rest) false.
Proof.
  pose proof (nodes_length M ps s H) as NL. induction r as [|r IH]; intros L.
  - exists M, s. split; [exact H|]. cbn [lprog]. apply ar_rd, ar_rel, ar_rd. rewrite (head_is M ps s H). unfold zlen. rewrite Nat2Z.id, Nat.sub_0_r.
    rewrite (first_is M ps s H). replace (at_ps ps (length s)) with 0 by (rewrite at_ps_hd, hd_skipn; now rewrite NL, Nat.ltb_irrefl).
    replace (at_ps ps 0) with (nth 0 ps 0) by (unfold at_ps; destruct ps; reflexivity). apply ar_refl.
  - destruct IH as (M1 & s1 & H1 & A); [lia|].
    assert (S1 := mid_split (length s) r (length s - S r) ltac:(lia) ltac:(lia) (eq_sym NL)).
    set (x := nth r ps 0) in *. set (y := nth (length s - S r) ps 0) in *.
    set (a := firstn r ps) in *. set (m := firstn (length s - S r - r - 1) (skipn (S r) ps)) in *. set (c := skipn (S (length s - S r)) ps) in *.
    assert (H2 : nodes M1 (a ++ (x :: m ++ [y]) ++ c) s1) by (rewrite <- S1; exact H1).
    exists (swapped M1 x y), (map (fun p => swapped M1 x y (vl p)) ps). split.
    + pose proof (swapped_nodes M1 a m c s1 x y H2) as NS. replace ((a ++ [x]) ++ m ++ y :: c) with ps in NS; [exact NS|].
      rewrite S1 at 1. rewrite <- !app_assoc. cbn. now rewrite <- !app_assoc.
    + eapply arrives_trans; [exact A|]. pose proof (goes_swap M1 a m c s1 x y H2 (length s - S r) rest) as (_ & _ & G). specialize (G false).
      replace (length s - r)%nat with (S (length s - S r)) at 1 by lia.
      replace (at_ps ps r) with x by (symmetry; apply at_ps_nth; lia).
      replace (at_ps ps (length s - r)) with (hd 0 c) by (rewrite at_ps_hd; unfold c; do 2 f_equal; lia).
      replace (at_ps ps (length s - S r)) with y by (symmetry; apply at_ps_nth; lia).
      replace (at_ps ps (S r)) with (hd 0 (m ++ [y] ++ c)); [exact G|].
      rewrite at_ps_hd. rewrite S1 at 1. f_equal.
      replace (a ++ (x :: m ++ [y]) ++ c) with ((a ++ [x]) ++ (m ++ [y] ++ c)) by (rewrite <- !app_assoc; cbn; now rewrite <- !app_assoc).
      rewrite skipn_app. rewrite skipn_all2 by (unfold a; rewrite app_length, firstn_length; cbn; lia).
      replace (S r - length (a ++ [x]))%nat with 0%nat by (unfold a; rewrite app_length, firstn_length; cbn [length]; lia). reflexivity.
Qed.

(** The link into the next gap from behind, or the first link. *)
Lemma nodes_distinct i j M1 s1 : nodes M1 ps s1 -> (i < j)%nat -> (i < length s1)%nat -> (j <= length s1)%nat -> at_ps ps i <> at_ps ps j.
Proof.
  intros H1 A B C. pose proof (nodes_length M1 ps s1 H1) as NL. destruct H1 as (_ & D & AL & _).
  rewrite at_ps_nth by lia. rewrite at_ps_hd, hd_skipn. destruct (Nat.ltb_spec j (length ps)).
  - intros E. apply (proj1 (NoDup_nth ps 0) D) in E; lia.
  - intros E. assert (I : In (nth i ps 0) ps) by (apply nth_In; lia). apply AL in I. lia.
Qed.
Lemma same_size M1 s1 : nodes M1 ps s1 -> length s1 = length s.
Proof. intros H1. rewrite <- (nodes_length M1 ps s1 H1). apply (nodes_length M ps s H). Qed.
Lemma reads_pv r : (2 * r < length s)%nat -> exists M1 s1, nodes M1 ps s1 /\
  arrives true M (lprog LReverse) M1 (PRd (pv (at_ps ps (length s - r))) (fun l =>
    if at_ps ps r =? l then rest else PRd (vl (at_ps ps r)) (fun x => PRd (vl l) (fun y => PWr (vl (at_ps ps r)) y (PWr (vl l) x (
      PRd (nx (at_ps ps r)) (fun f => rev_loop (length s - S r) f l rest))))))) false.
Proof.
  intros L. destruct (at_round r) as (M1 & s1 & H1 & A); [lia|]. exists M1, s1. split; [exact H1|].
  eapply arrives_trans; [exact A|]. replace (length s - r)%nat with (S (length s - S r)) at 1 by lia. cbn [rev_loop].
  pose proof (same_size M1 s1 H1).
  destruct (Z.eqb_spec (at_ps ps r) (at_ps ps (length s - r))) as [E|_]; [exfalso; revert E; apply (nodes_distinct _ _ M1 s1); auto; lia|]. apply ar_refl.
Qed.
Lemma reads_vl r : (2 * r + 2 <= length s)%nat -> exists M1 s1, nodes M1 ps s1 /\
  let f := at_ps ps r in let l := at_ps ps (length s - S r) in
  arrives true M (lprog LReverse) M1 (PRd (vl f) (fun x => PRd (vl l) (fun y => PWr (vl f) y (PWr (vl l) x (
      PRd (nx f) (fun f => rev_loop (length s - S r) f l rest)))))) false.
Proof.
  intros L. destruct (reads_pv r) as (M1 & s1 & H1 & A); [lia|]. exists M1, s1. split; [exact H1|].
  eapply arrives_trans; [exact A|]. apply ar_rd.
  pose proof (same_size M1 s1 H1) as SS.
  assert (PV : M1 (pv (at_ps ps (length s - r))) = at_ps ps (length s - S r)).
  { destruct (joined_nth M1 (0 :: ps ++ [0]) (length s - r) (at_ps ps (length s - S r)) (at_ps ps (length s - r))) as [_ X].
    - apply H1.
    - replace (length s - r)%nat with (S (length s - S r)) at 1 by lia. cbn [nth_error]. apply nth_error_nth'. rewrite app_length, (nodes_length M1 ps s1 H1). lia.
    - cbn [nth_error]. apply nth_error_nth'. rewrite app_length, (nodes_length M1 ps s1 H1). cbn. lia.
    - exact X. }
  rewrite PV. destruct (Z.eqb_spec (at_ps ps r) (at_ps ps (length s - S r))) as [E|_]; [exfalso; revert E; apply (nodes_distinct _ _ M1 s1); auto; lia|].
  apply ar_refl.
Qed.
(** Both values of a pair are written. *)
Lemma writes_vl n : (n < length s)%nat -> (2 * n + 1 <> length s)%nat -> exists M1 s1 p1, nodes M1 ps s1 /\
  arrives true M (lprog LReverse) M1 p1 false /\ accesses p1 (vl (nth n ps 0)) true.
Proof.
  intros L NM. pose proof (nodes_length M ps s H) as NL. destruct (Nat.le_gt_cases (2 * n + 2) (length s)) as [C|C].
  - destruct (reads_vl n C) as (M1 & s1 & H1 & A). cbv zeta in A. exists M1, s1. eexists. split; [exact H1|]. split.
    + eapply arrives_trans; [exact A|]. apply ar_rd, ar_rd, ar_refl.
    + cbn. rewrite at_ps_nth by lia. auto.
  - destruct (reads_vl (length s - 1 - n)) as (M1 & s1 & H1 & A); [lia|]. cbv zeta in A.
    replace (length s - S (length s - 1 - n))%nat with n in A by lia.
    set (f := at_ps ps (length s - 1 - n)) in *. set (l := at_ps ps n) in *.
    exists (store M1 (vl f) (M1 (vl l))), (map (fun p => store M1 (vl f) (M1 (vl l)) (vl p)) ps). eexists. split; [|split].
    + apply (nodes_values M1 _ ps s1 H1). intros x X. apply store_other. apply X. unfold f. rewrite at_ps_nth by lia. apply nth_In. lia.
    + eapply arrives_trans; [exact A|]. apply ar_rd, ar_rd, ar_wr, ar_refl.
    + cbn. unfold l. rewrite at_ps_nth by lia. auto.
Qed.
(** One of the two links across each gap is read. *)
Lemma reads_gap j : (j <= length s)%nat -> exists M1 s1 p1, nodes M1 ps s1 /\ arrives true M (lprog LReverse) M1 p1 false /\
  accesses p1 (if (2 * j <=? length s)%nat then nx (last (firstn j ps) 0) else pv (hd 0 (skipn j ps))) false.
Proof.
  intros L. pose proof (nodes_length M ps s H) as NL. destruct (Nat.leb_spec (2 * j) (length s)) as [C|C].
  - destruct j as [|r].
    + exists M, s. eexists. split; [exact H|]. split; [cbn [lprog]; apply ar_rd, ar_rel, ar_refl|]. cbn. auto.
    + destruct (reads_vl r) as (M1 & s1 & H1 & A); [lia|]. cbv zeta in A.
      set (f := at_ps ps r) in *. set (l := at_ps ps (length s - S r)) in *.
      set (N := store (store M1 (vl f) (M1 (vl l))) (vl l) (M1 (vl f))).
      exists N, (map (fun p => N (vl p)) ps). eexists. split; [|split].
      * apply (nodes_values M1 _ ps s1 H1). intros x X. unfold N. rewrite !store_other; [reflexivity| |]; apply X; unfold f, l; rewrite at_ps_nth by lia; apply nth_In; lia.
      * eapply arrives_trans; [exact A|]. apply ar_rd, ar_rd, ar_wr, ar_wr, ar_refl.
      * cbn [accesses]. split; [|reflexivity]. f_equal. unfold f. rewrite at_ps_nth by lia.
        assert (X : firstn (S r) ps = firstn r ps ++ [nth r ps 0]).
        { rewrite (split_at ps r) at 1 by lia. rewrite firstn_app, firstn_length. replace (S r - Nat.min r (length ps))%nat with 1%nat by lia.
          rewrite firstn_all2 by (rewrite firstn_length; lia). reflexivity. }
        rewrite X. now rewrite last_last.
  - destruct (reads_pv (length s - j)) as (M1 & s1 & H1 & A); [lia|]. replace (length s - (length s - j))%nat with j in A by lia.
    exists M1, s1. eexists. split; [exact H1|]. split; [exact A|]. cbn [accesses]. rewrite at_ps_hd. auto.
Qed.
End Rounds.

(** ** Where the other calls come along *)
Lemma position_len s s' i : length s = length s' -> position s i = position s' i.
Proof. intros E. unfold position, zlen. now rewrite E. Qed.
Lemma meets_arrives M ps s n o : nodes M ps s -> meets s n o -> exists M2 q w,
  arrives true M (lprog o) M2 q true /\ accesses q (vl (nth n ps 0)) w.
Proof.
  intros H X. pose proof (nodes_length M ps s H) as NL. pose proof (head_is M ps s H) as HD.
  destruct o as [|i|i v|i|v|i v| |v| | |]; cbn [meets] in X; try contradiction.
  - assert (L := position_lt s i n X). exists M. do 2 eexists. split.
    + cbn [lprog]. apply ar_rd. rewrite HD, index_position, X. apply (goes_at M ps s H).
    + destruct (Nat.ltb_spec n (length s)); [|lia]. cbn. auto.
  - assert (L := position_lt s i n X). exists M. do 2 eexists. split.
    + cbn [lprog]. apply ar_rd. rewrite HD, index_position, X. apply (goes_at M ps s H).
    + destruct (Nat.ltb_spec n (length s)); [|lia]. cbn. auto.
  - destruct X as [-> X]. exists M. do 2 eexists. split.
    + cbn [lprog]. apply ar_rd, ar_rd. rewrite HD, (first_is M ps s H). unfold zlen. rewrite Nat2Z.id. apply ar_refl.
    + destruct s as [|z r]; [contradiction|]. cbn. auto.
  - assert (G : forall m i k, (i + m = length s)%nat -> (i <= n < i + m)%nat ->
      exists q, arrives true M (values m (nth i (ps ++ [0]) 0) k) M q true /\ accesses q (vl (nth n ps 0)) false).
    { induction m as [|m IH]; intros i k E I; [lia|]. cbn [values]. rewrite app_nth1 by lia. destruct (Nat.eq_dec n i) as [->|N].
      - eexists. split; [apply ar_refl|]. cbn. auto.
      - destruct (node_at M ps s H i) as [A _]; [lia|].
        assert (B : nth_error (0 :: ps ++ [0]) (S (S i)) = Some (nth (S i) (ps ++ [0]) 0)).
        { change (nth_error (0 :: ps ++ [0]) (S (S i))) with (nth_error (ps ++ [0]) (S i)). apply nth_error_nth'. rewrite app_length. cbn. lia. }
        destruct (joined_nth M _ _ _ _ (proj1 H) A B) as [E2 _].
        destruct (IH (S i) (fun vs => k (M (vl (nth i ps 0)) :: vs))) as (q & Q & QA); [lia|lia|].
        exists q. split; [|exact QA]. apply ar_rd, ar_rd. rewrite E2. exact Q. }
    destruct (G (length s) 0%nat (fun vs => PRet (Ret (VNewList vs)))) as (q & Q & QA); [lia|lia|].
    exists M, q, false. split; [|exact QA]. cbn [lprog]. apply ar_rd, ar_rd. rewrite HD. unfold zlen. rewrite Nat2Z.id.
    replace (M (nx 0)) with (nth 0 (ps ++ [0]) 0) by (rewrite (first_is M ps s H); destruct ps; reflexivity). exact Q.
Qed.
Lemma insert_links M a b s v k : nodes M (a ++ b) s -> forall l, l = nx (last a 0) \/ l = pv (hd 0 b) ->
  exists M2 q, arrives true M (insert_node (hd 0 b) v k) M2 q true /\ accesses q l true.
Proof.
  intros H l D. assert (PQ : M (pv (hd 0 b)) = last a 0) by (apply joined_between; apply H).
  unfold insert_node. destruct D as [-> | ->].
  - do 2 eexists. split; [apply ar_rd, ar_wr, ar_wr, ar_wr, ar_wr, ar_rd, ar_wr; mem; rewrite PQ; apply ar_refl|]. cbn. auto.
  - do 2 eexists. split; [apply ar_rd, ar_wr, ar_wr, ar_wr, ar_wr, ar_rd, ar_wr, ar_wr, ar_refl|]. cbn. auto.
Qed.
Lemma erase_links M a b p s k : nodes M (a ++ p :: b) s -> forall l, l = nx (last a 0) \/ l = pv (hd 0 b) ->
  exists M2 q, arrives true M (erase_node p k) M2 q true /\ accesses q l true.
Proof.
  intros H l D. destruct (around M a b s p H) as (_ & Q & P & _).
  unfold erase_node. destruct D as [-> | ->].
  - do 2 eexists. split; [apply ar_rd, ar_wr, ar_rd, ar_rd; rewrite !store_other by cells; rewrite P, Q; apply ar_refl|]. cbn. auto.
  - do 2 eexists. split; [apply ar_rd, ar_wr, ar_rd, ar_rd; rewrite !store_other by cells; rewrite P, Q; apply ar_wr, ar_refl|]. cbn. auto.
Qed.
(** The gap a call writes to: both links, or for a removal the front link of
    one gap and the back link of the next. *)
Lemma relinks_arrives ps s o : relinks s o -> exists j, (j <= length s)%nat /\ forall M1 s1, nodes M1 ps s1 -> length s1 = length s ->
  exists M2 q, arrives true M1 (lprog o) M2 q true /\
    accesses q (if (2 * j <=? length s)%nat then nx (last (firstn j ps) 0) else pv (hd 0 (skipn j ps))) true.
Proof.
  intros X.
  assert (DEL : forall n k, (n < length s)%nat -> exists j, (j <= length s)%nat /\ forall M1 s1, nodes M1 ps s1 -> length s1 = length s ->
    exists M2 q, arrives true M1 (erase_node (nth n ps 0) k) M2 q true /\
    accesses q (if (2 * j <=? length s)%nat then nx (last (firstn j ps) 0) else pv (hd 0 (skipn j ps))) true).
  { intros n k L. destruct (Nat.leb_spec (2 * n) (length s)) as [C|C].
    - exists n. split; [lia|]. intros M1 s1 H1 E. destruct (Nat.leb_spec (2 * n) (length s)); [|lia].
      eapply (erase_links M1 (firstn n ps) (skipn (S n) ps) (nth n ps 0) s1); [apply split_nodes; [exact H1|lia]|]. now left.
    - exists (S n). split; [lia|]. intros M1 s1 H1 E. destruct (Nat.leb_spec (2 * S n) (length s)); [lia|].
      eapply (erase_links M1 (firstn n ps) (skipn (S n) ps) (nth n ps 0) s1); [apply split_nodes; [exact H1|lia]|]. now right. }
  assert (INS : forall n v k M1 s1, nodes M1 ps s1 -> length s1 = length s -> (n <= length s)%nat ->
    exists M2 q, arrives true M1 (insert_node (hd 0 (skipn n ps)) v k) M2 q true /\
    accesses q (if (2 * n <=? length s)%nat then nx (last (firstn n ps) 0) else pv (hd 0 (skipn n ps))) true).
  { intros n v k M1 s1 H1 E L. eapply (insert_links M1 (firstn n ps) (skipn n ps) s1); [apply cut_nodes; exact H1|].
    destruct (2 * n <=? length s)%nat; [now left|now right]. }
  destruct o as [|i|i v|i|v|i v| |v| | |]; cbn [relinks] in X; try contradiction.
  - destruct (position s i) as [n|] eqn:P; [|congruence]. assert (L := position_lt s i n P).
    destruct (DEL n (PRet (Ret VNone)) L) as (j & J & F). exists j. split; [exact J|]. intros M1 s1 H1 E.
    destruct (F M1 s1 H1 E) as (M2 & q & Q & QA). exists M2, q. split; [|exact QA]. cbn [lprog]. apply ar_rd.
    rewrite (head_is M1 ps s1 H1), index_position, (position_len s1 s i E), P.
    eapply arrives_trans; [apply (goes_at M1 ps s1 H1)|]. destruct (Nat.ltb_spec n (length s1)); [|lia]. exact Q.
  - exists (length s). split; [lia|]. intros M1 s1 H1 E. pose proof (nodes_length M1 ps s1 H1) as NL.
    destruct (INS (length s) v (PRet (Ret VNone)) M1 s1 H1 E ltac:(lia)) as (M2 & q & Q & QA). exists M2, q. split; [|exact QA].
    cbn [lprog]. replace (hd 0 (skipn (length s) ps)) with 0 in Q by (rewrite skipn_all2 by lia; reflexivity). exact Q.
  - destruct (insert_place s i) as (n & E & L & _). exists n. split; [exact L|]. intros M1 s1 H1 E1. pose proof (nodes_length M1 ps s1 H1) as NL.
    destruct (INS n v (PRet (Ret VNone)) M1 s1 H1 E1 L) as (M2 & q & Q & QA). exists M2, q. split; [|exact QA].
    cbn [lprog]. apply ar_rd. rewrite (head_is M1 ps s1 H1). unfold zlen in *. rewrite E1, E.
    eapply arrives_trans; [apply (goes_at M1 ps s1 H1)|]. rewrite <- NL, <- hd_skipn. exact Q.
  - assert (L : (length s - 1 < length s)%nat) by (destruct s; [contradiction|cbn; lia]).
    exists (length s). split; [lia|]. intros M1 s1 H1 E. pose proof (nodes_length M1 ps s1 H1) as NL.
    assert (NN : ps <> []) by (intros ->; cbn in NL; lia).
    assert (H' : nodes M1 (removelast ps ++ [last ps 0]) s1) by (rewrite <- app_removelast_last; auto).
    destruct (erase_links M1 (removelast ps) [] (last ps 0) s1 (PRet (Ret (VInt (M1 (vl (last ps 0)))))) H' (pv 0)) as (M2 & q & Q & QA); [now right|].
    exists M2, q. split.
    + cbn [lprog]. apply ar_rd. rewrite (first_is M1 ps s1 H1).
      assert (F0 : nth 0 ps 0 <> 0) by (destruct ps as [|p r]; [contradiction|]; cbn; assert (I : In p (p :: r)) by (now left); apply H1 in I; lia).
      destruct (Z.eqb_spec (nth 0 ps 0) 0); [contradiction|]. apply ar_rd, ar_rd. rewrite (last_node M1 ps s1 H1). exact Q.
    + destruct (Nat.leb_spec (2 * length s) (length s)); [lia|]. rewrite skipn_all2 by lia. exact QA.
  - exists 0%nat. split; [lia|]. intros M1 s1 H1 E. pose proof (nodes_length M1 ps s1 H1) as NL.
    destruct (goes_free (PWr (nx 0) 0 (PWr (pv 0) 0 (PWr Head 0 (PRet (Ret VNone))))) ps M1) as (N & (_ & _ & G) & _);
      [destruct H1 as (J & _); cbn [app] in J; now apply joined_tl in J|apply H1|intros x Y; now apply H1|].
    exists N. eexists. split.
    + cbn [lprog]. apply ar_rd, ar_rd. rewrite (head_is M1 ps s1 H1). unfold zlen. rewrite Nat2Z.id, <- NL.
      replace (M1 (nx 0)) with (hd 0 ps) by (rewrite (first_is M1 ps s1 H1); destruct ps; reflexivity). apply G.
    + cbn. auto.
Qed.

(** ** Races *)
Lemma lstart_calls (calls : nat -> list lop) t o r : calls t = o :: r -> map lprog (calls t) = lprog o :: map lprog r.
Proof. now intros ->. Qed.
Lemma value_race M s calls t u n o rt ru : in_nodes M s -> t <> u -> calls t = LReverse :: rt -> calls u = o :: ru ->
  meets s n o -> (2 * n + 1 <> length s)%nat -> ~ race_free (lstart M calls).
Proof.
  intros [ps H] TU CT CU X NM.
  assert (L : (n < length s)%nat).
  { destruct o; cbn in X; try contradiction; [eapply position_lt; eauto|eapply position_lt; eauto|destruct X as [-> X]; destruct s; [contradiction|cbn; lia]|exact X]. }
  destruct (writes_vl M ps s H n L NM) as (M1 & s1 & p1 & H1 & A & PA).
  assert (E := same_size M ps s H M1 s1 H1).
  assert (X1 : meets s1 n o).
  { destruct o; cbn in X |- *; try contradiction; [rewrite (position_len s1 s); auto|rewrite (position_len s1 s); auto|destruct X as [-> X]; split; [reflexivity|]; intros ->; destruct s; [contradiction|discriminate]|lia]. }
  destruct (meets_arrives M1 ps s1 n o H1 X1) as (M2 & q & w & B & QA).
  eapply (lmeet M (fun t => map lprog (calls t)) t u (lprog LReverse) (lprog o)); [exact TU|apply lstart_calls; exact CT|apply lstart_calls; exact CU|exact A|exact PA|exact B|exact QA|now left].
Qed.
Lemma node_race M s calls t u o rt ru : in_nodes M s -> t <> u -> calls t = LReverse :: rt -> calls u = o :: ru ->
  relinks s o -> ~ race_free (lstart M calls).
Proof.
  intros [ps H] TU CT CU X. destruct (relinks_arrives ps s o X) as (j & J & F).
  destruct (reads_gap M ps s H j J) as (M1 & s1 & p1 & H1 & A & PA).
  destruct (F M1 s1 H1 (same_size M ps s H M1 s1 H1)) as (M2 & q & B & QA).
  eapply (lmeet M (fun t => map lprog (calls t)) t u (lprog LReverse) (lprog o)); [exact TU|apply lstart_calls; exact CT|apply lstart_calls; exact CU|exact A|exact PA|exact B|exact QA|now right].
Qed.

(** ** Freed nodes *)
Lemma frees_arrives ps s o : frees s o -> exists n, (n < length s)%nat /\ forall M1 s1, nodes M1 ps s1 -> length s1 = length s ->
  snd (exec (lprog o) M1) (lv (nth n ps 0)) = 0 /\
  ((2 * n + 1 = length s)%nat -> snd (exec (lprog o) M1) (pv (at_ps ps (S n))) <> nth n ps 0).
Proof.
  intros X.
  assert (UH : forall n M1 s1, nodes M1 ps s1 -> length s1 = length s -> (n < length s)%nat ->
    unhooked M1 (firstn n ps) (skipn (S n) ps) (nth n ps 0) (lv (nth n ps 0)) = 0 /\
    unhooked M1 (firstn n ps) (skipn (S n) ps) (nth n ps 0) (pv (at_ps ps (S n))) <> nth n ps 0).
  { intros n M1 s1 H1 E L. unfold unhooked. rewrite at_ps_hd. split; [mem; now rewrite Z.eqb_refl|]. mem. rewrite Z.eqb_refl.
    assert (L' : (n < length s1)%nat) by lia. pose proof (split_nodes M1 ps s1 H1 n L') as H2.
    destruct (around_in M1 _ _ s1 _ H2) as (Q & _ & P0). intros EQ. destruct Q as [Q|Q]; [lia|].
    assert (I : In (last (firstn n ps) 0) (firstn n ps ++ skipn (S n) ps)) by (apply in_or_app; now left).
    apply (in_ab M1 _ _ s1 _ H2) in I. lia. }
  destruct o as [|i|i v|i|v|i v| |v| | |]; cbn [frees] in X; try contradiction.
  - destruct (position s i) as [n|] eqn:P; [|congruence]. assert (L := position_lt s i n P). exists n. split; [exact L|].
    intros M1 s1 H1 E. assert (L' : (n < length s1)%nat) by lia.
    assert (EX : snd (exec (lprog (LDel i)) M1) = unhooked M1 (firstn n ps) (skipn (S n) ps) (nth n ps 0)).
    { assert (G : goes (lprog (LDel i)) M1 (PRet (Ret VNone)) (unhooked M1 (firstn n ps) (skipn (S n) ps) (nth n ps 0))).
      { cbn [lprog]. eapply goes_trans; [apply goes_rd, alloc_head|]. cbv beta.
        rewrite (head_is M1 ps s1 H1), index_position, (position_len s1 s i E), P.
        eapply goes_trans; [apply (goes_at M1 ps s1 H1)|]. destruct (Nat.ltb_spec n (length s1)); [|lia].
        apply (goes_erase M1 _ _ _ _ (split_nodes M1 ps s1 H1 n L')). }
      destruct G as (G & _). rewrite G. reflexivity. }
    rewrite EX. destruct (UH n M1 s1 H1 E L). auto.
  - assert (L : (length s - 1 < length s)%nat) by (destruct s; [contradiction|cbn; lia]). exists (length s - 1)%nat. split; [exact L|].
    intros M1 s1 H1 E. pose proof (nodes_length M1 ps s1 H1) as NL. assert (L' : (length s - 1 < length s1)%nat) by lia.
    set (n := (length s - 1)%nat) in *. pose proof (split_nodes M1 ps s1 H1 n L') as H2.
    assert (SN : skipn (S n) ps = []) by (apply skipn_all2; lia).
    assert (LN : last ps 0 = nth n ps 0).
    { rewrite (split_at ps n) at 1 by lia. rewrite SN. now rewrite last_last. }
    assert (EX : snd (exec (lprog LPop) M1) = unhooked M1 (firstn n ps) (skipn (S n) ps) (nth n ps 0)).
    { assert (G : goes (lprog LPop) M1 (PRet (Ret (VInt (M1 (vl (nth n ps 0)))))) (unhooked M1 (firstn n ps) (skipn (S n) ps) (nth n ps 0))).
      { cbn [lprog]. eapply goes_trans; [apply goes_rd, alloc_nx; now left|]. cbv beta. rewrite (first_is M1 ps s1 H1).
        assert (F0 : nth 0 ps 0 <> 0) by (assert (I : In (nth 0 ps 0) ps) by (apply nth_In; lia); apply H1 in I; lia).
        destruct (Z.eqb_spec (nth 0 ps 0) 0); [contradiction|].
        eapply goes_trans; [apply goes_rd, alloc_pv; now left|]. cbv beta. rewrite (last_node M1 ps s1 H1), LN.
        eapply goes_trans; [apply goes_rd, alloc_vl; apply H1, nth_In; lia|]. cbv beta.
        apply (goes_erase M1 _ _ _ _ H2). }
      destruct G as (G & _). rewrite G. reflexivity. }
    rewrite EX. destruct (UH n M1 s1 H1 E L). auto.
  - assert (L : (0 < length s)%nat) by (destruct s; [contradiction|cbn; lia]). exists 0%nat. split; [exact L|].
    intros M1 s1 H1 E. pose proof (nodes_length M1 ps s1 H1) as NL.
    destruct (goes_free (PWr (nx 0) 0 (PWr (pv 0) 0 (PWr Head 0 (PRet (Ret VNone))))) ps M1) as (N & G & _ & Z);
      [destruct H1 as (J & _); cbn [app] in J; now apply joined_tl in J|apply H1|intros x Y; now apply H1|].
    assert (EX : snd (exec (lprog LClear) M1) = store (store (store N (nx 0) 0) (pv 0) 0) Head 0).
    { cbn [lprog exec]. rewrite (head_is M1 ps s1 H1). unfold zlen. rewrite Nat2Z.id, <- NL.
      replace (M1 (nx 0)) with (hd 0 ps) by (rewrite (first_is M1 ps s1 H1); destruct ps; reflexivity).
      destruct G as (G & _). rewrite G. reflexivity. }
    assert (I : In (nth 0 ps 0) ps) by (apply nth_In; lia).
    rewrite EX. split; [mem; now apply Z|]. intros L1. replace (at_ps ps 1) with 0 by (rewrite at_ps_hd, skipn_all2 by lia; reflexivity).
    mem. rewrite Z.eqb_refl. apply H1 in I. lia.
Qed.
Lemma freed_used M s calls t u o rt ru : in_nodes M s -> t <> u -> calls t = LReverse :: rt -> calls u = o :: ru ->
  frees s o -> exists c, reaches (lstart M calls) c /\ uses_freed c.
Proof.
  intros [ps H] TU CT CU X. destruct (frees_arrives ps s o X) as (n & L & F). pose proof (nodes_length M ps s H) as NL.
  assert (MID : (2 * n + 1 = length s)%nat \/ (2 * n + 1 <> length s)%nat) by lia. destruct MID as [MID|MID].
  - destruct (reads_pv M ps s H n) as (M1 & s1 & H1 & A); [lia|].
    destruct (F M1 s1 H1 (same_size M ps s H M1 s1 H1)) as [FL FP]. specialize (FP MID).
    replace (length s - n)%nat with (S n) in A by lia.
    destruct (interrupt M (fun t => map lprog (calls t)) t u (lprog LReverse) (lprog o) (map lprog rt) (map lprog ru) M1 _ TU (lstart_calls _ _ _ _ CT) (lstart_calls _ _ _ _ CU) A)
      as (c1 & R1 & NT & EM & NU & G).
    destruct (drain u (lprog o) true c1 NU (lcloses o) (fun _ => G)) as (c2 & R2 & M2 & T2 & _).
    rewrite <- (T2 t TU) in NT. rewrite EM in M2.
    pose proof (st_rd t c2 _ _ NT) as ST. eexists. split.
    + eapply reaches_trans; [exact R1|]. eapply reaches_trans; [exact R2|]. eapply reaches_one, ST.
    + exists t, (nth n ps 0), false. split.
      * unfold next. cbn [thr]. unfold at_. rewrite put_same. cbn [now]. rewrite M2. rewrite at_ps_nth by lia.
        destruct (Z.eqb_spec (nth n ps 0) (snd (exec (lprog o) M1) (pv (at_ps ps (S n))))); [congruence|]. reflexivity.
      * cbn [mem]. rewrite M2. exact FL.
  - destruct (writes_vl M ps s H n L MID) as (M1 & s1 & p1 & H1 & A & PA).
    destruct (F M1 s1 H1 (same_size M ps s H M1 s1 H1)) as [FL _].
    destruct (interrupt M (fun t => map lprog (calls t)) t u (lprog LReverse) (lprog o) (map lprog rt) (map lprog ru) M1 _ TU (lstart_calls _ _ _ _ CT) (lstart_calls _ _ _ _ CU) A)
      as (c1 & R1 & NT & EM & NU & G).
    destruct (drain u (lprog o) true c1 NU (lcloses o) (fun _ => G)) as (c2 & R2 & M2 & T2 & _).
    rewrite <- (T2 t TU) in NT. rewrite EM in M2. exists c2. split; [eapply reaches_trans; [exact R1|exact R2]|].
    exists t, (nth n ps 0), true. split; [eapply accesses_next; eauto|]. rewrite M2. exact FL.
Qed.
