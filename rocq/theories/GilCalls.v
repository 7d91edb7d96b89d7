(** Proofs for C73: the programs of the calls. *)
From Coq Require Import ZArith List Bool Lia Arith.
From Verif Require Import Base PyListSpec PyLongProofs ListLemmas ArrayListModel ArrayListProofs ArrayListMoreModel
  ArrayListMoreProofs ArrayListMulProofs ReentrantProofs SimdSortModel SimdSortSpec SimdSortProofs GilModel GilSpec GilProofs.
Import ListNotations.
Local Open Scope Z_scope.
Local Arguments Z.add : simpl never.
Local Arguments Z.sub : simpl never.
Local Arguments Z.mul : simpl never.
Local Arguments Z.of_nat : simpl never.
Local Arguments Z.to_nat : simpl never.
Local Arguments Z.div : simpl never.
Local Arguments sort_nokey : simpl never.
Local Arguments step : simpl never.
Local Arguments mul : simpl never.
Local Arguments imul : simpl never.
Local Arguments imul_tail : simpl never.
Local Arguments as_elem : simpl never.
Local Arguments place : simpl never.

(** ** Reading and writing the elements *)
Fixpoint cells (M : memory) (i : Z) (n : nat) : list Z :=
  match n with O => [] | S m => M (Cell i) :: cells M (i + 1) m end.

Lemma exec_rd_cells n : forall i k M, exec (rd_cells n i k) M = exec (k (cells M i n)) M.
Proof.
  induction n as [|n IH]; intros i k M; cbn [rd_cells cells]; [reflexivity|].
  cbn [exec]. rewrite IH. reflexivity.
Qed.

Lemma cells_nth M n : forall i j, (j < n)%nat -> nth_error (cells M i n) j = Some (M (Cell (i + Z.of_nat j))).
Proof.
  induction n as [|n IH]; intros i j H; [lia|]. destruct j as [|j]; cbn [cells nth_error].
  - do 2 f_equal. f_equal. lia.
  - rewrite IH by lia. do 3 f_equal. lia.
Qed.
Lemma cells_length M n : forall i, length (cells M i n) = n.
Proof. induction n; intros i; cbn; [reflexivity|]. now rewrite IHn. Qed.

Lemma nth_ext_error {A} : forall (a b : list A), length a = length b ->
  (forall j x, nth_error b j = Some x -> nth_error a j = Some x) -> a = b.
Proof.
  induction a as [|x a IH]; intros [|y b] L H; cbn in L; try discriminate; [reflexivity|].
  pose proof (H 0%nat y eq_refl) as E. cbn in E. injection E as ->. f_equal.
  apply IH; [lia|]. intros j z E. exact (H (S j) z E).
Qed.

Lemma holds_cells M s : holds M s -> cells M 0 (length s) = s.
Proof.
  intros [_ H]. apply nth_ext_error; [apply cells_length|]. intros j x E.
  assert (j < length s)%nat by (apply nth_error_Some; congruence).
  rewrite cells_nth by auto. rewrite <- (H j x E). now replace (0 + Z.of_nat j) with (Z.of_nat j) by lia.
Qed.

Lemma holds_head M s : holds M s -> Z.to_nat (M Head) = length s.
Proof. intros [H _]. rewrite H. unfold zlen. lia. Qed.

Lemma exec_rd_all k M s : holds M s -> exec (rd_all k) M = exec (k s) M.
Proof.
  intros H. unfold rd_all. cbn [exec]. rewrite (holds_head M s H), exec_rd_cells. now rewrite (holds_cells M s H).
Qed.

Fixpoint stores (M : memory) (i : Z) (s : list Z) : memory :=
  match s with [] => M | v :: r => stores (store M (Cell i) v) (i + 1) r end.
Lemma exec_wr_cells s : forall i k M, exec (wr_cells s i k) M = exec k (stores M i s).
Proof. induction s as [|v r IH]; intros i k M; cbn; [reflexivity|]. apply IH. Qed.

Lemma stores_head s : forall M i, stores M i s Head = M Head.
Proof. induction s as [|v r IH]; intros M i; cbn; [reflexivity|]. now rewrite IH. Qed.
Lemma stores_before s : forall M i j, j < i -> stores M i s (Cell j) = M (Cell j).
Proof.
  induction s as [|v r IH]; intros M i j H; cbn; [reflexivity|]. rewrite IH by lia. apply store_other. intros E. injection E. lia.
Qed.
Lemma stores_at s : forall M i j v, nth_error s j = Some v -> stores M i s (Cell (i + Z.of_nat j)) = v.
Proof.
  induction s as [|x r IH]; intros M i [|j] v H; cbn [nth_error stores] in *; try discriminate.
  - injection H as ->. rewrite stores_before by lia. replace (i + Z.of_nat 0) with i by lia. apply store_same.
  - replace (i + Z.of_nat (S j)) with (i + 1 + Z.of_nat j) by lia. now apply IH.
Qed.

Lemma holds_stores M s : M Head = zlen s -> holds (stores M 0 s) s.
Proof.
  intros H. split; [now rewrite stores_head|]. intros i v E.
  pose proof (stores_at s M 0 i v E) as X. now replace (0 + Z.of_nat i) with (Z.of_nat i) in X by lia.
Qed.
Lemma holds_rewrite M s : holds (store (stores M 0 s) Head (zlen s)) s.
Proof.
  split; [apply store_same|]. intros i v E. rewrite store_other by discriminate.
  pose proof (stores_at s M 0 i v E) as X. now replace (0 + Z.of_nat i) with (Z.of_nat i) in X by lia.
Qed.

(** ** reverse *)
Ltac bools := repeat match goal with
  | |- context [Z.leb ?a ?b] => destruct (Z.leb_spec a b)
  | |- context [Z.ltb ?a ?b] => destruct (Z.ltb_spec a b)
  end; cbn [andb orb].
Lemma exec_swap_loop m : forall i n k M, 0 <= i -> 2 * (i + Z.of_nat m) <= n ->
  exists M', exec (swap_loop m i n k) M = exec k M' /\ M' Head = M Head /\
    forall j, M' (Cell j) = if (i <=? j) && (j <? i + Z.of_nat m) || (i <=? n - 1 - j) && (n - 1 - j <? i + Z.of_nat m)
                            then M (Cell (n - 1 - j)) else M (Cell j).
Proof.
  induction m as [|m IH]; intros i n k M H0 H1.
  - exists M. cbn [swap_loop]. do 2 (split; [reflexivity|]). intros j.
    destruct (Z.leb_spec i j), (Z.ltb_spec j (i + Z.of_nat 0)), (Z.leb_spec i (n - 1 - j)), (Z.ltb_spec (n - 1 - j) (i + Z.of_nat 0)); cbn; try reflexivity; lia.
  - cbn [swap_loop exec].
    set (M1 := store (store M (Cell i) (M (Cell (n - 1 - i)))) (Cell (n - 1 - i)) (M (Cell i))).
    destruct (IH (i + 1) n k M1) as (M' & E & EH & EC); [lia|lia|].
    exists M'. split; [exact E|]. split; [exact EH|]. intros j. rewrite EC. clear EC E EH IH.
    assert (C1 : M1 (Cell i) = M (Cell (n - 1 - i))).
    { unfold M1. rewrite store_other by (intros X; injection X; lia). apply store_same. }
    assert (C2 : M1 (Cell (n - 1 - i)) = M (Cell i)) by (unfold M1; apply store_same).
    assert (C3 : forall x, x <> i -> x <> n - 1 - i -> M1 (Cell x) = M (Cell x)).
    { intros x A B. unfold M1. rewrite !store_other; [reflexivity| |]; intros X; injection X; lia. }
    assert (SM : Z.of_nat (S m) = Z.of_nat m + 1) by lia. rewrite SM.
    destruct (Z.eq_dec j i) as [->|N1].
    + bools; try lia; exact C1.
    + destruct (Z.eq_dec j (n - 1 - i)) as [->|N2].
      * replace (n - 1 - (n - 1 - i)) with i by lia. bools; try lia; exact C2.
      * rewrite !C3 by lia. bools; try lia; reflexivity.
Qed.

Lemma nth_error_rev {A} (s : list A) : forall i v, nth_error (rev s) i = Some v ->
  nth_error s (length s - 1 - i)%nat = Some v.
Proof.
  intros i v H. assert (L : (i < length (rev s))%nat) by (apply nth_error_Some; congruence).
  rewrite rev_length in L. apply (nth_error_nth _ _ v) in H. rewrite rev_nth in H by auto.
  rewrite (nth_error_nth' s v) by lia. f_equal. rewrite <- H at 2. f_equal. lia.
Qed.

Lemma exec_reverse M s : holds M s -> fst (exec p_reverse M) = Ret VNone /\ holds (snd (exec p_reverse M)) (rev s).
Proof.
  intros H. unfold p_reverse. cbn [exec]. destruct H as [HH HC].
  pose proof (Zle_0_nat (length s)) as P. fold (zlen s) in P.
  assert (D : 2 * (zlen s / 2) <= zlen s) by (apply Z.mul_div_le; lia).
  assert (D0 : 0 <= zlen s / 2) by (apply Z.div_pos; lia).
  assert (D1 : zlen s < 2 * (zlen s / 2) + 2) by (pose proof (Z.mul_succ_div_gt (zlen s) 2 ltac:(lia)); lia).
  rewrite HH. destruct (exec_swap_loop (Z.to_nat (zlen s / 2)) 0 (zlen s) (PAcq (PRet (Ret VNone))) M) as (M' & E & EH & EC); [lia|lia|].
  rewrite E. cbn [exec fst snd]. split; [reflexivity|]. split.
  - rewrite EH, HH. unfold zlen. now rewrite rev_length.
  - intros i v X. assert (L : (i < length (rev s))%nat) by (apply nth_error_Some; congruence).
    rewrite rev_length in L. apply nth_error_rev in X.
    rewrite EC. pose proof (HC _ _ X) as Y. unfold zlen in *.
    replace (Z.of_nat (length s - 1 - i)) with (Z.of_nat (length s) - 1 - Z.of_nat i) in Y by lia.
    set (h := Z.of_nat (length s) / 2) in *. rewrite (Z2Nat.id h) by lia.
    bools; try exact Y; rewrite <- Y; f_equal; f_equal; lia.
Qed.

(** ** mul *)
Lemma exec_copies m size : forall k M s, size = length s -> holds M s ->
  exec (copies m size k) M = exec (k (repeat s m)) M.
Proof.
  induction m as [|m IH]; intros k M s E H; cbn [copies repeat]; [reflexivity|].
  cbn [exec]. rewrite exec_rd_cells. subst size. rewrite (holds_cells M s H), (IH _ _ s eq_refl H). reflexivity.
Qed.

(** ** Every call alone *)
Lemma place_spec n i p : place n i = Some p -> 0 <= p < n.
Proof.
  unfold place. destruct (in_sbits_b 64 i); [|discriminate].
  set (q := if i <? 0 then n + i else i). destruct (Z.ltb_spec q 0), (Z.leb_spec n q); cbn; try discriminate.
  intros E. injection E as <-. lia.
Qed.

Lemma holds_znth M s p v : holds M s -> znth s p = Some v -> M (Cell p) = v.
Proof.
  intros [_ H] E. unfold znth in E. destruct (Z.ltb_spec p 0); [discriminate|].
  rewrite <- (H _ _ E). now replace (Z.of_nat (Z.to_nat p)) with p by lia.
Qed.

Lemma fit_length n s : length (fit n s) = n.
Proof. unfold fit. rewrite firstn_length, app_length, repeat_length. lia. Qed.
Lemma fit_same n s : length s = n -> fit n s = s.
Proof. intros <-. unfold fit. rewrite firstn_app, Nat.sub_diag, firstn_all. apply app_nil_r. Qed.

Lemma get_step cfg k i s : step cfg k (OGet i) s =
  (match place (zlen s) i with
   | None => Raise IndexError
   | Some p => Ret (VElem (from_elem cfg k (get_default s p)))
   end, s).
Proof.
  unfold step, subscript, as_index, place. destruct (in_sbits_b 64 i); [|reflexivity].
  cbn [with_]. unfold getitem.
  set (q := if i <? 0 then zlen s + i else i). destruct (Z.ltb_spec q 0), (Z.leb_spec (zlen s) q); cbn [orb]; try reflexivity.
  rewrite znth_default by lia. reflexivity.
Qed.

Lemma set_step cfg k i v s : step cfg k (OSet i v) s =
  match place (zlen s) i with
  | None => (Raise IndexError, s)
  | Some p => with_ (as_elem k (PInt v)) s (fun w =>
      match zset s p w with Some s' => (Ret VNone, s') | None => (Undef OutOfBounds, s) end)
  end.
Proof.
  unfold step, ass_subscript, as_index, place. destruct (in_sbits_b 64 i); [|reflexivity].
  cbn [with_]. unfold setitem.
  set (q := if i <? 0 then zlen s + i else i). destruct (Z.ltb_spec q 0), (Z.leb_spec (zlen s) q); cbn [orb]; reflexivity.
Qed.

Lemma simdsort_short1 f k rv s : zlen s <= 1 -> simdsort f k rv s = Ret s.
Proof. intros H. unfold simdsort. destruct (Z.leb_spec (zlen s) 1); [reflexivity|lia]. Qed.

Lemma with_keeps {A} (o : outcome A) s f : (forall a, snd (f a) = s) -> snd (with_ o s f) = s.
Proof. intros H. destruct o; cbn; auto. Qed.

Lemma reads_keep cfg k o s : reader (COp o) = true -> snd (step cfg k o s) = s.
Proof.
  destruct o; try discriminate; intros _; unfold step.
  - reflexivity.
  - apply (f_equal snd (get_step cfg k i s)).
  - unfold getitem_slice. apply with_keeps. intros [[a b] c0].
    destruct (PySlice_AdjustIndices _ _ _ _) as [[x y] z]. apply with_keeps. reflexivity.
  - unfold index. apply with_keeps. intros a. apply with_keeps. intros b. apply with_keeps. intros d.
    cbv zeta. destruct (_ <? _); [reflexivity|]. apply with_keeps. intros e. now destruct (e =? _).
  - unfold count. apply with_keeps. reflexivity.
  - unfold contains. apply with_keeps. intros a. apply with_keeps. reflexivity.
  - reflexivity.
  - reflexivity.
Qed.

Lemma nset_nth {A} : forall (l : list A) n v l', nset l n v = Some l' ->
  forall i, nth_error l' i = if Nat.eqb i n then Some v else nth_error l i.
Proof.
  induction l as [|y l IH]; intros n v l' E i; [destruct n; discriminate|].
  destruct n as [|n]; cbn [nset] in E.
  - injection E as <-. destruct i; reflexivity.
  - destruct (nset l n v) as [l2|] eqn:E2; [|discriminate]. injection E as <-. destruct i as [|i]; [reflexivity|].
    cbn [nth_error Nat.eqb]. apply IH. exact E2.
Qed.

Lemma cells_ext M N n : forall i, (forall j, i <= j < i + Z.of_nat n -> M (Cell j) = N (Cell j)) -> cells M i n = cells N i n.
Proof.
  induction n as [|n IH]; intros i H; cbn [cells]; [reflexivity|]. rewrite (H i) by lia. f_equal. apply IH.
  intros j J. apply H. lia.
Qed.

Lemma imul_one_ret cfg k sp s : fst (imul cfg k 1 sp s) = Ret VSelf.
Proof. reflexivity. Qed.
Lemma imul_nil cfg k n sp : imul cfg k n sp [] = (Ret VSelf, []).
Proof.
  unfold imul. destruct (Z.ltb_spec n 0); [reflexivity|]. destruct (Z.eqb_spec n 0); [reflexivity|].
  cbn [length Nat.mul Nat.sub repeat app encode map concat].
  assert (E : forall c i m, imul_loop (feat cfg) (esize k) 0 c i m = Ret m).
  { induction c as [|c IH]; intros i m; cbn [imul_loop]; [reflexivity|].
    destruct (SimdCopyProofs.simd_memcpy_aligned_iff (feat cfg) (esize k) 0 0 0 m (esize_elem k)) as [K _]; [cbn; lia|cbn; lia|unfold MemSpec.disj; lia|].
    rewrite !Nat.mul_0_l. rewrite K.
    - cbn [obind]. rewrite IH. reflexivity.
    - cbn. repeat split; intros; lia. }
  rewrite E. reflexivity.
Qed.

Lemma exec_alone cfg k c M s : holds M s ->
  fst (exec (prog_of cfg k c) M) = fst (alone cfg k c s) /\
  holds (snd (exec (prog_of cfg k c) M)) (snd (alone cfg k c s)).
Proof.
  intros H. destruct c as [o|r|n|n sp]; cbn [prog_of alone].
  - destruct o; cbn [p_op alone];
      try (rewrite (exec_rd_all _ M s H); cbn [exec fst snd]; split; [reflexivity|rewrite reads_keep by reflexivity; exact H]; fail);
      try (rewrite (exec_rd_all _ M s H); destruct (step cfg k _ s) as [a s'] eqn:E; rewrite exec_wr_cells; cbn [exec fst snd];
           split; [reflexivity|apply holds_rewrite]; fail).
    + (* append *)
      unfold step, append. destruct (as_elem k (PInt v)) as [w|e|w e|u]; cbn [with_ exec fst snd]; try (split; [reflexivity|exact H]).
      split; [reflexivity|]. destruct H as [HH HC]. rewrite HH. split.
      * rewrite store_same. unfold zlen. rewrite app_length. cbn. lia.
      * intros i x X. rewrite store_other by discriminate.
        destruct (Nat.lt_ge_cases i (length s)) as [L|L].
        -- rewrite nth_error_app1 in X by auto. rewrite store_other; [apply HC; exact X|].
           intros Y. injection Y. unfold zlen. lia.
        -- rewrite nth_error_app2 in X by auto. destruct (i - length s)%nat as [|j] eqn:J; cbn in X; [|destruct j; discriminate].
           injection X as <-. replace (Z.of_nat i) with (zlen s) by (unfold zlen; lia). apply store_same.
    + (* reverse *) apply exec_reverse. exact H.
    + (* clear *) cbn [exec]. unfold step, clear. cbn [fst snd]. split; [reflexivity|]. split; [apply store_same|].
      intros [|i] v; discriminate.
    + (* len *) cbn [exec]. unfold step, len. cbn [fst snd]. split; [now rewrite (proj1 H)|exact H].
    + (* get *)
      rewrite get_step. cbn [exec fst snd]. rewrite (proj1 H). destruct (place (zlen s) i) as [p|] eqn:P; cbn [exec fst snd].
      * split; [|exact H]. do 3 f_equal. eapply holds_znth; eauto. apply znth_default. eapply place_spec; eauto.
      * split; [reflexivity|exact H].
    + (* set *)
      rewrite set_step. cbn [exec fst snd]. rewrite (proj1 H). destruct (place (zlen s) i) as [p|] eqn:P; cbn [exec fst snd].
      2:{ split; [reflexivity|exact H]. }
      destruct (as_elem k (PInt v)) as [w|e|w e|u]; cbn [with_ exec fst snd]; try (split; [reflexivity|exact H]).
      apply place_spec in P.
      destruct (zset_in s p w P) as (s' & E & L). rewrite E. cbn [fst snd]. split; [reflexivity|].
      unfold zset in E. destruct (Z.ltb_spec p 0); [lia|]. destruct H as [HH HC]. split.
      * rewrite store_other by discriminate. now rewrite HH, L.
      * intros j x X. rewrite (nset_nth _ _ _ _ E) in X. destruct (Nat.eqb_spec j (Z.to_nat p)) as [->|N].
        -- injection X as <-. replace (Z.of_nat (Z.to_nat p)) with p by lia. apply store_same.
        -- rewrite store_other by (intros Y; injection Y; lia). now apply HC.
  - (* sort *)
    unfold p_sort. cbn [exec]. pose proof (holds_head M s H) as N. rewrite (proj1 H). destruct (Z.leb_spec (zlen s) 1) as [L|L].
    + cbn [exec fst snd]. unfold sort_nokey. rewrite simdsort_short1 by exact L. cbn [fst snd].
      split; [reflexivity|]. rewrite fit_same by reflexivity. exact H.
    + rewrite (proj1 H) in N. rewrite N, exec_rd_cells, (holds_cells M s H), exec_wr_cells. cbn [exec fst snd].
      split; [reflexivity|]. apply holds_stores. rewrite (proj1 H). unfold zlen. now rewrite fit_length.
  - (* mul *)
    unfold p_mul. destruct (Z.leb_spec n 0) as [L|L]; cbn [exec fst snd].
    + rewrite mul_nonpos by exact L. cbn [fst]. replace (Z.to_nat n) with 0%nat by lia. split; [reflexivity|exact H].
    + rewrite (holds_head M s H), (exec_copies _ _ _ M s eq_refl H). cbn [exec fst snd]. split; [|exact H].
      unfold mul_answer. destruct (Z.to_nat n) as [|m] eqn:E; [lia|]. reflexivity.
  - (* imul *)
    unfold p_imul. destruct (Z.leb_spec n 0) as [L|L]; cbn [exec fst snd].
    + split; [reflexivity|]. split; [apply store_same|]. intros [|i] v; discriminate.
    + pose proof (proj1 H) as HH. rewrite HH. pose proof (Zle_0_nat (length s)) as P. fold (zlen s) in P.
      destruct (Z.eqb_spec n 1) as [->|N1]; cbn [orb exec fst snd].
      { rewrite imul_one_ret. split; [reflexivity|]. change (Z.to_nat 1) with 1%nat. rewrite Nat.mul_1_r.
        rewrite skipn_all2 by (rewrite fit_length; lia). now rewrite app_nil_r. }
      destruct (Z.leb_spec (zlen s) 0) as [Z0|Z0]; cbn [exec fst snd].
      { assert (s = []) as -> by (destruct s; [reflexivity|unfold zlen in Z0; cbn in Z0; lia]).
        rewrite imul_nil. split; [reflexivity|]. exact H. }
      rewrite exec_wr_cells. cbn [exec]. rewrite exec_rd_cells.
      set (M1 := stores M (zlen s) (repeat 0 (Z.to_nat (zlen s * n - zlen s)))).
      replace (Z.to_nat (zlen s)) with (length s) by (unfold zlen; lia).
      assert (C : cells (store M1 Head (zlen s * n)) 0 (length s) = s).
      { transitivity (cells M 0 (length s)); [|exact (holds_cells M s H)]. apply cells_ext. intros j J. rewrite store_other by discriminate.
        unfold M1. apply stores_before. unfold zlen. lia. }
      rewrite C, exec_wr_cells. cbn [exec fst snd]. split; [reflexivity|].
      assert (LT : length (imul_tail cfg k n sp s) = (length s * Z.to_nat n - length s)%nat).
      { unfold imul_tail. now rewrite skipn_length, fit_length. }
      fold (imul_tail cfg k n sp s). split.
      * rewrite stores_head, store_same. unfold zlen. rewrite app_length, LT. nia.
      * intros i v X. destruct (Nat.lt_ge_cases i (length s)) as [I|I].
        -- rewrite nth_error_app1 in X by auto. rewrite stores_before by (unfold zlen; lia).
           rewrite store_other by discriminate. unfold M1. rewrite stores_before by (unfold zlen; lia). now apply (proj2 H).
        -- rewrite nth_error_app2 in X by auto. pose proof (stores_at _ (store M1 Head (zlen s * n)) (zlen s) _ _ X) as Y.
           replace (zlen s + Z.of_nat (i - length s)) with (Z.of_nat i) in Y by (unfold zlen; lia). exact Y.
Qed.

Lemma rep_align_dec f b : {MemSpec.rep_align f b} + {~ MemSpec.rep_align f b}.
Proof.
  assert (D : forall a x y z w, {a = true -> (x <= y)%nat -> z = w :> nat} + {~ (a = true -> (x <= y)%nat -> z = w :> nat)}).
  { intros a x y z w. destruct a; [|left; discriminate]. destruct (le_lt_dec x y); [|left; lia].
    destruct (Nat.eq_dec z w); [left; auto|right; intros H; auto]. }
  unfold MemSpec.rep_align.
  destruct (D (avx512 f) 64%nat b (b mod 64)%nat 0%nat) as [A|A]; [|right; tauto].
  destruct (D (avx2 f) 32%nat (MemSpec.left512 f b) (b mod 32)%nat 0%nat) as [B|B]; [|right; tauto].
  destruct (D (sse41 f) 16%nat (MemSpec.left256 f b) (b mod 16)%nat 0%nat) as [C|C]; [left; tauto|right; tauto].
Qed.

(** The specification of the single calls is the model of the single calls. *)
Lemma alone_model cfg k c s : Forall (in_range k) s -> zlen s * ez k <= SSIZE_MAX ->
  alone cfg k c s = match c with
                    | COp o => step cfg k o s
                    | CSort r => sort_nokey cfg k r s
                    | CMul n => mul cfg k n s
                    | CIMul n spare => (fst (imul cfg k n spare s),
                        match fst (imul cfg k n spare s) with Undef _ => snd (alone cfg k c s) | _ => snd (imul cfg k n spare s) end)
                    end.
Proof.
  intros F B. destruct c as [o|r|n|n sp]; cbn [alone].
  - destruct o; try reflexivity. unfold step. now rewrite reverse_ok.
  - rewrite fit_same; [now destruct (sort_nokey cfg k r s)|].
    destruct (Bool.bool_dec (match k with KInt => avx512 (feat cfg) && avx2 (feat cfg) && (9 <=? zlen s) && (zlen s <=? 15) | KBig => false end) true) as [E|E].
    + destruct k; [|discriminate]. repeat rewrite andb_true_iff in E. destruct E as [[[E1 E2] E3] E4].
      unfold sort_nokey. rewrite simdsort_oob by (auto; lia). reflexivity.
    + destruct (sort_nokey_safe cfg k r s B) as (s' & -> & L & _); [|exact L].
      intros (-> & E1 & E2 & E3). apply E. rewrite E1, E2. cbn [andb]. lia.
  - destruct (Z.le_gt_cases n 0) as [N|N].
    + rewrite mul_nonpos by exact N. cbn [fst]. now replace (Z.to_nat n) with 0%nat by lia.
    + destruct (Z.eq_dec n 1) as [->|N1].
      * rewrite mul_ok by (auto; lia). reflexivity.
      * destruct (rep_align_dec (feat cfg) (length s * esize k)) as [A|A].
        -- rewrite mul_ok by (auto; lia). reflexivity.
        -- rewrite mul_misaligned by (auto; lia). reflexivity.
  - destruct (Z.leb_spec n 0) as [N|N]; [now rewrite imul_nonpos|]. cbn [snd].
    destruct (Z.eq_dec n 1) as [->|N1].
    { rewrite imul_one by exact F. cbn [fst snd]. f_equal. change (Z.to_nat 1) with 1%nat. rewrite Nat.mul_1_r.
      rewrite skipn_all2 by (rewrite fit_length; lia). apply app_nil_r. }
    destruct s as [|x s]; [rewrite imul_nil; reflexivity|].
    pose proof (imul_many cfg k n sp (x :: s) F ltac:(discriminate) ltac:(lia)) as I.
    destruct (imul cfg k n sp (x :: s)) as [[v| | |u] s'] eqn:E; try contradiction; cbn [fst snd]; [|reflexivity].
    destruct I as (-> & I1 & I2 & _). f_equal. rewrite fit_same by exact I1.
    rewrite <- (firstn_skipn (length (x :: s)) s') at 2. f_equal.
    transitivity (firstn (length (x :: s)) (firstn (2 * length (x :: s)) s')).
    + rewrite I2. symmetry. apply firstn_len.
    + rewrite firstn_firstn. f_equal. lia.
Qed.

(** ** Several threads *)
Lemma closes_rd_cells h n : forall i k, (forall s, closes h (k s)) -> closes h (rd_cells n i k).
Proof. induction n as [|n IH]; intros i k H; cbn; [apply H|]. intros v. apply IH. intros s. apply H. Qed.
Lemma closes_wr_cells h s : forall i k, closes h k -> closes h (wr_cells s i k).
Proof. induction s as [|v r IH]; intros i k H; cbn; auto. Qed.
Lemma closes_swap h m : forall i n k, closes h k -> closes h (swap_loop m i n k).
Proof. induction m as [|m IH]; intros i n k H; cbn; auto. Qed.
Lemma closes_copies h m size : forall k, (forall ss, closes h (k ss)) -> closes h (copies m size k).
Proof.
  induction m as [|m IH]; intros k H; cbn; [apply H|]. intros _. apply closes_rd_cells. intros s. apply IH. intros ss. apply H.
Qed.

Lemma prog_closes cfg k c : closes true (prog_of cfg k c).
Proof.
  assert (E : forall r, closes false (PAcq (PRet r))) by (intros r; cbn; eauto).
  destruct c as [o|r|n|n sp]; cbn [prog_of].
  - destruct o; cbn [p_op]; unfold rd_all;
      try (cbn [closes]; intros ?; apply closes_rd_cells; intros s; reflexivity);
      try (cbn [closes]; intros ?; apply closes_rd_cells; intros s; destruct (step cfg k _ s); apply closes_wr_cells; reflexivity).
    + destruct (as_elem k (PInt v)); cbn; auto.
    + cbn. split; [reflexivity|]. intros n. apply closes_swap. apply E.
    + cbn. auto.
    + cbn. auto.
    + cbn. intros n. destruct (place n i); cbn; auto.
    + cbn. intros n. destruct (place n i); cbn; auto. destruct (as_elem k (PInt v)); cbn; auto.
  - cbn. split; [reflexivity|]. intros n. destruct (n <=? 1); [apply E|]. apply closes_rd_cells. intros s.
    apply closes_wr_cells. apply E.
  - unfold p_mul. destruct (n <=? 0); cbn; [reflexivity|]. intros size. split; [reflexivity|].
    apply closes_copies. intros ss. apply E.
  - unfold p_imul. destruct (n <=? 0); cbn; [reflexivity|]. intros size. split; [reflexivity|]. intros _.
    destruct ((n =? 1) || (size <=? 0)); [apply E|]. apply closes_wr_cells. cbn [closes]. intros _.
    apply closes_rd_cells. intros s. apply closes_wr_cells. apply E.
Qed.

Lemma one_by_one_execs cfg k order : forall M s, holds M s ->
  fst (execs (map (fun x => (fst x, prog_of cfg k (snd x))) order) M) = fst (one_by_one cfg k order s) /\
  holds (snd (execs (map (fun x => (fst x, prog_of cfg k (snd x))) order) M)) (snd (one_by_one cfg k order s)).
Proof.
  induction order as [|[t c] r IH]; intros M s H; [cbn; auto|].
  cbn [map fst snd]. rewrite execs_cons. cbn [one_by_one].
  destruct (exec_alone cfg k c M s H) as [E1 E2].
  destruct (alone cfg k c s) as [a s1] eqn:A. cbn [fst snd] in *.
  destruct (IH _ _ E2) as [F1 F2]. destruct (one_by_one cfg k r s1) as [l s2] eqn:O. cbn [fst snd] in *.
  split; [now rewrite E1, F1|exact F2].
Qed.

Lemma holds_same M N s : same M N -> holds M s -> holds N s.
Proof. intros E [A B]. split; [now rewrite <- E|]. intros i v X. rewrite <- E. auto. Qed.

(** Calls whose programs are the [log]. *)
Lemma calls_of_log {A B} (f : A -> B) (n : nat -> list A) (log : list (nat * B)) (rest : nat -> list B) :
  (forall t, of_thread t log ++ rest t = map f (n t)) ->
  exists order, log = map (fun x => (fst x, f (snd x))) order /\
    forall t, exists m, of_thread t order ++ m = n t /\ rest t = map f m.
Proof.
  revert n. induction log as [|[u b] log IH]; intros n H.
  - exists []. split; [reflexivity|]. intros t. exists (n t). split; [reflexivity|]. exact (H t).
  - pose proof (H u) as E. rewrite of_thread_cons_same in E. destruct (n u) as [|a m] eqn:N; [discriminate|].
    cbn in E. injection E as -> E.
    destruct (IH (fun t => if Nat.eqb t u then m else n t)) as (order & -> & R).
    + intros t. destruct (Nat.eqb_spec t u) as [->|X]; [exact E|].
      pose proof (H t) as Y. rewrite of_thread_cons_other in Y by auto. exact Y.
    + exists ((u, a) :: order). split; [reflexivity|]. intros t. destruct (R t) as (m' & P & Q).
      destruct (Nat.eqb_spec t u) as [->|X].
      * exists m'. rewrite of_thread_cons_same, N. cbn. now rewrite P.
      * exists m'. rewrite of_thread_cons_other by auto. auto.
Qed.

Lemma serial_calls cfg k M s calls c : holds M s -> race_free (start cfg k M calls) ->
  reaches (start cfg k M calls) c -> quiet c ->
  exists order, holds (mem c) (snd (one_by_one cfg k order s)) /\
    forall t, answers (thr c t) = of_thread t (fst (one_by_one cfg k order s)) /\
      exists rest, calls t = of_thread t order ++ rest /\ todo (thr c t) = map (prog_of cfg k) rest.
Proof.
  intros H RF R Q. destruct (reaches_serial (start cfg k M calls)) with (c := c) as (log & busy & I); auto.
  - intros u. cbn. apply Forall_forall. intros p X. apply in_map_iff in X. destruct X as (x & <- & _). apply prog_closes.
  - intros t. reflexivity.
  - assert (B : busy = []).
    { destruct busy as [|[t p] r]; [reflexivity|]. pose proof (proj2 (s_now _ _ _ _ _ I t p) (or_introl eq_refl)).
      rewrite (Q t) in *. discriminate. }
    subst busy. destruct (calls_of_log (prog_of cfg k) calls log (fun t => todo (thr c t))) as (order & -> & P).
    { intros t. exact (s_todo _ _ _ _ _ I t). }
    exists order. destruct (one_by_one_execs cfg k order M s H) as [E1 E2]. split.
    + eapply holds_same; [|exact E2]. exact (s_mem _ _ _ _ _ I).
    + intros t. split.
      * pose proof (s_answers _ _ _ _ _ I t) as X. cbn in X. rewrite app_nil_r in X. rewrite <- X. cbn [mem start]. now rewrite E1.
      * destruct (P t) as (m & P1 & P2). exists m. auto.
Qed.

(** ** Rules *)
Lemma obeys_rd_cells rules t h n : forall i k, (forall j, may_read (rules (Cell j)) t h) ->
  (forall s, obeys rules t h (k s)) -> obeys rules t h (rd_cells n i k).
Proof. induction n as [|n IH]; intros i k R H; cbn; [apply H|]. split; [apply R|]. intros v. apply IH; auto. Qed.
Lemma obeys_wr_cells rules t h s : forall i k, (forall j, may_write (rules (Cell j)) t h) ->
  obeys rules t h k -> obeys rules t h (wr_cells s i k).
Proof. induction s as [|v r IH]; intros i k R H; cbn; auto. Qed.
Lemma obeys_swap rules t h m : forall i n k, (forall j, may_read (rules (Cell j)) t h) -> (forall j, may_write (rules (Cell j)) t h) ->
  obeys rules t h k -> obeys rules t h (swap_loop m i n k).
Proof. induction m as [|m IH]; intros i n k R W H; cbn; auto 8. Qed.
Lemma obeys_copies rules t h m size : forall k, may_read (rules Head) t h -> (forall j, may_read (rules (Cell j)) t h) ->
  (forall ss, obeys rules t h (k ss)) -> obeys rules t h (copies m size k).
Proof.
  induction m as [|m IH]; intros k R W H; cbn; [apply H|]. split; [exact R|]. intros _. apply obeys_rd_cells; auto.
Qed.

Lemma held_obeys cfg k t c : unlocks c = false -> obeys (fun _ => Guarded) t true (prog_of cfg k c).
Proof.
  intros U. destruct c as [o|r|n|n sp]; cbn [prog_of]; try discriminate U.
  - destruct o; try discriminate U; cbn [p_op]; unfold rd_all;
      try (cbn; split; [reflexivity|]; intros ?; apply obeys_rd_cells; [reflexivity|]; intros s; reflexivity);
      try (cbn [obeys may_read]; split; [reflexivity|]; intros ?; apply obeys_rd_cells; [reflexivity|]; intros s; destruct (step cfg k _ s);
           apply obeys_wr_cells; [reflexivity|]; cbn; auto).
    + destruct (as_elem k (PInt v)); cbn; auto.
    + cbn. auto.
    + cbn. auto.
    + cbn. split; [reflexivity|]. intros n. destruct (place n i); cbn; auto.
    + cbn. split; [reflexivity|]. intros n. destruct (place n i); cbn; auto. destruct (as_elem k (PInt v)); cbn; auto.
  - unfold p_mul. cbn in U. replace (n <=? 0) with true by lia. reflexivity.
  - unfold p_imul. cbn in U. replace (n <=? 0) with true by lia. cbn. auto.
Qed.

Lemma reader_obeys cfg k t c : reader c = true -> obeys (fun _ => ReadOnly) t true (prog_of cfg k c).
Proof.
  intros U. destruct c as [o|r|n|n sp]; cbn [prog_of]; try discriminate U.
  - destruct o; try discriminate U; cbn [p_op]; unfold rd_all;
      try (cbn; split; [exact I|]; intros n; apply obeys_rd_cells; [intros j; exact I|]; intros s; reflexivity).
    + cbn. auto.
    + cbn. split; [exact I|]. intros n. destruct (place n i); cbn; auto.
  - unfold p_mul. destruct (n <=? 0); cbn; [reflexivity|]. split; [exact I|]. intros size. split; [reflexivity|].
    apply obeys_copies; [exact I|intros j; exact I|]. intros ss. cbn. auto.
  - cbn in U. apply Z.eqb_eq in U. subst n. cbn. auto 8.
Qed.

(** Thread [t] may do everything that keeps the size, the others only ask for
    the size. *)
Definition owner_rules (t : nat) (l : loc) : rule := match l with Head => ReadOnly | Cell _ => Owned t end.

Lemma owner_obeys cfg k t c : keeps_size c = true -> obeys (owner_rules t) t true (prog_of cfg k c).
Proof.
  intros U. destruct c as [o|r|n|n sp]; cbn [prog_of].
  - destruct o; try discriminate U; cbn [p_op]; unfold rd_all;
      try (cbn; split; [exact I|]; intros n; apply obeys_rd_cells; [intros j; reflexivity|]; intros s; reflexivity).
    + cbn. split; [reflexivity|]. split; [exact I|]. intros n. apply obeys_swap; [intros j; reflexivity|intros j; reflexivity|]. cbn. auto.
    + cbn. auto.
    + cbn. split; [exact I|]. intros n. destruct (place n i); cbn; auto.
    + cbn. split; [exact I|]. intros n. destruct (place n i); cbn; auto. destruct (as_elem k (PInt v)); cbn; auto.
  - cbn. split; [reflexivity|]. split; [exact I|]. intros n. destruct (n <=? 1); [cbn; auto|].
    apply obeys_rd_cells; [intros j; reflexivity|]. intros s. apply obeys_wr_cells; [intros j; reflexivity|]. cbn. auto.
  - unfold p_mul. destruct (n <=? 0); cbn; [reflexivity|]. split; [exact I|]. intros size. split; [reflexivity|].
    apply obeys_copies; [exact I|intros j; reflexivity|]. intros ss. cbn. auto.
  - cbn in U. apply Z.eqb_eq in U. subst n. cbn. auto 8.
Qed.

Lemma rules_race_free rules cfg k M calls :
  (forall t c, In c (calls t) -> obeys rules t true (prog_of cfg k c)) -> race_free (start cfg k M calls).
Proof.
  intros H. apply (good_race_free rules). split.
  - discriminate.
  - intros t. cbn. apply Forall_forall. intros p X. apply in_map_iff in X. destruct X as (c & <- & X). auto.
Qed.

Lemma held_race_free cfg k M calls : (forall t c, In c (calls t) -> unlocks c = false) -> race_free (start cfg k M calls).
Proof. intros H. apply (rules_race_free (fun _ => Guarded)). intros t c X. apply held_obeys. eauto. Qed.

Lemma readers_race_free cfg k M calls : (forall t c, In c (calls t) -> reader c = true) -> race_free (start cfg k M calls).
Proof. intros H. apply (rules_race_free (fun _ => ReadOnly)). intros t c X. apply reader_obeys. eauto. Qed.

Lemma owner_race_free cfg k M calls o : (forall c, In c (calls o) -> keeps_size c = true) ->
  (forall t c, t <> o -> In c (calls t) -> c = COp OLen) -> race_free (start cfg k M calls).
Proof.
  intros H1 H2. apply (rules_race_free (owner_rules o)). intros t c X.
  destruct (Nat.eq_dec t o) as [->|N]; [apply owner_obeys; auto|]. rewrite (H2 t c N X). cbn. auto.
Qed.
