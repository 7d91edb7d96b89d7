(** Proofs for C78: the object array list. *)
From Coq Require Import ZArith List Bool Lia Arith.
From Verif Require Import Base PyListSpec ArrayListModel GilModel GilSpec GilProofs GilCalls GilRaces LGilModel LGilSpec LGilProofs LGilCalls.
Import ListNotations.
Local Open Scope Z_scope.
Local Arguments Z.add : simpl never.
Local Arguments Z.sub : simpl never.
Local Arguments Z.mul : simpl never.
Local Arguments Z.of_nat : simpl never.
Local Arguments Z.to_nat : simpl never.
Local Arguments Z.div : simpl never.
Local Arguments store : simpl never.
Local Arguments count_of : simpl never.

Lemma exec_move_down m : forall i k M, 0 <= i -> exists N, exec (move_down m i k) M = exec k N /\ N Head = M Head /\
  (forall j, N (Cell j) = if (i <=? j) && (j <? i + Z.of_nat m) then M (Cell (j + 1)) else M (Cell j)).
Proof.
  induction m as [|m IH]; intros i k M I.
  - exists M. split; [reflexivity|]. split; [reflexivity|]. intros j. destruct (Z.leb_spec i j), (Z.ltb_spec j (i + Z.of_nat 0)); cbn; auto; lia.
  - cbn [move_down exec]. destruct (IH (i + 1) k (store M (Cell i) (M (Cell (i + 1))))) as (N & E & HH & HC); [lia|].
    exists N. split; [exact E|]. split; [rewrite HH; apply store_other; discriminate|]. intros j. rewrite HC.
    destruct (Z.eq_dec j i) as [->|NE].
    + destruct (Z.leb_spec (i + 1) i), (Z.leb_spec i i), (Z.ltb_spec i (i + Z.of_nat (S m))); cbn; try lia. apply store_same.
    + destruct (Z.leb_spec (i + 1) j), (Z.leb_spec i j), (Z.ltb_spec j (i + 1 + Z.of_nat m)), (Z.ltb_spec j (i + Z.of_nat (S m))); cbn [andb]; try lia;
        rewrite store_other by (intros [=]; lia); reflexivity.
Qed.
Lemma nth_error_del {A} (s : list A) n j : (n < length s)%nat ->
  nth_error (firstn n s ++ skipn (S n) s) j = if (j <? n)%nat then nth_error s j else nth_error s (S j).
Proof.
  revert n j. induction s as [|x s IH]; intros n j L; cbn in L; [lia|]. destruct n as [|n]; [cbn; destruct j; reflexivity|].
  destruct j as [|j]; [reflexivity|]. cbn [firstn skipn app nth_error]. rewrite IH by lia. change (S j <? S n)%nat with (j <? n)%nat.
  destruct (j <? n)%nat; reflexivity.
Qed.
Lemma nth_error_put {A} (s : list A) n j v : (n < length s)%nat ->
  nth_error (firstn n s ++ v :: skipn (S n) s) j = if (j =? n)%nat then Some v else nth_error s j.
Proof.
  revert n j. induction s as [|x s IH]; intros n j L; cbn in L; [lia|]. destruct n as [|n]; [destruct j; reflexivity|].
  destruct j as [|j]; [reflexivity|]. cbn [firstn skipn app nth_error]. rewrite IH by lia. reflexivity.
Qed.
Lemma cut_at (s : list Z) n : (n < length s)%nat -> s = firstn n s ++ nth n s 0 :: skipn (S n) s.
Proof. intros L. now apply split_at. Qed.
Lemma occurs_app o a b : occurs o (a ++ b) = occurs o a + occurs o b.
Proof. unfold occurs. rewrite count_occ_app. lia. Qed.
Lemma occurs_cons o x s : occurs o (x :: s) = (if Z.eq_dec x o then 1 else 0) + occurs o s.
Proof. unfold occurs. cbn [count_occ]. destruct (Z.eq_dec x o); lia. Qed.
Lemma occurs_rev o s : occurs o (rev s) = occurs o s.
Proof. induction s as [|x s IH]; [reflexivity|]. cbn [rev]. rewrite occurs_app, !occurs_cons, IH. unfold occurs at 2. cbn [count_occ]. lia. Qed.
Lemma nonneg_parts s n : Forall (fun o => 0 <= o) s -> Forall (fun o => 0 <= o) (firstn n s) /\ Forall (fun o => 0 <= o) (skipn n s).
Proof. intros F. rewrite <- (firstn_skipn n s) in F. now apply Forall_app in F. Qed.
Lemma neg_cell_reverse m : forall i n k M j, 0 <= i -> 2 * (i + Z.of_nat m) <= n -> j < 0 ->
  exists N, exec (swap_loop m i n k) M = exec k N /\ N (Cell j) = M (Cell j).
Proof.
  induction m as [|m IH]; intros i n k M j I E J; [exists M; auto|]. cbn [swap_loop exec].
  destruct (IH (i + 1) n k (store (store M (Cell i) (M (Cell (n - 1 - i)))) (Cell (n - 1 - i)) (M (Cell i))) j) as (N & A & B); [lia|lia|lia|].
  exists N. split; [exact A|]. rewrite B. rewrite !store_other by (intros [=]; lia). reflexivity.
Qed.
Lemma reverse_counts M n j : M Head = Z.of_nat n -> j < 0 -> snd (exec p_reverse M) (Cell j) = M (Cell j).
Proof.
  intros E J. unfold p_reverse. cbn [exec]. rewrite E.
  destruct (neg_cell_reverse (Z.to_nat (Z.of_nat n / 2)) 0 (Z.of_nat n) (PAcq (PRet (Ret VNone))) M j) as (N & A & B); [lia| |exact J|].
  - pose proof (Z.mul_div_le (Z.of_nat n) 2). pose proof (Z.div_pos (Z.of_nat n) 2). lia.
  - rewrite A. exact B.
Qed.

(** What a call alone does to the references beyond those of the list. *)
Lemma oexec c M s extra : counted M s extra -> names c ->
  fst (exec (oprog c) M) = fst (oalone c s) /\
  exists extra', counted (snd (exec (oprog c) M)) (snd (oalone c s)) extra' /\
    forall o, 0 <= o -> extra o <= extra' o /\ (stores_one c = false -> extra' o = extra o).
Proof.
  intros (H & NN & CO) NM. destruct c as [| |i|i v]; cbn [oprog oalone stores_one].
  - cbn [exec fst snd]. split; [destruct H as [-> _]; reflexivity|]. exists extra. split; [split; auto|]. intros o _. split; [lia|auto].
  - destruct (exec_reverse M s H) as [E1 E2]. split; [exact E1|]. exists extra. split; [|intros o _; split; [lia|auto]].
    split; [exact E2|]. split; [now apply Forall_rev|]. intros o O. cbn [snd]. rewrite occurs_rev, <- CO by auto. unfold count_of.
    apply (reverse_counts M (length s)); [apply H|lia].
  - assert (HH : M Head = zlen s) by apply H. cbn [exec]. rewrite HH, index_position. destruct (position s i) as [n|] eqn:P.
    2:{ cbn. split; [reflexivity|]. exists extra. split; [split; auto|]. intros o _. split; [lia|auto]. }
    assert (L := position_lt s i n P). cbn [exec]. set (x := nth n s 0).
    assert (EX : M (Cell (Z.of_nat n)) = x) by (apply H; now apply nth_error_nth'). rewrite EX.
    assert (X0 : 0 <= x) by (eapply Forall_forall in NN; [exact NN|]; now apply nth_In).
    set (M1 := store M (count_of x) (M (count_of x) - 1)). assert (H1 : M1 Head = zlen s) by (unfold M1; rewrite store_other by discriminate; exact HH).
    rewrite H1. destruct (exec_move_down (Z.to_nat (zlen s - Z.of_nat n - 1)) (Z.of_nat n) (PWr Head (zlen s - 1) (PRet (Ret VNone))) M1) as (N & E & NH & NC); [lia|].
    rewrite E. cbn [exec fst snd]. split; [reflexivity|]. exists extra. split; [|intros o _; split; [lia|auto]].
    assert (LD : length (firstn n s ++ skipn (S n) s) = (length s - 1)%nat) by (rewrite app_length, firstn_length, skipn_length; lia).
    split; [split|split].
    + rewrite store_same. unfold zlen. rewrite LD. lia.
    + intros j v J. rewrite store_other by discriminate. rewrite NC. rewrite nth_error_del in J by exact L.
      assert (JL : (j < length s - 1)%nat) by (rewrite <- LD; apply nth_error_Some; rewrite nth_error_del by exact L; congruence).
      assert (MM : forall z, 0 <= z -> M1 (Cell z) = M (Cell z)) by (intros z Z; unfold M1; apply store_other; unfold count_of; intros [=]; lia).
      unfold zlen in *. destruct (Nat.ltb_spec j n).
      * destruct (Z.leb_spec (Z.of_nat n) (Z.of_nat j)); [lia|]. cbn [andb]. rewrite MM by lia. now apply H.
      * destruct (Z.leb_spec (Z.of_nat n) (Z.of_nat j)); [|lia].
        destruct (Z.ltb_spec (Z.of_nat j) (Z.of_nat n + Z.of_nat (Z.to_nat (Z.of_nat (length s) - Z.of_nat n - 1)))); [|lia].
        cbn [andb]. rewrite MM by lia. replace (Z.of_nat j + 1) with (Z.of_nat (S j)) by lia. now apply H.
    + apply Forall_app. split; apply nonneg_parts; exact NN.
    + intros o O. rewrite store_other by discriminate. unfold count_of. rewrite NC.
      destruct (Z.leb_spec (Z.of_nat n) (-1 - o)); [lia|]. cbn [andb]. change (Cell (-1 - o)) with (count_of o).
      assert (S1 : occurs o s = occurs o (firstn n s ++ skipn (S n) s) + (if Z.eq_dec x o then 1 else 0)).
      { rewrite (cut_at s n L) at 1. rewrite !occurs_app, occurs_cons. fold x. lia. }
      unfold M1. destruct (Z.eq_dec x o) as [<-|NE].
      * rewrite store_same, CO by auto. lia.
      * rewrite store_other by (unfold count_of; intros [=]; lia). rewrite CO by auto. lia.
  - assert (HH : M Head = zlen s) by apply H. cbn [exec]. rewrite HH, index_position. cbn [names] in NM. destruct (position s i) as [n|] eqn:P.
    2:{ cbn. split; [reflexivity|]. exists extra. split; [split; auto|]. intros o _. split; [lia|auto]. }
    assert (L := position_lt s i n P). cbn [exec fst snd]. split; [reflexivity|].
    set (x := nth n s 0). exists (fun o => extra o + (if Z.eq_dec x o then 1 else 0)).
    split; [|intros o _; split; [destruct (Z.eq_dec x o); lia|discriminate]].
    rewrite (store_other M (Cell (Z.of_nat n)) v (count_of v)) by (unfold count_of; intros [=]; lia).
    assert (LD : length (firstn n s ++ v :: skipn (S n) s) = length s) by (rewrite app_length; cbn [length]; rewrite firstn_length, skipn_length; lia).
    split; [split|split].
    + rewrite !store_other by discriminate. unfold zlen. rewrite LD. exact HH.
    + intros j w J. rewrite (store_other _ (count_of v)) by (unfold count_of; intros [=]; lia). rewrite nth_error_put in J by exact L.
      destruct (Nat.eqb_spec j n) as [->|NE]; [injection J as <-; apply store_same|]. rewrite store_other by (intros [=]; lia). now apply H.
    + apply Forall_app. split; [apply nonneg_parts; exact NN|]. constructor; [exact NM|]. apply nonneg_parts. exact NN.
    + intros o O.
      assert (S1 : occurs o (firstn n s ++ v :: skipn (S n) s) + (if Z.eq_dec x o then 1 else 0) = occurs o s + (if Z.eq_dec v o then 1 else 0)).
      { rewrite (cut_at s n L) at 3. rewrite !occurs_app, !occurs_cons. fold x. lia. }
      destruct (Z.eq_dec v o) as [<-|NE].
      * rewrite store_same, CO by auto. lia.
      * rewrite !store_other by (unfold count_of; intros [=]; lia). rewrite CO by auto. lia.
Qed.

Lemma ocloses c : closes true (oprog c).
Proof.
  assert (MD : forall m i k, closes true k -> closes true (move_down m i k)) by (induction m as [|m IH]; intros i k K; cbn; auto).
  destruct c as [| |i|i v]; cbn [oprog closes].
  - reflexivity.
  - split; [reflexivity|]. intros n. apply closes_swap. split; [reflexivity|]. now eexists.
  - intros n. destruct (index_of n i); cbn; [|reflexivity]. intros _ _ n'. apply MD. reflexivity.
  - intros n. destruct (index_of n i); cbn; [|reflexivity]. auto.
Qed.

(** ** Calls in turn *)
Lemma oturn_cons t c r s : oturn ((t, c) :: r) s =
  ((t, fst (oalone c s)) :: fst (oturn r (snd (oalone c s))), snd (oturn r (snd (oalone c s)))).
Proof. cbn [oturn]. destruct (oalone c s) as [a s1]. cbn. now destruct (oturn r s1). Qed.
Lemma oturn_execs order : forall M s extra, counted M s extra -> Forall (fun x => names (snd x)) order ->
  fst (execs (map (fun x => (fst x, oprog (snd x))) order) M) = fst (oturn order s) /\
  exists extra', counted (snd (execs (map (fun x => (fst x, oprog (snd x))) order) M)) (snd (oturn order s)) extra' /\
    forall o, 0 <= o -> extra o <= extra' o /\ ((forall x, In x order -> stores_one (snd x) = false) -> extra' o = extra o).
Proof.
  induction order as [|[t c] r IH]; intros M s extra H F.
  - cbn. split; [reflexivity|]. exists extra. split; [exact H|]. intros o _. split; [lia|auto].
  - inversion F as [|? ? NC F']; subst. cbn [map fst snd] in *. rewrite execs_cons, oturn_cons. cbn [fst snd].
    destruct (oexec c M s extra H NC) as [E (e1 & H1 & D1)]. destruct (IH _ _ _ H1 F') as [E2 (e2 & H2 & D2)]. split; [congruence|].
    exists e2. split; [exact H2|]. intros o O. destruct (D1 o O) as [A B], (D2 o O) as [C D]. split; [lia|]. intros X. rewrite D, B; auto.
    + apply (X (t, c)). now left.
    + intros x I. apply X. now right.
Qed.
Lemma counted_ext M N s extra : same M N -> counted M s extra -> counted N s extra.
Proof.
  intros E (H & F & C). split; [eapply holds_same; eauto|]. split; [exact F|]. intros o O. rewrite <- (E (count_of o)). auto.
Qed.
Lemma oserial M s extra calls c : counted M s extra -> (forall t o, In o (calls t) -> names o) -> race_free (ostart M calls) ->
  reaches (ostart M calls) c -> quiet c ->
  exists order extra', counted (mem c) (snd (oturn order s)) extra' /\
    (forall o, 0 <= o -> extra o <= extra' o /\ ((forall t b, In b (calls t) -> stores_one b = false) -> extra' o = extra o)) /\
    forall t, answers (thr c t) = of_thread t (fst (oturn order s)) /\
      exists rest, calls t = of_thread t order ++ rest /\ todo (thr c t) = map oprog rest.
Proof.
  intros H NM RF R Q. destruct (reaches_serial (ostart M calls)) with (c := c) as (log & busy & I); auto.
  - intros u. cbn. apply Forall_forall. intros p X. apply in_map_iff in X. destruct X as (x & <- & _). apply ocloses.
  - intros t. reflexivity.
  - assert (B : busy = []).
    { destruct busy as [|[t p] r]; [reflexivity|]. pose proof (proj2 (s_now _ _ _ _ _ I t p) (or_introl eq_refl)).
      rewrite (Q t) in *. discriminate. }
    subst busy. destruct (calls_of_log oprog calls log (fun t => todo (thr c t))) as (order & -> & P).
    { intros t. exact (s_todo _ _ _ _ _ I t). }
    assert (IN : forall x, In x order -> In (snd x) (calls (fst x))).
    { intros [t b] X. cbn. destruct (P t) as (m & <- & _). apply in_or_app. left. unfold of_thread. apply in_map_iff. exists (t, b).
      split; [reflexivity|]. apply filter_In. split; [exact X|]. cbn. apply Nat.eqb_refl. }
    destruct (oturn_execs order M s extra H) as [E1 (e & E2 & D)].
    { apply Forall_forall. intros x X. apply (NM (fst x)). auto. }
    exists order, e. split; [|split].
    + eapply counted_ext; [|exact E2]. exact (s_mem _ _ _ _ _ I).
    + intros o O. destruct (D o O) as [D1 D2]. split; [exact D1|]. intros Y. apply D2. intros x X. apply (Y (fst x)). auto.
    + intros t. split.
      * pose proof (s_answers _ _ _ _ _ I t) as X. cbn in X. rewrite app_nil_r in X. rewrite <- X. cbn [mem ostart begin]. now rewrite E1.
      * destruct (P t) as (m & P1 & P2). exists m. auto.
Qed.
Lemma olocked M calls : (forall t o, In o (calls t) -> o <> BReverse) -> race_free (ostart M calls).
Proof.
  intros H. apply (begin_race_free (fun _ => Guarded)). intros t p X. apply in_map_iff in X. destruct X as (o & <- & X). apply H in X.
  assert (MD : forall m i k, obeys (fun _ => Guarded) t true k -> obeys (fun _ => Guarded) t true (move_down m i k)).
  { induction m as [|m IH]; intros i k K; cbn; auto. }
  destruct o as [| |i|i v]; [cbn; auto|congruence| |]; cbn [oprog obeys]; (split; [reflexivity|]); intros n; destruct (index_of n i); cbn; auto.
  split; [reflexivity|]. intros _. split; [reflexivity|]. intros _. split; [reflexivity|]. split; [reflexivity|]. intros n'. apply MD. cbn. auto.
Qed.
Lemma oowner M calls u : (forall o, In o (calls u) -> o = BReverse \/ o = BLen) -> (forall t o, t <> u -> In o (calls t) -> o = BLen) ->
  race_free (ostart M calls).
Proof.
  intros H1 H2. apply (begin_race_free (owner_rules u)). intros t p X. apply in_map_iff in X. destruct X as (o & <- & X).
  assert (LEN : obeys (owner_rules u) t true (oprog BLen)) by (cbn; auto).
  destruct (Nat.eq_dec t u) as [->|N]; [|rewrite (H2 t o N X); exact LEN]. destruct (H1 o X) as [-> | ->]; [|exact LEN].
  cbn. split; [reflexivity|]. split; [exact I|]. intros n. apply obeys_swap; cbn; auto.
Qed.

(** ** A reference lost *)
Lemma two_counted a b : 0 <= a -> 0 <= b -> a <> b -> counted (two_objects a b) [a; b] (fun _ => 0).
Proof.
  intros A B N. split; [split; [reflexivity|]|split; [auto|]].
  - intros [|[|i]] v E; cbn in E; [injection E as <-; reflexivity|injection E as <-; reflexivity|destruct i; discriminate].
  - intros o O. unfold two_objects, count_of. destruct (Z.eqb_spec (-1 - o) 0); [lia|]. destruct (Z.eqb_spec (-1 - o) 1); [lia|].
    rewrite !occurs_cons. unfold occurs. cbn [count_occ].
    destruct (Z.eqb_spec (-1 - o) (-1 - a)), (Z.eqb_spec (-1 - o) (-1 - b)), (Z.eq_dec a o), (Z.eq_dec b o); cbn [orb]; lia.
Qed.
Definition two_calls (t : nat) : list oop := match t with 0%nat => [BReverse] | 1%nat => [BDel 0] | _ => [] end.
Lemma reference_lost a b : 0 <= a -> 0 <= b -> a <> b -> exists c,
  reaches (ostart (two_objects a b) two_calls) c /\ quiet c /\ (forall t, todo (thr c t) = []) /\
  holds (mem c) [b] /\ mem c (count_of b) = 0 /\ mem c (count_of a) = 1.
Proof.
  intros A B N. set (c0 := ostart (two_objects a b) two_calls).
  set (ts := [0; 0; 0; 0; 0; 0; 1; 1; 1; 1; 1; 1; 1; 1; 1; 1; 0; 0; 0]%nat).
  assert (E : fires ts c0 = Some (match fires ts c0 with Some c => c | None => c0 end)).
  { assert (X : match fires ts c0 with Some _ => true | None => false end = true) by (vm_compute; reflexivity).
    destruct (fires ts c0); [reflexivity|discriminate]. }
  set (M0 := two_objects a b). set (M1 := store M0 (Cell 0) (M0 (Cell 1))).
  set (M2 := store M1 (count_of (M1 (Cell 0))) (M1 (count_of (M1 (Cell 0))) - 1)).
  set (M3 := store M2 (Cell 0) (M2 (Cell 1))). set (M4 := store M3 Head 1). set (M5 := store M4 (Cell 1) (M0 (Cell 0))).
  assert (EM : mem (match fires ts c0 with Some c => c | None => c0 end) = M5) by (vm_compute; reflexivity).
  exists (match fires ts c0 with Some c => c | None => c0 end). split; [eapply fires_reaches; exact E|]. clear E.
  split; [intros [|[|t]]; vm_compute; reflexivity|]. split; [intros [|[|t]]; vm_compute; reflexivity|]. rewrite EM. clear EM.
  destruct (two_counted a b A B N) as (_ & _ & CO). pose proof (CO a A) as CA. pose proof (CO b B) as CB.
  rewrite !occurs_cons in CA, CB. unfold occurs in CA, CB. cbn [count_occ] in CA, CB.
  destruct (Z.eq_dec a a); [|congruence]. destruct (Z.eq_dec b b); [|congruence]. destruct (Z.eq_dec a b); [congruence|]. destruct (Z.eq_dec b a); [congruence|].
  fold M0 in CA, CB. change (Z.of_nat 0) with 0 in CA, CB.
  assert (E1 : M1 (Cell 0) = b) by (unfold M1; apply store_same).
  assert (E2 : M1 (count_of b) = 1) by (unfold M1; rewrite store_other by (unfold count_of; intros [=]; lia); lia).
  assert (E3 : M2 (Cell 1) = b) by (unfold M2; rewrite E1, store_other by (unfold count_of; intros [=]; lia); unfold M1; rewrite store_other by discriminate; reflexivity).
  split; [split|split].
  - unfold M5. rewrite store_other by discriminate. unfold M4. apply store_same.
  - intros [|i] v V; cbn in V; [injection V as <-|destruct i; discriminate]. unfold M5. rewrite store_other by discriminate.
    unfold M4. rewrite store_other by discriminate. unfold M3. rewrite E3. apply store_same.
  - unfold M5, M4, M3. rewrite !store_other by (try discriminate; unfold count_of; intros [=]; lia). unfold M2. rewrite E1, store_same, E2. reflexivity.
  - unfold M5, M4, M3. rewrite !store_other by (try discriminate; unfold count_of; intros [=]; lia). unfold M2. rewrite E1.
    rewrite store_other by (unfold count_of; intros [=]; lia). unfold M1. rewrite store_other by (unfold count_of; intros [=]; lia). lia.
Qed.
