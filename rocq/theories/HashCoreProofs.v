(** Buckets as a ring, and what the loops that move buckets do. *)
From Coq Require Import ZArith List Bool Lia.
From Verif Require Import Base HashModel.
Import ListNotations.
Local Open Scope Z_scope.
Local Arguments Z.pow : simpl never.
Local Arguments Z.mul : simpl never.
Local Arguments Z.add : simpl never.
Local Arguments Z.sub : simpl never.
Local Arguments Z.modulo : simpl never.
Local Arguments Z.div : simpl never.

Definition size_of (bs : list bucket) : Z := Z.of_nat (length bs).
Definition bk (bs : list bucket) (x : Z) : bucket := nth (Z.to_nat (x mod size_of bs)) bs (Bk 0 0).

Lemma bk_cong : forall bs x y, x mod size_of bs = y mod size_of bs -> bk bs x = bk bs y.
Proof. intros bs x y H; unfold bk; rewrite H; reflexivity. Qed.

Lemma bk_off : forall bs p x, 0 < size_of bs -> bk bs x = bk bs (p + (x - p) mod size_of bs).
Proof.
  intros bs p x H; apply bk_cong. rewrite Zplus_mod_idemp_r. f_equal; lia.
Qed.

Lemma bk_modl : forall bs x i, 0 < size_of bs -> bk bs (x mod size_of bs + i) = bk bs (x + i).
Proof. intros bs x i H; apply bk_cong. apply Zplus_mod_idemp_l. Qed.

Lemma at_bk : forall bs p, 0 <= p < size_of bs -> at_ bs p = Ok (bk bs p).
Proof.
  intros bs p H; unfold at_, bk. destruct (p <? 0) eqn:E; [apply Z.ltb_lt in E; lia|].
  rewrite Z.mod_small by lia.
  rewrite (nth_error_nth' bs (Bk 0 0)); [reflexivity|]. unfold size_of in H; lia.
Qed.

Lemma set_nth_length : forall A (l : list A) i x, length (set_nth l i x) = length l.
Proof. induction l as [|y l IH]; intros [|i] x; cbn; auto. Qed.
Lemma set_nth_same : forall A (l : list A) i x, (i < length l)%nat -> nth_error (set_nth l i x) i = Some x.
Proof. induction l as [|y l IH]; intros [|i] x H; cbn in *; try lia; [reflexivity|]. apply IH; lia. Qed.
Lemma set_nth_other : forall A (l : list A) i j x, i <> j -> nth_error (set_nth l i x) j = nth_error l j.
Proof.
  induction l as [|y l IH]; intros [|i] [|j] x H; cbn; try reflexivity; try congruence.
  apply IH; congruence.
Qed.
Lemma nth_of_error : forall A (l : list A) i d, nth i l d = match nth_error l i with Some x => x | None => d end.
Proof. induction l as [|y l IH]; intros [|i] d; cbn; auto. Qed.

Lemma set_ok : forall bs p b, 0 <= p < size_of bs ->
  set_ bs p b = Ok (set_nth bs (Z.to_nat p) b).
Proof.
  intros bs p b H; unfold set_. unfold size_of in H.
  destruct (p <? 0) eqn:E; [apply Z.ltb_lt in E; lia|].
  destruct (Z.of_nat (length bs) <=? p) eqn:E2; [apply Z.leb_le in E2; lia|]. reflexivity.
Qed.
Lemma size_set : forall bs i b, size_of (set_nth bs i b) = size_of bs.
Proof. intros; unfold size_of; rewrite set_nth_length; reflexivity. Qed.

Lemma bk_set : forall bs p b x, 0 <= p < size_of bs ->
  bk (set_nth bs (Z.to_nat p) b) x = if x mod size_of bs =? p then b else bk bs x.
Proof.
  intros bs p b x H; unfold bk; rewrite size_set.
  pose proof (Z.mod_pos_bound x (size_of bs)) as M.
  destruct (x mod size_of bs =? p) eqn:E.
  - apply Z.eqb_eq in E; rewrite E. rewrite nth_of_error, set_nth_same; [reflexivity|]. unfold size_of in H; lia.
  - apply Z.eqb_neq in E. rewrite !nth_of_error, set_nth_other; [reflexivity|]. lia.
Qed.
Lemma bk_set_at : forall bs p b, 0 <= p < size_of bs -> bk (set_nth bs (Z.to_nat p) b) p = b.
Proof. intros bs p b H; rewrite bk_set by assumption. rewrite Z.mod_small, Z.eqb_refl by assumption; reflexivity. Qed.
Lemma off_ne : forall N p k, 0 <= p < N -> 0 < k < N -> (p + k) mod N <> p.
Proof.
  intros N p k Hp Hk E.
  destruct (Z_lt_le_dec (p + k) N) as [L|L].
  - rewrite Z.mod_small in E by lia; lia.
  - replace (p + k) with ((p + k - N) + 1 * N) in E by lia. rewrite Z_mod_plus_full, Z.mod_small in E by lia. lia.
Qed.
Lemma bk_set_off : forall bs p b k, 0 <= p < size_of bs -> 0 < k < size_of bs ->
  bk (set_nth bs (Z.to_nat p) b) (p + k) = bk bs (p + k).
Proof.
  intros bs p b k H K; rewrite bk_set by assumption.
  destruct ((p + k) mod size_of bs =? p) eqn:E; [|reflexivity].
  apply Z.eqb_eq in E. exfalso; revert E; apply off_ne; assumption.
Qed.

Lemma next_mod : forall bs p, 0 <= p < size_of bs -> size_of bs <= 2 ^ 32 -> next bs p = (p + 1) mod size_of bs.
Proof.
  intros bs p H B; unfold next, wrap32. fold (size_of bs).
  destruct (Z.eq_dec (p + 1) (size_of bs)) as [E|E].
  - rewrite E, Z_mod_same_full.
    destruct (Z.eq_dec (size_of bs) (2 ^ 32)) as [F|F].
    + rewrite F, Z_mod_same_full. reflexivity.
    + rewrite Z.mod_small by lia. rewrite Z.eqb_refl; reflexivity.
  - rewrite (Z.mod_small (p + 1) (2 ^ 32)) by lia.
    destruct (p + 1 =? size_of bs) eqn:F; [apply Z.eqb_eq in F; lia|].
    rewrite Z.mod_small by lia; reflexivity.
Qed.
Lemma next_range : forall bs p, 0 <= p < size_of bs -> size_of bs <= 2 ^ 32 -> 0 <= next bs p < size_of bs.
Proof. intros bs p H B; rewrite next_mod by assumption. apply Z.mod_pos_bound; lia. Qed.

Definition up (b : bucket) : bucket := Bk (dist_inc (daf b)) (vidx b).
Definition down (b : bucket) : bucket := Bk (dist_dec (daf b)) (vidx b).

(** place_and_shift_up: everything from [p] to the next empty bucket moves up. *)
Lemma place_ok : forall (j n : nat) bs b p,
  0 <= p < size_of bs -> size_of bs <= 2 ^ 32 ->
  (forall i, 0 <= i < Z.of_nat j -> daf (bk bs (p + i)) <> 0) ->
  daf (bk bs (p + Z.of_nat j)) = 0 -> Z.of_nat j < size_of bs -> (j < n)%nat ->
  exists bs', place n bs b p = Ok bs' /\ size_of bs' = size_of bs /\ bk bs' p = b /\
    (forall i, 1 <= i <= Z.of_nat j -> bk bs' (p + i) = up (bk bs (p + i - 1))) /\
    (forall i, Z.of_nat j < i < size_of bs -> bk bs' (p + i) = bk bs (p + i)).
Proof.
  induction j as [|j IH]; intros n bs b p Hp HN Hocc Hemp Hj Hn; (destruct n as [|n]; [lia|]); cbn [place].
  - rewrite at_bk by assumption. cbn [rbind].
    replace (p + Z.of_nat 0) with p in Hemp by lia. rewrite Hemp. cbn [Z.eqb].
    rewrite set_ok by assumption. eexists; split; [reflexivity|]. rewrite size_set.
    split; [reflexivity|]. split; [apply bk_set_at; assumption|].
    split; [intros i Hi; lia|]. intros i Hi. apply bk_set_off; [assumption|lia].
  - rewrite at_bk by assumption. cbn [rbind].
    assert (H0 : daf (bk bs p) <> 0) by (replace p with (p + 0) by lia; apply Hocc; lia).
    destruct (daf (bk bs p) =? 0) eqn:E; [apply Z.eqb_eq in E; contradiction|].
    rewrite set_ok by assumption. cbn [rbind].
    set (bs1 := set_nth bs (Z.to_nat p) b).
    assert (S1 : size_of bs1 = size_of bs) by (unfold bs1; apply size_set).
    assert (OFF : forall i, 0 <= i < size_of bs - 1 -> bk bs1 (next bs p + i) = bk bs (p + 1 + i)).
    { intros i Hi. rewrite next_mod by assumption. rewrite <- S1, bk_modl by lia.
      replace (p + 1 + i) with (p + (1 + i)) by lia. unfold bs1. apply bk_set_off; [assumption|lia]. }
    destruct (IH n bs1 (up (bk bs p)) (next bs p)) as (bs' & E1 & E2 & E3 & E4 & E5).
    + rewrite S1; apply next_range; assumption.
    + rewrite S1; assumption.
    + intros i Hi. rewrite OFF by lia. replace (p + 1 + i) with (p + (1 + i)) by lia. apply Hocc; lia.
    + rewrite OFF by lia. rewrite <- Hemp. do 2 f_equal; lia.
    + rewrite S1; lia.
    + lia.
    + fold (up (bk bs p)). exists bs'. split; [exact E1|]. rewrite E2, S1. split; [reflexivity|].
      assert (BK : forall i, bk bs' (next bs p + i) = bk bs' (p + 1 + i)).
      { intros i. rewrite next_mod by assumption. rewrite <- S1, <- E2. apply bk_modl. lia. }
      split; [|split].
      * (* p is the last offset from p + 1 *)
        assert (Q : bk bs' (next bs p + (size_of bs - 1)) = b).
        { rewrite E5 by (rewrite S1; lia).
          rewrite next_mod by assumption. rewrite <- S1, bk_modl, S1 by lia.
          rewrite <- (bk_set_at bs p b) by assumption. apply bk_cong.
          fold bs1. rewrite S1. replace (p + 1 + (size_of bs - 1)) with (p + 1 * size_of bs) by lia. apply Z_mod_plus_full. }
        rewrite BK in Q. rewrite <- Q. apply bk_cong. rewrite E2, S1.
        replace (p + 1 + (size_of bs - 1)) with (p + 1 * size_of bs) by lia. symmetry; apply Z_mod_plus_full.
      * intros i Hi. replace (p + i) with (p + 1 + (i - 1)) by lia. rewrite <- BK.
        destruct (Z.eq_dec i 1) as [->|Ne].
        -- replace (next bs p + (1 - 1)) with (next bs p) by lia. rewrite E3. do 2 f_equal; lia.
        -- rewrite E4 by lia. replace (next bs p + (i - 1) - 1) with (next bs p + (i - 2)) by lia.
           rewrite OFF by lia. do 2 f_equal; lia.
      * intros i Hi. replace (p + i) with (p + 1 + (i - 1)) by lia. rewrite <- BK.
        rewrite E5 by (rewrite S1; lia). rewrite OFF by lia. reflexivity.
Qed.

(** The shift down of do_erase. *)
Lemma shift_down_ok : forall (j n : nat) bs p,
  0 <= p < size_of bs -> size_of bs <= 2 ^ 32 ->
  (forall i, 0 <= i < Z.of_nat j -> 512 <= daf (bk bs (p + 1 + i))) ->
  daf (bk bs (p + 1 + Z.of_nat j)) < 512 -> Z.of_nat j + 1 < size_of bs -> (j < n)%nat ->
  exists bs', shift_down n bs p (next bs p) = Ok bs' /\ size_of bs' = size_of bs /\
    (forall i, 0 <= i < Z.of_nat j -> bk bs' (p + i) = down (bk bs (p + i + 1))) /\
    bk bs' (p + Z.of_nat j) = Bk 0 0 /\
    (forall i, Z.of_nat j < i < size_of bs -> bk bs' (p + i) = bk bs (p + i)).
Proof.
  induction j as [|j IH]; intros n bs p Hp HN Hocc Hemp Hj Hn; (destruct n as [|n]; [lia|]); cbn [shift_down];
    (assert (Hq : bk bs (next bs p) = bk bs (p + 1)) by (rewrite next_mod by assumption; replace ((p + 1) mod size_of bs) with ((p + 1) mod size_of bs + 0) by lia; rewrite bk_modl by lia; f_equal; lia)).
  - rewrite at_bk by (apply next_range; assumption). cbn [rbind]. rewrite Hq.
    replace (p + 1 + Z.of_nat 0) with (p + 1) in Hemp by lia.
    destruct (2 * dist_step <=? daf (bk bs (p + 1))) eqn:E; [apply Z.leb_le in E; unfold dist_step in E; lia|].
    rewrite set_ok by assumption. eexists; split; [reflexivity|]. rewrite size_set. split; [reflexivity|].
    split; [intros; lia|]. split.
    + replace (p + Z.of_nat 0) with p by lia. apply bk_set_at; assumption.
    + intros i Hi. apply bk_set_off; [assumption|lia].
  - rewrite at_bk by (apply next_range; assumption). cbn [rbind]. rewrite Hq.
    assert (H0 : 512 <= daf (bk bs (p + 1))) by (replace (p + 1) with (p + 1 + 0) by lia; apply Hocc; lia).
    destruct (2 * dist_step <=? daf (bk bs (p + 1))) eqn:E; [|apply Z.leb_gt in E; unfold dist_step in E; lia].
    rewrite set_ok by assumption. cbn [rbind]. fold (down (bk bs (p + 1))).
    set (bs1 := set_nth bs (Z.to_nat p) (down (bk bs (p + 1)))).
    assert (S1 : size_of bs1 = size_of bs) by (unfold bs1; apply size_set).
    assert (NX : next bs (next bs p) = next bs1 (next bs p)) by (unfold next; unfold size_of in S1; rewrite S1; reflexivity).
    rewrite NX.
    assert (OFF : forall i, 0 <= i < size_of bs - 1 -> bk bs1 (next bs p + i) = bk bs (p + 1 + i)).
    { intros i Hi. rewrite next_mod by assumption. rewrite <- S1, bk_modl by lia.
      replace (p + 1 + i) with (p + (1 + i)) by lia. unfold bs1. apply bk_set_off; [assumption|lia]. }
    destruct (IH n bs1 (next bs p)) as (bs' & E1 & E2 & E3 & E4 & E5).
    + rewrite S1; apply next_range; assumption.
    + rewrite S1; assumption.
    + intros i Hi. replace (next bs p + 1 + i) with (next bs p + (1 + i)) by lia. rewrite OFF by lia.
      apply Hocc; lia.
    + replace (next bs p + 1 + Z.of_nat j) with (next bs p + (1 + Z.of_nat j)) by lia. rewrite OFF by lia.
      replace (p + 1 + (1 + Z.of_nat j)) with (p + 1 + Z.of_nat (S j)) by lia. exact Hemp.
    + rewrite S1; lia.
    + lia.
    + exists bs'. split; [exact E1|]. rewrite E2, S1. split; [reflexivity|].
      assert (BK : forall i, bk bs' (next bs p + i) = bk bs' (p + 1 + i)).
      { intros i. rewrite next_mod by assumption. rewrite <- S1, <- E2. apply bk_modl. lia. }
      split; [|split].
      * intros i Hi. destruct (Z.eq_dec i 0) as [->|Ne].
        -- assert (Q : bk bs' (next bs p + (size_of bs - 1)) = down (bk bs (p + 1))).
           { rewrite E5 by (rewrite S1; lia).
             rewrite next_mod by assumption. rewrite <- S1, bk_modl, S1 by lia.
             rewrite <- (bk_set_at bs p (down (bk bs (p + 1)))) by assumption. apply bk_cong.
             fold bs1. rewrite S1. replace (p + 1 + (size_of bs - 1)) with (p + 1 * size_of bs) by lia. apply Z_mod_plus_full. }
           rewrite BK in Q. replace (p + 0 + 1) with (p + 1) by lia. rewrite <- Q. apply bk_cong. rewrite E2, S1.
           replace (p + 1 + (size_of bs - 1)) with (p + 0 + 1 * size_of bs) by lia. symmetry; apply Z_mod_plus_full.
        -- replace (p + i) with (p + 1 + (i - 1)) by lia. rewrite <- BK, E3 by lia.
           replace (next bs p + (i - 1) + 1) with (next bs p + i) by lia. rewrite OFF by lia. do 2 f_equal; lia.
      * replace (p + Z.of_nat (S j)) with (p + 1 + Z.of_nat j) by lia. rewrite <- BK. exact E4.
      * intros i Hi. replace (p + i) with (p + 1 + (i - 1)) by lia. rewrite <- BK.
        rewrite E5 by (rewrite S1; lia). rewrite OFF by lia. reflexivity.
Qed.

(** The least offset at which a test holds. *)
Lemma least : forall (f : Z -> bool) (n : nat), (exists i, 0 <= i < Z.of_nat n /\ f i = true) ->
  exists j : nat, (j < n)%nat /\ f (Z.of_nat j) = true /\ forall i, 0 <= i < Z.of_nat j -> f i = false.
Proof.
  induction n as [|n IH]; intros (i & Hi & Fi); [lia|].
  destruct (existsb f (map Z.of_nat (seq 0 n))) eqn:E.
  - apply existsb_exists in E. destruct E as (x & Ix & Fx). apply in_map_iff in Ix.
    destruct Ix as (m & <- & Im). apply in_seq in Im.
    destruct IH as (j & Hj & Fj & Lj); [exists (Z.of_nat m); split; [lia|assumption]|].
    exists j; split; [lia|]. split; assumption.
  - exists n. split; [lia|].
    assert (A : forall i, 0 <= i < Z.of_nat n -> f i = false).
    { intros k Hk. destruct (f k) eqn:Fk; [|reflexivity]. exfalso.
      assert (T : existsb f (map Z.of_nat (seq 0 n)) = true); [|congruence].
      apply existsb_exists. exists k; split; [|assumption]. apply in_map_iff. exists (Z.to_nat k).
      split; [lia|]. apply in_seq; lia. }
    split; [|assumption].
    destruct (Z.eq_dec i (Z.of_nat n)) as [<-|Ne]; [assumption|]. rewrite A in Fi by lia; discriminate.
Qed.
