(** List facts used by the container proofs. *)
From Coq Require Import ZArith List Bool Lia Sorted.
From Verif Require Import Base PyListSpec.
Import ListNotations.
Local Open Scope Z_scope.

Lemma zlen_nonneg {A} (s : list A) : 0 <= zlen s.
Proof. unfold zlen; lia. Qed.

Lemma zlen_app {A} (a b : list A) : zlen (a ++ b) = zlen a + zlen b.
Proof. unfold zlen. rewrite app_length. lia. Qed.

Lemma zlen_cons {A} (x : A) b : zlen (x :: b) = 1 + zlen b.
Proof. unfold zlen. cbn [length]. lia. Qed.

Lemma zlen_map {A B} (f : A -> B) s : zlen (map f s) = zlen s.
Proof. unfold zlen. rewrite map_length. reflexivity. Qed.

Lemma znth_mid {A} (a : list A) x b i : i = zlen a -> znth (a ++ x :: b) i = Some x.
Proof.
  intros ->. unfold znth, zlen. destruct (Z.ltb_spec (Z.of_nat (length a)) 0); [lia|].
  rewrite Nat2Z.id, nth_error_app2, Nat.sub_diag by lia. reflexivity.
Qed.

Lemma znth_some {A} (s : list A) i x : znth s i = Some x -> 0 <= i < zlen s.
Proof.
  unfold znth, zlen. destruct (Z.ltb_spec i 0); [discriminate|]. intros E.
  assert (Z.to_nat i < length s)%nat by (apply nth_error_Some; congruence). lia.
Qed.

Lemma znth_none {A} (s : list A) i : znth s i = None -> ~ (0 <= i < zlen s).
Proof.
  unfold znth, zlen. destruct (Z.ltb_spec i 0); [lia|]. intros E.
  apply nth_error_None in E. lia.
Qed.

Lemma znth_in {A} (s : list A) i : 0 <= i < zlen s -> exists x, znth s i = Some x.
Proof.
  intros H. destruct (znth s i) eqn:E; [eauto|]. apply znth_none in E. lia.
Qed.

(** Every valid position splits the list. *)
Lemma zsplit {A} (s : list A) i : 0 <= i < zlen s ->
  exists a x b, s = a ++ x :: b /\ zlen a = i.
Proof.
  intros H. destruct (znth_in s i H) as [x E]. unfold znth in E.
  destruct (Z.ltb_spec i 0); [lia|]. apply nth_error_split in E.
  destruct E as (a & b & -> & L). exists a, x, b. split; [reflexivity|unfold zlen; lia].
Qed.

Lemma zsplit_le {A} (s : list A) i : 0 <= i <= zlen s -> exists a b, s = a ++ b /\ zlen a = i.
Proof.
  intros H. exists (firstn (Z.to_nat i) s), (skipn (Z.to_nat i) s).
  rewrite firstn_skipn. split; [reflexivity|]. unfold zlen in *. rewrite firstn_length. lia.
Qed.

Lemma nset_mid {A} (a : list A) x b v : nset (a ++ x :: b) (length a) v = Some (a ++ v :: b).
Proof. induction a; cbn; [reflexivity|rewrite IHa; reflexivity]. Qed.
Lemma zset_mid {A} (a : list A) x b v i : i = zlen a -> zset (a ++ x :: b) i v = Some (a ++ v :: b).
Proof.
  intros ->. unfold zset. destruct (Z.ltb_spec (zlen a) 0); [unfold zlen in *; lia|].
  unfold zlen. rewrite Nat2Z.id. apply nset_mid.
Qed.

Lemma ninsert_mid {A} (a : list A) b v : ninsert (a ++ b) (length a) v = Some (a ++ v :: b).
Proof. induction a; cbn; [destruct b; reflexivity|rewrite IHa; reflexivity]. Qed.
Lemma zinsert_mid {A} (a : list A) b v i : i = zlen a -> zinsert (a ++ b) i v = Some (a ++ v :: b).
Proof.
  intros ->. unfold zinsert. destruct (Z.ltb_spec (zlen a) 0); [unfold zlen in *; lia|].
  unfold zlen. rewrite Nat2Z.id. apply ninsert_mid.
Qed.

Lemma nerase_mid {A} (a : list A) x b : nerase (a ++ x :: b) (length a) = Some (a ++ b).
Proof. induction a; cbn; [reflexivity|rewrite IHa; reflexivity]. Qed.
Lemma zerase_mid {A} (a : list A) x b i : i = zlen a -> zerase (a ++ x :: b) i = Some (a ++ b).
Proof.
  intros ->. unfold zerase. destruct (Z.ltb_spec (zlen a) 0); [unfold zlen in *; lia|].
  unfold zlen. rewrite Nat2Z.id. apply nerase_mid.
Qed.

Lemma zerase_range_mid {A} (a b c : list A) i j : i = zlen a -> j = zlen a + zlen b ->
  zerase_range (a ++ b ++ c) i j = Some (a ++ c).
Proof.
  intros -> ->. unfold zerase_range. pose proof (zlen_nonneg a). pose proof (zlen_nonneg b). pose proof (zlen_nonneg c).
  rewrite !zlen_app.
  destruct (Z.leb_spec 0 (zlen a)); [|lia]. destruct (Z.leb_spec (zlen a) (zlen a + zlen b)); [|lia].
  destruct (Z.leb_spec (zlen a + zlen b) (zlen a + (zlen b + zlen c))); [|lia]. cbn [andb]. f_equal.
  unfold zlen. rewrite Nat2Z.id.
  replace (Z.to_nat (Z.of_nat (length a) + Z.of_nat (length b))) with (length (a ++ b)) by (rewrite app_length; lia).
  rewrite firstn_app, Nat.sub_diag, firstn_all. cbn [firstn]. rewrite app_nil_r. f_equal.
  rewrite app_assoc, skipn_app, skipn_all, Nat.sub_diag. reflexivity.
Qed.

Lemma firstn_zlen {A} (a b : list A) i : i = zlen a -> firstn (Z.to_nat i) (a ++ b) = a.
Proof.
  intros ->. unfold zlen. rewrite Nat2Z.id, firstn_app, Nat.sub_diag, firstn_all. cbn. apply app_nil_r.
Qed.
Lemma skipn_zlen {A} (a b : list A) i : i = zlen a -> skipn (Z.to_nat i) (a ++ b) = b.
Proof.
  intros ->. unfold zlen. rewrite Nat2Z.id, skipn_app, Nat.sub_diag, skipn_all. reflexivity.
Qed.
Lemma skipn1_zlen {A} (a : list A) x b i : i = zlen a -> skipn (Z.to_nat i + 1) (a ++ x :: b) = b.
Proof.
  intros ->. unfold zlen. rewrite Nat2Z.id, skipn_app, skipn_all2 by lia.
  replace (length a + 1 - length a)%nat with 1%nat by lia. reflexivity.
Qed.

Lemma get_default_mid (a : list Z) x b i : i = zlen a -> get_default (a ++ x :: b) i = x.
Proof.
  intros ->. unfold get_default, zlen. rewrite Nat2Z.id. rewrite app_nth2, Nat.sub_diag by lia. reflexivity.
Qed.

Lemma znth_default (s : list Z) i : 0 <= i < zlen s -> znth s i = Some (get_default s i).
Proof.
  intros H. destruct (zsplit s i H) as (a & x & b & -> & <-).
  rewrite znth_mid, get_default_mid by reflexivity. reflexivity.
Qed.

Lemma get_default_znth (s : list Z) i x : znth s i = Some x -> get_default s i = x.
Proof. intros E. pose proof (znth_some _ _ _ E). rewrite znth_default in E by assumption. congruence. Qed.

(** Positions *)
Lemma in_positions n x : In x (positions n) <-> 0 <= x < Z.of_nat n.
Proof.
  unfold positions. rewrite in_map_iff. split.
  - intros (y & <- & H). apply in_seq in H. lia.
  - intros H. exists (Z.to_nat x). split; [lia|]. apply in_seq. lia.
Qed.

Lemma seq_ss a n : StronglySorted Z.lt (map Z.of_nat (seq a n)).
Proof.
  revert a; induction n; intros a; cbn; constructor; auto.
  rewrite Forall_forall. intros x Hx. apply in_map_iff in Hx. destruct Hx as (y & <- & H).
  apply in_seq in H. lia.
Qed.

Lemma positions_ss n : StronglySorted Z.lt (positions n).
Proof. apply seq_ss. Qed.

Lemma ss_app {A} (R : A -> A -> Prop) a b : StronglySorted R a -> StronglySorted R b ->
  (forall x y, In x a -> In y b -> R x y) -> StronglySorted R (a ++ b).
Proof.
  induction 1; intros Sb H'; cbn; [assumption|]. constructor.
  - apply IHStronglySorted; auto. intros; apply H'; [right|]; auto.
  - rewrite Forall_forall in *. intros x Hx. apply in_app_or in Hx. destruct Hx; auto. apply H'; [left|]; auto.
Qed.

Lemma ss_rev (s : list Z) : StronglySorted Z.lt s -> StronglySorted Z.gt (rev s).
Proof.
  induction 1; cbn; [constructor|]. apply ss_app; auto.
  - repeat constructor.
  - intros x y Hx Hy. apply in_rev in Hx. destruct Hy as [<-|[]]. rewrite Forall_forall in H0.
    specialize (H0 _ Hx). lia.
Qed.

Lemma ss_filter {A} (R : A -> A -> Prop) f s : StronglySorted R s -> StronglySorted R (filter f s).
Proof.
  induction 1; cbn; [constructor|]. destruct (f a); [|assumption]. constructor; [assumption|].
  rewrite Forall_forall in *. intros x Hx. apply filter_In in Hx. apply H0; tauto.
Qed.

(** Two strictly sorted lists with the same members are equal. *)
Lemma ss_unique {A} (R : A -> A -> Prop) (Irr : forall x y, R x y -> R y x -> False) a b :
  StronglySorted R a -> StronglySorted R b -> (forall x, In x a <-> In x b) -> a = b.
Proof.
  intros Sa. revert b. induction Sa as [|x a Sa IH F]; intros b Sb H.
  - destruct b as [|y b]; [reflexivity|]. exfalso. apply (H y). left; reflexivity.
  - destruct Sb as [|y b Sb Fb].
    + exfalso. apply (proj1 (H x)). left; reflexivity.
    + rewrite Forall_forall in *.
      assert (x = y) as <-.
      { destruct (proj1 (H x) (or_introl eq_refl)) as [|Hx]; [auto|].
        destruct (proj2 (H y) (or_introl eq_refl)) as [|Hy]; [auto|].
        exfalso. apply (Irr x y); auto. }
      f_equal. apply IH; auto. intros z. split; intros Hz.
      * destruct (proj1 (H z) (or_intror Hz)) as [<-|]; [|assumption].
        exfalso; apply (Irr x x); auto.
      * destruct (proj2 (H z) (or_intror Hz)) as [<-|]; [|assumption].
        exfalso; apply (Irr x x); auto.
Qed.

(** Head of a filter over positions is the least member. *)
Lemma filter_head f n :
  match filter f (positions n) with
  | [] => forall x, 0 <= x < Z.of_nat n -> f x = false
  | p :: _ => 0 <= p < Z.of_nat n /\ f p = true /\ (forall x, 0 <= x < p -> f x = false)
  end.
Proof.
  pose proof (ss_filter _ f _ (positions_ss n)) as S.
  assert (M : forall x, In x (filter f (positions n)) <-> (0 <= x < Z.of_nat n /\ f x = true)).
  { intros x. rewrite filter_In, in_positions. tauto. }
  destruct (filter f (positions n)) as [|p r].
  - intros x Hx. destruct (f x) eqn:E; [|reflexivity]. exfalso. apply (M x); auto.
  - destruct (proj1 (M p) (or_introl eq_refl)) as [A B]. split; [exact A|split; [exact B|]].
    intros x Hx. destruct (f x) eqn:E; [|reflexivity]. exfalso.
    inversion S; subst. rewrite Forall_forall in H2.
    destruct (proj2 (M x) ltac:(split; [lia|exact E])) as [->|I]; [lia|].
    specialize (H2 _ I). lia.
Qed.

Lemma filter_filter {A} (f g : A -> bool) s : filter f (filter g s) = filter (fun x => g x && f x) s.
Proof.
  induction s as [|x s IH]; [reflexivity|]. cbn. destruct (g x); cbn; [destruct (f x)|]; cbn; rewrite IH; reflexivity.
Qed.
