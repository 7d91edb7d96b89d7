(** Facts about weak orders, sortedness and stability used by the sort proofs. *)
From Coq Require Import ZArith List Bool Lia Sorting.Sorted Sorting.Permutation.
From Verif Require Import Base ListLemmas SortSpec.
Import ListNotations.
Local Open Scope Z_scope.

Section Order.
Context {A : Type}.
Variable lt : A -> A -> bool.
Hypothesis WO : weak_order lt.

Notation le x y := (lt y x = false).
Notation asc := (ascending lt).
Notation stb := (stable lt).

Lemma lt_asym x y : lt x y = true -> lt y x = false.
Proof. apply WO. Qed.
Lemma le_trans x y z : le x y -> le y z -> le x z.
Proof. intros H1 H2. exact (proj2 WO z y x H2 H1). Qed.
Lemma lt_irr x : lt x x = false.
Proof. destruct (lt x x) eqn:E; auto. pose proof (lt_asym _ _ E). congruence. Qed.
Lemma lt_le_trans x y z : lt x y = true -> le y z -> lt x z = true.
Proof.
  intros H1 H2. destruct (lt x z) eqn:E; auto.
  rewrite (le_trans y z x H2 E) in H1. discriminate.
Qed.
Lemma le_lt_trans x y z : le x y -> lt y z = true -> lt x z = true.
Proof.
  intros H1 H2. destruct (lt x z) eqn:E; auto.
  rewrite (le_trans z x y E H1) in H2. discriminate.
Qed.
Lemma lt_le x y : lt x y = true -> le x y.
Proof. apply lt_asym. Qed.

Lemma stb_app a b c d : stb a b -> stb c d -> stb (a ++ c) (b ++ d).
Proof. intros H1 H2 k. rewrite !filter_app, H1, H2. reflexivity. Qed.

Lemma filter_nil {B} (f : B -> bool) l : (forall x, In x l -> f x = false) -> filter f l = [].
Proof. induction l; simpl; intros H; auto. rewrite H by auto. auto. Qed.

(** Two blocks with no equivalent pair may be exchanged. *)
Lemma stb_swap a b : (forall x y, In x a -> In y b -> equiv lt x y = false) ->
  stb (a ++ b) (b ++ a).
Proof.
  intros H k. rewrite !filter_app.
  destruct (existsb (equiv lt k) a) eqn:E.
  - apply existsb_exists in E as (x & Hx & Ex).
    rewrite (filter_nil (equiv lt k) b), app_nil_r; auto.
    intros y Hy. specialize (H x y Hx Hy).
    unfold equiv in *. destruct (lt k x) eqn:E1, (lt x k) eqn:E2; try discriminate.
    destruct (lt k y) eqn:E3, (lt y k) eqn:E4; auto.
    rewrite (proj2 WO x k y E2 E3), (proj2 WO y k x E4 E1) in H. discriminate.
  - rewrite (filter_nil (equiv lt k) a), app_nil_r; auto.
    intros x Hx. destruct (equiv lt k x) eqn:E1; auto.
    assert (existsb (equiv lt k) a = true) by (apply existsb_exists; eauto). congruence.
Qed.

Lemma lt_not_equiv x y : lt x y = true -> equiv lt x y = false.
Proof. intros H. unfold equiv. rewrite H. auto. Qed.
Lemma gt_not_equiv x y : lt y x = true -> equiv lt x y = false.
Proof. intros H. unfold equiv. rewrite H. destruct (lt x y); auto. Qed.

Lemma asc_app a b : asc (a ++ b) <->
  asc a /\ asc b /\ (forall x y, In x a -> In y b -> le x y).
Proof.
  unfold ascending. split.
  - induction a; simpl; intros H.
    + repeat split; auto; try constructor. contradiction.
    + inversion H as [|x l H1 H2]; subst. destruct (IHa H1) as (Ha & Hb & Hc).
      rewrite Forall_forall in H2.
      repeat split; auto.
      * constructor; auto. apply Forall_forall. intros y Hy. apply H2, in_or_app. auto.
      * intros x y [<-|Hx] Hy; auto. apply H2, in_or_app. auto.
  - intros (Ha & Hb & Hc). induction Ha; simpl; auto.
    constructor.
    + apply IHHa. intros; apply Hc; simpl; auto.
    + rewrite Forall_forall in *. intros y Hy. apply in_app_or in Hy as [Hy|Hy]; auto.
      apply Hc; simpl; auto.
Qed.

Lemma asc_cons x l : asc (x :: l) <-> asc l /\ (forall y, In y l -> le x y).
Proof.
  split.
  - intros H. inversion H as [|? ? H1 H2]; subst. rewrite Forall_forall in H2. auto.
  - intros (H1 & H2). constructor; auto. apply Forall_forall; auto.
Qed.

Lemma asc_head a x l y : asc (a ++ x :: l) -> In y (x :: l) -> le x y.
Proof.
  intros H Hy. apply asc_app in H as (_ & H & _). apply asc_cons in H as (_ & H).
  destruct Hy as [<-|Hy]; auto. apply lt_irr.
Qed.

Lemma asc_last l x y : asc (l ++ [x]) -> In y (l ++ [x]) -> le y x.
Proof.
  intros H Hy. apply asc_app in H as (_ & _ & H).
  apply in_app_or in Hy as [Hy|[<-|[]]]; auto.
  - apply H; simpl; auto.
  - apply lt_irr.
Qed.

Lemma asc_one x : asc [x].
Proof. constructor; constructor. Qed.

Lemma asc_all_equal l : (forall x y, In x l -> In y l -> le x y) -> asc l.
Proof.
  induction l; intros H; [constructor|]. apply asc_cons. split.
  - apply IHl. intros; apply H; simpl; auto.
  - intros; apply H; simpl; auto.
Qed.

(** Sortedness of a run from comparisons of neighbours. *)
Lemma asc_snoc l x y : asc (l ++ [x]) -> le x y -> asc ((l ++ [x]) ++ [y]).
Proof.
  intros H Hxy. apply asc_app. split; auto. split; [apply asc_one|].
  intros u w Hu [<-|[]]. eapply le_trans; eauto. eapply asc_last; eauto.
Qed.

(** Descending is ascending in the flipped order; reversing turns one into
    the other. *)
Lemma stable_rev l l' : stb (rev l) (rev l') -> stb l l'.
Proof.
  intros H k. specialize (H k).
  assert (R : forall s, filter (equiv lt k) (rev s) = rev (filter (equiv lt k) s)).
  { induction s; simpl; auto. rewrite filter_app, IHs. simpl.
    destruct (equiv lt k a); simpl; auto using app_nil_r. }
  rewrite !R in H. apply (f_equal (@rev A)) in H. rewrite !rev_involutive in H. auto.
Qed.

Lemma asc_rev_desc l : asc l -> descending lt (rev l).
Proof.
  unfold descending. intros H. induction H; simpl; [constructor|].
  assert (G : forall u, StronglySorted (fun x y => lt x y = false) u ->
                (forall y, In y u -> le a y) ->
                StronglySorted (fun x y => lt x y = false) (u ++ [a])).
  { induction u; simpl; intros Hu Ha.
    - constructor; constructor.
    - inversion Hu as [|? ? H1 H2]; subst. constructor.
      + apply IHu; auto.
      + rewrite Forall_forall in *. intros y Hy. apply in_app_or in Hy as [Hy|[<-|[]]]; auto. }
  apply G; auto. intros y Hy. rewrite Forall_forall in H0. apply H0. apply in_rev; auto.
Qed.
End Order.

Lemma stable_refl {A} (lt : A -> A -> bool) l : stable lt l l.
Proof. intros k. reflexivity. Qed.
Lemma stable_trans {A} (lt : A -> A -> bool) a b c : stable lt a b -> stable lt b c -> stable lt a c.
Proof. intros H1 H2 k. rewrite H1. apply H2. Qed.
Lemma stable_sym {A} (lt : A -> A -> bool) a b : stable lt a b -> stable lt b a.
Proof. intros H k. symmetry. apply H. Qed.
