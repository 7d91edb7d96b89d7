(** Further proofs for LinkedReentrantModel: defaults, particular user code. *)
From Coq Require Import ZArith List Bool Arith Lia.
From Verif Require Import Base PyLongModel PyLongProofs PyListSpec ListLemmas ArrayListModel ArrayListProofs ArrayListSpec
  ArrayListFacts ArrayListMoreModel ArrayListCmpProofs ArrayListMoreProofs StdListModel StdListProofs LinkedListSpec
  LinkedListModel LinkedListProofs LinkedListFacts LinkedReentrantModel LinkedReentrantSpec LinkedReentrantProofs.
From Verif Require ReentrantProofs.
Import ListNotations.
Local Open Scope Z_scope.
Local Arguments Z.pow : simpl never.
Local Arguments Z.add : simpl never.
Local Arguments Z.sub : simpl never.
Local Arguments Z.of_nat : simpl never.
Local Arguments Z.to_nat : simpl never.
Local Arguments Z.ltb : simpl never.
Local Arguments Z.leb : simpl never.
Local Arguments Z.eqb : simpl never.

Lemma index_default_l cfg o oa l : proper l -> largs_sane (MIndex o oa None) -> largs_fit (MIndex o oa None) ->
  match levaluate [Some o; oa] l with
  | (inl [Some v; a], l') =>
      fst (mstep cfg (MIndex o oa None) l) = expected cfg KInt (fst (py_step (OIndex v a (Some (zlen (vals l)))) (vals l'))) /\
      vals (snd (mstep cfg (MIndex o oa None) l)) = vals l'
  | (inl _, _) => False
  | (inr e, l') => mstep cfg (MIndex o oa None) l = (Raise e, l')
  end.
Proof.
  intros P S F. pose proof (index_at_old cfg o oa None l P S F) as H. cbn [mstep].
  assert (X : levaluate [Some o; oa; None] l = match levaluate [Some o; oa] l with
     | (inl zs, l') => (inl (zs ++ [None]), l') | (inr e, l') => (inr e, l') end).
  { cbn [levaluate]. destruct (o l) as [[[z|x]| | |] l1]; try reflexivity. destruct oa as [u|]; [|reflexivity].
    destruct (u l1) as [[[z'|x]| | |] l2]; reflexivity. }
  rewrite X in H. destruct (levaluate [Some o; oa] l) as [[zs|e] l']; [|exact (proj1 H)].
  destruct H as (v & a & b & E & P' & M). destruct zs as [|z1 [|z2 [|z3 zs]]]; try discriminate.
  - injection E as -> -> <-. destruct M as (M1 & M2 & _). split; [exact M1|]. rewrite M2. unfold py_step.
    destruct (filter _ _); reflexivity.
  - cbn in E. injection E as _ _ _ E. destruct zs; discriminate.
Qed.

Lemma vals_put l s : vals (put l s) = values s. Proof. reflexivity. Qed.
Lemma vals_bump l s : vals (bump l s) = values s. Proof. reflexivity. Qed.

Lemma append_vals x l : lwf l -> in_sbits 32 x -> lwf (snd (lappend (PInt x) l)) /\ vals (snd (lappend (PInt x) l)) = vals l ++ [x].
Proof.
  intros W R. unfold lappend. rewrite (conv_ok _ x) by (apply as_elem_ok; exact R). cbn [snd].
  destruct (push_back_ok (lst l) x W) as (W' & V' & _). split; [exact W'|exact V'].
Qed.

Lemma appending_sane x z : in_sbits 32 x -> lsane (appending x z).
Proof.
  intros R. split; [intros l; left; eexists; reflexivity|]. intros l (W & F & L). cbn [snd appending].
  destruct (Z.ltb_spec (zlen (vals l)) SSIZE_MAX); [|split; [exact W|split; assumption]].
  destruct (append_vals x l W R) as [W' V']. split; [exact W'|]. rewrite V'. split.
  - apply Forall_app. split; [exact F|]. constructor; [exact R|constructor].
  - unfold zlen in *. rewrite app_length. cbn [length]. lia.
Qed.
Lemma plain_sane z : lsane (plain_int z).
Proof. split; [intros l; left; eexists; reflexivity|]. intros l P. exact P. Qed.

Lemma occ_app (s : list Z) v : ~ In v s -> occurrences (s ++ [v]) v = [zlen s].
Proof.
  intros N.
  assert (NF : forall x, 0 <= x < zlen s -> get_default (s ++ [v]) x <> v).
  { intros x Hx E. apply N. rewrite <- E. unfold get_default. rewrite app_nth1 by (unfold zlen in *; lia).
    apply nth_In. unfold zlen in *. lia. }
  assert (P : positions (length (s ++ [v])) = positions (length s) ++ [zlen s]).
  { unfold positions. rewrite app_length, Nat.add_1_r, seq_S, map_app. reflexivity. }
  unfold occurrences. rewrite P, filter_app.
  replace (filter (fun x => get_default (s ++ [v]) x =? v) (positions (length s))) with (@nil Z).
  - cbn [filter app]. rewrite ReentrantProofs.get_default_app, Z.eqb_refl. reflexivity.
  - symmetry. destruct (filter _ (positions (length s))) as [|y l] eqn:E; [reflexivity|]. exfalso.
    assert (I : In y (filter (fun x => get_default (s ++ [v]) x =? v) (positions (length s)))) by (rewrite E; left; reflexivity).
    apply filter_In in I. destruct I as [I1 I2]. apply in_positions in I1. apply Z.eqb_eq in I2. exact (NF y I1 I2).
Qed.
Lemma py_index_old s v : ~ In v s -> fst (py_step (OIndex v None (Some (zlen s))) (s ++ [v])) = SRaise ValueError.
Proof.
  intros N. cbn [py_step fst]. rewrite (occ_app s v N). cbn [filter]. pose proof (zlen_nonneg s).
  destruct (Z.leb_spec 0 (zlen s)); [|lia]. unfold rel. destruct (Z.ltb_spec (zlen s) 0); [lia|].
  rewrite Z.ltb_irrefl. reflexivity.
Qed.
Lemma py_index_new s v : ~ In v s -> py_step (OIndex v None None) (s ++ [v]) = (SRet (SNum (zlen s)), s ++ [v]).
Proof.
  intros N. cbn [py_step]. rewrite (occ_app s v N). fold (zlen (s ++ [v])). pose proof (zlen_nonneg s).
  assert (L1 : zlen (s ++ [v]) = zlen s + 1) by (rewrite zlen_app; reflexivity). rewrite L1. cbn [filter].
  destruct (Z.leb_spec 0 (zlen s)); [|lia]. destruct (Z.ltb_spec (zlen s) (zlen s + 1)); [|lia]. reflexivity.
Qed.

Lemma index_grow_l cfg v l : proper l -> zlen (vals l) < SSIZE_MAX -> in_sbits 32 v -> ~ In v (vals l) ->
  fst (mstep cfg (MIndex (appending v v) None None) l) = Raise ValueError /\
  latomic (MIndex (appending v v) None None) l = (SRet (SNum (zlen (vals l))), vals l ++ [v]).
Proof.
  intros P L R N. destruct (append_vals v l (proj1 P) R) as [_ V'].
  assert (A : appending v v l = (Ret (PInt v), snd (lappend (PInt v) l))).
  { unfold appending. destruct (Z.ltb_spec (zlen (vals l)) SSIZE_MAX); [reflexivity|lia]. }
  assert (S1 : largs_sane (MIndex (appending v v) None None)).
  { intros u [E|[E|[E|[]]]]; inversion E; subst. apply appending_sane. exact R. }
  assert (F1 : largs_fit (MIndex (appending v v) None None)).
  { split; [|split; exact I]. intros t z t' E. inversion E; subst. exact R. }
  split.
  - pose proof (index_default_l cfg (appending v v) None l P S1 F1) as H. cbn [levaluate] in H. rewrite A in H.
    destruct H as [H _]. rewrite H, V'. rewrite (py_index_old (vals l) v N). reflexivity.
  - unfold latomic. cbn [larguments levaluate]. rewrite A. cbn [lpython_call]. rewrite V'. apply py_index_new. exact N.
Qed.

Lemma set_clear_l cfg l i v : proper l -> in_sbits 32 v -> in_sbits 64 i -> 0 <= rel (zlen (vals l)) i < zlen (vals l) ->
  fst (mstep cfg (MSet (plain_int i) (clearing v)) l) = Undef IterBeforeBegin.
Proof.
  intros (W & _) R I H.
  destruct (set_exact_l cfg (plain_int i) (clearing v) l i l v (snd (lclear l))) as (_ & _ & X); try assumption; try reflexivity.
  { split; constructor. }
  rewrite X; [reflexivity|exact H|]. change (zlen (vals (snd (lclear l)))) with 0. lia.
Qed.

(** Sequences built by [seq_of]. *)
Lemma seq_of_all (Q : forall A, code A -> Prop) os : (forall os, Q Z (s_len (seq_of os))) ->
  (forall i os, Q iobj (s_get (seq_of os) i)) -> (forall o, In o os -> Q pyobj o) -> lseq_all Q (seq_of os).
Proof.
  intros A B C. split; [apply A|]. intros i. split; [apply B|]. intros l o E. apply C. cbn [seq_of s_get] in E.
  unfold znth in E. destruct (i <? 0); [discriminate|]. destruct (nth_error os (Z.to_nat i)) eqn:N; [|discriminate].
  injection E as <-. eapply nth_error_In. exact N.
Qed.
Lemma same_keeps {A} (u : code A) : (forall l, snd (u l) = l) -> keeps_nodes u.
Proof. intros H l W. rewrite H. split; [exact W|apply subseq_refl]. Qed.
Lemma appending_keeps x z : keeps_nodes (appending x z).
Proof.
  intros l W. cbn [appending snd]. destruct (_ <? _); [|split; [exact W|apply subseq_refl]].
  exact (adds_only_keeps {| py312 := true; feat := {| avx512 := false; avx2 := false; sse41 := false; ssse3 := false |} |} (OAppend x) I l W).
Qed.

Definition ex_ll0 : ll := new_list (copy_of [3; 1; 2]).
Lemma ex_ll_proper : proper ex_ll0.
Proof.
  split; [|split].
  - split; [apply copy_of_ok|].
    assert (E : nodes (lst ex_ll0) = [(0%nat, 3); (1%nat, 1); (2%nat, 2)]) by reflexivity. unfold ids. rewrite E.
    cbn. repeat constructor.
  - change (vals ex_ll0) with [3; 1; 2].
    repeat (apply Forall_cons; [split; vm_compute; congruence|]). apply Forall_nil.
  - vm_compute. congruence.
Qed.
Lemma sub3 (a b c : list nat) : subseq a b -> length a = length b -> a = b.
Proof.
  intros H. induction H as [b'|x a' b' H IH|x a' b' H IH]; cbn; intros E.
  - destruct b'; [reflexivity|discriminate].
  - rewrite IH by lia. reflexivity.
  - apply subseq_len in H. lia.
Qed.
Lemma sorting_moves : ~ keeps_nodes (sorting 7).
Proof.
  intros K. destruct (K ex_ll0 (proj1 ex_ll_proper)) as [_ S]. apply sub3 in S; [|exact []|vm_compute; reflexivity].
  vm_compute in S. discriminate.
Qed.
Lemma removing_removes : ~ keeps_nodes (removing_first 7).
Proof.
  intros K. destruct (K ex_ll0 (proj1 ex_ll_proper)) as [_ S]. apply subseq_len in S. vm_compute in S. lia.
Qed.

Lemma zero_step_l cfg sl q o l l1 : ls_step sl = Some o -> o l = (Ret (PInt 0), l1) ->
  mstep cfg (MGetSlice sl) l = (Raise ValueError, l1) /\ lsetitem_slice_u sl q l = (Raise ValueError, l1).
Proof.
  intros E H. assert (U : lunpack_u sl l = (Raise ValueError, l1)).
  { unfold lunpack_u. rewrite E. unfold lconv_opt, lconv. rewrite H. reflexivity. }
  cbn [mstep]. unfold lgetitem_slice_u, lsetitem_slice_u. rewrite U. split; reflexivity.
Qed.
