(** Proofs for C72: repr. *)
From Coq Require Import ZArith List Bool Arith Lia.
From Verif Require Import Base PyListSpec ListLemmas ArrayListModel ArrayListMoreModel StdListModel StdListProofs CompareModel LinkedReentrantSpec LinkedReentrantProofs CompareSpec CompareProofs.
Import ListNotations.
Local Open Scope Z_scope.

Lemma repr_ends {C Y} (v : world C Y) : returns v -> forall o s, (exists t s1, w_repr v o s = (Ret t, s1)) \/ (exists e s1, w_repr v o s = (Raise e, s1)).
Proof. intros (_ & _ & _ & _ & H) o s. destruct (H o s) as [[t E]|[e E]]; destruct (w_repr v o s) as [r s1]; cbn in E; subst r; eauto. Qed.

Section A.
Context {X : Type}.
Context (u : world (list Z) X).
Implicit Types s : list Z * X.
Context (N : returns u).

Lemma a_repr_spells (K : forall o s, same_length s (snd (w_repr u o s))) : forall k i acc s n,
  (i + S k = length (fst s))%nat -> (k < n)%nat ->
  exists r s', a_repr_loop u n i (acc ++ (if Nat.eqb i 0 then [] else [44; 32])) s = Some (r, s') /\ spells u fst i acc s r s'.
Proof.
  induction k as [|k IH]; intros i acc s n B F; (destruct n as [|n]; [lia|]); cbn [a_repr_loop].
  - destruct (length (fst s)) as [|l] eqn:E; [lia|]. replace (Nat.ltb i l) with false by (symmetry; apply Nat.ltb_ge; lia).
    replace (S l - 1)%nat with i by lia.
    destruct (nth_error (fst s) i) as [o|] eqn:V; [|apply nth_error_None in V; lia]. unfold then_.
    pose proof (K o s) as L. destruct (repr_ends u N o s) as [(t & s1 & R)|(e & s1 & R)]; rewrite R in *; cbn [fst snd] in *.
    + eexists _, _. split; [reflexivity|]. eapply sp_item; [exact V|exact R|].
      replace (((acc ++ (if Nat.eqb i 0 then [] else [44; 32])) ++ t) ++ [93]) with ((acc ++ (if Nat.eqb i 0 then [] else [44; 32]) ++ t) ++ [93]) by (rewrite <- !app_assoc; reflexivity).
      apply sp_end. unfold same_length in L. lia.
    + eexists _, _. split; [reflexivity|]. eapply sp_raise; eauto.
  - destruct (length (fst s)) as [|l] eqn:E; [lia|]. replace (Nat.ltb i l) with true by (symmetry; apply Nat.ltb_lt; lia).
    destruct (nth_error (fst s) i) as [o|] eqn:V; [|apply nth_error_None in V; lia].
    pose proof (K o s) as L. destruct (repr_ends u N o s) as [(t & s1 & R)|(e & s1 & R)]; rewrite R in *; cbn [fst snd] in *.
    + destruct (IH (S i) (acc ++ (if Nat.eqb i 0 then [] else [44; 32]) ++ t) s1 n) as (r & s' & E1 & Sp); [unfold same_length in L; lia|lia|].
      exists r, s'. split; [|eapply sp_item; eauto]. rewrite <- E1. cbn [Nat.eqb]. rewrite <- !app_assoc. reflexivity.
    + eexists _, _. split; [reflexivity|]. eapply sp_raise; eauto.
Qed.
Lemma a_repr_python (K : forall o s, same_length s (snd (w_repr u o s))) s n : (length (fst s) <= n)%nat ->
  exists r s', a_repr_u u n s = Some (r, s') /\ py_spells u fst s r s'.
Proof.
  intros B. unfold a_repr_u, py_spells. destruct (fst s) as [|o l] eqn:E.
  - exists (Ret [91; 93]), s. split; [reflexivity|]. apply (sp_end u fst 0 [91] s). rewrite E. cbn. lia.
  - destruct (a_repr_spells K (length l) 0 [91] s n) as (r & s' & R & Sp); [rewrite E; cbn; lia|cbn in B; lia|]. cbn [Nat.eqb] in R. rewrite app_nil_r in R. eauto.
Qed.

(** Exactly when it is undefined. *)
Lemma a_repr_undef e s0 : fst s0 <> [] -> forall n i acc s r s', printed u i s0 s -> a_repr_loop u n i acc s = Some (r, s') -> r = Undef e ->
  e = OutOfBounds /\ exists j s1, (0 < j)%nat /\ printed u j s0 s1 /\ fst s1 = [].
Proof.
  intros NE. induction n as [|n IH]; intros i acc s r s' P H Er; cbn [a_repr_loop] in H; [discriminate|].
  destruct (length (fst s)) as [|l] eqn:E.
  - apply length_zero_iff_nil in E. rewrite E in H. destruct i as [|i].
    + inversion P; subst. contradiction.
    + cbn in H. injection H as <- <-. injection Er as <-. split; [reflexivity|]. exists (S i), s. split; [lia|]. auto.
  - destruct (Nat.ltb i l) eqn:B; [apply Nat.ltb_lt in B|].
    + destruct (nth_error (fst s) i) as [o|] eqn:V; [|apply nth_error_None in V; lia].
      destruct (repr_ends u N o s) as [(t & s1 & R)|(x & s1 & R)]; rewrite R in H.
      * eapply IH; [|exact H|exact Er]. eapply pr_item; [exact P|lia|exact V|exact R].
      * congruence.
    + replace (S l - 1)%nat with l in H by lia. destruct (nth_error (fst s) l) as [o|] eqn:V; [|apply nth_error_None in V; lia].
      destruct (repr_ends u N o s) as [(t & s1 & R)|(x & s1 & R)]; unfold then_ in H; rewrite R in H; cbn [fst snd] in H; congruence.
Qed.
Lemma printed_loop j s0 s1 : printed u j s0 s1 -> forall m acc, exists acc', a_repr_loop u (j + m) 0 acc s0 = a_repr_loop u m j acc' s1.
Proof.
  induction 1 as [s|i s s1 o t s2 P IH B V R]; intros m acc; [eauto|].
  destruct (IH (S m) acc) as (acc' & E). replace (S i + m)%nat with (i + S m)%nat by lia. rewrite E. cbn [a_repr_loop].
  destruct (length (fst s1)) as [|l]; [lia|]. replace (Nat.ltb i l) with true by (symmetry; apply Nat.ltb_lt; lia). rewrite V, R. eauto.
Qed.
Lemma a_repr_exact s e :
  (exists n s', a_repr_u u n s = Some (Undef e, s')) <->
  e = OutOfBounds /\ fst s <> [] /\ exists j s1, (0 < j)%nat /\ printed u j s s1 /\ fst s1 = [].
Proof.
  unfold a_repr_u. split.
  - intros (n & s' & H). destruct (fst s) as [|o l] eqn:E; [discriminate|].
    assert (NE : fst s <> []) by congruence.
    destruct (a_repr_undef e s NE n 0 [91] s _ _ (pr_start u s) H eq_refl) as [A B]. split; [exact A|]. split; [discriminate|exact B].
  - intros (-> & NE & j & s1 & J & P & E). destruct (fst s) as [|o l] eqn:Es; [congruence|].
    destruct (printed_loop j s s1 P 1 [91]) as (acc & H). exists (j + 1)%nat, s1. rewrite H. cbn [a_repr_loop]. rewrite E. cbn.
    destruct j; [lia|reflexivity].
Qed.

Lemma a_repr_safe (K : forall o s, fst s <> [] -> fst (snd (w_repr u o s)) <> []) s n r s' : a_repr_u u n s = Some (r, s') -> defined r.
Proof.
  intros H e ->. destruct (proj1 (a_repr_exact s e)) as (_ & NE & j & s1 & J & P & E); [eauto|].
  revert E. clear H J. induction P as [s|i s s1 o t s2 P IH B V R]; [exact NE|].
  pose proof (K o s1) as A. rewrite R in A. apply A. intros E. exact (IH NE E).
Qed.

(** A [__repr__] that leaves one item: it is printed again as the last one. *)
Lemma a_repr_again x0 o p l t o' y s1 t2 s2 : w_repr u o (o :: p :: l, x0) = (Ret t, ([o'], y)) -> s1 = ([o'], y) -> w_repr u o' s1 = (Ret t2, s2) ->
  forall n, (2 <= n)%nat ->
  a_repr_u u n (o :: p :: l, x0) = Some (Ret ([91] ++ t ++ [44; 32] ++ t2 ++ [93]), s2) /\
  py_spells u fst (o :: p :: l, x0) (Ret ([91] ++ t ++ [93])) s1.
Proof.
  intros R -> R2 n F. destruct n as [|[|n]]; [lia|lia|]. split.
  - unfold a_repr_u. cbn [fst]. cbn [a_repr_loop fst length nth_error Nat.ltb Nat.leb]. rewrite R. cbn [fst length nth_error Nat.ltb Nat.leb Nat.sub].
    unfold then_. rewrite R2. cbn [fst snd]. rewrite <- !app_assoc. reflexivity.
  - unfold py_spells. eapply sp_item; [reflexivity|exact R|]. cbn [Nat.eqb app]. apply (sp_end u fst 1 (91 :: t) ([o'], y)). cbn. lia.
Qed.
(** Items appended by the last item are not printed. *)
Lemma a_repr_late x0 o t s1 p t2 s2 : w_repr u o ([o], x0) = (Ret t, s1) -> fst s1 = [o; p] -> w_repr u p s1 = (Ret t2, s2) -> length (fst s2) = 2%nat ->
  forall n, (1 <= n)%nat ->
  a_repr_u u n ([o], x0) = Some (Ret ([91] ++ t ++ [93]), s1) /\
  py_spells u fst ([o], x0) (Ret ([91] ++ t ++ [44; 32] ++ t2 ++ [93])) s2.
Proof.
  intros R E R2 L n F. destruct n as [|n]; [lia|]. split.
  - unfold a_repr_u. cbn [fst]. cbn [a_repr_loop fst length nth_error Nat.ltb Nat.leb Nat.sub]. unfold then_. rewrite R. cbn [fst snd]. rewrite <- app_assoc. reflexivity.
  - unfold py_spells. eapply sp_item; [reflexivity|exact R|]. cbn [Nat.eqb app]. eapply sp_item; [rewrite E; reflexivity|exact R2|].
    cbn [Nat.eqb]. replace (91 :: t ++ 44 :: 32 :: t2 ++ [93]) with (((91 :: t) ++ [44; 32] ++ t2) ++ [93]) by (rewrite <- !app_assoc; reflexivity).
    apply sp_end. lia.
Qed.
End A.

Section L.
Context {X : Type}.
Context (u : world (slist Z) X).
Implicit Types s : slist Z * X.
Context (N : returns u).
Notation mine := (fun s : slist Z * X => values (fst s)).

Lemma back_pos (l : slist Z) k v : wf l -> S k = size l -> nth_error (values l) k = Some v -> back l = Ret v.
Proof.
  intros W E V. apply back_ok with (s := firstn k (values l)); [exact W|]. rewrite size_values in E.
  rewrite <- (firstn_skipn k (values l)) at 1. f_equal.
  destruct (nth_error_split (values l) k V) as (l1 & l2 & El & L1). rewrite El in E |- *. rewrite app_length in E. cbn [length] in E.
  destruct l2 as [|y l2]; [|cbn [length] in E; lia]. rewrite skipn_app, skipn_all2 by lia. rewrite <- L1, Nat.sub_diag. reflexivity.
Qed.

Lemma l_repr_spells (K : forall o s, same_nodes s (snd (w_repr u o s))) : forall k i acc s n, well s ->
  (i + S k = size (fst s))%nat -> (k < n)%nat ->
  exists r s', l_repr_loop u n i (itpos (fst s) i) (acc ++ (if Nat.eqb i 0 then [] else [44; 32])) s = Some (r, s') /\ spells u mine i acc s r s'.
Proof.
  induction k as [|k IH]; intros i acc s n W B F; (destruct n as [|n]; [lia|]); cbn [l_repr_loop].
  - destruct (size (fst s)) as [|l] eqn:E; [lia|]. replace (Nat.ltb i l) with false by (symmetry; apply Nat.ltb_ge; lia).
    destruct (nth_error (values (fst s)) i) as [o|] eqn:V; [|apply nth_error_None in V; rewrite <- size_values in V; lia].
    rewrite (back_pos (fst s) i o W) by (lia || exact V). unfold then_ at 1. cbn [fst snd]. unfold then_.
    pose proof (K o s) as L. destruct (repr_ends u N o s) as [(t & s1 & R)|(e & s1 & R)]; rewrite R in *; cbn [fst snd] in *.
    + eexists _, _. split; [reflexivity|]. eapply sp_item; [exact V|exact R|].
      replace (((acc ++ (if Nat.eqb i 0 then [] else [44; 32])) ++ t) ++ [93]) with ((acc ++ (if Nat.eqb i 0 then [] else [44; 32]) ++ t) ++ [93]) by (rewrite <- !app_assoc; reflexivity).
      apply (sp_end u mine). cbv beta. rewrite <- size_values, (same_nodes_size _ _ L). lia.
    + eexists _, _. split; [reflexivity|]. eapply sp_raise; eauto.
  - destruct (size (fst s)) as [|l] eqn:E; [lia|]. replace (Nat.ltb i l) with true by (symmetry; apply Nat.ltb_lt; lia).
    destruct (nth_error (values (fst s)) i) as [o|] eqn:V; [|apply nth_error_None in V; rewrite <- size_values in V; lia].
    rewrite (deref_pos (fst s) i o W V).
    pose proof (K o s) as L. destruct (repr_ends u N o s) as [(t & s1 & R)|(e & s1 & R)]; rewrite R in *; cbn [fst snd] in *.
    + pose proof (same_nodes_size _ _ L) as Z1. pose proof (proj1 L W) as W1.
      assert (I1 : itpos (fst s) i = itpos (fst s1) i) by (apply itpos_ids; symmetry; apply L). rewrite I1. rewrite next_pos by (exact W1 || lia).
      destruct (IH (S i) (acc ++ (if Nat.eqb i 0 then [] else [44; 32]) ++ t) s1 n) as (r & s' & E1 & Sp); [exact W1|lia|lia|].
      exists r, s'. split; [|eapply sp_item; eauto]. rewrite <- E1. cbn [Nat.eqb]. rewrite <- !app_assoc. reflexivity.
    + eexists _, _. split; [reflexivity|]. eapply sp_raise; eauto.
Qed.
Lemma l_repr_python (K : forall o s, same_nodes s (snd (w_repr u o s))) s n : well s -> (length (values (fst s)) <= n)%nat ->
  exists r s', l_repr_u u n s = Some (r, s') /\ py_spells u mine s r s'.
Proof.
  intros W B. rewrite <- size_values in B. unfold l_repr_u, py_spells. destruct (nodes (fst s)) as [|o l] eqn:E.
  - exists (Ret [91; 93]), s. split; [reflexivity|]. apply (sp_end u mine 0 [91] s). cbv beta. rewrite <- size_values. unfold size. rewrite E. cbn. lia.
  - destruct (l_repr_spells K (length l) 0 [91] s n) as (r & s' & R & Sp); [exact W|unfold size; rewrite E; cbn; lia|unfold size in B; rewrite E in B; cbn in B; lia|].
    cbn [Nat.eqb] in R. rewrite app_nil_r in R. eauto.
Qed.

(** Exactly when it is undefined. *)
Lemma lprinted_some i s it s1 : lprinted u i s it s1 -> nodes (fst s) <> [] -> nodes (fst s1) <> [].
Proof.
  intros P NE. inversion P; subst; [exact NE|]. intros E. unfold it_next in *. rewrite E in *. destruct it0; discriminate.
Qed.
Lemma pos_of_some (ns : list (nat * Z)) : forall i p x, nth_error ns p = Some (i, x) -> exists q y, pos_of ns i = Some q /\ nth_error ns q = Some (i, y).
Proof.
  induction ns as [|[j y] ns IH]; intros i p x V; [destruct p; discriminate|]. cbn [pos_of].
  destruct (Nat.eqb_spec j i) as [->|NE]; [exists O, y; split; reflexivity|].
  destruct p as [|p]; [cbn in V; congruence|]. destruct (IH i p x V) as (q & z & E & F). rewrite E. exists (S q), z. split; [reflexivity|exact F].
Qed.
Lemma back_cases (l : slist Z) : nodes l <> [] -> exists v, back l = Ret v.
Proof.
  intros NE. unfold back, it_prev, end_. destruct (size l) as [|k] eqn:E; [unfold size in E; apply length_zero_iff_nil in E; contradiction|].
  cbn [obind]. unfold size in E. destruct (nth_error (nodes l) k) as [[i x]|] eqn:V; [|apply nth_error_None in V; lia].
  unfold id_at. rewrite V. cbn [option_map fst deref]. destruct (pos_of_some (nodes l) i k x V) as (q & y & P & Q). rewrite P, Q. eauto.
Qed.

Lemma l_repr_undef e s0 : nodes (fst s0) <> [] -> forall n i it acc s r s', lprinted u i s0 it s -> l_repr_loop u n i it acc s = Some (r, s') -> r = Undef e ->
  exists j it1 s1, lprinted u j s0 it1 s1 /\ lstuck u j it1 s1 e.
Proof.
  intros NE. induction n as [|n IH]; intros i it acc s r s' P H Er; cbn [l_repr_loop] in H; [discriminate|].
  pose proof (lprinted_some _ _ _ _ P NE) as NE1.
  destruct (size (fst s)) as [|l] eqn:E; [unfold size in E; apply length_zero_iff_nil in E; contradiction|].
  destruct (Nat.ltb i l) eqn:B; [apply Nat.ltb_lt in B|].
  - assert (B1 : (S i < length (values (fst s)))%nat) by (rewrite <- size_values; lia).
    destruct (deref_cases (fst s) it) as [[o V]|[x V]]; rewrite V in H.
    + destruct (repr_ends u N o s) as [(t & s1 & R)|(x & s1 & R)]; rewrite R in H; [|congruence].
      destruct (next_cases (fst s1) it) as [[nx I]|[x I]]; rewrite I in H.
      * eapply IH; [|exact H|exact Er]. eapply lp_item; eauto.
      * injection H as <- <-. injection Er as ->. exists i, it, s. split; [exact P|]. split; [exact B1|]. right. exists o, t, s1. auto.
    + injection H as <- <-. injection Er as ->. exists i, it, s. split; [exact P|]. split; [exact B1|]. left. exact V.
  - destruct (back_cases (fst s) NE1) as [o V]. rewrite V in H. unfold then_ at 1 in H. cbn [fst snd] in H.
    destruct (repr_ends u N o s) as [(t & s1 & R)|(x & s1 & R)]; unfold then_ in H; rewrite R in H; cbn [fst snd] in H; congruence.
Qed.
Lemma lprinted_loop j s0 it s1 : lprinted u j s0 it s1 -> forall m acc, exists acc', l_repr_loop u (j + m) 0 (begin_ (fst s0)) acc s0 = l_repr_loop u m j it acc' s1.
Proof.
  induction 1 as [s|i s it s1 o t s2 nx P IH B V R I]; intros m acc; [eauto|].
  destruct (IH (S m) acc) as (acc' & E). replace (S i + m)%nat with (i + S m)%nat by lia. rewrite E. cbn [l_repr_loop].
  rewrite <- size_values in B. destruct (size (fst s1)) as [|l]; [lia|]. replace (Nat.ltb i l) with true by (symmetry; apply Nat.ltb_lt; lia). rewrite V, R, I. eauto.
Qed.
Lemma l_repr_exact s e :
  (exists n s', l_repr_u u n s = Some (Undef e, s')) <-> exists i it s1, lprinted u i s it s1 /\ lstuck u i it s1 e.
Proof.
  unfold l_repr_u. split.
  - intros (n & s' & H). destruct (nodes (fst s)) as [|o l] eqn:E; [discriminate|].
    assert (NE : nodes (fst s) <> []) by congruence.
    exact (l_repr_undef e s NE n 0 _ [91] s _ _ (lp_start u s) H eq_refl).
  - intros (j & it & s1 & P & B & D).
    assert (NE : nodes (fst s) <> []).
    { clear D. revert B. induction P as [s|i s it s1 o t s2 nx P IH B' V R I]; intros B; [|apply IH; exact B']. intros E. unfold values in B. rewrite E in B. cbn in B. lia. }
    destruct (nodes (fst s)) as [|o l] eqn:Es; [congruence|].
    destruct (lprinted_loop j s it s1 P 1 [91]) as (acc & H). exists (j + 1)%nat. rewrite H. cbn [l_repr_loop].
    rewrite <- size_values in B. destruct (size (fst s1)) as [|k]; [lia|]. replace (Nat.ltb j k) with true by (symmetry; apply Nat.ltb_lt; lia).
    destruct D as [D|(o1 & t & s2 & D & R & I)]; rewrite D; [eexists; reflexivity|]. rewrite R, I. eexists. reflexivity.
Qed.
Lemma lprinted_appends (K : forall o s, appends s (snd (w_repr u o s))) i s it s1 : lprinted u i s it s1 -> well s -> well s1 /\ it = itpos (fst s1) i.
Proof.
  induction 1 as [s|i s it s1 o t s2 nx P IH B V R I]; intros W; [split; [exact W|reflexivity]|].
  destruct (IH W) as [W1 ->]. pose proof (K o s1) as A. rewrite R in A. cbn [snd] in A. destruct (A W1) as (W2 & more & Id). split; [exact W2|].
  assert (Z2 : (size (fst s1) <= size (fst s2))%nat) by (rewrite !size_ids, Id, app_length; lia). rewrite <- size_values in B.
  assert (J : itpos (fst s1) i = itpos (fst s2) i).
  { unfold itpos, id_at. rewrite <- !nth_error_map. change (map fst (nodes (fst s1))) with (ids (fst s1)). change (map fst (nodes (fst s2))) with (ids (fst s2)).
    rewrite Id, nth_error_app1; [reflexivity|]. rewrite <- size_ids. lia. }
  rewrite J in I. rewrite next_pos in I by (exact W2 || lia). congruence.
Qed.
Lemma l_repr_safe (K : forall o s, appends s (snd (w_repr u o s))) s n r s' : well s -> l_repr_u u n s = Some (r, s') -> defined r.
Proof.
  intros W H e ->. destruct (proj1 (l_repr_exact s e)) as (i & it & s1 & P & B & D); [eauto|].
  destruct (lprinted_appends K i s it s1 P W) as [W1 ->].
  destruct (nth_error (values (fst s1)) i) as [v|] eqn:V; [|apply nth_error_None in V; lia]. rewrite (deref_pos (fst s1) i v W1 V) in D.
  destruct D as [D|(o & t & s2 & D & R & I)]; [discriminate|]. injection D as <-.
  assert (P2 : lprinted u i s (itpos (fst s1) i) s1) by exact P.
  pose proof (K v s1) as A. rewrite R in A. cbn [snd] in A. destruct (A W1) as (W2 & more & Id).
  assert (Z2 : (size (fst s1) <= size (fst s2))%nat) by (rewrite !size_ids, Id, app_length; lia). rewrite <- size_values in B.
  assert (J : itpos (fst s1) i = itpos (fst s2) i).
  { unfold itpos, id_at. rewrite <- !nth_error_map. change (map fst (nodes (fst s1))) with (ids (fst s1)). change (map fst (nodes (fst s2))) with (ids (fst s2)).
    rewrite Id, nth_error_app1; [reflexivity|]. rewrite <- size_ids. lia. }
  rewrite J in I. rewrite next_pos in I by (exact W2 || lia). discriminate.
Qed.
Lemma l_repr_emptied s o p l t s1 : well s -> values (fst s) = o :: p :: l -> w_repr u o s = (Ret t, s1) -> values (fst s1) = [] ->
  forall n, (1 <= n)%nat -> l_repr_u u n s = Some (Undef UseAfterFree, s1).
Proof.
  intros W V R E n F. destruct n as [|n]; [lia|]. unfold l_repr_u. pose proof (size_values (fst s)) as Z1. rewrite V in Z1. cbn [length] in Z1.
  destruct (nodes (fst s)) as [|a r] eqn:Es; [unfold size in Z1; rewrite Es in Z1; discriminate|]. cbn [l_repr_loop]. rewrite Z1. cbn [Nat.ltb Nat.leb].
  change (begin_ (fst s)) with (itpos (fst s) 0). rewrite (deref_pos (fst s) 0 o W) by (rewrite V; reflexivity). rewrite R.
  assert (N1 : nodes (fst s1) = []) by (unfold values in E; apply map_eq_nil in E; exact E).
  unfold it_next, itpos, id_at. rewrite Es. cbn [nth_error option_map]. rewrite N1. reflexivity.
Qed.
End L.
