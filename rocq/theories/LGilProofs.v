(** Proofs for C78: a call alone. *)
From Coq Require Import ZArith List Bool Lia Arith.
From Verif Require Import Base PyListSpec ArrayListModel GilModel GilSpec GilProofs GilCalls GilRaces LGilModel LGilSpec.
Import ListNotations.
Local Open Scope Z_scope.
Local Arguments Z.add : simpl never.
Local Arguments Z.sub : simpl never.
Local Arguments Z.mul : simpl never.
Local Arguments Z.of_nat : simpl never.
Local Arguments Z.to_nat : simpl never.
Local Arguments Z.div : simpl never.
Local Arguments nx : simpl never.
Local Arguments pv : simpl never.
Local Arguments vl : simpl never.
Local Arguments lv : simpl never.
Local Arguments fresh : simpl never.
Local Arguments store : simpl never.

Ltac cells := unfold nx, pv, vl, lv, fresh in *; try congruence; intros [=]; lia.
Lemma nx_inj p q : nx p = nx q -> p = q. Proof. unfold nx. intros [=]. lia. Qed.
Lemma pv_inj p q : pv p = pv q -> p = q. Proof. unfold pv. intros [=]. lia. Qed.
Lemma vl_inj p q : vl p = vl q -> p = q. Proof. unfold vl. intros [=]. lia. Qed.
Lemma lv_inj p q : lv p = lv q -> p = q. Proof. unfold lv. intros [=]. lia. Qed.

Lemma st_nx M p q v : store M (nx p) v (nx q) = if q =? p then v else M (nx q).
Proof. destruct (Z.eqb_spec q p) as [->|N]; [apply store_same|apply store_other; intros H; now apply nx_inj in H]. Qed.
Lemma st_pv M p q v : store M (pv p) v (pv q) = if q =? p then v else M (pv q).
Proof. destruct (Z.eqb_spec q p) as [->|N]; [apply store_same|apply store_other; intros H; now apply pv_inj in H]. Qed.
Lemma st_vl M p q v : store M (vl p) v (vl q) = if q =? p then v else M (vl q).
Proof. destruct (Z.eqb_spec q p) as [->|N]; [apply store_same|apply store_other; intros H; now apply vl_inj in H]. Qed.
Lemma st_lv M p q v : store M (lv p) v (lv q) = if q =? p then v else M (lv q).
Proof. destruct (Z.eqb_spec q p) as [->|N]; [apply store_same|apply store_other; intros H; now apply lv_inj in H]. Qed.
Ltac mem := repeat first [rewrite st_nx | rewrite st_pv | rewrite st_vl | rewrite st_lv | rewrite store_same | rewrite store_other by cells].

(** ** Allocated nodes *)
Definition ok (M : memory) (p : Z) : Prop := p = 0 \/ M (lv p) = 1.
Lemma alloc_nx M p : ok M p -> allocated M (nx p).
Proof.
  intros O q [H|[H|H]]; [|exfalso; revert H; cells|exfalso; revert H; cells]. apply nx_inj in H. subst q.
  destruct O as [->|O]; [left; split; [reflexivity|cells]|now right].
Qed.
Lemma alloc_pv M p : ok M p -> allocated M (pv p).
Proof.
  intros O q [H|[H|H]]; [exfalso; revert H; cells| |exfalso; revert H; cells]. apply pv_inj in H. subst q.
  destruct O as [->|O]; [left; split; [reflexivity|cells]|now right].
Qed.
Lemma alloc_vl M p : M (lv p) = 1 -> allocated M (vl p).
Proof. intros O q [H|[H|H]]; [exfalso; revert H; cells|exfalso; revert H; cells|]. apply vl_inj in H. subst q. now right. Qed.
Lemma alloc_head M : allocated M Head.
Proof. intros q [H|[H|H]]; discriminate. Qed.
Lemma alloc_lv M p : allocated M (lv p).
Proof. intros q [H|[H|H]]; exfalso; revert H; cells. Qed.
Lemma alloc_fresh M : allocated M fresh.
Proof. intros q [H|[H|H]]; exfalso; revert H; cells. Qed.

(** ** A program goes on as another *)
(** From memory [M] the program runs, without taking the lock, up to [q]; the
    two flags say whether it holds the lock before and then. *)
Inductive arrives : bool -> memory -> prog -> memory -> prog -> bool -> Prop :=
| ar_refl h M p : arrives h M p M p h
| ar_rd h M l k N q h' : arrives h M (k (M l)) N q h' -> arrives h M (PRd l k) N q h'
| ar_wr h M l v k N q h' : arrives h (store M l v) k N q h' -> arrives h M (PWr l v k) N q h'
| ar_rel M k N q h' : arrives false M k N q h' -> arrives true M (PRel k) N q h'.
Lemma arrives_trans h M p N q h' O r h'' : arrives h M p N q h' -> arrives h' N q O r h'' -> arrives h M p O r h''.
Proof. induction 1; intros A; [exact A|apply ar_rd; auto|apply ar_wr; auto|apply ar_rel; auto]. Qed.
Definition goes (p : prog) (M : memory) (q : prog) (N : memory) : Prop :=
  exec p M = exec q N /\ (clean q N -> clean p M) /\ forall h, arrives h M p N q h.
Lemma goes_refl p M : goes p M p M. Proof. split; [|split]; auto. constructor. Qed.
Lemma goes_trans p M q N r O : goes p M q N -> goes q N r O -> goes p M r O.
Proof. intros (A & B & C) (D & E & F). split; [congruence|]. split; [auto|]. intros h. eapply arrives_trans; eauto. Qed.
Lemma goes_rd l k M : allocated M l -> goes (PRd l k) M (k (M l)) M.
Proof. intros A. split; [reflexivity|]. split; [cbn; auto|]. intros. apply ar_rd, ar_refl. Qed.
Lemma goes_wr l v k M : allocated M l -> goes (PWr l v k) M k (store M l v).
Proof. intros A. split; [reflexivity|]. split; [cbn; auto|]. intros. apply ar_wr, ar_refl. Qed.

(** ** Chains *)
Lemma joined_tl M p l : joined M (p :: l) -> joined M l.
Proof. destruct l; cbn; tauto. Qed.
Lemma joined_nth M : forall l i p q, joined M l -> nth_error l i = Some p -> nth_error l (S i) = Some q -> M (nx p) = q /\ M (pv q) = p.
Proof.
  induction l as [|x l IH]; intros i p q J A B; [destruct i; discriminate|]. destruct i as [|i].
  - cbn in A. injection A as <-. destruct l as [|y l]; [discriminate|]. cbn in B. injection B as <-. cbn in J. tauto.
  - apply (IH i); [eapply joined_tl; eauto|exact A|exact B].
Qed.
Lemma joined_app M : forall a x b, joined M (a ++ x :: b) <-> joined M (a ++ [x]) /\ joined M (x :: b).
Proof.
  induction a as [|y a IH]; intros x b; [cbn; tauto|]. destruct a as [|z a].
  - cbn. tauto.
  - cbn [app] in *. specialize (IH x b). cbn [joined] in *. tauto.
Qed.
Lemma joined_ext M N : forall l, (forall x, In x (removelast l) -> N (nx x) = M (nx x)) -> (forall y, In y (tl l) -> N (pv y) = M (pv y)) ->
  joined M l -> joined N l.
Proof.
  induction l as [|x l IH]; intros A B J; [exact I|]. destruct l as [|y l]; [exact I|]. cbn [joined] in *.
  split; [rewrite A; [tauto|now left]|]. split; [rewrite B; [tauto|now left]|].
  apply IH; [|intros z Z; apply B; now right|tauto]. intros z Z. apply A. cbn [removelast]. right. exact Z.
Qed.

Section Walk.
Context (M : memory) (ps s : list Z).
Context (H : nodes M ps s).
Let l := 0 :: ps ++ [0].
Lemma nodes_length : length ps = length s.
Proof. destruct H as (_ & _ & _ & E & _). rewrite <- E. now rewrite map_length. Qed.
Lemma nodes_ok p : In p l -> ok M p.
Proof.
  destruct H as (_ & _ & A & _). intros [<-|X]; [now left|]. apply in_app_or in X. destruct X as [X|[<-|[]]]; [|now left].
  right. now apply A.
Qed.
Lemma node_at i : (i < length s)%nat -> nth_error l (S i) = Some (nth i ps 0) /\ In (nth i ps 0) ps.
Proof.
  intros L. rewrite <- nodes_length in L. split; [|now apply nth_In]. unfold l. cbn [nth_error].
  rewrite nth_error_app1 by auto. now apply nth_error_nth'.
Qed.
Lemma node_end : nth_error l (S (length s)) = Some 0.
Proof. unfold l. cbn [nth_error]. rewrite <- nodes_length, nth_error_app2, Nat.sub_diag by auto. reflexivity. Qed.

Lemma goes_ahead k : forall n i p q, nth_error l i = Some p -> nth_error l (i + n) = Some q -> goes (ahead n p k) M (k q) M.
Proof.
  induction n as [|n IH]; intros i p q A B.
  - rewrite Nat.add_0_r in B. assert (p = q) by congruence. subst. apply goes_refl.
  - destruct (nth_error l (S i)) as [r|] eqn:C.
    + destruct (joined_nth M l i p r (proj1 H) A C) as [X _]. cbn [ahead].
      eapply goes_trans; [apply goes_rd, alloc_nx, nodes_ok; eapply nth_error_In; eauto|]. cbv beta. rewrite X.
      apply (IH (S i)); [exact C|]. rewrite <- B. f_equal. lia.
    + apply nth_error_None in C. assert (nth_error l (i + S n) = None) by (apply nth_error_None; lia). congruence.
Qed.
Lemma goes_back k : forall n i p q, nth_error l (i + n) = Some p -> nth_error l i = Some q -> goes (back n p k) M (k q) M.
Proof.
  induction n as [|n IH]; intros i p q A B.
  - rewrite Nat.add_0_r in A. assert (p = q) by congruence. subst. apply goes_refl.
  - destruct (nth_error l (i + n)) as [r|] eqn:C.
    + rewrite Nat.add_succ_r in A. destruct (joined_nth M l (i + n) r p (proj1 H) C A) as [_ X]. cbn [back].
      eapply goes_trans; [apply goes_rd, alloc_pv, nodes_ok; eapply nth_error_In; eauto|]. cbv beta. rewrite X.
      apply (IH i); auto.
    + apply nth_error_None in C. assert (nth_error l (i + S n) = None) by (apply nth_error_None; lia). congruence.
Qed.
Lemma head_is : M Head = zlen s. Proof. apply H. Qed.
Lemma first_is : M (nx 0) = nth 0 ps 0.
Proof.
  destruct H as (J & _). destruct ps as [|p r]; cbn in *; tauto.
Qed.
Lemma last_node : M (pv 0) = last ps 0.
Proof.
  destruct H as (J & _). destruct ps as [|p r] eqn:E using rev_ind; [cbn in *; tauto|]. clear E IHr.
  rewrite last_last. replace (0 :: (r ++ [p]) ++ [0]) with ((0 :: r) ++ p :: [0]) in J by (cbn; now rewrite <- app_assoc).
  apply joined_app in J. cbn in J. tauto.
Qed.
Lemma goes_at k i : goes (at_node (Z.of_nat i) k) M (k (if (i <? length s)%nat then nth i ps 0 else 0)) M.
Proof.
  unfold at_node. eapply goes_trans; [apply goes_rd, alloc_head|]. cbv beta. rewrite head_is. unfold zlen.
  destruct (Nat.ltb_spec i (length s)) as [L|L].
  - destruct (Z.leb_spec (Z.of_nat (length s)) (Z.of_nat i)); [lia|].
    destruct (node_at i L) as [A _]. destruct (Z.ltb_spec (Z.of_nat (length s) / 2) (Z.of_nat i)) as [D|D].
    + eapply goes_trans; [apply goes_rd, alloc_pv; now left|]. cbv beta. apply (goes_back k _ (S i)); [|exact A].
      rewrite last_node. replace (S i + Z.to_nat (Z.of_nat (length s) - Z.of_nat i - 1))%nat with (length s) by lia.
      destruct (length s) as [|m] eqn:E; [lia|]. destruct (node_at m) as [B _]; [lia|]. rewrite B. f_equal.
      pose proof nodes_length as NL. destruct ps as [|p r] eqn:Q using rev_ind; [cbn in NL; lia|]. rewrite last_last, app_nth2 by (rewrite app_length in NL; cbn in NL; lia).
      replace (m - length r)%nat with 0%nat; [reflexivity|]. rewrite app_length in NL. cbn in NL. lia.
    + eapply goes_trans; [apply goes_rd, alloc_nx; now left|]. cbv beta. rewrite Nat2Z.id. rewrite first_is.
      apply (goes_ahead k _ 1); [|exact A]. apply node_at. lia.
  - destruct (Z.leb_spec (Z.of_nat (length s)) (Z.of_nat i)); [|lia]. apply goes_refl.
Qed.
Lemma goes_values : forall n i k, (i + n = length s)%nat ->
  goes (values n (nth i (ps ++ [0]) 0) k) M (k (skipn i s)) M.
Proof.
  induction n as [|n IH]; intros i k E.
  - cbn [values]. rewrite skipn_all2 by lia. apply goes_refl.
  - destruct (node_at i) as [A B]; [lia|]. pose proof nodes_length as NL. cbn [values]. rewrite app_nth1 by lia.
    eapply goes_trans; [apply goes_rd, alloc_vl; apply H; exact B|]. cbv beta.
    eapply goes_trans; [apply goes_rd, alloc_nx, nodes_ok; right; apply in_or_app; now left|]. cbv beta.
    assert (X : nth_error l (S (S i)) = Some (nth (S i) (ps ++ [0]) 0)).
    { unfold l. change (nth_error (0 :: ps ++ [0]) (S (S i))) with (nth_error (ps ++ [0]) (S i)). apply nth_error_nth'. rewrite app_length. cbn. lia. }
    destruct (joined_nth M l _ _ _ (proj1 H) A X) as [-> _].
    eapply goes_trans; [apply (IH (S i) (fun vs => k (M (vl (nth i ps 0)) :: vs))); lia|]. cbv beta.
    replace (M (vl (nth i ps 0)) :: skipn (S i) s) with (skipn i s); [apply goes_refl|].
    destruct H as (_ & _ & _ & V & _). rewrite <- V. clear - A B E NL. subst. assert (L : (i < length ps)%nat) by lia. clear - L.
    revert i L. induction ps as [|p r IH]; intros i L; cbn in L; [lia|]. destruct i; [reflexivity|]. cbn [map skipn nth]. apply IH. lia.
Qed.
Lemma goes_find v : forall n i k, (i + n = length s)%nat ->
  goes (find n (nth i (ps ++ [0]) 0) v k) M (k (existsb (Z.eqb v) (skipn i s))) M.
Proof.
  induction n as [|n IH]; intros i k E.
  - cbn [find]. rewrite skipn_all2 by lia. apply goes_refl.
  - destruct (node_at i) as [A B]; [lia|]. pose proof nodes_length as NL. cbn [find]. rewrite app_nth1 by lia.
    eapply goes_trans; [apply goes_rd, alloc_vl; apply H; exact B|]. cbv beta.
    assert (SK : skipn i s = M (vl (nth i ps 0)) :: skipn (S i) s).
    { destruct H as (_ & _ & _ & V & _). rewrite <- V. assert (L : (i < length ps)%nat) by lia. clear - L.
      revert i L. induction ps as [|p r IH]; intros i L; cbn in L; [lia|]. destruct i; [reflexivity|]. cbn [map skipn nth]. apply IH. lia. }
    rewrite SK. cbn [existsb]. rewrite (Z.eqb_sym v). destruct (M (vl (nth i ps 0)) =? v); [apply goes_refl|]. cbn [orb].
    eapply goes_trans; [apply goes_rd, alloc_nx, nodes_ok; right; apply in_or_app; now left|]. cbv beta.
    assert (X : nth_error l (S (S i)) = Some (nth (S i) (ps ++ [0]) 0)).
    { unfold l. change (nth_error (0 :: ps ++ [0]) (S (S i))) with (nth_error (ps ++ [0]) (S i)). apply nth_error_nth'. rewrite app_length. cbn. lia. }
    destruct (joined_nth M l _ _ _ (proj1 H) A X) as [-> _]. apply IH. lia.
Qed.
End Walk.

(** ** Insertion *)
Lemma removelast_app1 {A} (l : list A) x : removelast (l ++ [x]) = l.
Proof. rewrite removelast_app by discriminate. cbn. apply app_nil_r. Qed.
Lemma nodup_app {A} (a b : list A) : NoDup (a ++ b) <-> NoDup a /\ NoDup b /\ forall x, In x a -> ~ In x b.
Proof.
  induction a as [|x a IH]; cbn.
  - split; [intros H; split; [constructor|split; [exact H|tauto]]|tauto].
  - split.
    + intros H. inversion H as [|? ? N D]; subst. apply IH in D. destruct D as (D1 & D2 & D3).
      split; [constructor; [intros X; apply N, in_or_app; now left|exact D1]|]. split; [exact D2|].
      intros y [<-|Y]; [intros X; apply N, in_or_app; now right|now apply D3].
    + intros (D1 & D2 & D3). inversion D1; subst. constructor.
      * intros X. apply in_app_or in X. destruct X as [X|X]; [contradiction|]. apply (D3 x); auto.
      * apply IH. split; [assumption|]. split; [assumption|]. intros y Y. apply D3. now right.
Qed.
Lemma nodup_mid {A} (a b : list A) x : NoDup (a ++ x :: b) -> NoDup (a ++ b) /\ ~ In x (a ++ b).
Proof. intros H. split; [now apply NoDup_remove_1 in H|now apply NoDup_remove_2 in H]. Qed.
Lemma hd_last_split (a : list Z) : exists A q, 0 :: a = A ++ [q] /\ (forall x, In x (tl (A ++ [q])) -> In x a) /\ q = last a 0.
Proof.
  exists (removelast (0 :: a)), (last (0 :: a) 0).
  assert (E : 0 :: a = removelast (0 :: a) ++ [last (0 :: a) 0]) by (apply app_removelast_last; discriminate).
  split; [exact E|]. rewrite <- E. split; [auto|]. destruct a; reflexivity.
Qed.
Lemma hd_tl_split (b : list Z) : exists B, b ++ [0] = hd 0 b :: B /\ removelast (hd 0 b :: B) = b /\ (forall x, In x B -> In x (tl b) \/ b <> [] /\ x = 0).
Proof.
  destruct b as [|x b]; cbn [hd app]; [exists []; cbn; repeat split; tauto|]. exists (b ++ [0]). split; [reflexivity|]. split.
  - change (x :: b ++ [0]) with ((x :: b) ++ [0]). apply removelast_app1.
  - cbn. intros y Y. apply in_app_or in Y. destruct Y as [Y|[<-|[]]]; [now left|right; split; [discriminate|reflexivity]].
Qed.
Lemma joined_between M a b : joined M (0 :: (a ++ b) ++ [0]) -> M (nx (last a 0)) = hd 0 b /\ M (pv (hd 0 b)) = last a 0.
Proof.
  intros J. destruct (hd_last_split a) as (A & q & E & _ & Q). destruct (hd_tl_split b) as (B & F & _).
  rewrite <- app_assoc, app_comm_cons, E, F, <- app_assoc in J. cbn [app] in J. apply joined_app in J. destruct J as [_ J].
  rewrite <- Q. cbn in J. tauto.
Qed.
Section Insert.
Context (M : memory) (a b s : list Z) (v : Z).
Context (H : nodes M (a ++ b) s).
Let p := M fresh.
Let q := last a 0.
Let pos := hd 0 b.
Definition hooked : memory :=
  store (store (store (store (store (store (store (store M fresh (p + 1)) (lv p) 1) (vl p) v) (nx p) pos) (pv p) q) (nx q) p) (pv pos) p) Head (M Head + 1).
Lemma in_bounds x : In x (a ++ b) -> 0 < x < p. Proof. destruct H as (_ & _ & X & _). intros I. apply X in I. unfold p. tauto. Qed.
Lemma p_pos : 0 < p. Proof. destruct H as (_ & _ & _ & _ & _ & X). exact X. Qed.
Lemma q_in : q = 0 /\ a = [] \/ In q a.
Proof.
  unfold q. destruct a as [|x r] eqn:E using rev_ind; [now left|right]. rewrite last_last. apply in_or_app. right. now left.
Qed.
Lemma pos_in : pos = 0 /\ b = [] \/ In pos b.
Proof. unfold pos. destruct b; [now left|right; now left]. Qed.
Lemma q_not_p : q <> p.
Proof. pose proof p_pos. destruct q_in as [[-> _]|I]; [lia|]. assert (X : In q (a ++ b)) by (apply in_or_app; now left). apply in_bounds in X. lia. Qed.
Lemma pos_not_p : pos <> p.
Proof. pose proof p_pos. destruct pos_in as [[-> _]|I]; [lia|]. assert (X : In pos (a ++ b)) by (apply in_or_app; now right). apply in_bounds in X. lia. Qed.
Lemma ok_q : ok M q.
Proof. destruct q_in as [[-> _]|I]; [now left|right]. apply H. apply in_or_app. now left. Qed.
Lemma ok_pos : ok M pos.
Proof. destruct pos_in as [[-> _]|I]; [now left|right]. apply H. apply in_or_app. now right. Qed.
Lemma goes_insert k : goes (insert_node pos v k) M k hooked.
Proof.
  assert (PQ : M (pv pos) = q) by (apply joined_between; apply H).
  pose proof q_not_p as QP. pose proof pos_not_p as PP. pose proof ok_q as OQ. pose proof ok_pos as OP.
  unfold insert_node, hooked.
  eapply goes_trans; [apply goes_rd, alloc_fresh|]. cbv beta. fold p.
  eapply goes_trans; [apply goes_wr, alloc_fresh|].
  eapply goes_trans; [apply goes_wr, alloc_lv|].
  eapply goes_trans; [apply goes_wr, alloc_vl; mem; now rewrite Z.eqb_refl|].
  eapply goes_trans; [apply goes_wr, alloc_nx; right; mem; now rewrite Z.eqb_refl|].
  eapply goes_trans; [apply goes_rd, alloc_pv|].
  { destruct OP as [->|OP]; [now left|right]. mem. destruct (pos =? p); auto. }
  cbv beta. replace (store (store (store (store M fresh (p + 1)) (lv p) 1) (vl p) v) (nx p) pos (pv pos)) with q by (mem; auto).
  eapply goes_trans; [apply goes_wr, alloc_pv; right; mem; now rewrite Z.eqb_refl|].
  eapply goes_trans; [apply goes_wr, alloc_nx|].
  { destruct OQ as [->|OQ]; [now left|right]. mem. destruct (q =? p); auto. }
  eapply goes_trans; [apply goes_wr, alloc_pv|].
  { destruct OP as [->|OP]; [now left|right]. mem. destruct (pos =? p); auto. }
  eapply goes_trans; [apply goes_rd, alloc_head|]. cbv beta.
  rewrite !(store_other _ _ _ Head) by cells.
  apply goes_wr, alloc_head.
Qed.
Lemma hooked_nodes : nodes hooked (a ++ p :: b) (map (fun x => M (vl x)) a ++ v :: map (fun x => M (vl x)) b).
Proof.
  pose proof q_not_p as QP. pose proof pos_not_p as PP. pose proof p_pos as P0. pose proof in_bounds as IB.
  assert (H0 := H). destruct H as (J & D & AL & V & SZ & FR).
  assert (D0 : NoDup (0 :: a ++ b)) by (constructor; [intros X; apply IB in X; lia|exact D]).
  assert (D1 : NoDup (a ++ b)) by auto. apply nodup_app in D1. destruct D1 as (Da & Db & Dab).
  assert (HN : forall x, hooked (nx x) = if x =? q then p else if x =? p then pos else M (nx x)) by (intros x; unfold hooked; mem; reflexivity).
  assert (HP : forall x, hooked (pv x) = if x =? pos then p else if x =? p then q else M (pv x)) by (intros x; unfold hooked; mem; reflexivity).
  assert (HV : forall x, hooked (vl x) = if x =? p then v else M (vl x)) by (intros x; unfold hooked; mem; reflexivity).
  assert (HL : forall x, hooked (lv x) = if x =? p then 1 else M (lv x)) by (intros x; unfold hooked; mem; reflexivity).
  assert (HH : hooked Head = M Head + 1) by (unfold hooked; mem; reflexivity).
  assert (HF : hooked fresh = p + 1) by (unfold hooked; mem; reflexivity).
  generalize dependent hooked. intros N HN HP HV HL HH HF.
  split; [|split; [|split; [|split; [|split]]]].
  - destruct (hd_last_split a) as (A & q' & E & TL & Q). destruct (hd_tl_split b) as (B & F & RL & BL).
    fold q in Q. subst q'. fold pos in F, RL.
    replace (0 :: (a ++ p :: b) ++ [0]) with (A ++ q :: p :: pos :: B).
    2:{ rewrite <- F. rewrite <- app_assoc. cbn [app]. change (0 :: a ++ p :: b ++ [0]) with ((0 :: a) ++ p :: b ++ [0]). rewrite E, <- app_assoc. reflexivity. }
    replace (0 :: (a ++ b) ++ [0]) with (A ++ q :: pos :: B) in J.
    2:{ rewrite <- F. rewrite <- app_assoc. change (0 :: a ++ b ++ [0]) with ((0 :: a) ++ b ++ [0]). rewrite E, <- app_assoc. reflexivity. }
    apply joined_app in J. destruct J as [J1 J2]. cbn [joined] in J2. destruct J2 as (_ & _ & J2).
    assert (D0a : NoDup (A ++ [q])) by (rewrite <- E; constructor; [intros X; assert (Y0 : In 0 (a ++ b)) by (apply in_or_app; now left); apply IB in Y0; lia|exact Da]).
    apply joined_app. split; [|split; [|split; [|split; [|split]]]].
    + apply (joined_ext M); [| |exact J1].
      * rewrite removelast_app1. intros x X. rewrite HN.
        apply nodup_app in D0a. destruct D0a as (_ & _ & D0a). destruct (Z.eqb_spec x q) as [->|_]; [exfalso; apply (D0a q X); now left|].
        destruct (Z.eqb_spec x p) as [->|_]; [|reflexivity]. exfalso. assert (X' : In p (0 :: a)) by (rewrite E; apply in_or_app; now left).
        destruct X' as [X'|X']; [lia|]. assert (Y : In p (a ++ b)) by (apply in_or_app; now left). apply IB in Y. lia.
      * intros y Y. apply TL in Y. rewrite HP. assert (Y' : In y (a ++ b)) by (apply in_or_app; now left). apply IB in Y'.
        destruct (Z.eqb_spec y pos) as [->|_]; [|destruct (Z.eqb_spec y p); [lia|reflexivity]].
        destruct pos_in as [[X _]|X]; [lia|exfalso; now apply (Dab pos)].
    + rewrite HN, Z.eqb_refl. reflexivity.
    + rewrite HP, Z.eqb_refl. destruct (Z.eqb_spec p pos); [congruence|reflexivity].
    + rewrite HN, Z.eqb_refl. destruct (Z.eqb_spec p q); [congruence|reflexivity].
    + rewrite HP, Z.eqb_refl. reflexivity.
    + apply (joined_ext M); [| |exact J2].
      * rewrite RL. intros x X. rewrite HN. assert (X' : In x (a ++ b)) by (apply in_or_app; now right). apply IB in X'.
        destruct (Z.eqb_spec x q) as [->|_]; [|destruct (Z.eqb_spec x p); [lia|reflexivity]].
        destruct q_in as [[Y _]|Y]; [lia|exfalso; now apply (Dab q)].
      * cbn [tl]. intros y Y. rewrite HP. apply BL in Y. destruct Y as [Y|[Y ->]].
        -- assert (Y1 : In y b) by (destruct b; [destruct Y|now right]). assert (Y2 : In y (a ++ b)) by (apply in_or_app; now right). apply IB in Y2.
           destruct (Z.eqb_spec y pos) as [->|_]; [|destruct (Z.eqb_spec y p); [lia|reflexivity]].
           exfalso. unfold pos in Y. clear - Db Y. destruct b as [|x r]; [destruct Y|]. cbn in Y. inversion Db. contradiction.
        -- destruct (Z.eqb_spec 0 pos) as [Z|_]; [|destruct (Z.eqb_spec 0 p); [lia|reflexivity]].
           exfalso. destruct pos_in as [[_ X]|X]; [contradiction|]. assert (Y2 : In pos (a ++ b)) by (apply in_or_app; now right). apply IB in Y2. lia.
  - apply nodup_app. split; [exact Da|]. split; [constructor; [|exact Db]|].
    + intros X. assert (Y : In p (a ++ b)) by (apply in_or_app; now right). apply IB in Y. lia.
    + intros x X [<-|Y]; [|now apply (Dab x)]. assert (Y : In p (a ++ b)) by (apply in_or_app; now left). apply IB in Y. lia.
  - intros x X. rewrite HF, HL. apply in_app_or in X. assert (X' : In x (a ++ b) \/ x = p) by (destruct X as [X|[X|X]]; [left; apply in_or_app; now left|now right|left; apply in_or_app; now right]).
    destruct X' as [X'| ->].
    + pose proof (IB x X'). destruct (Z.eqb_spec x p); [lia|]. split; [lia|]. now apply AL.
    + rewrite Z.eqb_refl. split; [lia|reflexivity].
  - rewrite map_app. cbn [map]. rewrite HV, Z.eqb_refl. f_equal; [|f_equal]; apply map_ext_in; intros x X; rewrite HV;
      (destruct (Z.eqb_spec x p) as [->|_]; [exfalso|reflexivity]).
    + assert (Y : In p (a ++ b)) by (apply in_or_app; now left). apply IB in Y. lia.
    + assert (Y : In p (a ++ b)) by (apply in_or_app; now right). apply IB in Y. lia.
  - rewrite HH, SZ, <- V. unfold zlen. rewrite map_app, !app_length. cbn [length]. rewrite !map_length. lia.
  - rewrite HF. lia.
Qed.
End Insert.

(** ** Erasure *)
Section Erase.
Context (M : memory) (a b s : list Z) (p : Z).
Context (H : nodes M (a ++ p :: b) s).
Let q := last a 0.
Let pos := hd 0 b.
Definition unhooked : memory := store (store (store (store M Head (M Head - 1)) (nx q) pos) (pv pos) q) (lv p) 0.
Lemma around : M (nx q) = p /\ M (pv p) = q /\ M (nx p) = pos /\ M (pv pos) = p.
Proof.
  destruct H as (J & _). pose proof (joined_between M a (p :: b) J) as [A B]. cbn [hd] in A, B.
  replace (a ++ p :: b) with ((a ++ [p]) ++ b) in J by (now rewrite <- app_assoc). apply joined_between in J. rewrite last_last in J.
  fold q in A, B. fold pos in J. tauto.
Qed.
Lemma around_in : (q = 0 \/ In q a) /\ (pos = 0 \/ In pos b) /\ 0 < p.
Proof.
  split; [|split].
  - unfold q. destruct a as [|x r] eqn:E using rev_ind; [now left|right]. rewrite last_last. apply in_or_app. right. now left.
  - unfold pos. destruct b; [now left|right; now left].
  - destruct H as (_ & _ & X & _). apply X. apply in_or_app. right. now left.
Qed.
Lemma in_ab x : In x (a ++ b) -> 0 < x < M fresh /\ M (lv x) = 1 /\ x <> p.
Proof.
  intros X. destruct H as (_ & D & A & _). apply nodup_mid in D. destruct D as [_ D].
  assert (Y : In x (a ++ p :: b)) by (apply in_app_or in X; apply in_or_app; destruct X; [now left|right; now right]).
  apply A in Y. split; [tauto|]. split; [tauto|]. intros ->. contradiction.
Qed.
Lemma goes_erase k : goes (erase_node p k) M k unhooked.
Proof.
  destruct around as (_ & Q & P & _). destruct around_in as (QI & PI & P0).
  assert (OP : M (lv p) = 1) by (apply H; apply in_or_app; right; now left).
  assert (OQ : ok M q) by (destruct QI as [->|I]; [now left|right; apply in_ab; apply in_or_app; now left]).
  assert (OS : ok M pos) by (destruct PI as [->|I]; [now left|right; apply in_ab; apply in_or_app; now right]).
  unfold erase_node, unhooked.
  eapply goes_trans; [apply goes_rd, alloc_head|]. cbv beta.
  eapply goes_trans; [apply goes_wr, alloc_head|].
  eapply goes_trans; [apply goes_rd, alloc_nx; right; mem; exact OP|]. cbv beta.
  eapply goes_trans; [apply goes_rd, alloc_pv; right; mem; exact OP|]. cbv beta.
  rewrite !(store_other _ Head _) by cells. rewrite P, Q.
  eapply goes_trans; [apply goes_wr, alloc_nx; destruct OQ as [->|OQ]; [now left|right; mem; exact OQ]|].
  eapply goes_trans; [apply goes_wr, alloc_pv; destruct OS as [->|OS]; [now left|right; mem; exact OS]|].
  apply goes_wr, alloc_lv.
Qed.
Lemma unhooked_nodes : nodes unhooked (a ++ b) (map (fun x => M (vl x)) a ++ map (fun x => M (vl x)) b).
Proof.
  destruct around_in as (QI & PI & P0). pose proof in_ab as IB.
  assert (H0 := H). destruct H as (J & D & AL & V & SZ & FR).
  assert (D' := D). apply nodup_mid in D'. destruct D' as [D1 DP]. assert (D2 := D1). apply nodup_app in D2. destruct D2 as (Da & Db & Dab).
  assert (HN : forall x, unhooked (nx x) = if x =? q then pos else M (nx x)) by (intros x; unfold unhooked; mem; reflexivity).
  assert (HP : forall x, unhooked (pv x) = if x =? pos then q else M (pv x)) by (intros x; unfold unhooked; mem; reflexivity).
  assert (HV : forall x, unhooked (vl x) = M (vl x)) by (intros x; unfold unhooked; mem; reflexivity).
  assert (HL : forall x, unhooked (lv x) = if x =? p then 0 else M (lv x)) by (intros x; unfold unhooked; mem; reflexivity).
  assert (HH : unhooked Head = M Head - 1) by (unfold unhooked; mem; reflexivity).
  assert (HF : unhooked fresh = M fresh) by (unfold unhooked; mem; reflexivity).
  generalize dependent unhooked. intros N HN HP HV HL HH HF.
  split; [|split; [|split; [|split; [|split]]]].
  - destruct (hd_last_split a) as (A & q' & E & TL & Q). destruct (hd_tl_split b) as (B & F & RL & BL).
    fold q in Q. subst q'. fold pos in F, RL.
    replace (0 :: (a ++ p :: b) ++ [0]) with (A ++ q :: p :: pos :: B) in J.
    2:{ rewrite <- F. rewrite <- app_assoc. cbn [app]. change (0 :: a ++ p :: b ++ [0]) with ((0 :: a) ++ p :: b ++ [0]). rewrite E, <- app_assoc. reflexivity. }
    replace (0 :: (a ++ b) ++ [0]) with (A ++ q :: pos :: B).
    2:{ rewrite <- F. rewrite <- app_assoc. change (0 :: a ++ b ++ [0]) with ((0 :: a) ++ b ++ [0]). rewrite E, <- app_assoc. reflexivity. }
    apply joined_app in J. destruct J as [J1 J2]. cbn [joined] in J2. destruct J2 as (_ & _ & _ & _ & J2).
    assert (D0a : NoDup (A ++ [q])) by (rewrite <- E; constructor; [intros X; assert (Y0 : In 0 (a ++ b)) by (apply in_or_app; now left); apply IB in Y0; lia|exact Da]).
    apply joined_app. split; [|split; [|split]].
    + apply (joined_ext M); [| |exact J1].
      * rewrite removelast_app1. intros x X. rewrite HN.
        apply nodup_app in D0a. destruct D0a as (_ & _ & D0a). destruct (Z.eqb_spec x q) as [->|_]; [exfalso; apply (D0a q X); now left|reflexivity].
      * intros y Y. apply TL in Y. rewrite HP. assert (Y' : In y (a ++ b)) by (apply in_or_app; now left). apply IB in Y'.
        destruct (Z.eqb_spec y pos) as [->|_]; [|reflexivity].
        destruct PI as [X|X]; [lia|exfalso; now apply (Dab pos)].
    + rewrite HN, Z.eqb_refl. reflexivity.
    + rewrite HP, Z.eqb_refl. reflexivity.
    + apply (joined_ext M); [| |exact J2].
      * rewrite RL. intros x X. rewrite HN. assert (X' : In x (a ++ b)) by (apply in_or_app; now right). apply IB in X'.
        destruct (Z.eqb_spec x q) as [->|_]; [|reflexivity].
        destruct QI as [Y|Y]; [lia|exfalso; now apply (Dab q)].
      * cbn [tl]. intros y Y. rewrite HP. apply BL in Y. destruct Y as [Y|[Y ->]].
        -- assert (Y1 : In y b) by (destruct b; [destruct Y|now right]). assert (Y2 : In y (a ++ b)) by (apply in_or_app; now right). apply IB in Y2.
           destruct (Z.eqb_spec y pos) as [->|_]; [|reflexivity].
           exfalso. unfold pos in Y. clear - Db Y. destruct b as [|x r]; [destruct Y|]. cbn in Y. inversion Db. contradiction.
        -- destruct (Z.eqb_spec 0 pos) as [Z|_]; [|reflexivity].
           exfalso. assert (X : In pos b) by (unfold pos; destruct b; [contradiction|now left]).
           assert (Y2 : In pos (a ++ b)) by (apply in_or_app; now right). apply IB in Y2. lia.
  - exact D1.
  - intros x X. rewrite HF, HL. apply IB in X. destruct (Z.eqb_spec x p); [tauto|]. tauto.
  - rewrite map_app. f_equal; apply map_ext; intros x; apply HV.
  - rewrite HH, SZ, <- V. unfold zlen. rewrite map_app, !app_length. cbn [map length]. rewrite !map_length. lia.
  - rewrite HF. lia.
Qed.
End Erase.

(** ** Freeing all nodes *)
Lemma goes_free k : forall c M, joined M (c ++ [0]) -> NoDup c -> (forall x, In x c -> M (lv x) = 1) ->
  exists N, goes (free_nodes (length c) (hd 0 c) k) M k N /\ (forall l, (forall x, In x c -> l <> lv x) -> N l = M l) /\
    forall x, In x c -> N (lv x) = 0.
Proof.
  induction c as [|x c IH]; intros M J D A.
  - exists M. split; [apply goes_refl|]. split; [reflexivity|intros x []].
  - inversion D as [|? ? NI D']; subst. set (M1 := store M (lv x) 0).
    assert (J' : joined M1 (c ++ [0])).
    { apply (joined_ext M); [intros y _; unfold M1; mem; reflexivity|intros y _; unfold M1; mem; reflexivity|].
      cbn [app] in J. now apply joined_tl in J. }
    destruct (IH M1) as (N & G & F & Z); [exact J'|exact D'|intros y Y; unfold M1; mem; destruct (Z.eqb_spec y x) as [->|_]; [contradiction|apply A; now right]|].
    assert (NX : M (nx x) = hd 0 c) by (destruct c; cbn in J; tauto).
    exists N. split; [|split].
    + cbn [length free_nodes hd]. eapply goes_trans; [apply goes_rd, alloc_nx; right; apply A; now left|]. cbv beta. rewrite NX.
      eapply goes_trans; [apply goes_wr, alloc_lv|]. exact G.
    + intros l L. rewrite F by (intros y Y; apply L; now right). unfold M1. apply store_other. apply L. now left.
    + intros y [<-|Y]; [|now apply Z]. rewrite F; [unfold M1; mem; now rewrite Z.eqb_refl|].
      intros y Y E. apply lv_inj in E. now subst.
Qed.

(** ** Values *)
Lemma nodes_values M N ps s : nodes M ps s -> (forall l, (forall p, In p ps -> l <> vl p) -> N l = M l) ->
  nodes N ps (map (fun p => N (vl p)) ps).
Proof.
  intros (J & D & A & V & SZ & FR) E.
  assert (NN : forall x, N (nx x) = M (nx x)) by (intros x; apply E; intros p _; cells).
  assert (NP : forall x, N (pv x) = M (pv x)) by (intros x; apply E; intros p _; cells).
  assert (NL : forall x, N (lv x) = M (lv x)) by (intros x; apply E; intros p _; cells).
  assert (NF : N fresh = M fresh) by (apply E; intros p _; cells).
  assert (NH : N Head = M Head) by (apply E; intros p _; discriminate).
  split; [|split; [|split; [|split; [|split]]]].
  - apply (joined_ext M); auto.
  - exact D.
  - intros p P. rewrite NF, NL. now apply A.
  - reflexivity.
  - rewrite NH, SZ, <- V. unfold zlen. now rewrite !map_length.
  - now rewrite NF.
Qed.
Lemma nodes_same M ps s s' : nodes M ps s -> s = s' -> nodes M ps s'. Proof. now intros H <-. Qed.

(** ** Reversal *)
Section Swap.
Context (M : memory) (a b c s : list Z) (x y : Z).
Context (H : nodes M (a ++ (x :: b ++ [y]) ++ c) s).
Definition swapped : memory := store (store M (vl x) (M (vl y))) (vl y) (M (vl x)).
Lemma swap_facts : M (pv (hd 0 c)) = y /\ M (nx x) = hd 0 (b ++ [y] ++ c) /\ x <> y /\ M (lv x) = 1 /\ M (lv y) = 1 /\ ok M (hd 0 c).
Proof.
  assert (H' := H). destruct H' as (J & D & A & _).
  split; [|split; [|split; [|split; [|split]]]].
  - replace (a ++ (x :: b ++ [y]) ++ c) with ((a ++ x :: b ++ [y]) ++ c) in J by (now rewrite <- app_assoc).
    apply joined_between in J. destruct J as [_ J]. rewrite J. replace (a ++ x :: b ++ [y]) with ((a ++ x :: b) ++ [y]) by (now rewrite <- app_assoc). apply last_last.
  - replace (a ++ (x :: b ++ [y]) ++ c) with ((a ++ [x]) ++ (b ++ [y] ++ c)) in J by (rewrite <- !app_assoc; cbn; now rewrite <- !app_assoc).
    apply joined_between in J. rewrite last_last in J. tauto.
  - intros ->. apply nodup_app in D. destruct D as (_ & D & _). cbn [app] in D. inversion D as [|? ? N _]; subst. apply N.
    apply in_or_app. left. apply in_or_app. right. now left.
  - apply A. apply in_or_app. right. now left.
  - apply A. apply in_or_app. right. apply in_or_app. left. right. apply in_or_app. right. now left.
  - destruct c as [|z r]; [now left|]. right. apply A. apply in_or_app. right. apply in_or_app. right. now left.
Qed.
Lemma goes_swap f k : goes (rev_loop (S f) x (hd 0 c) k) M (rev_loop f (hd 0 (b ++ [y] ++ c)) y k) swapped.
Proof.
  destruct swap_facts as (PV & NX & XY & LX & LY & OC). cbn [rev_loop].
  assert (XC : x <> hd 0 c).
  { destruct H as (_ & D & A & _). destruct c as [|z r].
    - cbn. assert (I : In x (a ++ (x :: b ++ [y]) ++ [])) by (apply in_or_app; right; now left). apply A in I. lia.
    - cbn. intros ->. apply nodup_app in D. destruct D as (_ & D & _). cbn [app] in D. inversion D as [|? ? N _]; subst. apply N. apply in_or_app. right. now left. }
  destruct (Z.eqb_spec x (hd 0 c)); [contradiction|].
  eapply goes_trans; [apply goes_rd, alloc_pv, OC|]. cbv beta. rewrite PV. destruct (Z.eqb_spec x y); [contradiction|].
  eapply goes_trans; [apply goes_rd, alloc_vl, LX|]. cbv beta.
  eapply goes_trans; [apply goes_rd, alloc_vl, LY|]. cbv beta.
  eapply goes_trans; [apply goes_wr, alloc_vl, LX|].
  eapply goes_trans; [apply goes_wr, alloc_vl; mem; exact LY|].
  eapply goes_trans; [apply goes_rd, alloc_nx; right; mem; exact LX|]. cbv beta.
  replace (store (store M (vl x) (M (vl y))) (vl y) (M (vl x)) (nx x)) with (hd 0 (b ++ [y] ++ c)) by (mem; now rewrite NX).
  apply goes_refl.
Qed.
Lemma swapped_other z : z <> x -> z <> y -> swapped (vl z) = M (vl z).
Proof. intros A B. unfold swapped. mem. destruct (Z.eqb_spec z y); [contradiction|]. destruct (Z.eqb_spec z x); [contradiction|reflexivity]. Qed.
Lemma swapped_x : swapped (vl x) = M (vl y).
Proof. destruct swap_facts as (_ & _ & N & _). unfold swapped. mem. rewrite Z.eqb_refl. destruct (Z.eqb_spec x y); [contradiction|reflexivity]. Qed.
Lemma swapped_y : swapped (vl y) = M (vl x).
Proof. unfold swapped. mem. now rewrite Z.eqb_refl. Qed.
Lemma swapped_nodes : nodes swapped ((a ++ [x]) ++ b ++ (y :: c)) (map (fun p => swapped (vl p)) ((a ++ [x]) ++ b ++ (y :: c))).
Proof.
  replace ((a ++ [x]) ++ b ++ (y :: c)) with (a ++ (x :: b ++ [y]) ++ c) by (rewrite <- !app_assoc; cbn; now rewrite <- !app_assoc).
  apply (nodes_values M _ _ s); [exact H|]. intros l L. unfold swapped. rewrite !store_other; [reflexivity| |].
  - apply L. apply in_or_app. right. now left.
  - apply L. apply in_or_app. right. apply in_or_app. left. right. apply in_or_app. right. now left.
Qed.
End Swap.
Lemma ends_cases {A} (b : list A) : b = [] \/ (exists x, b = [x]) \/ exists x m y, b = x :: m ++ [y].
Proof.
  destruct b as [|x b]; [now left|right]. destruct b as [|y b] using rev_ind; [left; now exists x|]. right. exists x, b, y. reflexivity.
Qed.
Lemma goes_rev k : forall fuel M a b c s, nodes M (a ++ b ++ c) s -> (length b <= fuel)%nat ->
  exists N, goes (rev_loop fuel (hd 0 (b ++ c)) (hd 0 c) k) M k N /\ nodes N (a ++ b ++ c) (map (fun p => N (vl p)) (a ++ b ++ c)) /\
    map (fun p => N (vl p)) b = rev (map (fun p => M (vl p)) b) /\ (forall p, ~ In p b -> N (vl p) = M (vl p)).
Proof.
  induction fuel as [|f IH]; intros M a b c s H L.
  - destruct b; [|cbn in L; lia]. exists M. split; [apply goes_refl|]. split; [|split; [reflexivity|reflexivity]].
    apply (nodes_values M M _ s); auto.
  - destruct (ends_cases b) as [->|[[x ->]|(x & m & y & ->)]].
    + exists M. cbn [rev_loop app]. rewrite Z.eqb_refl. split; [apply goes_refl|]. split; [|split; [reflexivity|reflexivity]].
      apply (nodes_values M M _ s); auto.
    + exists M. split; [|split; [apply (nodes_values M M _ s); auto|split; [reflexivity|reflexivity]]].
      cbn [rev_loop app hd]. destruct (Z.eqb_spec x (hd 0 c)); [apply goes_refl|].
      assert (PV : M (pv (hd 0 c)) = x).
      { destruct H as (J & _). rewrite app_assoc in J. apply joined_between in J. rewrite last_last in J. tauto. }
      eapply goes_trans; [apply goes_rd, alloc_pv|].
      { destruct c as [|z r]; [now left|right]. apply H. apply in_or_app. right. right. now left. }
      cbv beta. rewrite PV, Z.eqb_refl. apply goes_refl.
    + pose proof (goes_swap M a m c s x y H f k) as G. pose proof (swapped_nodes M a m c s x y H) as NS.
      destruct (IH (swapped M x y) (a ++ [x]) m (y :: c) _ NS) as (N & G2 & N2 & V2 & O2); [cbn in L; rewrite app_length in L; cbn in L; lia|].
      assert (D : NoDup (a ++ (x :: m ++ [y]) ++ c)) by apply H.
      apply nodup_app in D. destruct D as (_ & D & _). apply nodup_app in D. destruct D as (D & _ & _).
      inversion D as [|? ? X D1]; subst. apply nodup_app in D1. destruct D1 as (_ & _ & D1).
      assert (XM : ~ In x m) by (intros I; apply X, in_or_app; now left).
      assert (YM : ~ In y m) by (intros I; apply (D1 y I); now left).
      exists N. split; [|split; [|split]].
      * eapply goes_trans; [exact G|]. exact G2.
      * replace ((a ++ [x]) ++ m ++ (y :: c)) with (a ++ (x :: m ++ [y]) ++ c) in N2 by (rewrite <- !app_assoc; cbn; now rewrite <- !app_assoc).
        exact N2.
      * cbn [map]. rewrite !map_app. cbn [map rev]. rewrite rev_app_distr. cbn [rev app].
        rewrite V2. rewrite (O2 x XM), (O2 y YM), (swapped_x M a m c s x y H), swapped_y. f_equal. f_equal. f_equal.
        apply map_ext_in. intros z Z. apply swapped_other; intros ->; contradiction.
      * intros p P. rewrite O2 by (intros I; apply P; right; apply in_or_app; now left).
        apply swapped_other; intros ->; apply P; [now left|right; apply in_or_app; right; now left].
Qed.
