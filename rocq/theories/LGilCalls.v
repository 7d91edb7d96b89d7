(** Proofs for C78: every method alone, and calls without a race. *)
From Coq Require Import ZArith List Bool Lia Arith.
From Verif Require Import Base PyListSpec ArrayListModel GilModel GilSpec GilProofs GilCalls GilRaces LGilModel LGilSpec LGilProofs.
Import ListNotations.
Local Open Scope Z_scope.
Local Arguments Z.add : simpl never.
Local Arguments Z.sub : simpl never.
Local Arguments Z.mul : simpl never.
Local Arguments Z.of_nat : simpl never.
Local Arguments Z.to_nat : simpl never.
Local Arguments Z.div : simpl never.
Local Arguments nx : simpl never.
Local Arguments pv : simpl never.
Local Arguments vl : simpl never.
Local Arguments lv : simpl never.
Local Arguments fresh : simpl never.
Local Arguments store : simpl never.

(** ** Positions *)
Lemma index_position s i : index_of (zlen s) i = match position s i with Some n => Some (Z.of_nat n) | None => None end.
Proof.
  unfold index_of, position. set (p := if i <? 0 then zlen s + i else i).
  destruct (Z.ltb_spec p 0), (Z.leb_spec (zlen s) p), (Z.leb_spec 0 p), (Z.ltb_spec p (zlen s)); cbn; try lia; try reflexivity.
  now rewrite Z2Nat.id.
Qed.
Lemma position_lt s i n : position s i = Some n -> (n < length s)%nat.
Proof.
  unfold position. set (p := if i <? 0 then zlen s + i else i). destruct (Z.leb_spec 0 p), (Z.ltb_spec p (zlen s)); cbn; try discriminate.
  intros [= <-]. unfold zlen in *. lia.
Qed.
Lemma insert_place (s : list Z) i : exists n, insert_at (zlen s) i = Z.of_nat n /\ (n <= length s)%nat /\
  n = Z.to_nat (if i <? 0 then Z.max 0 (zlen s + i) else Z.min i (zlen s)).
Proof.
  exists (Z.to_nat (if i <? 0 then Z.max 0 (zlen s + i) else Z.min i (zlen s))). unfold insert_at, zlen.
  destruct (Z.ltb_spec i 0); [split; [lia|split; [lia|reflexivity]]|]. destruct (Z.ltb_spec (Z.of_nat (length s)) i); (split; [lia|split; [lia|reflexivity]]).
Qed.
Lemma split_at (ps : list Z) n : (n < length ps)%nat -> ps = firstn n ps ++ nth n ps 0 :: skipn (S n) ps.
Proof.
  revert n. induction ps as [|p ps IH]; intros n L; cbn in L; [lia|]. destruct n as [|n]; [reflexivity|]. cbn [firstn nth skipn app]. f_equal. apply IH. lia.
Qed.
Lemma hd_skipn (ps : list Z) n : hd 0 (skipn n ps) = if (n <? length ps)%nat then nth n ps 0 else 0.
Proof.
  revert n. induction ps as [|p ps IH]; intros [|n]; try reflexivity. cbn [skipn]. rewrite IH. reflexivity.
Qed.

Section Node.
Context (M : memory) (ps s : list Z).
Context (H : nodes M ps s).
Lemma values_firstn n : map (fun x => M (vl x)) (firstn n ps) = firstn n s.
Proof. destruct H as (_ & _ & _ & <- & _). now rewrite firstn_map. Qed.
Lemma values_skipn n : map (fun x => M (vl x)) (skipn n ps) = skipn n s.
Proof. destruct H as (_ & _ & _ & <- & _). now rewrite skipn_map. Qed.
Lemma value_nth n : (n < length s)%nat -> M (vl (nth n ps 0)) = nth n s 0.
Proof.
  intros L. pose proof (nodes_length M ps s H) as NL. destruct H as (_ & _ & _ & <- & _). rewrite (nth_indep (map _ ps) 0 (M (vl 0))) by (rewrite map_length; lia).
  now rewrite (map_nth (fun x => M (vl x))).
Qed.
Lemma split_nodes n : (n < length s)%nat -> nodes M (firstn n ps ++ nth n ps 0 :: skipn (S n) ps) s.
Proof. intros L. rewrite <- split_at by (rewrite (nodes_length M ps s H); exact L). exact H. Qed.
Lemma cut_nodes n : nodes M (firstn n ps ++ skipn n ps) s.
Proof. now rewrite firstn_skipn. Qed.
End Node.

Lemma calls_go o M s : o <> LReverse -> in_nodes M s ->
  exists N, goes (lprog o) M (PRet (fst (alone o s))) N /\ in_nodes N (snd (alone o s)).
Proof.
  intros NR [ps H]. pose proof (nodes_length M ps s H) as NL. pose proof (head_is M ps s H) as HD.
  assert (OKN : forall n, (n < length s)%nat -> M (lv (nth n ps 0)) = 1) by (intros n L; apply H, nth_In; lia).
  destruct o as [|i|i v|i|v|i v| |v| | |]; cbn [lprog alone]; try congruence.
  - exists M. split; [eapply goes_trans; [apply goes_rd, alloc_head|]; cbv beta; rewrite HD; apply goes_refl|]. now exists ps.
  - exists M. split; [|destruct (position s i); now exists ps].
    eapply goes_trans; [apply goes_rd, alloc_head|]. cbv beta. rewrite HD, index_position.
    destruct (position s i) as [n|] eqn:P; [|apply goes_refl]. apply position_lt in P.
    eapply goes_trans; [apply (goes_at M ps s H)|]. destruct (Nat.ltb_spec n (length s)); [|lia].
    eapply goes_trans; [apply goes_rd, alloc_vl, OKN; auto|]. cbv beta. rewrite (value_nth M ps s H) by auto. apply goes_refl.
  - destruct (position s i) as [n|] eqn:P.
    + assert (L := position_lt s i n P). exists (store M (vl (nth n ps 0)) v). split.
      * eapply goes_trans; [apply goes_rd, alloc_head|]. cbv beta. rewrite HD, index_position, P.
        eapply goes_trans; [apply (goes_at M ps s H)|]. destruct (Nat.ltb_spec n (length s)); [|lia].
        apply goes_wr, alloc_vl, OKN; auto.
      * exists ps. cbn [snd]. apply (nodes_same _ _ (map (fun p => store M (vl (nth n ps 0)) v (vl p)) ps)).
        -- apply (nodes_values M _ ps s H). intros l X. apply store_other. apply X. apply nth_In. lia.
        -- assert (D : NoDup ps) by apply H. rewrite (split_at ps n) in D by lia. apply nodup_mid in D. destruct D as [_ D].
           rewrite (split_at ps n) at 1 by lia. rewrite map_app. cbn [map].
           assert (E : forall l, (forall x, In x l -> In x (firstn n ps ++ skipn (S n) ps)) -> map (fun p => store M (vl (nth n ps 0)) v (vl p)) l = map (fun x => M (vl x)) l).
           { intros l X. apply map_ext_in. intros x I. apply X in I. rewrite st_vl. destruct (Z.eqb_spec x (nth n ps 0)) as [->|_]; [contradiction|reflexivity]. }
           rewrite !E by (intros x X; apply in_or_app; tauto).
           rewrite (values_firstn M ps s H), (values_skipn M ps s H), st_vl, Z.eqb_refl. reflexivity.
    + exists M. split; [|now exists ps]. eapply goes_trans; [apply goes_rd, alloc_head|]. cbv beta. rewrite HD, index_position, P. apply goes_refl.
  - destruct (position s i) as [n|] eqn:P.
    + assert (L := position_lt s i n P). pose proof (split_nodes M ps s H n L) as H'. eexists. split.
      * eapply goes_trans; [apply goes_rd, alloc_head|]. cbv beta. rewrite HD, index_position, P.
        eapply goes_trans; [apply (goes_at M ps s H)|]. destruct (Nat.ltb_spec n (length s)); [|lia].
        apply (goes_erase M _ _ _ _ H').
      * eexists. cbn [snd]. eapply nodes_same; [apply (unhooked_nodes M _ _ _ _ H')|].
        now rewrite (values_firstn M ps s H), (values_skipn M ps s H).
    + exists M. split; [|now exists ps]. eapply goes_trans; [apply goes_rd, alloc_head|]. cbv beta. rewrite HD, index_position, P. apply goes_refl.
  - assert (H' : nodes M (ps ++ []) s) by (now rewrite app_nil_r). eexists. split; [apply (goes_insert M ps [] s v H')|].
    eexists. cbn [snd]. eapply nodes_same; [apply (hooked_nodes M ps [] s v H')|]. cbn [map]. f_equal. apply H.
  - destruct (insert_place s i) as (n & E & L & EN). rewrite <- EN. pose proof (cut_nodes M ps s H n) as H'. eexists. split.
    + eapply goes_trans; [apply goes_rd, alloc_head|]. cbv beta. rewrite HD, E.
      eapply goes_trans; [apply (goes_at M ps s H)|]. rewrite <- NL, <- hd_skipn. apply (goes_insert M _ _ s v H').
    + eexists. cbn [snd]. eapply nodes_same; [apply (hooked_nodes M _ _ s v H')|].
      now rewrite (values_firstn M ps s H), (values_skipn M ps s H).
  - destruct s as [|s0 sr] eqn:ES.
    + exists M. split; [|now exists ps]. destruct ps; [|discriminate].
      eapply goes_trans; [apply goes_rd, alloc_nx; now left|]. cbv beta. rewrite (first_is M [] [] H). apply goes_refl.
    + rewrite <- ES in *. assert (NN : ps <> []) by (intros ->; subst s; discriminate).
      assert (EP := app_removelast_last 0 NN). assert (H' : nodes M (removelast ps ++ [last ps 0]) s) by (now rewrite <- EP).
      assert (NS : s <> []) by (subst s; discriminate).
      assert (VS : s = map (fun x => M (vl x)) (removelast ps) ++ [M (vl (last ps 0))]) by (destruct H' as (_ & _ & _ & V & _); rewrite map_app in V; now symmetry).
      assert (F0 : nth 0 ps 0 <> 0).
      { destruct ps as [|p r]; [contradiction|]. cbn. assert (I : In p (p :: r)) by now left. apply H in I. lia. }
      assert (LO : M (lv (last ps 0)) = 1) by (apply H'; apply in_or_app; right; now left).
      eexists. split.
      * eapply goes_trans; [apply goes_rd, alloc_nx; now left|]. cbv beta. rewrite (first_is M ps s H).
        destruct (Z.eqb_spec (nth 0 ps 0) 0); [contradiction|].
        eapply goes_trans; [apply goes_rd, alloc_pv; now left|]. cbv beta. rewrite (last_node M ps s H).
        eapply goes_trans; [apply goes_rd, alloc_vl, LO|]. cbv beta.
        eapply goes_trans; [apply (goes_erase M _ _ _ _ H')|]. cbn [fst].
        replace (M (vl (last ps 0))) with (last s 0) by (rewrite VS at 1; now rewrite last_last). apply goes_refl.
      * eexists. cbn [snd]. eapply nodes_same; [apply (unhooked_nodes M _ _ _ _ H')|]. cbn [map]. rewrite app_nil_r.
        rewrite VS at 1. now rewrite removelast_app1.
  - exists M. split; [|now exists ps]. eapply goes_trans; [apply goes_rd, alloc_head|]. cbv beta. rewrite HD. unfold zlen. rewrite Nat2Z.id.
    eapply goes_trans; [apply goes_rd, alloc_nx; now left|]. cbv beta.
    replace (M (nx 0)) with (nth 0 (ps ++ [0]) 0) by (rewrite (first_is M ps s H); destruct ps; reflexivity).
    eapply goes_trans; [apply (goes_find M ps s H v (length s) 0); lia|]. apply goes_refl.
  - exists M. split; [|now exists ps]. eapply goes_trans; [apply goes_rd, alloc_head|]. cbv beta. rewrite HD. unfold zlen. rewrite Nat2Z.id.
    eapply goes_trans; [apply goes_rd, alloc_nx; now left|]. cbv beta.
    replace (M (nx 0)) with (nth 0 (ps ++ [0]) 0) by (rewrite (first_is M ps s H); destruct ps; reflexivity).
    eapply goes_trans; [apply (goes_values M ps s H (length s) 0); lia|]. apply goes_refl.
  - destruct (goes_free (PWr (nx 0) 0 (PWr (pv 0) 0 (PWr Head 0 (PRet (Ret VNone))))) ps M) as (N & G & F & _);
      [destruct H as (J & _); cbn [app] in J; now apply joined_tl in J|apply H|intros x X; now apply H|].
    eexists. split.
    + eapply goes_trans; [apply goes_rd, alloc_head|]. cbv beta. rewrite HD. unfold zlen. rewrite Nat2Z.id, <- NL.
      eapply goes_trans; [apply goes_rd, alloc_nx; now left|]. cbv beta.
      replace (M (nx 0)) with (hd 0 ps) by (rewrite (first_is M ps s H); destruct ps; reflexivity).
      eapply goes_trans; [exact G|].
      eapply goes_trans; [apply goes_wr, alloc_nx; now left|].
      eapply goes_trans; [apply goes_wr, alloc_pv; now left|].
      apply goes_wr, alloc_head.
    + exists []. split; [cbn; mem; cbn; auto|]. split; [constructor|]. split; [intros p []|]. split; [reflexivity|]. split; [apply store_same|].
      mem. rewrite F by (intros x _; cells). apply H.
Qed.

Lemma reverse_goes M s : in_nodes M s -> exists N, exec (lprog LReverse) M = (Ret VNone, N) /\ in_nodes N (rev s) /\ clean (lprog LReverse) M.
Proof.
  intros [ps H]. pose proof (nodes_length M ps s H) as NL. pose proof (head_is M ps s H) as HD.
  assert (H' : nodes M ([] ++ ps ++ []) s) by (cbn; now rewrite app_nil_r).
  destruct (goes_rev (PAcq (PRet (Ret VNone))) (length s) M [] ps [] s H') as (N & G & N2 & V & _); [lia|].
  rewrite app_nil_r in *. cbn [app hd] in *.
  exists N. cbn [lprog]. assert (F : M (nx 0) = hd 0 ps) by (rewrite (first_is M ps s H); destruct ps; reflexivity).
  destruct G as (E & C & _). split; [|split].
  - cbn [exec]. rewrite HD, F. unfold zlen. rewrite Nat2Z.id, E. reflexivity.
  - exists ps. eapply nodes_same; [exact N2|]. rewrite V. f_equal. apply H.
  - cbn [clean]. split; [apply alloc_head|]. split; [apply alloc_nx; now left|]. rewrite HD, F. unfold zlen. rewrite Nat2Z.id. apply C. exact I.
Qed.

Lemma lexec o M s : in_nodes M s -> fst (exec (lprog o) M) = fst (alone o s) /\ in_nodes (snd (exec (lprog o) M)) (snd (alone o s)).
Proof.
  intros H. assert (D : o = LReverse \/ o <> LReverse) by (destruct o; auto; right; discriminate). destruct D as [->|D].
  - destruct (reverse_goes M s H) as (N & E & I & _). rewrite E. cbn. auto.
  - destruct (calls_go o M s D H) as (N & (E & _) & I). rewrite E. cbn. auto.
Qed.
Lemma lclean o M s : in_nodes M s -> clean (lprog o) M.
Proof.
  intros H. assert (D : o = LReverse \/ o <> LReverse) by (destruct o; auto; right; discriminate). destruct D as [->|D].
  - destruct (reverse_goes M s H) as (N & _ & _ & C). exact C.
  - destruct (calls_go o M s D H) as (N & (_ & C & _) & I). apply C. exact Logic.I.
Qed.

(** ** Calls end with the lock *)
Lemma closes_ahead h n : forall p k, (forall q, closes h (k q)) -> closes h (ahead n p k).
Proof. induction n as [|n IH]; intros p k K; cbn; auto. Qed.
Lemma closes_back h n : forall p k, (forall q, closes h (k q)) -> closes h (back n p k).
Proof. induction n as [|n IH]; intros p k K; cbn; auto. Qed.
Lemma closes_at h i k : (forall q, closes h (k q)) -> closes h (at_node i k).
Proof.
  intros K. unfold at_node. cbn. intros n. destruct (n <=? i); [apply K|]. destruct (n / 2 <? i); cbn; intros p; [apply closes_back|apply closes_ahead]; exact K.
Qed.
Lemma closes_values h n : forall p k, (forall q, closes h (k q)) -> closes h (values n p k).
Proof. induction n as [|n IH]; intros p k K; cbn; [auto|]. intros v q. apply IH. auto. Qed.
Lemma closes_find h n v : forall p k, (forall q, closes h (k q)) -> closes h (find n p v k).
Proof. induction n as [|n IH]; intros p k K; cbn; [auto|]. intros x. destruct (x =? v); [auto|]. cbn. intros q. now apply IH. Qed.
Lemma closes_free h n : forall p k, closes h k -> closes h (free_nodes n p k).
Proof. induction n as [|n IH]; intros p k K; cbn; auto. Qed.
Lemma closes_rev h f : forall a b k, closes h k -> closes h (rev_loop f a b k).
Proof.
  induction f as [|f IH]; intros a b k K; cbn; [exact K|]. destruct (a =? b); [exact K|]. cbn. intros l. destruct (a =? l); [exact K|]. cbn. intros. now apply IH.
Qed.
Lemma lcloses o : closes true (lprog o).
Proof.
  destruct o as [|i|i v|i|v|i v| |v| | |]; cbn [lprog closes]; try (cbn; auto; fail).
  - intros n. destruct (index_of n i); [apply closes_at; intros q; cbn; auto|reflexivity].
  - intros n. destruct (index_of n i); [apply closes_at; intros q; cbn; auto|reflexivity].
  - intros n. destruct (index_of n i); [apply closes_at; intros q; cbn; auto|reflexivity].
  - intros n. apply closes_at. intros q; cbn; auto.
  - intros x. destruct (x =? 0); cbn; auto.
  - intros n p. apply closes_find. intros q; cbn; auto.
  - intros n p. apply closes_values. intros q; cbn; auto.
  - intros n p. apply closes_free. cbn; auto.
  - intros n. split; [reflexivity|]. intros p. apply closes_rev. cbn. split; [reflexivity|]. now eexists.
Qed.

(** ** Calls in turn *)
Lemma in_turn_cons t o r s : in_turn ((t, o) :: r) s =
  ((t, fst (alone o s)) :: fst (in_turn r (snd (alone o s))), snd (in_turn r (snd (alone o s)))).
Proof. cbn [in_turn]. destruct (alone o s) as [a s1]. cbn. now destruct (in_turn r s1). Qed.
Lemma in_turn_execs order : forall M s, in_nodes M s ->
  fst (execs (map (fun x => (fst x, lprog (snd x))) order) M) = fst (in_turn order s) /\
  in_nodes (snd (execs (map (fun x => (fst x, lprog (snd x))) order) M)) (snd (in_turn order s)).
Proof.
  induction order as [|[t o] r IH]; intros M s H; [cbn; auto|].
  cbn [map fst snd]. rewrite execs_cons, in_turn_cons. cbn [fst snd].
  destruct (lexec o M s H) as [E I]. destruct (IH _ _ I) as [E2 I2]. split; [congruence|exact I2].
Qed.
Lemma nodes_ext M N s : same M N -> in_nodes M s -> in_nodes N s.
Proof.
  intros E [ps (J & D & A & V & SZ & FR)]. exists ps. split; [|split; [|split; [|split; [|split]]]].
  - apply (joined_ext M); auto.
  - exact D.
  - intros p P. rewrite <- !E. now apply A.
  - rewrite <- V. apply map_ext. intros. now rewrite E.
  - now rewrite <- E.
  - now rewrite <- E.
Qed.
Lemma lserial M s calls c : in_nodes M s -> race_free (lstart M calls) -> reaches (lstart M calls) c -> quiet c ->
  exists order, in_nodes (mem c) (snd (in_turn order s)) /\
    forall t, answers (thr c t) = of_thread t (fst (in_turn order s)) /\
      exists rest, calls t = of_thread t order ++ rest /\ todo (thr c t) = map lprog rest.
Proof.
  intros H RF R Q. destruct (reaches_serial (lstart M calls)) with (c := c) as (log & busy & I); auto.
  - intros u. cbn. apply Forall_forall. intros p X. apply in_map_iff in X. destruct X as (x & <- & _). apply lcloses.
  - intros t. reflexivity.
  - assert (B : busy = []).
    { destruct busy as [|[t p] r]; [reflexivity|]. pose proof (proj2 (s_now _ _ _ _ _ I t p) (or_introl eq_refl)).
      rewrite (Q t) in *. discriminate. }
    subst busy. destruct (calls_of_log lprog calls log (fun t => todo (thr c t))) as (order & -> & P).
    { intros t. exact (s_todo _ _ _ _ _ I t). }
    exists order. destruct (in_turn_execs order M s H) as [E1 E2]. split.
    + eapply nodes_ext; [|exact E2]. exact (s_mem _ _ _ _ _ I).
    + intros t. split.
      * pose proof (s_answers _ _ _ _ _ I t) as X. cbn in X. rewrite app_nil_r in X. rewrite <- X. cbn [mem lstart begin]. now rewrite E1.
      * destruct (P t) as (m & P1 & P2). exists m. auto.
Qed.

(** ** Calls that cannot race *)
Section Obeys.
Context (rules : loc -> rule) (t : nat) (h : bool).
Context (RH : may_read (rules Head) t h) (RC : forall i, may_read (rules (Cell i)) t h).
Lemma ob_ahead n : forall p k, (forall q, obeys rules t h (k q)) -> obeys rules t h (ahead n p k).
Proof. induction n as [|n IH]; intros p k K; cbn; auto. split; [apply RC|auto]. Qed.
Lemma ob_back n : forall p k, (forall q, obeys rules t h (k q)) -> obeys rules t h (back n p k).
Proof. induction n as [|n IH]; intros p k K; cbn; auto. split; [apply RC|auto]. Qed.
Lemma ob_at i k : (forall q, obeys rules t h (k q)) -> obeys rules t h (at_node i k).
Proof.
  intros K. unfold at_node. cbn. split; [exact RH|]. intros n. destruct (n <=? i); [apply K|].
  destruct (n / 2 <? i); cbn; (split; [apply RC|]); intros p; [apply ob_back|apply ob_ahead]; exact K.
Qed.
Lemma ob_values n : forall p k, (forall q, obeys rules t h (k q)) -> obeys rules t h (values n p k).
Proof. induction n as [|n IH]; intros p k K; cbn; [auto|]. split; [apply RC|]. intros v. split; [apply RC|]. intros q. apply IH. auto. Qed.
Lemma ob_find n v : forall p k, (forall q, obeys rules t h (k q)) -> obeys rules t h (find n p v k).
Proof.
  induction n as [|n IH]; intros p k K; cbn; [auto|]. split; [apply RC|]. intros x. destruct (x =? v); [auto|]. cbn.
  split; [apply RC|]. intros q. now apply IH.
Qed.
Context (WC : forall i, may_write (rules (Cell i)) t h).
Lemma ob_free n : forall p k, obeys rules t h k -> obeys rules t h (free_nodes n p k).
Proof. induction n as [|n IH]; intros p k K; cbn; [auto|]. split; [apply RC|]. intros q. split; [apply WC|]. auto. Qed.
Lemma ob_rev f : forall a b k, obeys rules t h k -> obeys rules t h (rev_loop f a b k).
Proof.
  induction f as [|f IH]; intros a b k K; cbn; [exact K|]. destruct (a =? b); [exact K|]. cbn. split; [apply RC|]. intros l.
  destruct (a =? l); [exact K|]. cbn. split; [apply RC|]. intros x. split; [apply RC|]. intros y. split; [apply WC|]. split; [apply WC|].
  split; [apply RC|]. intros q. now apply IH.
Qed.
End Obeys.

Lemma locked_obeys t o : o <> LReverse -> obeys (fun _ => Guarded) t true (lprog o).
Proof.
  intros NR. destruct o as [|i|i v|i|v|i v| |v| | |]; try congruence; cbn [lprog obeys]; try (cbn; auto 30; fail).
  - split; [reflexivity|]. intros n. destruct (index_of n i); [|reflexivity]. apply ob_at; try (cbn; auto 20; fail).
  - split; [reflexivity|]. intros n. destruct (index_of n i); [|reflexivity]. apply ob_at; try (cbn; auto 20; fail).
  - split; [reflexivity|]. intros n. destruct (index_of n i); [|reflexivity]. apply ob_at; try (cbn; auto 20; fail).
  - split; [reflexivity|]. intros n. apply ob_at; try (cbn; auto 30; fail).
  - split; [reflexivity|]. intros x. destruct (x =? 0); cbn; auto 20.
  - split; [reflexivity|]. intros n. split; [reflexivity|]. intros p. apply ob_find; cbn; auto.
  - split; [reflexivity|]. intros n. split; [reflexivity|]. intros p. apply ob_values; cbn; auto.
  - split; [reflexivity|]. intros n. split; [reflexivity|]. intros p. apply ob_free; cbn; auto.
Qed.
Lemma keeps_obeys t o : keeps_nodes o = true -> obeys (owner_rules t) t true (lprog o).
Proof.
  destruct o as [|i|i v|i|v|i v| |v| | |]; try discriminate; intros _; cbn [lprog obeys].
  - split; [exact I|]. intros n. reflexivity.
  - split; [exact I|]. intros n. destruct (index_of n i); [|reflexivity]. apply ob_at; [exact I|reflexivity|]. intros q. split; [reflexivity|]. cbn. auto.
  - split; [exact I|]. intros n. destruct (index_of n i); [|reflexivity]. apply ob_at; [exact I|reflexivity|]. intros q. split; [reflexivity|]. cbn. auto.
  - split; [exact I|]. intros n. split; [reflexivity|]. intros p. apply ob_find; cbn; auto.
  - split; [exact I|]. intros n. split; [reflexivity|]. intros p. apply ob_values; cbn; auto.
  - split; [exact I|]. intros n. split; [reflexivity|]. split; [reflexivity|]. intros p. apply ob_rev; cbn; auto.
Qed.
Lemma begin_race_free rules M calls : (forall t p, In p (calls t) -> obeys rules t true p) -> race_free (begin M calls).
Proof.
  intros H. apply (good_race_free rules). split; [discriminate|]. intros t. cbn. apply Forall_forall. intros p X. auto.
Qed.
Lemma locked_free M calls : (forall t o, In o (calls t) -> o <> LReverse) -> race_free (lstart M calls).
Proof.
  intros H. apply (begin_race_free (fun _ => Guarded)). intros t p X. apply in_map_iff in X. destruct X as (o & <- & X). apply locked_obeys. eauto.
Qed.
Lemma owner_free M calls u : (forall o, In o (calls u) -> keeps_nodes o = true) ->
  (forall t o, t <> u -> In o (calls t) -> o = LLen) -> race_free (lstart M calls).
Proof.
  intros H1 H2. apply (begin_race_free (owner_rules u)). intros t p X. apply in_map_iff in X. destruct X as (o & <- & X).
  destruct (Nat.eq_dec t u) as [->|N]; [apply keeps_obeys; auto|]. rewrite (H2 t o N X). cbn. auto.
Qed.
Lemma lmoves M calls c t : reaches (lstart M calls) c ->
  now (thr c t) <> None \/ todo (thr c t) <> [] -> exists u c', step_of_thread u c c'.
Proof.
  intros R. apply lively_moves. induction R as [|c1 c2 u R IH S].
  - split; [discriminate|]. split; [discriminate|]. intros u. cbn. apply Forall_forall. intros p X.
    apply in_map_iff in X. destruct X as (x & <- & _). apply lcloses.
  - eapply lively_step; eauto.
Qed.
