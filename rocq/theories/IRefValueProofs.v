(** Results and contents of the calls of the integer lists. *)
From Coq Require Import ZArith List Bool Lia.
From Verif Require Import Base PyListSpec ListLemmas ArrayListModel ArrayListProofs IRefModel IRefSpec IRefValueSpec ORefProofs.
Import ListNotations.
Local Open Scope Z_scope.
Local Arguments Z.add : simpl never.
Local Arguments Z.sub : simpl never.
Local Arguments Z.of_nat : simpl never.
Local Arguments Z.to_nat : simpl never.

Section P.
Variable E : env.
Implicit Types (s t : rst).

(** [t] has the elements of [s] and was reached from it. *)
Definition same s t : Prop := elems t = elems s /\ nxt s <= nxt t.
Lemma same_refl s : same s s.
Proof. split; auto; lia. Qed.
Lemma same_trans s t u : same s t -> same t u -> same s u.
Proof. unfold same. intros (A & B) (C & D). split; [congruence | lia]. Qed.
Definition frame {A} s (r : rr A) : Prop := match r with Ok t _ => same s t | Er _ _ => False | _ => True end.
Definition post {A} (Q : rst -> A -> Prop) (R : rst -> exn -> Prop) (r : rr A) : Prop :=
  match r with Ok t v => Q t v | Er t e => R t e | _ => True end.

Lemma bump_same o d s : same s (bump E o d s).
Proof. unfold bump. destruct (imm E o); [apply same_refl | split; simpl; auto; lia]. Qed.
Lemma inc_frame o s : frame s (inc E o s).
Proof. unfold inc. destruct (alive E s o); simpl; auto. apply bump_same. Qed.
Lemma dec_frame o s : frame s (dec E o s).
Proof. unfold dec. destruct (alive E s o); simpl; auto. apply bump_same. Qed.
Lemma frame_bind {A B} s (r : rr A) (f : rst -> A -> rr B) : frame s r -> (forall t a, same s t -> frame s (f t a)) -> frame s (bind r f).
Proof. destruct r; simpl; tauto || auto. Qed.
Lemma frame_same {A} s t (r : rr A) : same s t -> frame t r -> frame s r.
Proof. destruct r; simpl; auto. apply same_trans. Qed.
Lemma incs_frame os : forall s, frame s (incs E os s).
Proof.
  induction os; intros s; simpl; [apply same_refl|]. apply frame_bind; [apply inc_frame|]. intros t _ H. eapply frame_same; eauto.
Qed.
Lemma decs_frame os : forall s, frame s (decs E os s).
Proof.
  induction os; intros s; simpl; [apply same_refl|]. apply frame_bind; [apply dec_frame|]. intros t _ H. eapply frame_same; eauto.
Qed.
Lemma drop_frame v s : frame s (drop E v s).
Proof.
  destruct v; simpl; [apply dec_frame | | | apply same_refl]; (apply frame_bind; [apply dec_frame|]); intros t _ H; destruct (dies E _ t); simpl; auto.
  - eapply frame_same; [exact H | apply decs_frame].
  - eapply frame_same; [exact H | apply dec_frame].
Qed.
Lemma give_frame o s : frame s (give E o s).
Proof. unfold give. apply frame_bind; [apply inc_frame|]. intros t _ H. exact H. Qed.

Lemma post_frame {A B} s (r : rr A) (f : rst -> A -> rr B) Q R : frame s r -> (forall t a, same s t -> post Q R (f t a)) -> post Q R (bind r f).
Proof. destruct r; simpl; tauto || auto. Qed.
Lemma post_as_int {B} o s (f : rst -> Z + exn -> rr B) Q R : post Q R (f s (conv E o)) -> post Q R (bind (as_int E o s) f).
Proof. unfold as_int. destruct (alive E s o); simpl; auto. Qed.
Lemma post_give o s (Q : rst -> value -> Prop) R : (forall t, same s t -> Q t (VObj o)) -> post Q R (give E o s).
Proof. intros H. unfold give. apply (post_frame s); [apply inc_frame|]. intros t _ K. simpl. auto. Qed.
Lemma post_bool b s (Q : rst -> value -> Prop) R : (forall t, same s t -> Q t (boolean E b)) -> post Q R (give_bool E b s).
Proof. apply post_give. Qed.
Lemma post_weak {A} (Q Q' : rst -> A -> Prop) (R R' : rst -> exn -> Prop) r : post Q R r -> (forall t v, Q t v -> Q' t v) -> (forall t e, R t e -> R' t e) -> post Q' R' r.
Proof. destruct r; simpl; auto. Qed.
Lemma fetch_same o s : same s (fetch E o s).
Proof. apply bump_same. Qed.

(** ** New objects *)
Lemma new_obj_cases s : (same s (fst (new_obj E s)) /\ snd (new_obj E s) = None /\ no_object E) \/
  (same s (fst (new_obj E s)) /\ snd (new_obj E s) = Some (nxt s)).
Proof. unfold new_obj. destruct (alloc E (nxt s)) eqn:A; [right | left]; (split; [split; simpl; auto; lia|]); simpl; auto. split; auto. exists (nxt s). auto. Qed.
Lemma post_new {A} s (f : rst -> Z -> rr A) Q (R : rst -> exn -> Prop) : (forall t o, same s t -> nxt s <= o -> post Q R (f t o)) ->
  (forall t, same s t -> no_object E -> R t MemoryError) -> post Q R (null (new_obj E s) f).
Proof.
  intros H1 H2. unfold null. destruct (new_obj_cases s) as [(K & N & X)|(K & N)]; rewrite N; simpl; auto. apply H1; auto. lia.
Qed.
Lemma from_cache_cases cache z s : (same s (fst (from_cache E cache z s)) /\ snd (from_cache E cache z s) = None /\ no_object E) \/
  exists o, same s (fst (from_cache E cache z s)) /\ snd (from_cache E cache z s) = Some o /\ number cache s z (VObj o).
Proof.
  unfold from_cache. destruct (cache z) as [o|] eqn:C.
  - right. exists o. split; [apply bump_same|]. split; auto. exists o. auto.
  - destruct (new_obj_cases s) as [H|(K & N)]; [left; exact H | right; exists (nxt s)]. split; auto. split; auto. exists (nxt s). split; auto. right. split; auto. lia.
Qed.
Lemma post_number cache z s (Q : rst -> value -> Prop) (R : rst -> exn -> Prop) : (forall t v, same s t -> number cache s z v -> Q t v) ->
  (forall t, same s t -> no_object E -> R t MemoryError) -> post Q R (null (from_cache E cache z s) (fun t o => Ok t (VObj o))).
Proof.
  intros H1 H2. unfold null. destruct (from_cache_cases cache z s) as [(K & N & X)|(o & K & N & X)]; rewrite N; simpl; auto.
Qed.
Lemma number_same cache s t z v : same s t -> number cache t z v -> number cache s z v.
Proof. intros (_ & L) (o & -> & [H|(H & K)]); exists o; split; auto. right. split; auto. lia. Qed.

(** ** Construction *)
Lemma init_seq_items_post q all : forall items s done, all = done ++ items -> Forall2 (stands E) done (elems s) ->
  post (fun t v => Forall2 (stands E) all (elems t) /\ v = VUnit) (fun t e => e = RuntimeError /\ broke_off E all (elems t)) (init_seq_items E q items s).
Proof.
  induction items as [|o r IH]; intros s done D F; cbn [init_seq_items].
  - apply (post_frame s); [apply dec_frame|]. intros t _ (K & _). simpl. rewrite K. rewrite app_nil_r in D. subst. auto.
  - apply post_as_int. destruct (conv E o) as [z|e] eqn:C.
    + destruct (room E (zlen (elems s))) eqn:Rm.
      * apply (IH _ (done ++ [o])); [rewrite <- app_assoc; auto|]. simpl. apply Forall2_app; auto.
      * simpl. split; auto. exists done, o, r. auto.
    + apply (post_frame s); [apply dec_frame|]. intros t _ (K & _). simpl. split; auto. rewrite K. exists done, o, r. split; auto. split; auto. left. eauto.
Qed.
Lemma init_iter_items_post i fin all : forall items s done, all = done ++ items -> Forall2 (stands E) done (elems s) ->
  post (fun t v => fin = None /\ Forall2 (stands E) all (elems t) /\ v = VUnit)
       (fun t e => fin = Some e /\ Forall2 (stands E) all (elems t) \/ e = RuntimeError /\ broke_off E all (elems t)) (init_iter_items E i items fin s).
Proof.
  induction items as [|o r IH]; intros s done D F; cbn [init_iter_items].
  - apply (post_frame s); [apply drop_frame|]. intros t _ (K & _). rewrite app_nil_r in D. subst. destruct fin; simpl; rewrite K; auto.
  - pose proof (fetch_same o s) as Fs. apply post_as_int. destruct (conv E o) as [z|e] eqn:C.
    + destruct (room E (zlen (elems (fetch E o s)))) eqn:Rm.
      * apply (post_frame (with_elems (elems (fetch E o s) ++ [z]) (fetch E o s))); [apply dec_frame|]. intros t _ (K & _).
        apply (IH _ (done ++ [o])); [rewrite <- app_assoc; auto|]. rewrite K. cbn [elems with_elems]. rewrite (proj1 Fs). apply Forall2_app; auto.
      * simpl. right. split; auto. unfold broke_off, no_room. rewrite (proj1 Fs) in *. exists done, o, r. auto.
    + apply (post_frame (fetch E o s)); [apply drop_frame|]. intros t _ K. apply (post_frame t); [apply dec_frame|]. intros u _ K'. simpl. right. split; auto.
      rewrite (proj1 (same_trans _ _ _ Fs (same_trans _ _ _ K K'))). exists done, o, r. split; auto. split; auto. left. eauto.
Qed.
Lemma get_iter_post a s : post (fun t v => same s t /\ it_iter a = None) (fun t e => same s t /\ (it_iter a = Some e \/ e = MemoryError /\ no_object E)) (get_iter E a s).
Proof.
  unfold get_iter. destruct (it_iter a) as [e|]; [simpl; split; [apply same_refl | auto]|]. destruct (it_own a).
  - apply post_give. auto.
  - apply post_new; auto. intros t o K _. apply (post_frame t); [apply inc_frame|]. intros u _ K'. simpl. split; auto. eapply same_trans; eauto.
Qed.
Lemma post_bind {A B} (r : rr A) (f : rst -> A -> rr B) Q R Q' R' : post Q R r -> (forall t a, Q t a -> post Q' R' (f t a)) -> (forall t e, R t e -> R' t e) -> post Q' R' (bind r f).
Proof. destruct r; simpl; auto. Qed.

Lemma init_iter_post a s : outcome_of Array E (KInitIter a) s (init_iter E a s).
Proof.
  change (post (yields Array E (KInitIter a) s) (stops Array E (KInitIter a) s) (init_iter E a s)).
  unfold init_iter. pose proof (get_iter_post a (with_elems [] s)) as G. destruct (get_iter E a (with_elems [] s)) as [t v|t e| |]; simpl in G; simpl; auto.
  - destruct G as (K & N). eapply post_weak; [apply (init_iter_items_post v (it_end a) (it_items a) (it_items a) t [])| |]; auto.
    + rewrite (proj1 K). constructor.
    + intros u w (A & B & C). simpl. auto.
    + intros u e' [H|H]; simpl; auto.
  - destruct G as (K & G). left. split; auto. split; [rewrite (proj1 K); reflexivity|]. destruct G as [G|(_ & G)]; [left; congruence | auto].
Qed.

(** ** One argument *)
Lemma with_int_post o f ret s (Q : rst -> value -> Prop) (R : rst -> exn -> Prop) :
  (forall e, conv E o = inr e -> R s e) ->
  (forall z e, stands E o z -> f z (elems s) = inr e -> R s e) ->
  (forall z xs, stands E o z -> f z (elems s) = inl xs -> (zlen xs <=? zlen (elems s)) || room E (zlen (elems s)) = true -> post Q R (ret z (with_elems xs s))) ->
  (forall z xs, stands E o z -> f z (elems s) = inl xs -> zlen (elems s) < zlen xs -> room E (zlen (elems s)) = false -> R s RuntimeError) ->
  post Q R (with_int E o f ret s).
Proof.
  intros H1 H2 H3 H4. unfold with_int. apply post_as_int. destruct (conv E o) as [z|e] eqn:C; [|apply H1; auto].
  destruct (f z (elems s)) as [xs|e] eqn:F; [|eapply H2; eauto]. destruct ((zlen xs <=? zlen (elems s)) || room E (zlen (elems s))) eqn:X; [apply H3; auto|].
  apply orb_false_iff in X. destruct X as (X & Y). apply Z.leb_gt in X. simpl. eapply H4; eauto.
Qed.
Lemma remove_first_some z : forall xs ys, remove_first z xs = Some ys -> exists pre post, xs = pre ++ z :: post /\ ~ In z pre /\ ys = pre ++ post.
Proof.
  induction xs as [|x xs IH]; intros ys H; [discriminate|]. cbn [remove_first] in H. destruct (Z.eqb_spec x z) as [->|N].
  - inversion H; subst. exists [], ys. auto.
  - destruct (remove_first z xs) as [r|]; [|discriminate]. inversion H; subst. destruct (IH r eq_refl) as (pre & po & -> & Np & ->).
    exists (x :: pre), po. split; auto. split; auto. intros [X|X]; auto.
Qed.
Lemma remove_first_none z : forall xs, remove_first z xs = None -> ~ In z xs.
Proof.
  induction xs as [|x xs IH]; intros H; [auto|]. cbn [remove_first] in H. destruct (Z.eqb_spec x z); [discriminate|]. destruct (remove_first z xs); [discriminate|].
  intros [X|X]; auto. apply IH; auto.
Qed.
Lemma find_first_some z : forall xs n, find_first z xs = Some n -> exists pre post, xs = pre ++ z :: post /\ ~ In z pre /\ n = zlen pre.
Proof.
  induction xs as [|x xs IH]; intros n H; [discriminate|]. cbn [find_first] in H. destruct (Z.eqb_spec x z) as [->|N].
  - inversion H; subst. exists [], xs. auto.
  - destruct (find_first z xs) as [r|]; [|discriminate]. inversion H; subst. destruct (IH r eq_refl) as (pre & po & -> & Np & ->).
    exists (x :: pre), po. split; auto. split; [intros [X|X]; auto|]. rewrite zlen_cons. lia.
Qed.
Lemma find_first_none z : forall xs, find_first z xs = None -> ~ In z xs.
Proof.
  induction xs as [|x xs IH]; intros H; [auto|]. cbn [find_first] in H. destruct (Z.eqb_spec x z); [discriminate|]. destruct (find_first z xs); [discriminate|].
  intros [X|X]; auto. apply IH; auto.
Qed.
Lemma count_of_occ z : forall xs, count_of z xs = Z.of_nat (count_occ Z.eq_dec xs z).
Proof.
  induction xs as [|x xs IH]; [reflexivity|]. cbn [count_of count_occ]. rewrite IH. destruct (Z.eqb_spec x z), (Z.eq_dec x z); try contradiction; lia.
Qed.
Lemma search_post o f s (Q : rst -> value -> Prop) (R : rst -> exn -> Prop) :
  (forall e, conv E o = inr e -> R s e) -> (forall z, stands E o z -> f z (elems s) = None -> R s ValueError) ->
  (forall z n t v, stands E o z -> f z (elems s) = Some n -> same s t -> number (small_size E) s n v -> Q t v) ->
  (forall t, same s t -> no_object E -> R t MemoryError) -> post Q R (search E o f s).
Proof.
  intros H1 H2 H3 H4. unfold search. apply post_as_int. destruct (conv E o) as [z|e] eqn:C; [|apply H1; auto].
  destruct (f z (elems s)) as [n|] eqn:F; [|eapply H2; eauto]. apply post_number; eauto.
Qed.
Lemma at_split {A} (xs : list A) n z : nth_error xs n = Some z -> xs = firstn n xs ++ z :: skipn (S n) xs /\ length (firstn n xs) = n.
Proof.
  revert n. induction xs as [|x xs IH]; intros [|n] H; try discriminate; simpl in H.
  - inversion H; subst. auto.
  - destruct (IH n H) as (A1 & A2). cbn [firstn skipn app length]. split; [f_equal; exact A1 | congruence].
Qed.
Lemma at_index_spec n i : match at_index n i with Some j => j = rel n i /\ 0 <= j < n | None => ~ 0 <= rel n i < n end.
Proof.
  unfold at_index, rel. destruct (Z.ltb_spec i 0).
  - destruct (Z.ltb_spec (n + i) 0); simpl; [lia|]. destruct (Z.leb_spec n (n + i)); lia.
  - destruct (Z.ltb_spec i 0); simpl; [lia|]. destruct (Z.leb_spec n i); lia.
Qed.
Lemma at_index_some xs i j : at_index (zlen xs) i = Some j -> exists pre z post, has_at xs i pre z post /\ pre = firstn (Z.to_nat j) xs /\ post = skipn (S (Z.to_nat j)) xs.
Proof.
  intros H. pose proof (at_index_spec (zlen xs) i) as Sp. rewrite H in Sp. destruct Sp as (Sp & B).
  assert (L : (Z.to_nat j < length xs)%nat) by (unfold zlen in B; lia).
  destruct (nth_error xs (Z.to_nat j)) as [z|] eqn:N; [|apply nth_error_None in N; lia]. destruct (at_split xs _ z N) as (A & LA).
  exists (firstn (Z.to_nat j) xs), z, (skipn (S (Z.to_nat j)) xs). split; [split; [exact A|]|auto]. unfold zlen at 1. rewrite LA. lia.
Qed.

(** ** extend and += *)
Lemma extend_items_post k i fin ret all : forall items s done zs xs0, all = done ++ items -> Forall2 (stands E) done zs -> elems s = xs0 ++ zs ->
  post (fun t v => fin = None /\ (exists zs, Forall2 (stands E) all zs /\ elems t = xs0 ++ zs) /\ v = VObj ret)
       (fun t e => fin = Some e /\ (exists zs, Forall2 (stands E) all zs /\ elems t = xs0 ++ zs) \/
          exists os o rest zs, all = os ++ o :: rest /\ Forall2 (stands E) os zs /\ conv E o = inr e /\ elems t = xs0 ++ zs ++ match k with Array => [] | Linked => [-1] end)
       (extend_items k E i items fin ret s).
Proof.
  destruct k; cbn [extend_items].
  - induction items as [|o r IH]; intros s done zs xs0 D F El; cbn [a_extend_items].
    + rewrite app_nil_r in D. subst all. destruct fin as [e|]; (apply (post_frame s); [apply drop_frame|]); intros t _ (K & _).
      * simpl. left. split; auto. exists zs. split; auto. congruence.
      * apply post_give. intros u (K' & _). split; auto. split; auto. exists zs. split; auto. congruence.
    + pose proof (fetch_same o s) as Fs. apply post_as_int. apply (post_frame (fetch E o s)); [apply dec_frame|]. intros t _ K.
      assert (Et : elems t = xs0 ++ zs) by (rewrite (proj1 K), (proj1 Fs); auto).
      destruct (conv E o) as [z|e] eqn:C.
      * destruct (room E (zlen (elems t))); simpl; auto. apply (IH _ (done ++ [o]) (zs ++ [z])); [rewrite <- app_assoc; auto | apply Forall2_app; auto|].
        simpl. rewrite Et, app_assoc. auto.
      * apply (post_frame t); [apply drop_frame|]. intros u _ (K' & _). simpl. right. exists done, o, r, zs. split; auto. split; auto. split; auto. rewrite app_nil_r. congruence.
  - assert (Pend : forall items s e done o rest zs xs0, all = done ++ o :: rest -> Forall2 (stands E) done zs -> conv E o = inr e -> elems s = xs0 ++ zs ++ [-1] ->
      post (fun t v => fin = None /\ (exists zs, Forall2 (stands E) all zs /\ elems t = xs0 ++ zs) /\ v = VObj ret)
       (fun t e => fin = Some e /\ (exists zs, Forall2 (stands E) all zs /\ elems t = xs0 ++ zs) \/
          exists os o rest zs, all = os ++ o :: rest /\ Forall2 (stands E) os zs /\ conv E o = inr e /\ elems t = xs0 ++ zs ++ [-1])
       (l_extend_items E i items fin (Some e) ret s)).
    { intros items s e done o rest zs xs0 D F C El. destruct items as [|o' r]; cbn [l_extend_items].
      - apply (post_frame s); [apply drop_frame|]. intros t _ (K & _). simpl. right. exists done, o, rest, zs. rewrite K. auto.
      - apply (post_frame (fetch E o' s)); [apply drop_frame|]. intros t _ K. apply (post_frame t); [apply dec_frame|]. intros u _ K'. simpl. right.
        exists done, o, rest, zs. rewrite (proj1 K'), (proj1 K), (proj1 (fetch_same o' s)). auto. }
    induction items as [|o r IH]; intros s done zs xs0 D F El; cbn [l_extend_items].
    + rewrite app_nil_r in D. subst all. destruct fin as [e|]; (apply (post_frame s); [apply drop_frame|]); intros t _ (K & _).
      * simpl. left. split; auto. exists zs. split; auto. congruence.
      * apply post_give. intros u (K' & _). split; auto. split; auto. exists zs. split; auto. congruence.
    + pose proof (fetch_same o s) as Fs. apply post_as_int.
      assert (Et : elems (fetch E o s) = xs0 ++ zs) by (rewrite (proj1 Fs); auto).
      destruct (room E (zlen (elems (fetch E o s)))); simpl; auto. destruct (conv E o) as [z|e] eqn:C.
      * apply (post_frame (with_elems (elems (fetch E o s) ++ [z]) (fetch E o s))); [apply dec_frame|]. intros t _ (K & _). cbn [elems with_elems] in K.
        apply (IH _ (done ++ [o]) (zs ++ [z])); [rewrite <- app_assoc; auto | apply Forall2_app; auto|]. rewrite K, Et, app_assoc. auto.
      * apply (post_frame (with_elems (elems (fetch E o s) ++ [-1]) (fetch E o s))); [apply dec_frame|]. intros t _ (K & _). cbn [elems with_elems] in K.
        eapply Pend; eauto. rewrite K, Et, app_assoc. auto.
Qed.

(** ** Reading *)
Definition objs s xs items : Prop := Forall2 (fun z o => number (small E) s z (VObj o)) xs items.
Lemma fill_post k l s0 : forall xs old done s, same s0 s -> objs s0 old done ->
  post (fun t v => same s0 t /\ exists items, v = VList l items /\ objs s0 (old ++ xs) items) (fun t e => same s0 t /\ e = MemoryError /\ no_object E) (fill k E l xs done s).
Proof.
  assert (Next : forall x xs old done s o, same s0 s -> objs s0 old done -> number (small E) s x (VObj o) ->
            objs s0 (old ++ [x]) (done ++ [o]) /\ (old ++ [x]) ++ xs = old ++ x :: xs).
  { intros x xs old done s o K O N. split; [|rewrite <- app_assoc; auto]. apply Forall2_app; auto. constructor; auto. eapply number_same; eauto. }
  destruct k; cbn [fill].
  - induction xs as [|x xs IH]; intros old done s K0 O; cbn [a_fill]; [simpl; split; auto; exists done; rewrite app_nil_r; auto|].
    pose proof (from_cache_cases (small E) x s) as C. unfold from_int. destruct (from_cache E (small E) x s) as [t [o|]]; cbn [fst snd] in C.
    + destruct C as [(_ & X & _)|(o' & K & X & N)]; [discriminate|]. inversion X; subst o'. destruct (Next x xs _ _ _ _ K0 O N) as (O' & <-). apply IH; auto. eapply same_trans; eauto.
    + destruct C as [(K & _ & X)|(o' & _ & X & _)]; [|discriminate]. apply (post_frame t); [apply drop_frame|]. intros u _ K'. simpl. split; auto. eapply same_trans; eauto. eapply same_trans; eauto.
  - induction xs as [|x xs IH]; intros old done s K0 O; cbn [l_fill]; [simpl; split; auto; exists done; rewrite app_nil_r; auto|].
    pose proof (from_cache_cases (small E) x s) as C. unfold from_int. destruct (from_cache E (small E) x s) as [t [o|]]; cbn [fst snd] in C; [|exact I].
    destruct C as [(_ & X & _)|(o' & K & X & N)]; [discriminate|]. inversion X; subst o'. destruct (Next x xs _ _ _ _ K0 O N) as (O' & <-).
    apply (post_frame t); [apply inc_frame|]. intros u _ K'. apply IH; auto. eapply same_trans; [exact K0|]. eapply same_trans; eauto.
Qed.
Lemma new_fill_post k xs s : post (fun t v => same s t /\ exists l items, v = VList l items /\ nxt s <= l /\ objs s xs items)
  (fun t e => same s t /\ e = MemoryError /\ no_object E) (null (new_obj E s) (fun s l => fill k E l xs [] s)).
Proof.
  apply post_new; [|auto]. intros t l K Nl. eapply post_weak; [apply (fill_post k l s xs [] []); [auto | constructor]| |]; auto.
  intros u v (K' & items & -> & O). split; eauto 6.
Qed.
Lemma to_list_post k s : post (fun t v => same s t /\ exists l items, v = VList l items /\ nxt s <= l /\ objs s (elems s) items)
  (fun t e => same s t /\ e = MemoryError /\ no_object E) (to_list k E s).
Proof.
  unfold to_list, null. pose proof (new_fill_post k (elems s) s) as P. unfold null in P. pose proof (new_obj_cases s) as C. destruct (new_obj E s) as [t [o|]]; cbn [fst snd] in *; auto.
  assert (X : elems t = elems s) by (destruct C as [(K & _)|(K & _)]; apply K). rewrite X. auto.
Qed.
Lemma get_post k i s : outcome_of k E (KGet i) s (get k E i s).
Proof.
  change (post (yields k E (KGet i) s) (stops k E (KGet i) s) (get k E i s)). pose proof (at_index_spec (zlen (elems s)) i) as A.
  destruct k; cbn [get]; unfold a_get, l_get; (destruct (at_index (zlen (elems s)) i) as [j|] eqn:At; [|simpl; split; auto; left; split; auto]);
    destruct (at_index_some _ _ _ At) as (pre & z' & po & Hat & Hp & _);
    assert (LP : length pre = Z.to_nat j) by (destruct Hat as (_ & Hl); destruct A as (A1 & A2); unfold zlen in *; lia);
    assert (N : nth_error (elems s) (Z.to_nat j) = Some z') by (destruct Hat as (-> & _); rewrite nth_error_app2, LP, Nat.sub_diag by lia; auto);
    rewrite N.
  - apply post_number; [intros t v K H; simpl; split; [apply K | eauto 6] | intros t K H; simpl; split; [apply K | auto]].
  - pose proof (from_cache_cases (small E) z' s) as C. unfold from_int. destruct (from_cache E (small E) z' s) as [t [o|]]; cbn [fst snd] in C; [|exact I].
    destruct C as [(_ & X & _)|(o' & K & X & H)]; [discriminate|]. inversion X; subst o'. apply post_give. intros u K'. simpl. split; [rewrite (proj1 K'); apply K | eauto 6].
Qed.
Lemma add_post k other s : outcome_of k E (KAdd other) s (add k E other s).
Proof.
  change (post (yields k E (KAdd other) s) (stops k E (KAdd other) s) (add k E other s)). unfold add.
  eapply post_bind; [apply to_list_post| |].
  - intros t v (K & l & mine & -> & Nl & O). destruct other as [ys|].
    + destruct (new_obj_cases t) as [(K' & N & X)|(K' & N)]; destruct (new_obj E t) as [u o]; cbn [fst snd] in *; subst o.
      * apply (post_frame u); [apply drop_frame|]. intros w _ K2. simpl. split; [rewrite (proj1 K2), (proj1 K'); apply K | auto].
      * apply (post_frame u); [apply incs_frame|]. intros w _ K2. apply (post_frame w); [apply drop_frame|]. intros w' _ K3. simpl.
        split; [rewrite (proj1 K3), (proj1 K2), (proj1 K'); apply K|]. exists ys. split; auto. exists (nxt t), mine. split; auto. split; [apply K | auto].
    + apply (post_frame t); [apply drop_frame|]. intros u _ K'. simpl. split; [rewrite (proj1 K'); apply K | auto].
  - intros t e (K & -> & N). simpl. split; [apply K | auto].
Qed.

(** ** Slice assignment *)
Lemma assign_post k mid pre0 post0 all : forall items pre old po s done zs,
  all = map Some done ++ items -> Forall2 (stands E) done zs -> pre = pre0 ++ zs -> old = skipn (length zs) mid -> po = post0 ->
  post (fun t v => exists zs, all_stand E all zs /\ elems t = pre0 ++ zs ++ post0 /\ v = VUnit)
       (fun t e => exists os zs more, all = map Some os ++ more /\ Forall2 (stands E) os zs /\
          (e = IndexError /\ (exists r, more = None :: r) /\ elems t = pre0 ++ zs ++ skipn (length zs) mid ++ post0 \/
           e = RuntimeError /\ (exists o r, more = Some o :: r) /\ (length mid <= length zs)%nat /\ no_room E (elems t) /\ elems t = pre0 ++ zs ++ post0 \/
           (exists o r, more = Some o :: r /\ conv E o = inr e) /\ elems t = pre0 ++ zs ++ -1 :: skipn (S (length zs)) mid ++ post0))
       (assign_items k E items pre old po s).
Proof.
  assert (Skip : forall (xs : list Z) n y ys, skipn n xs = y :: ys -> skipn (S n) xs = ys).
  { induction xs as [|x xs IH]; intros [|n] y ys H; simpl in *; try discriminate; [congruence | eapply IH; eauto]. }
  assert (Short : forall (xs : list Z) n, skipn n xs = [] -> (length xs <= n)%nat).
  { induction xs as [|x xs IH]; intros [|n] H; simpl in *; try lia; [discriminate | apply le_n_S; auto]. }
  assert (Len : forall done zs, Forall2 (stands E) done zs -> length zs = length done) by (induction 1; simpl; auto).
  destruct k; cbn [assign_items]; induction items as [|[o|] r IH]; intros pre old po s done zs D F -> O ->; cbn [a_assign l_assign].
  1,4: simpl; exists zs; split; [exists done; split; auto; rewrite app_nil_r in D; auto | split; [rewrite app_assoc; auto | auto]].
  2,4: simpl; exists done, zs, (None :: r); split; [auto | split; [auto | left; split; [auto | split; [eauto | rewrite O, !app_assoc; auto]]]].
  all: pose proof (fetch_same o s) as Fs; apply post_as_int; destruct old as [|y old].
  - pose proof (Short _ _ (eq_sym O)) as Sh. destruct (room E (zlen (pre0 ++ zs) + zlen post0)) eqn:Rm; (apply (post_frame (fetch E o s)); [apply dec_frame|]); intros t _ K.
    + destruct (conv E o) as [z|e] eqn:C.
      * apply (IH _ _ _ _ (done ++ [o]) (zs ++ [z])); auto; [rewrite map_app, <- app_assoc; auto | apply Forall2_app; auto | rewrite app_assoc; auto|].
        rewrite skipn_all2; auto. rewrite app_length. simpl. lia.
      * cbn [post]. exists done, zs, (Some o :: r). split; auto. split; auto. right; right. split; [eauto|]. rewrite (skipn_all2 mid (n := S (length zs))) by lia. cbn [elems with_elems app]. rewrite <- app_assoc. auto.
    + cbn [post]. exists done, zs, (Some o :: r). split; auto. split; auto. right; left. split; auto. split; [eauto|]. split; auto.
      split; [unfold no_room; cbn [elems with_elems]; rewrite zlen_app; auto | cbn [elems with_elems]; rewrite <- app_assoc; auto].
  - apply (post_frame (fetch E o s)); [apply dec_frame|]. intros t _ K. pose proof (Skip _ _ _ _ (eq_sym O)) as Sk. destruct (conv E o) as [z|e] eqn:C.
    + apply (IH _ _ _ _ (done ++ [o]) (zs ++ [z])); auto; [rewrite map_app, <- app_assoc; auto | apply Forall2_app; auto | rewrite app_assoc; auto|].
      rewrite app_length. simpl. rewrite Nat.add_1_r. auto.
    + cbn [post]. exists done, zs, (Some o :: r). split; auto. split; auto. right; right. split; [eauto|]. rewrite Sk. cbn [elems with_elems app]. rewrite <- app_assoc. auto.
  - pose proof (Short _ _ (eq_sym O)) as Sh. destruct (room E (zlen (pre0 ++ zs) + zlen post0)) eqn:Rm.
    + apply (post_frame (fetch E o s)); [apply dec_frame|]. intros t _ K. destruct (conv E o) as [z|e] eqn:C.
      * apply (IH _ _ _ _ (done ++ [o]) (zs ++ [z])); auto; [rewrite map_app, <- app_assoc; auto | apply Forall2_app; auto | rewrite app_assoc; auto|].
        rewrite skipn_all2; auto. rewrite app_length. simpl. lia.
      * cbn [post]. exists done, zs, (Some o :: r). split; auto. split; auto. right; right. split; [eauto|]. rewrite (skipn_all2 mid (n := S (length zs))) by lia. cbn [elems with_elems app]. rewrite <- app_assoc. auto.
    + cbn [post]. exists done, zs, (Some o :: r). split; auto. split; auto. right; left. split; auto. split; [eauto|]. split; auto.
      split; [unfold no_room; cbn [elems with_elems]; rewrite zlen_app; auto | cbn [elems with_elems]; rewrite <- app_assoc; auto].
  - apply (post_frame (fetch E o s)); [apply dec_frame|]. intros t _ K. pose proof (Skip _ _ _ _ (eq_sym O)) as Sk. destruct (conv E o) as [z|e] eqn:C.
    + apply (IH _ _ _ _ (done ++ [o]) (zs ++ [z])); auto; [rewrite map_app, <- app_assoc; auto | apply Forall2_app; auto | rewrite app_assoc; auto|].
      rewrite app_length. simpl. rewrite Nat.add_1_r. auto.
    + cbn [post]. exists done, zs, (Some o :: r). split; auto. split; auto. right; right. split; [eauto|]. rewrite Sk. cbn [elems with_elems app]. rewrite <- app_assoc. auto.
Qed.
Lemma set_slice_post k sl seq items s : zlen (elems s) <= SSIZE_MAX -> outcome_of k E (KSetSlice sl seq items) s (set_slice k E sl seq items s).
Proof.
  intros L. change (post (yields k E (KSetSlice sl seq items) s) (stops k E (KSetSlice sl seq items) s) (set_slice k E sl seq items s)). unfold set_slice.
  destruct (unpack_cases sl) as [(Z0 & U)|(NZ & start & stop & step & U)]; rewrite U.
  - simpl. left. auto.
  - destruct seq; cbn [negb]; [|simpl; left; auto]. pose proof (step1 sl _ _ _ U) as S1. destruct (Z.eqb_spec step 1) as [Es|Es]; cbn [negb].
    2: { simpl. left. split; auto. right; right. split; auto. intros H. apply Es, S1; auto. }
    assert (St : step_of sl = 1) by (apply S1; auto).
    destruct (unpack_step1 (elems s) sl L St) as (start' & stop' & U' & A). rewrite U in U'. inversion U'; subst start' stop' step. rewrite A.
    destruct (slice_split (elems s) sl) as (a & b & c & Eq & La & Lb & P).
    pose proof (zsplit_parts a b c (elems s) _ _ Eq La Lb) as (P1 & P2 & P3). rewrite P1, P2, P3.
    eapply post_weak; [apply (assign_post k b a c items items a b c s [] []); auto; rewrite app_nil_r; auto| |].
    + intros t v (zs & H & El & ->). simpl. split; auto. split; auto. split; auto. exists zs. split; auto. rewrite P. auto.
    + intros t e (os & zs & more & D & F & H). simpl. right. split; auto. split; auto. exists a, b, c, os, zs, more. auto 10.
Qed.

(** ** Comparing *)
Lemma compare_eq_post : forall items xs s, length items = length xs ->
  post (fun t v => same s t /\ exists b, v = boolean E b /\ (b = true <-> all_stand E items xs)) (fun t e => same s t /\ e = IndexError /\ In None items)
       (compare E true eq_ans true xs items s).
Proof.
  induction items as [|[o|] r IH]; intros [|x xs] s L; try discriminate; cbn [compare].
  - apply post_bool. intros t K. split; auto. exists true. split; auto. split; auto. intros _. exists []. auto.
  - pose proof (fetch_same o s) as Fs. apply post_as_int. apply (post_frame (fetch E o s)); [apply dec_frame|]. intros t _ K.
    pose proof (same_trans _ _ _ Fs K) as Kt.
    assert (No : forall b, (b = true -> False) -> conv E o <> inl x -> forall u, same t u -> same s u /\ exists b0, boolean E b = boolean E b0 /\ (b0 = true <-> all_stand E (Some o :: r) (x :: xs))).
    { intros b B N u Ku. split; [eapply same_trans; eauto|]. exists b. split; auto. split; [intros H; destruct (B H)|]. intros ([|o' os] & X & F); [discriminate|].
      inversion X; subst. inversion F; subst. contradiction. }
    destruct (conv E o) as [z|e] eqn:C.
    + unfold eq_ans. destruct (Z.eqb_spec x z) as [->|N].
      * eapply post_weak; [apply (IH xs t); simpl in L; lia| |].
        -- intros u v (Ku & b & -> & B). split; [eapply same_trans; eauto|]. exists b. split; auto. rewrite B. split.
           ++ intros (os & -> & F). exists (o :: os). split; auto.
           ++ intros ([|o' os] & X & F); [discriminate|]. inversion X; subst. inversion F; subst. exists os. auto.
        -- intros u e (Ku & -> & H). split; [eapply same_trans; eauto|]. simpl. auto.
      * apply post_bool. apply No; [discriminate|]. intros X. inversion X; congruence.
    + apply post_bool. apply No; discriminate.
  - simpl. split; [apply same_refl | auto].
Qed.
Lemma all_stand_length items zs : all_stand E items zs -> length items = length zs.
Proof. intros (os & -> & F). rewrite map_length. induction F; simpl; auto. Qed.
Lemma zlen_inj {A B} (l : list A) (m : list B) : zlen l = zlen m -> length l = length m.
Proof. unfold zlen. lia. Qed.
Lemma py_eq_post seq items s :
  post (fun t v => same s t /\ exists b, v = boolean E b /\ (b = true <-> seq = true /\ all_stand E items (elems s))) (fun t e => same s t /\ e = IndexError /\ In None items)
       (py_eq E seq items s).
Proof.
  unfold py_eq. destruct seq; cbn [negb].
  - destruct (Z.eqb_spec (zlen items) (zlen (elems s))) as [L|L]; cbn [negb].
    + eapply post_weak; [apply (compare_eq_post items (elems s) s); apply zlen_inj; auto| |]; auto.
      intros t v (K & b & -> & B). split; auto. exists b. split; auto. rewrite B. tauto.
    + apply post_bool. intros t K. split; auto. exists false. split; auto. split; [discriminate|]. intros (_ & H). apply all_stand_length in H. unfold zlen in L. congruence.
  - apply post_bool. intros t K. split; auto. exists false. split; auto. split; [discriminate | intros (H & _); discriminate].
Qed.
Lemma py_ne_post seq items s : tru E <> fls E -> outcome_of Array E (KNe seq items) s (py_ne E seq items s).
Proof.
  intros TF. change (post (yields Array E (KNe seq items) s) (stops Array E (KNe seq items) s) (py_ne E seq items s)). unfold py_ne.
  pose proof (py_eq_post seq items s) as P. destruct (py_eq E seq items s) as [t v|t e| |]; simpl in P; try exact I.
  destruct P as (K & b & -> & B). apply (post_frame t); [apply drop_frame|]. intros u _ K'.
  assert (N : negb ((if b then tru E else fls E) =? tru E) = negb b) by (destruct b; [rewrite Z.eqb_refl; auto | destruct (Z.eqb_spec (fls E) (tru E)); auto; congruence]).
  unfold boolean. rewrite N. apply post_bool. intros w K2. simpl. split; [rewrite (proj1 K2), (proj1 K'); apply K|]. exists (negb b). split; auto. rewrite <- B. destruct b; simpl; split; auto; discriminate.
Qed.
Lemma compare_order_post rl : forall items xs s, length items = length xs ->
  post (fun t v => same s t /\ exists b, v = boolean E b /\
         (b = true <-> exists os o more x rest, items = map Some os ++ Some o :: more /\ xs = map (taken E) os ++ x :: rest /\ x <> taken E o /\ rl x (taken E o) = true))
       (fun t e => same s t /\ e = IndexError /\ In None items) (compare E false (fun x z => if x =? z then None else Some (rl x z)) false xs items s).
Proof.
  induction items as [|[o|] r IH]; intros [|x xs] s L; try discriminate; cbn [compare].
  - apply post_bool. intros t K. split; auto. exists false. split; auto. split; [discriminate|]. intros ([|o os] & o' & more & x & rest & X & _); discriminate.
  - pose proof (fetch_same o s) as Fs. apply post_as_int. apply (post_frame (fetch E o s)); [apply dec_frame|]. intros t _ K.
    pose proof (same_trans _ _ _ Fs K) as Kt.
    assert (Go : post (fun t v => same s t /\ exists b, v = boolean E b /\
         (b = true <-> exists os o0 more x0 rest, Some o :: r = map Some os ++ Some o0 :: more /\ x :: xs = map (taken E) os ++ x0 :: rest /\ x0 <> taken E o0 /\ rl x0 (taken E o0) = true))
       (fun t e => same s t /\ e = IndexError /\ In None (Some o :: r))
       (match (if x =? taken E o then None else Some (rl x (taken E o))) with
        | Some b => give_bool E b t | None => compare E false (fun x z => if x =? z then None else Some (rl x z)) false xs r t end)).
    { destruct (Z.eqb_spec x (taken E o)) as [Ex|N].
      - eapply post_weak; [apply (IH xs t); simpl in L; lia| |].
        + intros u v (Ku & b & -> & B). split; [eapply same_trans; eauto|]. exists b. split; auto. rewrite B. split.
          * intros (os & o' & more & y & rest & -> & -> & H). exists (o :: os), o', more, y, rest. simpl. rewrite Ex. auto.
          * intros ([|o1 os] & o' & more & y & rest & X & Y & H1 & H2); simpl in X, Y.
            -- inversion X; subst. inversion Y; subst. contradiction.
            -- inversion X; subst. inversion Y; subst. exists os, o', more, y, rest. auto.
        + intros u e (Ku & -> & H). split; [eapply same_trans; eauto|]. simpl. auto.
      - apply post_bool. intros u Ku. split; [eapply same_trans; eauto|]. exists (rl x (taken E o)). split; auto. split.
        + intros H. exists [], o, r, x, xs. auto.
        + intros ([|o1 os] & o' & more & y & rest & X & Y & H1 & H2); simpl in X, Y; inversion X; subst; inversion Y; subst; auto; congruence. }
    unfold taken in Go. destruct (conv E o); exact Go.
  - simpl. split; [apply same_refl | auto].
Qed.
Lemma order_post rl seq items s : outcome_of Array E (KOrder rl seq items) s (order E rl seq items s).
Proof.
  change (post (yields Array E (KOrder rl seq items) s) (stops Array E (KOrder rl seq items) s) (order E rl seq items s)). unfold order.
  destruct seq; cbn [negb].
  - destruct (Z.eqb_spec (zlen items) (zlen (elems s))) as [L|L]; cbn [negb].
    + eapply post_weak; [apply (compare_order_post rl items (elems s) s); apply zlen_inj; auto| |].
      * intros t v (K & b & -> & B). simpl. split; [apply K|]. exists b. split; auto. split; [discriminate|]. split; [contradiction | auto].
      * intros t e (K & H). simpl. split; [apply K | auto].
    + apply post_bool. intros t K. simpl. split; [apply K|]. eexists. split; [reflexivity|]. split; [discriminate|]. split; [auto | contradiction].
  - apply post_bool. intros t K. simpl. split; [apply K|]. exists false. split; auto. split; auto. split; discriminate.
Qed.

(** ** Sorting with a key *)
Lemma make_ints_same : forall xs s, same s (fst (make_ints E xs s)) /\ length (snd (make_ints E xs s)) = length xs.
Proof.
  induction xs as [|x xs IH]; intros s; cbn [make_ints]; [split; [apply same_refl | auto]|].
  pose proof (from_cache_cases (small E) x s) as C. unfold from_int. destruct (from_cache E (small E) x s) as [t o]. cbn [fst snd] in C.
  assert (K : same s t) by (destruct C as [(K & _)|(_ & K & _)]; auto). specialize (IH t). destruct (make_ints E xs t) as [u os]. cbn [fst snd] in *.
  destruct IH as (A & B). split; [eapply same_trans; eauto | simpl; auto].
Qed.
Lemma call_keys_post : forall items keys got s, post (fun t b => same s t /\ b = all_keys (length items) keys) (fun _ _ => False) (call_keys E items keys got s).
Proof.
  induction items as [|[o|] items IH]; intros keys got s; cbn [call_keys]; [simpl; split; [apply same_refl | auto] | |exact I].
  destruct keys as [|k keys].
  - apply (post_frame s); [apply decs_frame|]. intros t _ K. simpl. auto.
  - destruct (alive E s o); [|exact I]. destruct k as [k|].
    + eapply post_weak; [apply IH| |]; [|auto]. intros t b (K & ->). split; auto. eapply same_trans; [apply fetch_same | exact K].
    + apply (post_frame s); [apply decs_frame|]. intros t _ K. simpl. auto.
Qed.
Lemma sort_key_post keys sorted s : outcome_of Array E (KSortKey keys sorted) s (sort_key E keys sorted s).
Proof.
  change (post (yields Array E (KSortKey keys sorted) s) (stops Array E (KSortKey keys sorted) s) (sort_key E keys sorted s)). unfold sort_key.
  pose proof (make_ints_same (elems s) s) as M. destruct (make_ints E (elems s) s) as [t items]. cbn [fst snd] in M. destruct M as (K & L).
  eapply post_bind; [apply call_keys_post| |intros u e []]. intros u ok (K1 & ->). rewrite L.
  apply (post_frame u).
  { destruct (all_keys (length (elems s)) keys); [|apply same_refl]. apply frame_bind; [apply decs_frame|]. intros w _ Kw. eapply frame_same; [exact Kw | apply inc_frame]. }
  intros w _ K2. apply (post_frame w); [apply decs_frame|]. intros x _ K3. apply post_give. intros y K4. simpl. split; auto. rewrite (proj1 K4).
  assert (X : elems x = elems s) by (rewrite (proj1 K3), (proj1 K2), (proj1 K1); apply K).
  destruct (all_keys (length (elems s)) keys); simpl; congruence.
Qed.

(** ** All calls *)
Theorem values k c s : tru E <> fls E -> zlen (elems s) <= SSIZE_MAX -> outcome_of k E c s (run k E c s).
Proof.
  intros TF L. destruct c as [q items|a|o|i o|i o|o|o|o|o|i|a|a| |i|sl|sl seq items| |other| |f|seq items|seq items|rl seq items|keys sorted| |i|f]; cbn [run];
    match goal with |- outcome_of ?k E ?c s ?r => change (post (yields k E c s) (stops k E c s) r) end.
  - unfold init_seq. apply (post_frame s); [apply inc_frame|]. intros t _ _. eapply post_weak; [apply (init_seq_items_post q items items _ [])| |]; auto. simpl. constructor.
  - exact (init_iter_post a s).
  - apply with_int_post; intros; simpl.
    + left. split; auto.
    + discriminate.
    + inversion H0; subst. apply post_give. intros t K. exists z. split; auto. split; [apply K | auto].
    + right. auto.
  - apply with_int_post; intros; simpl.
    + left. split; auto.
    + discriminate.
    + unfold insert_at in H0. inversion H0; subst. apply post_give. intros t K. simpl. set (n := Z.max 0 _) in *.
      exists z, (firstn (Z.to_nat n) (elems s)), (skipn (Z.to_nat n) (elems s)). split; auto. split; [rewrite firstn_skipn; auto|].
      split; [|split; [rewrite (proj1 K); reflexivity | auto]]. unfold zlen at 1. rewrite firstn_length. unfold n, clamp, rel, zlen. destruct (i <? 0); lia.
    + right. auto.
  - apply with_int_post; intros; simpl.
    + left. split; auto.
    + unfold set_at in H0. pose proof (at_index_spec (zlen (elems s)) i) as A. destruct (at_index (zlen (elems s)) i); [discriminate|]. inversion H0; subst. right. auto.
    + unfold set_at in H0. destruct (at_index (zlen (elems s)) i) as [j|] eqn:A; [|discriminate]. inversion H0; subst.
      destruct (at_index_some _ _ _ A) as (pre & old & po & Hat & -> & ->). simpl. exists z, (firstn (Z.to_nat j) (elems s)), old, (skipn (S (Z.to_nat j)) (elems s)). auto.
    + exfalso. unfold set_at in H0. destruct (at_index (zlen (elems s)) i) as [j|] eqn:A; [|discriminate]. inversion H0; subst.
      destruct (at_index_some _ _ _ A) as (pre & old & po & (Hat & _) & P1 & P2). change (zlen (elems s) < zlen (firstn (Z.to_nat j) (elems s) ++ z :: skipn (S (Z.to_nat j)) (elems s))) in H1. rewrite <- P1, <- P2 in H1.
      apply (f_equal (@zlen Z)) in Hat. rewrite zlen_app, zlen_cons in *. lia.
  - apply with_int_post; intros; simpl.
    + left. split; auto.
    + destruct (remove_first z (elems s)) eqn:Rf; [discriminate|]. inversion H0; subst. right. split; auto. split; auto. exists z. split; auto. apply remove_first_none; auto.
    + destruct (remove_first z (elems s)) as [ys|] eqn:Rf; [|discriminate]. inversion H0; subst. destruct (remove_first_some _ _ _ Rf) as (pre & po & A1 & A2 & A3).
      apply post_give. intros t K. exists z, pre, po. split; auto. split; auto. split; auto. split; auto. rewrite (proj1 K). exact A3.
    + exfalso. destruct (remove_first z (elems s)) as [ys|] eqn:Rf; [|discriminate]. inversion H0; subst. destruct (remove_first_some _ _ _ Rf) as (pre & po & A1 & A2 & A3).
      rewrite A1, A3 in H1. rewrite !zlen_app, zlen_cons in H1. lia.
  - apply with_int_post; intros; simpl.
    + split; auto.
    + discriminate.
    + inversion H0; subst. split; eauto.
    + exfalso. inversion H0; subst. lia.
  - apply search_post; intros; simpl.
    + left. split; auto.
    + right. split; auto. left. split; auto. exists z. split; auto. apply find_first_none; auto.
    + destruct (find_first_some _ _ _ H0) as (pre & po & A1 & A2 & ->). exists z, pre, po. split; auto. split; auto. split; auto. split; [apply H1 | auto].
    + right. split; [apply H | auto].
  - apply search_post; intros; simpl.
    + left. split; auto.
    + discriminate.
    + inversion H0; subst. exists z. split; auto. split; [apply H1|]. rewrite <- count_of_occ. auto.
    + right. split; [apply H | auto].
  - unfold pop. destruct (nth_error (elems s) (Z.to_nat i)) as [z|] eqn:N; [|simpl; auto]. destruct (at_split _ _ _ N) as (A1 & A2).
    apply post_number.
    + intros t v K H. simpl. exists z, (firstn (Z.to_nat i) (elems s)), (skipn (S (Z.to_nat i)) (elems s)). split; auto. split; auto. split; [rewrite (proj1 K); reflexivity | exact H].
    + intros t K X. simpl. right. split; auto. split; auto. exists z, (firstn (Z.to_nat i) (elems s)), (skipn (S (Z.to_nat i)) (elems s)). split; auto. split; auto. rewrite (proj1 K). reflexivity.
  - destruct a as [ys|a]; cbn [extend].
    + apply post_give. intros t K. simpl. split; [apply K | auto].
    + eapply post_bind; [apply get_iter_post| |].
      * intros t v (K & N). eapply post_weak; [apply (extend_items_post k v (it_end a) (none E) (it_items a) (it_items a) t [] [] (elems s)); auto; rewrite app_nil_r; apply K| |].
        -- intros u w (H1 & H2 & H3). simpl. auto.
        -- intros u e [H|H]; simpl; auto.
      * intros t e (K & H). simpl. left. split; [apply K | auto].
  - destruct a as [ys|a]; cbn [iadd].
    + apply post_give. intros t K. simpl. split; [apply K | auto].
    + eapply post_bind; [apply get_iter_post| |].
      * intros t v (K & N). eapply post_weak; [apply (extend_items_post k v (it_end a) (self E) (it_items a) (it_items a) t [] [] (elems s)); auto; rewrite app_nil_r; apply K| |].
        -- intros u w (H1 & H2 & H3). simpl. auto.
        -- intros u e [H|H]; simpl; auto.
      * intros t e (K & H). simpl. left. split; [apply K | auto].
  - eapply post_weak; [apply to_list_post| |]; simpl.
    + intros t v (K & l & items & -> & H). split; [apply K|]. exists l, items. rewrite app_nil_r. auto.
    + intros t e (K & H). split; [apply K | auto].
  - exact (get_post k i s).
  - unfold get_slice. destruct (unpack_cases sl) as [(Z0 & U)|(NZ & start & stop & step & U)]; rewrite U; [simpl; auto|].
    pose proof (new_fill_post k (py_getslice (elems s) sl) s) as P. unfold null in *. pose proof (new_obj_cases s) as C. destruct (new_obj E s) as [t [o|]]; cbn [fst snd] in *.
    + assert (X : elems t = elems s) by (destruct C as [(K & _)|(K & _)]; apply K). rewrite X. eapply post_weak; [exact P| |]; simpl.
      * intros u v (K & l & items & -> & H). split; [apply K|]. split; auto. exists l, items. rewrite app_nil_r. auto.
      * intros u e (K & H). split; [apply K | auto].
    + simpl in *. destruct P as (K & H). split; [apply K | auto].
  - exact (set_slice_post k sl seq items s L).
  - simpl. auto.
  - exact (add_post k other s).
  - unfold mul. apply post_new; simpl.
    + intros t o K H. split; [apply K | eauto].
    + intros t K H. split; [apply K | auto].
  - apply post_give. intros t K. simpl. split; [apply K | auto].
  - eapply post_weak; [apply py_eq_post| |]; simpl.
    + intros t v (K & H). split; [apply K | auto].
    + intros t e (K & H). split; [apply K | auto].
  - exact (py_ne_post seq items s TF).
  - exact (order_post rl seq items s).
  - exact (sort_key_post keys sorted s).
  - unfold make_iter. apply post_new.
    + intros t o K H. apply (post_frame t); [apply inc_frame|]. intros u _ K'. simpl. split; [rewrite (proj1 K'); apply K | eauto].
    + intros t K H. simpl. split; [apply K | auto].
  - unfold next. destruct (nth_error (elems s) (Z.to_nat i)) as [z|] eqn:N; [|simpl; auto]. apply post_number.
    + intros t v K H. simpl. split; [apply K | eauto].
    + intros t K H. simpl. split; [apply K | auto].
  - apply post_give. intros t K. simpl. split; [apply K | auto].
Qed.
End P.
