(** Proofs for ORefModel / ORefSpec: single calls. *)
From Coq Require Import ZArith List Bool Lia Permutation.
From Verif Require Import Base ListLemmas PyListSpec ArrayListModel ArrayListProofs ObjModel ObjSpec ObjLemmas ObjArrayProofs LinkSliceProofs IRefModel IRefSpec IRefProofs IRefCalls ORefModel ORefSpec.
Import ListNotations.
Local Open Scope Z_scope.
Local Arguments Z.add : simpl never.
Local Arguments Z.sub : simpl never.
Local Arguments Z.mul : simpl never.
Local Arguments Z.pow : simpl never.

Ltac occs := intros; simpl; rewrite ?occ_app; simpl; rewrite ?occ_app; simpl; lia.

Lemma cut_eq pre (o : Z) post n : n = length pre -> cut n (pre ++ o :: post) = pre ++ post.
Proof. intros ->. unfold cut. induction pre as [|x pre IH]; [reflexivity|]. cbn [length app firstn skipn]. f_equal. exact IH. Qed.
Lemma put_eq pre (o x : Z) post n : n = length pre -> put n x (pre ++ o :: post) = pre ++ x :: post.
Proof. intros ->. unfold put. induction pre as [|y pre IH]; [reflexivity|]. cbn [length app firstn skipn]. f_equal. exact IH. Qed.
Lemma nth_error_has (xs : list Z) n o : nth_error xs n = Some o -> exists pre post, xs = pre ++ o :: post /\ length pre = n.
Proof. intros H. apply nth_error_split in H. destruct H as (a & b & H1 & H2). eauto. Qed.
Lemma at_index_rel n i : 0 <= n -> match at_index n i with Some j => j = rel n i /\ 0 <= j < n | None => ~ 0 <= rel n i < n end.
Proof.
  intros Hn. unfold at_index, rel. destruct (Z.ltb_spec i 0).
  - destruct (Z.ltb_spec (n + i) 0); destruct (Z.leb_spec n (n + i)); cbn [orb]; lia.
  - destruct (Z.leb_spec n i); cbn [orb]; destruct (Z.ltb_spec i 0); cbn [orb]; try lia.
Qed.
Lemma remove_first_split o : forall xs, match remove_first o xs with
  | Some ys => exists pre post, xs = pre ++ o :: post /\ ~ In o pre /\ ys = pre ++ post
  | None => ~ In o xs end.
Proof.
  induction xs as [|x xs IH]; simpl; [tauto|]. destruct (Z.eqb_spec x o) as [Eq|Eq].
  - exists [], xs. subst. simpl. auto.
  - destruct (remove_first o xs) as [ys|]; simpl.
    + destruct IH as (pre & post & -> & N & ->). exists (x :: pre), post. simpl. repeat split; auto. intros [H|H]; auto.
    + intros [H|H]; auto.
Qed.
Lemma grows_false G n m most : grows G n m = false -> 0 <= n -> m <= most -> refused G most.
Proof. intros H Hn Hm. exists n, m. split; auto. unfold grows in H. apply orb_false_iff in H. destruct H as (H & _). apply Z.leb_gt in H. lia. Qed.
Lemma zlen_nil : @zlen Z [] = 0. Proof. reflexivity. Qed.
Lemma size_nonneg s : 0 <= size s. Proof. apply zlen_nonneg. Qed.

Section Calls.
Context (E : env) (s : rst) (W : sane E (outside s)) (F : Forall (fun o => o < nxt s) (elems s)).
Notation s0 := (outside s).
Notation at0 := (at_ E s0).

Lemma at_start : at0 s (elems s).
Proof. split; [simpl; lia|]. split; [|exact F]. intros p Hp. simpl. lia. Qed.
Lemma el_at : elems s0 = elems s. Proof. reflexivity. Qed.
Lemma nx_at : nxt s0 = nxt s. Proof. reflexivity. Qed.

Lemma shares_at s' os mine lost short : at0 s' os ->
  (forall p, occ os p + occ short p = occ (elems s') p + occ mine p + occ lost p) -> shares E s s' mine lost short.
Proof. intros (A & B & C) H p Hp. simpl. specialize (H p). rewrite (B p Hp). simpl. lia. Qed.

(** A call that is over. *)
Definition fin (k : kind) (G : memory) (c : call) (r : rr value) : Prop :=
  match r with
  | Ok s' v => exists lost short os, at0 s' (owned v ++ os) /\ (forall p, occ os p + occ short p = occ (elems s') p + occ lost p) /\
                 holdable s0 v os /\ returns k E c s s' v lost short
  | Er s' e => exists lost, at0 s' (elems s' ++ lost) /\ raises k E G c s s' e lost
  | Bad u => ends k E G c s (Bad u)
  | Killed => extends c = true /\ refused G (wanted c s)
  end.
Lemma fin_ends k G c r : fin k G c r -> ends k E G c s r.
Proof.
  destruct r as [s' v|s' e|u|]; simpl; auto.
  - intros (lost & short & os & A & H & _ & R). exists lost, short. split; auto. eapply shares_at; [exact A|]. intros p. rewrite occ_app. specialize (H p). lia.
  - intros (lost & A & R). exists lost. split; auto. eapply shares_at; [exact A|]. occs.
Qed.

Lemma obj_ok k G c s' o os lost : at0 s' (o :: os) -> (forall p, occ os p = occ (elems s') p + occ lost p) ->
  returns k E c s s' (VObj o) lost [] -> fin k G c (Ok s' (VObj o)).
Proof. intros A H R. exists lost, [], os. simpl. repeat split; auto; try apply A. intros p. rewrite H. lia. Qed.
Lemma unit_ok k G c s' os lost short : at0 s' os -> (forall p, occ os p + occ short p = occ (elems s') p + occ lost p) ->
  returns k E c s s' VUnit lost short -> fin k G c (Ok s' VUnit).
Proof. intros A H R. exists lost, short, os. simpl. repeat split; auto; apply A. Qed.
Lemma er_ok k G c s' e lost : at0 s' (elems s' ++ lost) -> raises k E G c s s' e lost -> fin k G c (Er s' e).
Proof. intros A R. exists lost. auto. Qed.
Lemma undone_at : at0 s (elems s ++ []).
Proof. rewrite app_nil_r. apply at_start. Qed.
Lemma er_same k G c e : raises k E G c s s e [] -> fin k G c (Er s e).
Proof. intros R. eapply er_ok; [apply undone_at | exact R]. Qed.
Lemma still : undone s s []. Proof. split; reflexivity. Qed.
Lemma in_elems_lt o : In o (elems s) -> o < nxt s0.
Proof. rewrite Forall_forall in F. apply F. Qed.

(** The end of a call that gives a constant. *)
Lemma give_fin k G c s' o os lost short : at0 s' os -> lives E s0 o -> (forall p, occ os p + occ short p = occ (elems s') p + occ lost p) ->
  (forall s'', elems s'' = elems s' -> returns k E c s s'' (VObj o) lost short) -> fin k G c (give E o s').
Proof.
  intros A L H R. destruct (give_at E s0 W s' os o A L) as (s2 & E1 & A2 & El). rewrite E1. exists lost, short, os. simpl.
  split; [exact A2|]. split; [intros p; rewrite El; apply H|]. split; [exact I|]. apply R. exact El.
Qed.

Lemma append_fin k G o : lives E s0 o -> fin k G (OAppend o) (append E G o s).
Proof.
  intros L. unfold append. destruct (grows G (size s) (size s + 1)) eqn:Q.
  - destruct (inc_at E s0 W (push o s) (elems s) o (at_elems E s0 s _ _ at_start) (or_introl L)) as (s2 & E1 & A2 & El). rewrite E1. cbn [bind].
    eapply (give_fin _ _ _ s2 _ (o :: elems s) [] []); auto; [apply none_lives; auto| |].
    + intros p. rewrite El. unfold push. simpl. rewrite occ_app. simpl. lia.
    + intros s3 E3. simpl. rewrite E3, El. auto.
  - apply er_same. simpl. split; auto. split; [eapply grows_false; [eauto | apply size_nonneg | simpl; lia] | apply still].
Qed.

Lemma insert_pos_clamp n i : 0 <= n -> insert_pos n i = clamp n (rel n i).
Proof. intros Hn. unfold insert_pos, clamp, rel. destruct (Z.ltb_spec i 0); [lia|]. destruct (Z.ltb_spec n i); lia. Qed.
Lemma insert_fin k G i o : lives E s0 o -> fin k G (OInsert i o) (insert E G i o s).
Proof.
  intros L. unfold insert. destruct (grows G (size s) (size s + 1)) eqn:Q.
  - pose proof (zlen_nonneg (elems s)) as Hn. rewrite (insert_pos_clamp (size s) i Hn). set (n := Z.to_nat _).
    destruct (inc_at E s0 W (with_elems (firstn n (elems s) ++ o :: skipn n (elems s)) s) (elems s) o (at_elems E s0 s _ _ at_start) (or_introl L)) as (s2 & E1 & A2 & El).
    rewrite E1. cbn [bind]. simpl in El. assert (Oc : forall p, occ (elems s) p = occ (firstn n (elems s)) p + occ (skipn n (elems s)) p)
      by (intros p; rewrite <- occ_app, firstn_skipn; reflexivity).
    eapply (give_fin _ _ _ s2 _ (o :: elems s) [] []); auto; [apply none_lives; auto| |].
    + intros p. rewrite El. rewrite occ_app. simpl. specialize (Oc p). lia.
    + intros s3 E3. simpl. split; auto. exists (firstn n (elems s)), (skipn n (elems s)). split; [symmetry; apply firstn_skipn|]. split; [congruence|].
      unfold zlen at 1. rewrite firstn_length. unfold n. unfold clamp, size, zlen in *. lia.
  - apply er_same. simpl. split; auto. split; [eapply grows_false; [eauto | apply size_nonneg | simpl; lia] | apply still].
Qed.

Lemma pop_fin k G i : fin k G (OPop i) (pop k i s).
Proof.
  unfold pop. pose proof (zlen_nonneg (elems s)) as Hn. fold (size s) in Hn. destruct (Z.eqb_spec (size s) 0) as [Z0|Z0].
  - apply er_same. simpl. split; auto. split; [apply still | auto].
  - assert (Main : forall n j, nth_error (elems s) (Z.to_nat n) = Some j -> 0 <= n -> n = rel (zlen (elems s)) (match i with Some i => i | None => -1 end) ->
      fin k G (OPop i) (Ok (with_elems (cut (Z.to_nat n) (elems s)) s) (VObj j))).
    { intros n j Nt Pn En. destruct (nth_error_has _ _ _ Nt) as (pre & post & Ee & Lp).
      eapply (obj_ok _ _ _ _ _ (pre ++ post) []).
      - apply at_elems. eapply at_perm; [apply at_start|]. intros p. rewrite Ee. occs.
      - intros p. simpl. rewrite Ee, (cut_eq pre j post) by auto. lia.
      - simpl. split; auto. exists pre, j, post. rewrite Ee, (cut_eq pre j post) by auto. repeat split; auto.
        rewrite <- Ee, <- En. unfold zlen. rewrite Lp. lia. }
    destruct i as [i|].
    + pose proof (at_index_rel (size s) i Hn) as R. destruct (at_index (size s) i) as [n|].
      * destruct R as (R1 & R2). destruct (nth_error (elems s) (Z.to_nat n)) as [j|] eqn:Nt.
        { destruct k; [apply Main; auto; lia|]. simpl. split; auto. left. split; auto. exists i. split; auto. lia. }
        exfalso. apply nth_error_None in Nt. unfold size, zlen in *. lia.
      * apply er_same. simpl. split; auto. split; [apply still|]. right. eauto.
    + destruct (nth_error (elems s) (Z.to_nat (size s - 1))) as [j|] eqn:Nt.
      * apply Main; auto; [lia|]. unfold rel. change (-1 <? 0) with true. cbv iota. unfold size. lia.
      * exfalso. apply nth_error_None in Nt. unfold size, zlen in *. lia.
Qed.

Lemma remove_fin k G o : lives E s0 o -> fin k G (ORemove o) (remove E o s).
Proof.
  intros L. unfold remove. pose proof (remove_first_split o (elems s)) as R. destruct (remove_first o (elems s)) as [ys|].
  - destruct R as (pre & post & Ee & N & ->).
    assert (A : at0 (with_elems (pre ++ post) s) (o :: pre ++ post)).
    { apply at_elems. eapply at_perm; [apply at_start|]. intros p. rewrite Ee. occs. }
    destruct (dec_at E s0 W _ _ _ A) as (s2 & E1 & A2 & El & _). rewrite E1. cbn [bind]. simpl in El.
    eapply (give_fin _ _ _ s2 _ (pre ++ post) [] []); auto; [apply none_lives; auto| |].
    + intros p. rewrite El. simpl. lia.
    + intros s3 E3. simpl. split; auto. exists pre, post. repeat split; auto. congruence.
  - apply er_same. simpl. split; auto. split; [apply still | auto].
Qed.

Lemma search_fin k G f : fin k G (OSearch f) (search E f s).
Proof.
  unfold search. destruct (f (elems s)) as [n|] eqn:Q.
  - unfold null. pose proof (from_cache_at E s0 W (small_size E) s (elems s) n at_start (size_lives E s0 W)) as N.
    fold (from_size E n s) in N. destruct (from_size E n s) as [s2 [o|]]; cbn [fst snd].
    + destruct N as (A & El & I & _). eapply (obj_ok _ _ _ _ _ (elems s) []); auto.
      * intros p. rewrite El. simpl. lia.
      * simpl. split; [exact El|]. split; auto. exists n, o. split; auto.
    + destruct N as (A & El & I). eapply (er_ok _ _ _ _ _ []).
      * rewrite app_nil_r, El. auto.
      * simpl. split; [right; split; auto | split; auto].
  - apply er_same. simpl. split; auto. apply still.
Qed.

Lemma get_at_fin k G c i : (forall pre o post, has_at (elems s) i pre o post -> forall s', keeps s s' -> returns k E c s s' (VObj o) [] []) ->
  (~ 0 <= rel (size s) i < size s -> raises k E G c s s IndexError []) -> fin k G c (get E i s).
Proof.
  intros H1 H2. unfold get. pose proof (zlen_nonneg (elems s)) as Hn. fold (size s) in Hn. pose proof (at_index_rel (size s) i Hn) as R.
  destruct (at_index (size s) i) as [n|].
  - destruct R as (R1 & R2). destruct (nth_error (elems s) (Z.to_nat n)) as [o|] eqn:Nt.
    + destruct (nth_error_has _ _ _ Nt) as (pre & post & Ee & Lp).
      destruct (inc_at E s0 W s (elems s) o at_start) as (s2 & E1 & A2 & El). { right. rewrite Ee. apply in_or_app; simpl; auto. }
      unfold give. rewrite E1. cbn [bind]. eapply (obj_ok _ _ _ _ _ (elems s) []); auto.
      * intros p. rewrite El. simpl. lia.
      * apply (H1 pre o post); auto. split; auto. fold (size s). rewrite <- R1. unfold zlen. rewrite Lp. lia.
    + exfalso. apply nth_error_None in Nt. unfold size, zlen in *. lia.
  - apply er_same. auto.
Qed.
Lemma get_fin k G i : fin k G (OGet i) (get E i s).
Proof.
  apply get_at_fin.
  - intros pre o post H s' K. simpl. repeat split; auto. exists pre, o, post. auto.
  - intros H. simpl. repeat split; auto.
Qed.

Lemma set_fin k G i o : lives E s0 o -> fin k G (OSet i o) (set E i (Some o) s).
Proof.
  intros L. unfold set. pose proof (zlen_nonneg (elems s)) as Hn. fold (size s) in Hn. pose proof (at_index_rel (size s) i Hn) as R.
  destruct (at_index (size s) i) as [n|].
  - destruct R as (R1 & R2). destruct (nth_error (elems s) (Z.to_nat n)) as [old|] eqn:Nt.
    + destruct (nth_error_has _ _ _ Nt) as (pre & post & Ee & Lp).
      destruct (inc_at E s0 W (with_elems (put (Z.to_nat n) o (elems s)) s) (elems s) o (at_elems E s0 s _ _ at_start) (or_introl L)) as (s2 & E1 & A2 & El).
      rewrite E1. cbn [bind]. simpl in El. rewrite Ee, (put_eq pre old o post) in El by auto.
      eapply (unit_ok _ _ _ _ _ [old] []); [exact A2| |].
      * intros p. rewrite El, Ee. simpl. rewrite !occ_app. simpl. lia.
      * simpl. split; auto. exists pre, old, post. repeat split; auto. fold (size s). rewrite <- R1. unfold zlen. rewrite Lp. lia.
    + exfalso. apply nth_error_None in Nt. unfold size, zlen in *. lia.
  - apply er_same. simpl. split; auto. split; [apply still | auto].
Qed.
Lemma del_fin k G i : fin k G (ODel i) (set E i None s).
Proof.
  unfold set. pose proof (zlen_nonneg (elems s)) as Hn. fold (size s) in Hn. pose proof (at_index_rel (size s) i Hn) as R.
  destruct (at_index (size s) i) as [n|].
  - destruct R as (R1 & R2). destruct (nth_error (elems s) (Z.to_nat n)) as [old|] eqn:Nt.
    + destruct (nth_error_has _ _ _ Nt) as (pre & post & Ee & Lp).
      assert (A : at0 s (old :: pre ++ post)) by (eapply at_perm; [apply at_start|]; intros p; rewrite Ee; occs).
      destruct (dec_at E s0 W _ _ _ A) as (s2 & E1 & A2 & El & _). rewrite E1. cbn [bind].
      eapply (unit_ok _ _ _ _ _ [] []); [apply at_elems; exact A2| |]; rewrite El, Ee, (cut_eq pre old post) by auto.
      * intros p. simpl. lia.
      * simpl. split; auto. exists pre, old, post. split; [split; [exact Ee|]|auto]. fold (size s). rewrite <- R1. unfold zlen. rewrite Lp. lia.
    + exfalso. apply nth_error_None in Nt. unfold size, zlen in *. lia.
  - apply er_same. simpl. split; auto. split; [apply still | auto].
Qed.
(** ** Construction *)
Lemma at_empty : at0 (with_elems [] s) (elems s).
Proof. apply at_elems, at_start. Qed.
Definition old (os : list Z) : Prop := Forall (fun o => o < nxt s0) os.
Lemma old_elems : old (elems s). Proof. exact F. Qed.
Lemma old_lives os : Forall (lives E s0) os -> old os.
Proof. intros H. eapply Forall_impl; [|exact H]. intros o. apply lives_old; auto. Qed.
Lemma old_notin l os : old os -> nxt s0 <= l -> ~ In l os.
Proof. intros H Hl Hi. unfold old in H. rewrite Forall_forall in H. apply H in Hi. lia. Qed.
Lemma old_app a b : old a -> old b -> old (a ++ b). Proof. intros. apply Forall_app. auto. Qed.

Definition iterating (a : iterable) (i : value) : Prop := i = VObj (it_obj a) \/ exists j, nxt s0 <= j /\ i = VIter j (it_obj a).
Lemma hold_iter a i os : lives E s0 (it_obj a) -> iterating a i -> old os -> holdable s0 i os.
Proof.
  intros L [->|(j & Hj & ->)] O; simpl; auto. split; auto. intros [H|H].
  - apply lives_old in L; auto. simpl in *. lia.
  - eapply old_notin; eauto.
Qed.
Lemma iterator_owned a i : iterating a i -> iterator_of s a (owned i).
Proof. intros [->|(j & Hj & ->)]; [left; reflexivity | right; exists j; split; [exact Hj | reflexivity]]. Qed.
Lemma get_iter_more a t os : at0 t os -> lives E s0 (it_obj a) ->
  match get_iter E a t with
  | Ok t' i => at0 t' (owned i ++ os) /\ elems t' = elems t /\ iterating a i
  | Er t' e => at0 t' os /\ elems t' = elems t /\ (it_iter a = Some e \/ e = MemoryError /\ no_object E)
  | _ => False
  end.
Proof.
  intros A L. unfold get_iter. destruct (it_iter a) as [e|]; [auto|]. destruct (it_own a).
  - destruct (give_at E s0 W t os _ A L) as (t' & E1 & A' & El). rewrite E1. simpl. repeat split; auto; try apply A'. left; auto.
  - unfold null. pose proof (new_at E s0 W t os A) as N. destruct (new_obj E t) as [t' [l|]]; cbn [fst snd].
    + destruct N as (N1 & N2 & N3 & N4 & N5 & N6). destruct (inc_at E s0 W t' _ (it_obj a) N1 (or_introl L)) as (t'' & E1 & A' & El). rewrite E1. cbn [bind].
      simpl. split; [apply at_swap; exact A'|]. split; [congruence|]. right. eauto.
    + destruct N as (N1 & N2 & N3). auto.
Qed.

Lemma init_items_at G a i fi most : lives E s0 (it_obj a) -> iterating a i -> forall items t, at0 t (owned i ++ elems t ++ elems s) -> old (elems t ++ items) ->
  size t + zlen items <= most ->
  match init_items E G i items fi t with
  | Ok t' v => v = VUnit /\ fi = None /\ elems t' = elems t ++ items /\ at0 t' (elems t' ++ elems s)
  | Er t' e => (fi = Some e /\ elems t' = elems t ++ items /\ at0 t' (elems t' ++ elems s)) \/
               (e = RuntimeError /\ refused G most /\ exists o rest, elems t ++ items = elems t' ++ o :: rest /\ at0 t' (elems t' ++ elems s ++ o :: owned i))
  | _ => False
  end.
Proof.
  intros L I. induction items as [|o items IH]; intros t A O M; cbn [init_items].
  - rewrite app_nil_r in *. destruct (drop_at E s0 W i t (elems t ++ elems s) A) as (t' & E1 & A' & El & _).
    { eapply hold_iter; eauto. apply old_app; [exact O | exact F]. }
    rewrite E1. cbn [bind]. destruct fi as [e|]; [left|]; rewrite El; auto.
  - assert (Ho : o < nxt s0) by (unfold old in O; rewrite Forall_app in O; destruct O as (_ & O); inversion O; auto).
    destruct (fetch_at E s0 t _ o A Ho) as (A1 & El1). rewrite zlen_cons in M. pose proof (zlen_nonneg items) as Hz.
    destruct (grows G (size (fetch E o t)) (size (fetch E o t) + 1)) eqn:Q.
    + specialize (IH (push o (fetch E o t))).
      assert (Ep : elems (push o (fetch E o t)) = elems t ++ [o]) by (unfold push; simpl; rewrite El1; reflexivity).
      assert (P1 : at0 (push o (fetch E o t)) (owned i ++ elems (push o (fetch E o t)) ++ elems s)).
      { rewrite Ep. apply at_elems. eapply at_perm; [exact A1|]. occs. }
      assert (P2 : size (push o (fetch E o t)) + zlen items <= most) by (unfold size in *; rewrite Ep, zlen_app, zlen_cons, zlen_nil; lia).
      rewrite Ep in IH, P1. specialize (IH P1). rewrite <- app_assoc in IH. exact (IH O P2).
    + right. split; auto. split.
      * eapply grows_false; [exact Q | apply size_nonneg|]. unfold size in *. rewrite El1. lia.
      * exists o, items. rewrite El1. split; auto. eapply at_perm; [exact A1|]. occs.
Qed.

Lemma prepared_refused k G h most : prepared k G h = false -> h <= most -> refused G most.
Proof. unfold prepared. destruct k; [|discriminate]. intros H M. apply orb_false_iff in H. eapply grows_false; [apply H | lia | exact M]. Qed.

Lemma init_same_fin k G h ys : fin k G (OInitSame h ys) (init k G h (init_same G ys) s).
Proof.
  unfold init, init_same. destruct (prepared k G h) eqn:P; [destruct (grows G 0 (zlen ys)) eqn:Q|].
  - eapply (unit_ok _ _ _ _ (elems s) (elems s) ys); [apply at_elems, at_start| |]; simpl; auto. intros; lia.
  - eapply (er_ok _ _ _ _ _ (elems s)); [apply at_empty|]. simpl. repeat split; auto. eapply grows_false; [exact Q | lia | simpl; lia].
  - eapply (er_ok _ _ _ _ _ (elems s)); [apply at_empty|]. simpl. repeat split; auto. eapply prepared_refused; [exact P | lia].
Qed.

Lemma l_init_items_at G q most : forall items t, at0 t (q :: elems t ++ elems s) -> Forall (lives E s0) items -> size t + zlen items <= most ->
  match l_init_items E G q items t with
  | Ok t' v => v = VUnit /\ elems t' = elems t ++ items /\ at0 t' (elems t' ++ elems s)
  | Er t' e => e = RuntimeError /\ refused G most /\ exists o rest, elems t ++ items = elems t' ++ o :: rest /\ at0 t' (elems t' ++ elems s ++ [q; o])
  | _ => False
  end.
Proof.
  induction items as [|o items IH]; intros t A Li M; cbn [l_init_items].
  - destruct (dec_at E s0 W t _ q A) as (t' & E1 & A' & El & _). rewrite E1. cbn [bind]. rewrite app_nil_r, El. auto.
  - inversion Li as [|? ? Lo Li']; subst. destruct (inc_at E s0 W t _ o A (or_introl Lo)) as (t1 & E1 & A1 & El1). rewrite E1. cbn [bind].
    rewrite zlen_cons in M. pose proof (zlen_nonneg items) as Hz.
    destruct (grows G (size t1) (size t1 + 1)) eqn:Q.
    + specialize (IH (push o t1)).
      assert (P1 : at0 (push o t1) (q :: elems (push o t1) ++ elems s)).
      { unfold push. simpl elems. apply at_elems. eapply at_perm; [exact A1|]. intros p. rewrite El1. occs. }
      assert (P2 : size (push o t1) + zlen items <= most) by (unfold size, push; simpl; rewrite El1, zlen_app, zlen_cons, zlen_nil; unfold size in M; lia).
      specialize (IH P1 Li' P2). replace (elems (push o t1)) with (elems t ++ [o]) in IH by (unfold push; simpl; rewrite El1; reflexivity).
      rewrite <- app_assoc in IH. exact IH.
    + split; auto. split.
      * eapply grows_false; [exact Q | apply size_nonneg|]. unfold size in *. rewrite El1. lia.
      * exists o, items. rewrite El1. split; auto. eapply at_perm; [exact A1|]. occs.
Qed.

Lemma init_seq_fin k G h q items : Forall (lives E s0) (q :: items) -> fin k G (OInitSeq h q items) (init k G h (init_seq k E G q items) s).
Proof.
  intros L. inversion L as [|? ? Lq Li]; subst. unfold init. destruct (prepared k G h) eqn:P.
  2: { eapply (er_ok _ _ _ _ _ (elems s)); [apply at_empty|]. simpl. split; auto. split; [eapply prepared_refused; [exact P | lia] | left; destruct k; [auto | discriminate]]. }
  destruct (inc_at E s0 W _ _ q at_empty (or_introl Lq)) as (t1 & E1 & A1 & El1).
  destruct k; cbn [init_seq].
  - unfold a_init_seq. rewrite E1. cbn [bind]. destruct (incs_at E s0 W items t1 _ A1) as (t2 & E2 & A2 & El2).
    { eapply Forall_impl; [|exact Li]. auto. }
    rewrite E2. cbn [bind]. destruct (grows G 0 (zlen items)) eqn:Q.
    + assert (A3 : at0 (with_elems items t2) (q :: items ++ elems s)) by (apply at_elems; eapply at_perm; [exact A2|]; occs).
      destruct (dec_at E s0 W _ _ q A3) as (t3 & E3 & A3' & El3 & _). rewrite E3. cbn [bind]. simpl in El3.
      eapply (unit_ok _ _ _ _ _ (elems s) []); [exact A3'| |].
      * intros p. rewrite El3, occ_app. simpl. lia.
      * simpl. auto.
    + eapply (er_ok _ _ _ _ _ (elems s ++ q :: items)).
      * eapply at_perm; [exact A2|]. intros p. rewrite El2, El1. occs.
      * simpl. split; auto. split; [eapply grows_false; [exact Q | lia | simpl; lia]|]. right; left. rewrite El2, El1. auto.
  - rewrite E1. cbn [bind]. simpl in El1.
    assert (A2 : at0 t1 (q :: elems t1 ++ elems s)) by (rewrite El1; exact A1).
    pose proof (l_init_items_at G q (Z.max h (zlen items)) items t1 A2 Li) as H. rewrite El1 in H.
    assert (M : size t1 + zlen items <= Z.max h (zlen items)) by (unfold size; rewrite El1; change (@zlen Z []) with 0; lia). specialize (H M). simpl app in H.
    destruct (l_init_items E G q items t1) as [t2 v|t2 e|u|]; try contradiction.
    + destruct H as (-> & El & A3). eapply (unit_ok _ _ _ _ _ (elems s) []); [exact A3| |].
      * intros p. rewrite occ_app. simpl. lia.
      * simpl. auto.
    + destruct H as (-> & R & o & rest & Ei & A3). eapply (er_ok _ _ _ _ _ _); [exact A3|]. simpl. split; auto. split; auto. right; right. eauto.
Qed.

Lemma init_iter_fin k G h a : lives E s0 (it_obj a) -> old (it_items a) -> fin k G (OInitIter h a) (init k G h (init_iter E G a) s).
Proof.
  intros L O. unfold init. destruct (prepared k G h) eqn:P.
  2: { eapply (er_ok _ _ _ _ _ (elems s)); [apply at_empty|]. simpl. left. split; [destruct k; [auto | discriminate]|]. split; auto. split; auto. eapply prepared_refused; [exact P | lia]. }
  unfold init_iter. pose proof (get_iter_more a (with_elems [] s) (elems s) at_empty L) as H.
  destruct (get_iter E a (with_elems [] s)) as [t1 i|t1 e|u|]; try contradiction; cbn [bind].
  - destruct H as (A & El & I). simpl in El.
    pose proof (init_items_at G a i (it_end a) (Z.max h (zlen (it_items a))) L I (it_items a) t1) as H. rewrite El in H. simpl app in H.
    assert (M : size t1 + zlen (it_items a) <= Z.max h (zlen (it_items a))) by (unfold size; rewrite El; change (@zlen Z []) with 0; lia).
    specialize (H A O M). destruct (init_items E G i (it_items a) (it_end a) t1) as [t2 v|t2 e|u|]; try contradiction.
    + destruct H as (-> & Fi & El2 & A2). eapply (unit_ok _ _ _ _ _ (elems s) []); [exact A2| |].
      * intros p. rewrite occ_app. simpl. lia.
      * simpl. auto.
    + destruct H as [(Fi & El2 & A2)|(-> & R & o & rest & Ei & A2)].
      * eapply (er_ok _ _ _ _ _ (elems s)); [exact A2|]. simpl. right; right; left. auto.
      * eapply (er_ok _ _ _ _ _ _); [exact A2|]. simpl. right; right; right. split; auto. split; auto. exists o, rest, (owned i). split; auto. split; auto. apply iterator_owned; auto.
  - destruct H as (A & El & R). eapply (er_ok _ _ _ _ _ (elems s)).
    + simpl in El. rewrite El. exact A.
    + simpl. right; left. split; auto. split; [destruct R as [R|R]; [left; congruence | right; apply R] | auto].
Qed.

(** ** Extending *)
Lemma extend_fast_fin k G c ys : c = OExtendFast ys \/ c = OIAddFast ys -> Forall (lives E s0) ys -> fin k G c (extend_fast E G ys s).
Proof.
  intros C L. unfold extend_fast. destruct (grows G (size s) (size s + zlen ys)) eqn:Q.
  - destruct (incs_at E s0 W ys (with_elems (elems s ++ ys) s) (elems s) (at_elems E s0 s _ _ at_start)) as (t & E1 & A & El).
    { eapply Forall_impl; [|exact L]. auto. }
    rewrite E1. cbn [bind]. simpl in El.
    eapply (give_fin _ _ _ t _ (ys ++ elems s) [] []); auto; [apply none_lives; auto| |].
    + intros p. rewrite El. occs.
    + intros t2 E2. destruct C as [->| ->]; simpl; rewrite E2, El; auto.
  - destruct C as [->| ->]; simpl; (split; auto; eapply grows_false; [exact Q | apply size_nonneg | simpl; lia]).
Qed.

Lemma extend_items_at G a i fi ret most : lives E s0 (it_obj a) -> iterating a i -> lives E s0 ret ->
  forall items pe t, at0 t (owned i ++ elems t) -> old (elems t ++ items) -> size t + zlen items <= most ->
  match extend_items E G i items fi pe ret t with
  | Ok t' v => pe = None /\ fi = None /\ v = VObj ret /\ elems t' = elems t ++ items /\ at0 t' (ret :: elems t')
  | Er t' e => (pe = None /\ fi = Some e /\ elems t' = elems t ++ items /\ at0 t' (elems t')) \/
               (pe = Some e /\ elems t' = elems t /\ at0 t' (elems t' ++ firstn 1 items))
  | Bad _ => False
  | Killed => refused G most
  end.
Proof.
  intros L I Lr. induction items as [|o items IH]; intros pe t A O M; cbn [extend_items].
  - rewrite app_nil_r in *. destruct (drop_at E s0 W i t (elems t) A) as (t' & E1 & A' & El & _).
    { eapply hold_iter; eauto. }
    destruct pe as [e|]; [|destruct fi as [e|]]; rewrite E1; cbn [bind].
    + right. simpl. rewrite app_nil_r, El. auto.
    + left. rewrite El. auto.
    + destruct (give_at E s0 W t' (elems t) ret A' Lr) as (t2 & E2 & A2 & El2). rewrite E2. rewrite El2, El. auto 10.
  - assert (Ho : o < nxt s0) by (unfold old in O; rewrite Forall_app in O; destruct O as (_ & O); inversion O; auto).
    destruct (fetch_at E s0 t _ o A Ho) as (A1 & El1). rewrite zlen_cons in M. pose proof (zlen_nonneg items) as Hz.
    destruct pe as [e|].
    + assert (A2 : at0 (fetch E o t) (owned i ++ elems t ++ [o])) by (eapply at_perm; [exact A1|]; occs).
      destruct (drop_at E s0 W i _ _ A2) as (t' & E1 & A' & El & _).
      { eapply hold_iter; eauto. unfold old in *. rewrite Forall_app in *. destruct O. split; auto. }
      rewrite E1. cbn [bind]. right. simpl. rewrite El, El1. auto.
    + destruct (grows G (size (fetch E o t)) (size (fetch E o t) + 1)) eqn:Q.
      * specialize (IH None (push o (fetch E o t))).
        assert (P1 : at0 (push o (fetch E o t)) (owned i ++ elems (push o (fetch E o t)))).
        { unfold push. simpl elems. apply at_elems. rewrite El1. eapply at_perm; [exact A1|]. occs. }
        assert (P2 : size (push o (fetch E o t)) + zlen items <= most) by (unfold size, push; simpl; rewrite El1, zlen_app, zlen_cons, zlen_nil; unfold size in M; lia).
        assert (P3 : old (elems (push o (fetch E o t)) ++ items)) by (unfold push; simpl; rewrite El1, <- app_assoc; exact O).
        specialize (IH P1 P3 P2). replace (elems (push o (fetch E o t))) with (elems t ++ [o]) in IH by (unfold push; simpl; rewrite El1; reflexivity).
        rewrite <- app_assoc in IH.
        destruct (extend_items E G i items fi None ret (push o (fetch E o t))) as [t2 v|t2 e|u|]; auto.
        destruct IH as [IH|(IH & _)]; [left; exact IH | discriminate].
      * eapply grows_false; [exact Q | apply size_nonneg|]. unfold size in *. rewrite El1. lia.
Qed.
Lemma extend_iter_fin k G c h a ret : c = OExtendIter h a /\ ret = none E \/ c = OIAddIter h a /\ ret = self E ->
  lives E s0 (it_obj a) -> old (it_items a) -> fin k G c (extend_iter k E G h a ret s).
Proof.
  intros C L O. assert (Lr : lives E s0 ret) by (destruct C as [(_ & ->)|(_ & ->)]; [apply none_lives | apply self_lives]; auto).
  assert (Cx : extends c = true) by (destruct C as [(-> & _)|(-> & _)]; reflexivity).
  assert (Cw : wanted c s = size s + Z.max (match h with inl h => h | inr _ => 0 end) (zlen (it_items a))) by (destruct C as [(-> & _)|(-> & _)]; reflexivity).
  assert (Cr : forall t, elems t = elems s ++ it_items a -> it_end a = None -> hinted k h -> returns k E c s t (VObj ret) [] [])
    by (intros t H1 H2 H3; destruct C as [(-> & ->)|(-> & ->)]; simpl; auto 10).
  assert (Ce : forall t e lost, undone s t lost /\ (it_iter a = Some e \/ e = MemoryError /\ no_object E) \/
      elems t = elems s ++ it_items a /\ lost = [] /\ it_end a = Some e /\ hinted k h \/
      k = Array /\ h = inr e /\ keeps s t /\ lost = firstn 1 (it_items a) -> raises k E G c s t e lost)
    by (intros t e lost H; destruct C as [(-> & ->)|(-> & ->)]; exact H).
  unfold extend_iter. pose proof (get_iter_more a s (elems s) at_start L) as H. pose proof (zlen_nonneg (it_items a)) as Hz.
  destruct (get_iter E a s) as [t i|t e|u|]; try contradiction; cbn [bind].
  2: { destruct H as (A & El & R). eapply (er_ok _ _ _ _ _ []); [rewrite app_nil_r, El; exact A|]. apply Ce. left. repeat split; auto. }
  destruct H as (A & El & I). rewrite <- El in A.
  assert (Go : forall pe, (pe = None -> hinted k h) -> (forall e, pe = Some e -> k = Array /\ h = inr e) -> fin k G c (extend_items E G i (it_items a) (it_end a) pe ret t)).
  { intros pe Hp1 Hp2. pose proof (extend_items_at G a i (it_end a) ret (wanted c s) L I Lr (it_items a) pe t A) as H.
    assert (O2 : old (elems t ++ it_items a)) by (rewrite El; apply old_app; auto; apply old_elems).
    assert (M : size t + zlen (it_items a) <= wanted c s) by (rewrite Cw; unfold size; rewrite El; lia). specialize (H O2 M). clear A.
    destruct (extend_items E G i (it_items a) (it_end a) pe ret t) as [t2 v|t2 e|u|]; try contradiction.
    - destruct H as (-> & Fi & -> & El2 & A2). eapply (obj_ok _ _ _ _ _ (elems t2) []); [exact A2 | simpl; intros; lia|]. apply Cr; auto. congruence.
    - destruct H as [(-> & Fi & El2 & A2)|(-> & El2 & A2)].
      + eapply (er_ok _ _ _ _ _ []); [rewrite app_nil_r; exact A2|]. apply Ce. right; left. split; [congruence | auto].
      + eapply (er_ok _ _ _ _ _ _); [exact A2|]. apply Ce. right; right. destruct (Hp2 e eq_refl). repeat split; auto. red. congruence.
    - simpl. auto. }
  destruct k; [destruct h as [h|e]|].
  - destruct ((h <=? 0) || grows G (size t) (size t + h)) eqn:Q.
    + apply Go; [intros _ _; eauto | discriminate].
    + simpl. split; auto. apply orb_false_iff in Q. eapply grows_false; [apply Q | apply size_nonneg|]. rewrite Cw. unfold size. rewrite El. lia.
  - apply Go; [discriminate | intros e2 H; inversion H; auto].
  - apply Go; [intros _ H; discriminate | discriminate].
Qed.

(** ** Clearing, reversing, resizing *)
Lemma clear_fin k G : fin k G OClear (clear E s).
Proof.
  unfold clear. destruct (decs_at E s0 W (elems s) s [] undone_at) as (t & E1 & A & El & _). rewrite E1. cbn [bind].
  eapply (give_fin _ _ _ _ _ [] [] []); [apply at_elems; exact A | apply none_lives; auto | simpl; intros; lia|]. intros t2 E2. simpl in *. auto.
Qed.
Lemma occ_rev (xs : list Z) p : occ (rev xs) p = occ xs p.
Proof. induction xs as [|x xs IH]; simpl; auto. rewrite occ_app. simpl. lia. Qed.
Lemma reverse_fin k G : fin k G OReverse (reverse E s).
Proof.
  unfold reverse. eapply (give_fin _ _ _ _ _ (elems s) [] []); [apply at_elems, at_start | apply none_lives; auto| |].
  - intros p. simpl. rewrite occ_rev. lia.
  - intros t E2. simpl in *. auto.
Qed.
Lemma resize_fin k G n : fin k G (OResize n) (resize E G n s).
Proof.
  unfold resize. destruct (Z.ltb_spec n 0) as [H|H].
  - apply er_same. simpl. split; [apply still | auto].
  - destruct (Z.leb_spec n (size s)) as [H1|H1]; [|destruct (grows G (size s) n) eqn:Q].
    + eapply (give_fin _ _ _ _ _ (elems s) (skipn (Z.to_nat n) (elems s)) []); [apply at_elems, at_start | apply none_lives; auto| |].
      * intros p. simpl. rewrite <- (firstn_skipn (Z.to_nat n) (elems s)) at 1. rewrite occ_app. lia.
      * intros t E2. simpl in *. replace (Z.to_nat (n - size s)) with 0%nat by lia. simpl. rewrite app_nil_r. auto 10.
    + assert (Hs : skipn (Z.to_nat n) (elems s) = []) by (apply skipn_all2; unfold size, zlen in H1; lia).
      assert (Hf : firstn (Z.to_nat n) (elems s) = elems s) by (apply firstn_all2; unfold size, zlen in H1; lia).
      eapply (give_fin _ _ _ _ _ (elems s) [] (repeat (none E) (Z.to_nat (n - size s)))); [apply at_elems, at_start | apply none_lives; auto| |].
      * occs.
      * intros t E2. simpl in *. rewrite Hs, Hf. auto 10.
    + apply er_same. simpl. split; [apply still | right; split; auto]. eapply grows_false; [exact Q | apply size_nonneg | simpl; lia].
Qed.

(** ** New lists *)
Lemma listed_at xs t os : at0 t os -> Forall (fun o => lives E s0 o \/ In o os) xs ->
  match listed E xs t with
  | Ok t' v => exists l, v = VList l xs /\ at0 t' (l :: xs ++ os) /\ elems t' = elems t /\ nxt s0 <= l /\ ~ In l (xs ++ os)
  | Er t' e => e = MemoryError /\ no_object E /\ at0 t' os /\ elems t' = elems t
  | _ => False
  end.
Proof.
  intros A Fx. unfold listed, null. pose proof (new_at E s0 W t os A) as N. destruct (new_obj E t) as [t1 [l|]]; cbn [fst snd].
  - destruct N as (N1 & N2 & N3 & N4 & N5 & N6). destruct (incs_at E s0 W xs t1 _ N1) as (t2 & E2 & A2 & El2).
    { eapply Forall_impl; [|exact Fx]. simpl. tauto. }
    rewrite E2. cbn [bind]. exists l. split; auto. split; [eapply at_perm; [exact A2|]; occs|]. split; [congruence|]. split; auto.
    intros H. apply in_app_or in H. destruct H as [H|H]; auto. rewrite Forall_forall in Fx. pose proof (at_lt E s0 W t os l A (Fx l H)). lia.
  - destruct N as (N1 & N2 & N3). auto.
Qed.
Lemma listed_fin k G c xs : incl xs (elems s) -> (forall t l, keeps s t -> returns k E c s t (VList l xs) [] []) ->
  (forall t, keeps s t -> no_object E -> raises k E G c s t MemoryError []) -> fin k G c (listed E xs s).
Proof.
  intros I H1 H2. assert (Fx : Forall (fun o => lives E s0 o \/ In o (elems s)) xs) by (apply Forall_forall; auto).
  pose proof (listed_at xs s (elems s) at_start Fx) as H. destruct (listed E xs s) as [t v|t e|u|]; try contradiction.
  - destruct H as (l & -> & A & El & Hl & Nl). exists [], [], (elems s). split; [exact A|]. split; [intros p; rewrite El; simpl; lia|].
    split; [split; auto|]. apply H1. exact El.
  - destruct H as (-> & N & A & El). eapply (er_ok _ _ _ _ _ []); [rewrite app_nil_r, El; exact A|]. apply H2; auto.
Qed.
Lemma to_list_fin k G : fin k G OToList (listed E (elems s) s).
Proof.
  apply listed_fin; [apply incl_refl | |]; intros; simpl; [repeat split; eauto | repeat split; auto].
Qed.
Lemma getslice_incl sl : incl (py_getslice (elems s) sl) (elems s).
Proof.
  intros y Hy. unfold py_getslice in Hy. apply in_map_iff in Hy. destruct Hy as (x & <- & Hx). unfold get_default. apply nth_In.
  assert (Hp : In x (positions (length (elems s)))).
  { unfold slice_positions in Hx. destruct (0 <? step_of sl); apply filter_In in Hx; destruct Hx as (Hx & _); auto. apply in_rev; auto. }
  unfold positions in Hp. apply in_map_iff in Hp. destruct Hp as (m & <- & Hm). apply in_seq in Hm. lia.
Qed.
Lemma unpack_raise sl : (exists r, PySlice_Unpack sl = Ret r) \/ step_of sl = 0.
Proof. destruct (unpack_cases sl) as [(H & _)|(_ & a & b & c & H)]; eauto. Qed.
Lemma get_slice_fin k G sl : fin k G (OGetSlice sl) (get_slice E sl s).
Proof.
  unfold get_slice. destruct (unpack_raise sl) as [(r & ->)|Hz].
  - apply listed_fin; [apply getslice_incl | |]; intros; simpl; [repeat split; eauto | repeat split; auto].
  - destruct (PySlice_Unpack sl).
    2-4: apply er_same; simpl; split; [right; auto | apply still].
    apply listed_fin; [apply getslice_incl | |]; intros; simpl; [repeat split; eauto | repeat split; auto].
Qed.
Lemma copy_fin k G : fin k G OCopy (copy E G s).
Proof.
  unfold copy, null. pose proof (new_at E s0 W s (elems s) at_start) as N. destruct (new_obj E s) as [t [l|]]; cbn [fst snd].
  - destruct N as (N1 & N2 & N3 & N4 & N5 & N6). unfold size at 1. rewrite N2. destruct (grows G 0 (zlen (elems s))) eqn:Q.
    + destruct (incs_at E s0 W (elems s) t _ N1) as (t2 & E2 & A2 & El2). { apply Forall_forall. simpl. auto. }
      rewrite E2. cbn [bind]. rewrite El2, N2. exists [], [], (elems s). simpl. split; [eapply at_perm; [exact A2|]; occs|].
      split; [intros p; rewrite El2, N2; lia|]. split; [split; auto; intros H; apply in_app_or in H; tauto|]. repeat split; eauto. red; congruence.
    + destruct (dec_at E s0 W t _ l N1) as (t2 & E2 & A2 & El2 & _). rewrite E2. cbn [bind].
      eapply (er_ok _ _ _ _ _ []); [rewrite app_nil_r, El2, N2; exact A2|]. simpl. split; [right; split; auto | split; [red; congruence | auto]].
      eapply grows_false; [exact Q | lia | unfold wanted, size; lia].
  - destruct N as (N1 & N2 & N3). eapply (er_ok _ _ _ _ _ []); [rewrite app_nil_r, N2; exact N1|]. simpl. split; [left; auto | split; auto].
Qed.

Lemma mul_items_at G l c most : nxt s0 <= l -> forall xs done t, incl xs (elems s) -> incl done (elems s) -> elems t = elems s -> at0 t (l :: done ++ elems s) ->
  zlen done + zlen xs <= most ->
  match mul_items E G l c xs done t with
  | Ok t' d => d = done ++ xs /\ elems t' = elems s /\ at0 t' (l :: d ++ elems s)
  | Er t' e => e = RuntimeError /\ refused G most /\ elems t' = elems s /\ at0 t' (elems s)
  | _ => False
  end.
Proof.
  intros Hl. induction xs as [|o xs IH]; intros done t Ix Id El A M; cbn [mul_items].
  - rewrite app_nil_r. auto.
  - rewrite zlen_cons in M. pose proof (zlen_nonneg xs) as Hz. destruct ((zlen done <? c) || grows G (zlen done) (zlen done + 1)) eqn:Q.
    + destruct (inc_at E s0 W t _ o A) as (t1 & E1 & A1 & El1). { right. right. apply in_or_app. right. apply Ix. left; auto. }
      rewrite E1. cbn [bind]. specialize (IH (done ++ [o]) t1). replace ((done ++ [o]) ++ xs) with (done ++ o :: xs) in IH by (rewrite <- app_assoc; reflexivity). apply IH.
      * intros y Hy. apply Ix. right; auto.
      * intros y Hy. apply in_app_or in Hy. destruct Hy as [Hy|[<-|[]]]; [apply Id; auto | apply Ix; left; auto].
      * congruence.
      * eapply at_perm; [exact A1|]. occs.
      * rewrite zlen_app, zlen_cons, zlen_nil. lia.
    + destruct (drop_at E s0 W (VList l done) t (elems s) A) as (t1 & E1 & A1 & El1 & _).
      { split; auto. intros H. apply in_app_or in H. assert (Hi : In l (elems s)) by (destruct H; auto). revert Hi. apply old_notin; auto. }
      rewrite E1. cbn [bind]. split; auto. apply orb_false_iff in Q. split; [eapply grows_false; [apply Q | apply zlen_nonneg | lia]|]. split; [congruence | auto].
Qed.
Lemma repeated_succ n (xs : list Z) : concat (repeat xs (S n)) = xs ++ concat (repeat xs n). Proof. reflexivity. Qed.
Lemma concat_repeat_len n (xs : list Z) : zlen (concat (repeat xs n)) = Z.of_nat n * zlen xs.
Proof. induction n as [|n IH]; [simpl; reflexivity|]. rewrite repeated_succ, zlen_app, IH. lia. Qed.
Lemma mul_times_at G l c most : nxt s0 <= l -> forall n done t, incl done (elems s) -> elems t = elems s -> at0 t (l :: done ++ elems s) ->
  zlen done + Z.of_nat n * zlen (elems s) <= most ->
  match mul_times E G l c n done t with
  | Ok t' v => v = VList l (done ++ concat (repeat (elems s) n)) /\ elems t' = elems s /\ at0 t' (owned v ++ elems s)
  | Er t' e => e = RuntimeError /\ refused G most /\ elems t' = elems s /\ at0 t' (elems s)
  | _ => False
  end.
Proof.
  intros Hl. induction n as [|n IH]; intros done t Id El A M; cbn [mul_times].
  - simpl. rewrite app_nil_r. auto.
  - pose proof (mul_items_at G l c most Hl (elems t) done t) as H. rewrite El in *. pose proof (zlen_nonneg (elems s)) as Hz.
    assert (M1 : zlen done + zlen (elems s) <= most) by nia. specialize (H (incl_refl _) Id eq_refl A M1).
    destruct (mul_items E G l c (elems s) done t) as [t1 d|t1 e|u|]; auto; cbn [bind]. destruct H as (-> & El1 & A1).
    specialize (IH (done ++ elems s) t1). rewrite repeated_succ.
    replace ((done ++ elems s) ++ concat (repeat (elems s) n)) with (done ++ elems s ++ concat (repeat (elems s) n)) in IH by apply app_assoc. apply IH; auto.
    + intros y Hy. apply in_app_or in Hy. destruct Hy; auto.
    + rewrite zlen_app. lia.
Qed.
Lemma mul_fin k G n : fin k G (OMul n) (mul k E G n s).
Proof.
  unfold mul, null. pose proof (new_at E s0 W s (elems s) at_start) as N. destruct (new_obj E s) as [t [l|]]; cbn [fst snd].
  2: { destruct N as (N1 & N2 & N3). eapply (er_ok _ _ _ _ _ []); [rewrite app_nil_r, N2; exact N1|]. simpl. split; [left; auto | split; auto]. }
  destruct N as (N1 & N2 & N3 & N4 & N5 & N6). destruct (Z.leb_spec n 0) as [H|H].
  - exists [], [], (elems s). simpl. split; [exact N1|]. split; [intros p; rewrite N2; lia|]. split; [auto|]. split; [red; auto|].
    unfold repeated. replace (Z.to_nat n) with 0%nat by lia. simpl. eauto.
  - assert (Go : forall c, fin k G (OMul n) (mul_times E G l c (Z.to_nat n) [] t)).
    { intros c. pose proof (mul_times_at G l c (wanted (OMul n) s) N6 (Z.to_nat n) [] t) as Hm.
      assert (Hd : incl [] (elems s)) by (intros y []). simpl wanted in Hm. unfold size in Hm.
      assert (M : @zlen Z [] + Z.of_nat (Z.to_nat n) * zlen (elems s) <= zlen (elems s) * n) by (rewrite zlen_nil; lia).
      specialize (Hm Hd N2 N1 M). destruct (mul_times E G l c (Z.to_nat n) [] t) as [t1 v|t1 e|u|]; try contradiction.
      - destruct Hm as (-> & El & A). simpl app in A. exists [], [], (elems s). split; [exact A|]. split; [intros p; rewrite El; simpl; lia|].
        split; [|simpl; repeat split; eauto].
        split; auto. intros Hi. apply in_app_or in Hi. assert (In l (elems s)); [|contradiction]. destruct Hi as [Hi|Hi]; auto.
        simpl app in Hi. clear -Hi. induction (Z.to_nat n) as [|m IHm]; [destruct Hi|]. simpl in Hi. apply in_app_or in Hi. destruct Hi; auto.
      - destruct Hm as (-> & R & El & A). eapply (er_ok _ _ _ _ _ []); [rewrite app_nil_r, El; exact A|]. simpl. split; [right; split; auto | split; auto]. }
    destruct k; auto. cbv zeta. destruct (grows G 0 (size t * n mod 2 ^ 64)) eqn:Q; auto.
    destruct (drop_at E s0 W (VList l []) t (elems s) N1) as (t1 & E1 & A1 & El1 & _); [split; auto|]. rewrite E1. cbn [bind].
    eapply (er_ok _ _ _ _ _ []); [rewrite app_nil_r, El1, N2; exact A1|]. simpl. split; [right; split; auto | split; [red; congruence | auto]].
    pose proof (size_nonneg s). eapply grows_false; [exact Q | lia|]. simpl. unfold size at 1. rewrite N2. apply Z.mod_le; [unfold size in *; nia | lia].
Qed.

(** ** Multiplying in place *)
Lemma l_imul_items_at G most : forall xs t, incl xs (elems s) -> incl (elems s) (elems t) -> at0 t (elems t) -> size t + zlen xs <= most ->
  match l_imul_items E G xs t with
  | Ok t' _ => elems t' = elems t ++ xs /\ at0 t' (elems t')
  | Er t' e => e = RuntimeError /\ refused G most /\ (exists m, elems t' = elems t ++ firstn m xs) /\ at0 t' (elems t')
  | _ => False
  end.
Proof.
  induction xs as [|o xs IH]; intros t Ix It A M; cbn [l_imul_items].
  - rewrite app_nil_r. auto.
  - rewrite zlen_cons in M. pose proof (zlen_nonneg xs) as Hz. destruct (grows G (size t) (size t + 1)) eqn:Q.
    + destruct (inc_at E s0 W (push o t) _ o (at_elems E s0 t _ _ A)) as (t1 & E1 & A1 & El1). { right. apply It, Ix. left; auto. }
      rewrite E1. cbn [bind]. unfold push in El1. simpl in El1. specialize (IH t1). rewrite El1 in IH.
      assert (I1 : incl xs (elems s)) by (intros y Hy; apply Ix; right; auto).
      assert (I2 : incl (elems s) (elems t ++ [o])) by (intros y Hy; apply in_or_app; left; auto).
      assert (A2 : at0 t1 (elems t ++ [o])) by (eapply at_perm; [exact A1|]; occs).
      assert (M1 : size t1 + zlen xs <= most) by (unfold size in *; rewrite El1, zlen_app, zlen_cons, zlen_nil; lia).
      specialize (IH I1 I2 A2 M1). rewrite <- app_assoc in IH. destruct (l_imul_items E G xs t1) as [t2 v|t2 e|u|]; auto.
      destruct IH as (IH1 & IH2 & (m & IH3) & IH4). split; auto. split; auto. split; auto. exists (S m). rewrite IH3, <- app_assoc. reflexivity.
    + split; auto. split; [eapply grows_false; [exact Q | apply size_nonneg | lia]|]. split; [exists 0%nat; rewrite app_nil_r; auto | auto].
Qed.
Lemma repeat_snoc n (xs : list Z) : concat (repeat xs (S n)) = concat (repeat xs n) ++ xs.
Proof. induction n as [|n IH]; [simpl; rewrite app_nil_r; reflexivity|]. rewrite repeated_succ, IH at 1. rewrite repeated_succ, app_assoc. reflexivity. Qed.
Lemma l_imul_times_at G most : forall n r t, elems t = concat (repeat (elems s) (S r)) -> at0 t (elems t) -> (Z.of_nat (S r) + Z.of_nat n) * zlen (elems s) <= most ->
  match l_imul_times E G (length (elems s)) n t with
  | Ok t' v => v = VObj (self E) /\ elems t' = concat (repeat (elems s) (S r + n)) /\ at0 t' (self E :: elems t')
  | Er t' e => e = RuntimeError /\ refused G most /\ (exists m r, elems t' = firstn m (concat (repeat (elems s) r)) /\ (length (elems s) <= m)%nat) /\ at0 t' (elems t')
  | _ => False
  end.
Proof.
  induction n as [|n IH]; intros r t El A M; cbn [l_imul_times].
  - destruct (give_at E s0 W t _ (self E) A (self_lives E s0 W)) as (t1 & E1 & A1 & El1). rewrite E1. rewrite El1, Nat.add_0_r. auto.
  - rewrite El. rewrite repeated_succ, firstn_app, Nat.sub_diag, firstn_all. simpl firstn. rewrite app_nil_r.
    pose proof (l_imul_items_at G most (elems s) t (incl_refl _)) as H. pose proof (zlen_nonneg (elems s)) as Hz.
    assert (I : incl (elems s) (elems t)) by (rewrite El, repeated_succ; intros y Hy; apply in_or_app; auto).
    assert (M1 : size t + zlen (elems s) <= most) by (unfold size; rewrite El, concat_repeat_len; nia).
    specialize (H I A M1). destruct (l_imul_items E G (elems s) t) as [t1 v|t1 e|u|]; auto; cbn [bind].
    + destruct H as (H1 & H2). specialize (IH (S r) t1). rewrite H1, El, <- repeat_snoc in IH. rewrite H1, El, <- repeat_snoc in H2.
      replace (S r + S n)%nat with (S (S r) + n)%nat by lia. apply IH; auto. lia.
    + destruct H as (-> & R & (m & H1) & H2). split; auto. split; auto. split; auto.
      exists (length (elems t) + m)%nat, (S (S r)). rewrite repeat_snoc, <- El. rewrite firstn_app_2. split; auto.
      rewrite El, repeated_succ, app_length. lia.
Qed.

Lemma a_imul_loop_at G c : 0 < size s -> forall fuel j r t,
  elems t = firstn (length (elems t)) (concat (repeat (elems s) r)) -> (length (elems t) <= length (concat (repeat (elems s) r)))%nat ->
  length (elems t) = (j + length (elems s))%nat -> at0 t (elems t) ->
  ((0 < fuel)%nat \/ size t <= Z.max c (limit G)) -> Z.max c (limit G) < size t + Z.of_nat fuel ->
  exists t', a_imul_loop E G c fuel j t = Er t' RuntimeError /\ (exists m r, elems t' = firstn m (concat (repeat (elems s) r)) /\ (length (elems s) <= m)%nat) /\
    at0 t' (elems t') /\ grows G (size t') (size t' + 1) = false.
Proof.
  intros Hs. induction fuel as [|fuel IH]; intros j r t El Le Lj A M1 M2; cbn [a_imul_loop]; [lia|].
  assert (Hj : (j < length (elems t))%nat) by (unfold size, zlen in Hs; lia).
  destruct (nth_error (elems t) j) as [o|] eqn:Nt; [|apply nth_error_None in Nt; lia].
  destruct ((size t <? c) || grows G (size t) (size t + 1)) eqn:Q.
  - destruct (inc_at E s0 W (push o t) _ o (at_elems E s0 t _ _ A)) as (t1 & E1 & A1 & El1). { right. eapply nth_error_In; eauto. }
    rewrite E1. cbn [bind]. unfold push in El1. simpl in El1.
    assert (L1 : length (elems t1) = S (length (elems t))) by (rewrite El1, app_length; simpl; lia).
    assert (Nr : nth_error (concat (repeat (elems s) (S r))) (length (elems t)) = Some o).
    { rewrite repeated_succ, nth_error_app2 by lia. replace (length (elems t) - length (elems s))%nat with j by lia.
      rewrite El in Nt. rewrite <- Nt. symmetry. clear -Hj. revert j Hj. generalize (length (elems t)) as n. generalize (concat (repeat (elems s) r)).
      intros l n. revert l. induction n as [|n IHn]; intros l j Hj; [lia|]. destruct l; [destruct j; reflexivity|]. destruct j; simpl; auto. apply IHn. lia. }
    specialize (IH (S j) (S r) t1). apply IH.
    + rewrite L1. rewrite El1. rewrite El at 1.
      assert (Hf : firstn (length (elems t)) (concat (repeat (elems s) r)) = firstn (length (elems t)) (concat (repeat (elems s) (S r)))).
      { rewrite repeat_snoc, firstn_app. replace (length (elems t) - _)%nat with 0%nat by lia. simpl. rewrite app_nil_r. reflexivity. }
      rewrite Hf. clear -Nr. revert Nr. generalize (length (elems t)) as n. generalize (concat (repeat (elems s) (S r))).
      intros l n. revert l. induction n as [|n IHn]; intros l Nr; destruct l; simpl in *; try discriminate; [congruence|]. f_equal. apply IHn; auto.
    + rewrite L1. apply nth_error_Some. congruence.
    + lia.
    + rewrite El1. eapply at_perm; [exact A1|]. occs.
    + right. unfold size, zlen. rewrite L1. apply orb_true_iff in Q. destruct Q as [Q|Q].
      * apply Z.ltb_lt in Q. unfold size, zlen in Q. lia.
      * unfold grows in Q. apply orb_true_iff in Q. destruct Q as [Q|Q]; [apply Z.leb_le in Q; lia|]. apply andb_true_iff in Q. destruct Q as (Q & _).
        apply Z.leb_le in Q. unfold size, zlen in Q. lia.
    + unfold size, zlen in *. rewrite L1. lia.
  - exists t. split; auto. apply orb_false_iff in Q. split; [|split; [auto | apply Q]]. exists (length (elems t)), r. split; auto. lia.
Qed.
Lemma imul_fin k G n : fin k G (OIMul n) (imul k E G n s).
Proof.
  unfold imul. pose proof (size_nonneg s) as Hz. destruct (Z.leb_spec n 0) as [H|H].
  - eapply (give_fin _ _ _ _ _ (elems s) (elems s) []); [apply at_elems, at_start | apply self_lives; auto | simpl; intros; lia|].
    intros t E1. simpl in *. unfold repeated. replace (Z.to_nat n) with 0%nat by lia. destruct (Z.leb_spec n 0); [|lia]. simpl. repeat split; auto. lia.
  - destruct k.
    + cbv zeta. destruct (grows G (size s) (size s * n mod 2 ^ 64)) eqn:Q.
      * destruct (Z.eqb_spec n 1) as [N1|N1]; [|destruct (Z.eqb_spec (size s) 0) as [S0|S0]]; cbn [orb].
        -- eapply (give_fin _ _ _ _ _ (elems s) [] []); [apply at_start | apply self_lives; auto | simpl; intros; lia|].
           intros t E1. subst n. simpl. change (Z.to_nat 1) with 1%nat. unfold repeated. simpl. rewrite app_nil_r. repeat split; auto. lia.
        -- assert (En : elems s = []) by (destruct (elems s) eqn:Ee; auto; unfold size in S0; rewrite Ee, zlen_cons in S0; pose proof (zlen_nonneg l); lia).
           eapply (give_fin _ _ _ _ _ (elems s) [] []); [apply at_start | apply self_lives; auto | simpl; intros; lia|].
           intros t E1. simpl. rewrite E1, En. destruct (Z.leb_spec n 0); [lia|]. repeat split; auto. unfold repeated. clear. induction (Z.to_nat n); simpl; auto.
        -- destruct (a_imul_loop_at G (size s * n mod 2 ^ 64) ltac:(lia) (S (Z.to_nat (Z.max (size s * n mod 2 ^ 64) (limit G)))) 0 1 s) as (t & E1 & (m & r & P1 & P2) & A & Gr).
           ++ simpl. rewrite app_nil_r, firstn_all. reflexivity.
           ++ simpl. rewrite app_nil_r. lia.
           ++ reflexivity.
           ++ apply at_start.
           ++ left. lia.
           ++ lia.
           ++ rewrite E1. eapply (er_ok _ _ _ _ _ []); [rewrite app_nil_r; exact A|]. simpl. split; auto. split; auto. split; [right; repeat split; auto; lia|].
              exists m, (Z.of_nat r). unfold repeated. rewrite Nat2Z.id. auto.
      * apply er_same. simpl. split; auto. split; auto. split.
        -- left. eapply grows_false; [exact Q | auto|]. simpl. apply Z.mod_le; nia.
        -- exists (length (elems s)), 1. unfold repeated. change (Z.to_nat 1) with 1%nat. simpl. rewrite app_nil_r, firstn_all. auto.
    + pose proof (l_imul_times_at G (wanted (OIMul n) s) (Z.to_nat (n - 1)) 0 s) as Hl.
      assert (P1 : elems s = concat (repeat (elems s) 1)) by (simpl; rewrite app_nil_r; reflexivity).
      assert (P2 : (Z.of_nat 1 + Z.of_nat (Z.to_nat (n - 1))) * zlen (elems s) <= wanted (OIMul n) s) by (simpl wanted; unfold size; replace (Z.of_nat 1 + Z.of_nat (Z.to_nat (n - 1))) with n by lia; lia).
      specialize (Hl P1 at_start P2). destruct (l_imul_times E G (length (elems s)) (Z.to_nat (n - 1)) s) as [t v|t e|u|]; try contradiction.
      * destruct Hl as (-> & El & A). eapply (obj_ok _ _ _ _ _ (elems t) []); [exact A | simpl; intros; lia|].
        simpl. destruct (Z.leb_spec n 0); [lia|]. unfold repeated. replace (Z.to_nat n) with (1 + Z.to_nat (n - 1))%nat by lia. repeat split; auto. discriminate.
      * destruct Hl as (-> & R & (m & r & P3 & P4) & A). eapply (er_ok _ _ _ _ _ []); [rewrite app_nil_r; exact A|]. simpl. split; auto. split; auto. split; auto.
        exists m, (Z.of_nat r). unfold repeated. rewrite Nat2Z.id. auto.
Qed.

(** ** Adding *)
Lemma add_fin k G other : callable E s (OAdd other) -> fin k G (OAdd other) (add E other s).
Proof.
  intros (C & _). unfold add. assert (Fx : Forall (fun o => lives E s0 o \/ In o (elems s)) (elems s)) by (apply Forall_forall; auto).
  pose proof (listed_at (elems s) s (elems s) at_start Fx) as H. destruct (listed E (elems s) s) as [t v|t e|u|]; try contradiction; cbn [bind].
  2: { destruct H as (-> & N & A & El). eapply (er_ok _ _ _ _ _ []); [rewrite app_nil_r, El; exact A|]. simpl. split; [left; auto | split; auto]. }
  destruct H as (l & -> & A & El & Hl & Nl). destruct other as [ys|].
  - simpl in C. pose proof (new_at E s0 W t _ A) as N. destruct (new_obj E t) as [t1 [l2|]].
    + destruct N as (N1 & N2 & N3 & N4 & N5 & N6). destruct (incs_at E s0 W (elems s ++ ys) t1 _ N1) as (t2 & E2 & A2 & El2).
      { apply Forall_app. split; [apply Forall_forall; intros o Ho; right; right; right; apply in_or_app; auto | eapply Forall_impl; [|exact C]; auto]. }
      rewrite E2. cbn [bind].
      assert (A3 : at0 t2 (owned (VList l (elems s)) ++ l2 :: (elems s ++ ys) ++ elems s)) by (eapply at_perm; [exact A2|]; occs).
      destruct (drop_at E s0 W (VList l (elems s)) t2 _ A3) as (t3 & E3 & A4 & El3 & _).
      { split; auto. intros Hi. apply in_app_or in Hi. pose proof (old_notin l _ old_elems Hl) as Q1. pose proof (old_notin l _ (old_lives _ C) Hl) as Q2.
        destruct Hi as [Hi|[Hi|Hi]]; auto. { subst l2. apply N4. left; auto. } apply in_app_or in Hi. destruct Hi as [Hi|Hi]; auto. apply in_app_or in Hi. destruct Hi; auto. }
      rewrite E3. cbn [bind]. exists [], [], (elems s). simpl. split; [exact A4|]. split; [intros p; rewrite El3, El2, N2, El; lia|].
      split; [|repeat split; eauto; red; congruence].
      split; auto. intros Hi. apply in_app_or in Hi. pose proof (old_notin l2 _ old_elems N6) as Q1. pose proof (old_notin l2 _ (old_lives _ C) N6) as Q2.
      destruct Hi as [Hi|Hi]; auto. apply in_app_or in Hi. destruct Hi; auto.
    + destruct N as (N1 & N2 & N3). destruct (drop_at E s0 W (VList l (elems s)) t1 (elems s) N1) as (t3 & E3 & A4 & El3 & _); [split; auto|].
      rewrite E3. cbn [bind]. eapply (er_ok _ _ _ _ _ []); [rewrite app_nil_r, El3, N2, El; exact A4|]. simpl. split; [left; auto | split; [red; congruence | auto]].
  - destruct (drop_at E s0 W (VList l (elems s)) t (elems s) A) as (t3 & E3 & A4 & El3 & _); [split; auto|].
    rewrite E3. cbn [bind]. eapply (er_ok _ _ _ _ _ []); [rewrite app_nil_r, El3, El; exact A4|]. simpl. split; [right; auto | split; [red; congruence | auto]].
Qed.
Lemma add_same_fin k G : fin k G OAddSame (add_same E s).
Proof. apply er_same. simpl. split; auto. apply still. Qed.

(** ** Comparing *)
Lemma bool_fin k G c (b : bool) t : at0 t (elems s) -> elems t = elems s -> (forall t, keeps s t -> returns k E c s t (VObj (if b then tru E else fls E)) [] []) ->
  fin k G c (give_bool E b t).
Proof.
  intros A El R. unfold give_bool. eapply (give_fin _ _ _ _ _ (elems s) [] []); [exact A | apply bool_lives; auto | intros p; rewrite El; simpl; lia|].
  intros t2 E2. apply R. red; congruence.
Qed.
Definition passed (stop : bool -> option bool) (i : option (Z * (bool + exn))) : Prop := exists o b, i = Some (o, inl b) /\ stop b = None.
Lemma compare_fin k G c stop last all (P : bool -> Prop) : (forall b t, P b -> keeps s t -> returns k E c s t (VObj (if b then tru E else fls E)) [] []) ->
  (forall t e, keeps s t -> (e = IndexError /\ In None all \/ exists o, In (Some (o, inr e)) all) -> raises k E G c s t e []) ->
  (forall done o b b' rest, all = done ++ Some (o, inl b) :: rest -> Forall (passed stop) done -> stop b = Some b' -> P b') -> (Forall (passed stop) all -> P last) ->
  forall items done xs t, all = done ++ items -> Forall (passed stop) done -> length xs = length items -> incl xs (elems s) -> at0 t (elems s) -> elems t = elems s -> old (map fst (somes items)) ->
  fin k G c (compare E stop last xs items t).
Proof.
  intros R1 R2 H1 H2. induction items as [|[[o r]|] items IH]; intros done xs t Ia D L Ix A El O; destruct xs as [|x xs]; try discriminate; cbn [compare].
  - rewrite app_nil_r in Ia. subst all. eapply bool_fin; eauto.
  - simpl in O. inversion O as [|? ? Ho O']; subst.
    rewrite (at_alive E s0 W t _ x A) by (right; apply Ix; left; auto).
    destruct (fetch_at E s0 t _ o A Ho) as (A1 & El1). destruct (dec_at E s0 W _ _ o A1) as (t1 & E1 & A2 & El2 & _). rewrite E1. cbn [bind].
    assert (El3 : elems t1 = elems s) by congruence. destruct r as [b|e].
    + destruct (stop b) eqn:Sb; [eapply bool_fin; eauto|]. apply (IH (done ++ [Some (o, inl b)])); auto.
      * rewrite <- app_assoc. reflexivity.
      * apply Forall_app. split; auto. constructor; auto. exists o, b. auto.
      * intros y Hy. apply Ix. right; auto.
    + eapply (er_ok _ _ _ _ _ []); [rewrite app_nil_r, El3; exact A2|]. apply R2; auto. right. exists o. apply in_or_app. right. left; auto.
  - eapply (er_ok _ _ _ _ _ []); [rewrite app_nil_r, El; exact A|]. apply R2; auto. left. split; auto. subst all. apply in_or_app. right. left; auto.
Qed.
Lemma answer_stop q shorter items done o b b' rest : items = done ++ Some (o, inl b) :: rest -> Forall (passed (stop_of q)) done -> stop_of q b = Some b' ->
  answer q true shorter (zlen items) items b'.
Proof.
  intros -> D H. destruct q; cbn [stop_of answer] in *.
  - destruct b; [discriminate|]. inversion H; subst. split; [discriminate|]. intros (_ & _ & Fa). apply Forall_app in Fa. destruct Fa as (_ & Fa).
    inversion Fa as [|? ? (o' & X)]; subst. discriminate.
  - destruct b; [|discriminate]. inversion H; subst. split; [discriminate|]. intros (_ & _ & Fa). apply Forall_app in Fa. destruct Fa as (_ & Fa).
    inversion Fa as [|? ? (o' & X)]; subst. discriminate.
  - inversion H; subst. split; [discriminate|]. split; [congruence|]. intros _ _. destruct done as [|i done]; simpl; [exists o; auto|].
    inversion D as [|? ? (o' & b & _ & X)]; subst. discriminate.
Qed.
Lemma answer_last q shorter items : Forall (passed (stop_of q)) items -> answer q true shorter (zlen items) items (match q with REq => true | _ => false end).
Proof.
  intros D. destruct q; cbn [answer].
  - split; auto. intros _. split; auto. split; auto. eapply Forall_impl; [|exact D]. intros i (o & b & -> & X). destruct b; [exists o; auto | discriminate].
  - split; auto. intros _. split; auto. split; auto. eapply Forall_impl; [|exact D]. intros i (o & b & -> & X). destruct b; [discriminate | exists o; auto].
  - split; auto. split; [congruence|]. intros _ _. destruct items as [|i items]; auto. inversion D as [|? ? (o' & b & _ & X)]; subst. discriminate.
Qed.
Lemma compare_with_fin k G q seq shorter items : old (map fst (somes items)) -> fin k G (OCompare q seq shorter items) (compare_with E q seq shorter items s).
Proof.
  intros O. assert (R : forall b t, answer q seq shorter (size s) items b -> keeps s t -> returns k E (OCompare q seq shorter items) s t (VObj (if b then tru E else fls E)) [] []).
  { intros b t B K. simpl. split; auto. split; [exists b; auto | auto]. }
  unfold compare_with. destruct seq; cbn [negb].
  - destruct (Z.eqb_spec (zlen items) (size s)) as [L|L]; cbn [negb].
    + apply (compare_fin k G _ _ _ items (answer q true shorter (size s) items)) with (done := []); auto; try apply incl_refl; try (apply at_start).
      * intros t e K H. simpl. split; [split; auto | exact H].
      * rewrite <- L. intros. eapply answer_stop; eauto.
      * rewrite <- L. intros. apply answer_last; auto.
      * unfold size, zlen in L. lia.
    + apply bool_fin; auto; [apply at_start|]. intros t K. apply R; auto. destruct q; cbn [answer].
      * split; [discriminate | intros (_ & X & _); contradiction].
      * split; [discriminate | intros (_ & X & _); contradiction].
      * split; [discriminate|]. split; [auto | contradiction].
  - apply bool_fin; auto; [apply at_start|]. intros t K. apply R; auto. destruct q; cbn [answer].
    + split; [discriminate | intros (X & _); discriminate].
    + split; [discriminate | intros (X & _); discriminate].
    + split; [auto|]. split; discriminate.
Qed.

(** ** Sorting *)
Lemma sort_items_at keys fail perm : old (match keys with Some ks => somes ks | None => [] end) -> (forall xs, Permutation xs (perm xs)) ->
  match sort_items E keys fail perm s with
  | Ok t v => v = VObj (none E) /\ elems t = perm (elems s) /\ fail = None /\ at0 t (none E :: elems s) /\
              match keys with Some ks => all_keys (length (elems s)) ks = true | None => True end
  | Er t e => at0 t (elems s) /\
              ((exists ks, keys = Some ks /\ all_keys (length (elems s)) ks = false) /\ elems t = elems s /\ e = UserError 0 \/ fail = Some e /\ elems t = perm (elems s))
  | _ => False
  end.
Proof.
  intros O P.
  assert (Go : forall t, elems t = elems s -> at0 t (elems s) -> match keys with Some ks => all_keys (length (elems s)) ks = true | None => True end ->
    match (let t := with_elems (perm (elems t)) t in match fail with Some e => Er t e | None => give E (none E) t end) with
    | Ok t v => v = VObj (none E) /\ elems t = perm (elems s) /\ fail = None /\ at0 t (none E :: elems s) /\
                match keys with Some ks => all_keys (length (elems s)) ks = true | None => True end
    | Er t e => at0 t (elems s) /\
                ((exists ks, keys = Some ks /\ all_keys (length (elems s)) ks = false) /\ elems t = elems s /\ e = UserError 0 \/ fail = Some e /\ elems t = perm (elems s))
    | _ => False
    end).
  { intros t El A K. cbv zeta. destruct fail as [e|].
    - split; [apply at_elems; exact A|]. simpl. rewrite El. auto.
    - destruct (give_at E s0 W (with_elems (perm (elems t)) t) _ (none E) (at_elems E s0 t _ _ A) (none_lives E s0 W)) as (t1 & E1 & A1 & El1).
      rewrite E1. simpl in El1. rewrite El in El1. auto. }
  unfold sort_items. destruct keys as [ks|]; cbn [bind].
  - assert (Fi : Forall (fun o => In o (elems s)) (somes (map Some (elems s)))).
    { apply Forall_forall. assert (forall xs : list Z, somes (map Some xs) = xs) as -> by (induction xs; simpl; congruence). auto. }
    assert (Ns : some_none (map Some (elems s)) = false) by (clear; induction (elems s); simpl; auto).
    pose proof (call_keys_at E s0 W (map Some (elems s)) ks [] s (elems s) at_start Fi O) as H. rewrite map_length in H.
    destruct (call_keys E (map Some (elems s)) ks [] s) as [t [|]|t e|u|]; try contradiction; cbn [bind].
    + destruct H as (K & A & El). simpl app in A. rewrite El. destruct (decs_at E s0 W _ t _ A) as (t1 & E1 & A1 & El1 & _). rewrite E1. cbn [bind].
      apply Go; auto. congruence.
    + destruct H as (K & A & El). split; auto. left. eauto.
    + destruct H as (_ & H). congruence.
  - apply Go; auto. apply at_start.
Qed.
Lemma occ_permutation (xs ys : list Z) : Permutation xs ys -> forall p, occ xs p = occ ys p.
Proof. intros P p. induction P; simpl in *; lia. Qed.
Lemma sort_fin k G block keys fail perm : old (match keys with Some ks => somes ks | None => [] end) -> (forall xs, Permutation xs (perm xs)) ->
  fin k G (OSort block keys fail perm) (sort k E block keys fail perm s).
Proof.
  intros O P. pose proof (sort_items_at keys fail perm O P) as H.
  assert (Oc : forall t p, elems t = elems s \/ elems t = perm (elems s) -> occ (elems s) p = occ (elems t) p)
    by (intros t p [->| ->]; auto; apply occ_permutation; auto).
  unfold sort. destruct k; [|destruct block; [|]].
  - destruct (sort_items E keys fail perm s) as [t v|t e|u|]; try contradiction.
    + destruct H as (-> & El & Fa & A & K). eapply (obj_ok _ _ _ _ _ (elems s) []); [exact A | intros p; rewrite (Oc t p) by auto; simpl; lia|]. simpl. auto 10.
    + destruct H as (A & K). assert (El : elems t = elems s \/ elems t = perm (elems s)) by tauto. eapply (er_ok _ _ _ _ _ []); [eapply at_perm; [exact A|]; intros p; rewrite app_nil_r; auto|].
      simpl. split; auto. right. destruct K as [(K1 & K2 & K3)|(K1 & K2)]; [left; auto | right; eauto].
  - destruct (sort_items E keys fail perm s) as [t v|t e|u|]; try contradiction.
    + destruct H as (-> & El & Fa & A & K). eapply (give_fin _ _ _ _ _ (none E :: elems s) [none E] []); [exact A | apply none_lives; auto| |].
      * intros p. pose proof (Oc t p (or_intror El)). simpl. lia.
      * intros t2 E2. simpl. rewrite E2. auto 10.
    + destruct H as (A & K). assert (El : elems t = elems s \/ elems t = perm (elems s)) by tauto. destruct (give_at E s0 W t _ (none E) A (none_lives E s0 W)) as (t1 & E1 & A1 & El1). rewrite E1. cbn [bind drop].
      destruct (dec_at E s0 W _ _ _ A1) as (t2 & E2 & A2 & El2 & _). rewrite E2. cbn [bind].
      assert (El3 : elems t2 = elems s \/ elems t2 = perm (elems s)) by (destruct El; [left | right]; congruence).
      eapply (er_ok _ _ _ _ _ []); [eapply at_perm; [exact A2|]; intros p; rewrite app_nil_r; auto|].
      simpl. split; auto. right. assert (El4 : elems t2 = elems t) by congruence. rewrite El4. unfold keeps. rewrite El4. destruct K as [(K1 & K2 & K3)|(K1 & K2)]; [left; auto | right; eauto].
  - apply er_same. simpl. split; auto. left. repeat split; auto.
Qed.

(** ** Slice assignment *)
Lemma a_generic_at G most : forall items pre mid post t, at0 t (pre ++ mid ++ post) -> old (somes items) -> zlen pre + zlen post + zlen items <= most ->
  match a_generic E G items pre mid post t with
  | Ok t' v => v = VUnit /\ exists vs, items = map Some vs /\ elems t' = pre ++ vs ++ post /\ at0 t' (elems t')
  | Er t' e => exists vs rest, items = map Some vs ++ rest /\ elems t' = pre ++ vs ++ skipn (length vs) mid ++ post /\
      (e = IndexError /\ In None items /\ at0 t' (elems t') \/ e = RuntimeError /\ refused G most /\ exists o, In (Some o) items /\ at0 t' (elems t' ++ [o]))
  | _ => False
  end.
Proof.
  induction items as [|[o|] items IH]; intros pre mid post t A O M; cbn [a_generic].
  - assert (A1 : at0 t (mid ++ pre ++ post)) by (eapply at_perm; [exact A|]; occs).
    destruct (decs_at E s0 W mid t _ A1) as (t1 & E1 & A2 & El & _). rewrite E1. cbn [bind]. split; auto. exists []. split; [reflexivity|]. split; [reflexivity|]. apply at_elems; exact A2.
  - simpl in O. inversion O as [|? ? Ho O']; subst. destruct (fetch_at E s0 t _ o A Ho) as (A1 & El1).
    rewrite zlen_cons in M. pose proof (zlen_nonneg items) as Hz. pose proof (zlen_nonneg pre) as Hp. pose proof (zlen_nonneg post) as Hq.
    assert (M1 : zlen (pre ++ [o]) + zlen post + zlen items <= most) by (rewrite zlen_app, zlen_cons, zlen_nil; lia).
    assert (Go : forall mid' t1, at0 t1 ((pre ++ [o]) ++ mid' ++ post) -> (mid = [] -> mid' = []) -> (forall x m, mid = x :: m -> mid' = m) ->
      match a_generic E G items (pre ++ [o]) mid' post t1 with
      | Ok t' v => v = VUnit /\ exists vs, Some o :: items = map Some vs /\ elems t' = pre ++ vs ++ post /\ at0 t' (elems t')
      | Er t' e => exists vs rest, Some o :: items = map Some vs ++ rest /\ elems t' = pre ++ vs ++ skipn (length vs) mid ++ post /\
          (e = IndexError /\ In None (Some o :: items) /\ at0 t' (elems t') \/ e = RuntimeError /\ refused G most /\ exists o', In (Some o') (Some o :: items) /\ at0 t' (elems t' ++ [o']))
      | _ => False
      end).
    { intros mid' t1 A2 M0 M2. specialize (IH (pre ++ [o]) mid' post t1 A2 O' M1). destruct (a_generic E G items (pre ++ [o]) mid' post t1) as [t2 v|t2 e|u|]; auto.
      - destruct IH as (-> & vs & I1 & I2 & I3). split; auto. exists (o :: vs). simpl. split; [congruence|]. split; auto. rewrite I2, <- app_assoc. reflexivity.
      - destruct IH as (vs & rest & I1 & I2 & I3). exists (o :: vs), rest. simpl. split; [congruence|]. split.
        + rewrite I2, <- app_assoc. simpl. do 3 f_equal. destruct mid as [|x m]; [rewrite M0 by auto; destruct (length vs); reflexivity | rewrite (M2 x m) by auto; reflexivity].
        + destruct I3 as [(I4 & I5 & I6)|(I4 & I5 & o' & I6 & I7)]; [left; auto | right; eauto 8]. }
    destruct mid as [|x mid].
    + destruct (grows G (zlen pre + zlen post) (zlen pre + zlen post + 1)) eqn:Q.
      * apply Go; auto; [|discriminate]. eapply at_perm; [exact A1|]. occs.
      * exists [], (Some o :: items). split; auto. split; auto. right. split; auto. split; [eapply grows_false; [exact Q | lia | lia]|].
        exists o. split; [left; auto|]. simpl. apply at_elems. eapply at_perm; [exact A1|]. occs.
    + assert (A2 : at0 (fetch E o t) (x :: (pre ++ [o]) ++ mid ++ post)) by (eapply at_perm; [exact A1|]; occs).
      destruct (dec_at E s0 W _ _ x A2) as (t1 & E1 & A3 & El & _). rewrite E1. cbn [bind]. apply Go; auto; [discriminate | intros; congruence].
  - exists [], (None :: items). split; auto. split; auto. left. split; auto. split; [left; auto|]. apply at_elems; exact A.
Qed.
Lemma a_fast_refs_at : forall mid ys t os, at0 t (mid ++ os) -> Forall (lives E s0) ys ->
  exists t', a_fast_refs E mid ys t = Ok t' tt /\ at0 t' (firstn (length mid) ys ++ skipn (length ys) mid ++ os).
Proof.
  induction mid as [|x mid IH]; intros ys t os A L.
  - simpl. exists t. rewrite skipn_nil. auto.
  - destruct ys as [|y ys]; [simpl; eauto|]. cbn [a_fast_refs]. inversion L; subst.
    destruct (dec_at E s0 W t _ x A) as (t1 & E1 & A1 & _). rewrite E1. cbn [bind].
    destruct (inc_at E s0 W t1 _ y A1 (or_introl H1)) as (t2 & E2 & A2 & _). rewrite E2. cbn [bind].
    assert (A3 : at0 t2 (mid ++ y :: os)) by (eapply at_perm; [exact A2|]; occs).
    destruct (IH ys t2 (y :: os) A3 H2) as (t3 & E3 & A4). exists t3. split; auto. simpl. eapply at_perm; [exact A4|]. occs.
Qed.
Lemma zsplit_parts (a b c xs : list Z) la lb : xs = a ++ b ++ c -> zlen a = la -> zlen b = lb ->
  firstn (Z.to_nat la) xs = a /\ firstn (Z.to_nat lb) (skipn (Z.to_nat la) xs) = b /\ skipn (Z.to_nat la + Z.to_nat lb) xs = c.
Proof.
  intros -> <- <-. unfold zlen. rewrite !Nat2Z.id. split; [rewrite firstn_app, Nat.sub_diag, firstn_all; simpl; apply app_nil_r|].
  split; [rewrite skipn_app, skipn_all, Nat.sub_diag; simpl; rewrite firstn_app, Nat.sub_diag, firstn_all; simpl; apply app_nil_r|].
  rewrite skipn_app, skipn_all2 by lia. simpl. replace (length a + length b - length a)%nat with (length b) by lia.
  rewrite skipn_app, skipn_all, Nat.sub_diag. reflexivity.
Qed.
Lemma step1 sl start stop step : PySlice_Unpack sl = Ret (start, stop, step) -> (step = 1 <-> step_of sl = 1).
Proof.
  intros U. pose proof (step_used sl _ _ _ U) as SU. destruct ssize_consts as [EA EB]. split; intros H.
  - destruct SU as [SU|SU]; [congruence | lia].
  - destruct SU as [SU|SU]; [congruence | lia].
Qed.
Lemma a_set_slice_fin G sl seq src : callable E s (OSetSlice sl seq src) -> fin Array G (OSetSlice sl seq src) (a_set_slice E G sl seq src s).
Proof.
  intros (C1 & C2 & C3). unfold a_set_slice. destruct (unpack_cases sl) as [(Z0 & U)|(NZ & start & stop & step & U)]; rewrite U.
  - apply er_same. simpl. left. split; auto. split; auto. apply still.
  - destruct seq; cbn [negb]; [|apply er_same; simpl; right; left; split; auto; split; auto; apply still].
    pose proof (step1 sl _ _ _ U) as S1. destruct (Z.eqb_spec step 1) as [Es|Es]; cbn [negb].
    2: { apply er_same. simpl. right; right; left. split; auto. split; auto. split; [intros H; apply Es, S1; auto | apply still]. }
    assert (St : step_of sl = 1) by (apply S1; auto).
    destruct (unpack_step1 (elems s) sl C3 St) as (start' & stop' & U' & Ad). rewrite U in U'. assert (start' = start /\ stop' = stop) as (-> & ->) by (split; congruence).
    rewrite Es in U. pose proof (slice_len_eq (elems s) sl _ _ _ _ _ _ C3 U Ad) as SL. rewrite Es. fold (size s) in Ad. rewrite Ad.
    destruct (slice_split (elems s) sl) as (a & b & c & Ee & La & Lb & Pe). destruct (zsplit_parts a b c (elems s) _ _ Ee La Lb) as (F1 & F2 & F3).
    cbv zeta. rewrite F1, F2, F3. assert (A0 : at0 s (a ++ b ++ c)) by (rewrite <- Ee; apply at_start).
    assert (Lall : size s = zlen a + zlen b + zlen c) by (unfold size; rewrite Ee at 1; rewrite !zlen_app; lia).
    pose proof (zlen_nonneg a). pose proof (zlen_nonneg b). pose proof (zlen_nonneg c).
    destruct src as [ys|items].
    + simpl in C1. unfold a_fast.
      assert (A1 : at0 s (b ++ a ++ c)) by (eapply at_perm; [exact A0|]; occs).
      destruct (a_fast_refs_at b ys s _ A1 C1) as (t1 & E1 & A2). rewrite E1. cbn [bind].
      assert (SLb : Z.to_nat (slice_len (elems s) sl) = length b) by (rewrite SL; unfold zlen in Lb; lia).
      destruct (Z.leb_spec (zlen ys) (zlen b)) as [Hle|Hgt].
      * assert (Hf : firstn (length b) ys = ys) by (apply firstn_all2; unfold zlen in Hle; lia). rewrite Hf in A2.
        assert (A3 : at0 t1 (skipn (length ys) b ++ ys ++ a ++ c)) by (eapply at_perm; [exact A2|]; occs).
        destruct (decs_at E s0 W _ t1 _ A3) as (t2 & E2 & A4 & El & _). rewrite E2. cbn [bind].
        eapply (unit_ok _ _ _ _ _ [] []); [apply at_elems; exact A4 | occs|].
        simpl. split; auto. split; auto. split; auto. split; [exists ys; split; auto; intros _; split; auto; apply eq_sym, Pe|].
        symmetry. apply skipn_all2. unfold zlen in Hle. lia.
      * assert (Hs : skipn (length ys) b = []) by (apply skipn_all2; unfold zlen in Hgt; lia). rewrite Hs in A2. simpl app in A2.
        destruct (grows G (zlen a + zlen b + zlen c) (zlen a + zlen ys + zlen c)) eqn:Q.
        -- eapply (unit_ok _ _ _ _ _ [] (skipn (length b) ys)); [apply at_elems; exact A2| |].
           ++ intros p. simpl. rewrite <- (firstn_skipn (length b) ys) at 3. occs.
           ++ simpl. rewrite SLb. split; auto. split; auto. split; auto. split; auto. exists ys. split; [reflexivity|]. intros _. split; [exact St | apply eq_sym, Pe].
        -- eapply (er_ok _ _ _ _ _ []).
           ++ apply at_elems. simpl. eapply at_perm; [exact A2|]. occs.
           ++ simpl. right; right; right; right. split; auto. split; [eapply grows_false; [exact Q | lia|]; simpl; rewrite Lall; replace (zlen (map Some ys)) with (zlen ys) by (unfold zlen; rewrite map_length; reflexivity); lia|].
              split; [|left; eauto]. intros _. exists a, b, c, (firstn (length b) ys), (map Some (skipn (length b) ys)).
              split; auto. split; auto. split; [simpl; rewrite <- map_app, firstn_skipn; reflexivity|]. simpl.
              rewrite firstn_length_le by (unfold zlen in Hgt; lia). rewrite skipn_all. reflexivity.
    + simpl in C2. assert (M : zlen a + zlen c + zlen items <= wanted (OSetSlice sl true (SItems items)) s) by (simpl; lia).
      pose proof (a_generic_at G _ items a b c s A0 C2 M) as H2. destruct (a_generic E G items a b c s) as [t v|t e|u|]; try contradiction.
      * destruct H2 as (-> & vs & I1 & I2 & I3). eapply (unit_ok _ _ _ _ _ [] []); [exact I3 | simpl; intros; lia|].
        simpl. split; auto. split; auto. split; auto. split; auto. exists vs. split; auto. intros _. split; auto. rewrite I2. apply eq_sym, Pe.
      * destruct H2 as (vs & rest & I1 & I2 & I3). assert (Pt : partly s t sl (SItems items)) by (exists a, b, c, vs, rest; auto).
        destruct I3 as [(-> & I4 & I5)|(-> & R & o & I4 & I5)].
        -- eapply (er_ok _ _ _ _ _ []); [rewrite app_nil_r; exact I5|]. simpl. right; right; right; left. auto.
        -- eapply (er_ok _ _ _ _ _ [o]); [exact I5|]. simpl. right; right; right; right. split; auto. split; auto. split; auto. right. split; auto. exists items, o. auto.
Qed.

Lemma l_erase_at a n t : at0 t (elems t) -> 
  match l_erase E a n t with
  | Ok t' _ => at0 t' (elems t') /\ size t' = size t - Z.of_nat n
  | Bad u => u = OutOfBounds /\ ~ (0 <= a /\ a + Z.of_nat n <= size t)
  | _ => False
  end.
Proof.
  intros A. unfold l_erase. destruct (Z.ltb_spec a 0); cbn [orb]; [split; auto; lia|]. destruct (Z.ltb_spec (size t) (a + Z.of_nat n)); [split; auto; lia|].
  set (m := Z.to_nat a). assert (Sp : elems t = firstn m (elems t) ++ firstn n (skipn m (elems t)) ++ skipn (m + n) (elems t)).
  { rewrite <- (firstn_skipn m (elems t)) at 1. f_equal. rewrite <- (firstn_skipn n (skipn m (elems t))) at 1. f_equal.
    clear. generalize (elems t). induction m as [|m IH]; intros l; [reflexivity|]. destruct l; [rewrite !skipn_nil; reflexivity | apply IH]. }
  assert (A1 : at0 t (firstn n (skipn m (elems t)) ++ firstn m (elems t) ++ skipn (m + n) (elems t))) by (eapply at_perm; [exact A|]; intros p; rewrite Sp at 1; occs).
  destruct (decs_at E s0 W _ t _ A1) as (t1 & E1 & A2 & El & _). rewrite E1. cbn [bind]. rewrite El. simpl. split; [apply at_elems; exact A2|].
  unfold size, zlen in *. simpl. rewrite app_length, firstn_length, skipn_length. lia.
Qed.
Lemma l_inserts_at G most : forall items pre post t, at0 t (pre ++ post) -> old (somes items) -> zlen pre + zlen post + zlen items <= most ->
  match l_inserts E G items pre post t with
  | Ok t' _ => at0 t' (elems t') /\ size t' = zlen pre + zlen post + zlen items /\ ~ In None items
  | Er t' e => at0 t' (elems t') /\ (e = IndexError /\ In None items \/ e = RuntimeError /\ refused G most)
  | _ => False
  end.
Proof.
  induction items as [|[o|] items IH]; intros pre post t A O M; cbn [l_inserts].
  - split; [apply at_elems; exact A|]. unfold size. simpl. rewrite zlen_app. split; auto. change (@zlen (option Z) []) with 0. lia.
  - simpl in O. inversion O as [|? ? Ho O']; subst. destruct (fetch_at E s0 t _ o A Ho) as (A1 & El1).
    rewrite zlen_cons in *. pose proof (zlen_nonneg items) as Hz. pose proof (zlen_nonneg pre) as Hp. pose proof (zlen_nonneg post) as Hq.
    destruct (grows G (zlen pre + zlen post) (zlen pre + zlen post + 1)) eqn:Q.
    + assert (A2 : at0 (fetch E o t) ((pre ++ [o]) ++ post)) by (eapply at_perm; [exact A1|]; occs).
      specialize (IH (pre ++ [o]) post (fetch E o t) A2 O'). rewrite zlen_app, zlen_cons, zlen_nil in IH. specialize (IH ltac:(lia)).
      destruct (l_inserts E G items (pre ++ [o]) post (fetch E o t)) as [t2 v|t2 e|u|]; auto.
      * destruct IH as (I1 & I2 & I3). split; auto. split; [lia|]. intros [I|I]; [discriminate | auto].
      * destruct IH as (I1 & [(I2 & I3)|(I2 & I3)]); split; auto. left. simpl. auto.
    + destruct (dec_at E s0 W (with_elems (pre ++ post) (fetch E o t)) _ o (at_elems E s0 _ _ _ A1)) as (t1 & E1 & A2 & El & _). rewrite E1. cbn [bind].
      simpl in El. rewrite El. split; auto. right. split; auto. eapply grows_false; [exact Q | lia | lia].
  - split; [apply at_elems; exact A|]. left. simpl. auto.
Qed.
Lemma l_writes_at step : forall items index t, at0 t (elems t) -> old (somes items) ->
  match l_writes E items index step t with
  | Ok t' v => v = VUnit /\ at0 t' (elems t') /\ ~ In None items
  | Er t' e => at0 t' (elems t') /\ e = IndexError /\ In None items
  | Bad u => u = OutOfBounds /\ ~ (step = 1 /\ 0 <= index /\ index + zlen items <= size t)
  | Killed => False
  end.
Proof.
  induction items as [|i items IH]; intros index t A O; cbn [l_writes]; [auto|].
  rewrite zlen_cons. pose proof (zlen_nonneg items) as Hz.
  destruct (Z.ltb_spec index 0); cbn [orb]; [split; auto; lia|]. destruct (Z.leb_spec (size t) index); [split; auto; lia|].
  destruct (nth_error (elems t) (Z.to_nat index)) as [x|] eqn:Nt.
  2: { apply nth_error_None in Nt. unfold size, zlen in *. lia. }
  destruct i as [o|]; [|split; auto; simpl; auto].
  simpl in O. inversion O as [|? ? Ho O']; subst. destruct (fetch_at E s0 t _ o A Ho) as (A1 & El1).
  destruct (nth_error_has _ _ _ Nt) as (pre & post & Ee & Lp).
  assert (A2 : at0 (fetch E o t) (x :: pre ++ o :: post)) by (rewrite Ee in A1; eapply at_perm; [exact A1|]; occs).
  destruct (dec_at E s0 W _ _ x A2) as (t1 & E1 & A3 & El & _). rewrite E1. cbn [bind].
  assert (Ep : put (Z.to_nat index) o (elems t1) = pre ++ o :: post) by (rewrite El, El1, Ee; apply put_eq; auto).
  specialize (IH (index + step) (with_elems (put (Z.to_nat index) o (elems t1)) t1)). rewrite Ep in *. simpl elems in IH.
  specialize (IH (at_elems E s0 t1 _ _ A3) O').
  assert (Sz : size (with_elems (pre ++ o :: post) t1) = size t) by (unfold size; simpl; rewrite Ee, !zlen_app, !zlen_cons; lia). rewrite Sz in IH.
  destruct (l_writes E items (index + step) step (with_elems (pre ++ o :: post) t1)) as [t2 v|t2 e|u|]; auto.
  - destruct IH as (I1 & I2 & I3). split; auto. split; auto. intros [I|I]; [discriminate | auto].
  - destruct IH as (I1 & I2 & I3). simpl. auto.
  - destruct IH as (I1 & I2). split; auto. lia.
Qed.
Lemma old_skipn n items : old (somes items) -> old (somes (skipn n items)).
Proof.
  revert n. induction items as [|i items IH]; intros n H; [rewrite skipn_nil; exact H|]. destruct n; [exact H|]. apply IH. destruct i; [inversion H; auto | exact H].
Qed.
Lemma none_skipn n (items : list (option Z)) : In None (skipn n items) -> In None items.
Proof. revert n. induction items as [|i items IH]; intros n H; [rewrite skipn_nil in H; exact H|]. destruct n; [exact H|]. right. eapply IH, H. Qed.
Lemma somes_all (items : list (option Z)) : ~ In None items -> exists vs, items = map Some vs.
Proof.
  induction items as [|[o|] items IH]; intros H; [exists []; auto| |exfalso; apply H; left; auto].
  destruct IH as (vs & ->); [intros I; apply H; right; auto|]. exists (o :: vs). reflexivity.
Qed.
Lemma l_set_slice_fin G sl seq src : callable E s (OSetSlice sl seq src) -> fin Linked G (OSetSlice sl seq src) (l_set_slice E G sl seq src s).
Proof.
  intros (C1 & C2 & C3). unfold l_set_slice. destruct (unpack_cases sl) as [(Z0 & U)|(NZ & start & stop & step & U)]; rewrite U.
  - apply er_same. simpl. left. split; auto. split; auto. apply still.
  - destruct seq; cbn [negb]; [|apply er_same; simpl; right; left; split; auto; split; auto; apply still].
    destruct (PySlice_AdjustIndices (size s) start stop step) as [[a b] c] eqn:Ad. cbv zeta.
    pose proof (step1 sl _ _ _ U) as S1. set (items := source_items src) in *.
    assert (O : old (somes items)).
    { unfold items. destruct src as [ys|its]; simpl; [|exact C2]. assert (forall xs : list Z, somes (map Some xs) = xs) as -> by (induction xs; simpl; congruence). apply old_lives; exact C1. }
    assert (B1 : step_of sl = 1 -> step = 1 /\ 0 <= a /\ 0 <= b <= size s /\ 0 <= c /\ a + c <= size s).
    { intros St. assert (Es : step = 1) by (apply S1; auto). destruct (unpack_step1 (elems s) sl C3 St) as (start' & stop' & U' & Ad'). rewrite U in U'.
      assert (start' = start /\ stop' = stop) as (-> & ->) by (split; congruence). rewrite Es in Ad. unfold size in *. rewrite Ad in Ad'.
      assert (a = lo_of (elems s) sl /\ b = hi_of (elems s) sl /\ c = Z.max 0 (hi_of (elems s) sl - lo_of (elems s) sl)) as (-> & -> & ->) by (repeat split; congruence).
      pose proof (lo_hi_bounds (elems s) sl). lia. }
    pose proof (zlen_nonneg items) as Hz.
    assert (Bd : forall u, u = OutOfBounds -> step_of sl <> 1 -> fin Linked G (OSetSlice sl true src) (Bad u)).
    { intros u -> H. simpl. split; auto. right. split; auto. exists sl, true, src. auto. }
    assert (Rz : wanted (OSetSlice sl true src) s = size s + zlen items) by reflexivity.
    assert (Wr : forall t, at0 t (elems t) -> (step_of sl = 1 -> a + zlen items <= size t) -> fin Linked G (OSetSlice sl true src) (l_writes E items a step t)).
    { intros t A Hs. pose proof (l_writes_at step items a t A O) as H. destruct (l_writes E items a step t) as [t2 v|t2 e|u|]; try contradiction.
      - destruct H as (-> & A2 & N). eapply (unit_ok _ _ _ _ _ [] []); [exact A2 | simpl; intros; lia|]. simpl. split; auto. split; auto. split; auto. split.
        + destruct (somes_all items N) as (vs & Ev). exists vs. split; auto. discriminate.
        + destruct src; auto.
      - destruct H as (A2 & -> & N). eapply (er_ok _ _ _ _ _ []); [rewrite app_nil_r; exact A2|]. simpl. right; right; right; left. split; auto. split; auto. split; auto. discriminate.
      - destruct H as (-> & H). apply Bd; auto. intros St. destruct (B1 St) as (Q1 & Q2 & Q3 & Q4 & Q5). apply H. split; auto. }
    destruct (Z.ltb_spec (zlen items) c) as [H1|H1]; [|destruct (Z.ltb_spec c (zlen items)) as [H2|H2]].
    + pose proof (l_erase_at (a + zlen items * step) (Z.to_nat (c - zlen items)) s at_start) as H. destruct (l_erase E (a + zlen items * step) (Z.to_nat (c - zlen items)) s) as [t v|t e|u|]; try contradiction; cbn [bind].
      * destruct H as (A & Sz). apply Wr; auto. intros St. destruct (B1 St) as (Q1 & Q2 & Q3 & Q4 & Q5). rewrite Sz. lia.
      * destruct H as (-> & H). apply Bd; auto. intros St. destruct (B1 St) as (Q1 & Q2 & Q3 & Q4 & Q5). apply H. rewrite Q1. lia.
    + destruct ((b <? 0) || (size s <? b)) eqn:Q; cbn [bind].
      { apply Bd; auto. intros St. destruct (B1 St) as (Q1 & Q2 & Q3 & Q4 & Q5). apply orb_true_iff in Q. rewrite !Z.ltb_lt in Q. lia. }
      apply orb_false_iff in Q. rewrite !Z.ltb_ge in Q.
      pose proof (l_inserts_at G (size s + zlen items) (skipn (Z.to_nat c) items) (firstn (Z.to_nat b) (elems s)) (skipn (Z.to_nat b) (elems s)) s) as H.
      rewrite firstn_skipn in H. assert (Sz : zlen (firstn (Z.to_nat b) (elems s)) + zlen (skipn (Z.to_nat b) (elems s)) = size s) by (rewrite <- zlen_app, firstn_skipn; reflexivity).
      assert (Sk : zlen (skipn (Z.to_nat c) items) = zlen items - Z.max 0 c) by (unfold zlen in *; rewrite skipn_length; lia).
      rewrite Sz, Sk in H. specialize (H at_start (old_skipn _ _ O) ltac:(lia)).
      destruct (l_inserts E G (skipn (Z.to_nat c) items) (firstn (Z.to_nat b) (elems s)) (skipn (Z.to_nat b) (elems s)) s) as [t v|t e|u|]; try contradiction; cbn [bind].
      * destruct H as (A & St & _). apply Wr; auto. intros S2. destruct (B1 S2) as (Q1 & Q2 & Q3 & Q4 & Q5). lia.
      * destruct H as (A & R). eapply (er_ok _ _ _ _ _ []); [rewrite app_nil_r; exact A|]. simpl. right; right; right. destruct R as [(-> & R)|(-> & R)].
        -- left. split; auto. split; [eapply none_skipn; exact R|]. split; auto. discriminate.
        -- right. split; auto. split; [exact R|]. split; [discriminate | left; auto].
    + cbn [bind]. apply Wr; [apply at_start|]. intros St. destruct (B1 St) as (Q1 & Q2 & Q3 & Q4 & Q5). lia.
Qed.

(** ** Iterators *)
Lemma iter_fin k G : fin k G OIter (make_iter E s).
Proof.
  unfold make_iter, null. pose proof (new_at E s0 W s (elems s) at_start) as N. destruct (new_obj E s) as [t [l|]]; cbn [fst snd].
  - destruct N as (N1 & N2 & N3 & N4 & N5 & N6). destruct (inc_at E s0 W t _ (self E) N1 (or_introl (self_lives E s0 W))) as (t1 & E1 & A1 & El1). rewrite E1. cbn [bind].
    exists [], [], (elems s). simpl. split; [apply at_swap; exact A1|]. split; [intros p; rewrite El1, N2; lia|]. split.
    + split; auto. intros [H|H]; auto. pose proof (lives_old E s0 W _ (self_lives E s0 W)). simpl in *. lia.
    + split; [red; congruence|]. split; [|auto]. exists l. split; auto.
  - destruct N as (N1 & N2 & N3). eapply (er_ok _ _ _ _ _ []); [rewrite app_nil_r, N2; exact N1|]. simpl. split; auto. split; auto. split; auto.
Qed.
Lemma next_fin k G i : fin k G (ONext i) (next E i s).
Proof.
  unfold next. destruct (nth_error (elems s) (Z.to_nat i)) as [o|] eqn:N.
  - destruct (inc_at E s0 W s _ o at_start) as (t & E1 & A & El). { right. eapply nth_error_In; eauto. }
    unfold give. rewrite E1. cbn [bind]. eapply (obj_ok _ _ _ _ _ (elems s) []); [exact A | intros p; rewrite El; simpl; lia|]. simpl. repeat split; eauto.
  - apply er_same. simpl. split; auto. split; [apply still | auto].
Qed.

Lemma run_fin k G c : callable E s c -> fin k G c (run k E G c s).
Proof.
  intros C. pose proof C as (C1 & C2 & C3). destruct c; cbn [run]; simpl in C1, C2; try (match type of C1 with Forall _ [_] => pose proof (Forall_inv C1) as L end).
  - apply init_same_fin.
  - apply init_seq_fin; auto.
  - apply init_iter_fin; auto.
  - apply append_fin; auto.
  - apply insert_fin; auto.
  - apply pop_fin.
  - apply remove_fin; auto.
  - apply search_fin.
  - apply get_fin.
  - apply set_fin; auto.
  - apply del_fin.
  - apply extend_fast_fin; auto.
  - apply extend_iter_fin; auto.
  - apply extend_fast_fin; auto.
  - apply extend_iter_fin; auto.
  - apply clear_fin.
  - apply reverse_fin.
  - apply resize_fin.
  - apply to_list_fin.
  - apply get_slice_fin.
  - apply copy_fin.
  - apply mul_fin.
  - apply imul_fin.
  - apply add_fin; auto.
  - apply add_same_fin.
  - destruct k; [apply a_set_slice_fin | apply l_set_slice_fin]; auto.
  - apply compare_with_fin; auto.
  - apply sort_fin; [destruct keys; [exact C2 | constructor] | exact C3].
  - apply iter_fin.
  - apply next_fin.
Qed.
End Calls.

Lemma run_ends k E G c s : sound E s -> callable E s c -> ends k E G c s (run k E G c s).
Proof. intros (W & F) C. apply fin_ends; auto. apply run_fin; auto. Qed.
