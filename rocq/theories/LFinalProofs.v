(** Proofs for C75: single releases, del, remove, clear and deallocation. *)
From Coq Require Import ZArith List Bool Lia Arith.
From Verif Require Import Base PyListSpec ListLemmas ArrayListModel ArrayListProofs StdListModel StdListProofs LinkedListModel ObjModel ObjSpec ObjLemmas LFinalModel LFinalSpec.
Import ListNotations.
Local Open Scope Z_scope.
Local Arguments Z.pow : simpl never.
Local Arguments Z.add : simpl never.
Local Arguments Z.sub : simpl never.
Local Arguments Z.mul : simpl never.

(** ** Nodes *)
Lemma pos_mid (l : slist Z) a i v c : NoDup (ids l) -> nodes l = a ++ (i, v) :: c -> pos_of (nodes l) i = Some (length a).
Proof.
  intros N E. eapply pos_of_spec; [exact N|]. rewrite E, nth_error_app2 by lia. rewrite Nat.sub_diag. reflexivity.
Qed.
Lemma deref_at (l : slist Z) a i v c : NoDup (ids l) -> nodes l = a ++ (i, v) :: c -> deref l (Some i) = Ret v.
Proof.
  intros N E. unfold deref. rewrite (pos_mid l a i v c N E), E, nth_error_app2 by lia. rewrite Nat.sub_diag. reflexivity.
Qed.
Lemma firstn_at {A} (a : list A) x c : firstn (length a) (a ++ x :: c) = a.
Proof. rewrite firstn_app, Nat.sub_diag, firstn_all, app_nil_r. reflexivity. Qed.
Lemma skipn_at {A} (a : list A) x c : skipn (S (length a)) (a ++ x :: c) = c.
Proof. induction a; cbn; auto. Qed.
Lemma assign_at (l : slist Z) a i v c w : NoDup (ids l) -> nodes l = a ++ (i, v) :: c ->
  assign l (Some i) w = Ret {| nodes := a ++ (i, w) :: c; fresh := fresh l |}.
Proof.
  intros N E. unfold assign, set_node. rewrite (pos_mid l a i v c N E), E, nth_error_app2 by lia. rewrite Nat.sub_diag. cbn [nth_error].
  rewrite firstn_at, skipn_at. reflexivity.
Qed.
Lemma erase_at (l : slist Z) a i v c : NoDup (ids l) -> nodes l = a ++ (i, v) :: c ->
  erase l (Some i) = Ret {| nodes := a ++ c; fresh := fresh l |}.
Proof. intros N E. unfold erase. rewrite (pos_mid l a i v c N E), E, firstn_at, skipn_at. reflexivity. Qed.
Lemma next_at (l : slist Z) a i v c : NoDup (ids l) -> nodes l = a ++ (i, v) :: c -> it_next l (Some i) = Ret (id_at c 0).
Proof.
  intros N E. unfold it_next, id_at. rewrite (pos_mid l a i v c N E), E. rewrite nth_error_app2 by lia.
  replace (S (length a) - length a)%nat with 1%nat by lia. reflexivity.
Qed.
Lemma at_at (l : slist Z) a i v c : wf l -> nodes l = a ++ (i, v) :: c -> at_ l (length a) = Ret (Some i).
Proof.
  intros W E. rewrite at_pos by exact W. unfold itpos, id_at. rewrite E, nth_error_app2 by lia. rewrite Nat.sub_diag. reflexivity.
Qed.
Lemma gone (l : slist Z) i : ~ In i (ids l) -> forall v, assign l (Some i) v = Undef UseAfterFree.
Proof. intros N v. unfold assign. apply pos_of_none in N. rewrite N. reflexivity. Qed.

Lemma ids_set a i v w c f : ids {| nodes := a ++ (i, w) :: c; fresh := f |} = ids (A := Z) {| nodes := a ++ (i, v) :: c; fresh := f |}.
Proof. unfold ids. cbn [nodes]. rewrite !map_app. reflexivity. Qed.
Lemma linked_set s a i v w c : linked s -> nodes (nds s) = a ++ (i, v) :: c ->
  linked (with_nds {| nodes := a ++ (i, w) :: c; fresh := fresh (nds s) |} s).
Proof.
  intros L E. unfold linked in *. cbn [nds with_nds]. rewrite (ids_set a i v w). unfold ids in *. cbn [nodes fresh] in *. rewrite <- E. exact L.
Qed.
Lemma linked_cut s a i v c : linked s -> nodes (nds s) = a ++ (i, v) :: c ->
  linked (with_nds {| nodes := a ++ c; fresh := fresh (nds s) |} s).
Proof.
  intros [N F] E. unfold linked, ids in *. cbn [nds with_nds nodes fresh] in *. rewrite E, map_app in N, F. cbn [map fst] in N, F. rewrite map_app. split.
  - eapply NoDup_remove_1. exact N.
  - apply Forall_app in F. destruct F as [F1 F2]. inversion F2; subst. apply Forall_app; auto.
Qed.
Lemma linked_refs c s : linked s -> linked (with_refs c s).
Proof. exact (fun L => L). Qed.
Lemma linked_clear s : linked (with_nds (clear_ (nds s)) s).
Proof. split; cbn; constructor. Qed.

Lemma items_nodes s ns : nodes (nds s) = ns -> items s = map snd ns.
Proof. intros <-. reflexivity. Qed.
Lemma slack_nds l s p : slack (with_nds l s) p = slack s p + occ (items s) p - occ (values l) p.
Proof. unfold slack, items. cbn. lia. Qed.
Lemma slack_refs c s p : slack (with_refs c s) p = slack s p + c p - refs s p.
Proof. unfold slack, items. cbn. lia. Qed.

Definition held_ok (s : nst) : Prop := forall p, p <> 0 -> 0 <= held s p.
Definition slack_ok (s : nst) : Prop := forall p, p <> 0 -> 0 <= slack s p.
Lemma balanced_ok s : balanced s -> linked s /\ held_ok s /\ slack_ok s.
Proof. intros (L & B & _). split; [exact L|]. split; intros p N; destruct (B p N); lia. Qed.

(** An element's object has a reference. *)
Lemma alive s a i o c : nodes (nds s) = a ++ (i, o) :: c -> o <> 0 -> held_ok s -> slack_ok s -> 1 <= refs s o.
Proof.
  intros E NZ X S. assert (O : 1 <= occ (items s) o) by (apply occ_in; rewrite (items_nodes s _ E), map_app; apply in_or_app; right; left; reflexivity).
  specialize (X o NZ). specialize (S o NZ). unfold slack in S. pose proof (occ_nonneg (srcs s) o). lia.
Qed.

(** Releasing the object of an element when the finalizer, if it runs, leads to
    a state satisfying [R]. *)
Definition dec (o : Z) (t : nst) : nst := with_refs (upd (refs t) o (refs t o - 1)) t.
Lemma release_cases F o s : o <> 0 -> 1 <= refs s o -> linked s -> held_ok s -> slack_ok s ->
  (refs s o = 1 -> exists t, F o s = inl t /\ honest s t /\ 1 <= occ (items t) o) ->
  exists t, release F o s = Ret (dec o t) /\ (t = s \/ refs s o = 1 /\ F o s = inl t) /\ linked t /\ srcs t = srcs s /\ held_ok t /\
    (forall p, p <> 0 -> slack (dec o t) p = slack s p - occ [o] p).
Proof.
  intros NZ R L X S H. unfold release. destruct (Z.eqb_spec o 0); [contradiction|]. destruct (Z.leb_spec (refs s o) 0); [lia|].
  destruct (Z.eqb_spec (refs s o) 1) as [R1|R1].
  - destruct (H R1) as (t & E & (L1 & S1 & P) & O). rewrite E.
    assert (RT : 1 <= refs t o).
    { destruct (P o NZ) as [X1 K1]. specialize (X1 (X o NZ)). specialize (S o NZ). unfold slack in *. pose proof (occ_nonneg (srcs t) o). lia. }
    destruct (Z.leb_spec (refs t o) 0); [lia|]. exists t. split; [reflexivity|]. split; [auto|]. split; [exact L1|]. split; [exact S1|].
    split; [intros p Hp; apply P; auto|]. intros p Hp. unfold dec. rewrite slack_refs, upd_minus. destruct (P p Hp) as [_ ->]. lia.
  - exists s. split; [reflexivity|]. split; [auto|]. split; [exact L|]. split; [reflexivity|]. split; [exact X|].
    intros p Hp. unfold dec. rewrite slack_refs, upd_minus. lia.
Qed.

(** What an element and the list around it look like when its object is
    released; [R a c a' c'] relates the nodes around it before and after. *)
Definition around (F : nfins) (R : list (nat * Z) -> list (nat * Z) -> list (nat * Z) -> list (nat * Z) -> Prop) : Prop :=
  (forall a c, ~ In 0 (map snd c) -> R a c a c) /\
  forall o s a i c, refs s o = 1 -> linked s -> nodes (nds s) = a ++ (i, o) :: c -> ~ In 0 (map snd c) ->
  exists s' a' c', F o s = inl s' /\ nodes (nds s') = a' ++ (i, o) :: c' /\ R a c a' c' /\ honest s s'.
Lemma occ_mid (a : list (nat * Z)) i o c : 1 <= occ (map snd (a ++ (i, o) :: c)) o.
Proof. apply occ_in. rewrite map_app. apply in_or_app. right. left. reflexivity. Qed.

Lemma safe_decref_ok F R : around F R -> forall s a i o c, nodes (nds s) = a ++ (i, o) :: c -> ~ In 0 (map snd c) -> o <> 0 -> linked s -> held_ok s -> slack_ok s ->
  exists t a' c', safe_decref F (Some i) s = Ret (with_nds {| nodes := a' ++ (i, 0) :: c'; fresh := fresh (nds t) |} (dec o t)) /\
    (t = s \/ refs s o = 1 /\ F o s = inl t) /\ nodes (nds t) = a' ++ (i, o) :: c' /\ R a c a' c' /\ linked t /\ srcs t = srcs s /\ held_ok t /\
    (forall p, p <> 0 -> slack (dec o t) p = slack s p - occ [o] p).
Proof.
  intros [RR RF] s a i o c E NC NZ L X S. unfold safe_decref. rewrite (deref_at _ a i o c (proj1 L) E). cbn [obind].
  destruct (release_cases F o s NZ (alive s a i o c E NZ X S) L X S) as (t & RL & C & L1 & S1 & X1 & K1).
  { intros R1. destruct (RF o s a i c R1 L E NC) as (t & a' & c' & FE & E' & _ & H). exists t. split; [exact FE|]. split; [exact H|].
    rewrite (items_nodes t _ E'). apply occ_mid. }
  rewrite RL. cbn [obind].
  assert (T : exists a' c', nodes (nds t) = a' ++ (i, o) :: c' /\ R a c a' c').
  { destruct C as [->|[R1 FE]]; [eauto|]. destruct (RF o s a i c R1 L E NC) as (t' & a' & c' & FE' & E' & RR' & _).
    rewrite FE in FE'. injection FE' as <-. eauto. }
  destruct T as (a' & c' & E' & RR'). cbn [nds dec with_refs]. rewrite (assign_at _ a' i o c' 0 (proj1 L1) E'). cbn [obind].
  exists t, a', c'. split; [reflexivity|]. auto 10.
Qed.
Lemma slack_clear0 t a' i o c' p : nodes (nds t) = a' ++ (i, o) :: c' -> p <> 0 ->
  slack (with_nds {| nodes := a' ++ (i, 0) :: c'; fresh := fresh (nds t) |} (dec o t)) p = slack (dec o t) p + occ [o] p.
Proof.
  intros E P. rewrite slack_nds. change (items (dec o t)) with (items t). rewrite (items_nodes t _ E). unfold values. cbn [nodes].
  rewrite !map_app, !occ_app. cbn [map snd occ]. destruct (Z.eqb_spec 0 p); [congruence|]. lia.
Qed.

(** The three kinds of finalizers. *)
Definition rel_keeps (a c a' c' : list (nat * Z)) : Prop := ~ In 0 (map snd c') /\ (~ In 0 (map snd a) -> ~ In 0 (map snd a')).
Lemma around_keeps F : keeps F -> around F rel_keeps.
Proof.
  intros K. split; [intros a c H; split; auto|]. intros o s a i c R L E N. destruct (K o s a i c R L E N) as (s' & a' & c' & H1 & H2 & H3 & H4 & H5).
  exists s', a', c'. split; [exact H1|]. split; [exact H2|]. split; [split; assumption|exact H5].
Qed.
Definition rel_appends (Q : list Z -> Prop) (a c a' c' : list (nat * Z)) : Prop := a' = a /\ exists m, c' = c ++ m /\ Q (map snd m).
Lemma around_appends (Q : list Z -> Prop) F : Q [] -> appends Q F -> around F (rel_appends Q).
Proof.
  intros Q0 K. split; [intros a c H; split; [reflexivity|exists []; rewrite app_nil_r; auto]|].
  intros o s a i c R L E N. destruct (K o s R L) as (s' & m & H1 & H2 & H3 & H4). exists s', a, (c ++ m).
  split; [exact H1|]. rewrite H3, E, <- app_assoc. split; [reflexivity|]. split; [split; eauto|exact H4].
Qed.
Lemma appends_keeps Q F : runs Q -> appends Q F -> keeps F.
Proof.
  intros (Q0 & QA & QN) H o s a i c R L E N. destruct (H o s R L) as (s' & m & H1 & H2 & H3 & H4). exists s', a, (c ++ m).
  split; [exact H1|]. rewrite H3, E, <- app_assoc. split; [reflexivity|]. split; [|split; [auto|exact H4]].
  rewrite map_app, in_app_iff. intros [K|K]; [auto|]. exact (QN _ H2 K).
Qed.
Lemma polite_keeps F : polite F -> keeps F.
Proof. apply appends_keeps. split; [reflexivity|]. split; [unfold none; intros x y -> ->; reflexivity|unfold none; intros x ->; intros []]. Qed.

(** ** del x[i] *)
Lemma without_mid a i v c f : NoDup (map fst (a ++ (i, v) :: c)) ->
  without i {| nodes := a ++ (i, v) :: c; fresh := f |} = {| nodes := a ++ c; fresh := f |}.
Proof.
  intros N. unfold without. cbn [nodes fresh]. f_equal. rewrite filter_app. cbn [filter fst]. rewrite Nat.eqb_refl. cbn [negb].
  rewrite map_app in N. cbn [map fst] in N. apply NoDup_remove_2 in N. rewrite in_app_iff in N.
  assert (G : forall m : list (nat * Z), ~ In i (map fst m) -> filter (fun n => negb (Nat.eqb (fst n) i)) m = m).
  { induction m as [|[j w] m IH]; intros H; [reflexivity|]. cbn [filter fst]. cbn [map fst In] in H. destruct (Nat.eqb_spec j i); [tauto|]. cbn [negb]. rewrite IH by tauto. reflexivity. }
  rewrite !G by tauto. reflexivity.
Qed.
Lemma node_at s k i o : nth_error (nodes (nds s)) (Z.to_nat k) = Some (i, o) ->
  exists a c, nodes (nds s) = a ++ (i, o) :: c /\ length a = Z.to_nat k.
Proof. intros H. destruct (nth_error_split _ _ H) as (a & c & E & L). eauto. Qed.
Lemma size_zlen s : Z.of_nat (size (nds s)) = zlen (items s).
Proof. rewrite size_values. reflexivity. Qed.

Lemma del_start F x k s : k = rel (zlen (items s)) x -> 0 <= k < zlen (items s) -> linked s ->
  exists a i o c, nodes (nds s) = a ++ (i, o) :: c /\ length a = Z.to_nat k /\
  f_del F x s = obind (safe_decref F (Some i) s) (fun s => obind (erase (nds s) (Some i)) (fun l => Ret (with_nds l s))).
Proof.
  intros Ek K L. unfold f_del. rewrite size_zlen.
  replace (if x <? 0 then zlen (items s) + x else x) with k by (subst k; unfold rel; destruct (x <? 0); lia).
  destruct (Z.ltb_spec k 0); [lia|]. destruct (Z.leb_spec (zlen (items s)) k); [lia|]. cbn [orb].
  assert (Hs : (Z.to_nat k < length (nodes (nds s)))%nat).
  { change (length (nodes (nds s))) with (size (nds s)). pose proof (size_zlen s). lia. }
  destruct (nth_error (nodes (nds s)) (Z.to_nat k)) as [[i o]|] eqn:E; [|apply nth_error_None in E; lia].
  destruct (node_at s k i o E) as (a & c & Ea & La). exists a, i, o, c. split; [exact Ea|]. split; [exact La|].
  rewrite <- La, (at_at _ a i o c L Ea). reflexivity.
Qed.

Lemma del_around F R : around F R -> forall x k s, k = rel (zlen (items s)) x -> 0 <= k < zlen (items s) -> balanced s ->
  exists a i o c a' c' t s', nodes (nds s) = a ++ (i, o) :: c /\ length a = Z.to_nat k /\ f_del F x s = Ret s' /\
    (t = s \/ refs s o = 1 /\ F o s = inl t) /\ nodes (nds t) = a' ++ (i, o) :: c' /\ linked t /\ R a c a' c' /\ nds s' = {| nodes := a' ++ c'; fresh := fresh (nds t) |} /\
    linked s' /\ srcs s' = srcs s /\ held_ok s' /\ (forall p, p <> 0 -> slack s' p = 0).
Proof.
  intros AR x k s Ek K B. destruct (balanced_ok s B) as (L & X & S). destruct B as (_ & B & NI & NS).
  destruct (del_start F x k s Ek K L) as (a & i & o & c & E & La & ->).
  rewrite (items_nodes s _ E), map_app in NI. cbn [map snd] in NI.
  assert (NC : ~ In 0 (map snd c)) by (intros H; apply NI, in_or_app; right; right; exact H).
  assert (NZ : o <> 0) by (intros H; apply NI, in_or_app; right; left; exact H).
  destruct (safe_decref_ok F R AR s a i o c E NC NZ L X S) as (t & a' & c' & SD & C & E' & RR & L1 & S1 & X1 & K1).
  rewrite SD. cbn [obind nds with_nds].
  pose proof (linked_set t a' i o 0 c' L1 E') as L2.
  rewrite (erase_at {| nodes := a' ++ (i, 0) :: c'; fresh := fresh (nds t) |} a' i 0 c' (proj1 L2) eq_refl). cbn [obind fresh].
  exists a, i, o, c, a', c', t. eexists. split; [exact E|]. split; [exact La|]. split; [reflexivity|]. split; [exact C|]. split; [exact E'|]. split; [exact L1|].
  split; [exact RR|]. split; [reflexivity|]. split; [exact (linked_cut t a' i o c' L1 E')|]. split; [exact S1|]. split; [exact X1|].
  intros p Hp. rewrite slack_nds, slack_clear0 by assumption. rewrite K1 by exact Hp. destruct (B p Hp) as [_ ->].
  unfold items, values. cbn [with_nds nds nodes]. rewrite !map_app, !occ_app. cbn [map snd occ]. destruct (Z.eqb_spec 0 p); [congruence|]. lia.
Qed.

Lemma del_keeping F s x k i o : keeps F -> balanced s -> k = rel (zlen (items s)) x -> 0 <= k -> nth_error (nodes (nds s)) (Z.to_nat k) = Some (i, o) ->
  exists t s', f_del F x s = Ret s' /\ (t = s \/ refs s o = 1 /\ F o s = inl t) /\ nds s' = without i (nds t) /\ srcs s' = srcs s /\ balanced s'.
Proof.
  intros HK B Ek K0 N. assert (K : 0 <= k < zlen (items s)).
  { split; [exact K0|]. rewrite <- size_zlen. unfold size. assert (Z.to_nat k < length (nodes (nds s)))%nat by (apply nth_error_Some; congruence). lia. }
  destruct (del_around F rel_keeps (around_keeps F HK) x k s Ek K B) as (a & j & o' & c & a' & c' & t & s' & E & La & D & C & E' & L & (R1 & R2) & N' & L' & S' & X' & K').
  rewrite E, <- La, nth_error_app2, Nat.sub_diag in N by lia. injection N as -> ->.
  exists t, s'. split; [exact D|]. split; [exact C|]. split; [|split; [exact S'|]].
  - rewrite N'. destruct (nds t) as [nt ft] eqn:Et. cbn [nodes fresh] in *. rewrite E'. symmetry. apply without_mid. destruct L as [L _].
    rewrite Et in L. unfold ids in L. cbn [nodes] in L. rewrite <- E'. exact L.
  - destruct B as (_ & B & NI & NS). split; [exact L'|]. split; [intros p Hp; split; [apply X', Hp|apply K', Hp]|]. rewrite S'. split; [|exact NS].
    unfold items, values. rewrite N'. cbn [nodes]. rewrite (items_nodes s _ E), map_app in NI. cbn [map snd] in NI. rewrite in_app_iff in NI. cbn [In] in NI.
    rewrite map_app, in_app_iff. tauto.
Qed.

Lemma del_appending Q F s x : runs Q -> appends Q F -> balanced s ->
  let k := rel (zlen (items s)) x in 0 <= k < zlen (items s) ->
  exists s' more, f_del F x s = Ret s' /\ Q more /\
    items s' = (firstn (Z.to_nat k) (items s) ++ skipn (Z.to_nat k + 1) (items s)) ++ more /\ srcs s' = srcs s /\ balanced s'.
Proof.
  intros (Q0 & QA & QN) HF B k K.
  destruct (del_around F (rel_appends Q) (around_appends Q F Q0 HF) x k s eq_refl K B) as (a & j & o' & c & a' & c' & t & s' & E & La & D & C & E' & L & (-> & m & -> & Qm) & N' & L' & S' & X' & K').
  exists s', (map snd m). split; [exact D|]. split; [exact Qm|].
  assert (I : items s' = (map snd a ++ map snd c) ++ map snd m).
  { unfold items, values. rewrite N'. cbn [nodes]. rewrite !map_app, app_assoc. reflexivity. }
  split; [|split; [exact S'|]].
  - rewrite I. f_equal. rewrite (items_nodes s _ E), map_app. cbn [map snd]. rewrite Nat.add_1_r, <- La, <- (map_length snd a).
    rewrite firstn_at, skipn_at. reflexivity.
  - destruct B as (_ & B & NI & NS). split; [exact L'|]. split; [intros p Hp; split; [apply X', Hp|apply K', Hp]|]. rewrite S'. split; [|exact NS].
    rewrite I. rewrite (items_nodes s _ E), map_app in NI. cbn [map snd] in NI. rewrite in_app_iff in NI. cbn [In] in NI.
    rewrite !in_app_iff. specialize (QN _ Qm). tauto.
Qed.
Lemma del_polite F s x : polite F -> balanced s ->
  let k := rel (zlen (items s)) x in 0 <= k < zlen (items s) ->
  exists s', f_del F x s = Ret s' /\
    items s' = firstn (Z.to_nat k) (items s) ++ skipn (Z.to_nat k + 1) (items s) /\ srcs s' = srcs s /\ balanced s'.
Proof.
  intros HF B k K. destruct (del_appending none F s x) as (s' & m & D & Qm & I & S & B'); auto.
  { split; [reflexivity|]. split; [unfold none; intros ? ? -> ->; reflexivity|unfold none; intros ? ->; intros []]. }
  unfold none in Qm. subst m. rewrite app_nil_r in I. eauto.
Qed.

(** With any finalizer, exactly. *)
Lemma del_exact F x k i o s : linked s -> k = rel (zlen (items s)) x -> 0 <= k -> nth_error (nodes (nds s)) (Z.to_nat k) = Some (i, o) ->
  o <> 0 -> refs s o = 1 -> (forall t, F o s = inl t -> linked t) ->
  f_del F x s =
  match F o s with
  | inr u => Undef u
  | inl t => if refs t o <=? 0 then Undef UseAfterFree
             else if existsb (Nat.eqb i) (ids (nds t)) then Ret (with_nds (without i (nds t)) (with_refs (upd (refs t) o (refs t o - 1)) t))
             else Undef UseAfterFree
  end.
Proof.
  intros L Ek K0 N NZ R HL. assert (K : 0 <= k < zlen (items s)).
  { split; [exact K0|]. rewrite <- size_zlen. unfold size. assert (Z.to_nat k < length (nodes (nds s)))%nat by (apply nth_error_Some; congruence). lia. }
  destruct (del_start F x k s Ek K L) as (a & i' & o' & c & E & La & ->).
  rewrite E, <- La, nth_error_app2, Nat.sub_diag in N by lia. injection N as -> ->.
  unfold safe_decref. rewrite (deref_at _ a i o c (proj1 L) E). cbn [obind]. unfold release.
  destruct (Z.eqb_spec o 0); [contradiction|]. rewrite R. change (1 <=? 0) with false. change (1 =? 1) with true. cbv iota.
  destruct (F o s) as [t|u] eqn:FE; [|reflexivity]. specialize (HL t eq_refl). destruct (Z.leb_spec (refs t o) 0); [reflexivity|]. cbn [obind nds with_refs].
  destruct (existsb (Nat.eqb i) (ids (nds t))) eqn:EX.
  - apply existsb_exists in EX. destruct EX as (j & IJ & Ej). apply Nat.eqb_eq in Ej. subst j. unfold ids in IJ. apply in_map_iff in IJ. destruct IJ as ([j v] & Ej & IJ).
    cbn [fst] in Ej. subst j. destruct (in_split _ _ IJ) as (a' & c' & E'). rewrite (assign_at _ a' i v c' 0 (proj1 HL) E'). cbn [obind nds with_nds].
    pose proof (linked_set t a' i v 0 c' HL E') as L2.
    rewrite (erase_at {| nodes := a' ++ (i, 0) :: c'; fresh := fresh (nds t) |} a' i 0 c' (proj1 L2) eq_refl). cbn [obind fresh].
    f_equal. unfold with_nds. cbn. f_equal. destruct HL as [HL _]. unfold ids in HL. destruct (nds t) as [nt ft]. cbn [nodes fresh] in *. subst nt. symmetry. apply without_mid. exact HL.
  - assert (NI : ~ In i (ids (nds t))).
    { intros H1. assert (existsb (Nat.eqb i) (ids (nds t)) = true) by (apply existsb_exists; exists i; split; [exact H1|apply Nat.eqb_refl]). congruence. }
    rewrite gone by exact NI. reflexivity.
Qed.
Lemma del_shared F x k i o s : linked s -> k = rel (zlen (items s)) x -> 0 <= k -> nth_error (nodes (nds s)) (Z.to_nat k) = Some (i, o) ->
  o <> 0 -> 1 < refs s o ->
  f_del F x s = Ret (with_nds (without i (nds s)) (with_refs (upd (refs s) o (refs s o - 1)) s)).
Proof.
  intros L Ek K0 N NZ R. assert (K : 0 <= k < zlen (items s)).
  { split; [exact K0|]. rewrite <- size_zlen. unfold size. assert (Z.to_nat k < length (nodes (nds s)))%nat by (apply nth_error_Some; congruence). lia. }
  destruct (del_start F x k s Ek K L) as (a & i' & o' & c & E & La & ->).
  rewrite E, <- La, nth_error_app2, Nat.sub_diag in N by lia. injection N as -> ->.
  unfold safe_decref. rewrite (deref_at _ a i o c (proj1 L) E). cbn [obind]. unfold release.
  destruct (Z.eqb_spec o 0); [contradiction|]. destruct (Z.leb_spec (refs s o) 0); [lia|]. destruct (Z.eqb_spec (refs s o) 1); [lia|]. cbn [obind nds with_refs].
  rewrite (assign_at _ a i o c 0 (proj1 L) E). cbn [obind nds with_nds].
  pose proof (linked_set s a i o 0 c L E) as L2.
  rewrite (erase_at {| nodes := a ++ (i, 0) :: c; fresh := fresh (nds s) |} a i 0 c (proj1 L2) eq_refl). cbn [obind fresh].
  f_equal. unfold with_nds. cbn. f_equal. destruct L as [L _]. unfold ids in L. destruct (nds s) as [nt ft]. cbn [nodes fresh] in *. subst nt. symmetry. apply without_mid. exact L.
Qed.
Lemma without_linked i s : linked s -> linked (with_nds (without i (nds s)) s).
Proof.
  intros [N F]. unfold linked, ids in *. cbn [nds with_nds without nodes fresh]. generalize (fresh (nds s)) F N. clear F N. intros f F N. induction (nodes (nds s)) as [|[j v] m IH]; cbn [filter map fst] in *; [split; constructor|].
  inversion F; inversion N; subst. destruct (IH H2 H6) as [A B]. destruct (Nat.eqb j i); cbn [negb]; [auto|]. cbn [map fst]. split; constructor; auto.
  intros H7. apply H5. apply in_map_iff in H7. destruct H7 as ([j' w] & E & I). cbn [fst] in E. subst j'. apply filter_In in I. apply in_map_iff. exists (j, w). tauto.
Qed.
Lemma without_gone i l : ~ In i (ids (without i l)).
Proof.
  unfold ids, without. cbn [nodes]. intros H. apply in_map_iff in H. destruct H as ([j w] & E & I). apply filter_In in I. cbn [fst] in *. subst j. rewrite Nat.eqb_refl in I. destruct I. discriminate.
Qed.
Lemma del_itself F G x k i o s : linked s -> k = rel (zlen (items s)) x -> 0 <= k -> nth_error (nodes (nds s)) (Z.to_nat k) = Some (i, o) -> o <> 0 -> refs s o = 1 ->
  G o s = inl s -> F o s = match f_del G x s with Ret t => inl t | Undef u => inr u | _ => inl s end ->
  f_del F x s = Undef UseAfterFree.
Proof.
  intros L Ek K0 N NZ R HG HF. assert (HL : forall t, G o s = inl t -> linked t) by (intros t H; rewrite HG in H; injection H as <-; exact L).
  pose proof (del_exact G x k i o s L Ek K0 N NZ R HL) as D. rewrite HG, R in D. change (1 <=? 0) with false in D. cbv iota in D.
  assert (I : existsb (Nat.eqb i) (ids (nds s)) = true).
  { apply existsb_exists. exists i. split; [|apply Nat.eqb_refl]. unfold ids. apply in_map_iff. exists (i, o). split; [reflexivity|]. eapply nth_error_In. exact N. }
  rewrite I in D. rewrite D in HF.
  assert (HL' : forall t, F o s = inl t -> linked t) by (intros t H; rewrite HF in H; injection H as <-; apply (without_linked i s L)).
  rewrite (del_exact F x k i o s L Ek K0 N NZ R HL'), HF.
  cbn [refs with_nds with_refs]. unfold upd. rewrite Z.eqb_refl. reflexivity.
Qed.

(** ** clear *)
Lemma clear_around F R (P : list (nat * Z) -> Prop) : around F R ->
  (forall a c a' c', R a c a' c' -> ~ In 0 (map snd c) -> ~ In 0 (map snd c')) -> (forall a c a' c' i, R a c a' c' -> P a -> P (a' ++ [(i, 0)])) ->
  forall fuel s a c, nodes (nds s) = a ++ c -> P a -> ~ In 0 (map snd c) -> linked s -> held_ok s -> slack_ok s ->
  match clear_loop fuel F (id_at c 0) s with
  | None => True
  | Some r => exists s', r = Ret s' /\ P (nodes (nds s')) /\ linked s' /\ srcs s' = srcs s /\ held_ok s' /\ (forall p, p <> 0 -> slack s' p = slack s p)
  end.
Proof.
  intros AR HN HP. induction fuel as [|fuel IH]; intros s a c E PA NC L X S.
  - destruct c as [|[i o] c]; cbn; [|exact I]. exists s. rewrite app_nil_r in E. rewrite E. auto 10.
  - destruct c as [|[i o] c]; cbn [clear_loop id_at nth_error option_map it_eqb fst end_]; [exists s; rewrite app_nil_r in E; rewrite E; auto 10|].
    cbn [map snd In] in NC. destruct (safe_decref_ok F R AR s a i o c E ltac:(tauto) ltac:(intros ->; tauto) L X S) as (t & a' & c' & SD & C & E' & RR & L1 & S1 & X1 & K1).
    rewrite SD. cbn [obind]. pose proof (linked_set t a' i o 0 c' L1 E') as L2. cbn [nds with_nds].
    rewrite (next_at {| nodes := a' ++ (i, 0) :: c'; fresh := fresh (nds t) |} a' i 0 c' (proj1 L2) eq_refl). cbn [obind].
    assert (NC' : ~ In 0 (map snd c')) by (apply (HN a c a' c' RR); tauto).
    set (s1 := with_nds {| nodes := a' ++ (i, 0) :: c'; fresh := fresh (nds t) |} (dec o t)).
    assert (K2 : forall p, p <> 0 -> slack s1 p = slack s p). { intros p Hp. unfold s1. rewrite slack_clear0 by assumption. rewrite K1 by exact Hp. lia. }
    specialize (IH s1 (a' ++ [(i, 0)]) c'). unfold s1 in IH at 1. cbn [nds with_nds nodes] in IH. rewrite <- app_assoc in IH.
    specialize (IH eq_refl (HP _ _ _ _ i RR PA) NC' L2 X1 ltac:(intros p Hp; rewrite K2 by exact Hp; apply S, Hp)).
    destruct (clear_loop fuel F (id_at c' 0) s1) as [r|]; [|exact I]. destruct IH as (s' & -> & P' & L' & S' & X' & K'). exists s'. split; [reflexivity|].
    split; [exact P'|]. split; [exact L'|]. split; [rewrite S'; exact S1|]. split; [exact X'|]. intros p Hp. rewrite K', K2; auto.
Qed.

Lemma clear_keeping F s fuel r : keeps F -> balanced s -> f_clear fuel F s = Some r ->
  exists s', r = Ret s' /\ items s' = [] /\ srcs s' = srcs s /\ forall p, p <> 0 -> 0 <= held s' p /\ 0 <= slack s' p.
Proof.
  intros HK B H. destruct (balanced_ok s B) as (L & X & S). destruct B as (_ & B & NI & _). unfold f_clear in H.
  pose proof (clear_around F rel_keeps (fun _ => True) (around_keeps F HK) (fun _ _ _ _ HR _ => proj1 HR) (fun _ _ _ _ _ _ _ => I) fuel s [] (nodes (nds s)) eq_refl I NI L X S) as C.
  change (id_at (nodes (nds s)) 0) with (begin_ (nds s)) in C. destruct (clear_loop fuel F (begin_ (nds s)) s) as [x|]; [|discriminate].
  destruct C as (s' & -> & _ & L' & S' & X' & K'). injection H as <-. eexists. split; [reflexivity|]. split; [reflexivity|]. split; [exact S'|].
  intros p Hp. split; [apply X', Hp|]. rewrite slack_nds, K' by exact Hp. destruct (B p Hp) as [_ ->]. cbn. pose proof (occ_nonneg (items s') p). lia.
Qed.

Definition zeros (m : list (nat * Z)) : Prop := Forall (fun n => snd n = 0) m.
Lemma occ_zeros m p : zeros m -> p <> 0 -> occ (map snd m) p = 0.
Proof.
  intros H Hp. induction H as [|[i o] m E H IH]; cbn [map snd occ]; [reflexivity|]. cbn [snd] in E. subst o. destruct (Z.eqb_spec 0 p); [congruence|]. lia.
Qed.
Lemma clear_appending Q F s fuel r : runs Q -> appends Q F -> balanced s -> f_clear fuel F s = Some r ->
  exists s', r = Ret s' /\ items s' = [] /\ srcs s' = srcs s /\ balanced s'.
Proof.
  intros (Q0 & QA & QN) HF B H. destruct (balanced_ok s B) as (L & X & S). destruct B as (_ & B & NI & NS). unfold f_clear in H.
  assert (HN : forall a c a' c', rel_appends Q a c a' c' -> ~ In 0 (map snd c) -> ~ In 0 (map snd c')).
  { intros a c a' c' (_ & m & -> & Qm) N. rewrite map_app, in_app_iff. intros [K|K]; [auto|]. exact (QN _ Qm K). }
  assert (HP : forall a c a' c' i, rel_appends Q a c a' c' -> zeros a -> zeros (a' ++ [(i, 0)])).
  { intros a c a' c' i (-> & _) Z. apply Forall_app. split; [exact Z|]. repeat constructor. }
  pose proof (clear_around F (rel_appends Q) zeros (around_appends Q F Q0 HF) HN HP fuel s [] (nodes (nds s)) eq_refl ltac:(constructor) NI L X S) as C.
  change (id_at (nodes (nds s)) 0) with (begin_ (nds s)) in C. destruct (clear_loop fuel F (begin_ (nds s)) s) as [x|]; [|discriminate].
  destruct C as (s' & -> & Z' & L' & S' & X' & K'). injection H as <-. eexists. split; [reflexivity|]. split; [reflexivity|]. split; [exact S'|].
  split; [apply linked_clear|]. split; [|split; [intros []|cbn; rewrite S'; exact NS]].
  intros p Hp. split; [apply X', Hp|]. rewrite slack_nds, K' by exact Hp. destruct (B p Hp) as [_ ->]. unfold items, values. rewrite occ_zeros by assumption. cbn. lia.
Qed.

(** More fuel changes nothing. *)
Lemma clear_loop_fuel F : forall n m it s r, (n <= m)%nat -> clear_loop n F it s = Some r -> clear_loop m F it s = Some r.
Proof.
  induction n as [|n IH]; intros m it s r Hm H.
  - destruct m; cbn [clear_loop] in *; destruct (it_eqb it end_); congruence.
  - destruct m as [|m]; [lia|]. cbn [clear_loop] in *. destruct (it_eqb it end_); [exact H|].
    destruct (obind (safe_decref F it s) (fun s0 => obind (it_next (nds s0) it) (fun nx => Ret (nx, s0)))) as [[nx s']| | |]; try exact H. apply IH; [lia|exact H].
Qed.
Lemma clear_fuel F n m s r : (n <= m)%nat -> f_clear n F s = Some r -> f_clear m F s = Some r.
Proof.
  intros Hm H. unfold f_clear in *. destruct (clear_loop n F (begin_ (nds s)) s) as [x|] eqn:E; [|discriminate]. rewrite (clear_loop_fuel F n m _ _ _ Hm E). exact H.
Qed.

(** Polite finalizers: as many steps as elements. *)
Lemma clear_ends F : polite F -> forall c a s fuel, nodes (nds s) = a ++ c -> ~ In 0 (map snd c) -> linked s -> held_ok s -> slack_ok s ->
  (length c <= fuel)%nat -> exists r, clear_loop fuel F (id_at c 0) s = Some r.
Proof.
  intros HF. induction c as [|[i o] c IH]; intros a s fuel E NC L X S Hf; [destruct fuel; cbn; eauto|].
  destruct fuel as [|fuel]; [cbn in Hf; lia|]. cbn [clear_loop id_at nth_error option_map it_eqb fst end_].
  cbn [map snd In] in NC. destruct (safe_decref_ok F _ (around_appends none F eq_refl HF) s a i o c E ltac:(tauto) ltac:(intros ->; tauto) L X S) as (t & a' & c' & SD & C & E' & (-> & m & -> & Qm) & L1 & S1 & X1 & K1).
  unfold none in Qm. apply map_eq_nil in Qm. subst m. rewrite app_nil_r in *.
  rewrite SD. cbn [obind]. pose proof (linked_set t a i o 0 c L1 E') as L2. cbn [nds with_nds].
  rewrite (next_at {| nodes := a ++ (i, 0) :: c; fresh := fresh (nds t) |} a i 0 c (proj1 L2) eq_refl). cbn [obind].
  apply (IH (a ++ [(i, 0)])); auto.
  - cbn [nds with_nds nodes]. rewrite <- app_assoc. reflexivity.
  - intros p Hp. rewrite slack_clear0 by assumption. rewrite K1 by exact Hp. specialize (S p Hp). lia.
  - cbn in Hf. lia.
Qed.
Lemma runs_none : runs none.
Proof. split; [reflexivity|]. split; [unfold none; intros ? ? -> ->; reflexivity|unfold none; intros ? ->; intros []]. Qed.
Lemma clear_polite F s fuel : polite F -> balanced s -> (length (items s) <= fuel)%nat ->
  exists s', f_clear fuel F s = Some (Ret s') /\ items s' = [] /\ srcs s' = srcs s /\ balanced s'.
Proof.
  intros HF B Hf. destruct (balanced_ok s B) as (L & X & S).
  assert (NI : ~ In 0 (items s)) by apply B. unfold items, values in Hf. rewrite map_length in Hf.
  destruct (clear_ends F HF (nodes (nds s)) [] s fuel eq_refl NI L X S Hf) as (r & E).
  assert (FC : exists r', f_clear fuel F s = Some r'). { unfold f_clear, begin_. rewrite E. cbn. eauto. }
  destruct FC as (r' & FC). destruct (clear_appending none F s fuel r' runs_none HF B FC) as (s' & -> & H). exists s'. split; [exact FC|exact H].
Qed.

(** ** Deallocation *)
Lemma dealloc_ends F : polite F -> forall c a s fuel, nodes (nds s) = a ++ c -> ~ In 0 (map snd c) -> linked s -> held_ok s ->
  (forall p, p <> 0 -> slack s p = - occ (map snd a) p) -> (length c <= fuel)%nat ->
  exists s', dealloc_loop fuel F (id_at c 0) s = Some (Ret s') /\ items s' = items s /\ srcs s' = srcs s /\ held_ok s' /\ (forall p, p <> 0 -> slack s' p = - occ (items s) p).
Proof.
  intros HF. induction c as [|[i o] c IH]; intros a s fuel E NC L X S Hf.
  - exists s. rewrite app_nil_r in E. destruct fuel; cbn; unfold items, values; rewrite E; auto 10.
  - destruct fuel as [|fuel]; [cbn in Hf; lia|]. cbn [dealloc_loop id_at nth_error option_map it_eqb fst end_].
    cbn [map snd In] in NC. assert (NZ : o <> 0) by (intros ->; tauto).
    rewrite (deref_at _ a i o c (proj1 L) E). cbn [obind].
    assert (RO : 1 <= refs s o).
    { specialize (X o NZ). specialize (S o NZ). unfold slack in S. rewrite (items_nodes s _ E), map_app, occ_app in S. cbn [map snd occ] in S. rewrite Z.eqb_refl in S.
      pose proof (occ_nonneg (srcs s) o). pose proof (occ_nonneg (map snd c) o). lia. }
    assert (RL : exists t, release F o s = Ret (dec o t) /\ linked t /\ srcs t = srcs s /\ held_ok t /\ nodes (nds t) = nodes (nds s) /\ (forall p, p <> 0 -> slack (dec o t) p = slack s p - occ [o] p)).
    { unfold release. destruct (Z.eqb_spec o 0); [contradiction|]. destruct (Z.leb_spec (refs s o) 0); [lia|]. destruct (Z.eqb_spec (refs s o) 1) as [R1|R1].
      - destruct (HF o s R1 L) as (t & m & FE & Qm & N & (L1 & S1 & P)). unfold none in Qm. apply map_eq_nil in Qm. subst m. rewrite app_nil_r in N. rewrite FE.
        assert (RT : 1 <= refs t o).
        { destruct (P o NZ) as [X1 K1]. specialize (X1 (X o NZ)). specialize (S o NZ). unfold slack in K1, S. unfold items, values in *. rewrite N in K1. rewrite S1 in K1. specialize (X o NZ).
          rewrite E, map_app, occ_app in S, K1. cbn [map snd occ] in S, K1. rewrite Z.eqb_refl in S, K1. pose proof (occ_nonneg (srcs s) o). pose proof (occ_nonneg (map snd c) o). lia. }
        destruct (Z.leb_spec (refs t o) 0); [lia|]. exists t. split; [reflexivity|]. split; [exact L1|]. split; [exact S1|]. split; [intros p Hp; apply P; auto|]. split; [exact N|].
        intros p Hp. unfold dec. rewrite slack_refs, upd_minus. destruct (P p Hp) as [_ ->]. lia.
      - exists s. split; [reflexivity|]. split; [exact L|]. split; [reflexivity|]. split; [exact X|]. split; [reflexivity|]. intros p Hp. unfold dec. rewrite slack_refs, upd_minus. lia. }
    destruct RL as (t & RL & L1 & S1 & X1 & N1 & K1). rewrite RL. cbn [obind nds dec with_refs].
    rewrite E in N1. rewrite (next_at _ a i o c (proj1 L1) N1). cbn [obind].
    destruct (IH (a ++ [(i, o)]) (dec o t) fuel) as (s' & D & N' & S' & X' & K'); auto.
    + cbn [nds dec with_refs]. rewrite N1, <- app_assoc. reflexivity.
    + intros p Hp. rewrite K1, S by exact Hp. rewrite map_app, occ_app. cbn [map snd occ]. lia.
    + cbn in Hf. lia.
    + exists s'. split; [exact D|]. assert (I : items (dec o t) = items s) by (rewrite (items_nodes s _ E); unfold items, values; cbn [nds dec with_refs]; rewrite N1; reflexivity).
      rewrite I in *. split; [exact N'|]. split; [rewrite S'; exact S1|]. split; [exact X'|exact K'].
Qed.
Lemma dealloc_polite F s fuel : polite F -> balanced s -> (length (items s) <= fuel)%nat ->
  exists s', f_dealloc fuel F s = Some (Ret s') /\ items s' = [] /\ srcs s' = srcs s /\ balanced s'.
Proof.
  intros HF (L & B & NI & NS) Hf. unfold items, values in Hf. rewrite map_length in Hf.
  destruct (dealloc_ends F HF (nodes (nds s)) [] s fuel eq_refl NI L) as (s' & D & I & S' & X' & K'); auto.
  - intros p Hp. apply B, Hp.
  - intros p Hp. destruct (B p Hp) as [_ ->]. reflexivity.
  - unfold f_dealloc, begin_. rewrite D. cbn [option_map obind]. eexists. split; [reflexivity|]. split; [reflexivity|]. split; [exact S'|].
    split; [apply linked_clear|]. split; [|split; [intros []|cbn; rewrite S'; exact NS]]. intros p Hp. split; [apply X', Hp|].
    rewrite slack_nds, K', I by exact Hp. cbn. lia.
Qed.
