(** Proofs about the import. *)
From Coq Require Import ZArith List Bool String Lia.
From Verif Require Import Base ImportModel ImportSpec.
Import ListNotations.
Local Open Scope string_scope.
Local Open Scope list_scope.
Local Open Scope Z_scope.

Lemma same_obj_spec a b : reflect (a = b) (same_obj a b).
Proof.
  destruct a as [c|i], b as [d|j]; cbn; try (constructor; discriminate).
  - destruct (String.eqb_spec c d); constructor; congruence.
  - destruct (Nat.eqb_spec i j); constructor; congruence.
Qed.
Lemma put_new d name o : entry d name = None -> put d name o = d ++ [(name, o)].
Proof. induction d as [|[k v] d IH]; cbn; auto. destruct (String.eqb k name); [discriminate|]. intros H. rewrite IH; auto. Qed.
Lemma entry_app d e name : entry (d ++ e) name = match entry d name with Some o => Some o | None => entry e name end.
Proof. induction d as [|[k v] d IH]; cbn; auto. destruct (String.eqb k name); auto. Qed.

Section P.
Variable G : nat -> bool.

(** What one class adds. *)
Definition one (c : string) (f : fate) (p : nat) (s s' : ist) : Prop :=
  meets G (asked s) f /\ asked s' = (asked s + requests f)%nat /\ (nxt s <= nxt s')%nat /\ fresh s' /\
  dict s' p = dict s p ++ taken [(c, f)] /\ (forall m, (m < nxt s)%nat -> m <> p -> dict s' m = dict s m) /\
  (forall m, (m < nxt s)%nat -> cnt s' (OMod m) = cnt s (OMod m)) /\
  (forall m, module_of f = Some m -> (nxt s <= m < nxt s')%nat /\ cnt s' (OMod m) = 1 /\ dict s' m = [(c, OType c)]) /\
  (forall m, (nxt s <= m)%nat -> module_of f <> Some m -> cnt s' (OMod m) = 0) /\
  (forall d, cnt s' (OType d) = cnt s (OType d) + (if module_of f then if string_dec c d then 1 else 0 else 0)) /\
  (exc s' = None <-> exc s = None /\ bound f <> None).

Ltac objs := repeat match goal with
  | |- context [same_obj ?a ?b] => destruct (same_obj_spec a b)
  | |- context [Nat.eqb ?a ?b] => destruct (Nat.eqb_spec a b)
  | |- context [String.eqb ?a ?b] => destruct (String.eqb_spec a b)
  | |- context [string_dec ?a ?b] => destruct (string_dec a b)
  end; subst; try congruence; try lia.

Lemma one_step c p s : fresh s -> (p < nxt s)%nat -> entry (dict s p) c = None ->
  exists f, one c f p s (let (t, o) := init_one G c s in fst (add_object G p c o t)).
Proof.
  intros F P E. unfold init_one, module_create. destruct (G (asked s)) eqn:G0.
  2: { exists NoModule. unfold one. cbn. rewrite app_nil_r. split; auto. split; [lia|]. split; [lia|]. split; [intros m; cbn; apply F|].
       split; auto. split; auto. split; auto. split; [discriminate|]. split; [intros; apply F; auto|]. split; [intros; lia|]. split; [discriminate | intros (_ & H); congruence]. }
  cbn [ask inc bump asked add_object entry dict cnt exc nxt]. destruct (G (S (asked s))) eqn:G1.
  2: { exists NotFilled. unfold one. unfold dec, bump, set_dict, with_exc, ask. cbn. rewrite Nat.eqb_refl. cbn.
       assert (X : forall b : bool, (if b then 1 + -1 else 1) = 0 -> b = true) by (intros []; auto; discriminate).
       rewrite (app_nil_r (dict s p)). replace (asked s + 1)%nat with (S (asked s)) by lia.
       split; auto. split; [lia|]. split; [lia|]. split; [intros m H; cbn; cbn in H; objs; apply F; lia|].
       split; [objs|]. split; [intros m L N; cbn; objs|]. split; [intros m L; cbn; objs|]. split; [discriminate|].
       split; [intros m L _; cbn; objs; apply F; lia|]. split; [intros d; cbn; objs; lia|]. split; [discriminate | intros (_ & H); congruence]. }
  unfold inc, bump, ask, set_dict, add_object, with_exc. cbn. rewrite !Nat.eqb_refl. cbn.
  destruct (Nat.eqb_spec (nxt s) p) as [X|NP]; [lia|]. destruct (G (S (S (asked s)))) eqn:G2.
  - exists (Bound (nxt s)). unfold one. cbn. rewrite E. cbn. rewrite Nat.eqb_refl, (put_new _ _ _ E).
    replace (asked s + 1)%nat with (S (asked s)) by lia. replace (asked s + 2)%nat with (S (S (asked s))) by lia.
    split; auto. split; [lia|]. split; [lia|]. split; [intros m H; cbn; cbn in H; objs; apply F; lia|].
    split; [auto|]. split; [intros m L N; cbn; objs|]. split; [intros m L; cbn; objs|].
    split; [intros m [= <-]; split; [lia|]; rewrite !Nat.eqb_refl; split; [auto|]; objs|].
    split; [intros m L N; cbn; objs; apply F; lia|]. split; [intros d; cbn; objs; lia|]. split; [intros H; split; auto; discriminate | tauto].
  - exists (Lost (nxt s)). unfold one. cbn. rewrite ?Nat.eqb_refl, app_nil_r.
    replace (asked s + 1)%nat with (S (asked s)) by lia. replace (asked s + 2)%nat with (S (S (asked s))) by lia.
    split; auto. split; [lia|]. split; [lia|]. split; [intros m H; cbn; cbn in H; objs; apply F; lia|].
    split; [objs|]. split; [intros m L N; cbn; objs|]. split; [intros m L; cbn; objs|].
    split; [intros m [= <-]; split; [lia|]; rewrite !Nat.eqb_refl; split; [auto|]; objs|].
    split; [intros m L N; cbn; objs; apply F; lia|]. split; [intros d; cbn; objs; lia|]. split; [discriminate | intros (_ & H); congruence].
Qed.

Definition all_bound (fs : list (string * fate)) : Prop := Forall (fun e => bound (snd e) <> None) fs.
Lemma add_all_fates p : forall cs s, fresh s -> (p < nxt s)%nat -> NoDup cs -> (forall c, In c cs -> entry (dict s p) c = None) ->
  let s' := add_all G p cs s in
  exists fs, map fst fs = cs /\ all_meet G (asked s) fs /\ (nxt s <= nxt s')%nat /\ fresh s' /\
    dict s' p = dict s p ++ taken fs /\ (forall m, (m < nxt s)%nat -> m <> p -> dict s' m = dict s m) /\
    (forall m, (m < nxt s)%nat -> cnt s' (OMod m) = cnt s (OMod m)) /\
    NoDup (map snd (kept fs)) /\
    (forall c m, In (c, m) (kept fs) -> (nxt s <= m < nxt s')%nat /\ cnt s' (OMod m) = 1 /\ dict s' m = [(c, OType c)]) /\
    (forall m, (nxt s <= m)%nat -> ~ In m (map snd (kept fs)) -> cnt s' (OMod m) = 0) /\
    (forall d, cnt s' (OType d) = cnt s (OType d) + Z.of_nat (count_occ string_dec (map fst (kept fs)) d)) /\
    (exc s' = None <-> exc s = None /\ all_bound fs).
Proof.
  induction cs as [|c cs IH]; intros s F P N E s'; subst s'; cbn [add_all].
  - exists []. cbn. rewrite app_nil_r. split; auto. split; auto. split; [lia|]. split; auto. split; auto. split; auto. split; auto. split; [constructor|].
    split; [contradiction|]. split; [auto|]. split; [intros; lia|]. split; [intros H; split; auto; constructor | tauto].
  - destruct (one_step c p s F P (E c (or_introl eq_refl))) as (f & O). destruct (init_one G c s) as [t o]. set (u := fst (add_object G p c o t)) in *. clearbody u. clear t o.
    destruct O as (O1 & O2 & O3 & O4 & O5 & O6 & O7 & O8 & O9 & O10 & O11). inversion N as [|? ? N1 N2]; subst.
    destruct (IH u O4 ltac:(lia) N2) as (fs & A1 & A2 & A3 & A4 & A5 & A6 & A7 & A8 & A9 & A10 & A11 & A12).
    { intros d D. rewrite O5, entry_app, (E d (or_intror D)). cbn. destruct (bound f); auto. cbn. destruct (String.eqb_spec c d); congruence. }
    assert (K : forall m, In m (map snd (kept fs)) -> (nxt u <= m)%nat).
    { intros m H. apply in_map_iff in H. destruct H as ((d, m') & X & H). cbn in X. subst. apply (A9 _ _ H). }
    exists ((c, f) :: fs). cbn [map fst all_meet]. rewrite A1. split; auto. split; [split; auto; rewrite <- O2; auto|]. split; [lia|]. split; auto.
    split; [rewrite A5, O5, <- app_assoc; cbn; destruct (bound f); auto|].
    split; [intros m L M; rewrite A6 by lia; auto|]. split; [intros m L; rewrite A7 by lia; auto|].
    cbn [kept]. destruct (module_of f) as [m0|] eqn:M.
    + destruct (O8 m0 eq_refl) as (B1 & B2 & B3). cbn [map snd fst].
      split; [constructor; auto; intros H; specialize (K _ H); lia|].
      split; [intros d m [X|X]; [inversion X; subst; split; [lia|]; rewrite A7, A6 by lia; auto | destruct (A9 _ _ X) as (C1 & C2); split; [lia | auto]]|].
      split. { intros m L H. destruct (Nat.lt_ge_cases m (nxt u)) as [L2|L2]; [rewrite A7 by auto; apply O9; auto; intros X; apply H; left; congruence | apply A10; auto; intros X; apply H; right; auto]. }
      split. { intros d. rewrite A11, O10. cbn [count_occ]. destruct (string_dec c d); lia. }
      rewrite A12, O11. unfold all_bound. split; [intros ((X & Y) & Z); split; auto; constructor; auto | intros (X & Y); inversion Y; subst; auto].
    + split; auto. split; [intros d m X; destruct (A9 _ _ X) as (C1 & C2); split; [lia | auto]|].
      split. { intros m L H. destruct (Nat.lt_ge_cases m (nxt u)) as [L2|L2]; [rewrite A7 by auto; apply O9; auto; discriminate | apply A10; auto]. }
      split. { intros d. rewrite A11, O10. lia. }
      rewrite A12, O11. unfold all_bound. split; [intros ((X & Y) & Z); split; auto; constructor; auto | intros (X & Y); inversion Y; subst; auto].
Qed.
End P.

Lemma all_bound_meet G : forall fs n, all_meet G n fs ->
  (all_bound fs <-> forall i, (i < 3 * List.length fs)%nat -> G (n + i)%nat = true).
Proof.
  unfold all_bound. induction fs as [|[c f] fs IH]; intros n M; [split; [cbn; lia | constructor]|].
  destruct M as (M1 & M2). specialize (IH _ M2). split.
  - intros A. inversion A as [|? ? A1 A2]; subst. cbn in A1. destruct f; cbn in A1; try congruence. cbn in M1. destruct M1 as (X & Y & Z). cbn [requests] in *.
    intros i I. cbn [List.length] in I. destruct i as [|[|[|i]]]; [rewrite Nat.add_0_r; auto | auto | auto |].
    replace (n + S (S (S i)))%nat with (n + 3 + i)%nat by lia. apply IH; auto. lia.
  - intros H. destruct f; cbn in M1.
    + specialize (H O ltac:(cbn; lia)). rewrite Nat.add_0_r in H. congruence.
    + specialize (H 1%nat ltac:(cbn; lia)). destruct M1. congruence.
    + specialize (H 2%nat ltac:(cbn; lia)). destruct M1 as (? & ? & ?). congruence.
    + constructor; [discriminate|]. apply IH. intros i I. cbn [requests]. replace (n + 3 + i)%nat with (n + S (S (S i)))%nat by lia. apply H. cbn [List.length]. lia.
Qed.

Lemma load_cases G s : fresh s -> exc s = None ->
  (G (asked s) = false /\ load G s = ({| cnt := cnt s; dict := dict s; exc := None; nxt := nxt s; asked := S (asked s) |}, Failed MemoryError)) \/
  exists p fs, attempt G s (fst (load G s)) p fs /\
    ((all_bound fs /\ snd (load G s) = Loaded p) \/ (~ all_bound fs /\ snd (load G s) = Failed SystemError)).
Proof.
  intros F E. unfold load, py_init, module_create. destruct (G (asked s)) eqn:G0; [|left; auto]. right.
  set (t := ask _).
  destruct (add_all_fates G (nxt s) classes t) as (fs & A1 & A2 & A3 & A4 & A5 & A6 & A7 & A8 & A9 & A10 & A11 & A12).
  { intros m H. cbn in *. destruct (Nat.eqb_spec (nxt s) m); [lia|]. apply F. lia. }
  { cbn. lia. }
  { unfold classes. repeat (constructor; [cbn; intuition discriminate|]). constructor. }
  { intros c _. cbn. rewrite Nat.eqb_refl. auto. }
  set (u := add_all G (nxt s) classes t) in *. clearbody u. exists (nxt s), fs.
  assert (AT : forall u', cnt u' = cnt u -> dict u' = dict u -> nxt u' = nxt u -> exc u' = None -> attempt G s u' (nxt s) fs).
  { intros u' C D N X. unfold attempt. unfold fresh. rewrite C, D, N.
    split; auto. split; auto. split; auto. split; [rewrite A7 by (cbn; lia); cbn; rewrite Nat.eqb_refl; auto|].
    split; [rewrite A5; cbn; rewrite Nat.eqb_refl; auto|].
    split; [constructor; auto; intros H; apply in_map_iff in H; destruct H as ((d, m) & Y & H); cbn in Y; subst; destruct (A9 _ _ H) as (B & _); cbn in B; lia|].
    split. { intros m [<-|H]; [cbn in A3; lia|]. apply in_map_iff in H; destruct H as ((d, m') & Y & H); cbn in Y; subst; destruct (A9 _ _ H) as (B & _); cbn in B; lia. }
    split; [intros c m H; apply (A9 _ _ H)|].
    split. { intros m H. destruct (Nat.lt_ge_cases m (nxt t)) as [L|L].
      - rewrite A7 by auto. cbn. destruct (Nat.eqb_spec (nxt s) m); auto. subst. exfalso. apply H. left. auto.
      - rewrite A10; auto; [symmetry; apply F; cbn in L; lia | intros X1; apply H; right; auto]. }
    split. { intros m L. rewrite A6 by (cbn; lia). cbn. destruct (Nat.eqb_spec (nxt s) m); [lia | auto]. }
    split; [intros c; rewrite A11; cbn; auto|]. split; auto. }
  destruct (exc u) eqn:X.
  - split; [apply AT; auto|]. right. split; auto. intros B. assert (Some e = None) by (apply A12; split; auto). discriminate.
  - split; [apply AT; auto|]. left. split; auto. apply A12; auto.
Qed.

Lemma bound_kept fs : all_bound fs -> kept fs = map (fun e => (fst e, match snd e with Bound m => m | _ => O end)) fs /\ taken fs = map (fun e => (fst e, OMod (match snd e with Bound m => m | _ => O end))) fs.
Proof.
  induction 1 as [|[c f] fs B H IH]; cbn; auto. destruct f; cbn in B; try congruence. cbn. destruct IH as (-> & ->). auto.
Qed.
Lemma entry_map {A} (fs : list (string * A)) (g : A -> nat) : forall c, NoDup (map fst fs) -> In c (map fst fs) ->
  exists x, In (c, x) fs /\ entry (map (fun e => (fst e, OMod (g (snd e)))) fs) c = Some (OMod (g x)).
Proof.
  induction fs as [|[d x] fs IH]; intros c N I; [destruct I|]. cbn in *. inversion N; subst. destruct (String.eqb_spec d c).
  - subst. exists x. auto.
  - destruct I as [I|I]; [congruence|]. destruct (IH c) as (y & Y1 & Y2); auto. exists y. auto.
Qed.
Lemma library_nodup : NoDup library.
Proof. unfold library. repeat (constructor; [cbn; intuition discriminate|]). constructor. Qed.

Lemma attempt_complete G s s' p fs : attempt G s s' p fs -> all_bound fs -> complete s s' p.
Proof.
  intros (A1 & A2 & A3 & A4 & A5 & A6 & A7 & A8 & A9 & A10 & A11 & A12) B. destruct (bound_kept fs B) as (K & T). unfold complete. rewrite A5, T.
  split; [rewrite map_map; cbn; auto|]. split; auto. split.
  - intros c I. destruct (entry_map fs (fun f => match f with Bound m => m | _ => O end) c) as (f & F1 & F2); [rewrite A1; apply library_nodup | rewrite A1; auto|].
    exists (match f with Bound m => m | _ => O end). 
    assert (IK : In (c, match f with Bound m => m | _ => O end) (kept fs)) by (rewrite K; apply in_map_iff; exists (c, f); auto).
    split; [intros <-; inversion A6 as [|? ? X _]; subst; apply X; apply in_map_iff; eexists; split; [|apply IK]; auto|].
    split; auto. destruct (A8 _ _ IK). auto.
  - assert (Q : map fst (kept fs) = library) by (rewrite K, map_map, <- A1; reflexivity).
    intros c. rewrite A11, Q. f_equal.
    destruct (in_dec string_dec c library) as [I|I].
    + rewrite (proj1 (NoDup_count_occ' string_dec library) library_nodup c I). reflexivity.
    + apply (count_occ_not_In string_dec) in I. rewrite I. reflexivity.
Qed.

Lemma attempt_bound G s s' p fs : attempt G s s' p fs -> (all_bound fs <-> forall i, (i < all_requests)%nat -> G (asked s + i)%nat = true).
Proof.
  intros (A1 & A2 & A3 & _). rewrite (all_bound_meet G fs _ A3). assert (L : List.length fs = 14%nat) by (rewrite <- (map_length fst), A1; auto).
  rewrite L. unfold all_requests. change (List.length library) with 14%nat. split; intros H i I.
  - destruct i; [rewrite Nat.add_0_r; auto|]. replace (asked s + S i)%nat with (S (asked s) + i)%nat by lia. apply H. lia.
  - replace (S (asked s) + i)%nat with (asked s + S i)%nat by lia. apply H. lia.
Qed.

Theorem import_loaded G s p s' : fresh s -> exc s = None -> load G s = (s', Loaded p) -> complete s s' p /\ fresh s' /\ exc s' = None.
Proof.
  intros F E L. destruct (load_cases G s F E) as [(_ & X)|(q & fs & A & [(B & X)|(_ & X)])]; rewrite L in *; cbn in *; try congruence.
  injection X as <-. split; [eapply attempt_complete; eauto|]. destruct A as (? & ? & ? & ? & ? & ? & ? & ? & ? & ? & ? & ? & ?). auto.
Qed.
Theorem import_result G s : fresh s -> exc s = None ->
  ((exists p, snd (load G s) = Loaded p) <-> forall i, (i < all_requests)%nat -> G (asked s + i)%nat = true) /\
  (snd (load G s) = Failed MemoryError <-> G (asked s) = false) /\
  (forall e, snd (load G s) = Failed e -> e = MemoryError \/ e = SystemError).
Proof.
  intros F E. destruct (load_cases G s F E) as [(N & X)|(q & fs & A & [(B & X)|(B & X)])]; rewrite X.
  - cbn. split; [|split; [tauto | intros e [= <-]; auto]]. split; [intros (p & H); discriminate|]. intros H. specialize (H O ltac:(unfold all_requests; lia)). rewrite Nat.add_0_r in H. congruence.
  - pose proof (proj1 (attempt_bound _ _ _ _ _ A) B) as R. split; [split; eauto|]. split; [|discriminate]. split; [discriminate|].
    destruct A as (_ & A & _). congruence.
  - split; [|split]; [|split; [discriminate | destruct A as (_ & A & _); congruence] | intros e [= <-]; auto].
    split; [intros (p & H); discriminate|]. intros R. exfalso. apply B. apply (attempt_bound _ _ _ _ _ A). auto.
Qed.
Theorem import_left G s e : fresh s -> exc s = None -> snd (load G s) = Failed e ->
  (G (asked s) = false /\ cnt (fst (load G s)) = cnt s /\ dict (fst (load G s)) = dict s) \/
  exists p fs, attempt G s (fst (load G s)) p fs /\ exists c f, In (c, f) fs /\ bound f = None.
Proof.
  intros F E L. destruct (load_cases G s F E) as [(N & X)|(q & fs & A & [(B & X)|(B & X)])].
  - left. rewrite X. auto.
  - congruence.
  - right. exists q, fs. split; auto. clear -B. unfold all_bound in B. induction fs as [|[c f] fs IH]; [destruct B; constructor|].
    destruct (bound f) eqn:Y.
    + destruct IH as (d & g & I & Z); [intros H; apply B; constructor; auto; cbn; congruence|]. exists d, g. split; [right|]; auto.
    + exists c, f. split; [left|]; auto.
Qed.
Lemma load_keeps G s : fresh s -> exc s = None -> fresh (fst (load G s)) /\ exc (fst (load G s)) = None.
Proof.
  intros F E. destruct (load_cases G s F E) as [(_ & X)|(q & fs & A & _)].
  - rewrite X. cbn. split; auto.
  - destruct A as (? & ? & ? & ? & ? & ? & ? & ? & ? & ? & ? & ? & ?). auto.
Qed.
Theorem import_retry Gs : forall s G, fresh s -> exc s = None ->
  (forall n, G n = true) -> let t := after_attempts Gs s in exists p, snd (load G t) = Loaded p /\ complete t (fst (load G t)) p.
Proof.
  induction Gs as [|H Gs IH]; intros s G F E A t.
  - cbn in t. subst t. destruct (import_result G s F E) as ((_ & R) & _). destruct (R ltac:(auto)) as (p & P). exists p. split; auto.
    eapply (import_loaded G s p); eauto. rewrite <- P. apply surjective_pairing.
  - apply IH; auto; apply load_keeps; auto.
Qed.

Lemma file_gives s p names : (forall c, In c names -> exists m, entry (dict s p) c = Some (OMod m) /\ dict s m = [(c, OType c)]) ->
  py_file s p names = inl (classes_of names).
Proof.
  unfold py_file. intros H.
  assert (X : exists l, from_import (dict s p) names = inl l /\ take_out s l = inl (classes_of names)).
  { induction names as [|n names IH]; [exists []; auto|]. destruct IH as (l & A & B); [intros; apply H; right; auto|].
    destruct (H n (or_introl eq_refl)) as (m & M1 & M2). exists ((n, OMod m) :: l). cbn. rewrite M1, A. split; auto. rewrite M2. cbn. rewrite String.eqb_refl, B. auto. }
  destruct X as (l & -> & ->). auto.
Qed.
Theorem import_files s s' p : complete s s' p ->
  py_file s' p ints_py = inl (classes_of ints_py) /\ py_file s' p objects_py = inl (classes_of objects_py) /\ py_file s' p unsafe_py = inl (classes_of unsafe_py).
Proof.
  intros (_ & _ & C & _).
  assert (X : forall names, incl names library -> py_file s' p names = inl (classes_of names)).
  { intros names I. apply file_gives. intros c H. destruct (C c (I c H)) as (m & _ & M1 & M2 & _). eauto. }
  split; [|split]; apply X; intros c H; cbn in H; unfold library; cbn; tauto.
Qed.
Theorem library_split : forall c, In c library <-> In c (ints_py ++ objects_py ++ unsafe_py).
Proof. intros c. unfold library, ints_py, objects_py, unsafe_py. cbn. tauto. Qed.
