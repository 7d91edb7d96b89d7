(** Proofs for C74. *)
From Coq Require Import ZArith List Bool String Lia Permutation.
From Verif Require Import Base PyListSpec PyLongModel PyLongProofs ListLemmas ArrayListModel LifeModel LifeSpec.
Import ListNotations.
Local Open Scope Z_scope.
Local Arguments Z.pow : simpl never.
Local Arguments Z.add : simpl never.
Local Arguments Z.mul : simpl never.
Local Arguments Z.sub : simpl never.

(** ** Blocks *)
Definition well (m : mem) : Prop := NoDup (heap m) /\ Forall (fun b => 0 < b < next m) (heap m) /\ 0 < next m.
Definition tidy (d : cell) (m : mem) (R : list Z) : Prop := well m /\ Permutation (heap m) (own d ++ R).

Lemma NoDup_perm : forall (l m : list Z), NoDup l -> Permutation l m -> NoDup m.
Proof. intros l m N P. exact (Permutation_NoDup P N). Qed.

Lemma filter_out : forall (b : Z) l, ~ In b l -> filter (fun x => negb (x =? b)) l = l.
Proof.
  intros b l. induction l as [|a l IH]; [reflexivity|]. intros H. cbn [filter].
  destruct (Z.eqb_spec a b) as [->|]; [elim H; left; reflexivity|]. cbn [negb]. f_equal. apply IH. intros K. apply H. right; exact K.
Qed.
Lemma filter_perm : forall (b : Z) l R, NoDup l -> Permutation l (b :: R) ->
  Permutation (filter (fun x => negb (x =? b)) l) R.
Proof.
  intros b l R N P. assert (N2 := NoDup_perm _ _ N P). inversion N2 as [|? ? Hb NR]; subst.
  assert (G : forall u v, Permutation u v -> Permutation (filter (fun x => negb (x =? b)) u) (filter (fun x => negb (x =? b)) v)).
  { induction 1 as [|x u v _ IH|x y u|u v t _ IH1 _ IH2]; cbn [filter].
    - constructor.
    - destruct (negb (x =? b)); [constructor|]; assumption.
    - destruct (negb (x =? b)), (negb (y =? b)); try apply Permutation_refl. apply perm_swap.
    - eapply Permutation_trans; eassumption. }
  specialize (G _ _ P). cbn [filter] in G. rewrite Z.eqb_refl in G. cbn [negb] in G. rewrite (filter_out b R Hb) in G. exact G.
Qed.

Lemma free_ok : forall b R m, well m -> Permutation (heap m) (b :: R) ->
  exists m', free b m = Ret m' /\ well m' /\ next m' = next m /\ Permutation (heap m') R.
Proof.
  intros b R m (N & F & X) P. unfold free.
  assert (I : In b (heap m)) by (apply (Permutation_in b (Permutation_sym P)); left; reflexivity).
  replace (existsb (Z.eqb b) (heap m)) with true
    by (symmetry; apply existsb_exists; exists b; split; [exact I|apply Z.eqb_refl]).
  eexists. split; [reflexivity|]. cbn [heap next]. split; [|split; [reflexivity|apply filter_perm; assumption]].
  split; [|split]; cbn [heap next]; [apply NoDup_filter; exact N| |exact X]. rewrite Forall_forall in *. intros x Hx. apply filter_In in Hx. apply F. tauto.
Qed.
Lemma free_all_ok : forall bs R m, well m -> Permutation (heap m) (bs ++ R) ->
  exists m', free_all bs m = Ret m' /\ well m' /\ next m' = next m /\ Permutation (heap m') R.
Proof.
  induction bs as [|b bs IH]; intros R m W P; cbn [free_all].
  - exists m. auto.
  - destruct (free_ok b (bs ++ R) m W P) as (m1 & E & W1 & X1 & P1). rewrite E. cbn [obind].
    destruct (IH R m1 W1 P1) as (m2 & E2 & W2 & X2 & P2). exists m2. rewrite E2. split; [reflexivity|]. split; [exact W2|].
    split; [lia|exact P2].
Qed.
Lemma alloc_ok : forall m, well m -> well (snd (alloc m)) /\ heap (snd (alloc m)) = next m :: heap m.
Proof.
  intros m (N & F & X). cbn. split; [|reflexivity]. split; [|split]; cbn [heap next].
  - constructor; [|exact N]. intros H. rewrite Forall_forall in F. specialize (F _ H). lia.
  - constructor; [lia|]. rewrite Forall_forall in *. intros x Hx. specialize (F x Hx). lia.
  - lia.
Qed.

(** ** Containers *)
Definition shape (c : cls) (d : cell) : Prop :=
  if linked c then built d = true /\ List.length (own d) = List.length (items d) else (List.length (own d) <= 1)%nat.

Lemma vec_room_ok : forall need wish d m R, tidy d m R -> (List.length (own d) <= 1)%nat ->
  exists d' m', vec_room need wish (d, m) = Ret (d', m') /\ tidy d' m' R /\ (List.length (own d') <= 1)%nat /\ items d' = items d.
Proof.
  intros need wish d m R [W P] L. unfold vec_room. destruct (need <=? cap d); [exists d, m; repeat split; auto; apply W|].
  destruct (alloc_ok m W) as [W1 E1]. unfold alloc in *. cbn [snd] in *.
  set (m1 := {| heap := next m :: heap m; next := next m + 1 |}) in *.
  destruct (free_all_ok (own d) (next m :: R) m1 W1) as (m2 & E2 & W2 & _ & P2).
  { rewrite E1. eapply Permutation_trans; [apply perm_skip; exact P|]. apply Permutation_middle. }
  rewrite E2. cbn [obind]. eexists _, m2. split; [reflexivity|]. split; [split; [exact W2|exact P2]|]. split; [cbn; lia|reflexivity].
Qed.

Lemma push_ok : forall c v d m R, tidy d m R -> shape c d ->
  exists d' m', push c v (d, m) = Ret (d', m') /\ tidy d' m' R /\ shape c d' /\ items d' = items d ++ [v].
Proof.
  intros c v d m R T S. unfold push, shape in *. cbn [fst snd]. destruct (linked c) eqn:L.
  - destruct S as [B S]. rewrite B. destruct T as [W P]. destruct (alloc_ok m W) as [W1 E1]. unfold alloc in *. cbn [snd] in *.
    eexists _, _. split; [reflexivity|]. cbn [built items own]. split; [split; [exact W1|]|].
    + cbn [heap own]. eapply Permutation_trans; [apply perm_skip; exact P|]. rewrite <- app_assoc. apply Permutation_middle.
    + rewrite !app_length. cbn. split; [split; [reflexivity|lia]|reflexivity].
  - destruct (vec_room_ok (zlen (items d) + 1) (Z.max (2 * zlen (items d)) (zlen (items d) + 1)) d m R T S)
      as (d1 & m1 & E & T1 & S1 & I1). rewrite E. cbn [obind put_items fst snd]. eexists _, m1. split; [reflexivity|].
    split; [exact T1|]. split; [exact S1|]. cbn [with_items items]. rewrite I1. reflexivity.
Qed.

Lemma push_all_ok : forall c vs d m R, tidy d m R -> shape c d ->
  exists d' m', push_all c vs (d, m) = Ret (d', m') /\ tidy d' m' R /\ shape c d' /\ items d' = items d ++ vs.
Proof.
  intros c vs. induction vs as [|v vs IH]; intros d m R T S; cbn [push_all].
  - exists d, m. rewrite app_nil_r. auto.
  - destruct (push_ok c v d m R T S) as (d1 & m1 & E & T1 & S1 & I1). rewrite E. cbn [obind].
    destruct (IH d1 m1 R T1 S1) as (d2 & m2 & E2 & T2 & S2 & I2). exists d2, m2. rewrite I2, I1, <- app_assoc. auto.
Qed.
Lemma assign_all_ok : forall c vs d m R, tidy d m R -> shape c d -> items d = [] ->
  exists d' m', assign_all c vs (d, m) = Ret (d', m') /\ tidy d' m' R /\ shape c d' /\ items d' = vs.
Proof.
  intros c vs d m R T S I. unfold assign_all. destruct (linked c) eqn:L.
  - destruct (push_all_ok c vs d m R T S) as (d1 & m1 & E & T1 & S1 & I1). exists d1, m1. rewrite I1, I. auto.
  - unfold shape in *. rewrite L in *. destruct (vec_room_ok (zlen vs) (zlen vs) d m R T S) as (d1 & m1 & E & T1 & S1 & I1).
    rewrite E. cbn [obind put_items fst snd]. eexists _, m1. split; [reflexivity|]. auto.
Qed.

(** ** Items *)
Lemma conv_holds : forall c o, match conv c o with Ret v => holds c o = true /\ v = stored c o | _ => holds c o = false end.
Proof.
  intros c o. destruct c, o as [z|i]; cbn [conv]; unfold as_elem, as_long; cbn [holds stored]; auto; try reflexivity;
    destruct (in_sbits_b 64 z) eqn:E; cbn [obind omap bits]; try reflexivity; (split; [reflexivity|]); try reflexivity.
  f_equal. apply in_sbits_b_spec in E. unfold wrap, in_sbits in *. change (64 - 1) with 63 in *. rewrite Z.mod_small; lia.
Qed.

Lemma fill_ok : forall c its d m R, tidy d m R -> shape c d ->
  exists d' m', fill c its (d, m) = (if forallb (holds c) its then Ret tt else Raise RuntimeError, (d', m')) /\
    tidy d' m' R /\ shape c d' /\ items d' = items d ++ taken c its.
Proof.
  intros c its. induction its as [|o its IH]; intros d m R T S; cbn [fill forallb taken].
  - exists d, m. rewrite app_nil_r. auto.
  - assert (H := conv_holds c o). destruct (conv c o) as [v| | |]; try (rewrite H; cbn [andb]; exists d, m; rewrite app_nil_r; auto).
    destruct H as [H ->]. rewrite H. cbn [andb].
    destruct (push_ok c (stored c o) d m R T S) as (d1 & m1 & E & T1 & S1 & I1). rewrite E.
    destruct (IH d1 m1 R T1 S1) as (d2 & m2 & E2 & T2 & S2 & I2). exists d2, m2. rewrite I2, I1, <- app_assoc. auto.
Qed.
Lemma holds_obj : forall its, forallb (holds ObjA) its = true /\ taken ObjA its = its.
Proof. induction its as [|o its [IH1 IH2]]; [auto|]. cbn [forallb taken holds stored andb]. rewrite IH2. auto. Qed.

(** ** Arguments *)
Lemma kw_get_find : forall kw name,
  kw_get kw name = option_map snd (find (fun p => String.eqb (fst p) name) kw).
Proof. induction kw as [|[k a] kw IH]; intros name; cbn; [reflexivity|]. destruct (String.eqb k name); [reflexivity|apply IH]. Qed.

Definition size_of_arg (a : option carg) : Z := match a with Some (CInt z) => z | _ => -1 end.

Ltac keys := repeat match goal with
  | |- context [String.eqb ?a ?b] => destruct (String.eqb_spec a b); subst
  | H : context [String.eqb ?a ?b] |- _ => destruct (String.eqb_spec a b); subst
  end.

Lemma zlen_0 : forall A, zlen (@nil A) = 0. Proof. reflexivity. Qed.
Lemma zlen_S : forall A (x : A) l, zlen (x :: l) = zlen l + 1.
Proof. intros A x l. unfold zlen. cbn [List.length]. lia. Qed.
Lemma zlen_pos : forall A (l : list A), 0 <= zlen l. Proof. intros A l. unfold zlen. lia. Qed.

Fixpoint used (kw : kwargs) (ns : list string) : Z :=
  match ns with [] => 0 | n :: r => found (kw_get kw n) + used kw r end.
(** Keywords of a call that are all used up. *)
Lemma used_up : forall kw (ns : list string), NoDup (map fst kw) ->
  (forall k a, In (k, a) kw -> In k ns) -> NoDup ns ->
  zlen kw = used kw ns.
Proof.
  intros kw ns N I D.
  assert (G : forall kw', NoDup (map fst kw') -> (forall k a, In (k, a) kw' -> In k ns) ->
    zlen kw' = used kw' ns); [|apply G; assumption].
  clear N I kw. induction kw' as [|[k a] kw IH]; intros N I.
  - rewrite zlen_0. clear. induction ns as [|n ns IHn]; cbn [used kw_get found] in *; [reflexivity|]. lia.
  - rewrite zlen_S. cbn [map fst] in N. inversion N as [|? ? Nk N']; subst. rewrite IH; [|exact N'|intros k' a' H; exact (I k' a' (or_intror H))].
    assert (Hk : In k ns) by (apply (I k a); left; reflexivity). clear IH I.
    assert (Z0 : kw_get kw k = None).
    { rewrite kw_get_find. destruct (find _ kw) as [[k' a']|] eqn:F; [|reflexivity]. apply find_some in F. destruct F as [F1 F2].
      cbn in F2. apply String.eqb_eq in F2. subst k'. elim Nk. apply in_map_iff. exists (k, a'). auto. }
    assert (NN : forall l, ~ In k l -> used ((k, a) :: kw) l
                    = used kw l).
    { induction l as [|n l IHl]; [reflexivity|]. intros H. cbn [used]. rewrite IHl by (intros K; apply H; right; exact K). cbn [kw_get].
      destruct (String.eqb_spec k n) as [->|]; [elim H; left; reflexivity|reflexivity]. }
    revert D Hk. clear - Z0 NN. induction ns as [|n ns IHn]; intros D Hk; [destruct Hk|]. inversion D as [|? ? Dn D']; subst.
    cbn [used]. destruct (String.eqb_spec k n) as [->|K].
    + rewrite (NN ns Dn), Z0. cbn [kw_get]. rewrite String.eqb_refl. cbn [found]. lia.
    + destruct Hk as [->|Hk]; [contradiction|]. specialize (IHn D' Hk). cbn [kw_get]. destruct (String.eqb_spec k n); [contradiction|]. lia.
Qed.
Lemma used_le : forall kw (ns : list string), NoDup ns ->
  used kw ns <= zlen kw.
Proof.
  induction kw as [|[k a] kw IH]; intros ns D.
  - rewrite zlen_0. clear. induction ns as [|n ns IHn]; cbn [used kw_get found] in *; lia.
  - rewrite zlen_S. specialize (IH ns D).
    assert (G : forall l, NoDup l -> used ((k, a) :: kw) l
               <= used kw l + (if in_dec string_dec k l then 1 else 0)).
    { induction l as [|n l IHl]; intros Dl; [cbn; lia|]. inversion Dl as [|? ? Dn Dl']; subst. specialize (IHl Dl').
      cbn [used kw_get]. destruct (String.eqb_spec k n) as [->|K].
      - destruct (in_dec string_dec n l) as [|X]; [contradiction|]. destruct (in_dec string_dec n (n :: l)) as [|Y]; [|elim Y; left; reflexivity].
        cbn [found]. destruct (kw_get kw n); cbn [found]; lia.
      - destruct (in_dec string_dec k (n :: l)) as [X|X]; destruct (in_dec string_dec k l) as [Y|Y]; try lia.
        elim X. right. exact Y. }
    specialize (G ns D). destruct (in_dec string_dec k ns); lia.
Qed.
(** The other way round: what is used up names parameters. *)
Lemma used_in : forall kw (ns : list string), NoDup (map fst kw) -> NoDup ns ->
  zlen kw <= used kw ns -> forall k a, In (k, a) kw -> In k ns.
Proof.
  intros kw ns N D H k a I. destruct (in_dec string_dec k ns) as [|X]; [assumption|exfalso].
  assert (D2 : NoDup (k :: ns)) by (constructor; assumption). assert (G := used_le kw (k :: ns) D2). cbn [used] in G.
  assert (F : kw_get kw k <> None).
  { rewrite kw_get_find. destruct (find _ kw) as [|] eqn:F; [discriminate|]. intros _.
    assert (Z0 := find_none _ _ F (k, a) I). cbn in Z0. rewrite String.eqb_refl in Z0. discriminate. }
  destruct (kw_get kw k); [cbn [found] in G; lia|elim F; reflexivity].
Qed.

Lemma names_dup : NoDup ["iterable"%string; "exceptSize"%string] /\ NoDup ["exceptSize"%string] /\ NoDup ["iterable"%string].
Proof.
  assert (A : ~ In "iterable"%string ["exceptSize"%string]) by (intros [H|[]]; discriminate H).
  assert (B : NoDup ["exceptSize"%string]) by (constructor; [intros []|constructor]).
  split; [constructor; assumption|]. split; [exact B|constructor; [intros []|constructor]].
Qed.

Lemma parse_on_ok : forall c pos kw, linked c = false -> NoDup (map fst kw) ->
  well_called c pos kw -> good_size c pos kw ->
  parse_on pos kw = (None, given c pos kw 0, size_of_arg (given c pos kw 1)).
Proof.
  intros c pos kw L N [W1 W2] G. unfold good_size in G. rewrite L in G. destruct G as [G|G]; [discriminate|].
  unfold given, names in *. rewrite L in *. cbn [List.length] in W1. destruct names_dup as (D1 & D2 & _).
  assert (Sz : forall a, a = None \/ (exists z, a = Some (CInt z) /\ in_sbits 64 z) ->
    match a with None => inl (-1) | Some (CInt z) => if in_sbits_b 64 z then inl z else inr OverflowError | Some _ => inr TypeError end
    = inl (size_of_arg a) :> Z + exn).
  { intros a [->|(z & -> & Hz)]; [reflexivity|]. apply in_sbits_b_spec in Hz. rewrite Hz. reflexivity. }
  assert (G' := Sz _ G). clear Sz G. unfold parse_on.
  destruct pos as [|a [|b [|x y]]]; cbn [nth_error nth List.length skipn] in *.
  - rewrite <- !kw_get_find in *. assert (U := used_up kw _ N W2 D1). cbn [used] in U. rewrite !zlen_0.
    rewrite G'. destruct (kw_get kw "iterable"), (kw_get kw "exceptSize"); cbn [found] in *; rewrite U; reflexivity.
  - rewrite <- !kw_get_find in *. assert (U := used_up kw _ N W2 D2). cbn [used] in U. rewrite zlen_S, zlen_0, G'.
    destruct (kw_get kw "exceptSize"); cbn [found] in *; rewrite U; reflexivity.
  - assert (E : kw = []) by (destruct kw as [|[k v] kw]; [reflexivity|]; elim (W2 k v); left; reflexivity). subst kw.
    cbn [zlen List.length]. change (2 <? zlen [a; b] + zlen (@nil (string * carg))) with false. cbv iota. rewrite G'. reflexivity.
  - cbn [List.length] in W1. lia.
Qed.

Lemma parse_on_inv : forall c pos kw a n, linked c = false -> NoDup (map fst kw) ->
  parse_on pos kw = (None, a, n) -> well_called c pos kw /\ good_size c pos kw.
Proof.
  intros c pos kw a n L N P. unfold well_called, good_size, given, names. rewrite L. destruct names_dup as (D1 & D2 & _).
  unfold parse_on in P. assert (Q := zlen_pos _ kw).
  destruct (Z.ltb_spec 2 (zlen pos + zlen kw)) as [|Lt]; [discriminate|]. rewrite !zlen_S in Lt || idtac.
  destruct pos as [|x [|y [|z w]]]; cbn [nth_error nth List.length skipn] in *.
  - rewrite <- !kw_get_find in *. destruct (kw_get kw "exceptSize") as [[z| | | |]|] eqn:E2; try discriminate.
    + destruct (in_sbits_b 64 z) eqn:Ez; [|discriminate]. cbn [found] in P.
      destruct (Z.ltb_spec (found (kw_get kw "iterable") + 1) (zlen kw)); [discriminate|].
      split; [split; [lia|]|right; right; exists z; split; [reflexivity|apply in_sbits_b_spec; exact Ez]].
      apply used_in; [exact N|exact D1|]. cbn [used]. rewrite E2. cbn [found]. lia.
    + cbn [found] in P. destruct (Z.ltb_spec (found (kw_get kw "iterable") + 0) (zlen kw)); [discriminate|].
      split; [split; [lia|]|auto]. apply used_in; [exact N|exact D1|]. cbn [used]. rewrite E2. cbn [found]. lia.
  - rewrite <- !kw_get_find in *. destruct (kw_get kw "exceptSize") as [[z| | | |]|] eqn:E2; try discriminate.
    + destruct (in_sbits_b 64 z) eqn:Ez; [|discriminate]. cbn [found] in P.
      destruct (Z.ltb_spec (0 + 1) (zlen kw)); [discriminate|].
      split; [split; [lia|]|right; right; exists z; split; [reflexivity|apply in_sbits_b_spec; exact Ez]].
      apply used_in; [exact N|exact D2|]. cbn [used]. rewrite E2. cbn [found]. lia.
    + cbn [found] in P. destruct (Z.ltb_spec (0 + 0) (zlen kw)); [discriminate|].
      split; [split; [lia|]|auto]. apply used_in; [exact N|exact D2|]. cbn [used]. rewrite E2. cbn [found]. lia.
  - assert (E : kw = []) by (destruct kw; [reflexivity|rewrite !zlen_S, zlen_0 in Lt; assert (Q2 := zlen_pos _ kw); lia]).
    subst kw. destruct y as [z| | | |]; try discriminate. destruct (in_sbits_b 64 z) eqn:Ez; [|discriminate].
    split; [split; [lia|intros k v []]|]. right; right. exists z. split; [reflexivity|apply in_sbits_b_spec; exact Ez].
  - rewrite !zlen_S in Lt. assert (Q2 := zlen_pos _ w). lia.
Qed.
(** A size left behind by a failed call was given. *)
Lemma parse_on_size : forall c pos kw e a n, linked c = false -> parse_on pos kw = (Some e, a, n) -> 0 < n ->
  given c pos kw 1 = Some (CInt n).
Proof.
  intros c pos kw e a n L P Hn. unfold given, names. rewrite L. unfold parse_on in P.
  destruct (2 <? zlen pos + zlen kw); [injection P; lia|].
  destruct pos as [|x [|y w]]; cbn [nth_error nth] in *; rewrite <- ?kw_get_find.
  1, 2: destruct (kw_get kw "exceptSize") as [[z| | | |]|]; try (injection P as _ _ P; lia);
    (destruct (in_sbits_b 64 z); injection P as _ _ P; [subst; reflexivity|lia]).
  destruct y as [z| | | |]; try (injection P as _ _ P; lia). destruct (in_sbits_b 64 z); injection P as _ _ P; [subst; reflexivity|lia].
Qed.

Lemma parse_o_ok : forall c pos kw, linked c = true -> NoDup (map fst kw) -> well_called c pos kw ->
  parse_o pos kw = (None, given c pos kw 0).
Proof.
  intros c pos kw L N [W1 W2]. unfold given, names in *. rewrite L in *. destruct names_dup as (_ & _ & D).
  cbn [List.length] in W1. unfold parse_o. destruct pos as [|a [|b w]]; cbn [nth_error nth List.length skipn] in *.
  - rewrite <- kw_get_find. assert (U := used_up kw _ N W2 D). cbn [used] in U. rewrite zlen_0.
    destruct (kw_get kw "iterable"); cbn [found] in *; rewrite U; reflexivity.
  - assert (E : kw = []) by (destruct kw as [|[k v] kw]; [reflexivity|]; elim (W2 k v); left; reflexivity). subst kw. reflexivity.
  - lia.
Qed.
Lemma parse_o_inv : forall c pos kw a, linked c = true -> NoDup (map fst kw) ->
  parse_o pos kw = (None, a) -> well_called c pos kw.
Proof.
  intros c pos kw a L N P. unfold well_called, names. rewrite L. destruct names_dup as (_ & _ & D). unfold parse_o in P.
  assert (Q := zlen_pos _ kw). destruct (Z.ltb_spec 1 (zlen pos + zlen kw)) as [|Lt]; [discriminate|].
  destruct pos as [|x [|y w]]; cbn [List.length skipn] in *.
  - destruct (Z.ltb_spec (found (kw_get kw "iterable")) (zlen kw)); [discriminate|]. split; [lia|].
    apply used_in; [exact N|exact D|]. cbn [used]. lia.
  - rewrite zlen_S, zlen_0 in Lt. destruct kw; [|rewrite zlen_S in Q, Lt; destruct (Z.ltb_spec (found (@None carg)) (zlen (p :: kw))); [discriminate|]; cbn [found] in *; rewrite zlen_S in *; assert (Q2 := zlen_pos _ kw); lia].
    split; [lia|intros k v []].
  - rewrite !zlen_S in Lt. assert (Q2 := zlen_pos _ w). lia.
Qed.
Lemma parse_o_err : forall pos kw e a, parse_o pos kw = (Some e, a) -> e = TypeError.
Proof.
  intros pos kw e a. unfold parse_o. destruct (1 <? _); [congruence|].
  match goal with |- context [if ?b then Some _ else None] => destruct b end; congruence.
Qed.
