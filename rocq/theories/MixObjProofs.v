(** Proofs about MixObjModel. *)
From Coq Require Import ZArith List Bool Arith Lia.
From Verif Require Import Base PyListSpec ListLemmas ArrayListModel ArrayListMoreModel StdListModel StdListProofs LinkedListModel LinkedListProofs LinkedListFacts
  ObjModel ObjArrayModel ObjLinkedModel ObjMoreModel ObjWorldModel ObjSpec ObjLemmas MixSpec MixProofs MixObjModel MixObjSpec.
Import ListNotations.
Local Open Scope Z_scope.
Local Arguments Z.pow : simpl never.
Local Arguments Z.of_nat : simpl never.
Local Arguments Z.to_nat : simpl never.

Lemma alive_more rc rc' os : (forall x, rc x <= rc' x) -> alive rc os -> alive rc' os.
Proof. intros H. unfold alive. apply Forall_impl. intros o [A B]. split; [exact A|]. specialize (H o). lia. Qed.
Lemma handed_ok {I} o (it : I) rc : obj o -> 0 < rc o -> exists rc', handed (Ret o, it) rc = (Ret o, (it, rc')) /\ forall x, rc' x = rc x + occ [o] x.
Proof. intros A B. destruct (incref_ok o rc A B) as (rc' & E & H). exists rc'. cbn [handed]. rewrite E. auto. Qed.

Lemma arr_next s pre v suf : s = pre ++ v :: suf -> iter_next {| it_index := zlen pre; it_rev := false |} s = (Ret v, {| it_index := zlen pre + 1; it_rev := false |}).
Proof.
  intros E. unfold iter_next. destruct s as [|a s']; [destruct pre; discriminate|]. rewrite E. cbn [it_rev it_index].
  rewrite znth_mid by reflexivity. destruct (Z.leb_spec (zlen (pre ++ v :: suf)) (zlen pre)) as [H|H]; [|reflexivity].
  rewrite zlen_app, zlen_cons in H. pose proof (zlen_nonneg suf). lia.
Qed.
Lemma arr_end s : iter_next {| it_index := zlen s; it_rev := false |} s = (Raise StopIteration, {| it_index := zlen s; it_rev := false |}).
Proof. unfold iter_next. destruct s; [reflexivity|]. cbn [it_rev it_index]. rewrite Z.leb_refl. reflexivity. Qed.

Lemma pull_step {I T} (next : I -> counts -> outcome Z * (I * counts)) (push : T -> Z -> T) m it t rc : pull next push (S m) it t rc =
  match next it rc with
  | (Ret o, (it', rc')) => pull next push m it' (push t o) rc'
  | (Raise StopIteration, (_, rc')) => (Ret tt, (t, rc'))
  | (Raise e, (_, rc')) => (Raise e, (t, rc'))
  | (RetPending _ e, (_, rc')) => (Raise e, (t, rc'))
  | (Undef u, (_, rc')) => (Undef u, (t, rc'))
  end.
Proof. reflexivity. Qed.

Lemma alive_step rc rc' v suf : alive rc (v :: suf) -> (forall x, rc' x = rc x + occ [v] x) -> alive rc' suf.
Proof.
  intros A H. inversion A; subst. eapply alive_more; [|eassumption]. intros x. rewrite H. pose proof (occ_nonneg [v] x). lia.
Qed.
Lemma occ_cons v suf x : occ (v :: suf) x = occ [v] x + occ suf x.
Proof. change (v :: suf) with ([v] ++ suf). apply occ_app. Qed.

Lemma pull_arr {T} (push : T -> Z -> T) s : forall suf pre t rc, s = pre ++ suf -> alive rc suf ->
  exists rc', pull (fun it => oa_next it s) push (S (length suf)) {| it_index := zlen pre; it_rev := false |} t rc = (Ret tt, (fold_left push suf t, rc')) /\
    forall x, rc' x = rc x + occ suf x.
Proof.
  induction suf as [|v suf IH]; intros pre t rc E A; cbn [length]; rewrite pull_step; unfold oa_next.
  - rewrite app_nil_r in E. subst pre. rewrite arr_end. cbn [handed fold_left]. exists rc. split; [reflexivity|]. intros x. cbn [occ]. lia.
  - rewrite (arr_next s pre v suf E). inversion A as [|? ? [Ov Rv] A']; subst.
    destruct (handed_ok v {| it_index := zlen pre + 1; it_rev := false |} rc Ov Rv) as (rc1 & H1 & C1). rewrite H1.
    destruct (IH (pre ++ [v]) (push t v) rc1) as (rc' & P & C); [rewrite <- app_assoc; reflexivity|eapply alive_step; eauto|].
    rewrite zlen_app in P. change (zlen [v]) with 1 in P. exists rc'. split; [exact P|].
    intros x. rewrite C, C1, (occ_cons v suf). lia.
Qed.
Lemma pull_lnk {T} (push : T -> Z -> T) l : lwf l -> zlen (vals l) < 2 ^ 64 -> forall suf pre t rc, vals l = pre ++ suf -> alive rc suf ->
  exists rc', pull (fun it => ol_next it l) push (S (length suf)) (at_pos l (length pre)) t rc = (Ret tt, (fold_left push suf t, rc')) /\
    forall x, rc' x = rc x + occ suf x.
Proof.
  intros W L. induction suf as [|v suf IH]; intros pre t rc E A; cbn [length]; rewrite pull_step; unfold ol_next.
  - rewrite app_nil_r in E. rewrite <- E, lnext_end. cbn [handed fold_left]. exists rc. split; [reflexivity|]. intros x. cbn [occ]. lia.
  - rewrite (lnext_at l (length pre) v W L) by (rewrite E, nth_error_app2, Nat.sub_diag by lia; reflexivity).
    inversion A as [|? ? [Ov Rv] A']; subst.
    destruct (handed_ok v (at_pos l (S (length pre))) rc Ov Rv) as (rc1 & H1 & C1). rewrite H1.
    destruct (IH (pre ++ [v]) (push t v) rc1) as (rc' & P & C); [rewrite <- app_assoc; exact E|eapply alive_step; eauto|].
    rewrite app_length in P. cbn [length] in P. rewrite Nat.add_1_r in P. exists rc'. split; [exact P|].
    intros x. rewrite C, C1, (occ_cons v suf). lia.
Qed.
Lemma pull_from_ok {T} x (push : T -> Z -> T) t rc : sound x -> alive rc (oheld x) ->
  exists rc', pull_from x push t rc = (Ret tt, (fold_left push (oheld x) t, rc')) /\ forall o, rc' o = rc o + occ (oheld x) o.
Proof.
  intros [L W] A. destruct x as [s|l]; cbn [pull_from oheld] in *.
  - exact (pull_arr push s s [] t rc eq_refl A).
  - unfold liter_create. rewrite size_vals. apply (pull_lnk push l W) with (pre := []); [|reflexivity|exact A].
    pose proof ssize_64. unfold vals. lia.
Qed.
Lemma fold_vpush os : forall s, fold_left vpush os s = s ++ os.
Proof. induction os as [|o os IH]; intros s; cbn [fold_left]; [rewrite app_nil_r; reflexivity|]. rewrite IH. unfold vpush. rewrite <- app_assoc. reflexivity. Qed.
Lemma fold_lpush os : forall l, lwf l -> lwf (fold_left lpush os l) /\ vals (fold_left lpush os l) = vals l ++ os /\ modc (fold_left lpush os l) = modc l.
Proof.
  induction os as [|o os IH]; intros l W; cbn [fold_left]; [rewrite app_nil_r; auto|].
  destruct (push_back_ok (lst l) o W) as (W' & V' & _). destruct (IH (lpush l o) W') as (A & B & C).
  split; [exact A|]. split; [|rewrite C; reflexivity]. rewrite B. unfold vals at 1. cbn [lpush put lst]. rewrite V'. unfold vals. rewrite <- app_assoc. reflexivity.
Qed.

Lemma orecognised_copied c x : orecognised c x = true <-> oexact x = true /\ ocls_of (olst x) = c.
Proof.
  unfold orecognised. rewrite andb_true_iff. destruct c, (ocls_of (olst x)); split; intros [A B]; (split; [exact A|]); congruence.
Qed.

Lemma oextend_ok inplace t x rc : sound t -> sound (olst x) -> alive rc (oheld (olst x)) ->
  exists t' rc', oextend inplace t x rc = (Ret (if inplace : bool then (if orecognised (ocls_of t) x then ONone else OSelf) else ONone), (t', rc')) /\
    ocls_of t' = ocls_of t /\ oheld t' = oheld t ++ oheld (olst x) /\ (forall o, rc' o = rc o + occ (oheld (olst x)) o) /\
    match t' with OArr _ => True | OLnk l => lwf l end.
Proof.
  intros [_ Wt] Sx A. unfold oextend. destruct t as [s|l]; cbn [ocls_of oheld].
  - destruct (orecognised CObjArr x).
    + destruct (incref_all_ok _ rc A) as (rc' & E & C). exists (OArr (s ++ oheld (olst x))), rc'.
      destruct inplace; unfold a_iadd, a_extend, owith; rewrite E; cbn [plain]; auto 10.
    + destruct (pull_from_ok (olst x) vpush s rc Sx A) as (rc' & E & C). exists (OArr (s ++ oheld (olst x))), rc'.
      rewrite E, fold_vpush. unfold answer. cbn [fst snd]. destruct inplace; auto 10.
  - destruct (orecognised CObjLnk x).
    + destruct (incref_all_ok _ rc A) as (rc' & E & C). destruct (append_range_ok (oheld (olst x)) (lst l) Wt) as (W' & V' & _).
      exists (OLnk ((if inplace then put else bump) l (append_range (lst l) (oheld (olst x))))), rc'.
      destruct inplace; unfold l_iadd, l_extend, owith; rewrite E; cbn [plain oheld ocls_of put bump lst]; auto 10.
    + destruct (pull_from_ok (olst x) lpush l rc Sx A) as (rc' & E & C). destruct (fold_lpush (oheld (olst x)) l Wt) as (W' & V' & _).
      set (l' := fold_left lpush (oheld (olst x)) l) in *.
      exists (OLnk (if inplace then l' else bump l' (lst l'))), rc'. rewrite E. unfold answer. cbn [fst snd].
      destruct inplace; (split; [reflexivity|]); (split; [reflexivity|]); cbn [oheld bump lst]; (split; [exact V'|]); (split; [exact C|exact W']).
Qed.
Lemma omake_ok c x rc : sound (olst x) -> alive rc (oheld (olst x)) ->
  exists o rc', omake c x rc = (Ret o, rc') /\ ocls_of o = c /\ oheld o = oheld (olst x) /\ match o with OArr _ => True | OLnk l => lwf l end /\
    forall y, rc' y = rc y + (if orecognised c x then 0 else occ (oheld (olst x)) y).
Proof.
  intros Sx A. unfold omake. destruct c.
  - destruct (orecognised CObjArr x).
    + eexists _, _. split; [reflexivity|]. split; [reflexivity|]. split; [reflexivity|]. split; [exact I|]. intros y. lia.
    + destruct (pull_from_ok (olst x) vpush [] rc Sx A) as (rc' & E & C). rewrite E, fold_vpush. cbn [fst snd app].
      eexists _, _. split; [reflexivity|]. split; [reflexivity|]. split; [reflexivity|]. split; [exact I|]. exact C.
  - destruct (orecognised CObjLnk x).
    + destruct (@copy_of_ok Z (oheld (olst x))) as [W V]. cbn [l_init omap obind].
      eexists _, _. split; [reflexivity|]. split; [reflexivity|]. split; [exact V|]. split; [exact W|]. intros y. lia.
    + destruct (pull_from_ok (olst x) lpush (new_list empty) rc Sx A) as (rc' & E & C). rewrite E. cbn [fst snd].
      assert (W0 : lwf (new_list empty)) by exact (@wf_empty Z).
      destruct (fold_lpush (oheld (olst x)) (new_list empty) W0) as (W' & V' & _).
      eexists _, _. split; [reflexivity|]. split; [reflexivity|]. split; [exact V'|]. split; [exact W'|]. exact C.
Qed.

(** ** Extended by its own iterator *)
Lemma oown_step {I T} (next : I -> T -> counts -> outcome Z * (I * counts)) (push : T -> Z -> T) m it t rc : oown next push (S m) it t rc =
  match next it t rc with
  | (Ret o, (it', rc')) => oown next push m it' (push t o) rc'
  | (Raise StopIteration, (_, rc')) => (Some (Ret tt), (t, rc'))
  | (Raise e, (_, rc')) => (Some (Raise e), (t, rc'))
  | (RetPending _ e, (_, rc')) => (Some (Raise e), (t, rc'))
  | (Undef u, (_, rc')) => (Some (Undef u), (t, rc'))
  end.
Proof. reflexivity. Qed.
Lemma skip_snoc (s t : list Z) v : (length s <= length t)%nat -> skipn (length s) (t ++ [v]) = skipn (length s) t ++ [v].
Proof. intros H. rewrite skipn_app. replace (length s - length t)%nat with 0%nat by lia. reflexivity. Qed.

Lemma oown_ok s rc m : (0 < length s)%nat -> alive rc s ->
  exists t rc', oown oa_next vpush m (iter_create false s) s rc = (None, (t, rc')) /\ grown eq m s t /\
    forall x, rc' x = rc x + occ (skipn (length s) t) x.
Proof.
  intros P A.
  assert (G : forall m n t rc1, grown eq n s t -> alive rc1 t -> (forall x, rc1 x = rc x + occ (skipn (length s) t) x) ->
    exists t' rc', oown oa_next vpush m {| it_index := Z.of_nat n; it_rev := false |} t rc1 = (None, (t', rc')) /\ grown eq (n + m) s t' /\
      forall x, rc' x = rc x + occ (skipn (length s) t') x).
  { clear m. induction m as [|m IH]; intros n t rc1 H At C1.
    - exists t, rc1. rewrite Nat.add_0_r. auto.
    - rewrite oown_step. pose proof H as (L & _ & _). destruct (nth_error t n) as [v|] eqn:N; [|apply nth_error_None in N; lia].
      destruct (nth_error_split t n N) as (a & b & Et & La).
      unfold oa_next. replace (Z.of_nat n) with (zlen a) by (unfold zlen; lia). rewrite (arr_next t a v b Et).
      assert (Lv : obj v /\ 0 < rc1 v) by (unfold alive in At; rewrite Forall_forall in At; apply At; eapply nth_error_In; eauto).
      destruct (handed_ok v {| it_index := zlen a + 1; it_rev := false |} rc1 (proj1 Lv) (proj2 Lv)) as (rc2 & H2 & C2). rewrite H2.
      replace (zlen a + 1) with (Z.of_nat (S n)) by (unfold zlen; lia). rewrite <- Nat.add_succ_comm. apply IH.
      + unfold vpush. eapply grown_snoc; eauto.
      + unfold vpush. apply Forall_app. assert (M : forall x, rc1 x <= rc2 x) by (intros x; rewrite C2; pose proof (occ_nonneg [v] x); lia).
        split; [exact (alive_more rc1 rc2 t M At)|]. constructor; [|constructor]. split; [apply Lv|]. specialize (M v). lia.
      + intros x. unfold vpush. rewrite skip_snoc by lia. rewrite occ_app, C2, C1. lia. }
  exact (G m 0%nat s rc (grown_refl _ s) A ltac:(intros x; rewrite skipn_all; cbn [occ]; lia)).
Qed.
Lemma olown_ok l rc m : lwf l -> (2 <= length (vals l))%nat -> zlen (vals l) + Z.of_nat m < 2 ^ 64 -> alive rc (vals l) ->
  exists it l' rc', liter_create false l = Ret it /\ oown ol_next lpush m it l rc = (None, (l', rc')) /\ grown eq m (vals l) (vals l') /\ lwf l' /\
    forall x, rc' x = rc x + occ (skipn (length (vals l)) (vals l')) x.
Proof.
  intros W P Z64 A. exists (at_pos l 0).
  assert (G : forall m n t rc1, lwf t -> grown eq n (vals l) (vals t) -> alive rc1 (vals t) -> zlen (vals t) + Z.of_nat m < 2 ^ 64 ->
    (forall x, rc1 x = rc x + occ (skipn (length (vals l)) (vals t)) x) ->
    exists t' rc', oown ol_next lpush m (at_pos t n) t rc1 = (None, (t', rc')) /\ grown eq (n + m) (vals l) (vals t') /\ lwf t' /\
      forall x, rc' x = rc x + occ (skipn (length (vals l)) (vals t')) x).
  { clear m Z64. induction m as [|m IH]; intros n t rc1 Wt H At Z64 C1.
    - exists t, rc1. rewrite Nat.add_0_r. auto.
    - rewrite oown_step. pose proof H as (L & _ & _). destruct (nth_error (vals t) n) as [v|] eqn:N; [|apply nth_error_None in N; lia].
      unfold ol_next. rewrite (lnext_at t n v Wt ltac:(lia) N).
      assert (Lv : obj v /\ 0 < rc1 v) by (unfold alive in At; rewrite Forall_forall in At; apply At; eapply nth_error_In; eauto).
      destruct (handed_ok v (at_pos t (S n)) rc1 (proj1 Lv) (proj2 Lv)) as (rc2 & H2 & C2). rewrite H2.
      destruct (push_back_ok (lst t) v Wt) as (W' & V' & _).
      assert (AP : at_pos t (S n) = at_pos (lpush t v) (S n)).
      { unfold at_pos, lpush. cbn [put lst modc]. rewrite itpos_push; [reflexivity|exact Wt|]. rewrite size_vals. lia. }
      rewrite AP, <- Nat.add_succ_comm.
      assert (Vt : vals (lpush t v) = vals t ++ [v]) by (unfold vals; cbn [lpush put lst]; exact V').
      apply IH.
      + exact W'.
      + rewrite Vt. eapply grown_snoc; eauto. lia.
      + rewrite Vt. apply Forall_app. assert (M : forall x, rc1 x <= rc2 x) by (intros x; rewrite C2; pose proof (occ_nonneg [v] x); lia).
        split; [exact (alive_more rc1 rc2 (vals t) M At)|]. constructor; [|constructor]. split; [apply Lv|]. specialize (M v). lia.
      + rewrite Vt, zlen_app. change (zlen [v]) with 1. lia.
      + intros x. rewrite Vt, skip_snoc by lia. rewrite occ_app, C2, C1. lia. }
  destruct (G m 0%nat l rc W (grown_refl _ _) A Z64 ltac:(intros x; rewrite skipn_all; cbn [occ]; lia)) as (t' & rc' & E & H & W' & C).
  exists t', rc'. split; [reflexivity|]. auto.
Qed.
Lemma olown_one l v rc m : lwf l -> vals l = [v] -> alive rc [v] ->
  exists it l' rc', liter_create false l = Ret it /\ oown ol_next lpush (S (S m)) it l rc = (Some (Undef IterBeforeBegin), (l', rc')) /\ vals l' = [v; v] /\
    forall x, rc' x = rc x + occ [v] x.
Proof.
  intros W V A. exists (at_pos l 0), (lpush l v). inversion A as [|? ? [Ov Rv] _]; subst.
  destruct (handed_ok v (at_pos l 1) rc Ov Rv) as (rc2 & H2 & C2). exists rc2. split; [reflexivity|].
  destruct (push_back_ok (lst l) v W) as (W' & V' & _).
  assert (Vt : vals (lpush l v) = [v; v]) by (unfold vals; cbn [lpush put lst]; rewrite V'; unfold vals in V; rewrite V; reflexivity).
  split; [|auto]. rewrite oown_step. unfold ol_next. rewrite (lnext_at l 0 v W); [|rewrite V; reflexivity|rewrite V; reflexivity].
  rewrite H2, oown_step. set (t := lpush l v) in *.
  assert (X : liter_next (at_pos l 1) t = (Undef IterBeforeBegin, at_pos l 1)).
  { unfold liter_next. destruct (nodes (lst t)) as [|a r] eqn:E; [unfold vals, values in Vt; rewrite E in Vt; discriminate|].
    cbn [at_pos li_rev li_index]. rewrite lsize_vals, Vt. cbn [zlen length].
    change (zlen [v; v] <=? Z.of_nat 1) with false. cbv iota.
    unfold update_cache. cbn [li_mod li_cache at_pos]. change (modc t) with (modc l). rewrite Z.eqb_refl. cbn [obind li_cache].
    assert (I : itpos (lst l) 1 = None).
    { unfold itpos, id_at. assert (S1 : size (lst l) = 1%nat) by (rewrite size_vals, V; reflexivity).
      rewrite (proj2 (nth_error_None _ _)); [reflexivity|]. unfold size in S1. lia. }
    cbn [li_cache at_pos]. rewrite I. reflexivity. }
  rewrite X. reflexivity.
Qed.
