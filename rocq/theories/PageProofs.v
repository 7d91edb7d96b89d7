From Coq Require Import ZArith List Bool Lia.
From Verif Require Import Base AsmModel PageModel PageSpec.
Import ListNotations.
Local Open Scope Z_scope.
Local Arguments Z.div : simpl never.
Local Arguments Z.modulo : simpl never.

Lemma touches_spec : forall a b q, touches a b q = true <-> exists i, 0 <= i < zlen b /\ (a + i) / 4096 = q.
Proof.
  intros a b q; unfold touches; rewrite existsb_exists; split.
  - intros (i & H & E); apply in_seq in H; apply Z.eqb_eq in E; exists (Z.of_nat i); unfold zlen; split; [lia|exact E].
  - intros (i & H & E); unfold zlen in H; exists (Z.to_nat i); split; [apply in_seq; lia|].
    rewrite Z2Nat.id by lia; apply Z.eqb_eq; exact E.
Qed.
Lemma pages_touch : forall a b q, b <> [] -> in_pages a (zlen b) q = touches a b q.
Proof.
  intros a b q B; assert (0 < zlen b) by (destruct b; [congruence|unfold zlen; cbn [length]; lia]).
  apply eq_true_iff_eq; rewrite touches_spec; unfold in_pages, PAGE; rewrite andb_true_iff, !Z.leb_le; split.
  - intros [A C].
    destruct (Z.eq_dec q (a / 4096)) as [->|N]; [exists 0; rewrite Z.add_0_r; split; [lia|reflexivity]|].
    exists (q * 4096 - a).
    pose proof (Z.div_mod a 4096 ltac:(lia)); pose proof (Z.mod_pos_bound a 4096 ltac:(lia)).
    pose proof (Z.div_mod (a + zlen b - 1) 4096 ltac:(lia)); pose proof (Z.mod_pos_bound (a + zlen b - 1) 4096 ltac:(lia)).
    split; [lia|]. replace (a + (q * 4096 - a)) with (q * 4096) by lia; apply Z.div_mul; lia.
  - intros (i & Hi & <-); split; apply Z.div_le_mono; lia.
Qed.
Lemma touches_first : forall a b, b <> [] -> touches a b (a / 4096) = true.
Proof.
  intros a b B; apply touches_spec; exists 0; rewrite Z.add_0_r; split; [|reflexivity].
  destruct b; [congruence|unfold zlen; cbn [length]; lia].
Qed.
Lemma can_run_touch : forall s a b, (forall q, touches a b q = true -> executable (prot s q) = true) -> can_run s a (zlen b) = true.
Proof.
  intros s a b H; unfold can_run; apply forallb_forall; intros i I; apply H, touches_spec.
  apply in_seq in I; unfold zlen in *; exists (Z.of_nat i); split; [lia|reflexivity].
Qed.
Lemma can_run_not : forall s a b q, touches a b q = true -> executable (prot s q) = false -> can_run s a (zlen b) = false.
Proof.
  intros s a b q T X; apply not_true_is_false; intro C; unfold can_run in C; rewrite forallb_forall in C.
  apply touches_spec in T; destruct T as (i & Hi & <-).
  specialize (C (Z.to_nat i)); rewrite Z2Nat.id in C by lia.
  unfold PAGE in C; rewrite C in X; [discriminate|]. apply in_seq; lia.
Qed.
Lemma nonempty_pos : forall b : list Z, b <> [] -> (0 <? zlen b) = true /\ (zlen b =? 0) = false.
Proof.
  intros [|x b] B; [congruence|]; unfold zlen; cbn [length]; split; [apply Z.ltb_lt; lia|apply Z.eqb_neq; lia].
Qed.

(** VirtualProtect on the memory of some bytes. *)
Lemma vp_ok : forall a b p s, b <> [] ->
  exists s', virtual_protect true a (zlen b) p s = Some (prot s (a / 4096), s') /\
    blocks s' = blocks s /\ tbl s' = tbl s /\ locked s' = locked s /\
    forall q, prot s' q = if touches a b q then p else prot s q.
Proof.
  intros a b p s B; unfold virtual_protect; rewrite (proj1 (nonempty_pos b B)); cbn [andb].
  eexists; split; [reflexivity|]; unfold with_prot; cbn; repeat split; intro q; rewrite pages_touch by exact B; reflexivity.
Qed.

(** The allocator. *)
Lemma alloc_ok : forall s a b, placed (blocks s) a b -> aligned_alloc (Some a) b s = Some (a, with_blocks ((a, b) :: blocks s) s).
Proof.
  intros s a b (P & M & D); unfold aligned_alloc.
  replace ((0 <? a) && (a mod 16 =? 0) && _) with true; [reflexivity|]; symmetry.
  rewrite !andb_true_iff, Z.ltb_lt, Z.eqb_eq, forallb_forall; repeat split; auto.
  intros [k c] I; cbn [fst snd]; destruct (D k c I) as [N O]; apply andb_true_iff; split.
  - apply negb_true_iff, Z.eqb_neq; exact N.
  - unfold overlaps; apply negb_true_iff, andb_false_iff; rewrite !Z.ltb_ge; lia.
Qed.
Lemma filter_gone : forall (l : list (Z * list Z)) a, ~ In a (map fst l) -> filter (fun e => negb (fst e =? a)) l = l.
Proof.
  induction l as [|[k c] l IH]; intros a N; [reflexivity|]; cbn [filter fst map In] in *.
  destruct (k =? a) eqn:E; [apply Z.eqb_eq in E; subst; tauto|]; cbn [negb]; rewrite IH; tauto.
Qed.
Lemma placed_new : forall l a b, placed l a b -> ~ In a (map fst l).
Proof.
  intros l a b (_ & _ & D) I; apply in_map_iff in I; destruct I as ((k & c) & E & I); cbn in E; subst.
  destruct (D a c I) as [N _]; congruence.
Qed.
Lemma free_new : forall s a b l, blocks s = (a, b) :: l -> ~ In a (map fst l) -> aligned_free a s = Some (with_blocks l s).
Proof.
  intros s a b l B N; unfold aligned_free; rewrite B; cbn [block_at filter fst]; rewrite Z.eqb_refl; cbn [negb].
  rewrite filter_gone by exact N; reflexivity.
Qed.

Lemma same_state : forall s s', prot s' = prot s -> blocks s' = blocks s -> tbl s' = tbl s -> locked s' = locked s -> s' = s.
Proof. intros [] []; cbn; intros; subst; reflexivity. Qed.

(** run and runFast when nothing is refused. *)
Definition after (p : Z -> Z) (t : Z) (b : list Z) (q : Z) : Z := if touches t b q then p (t / 4096) else p q.
Lemma run_at_ok : forall (f : bool) t b s l, b <> [] ->
  blocks s = (if f then [(t, b)] else []) ++ l -> ~ (f = true /\ In t (map fst l)) ->
  exists s', run_at f t b true true s = (PNone, b, s') /\ blocks s' = l /\ tbl s' = tbl s /\ locked s' = locked s /\
    forall q, prot s' q = after (prot s) t b q.
Proof.
  intros f t b s l B Bl N; unfold run_at.
  destruct (vp_ok t b RWX s B) as (s1 & -> & B1 & T1 & L1 & P1); cbv beta iota.
  rewrite (can_run_touch s1 t b) by (intros q T; rewrite P1, T; reflexivity); cbv beta iota.
  destruct (vp_ok t b (prot s (t / 4096)) s1 B) as (s2 & -> & B2 & T2 & L2 & P2); cbv beta iota.
  unfold release; destruct f.
  - cbn [app] in Bl; erewrite (free_new s2 t b l); [|congruence|tauto].
    eexists; split; [reflexivity|]; cbn; repeat split; try congruence.
    intro q; unfold after; rewrite P2, P1; destruct (touches t b q); reflexivity.
  - exists s2; cbn [app] in Bl; split; [reflexivity|]; repeat split; try congruence.
    intro q; unfold after; rewrite P2, P1; destruct (touches t b q); reflexivity.
Qed.
Lemma run_code_ok : forall at_ b answer t s, b <> [] -> target (blocks s) at_ b answer t ->
  exists s', run_code at_ b answer true true s = (PNone, b, s') /\
    blocks s' = blocks s /\ tbl s' = tbl s /\ locked s' = locked s /\
    forall q, prot s' q = after (prot s) t b q.
Proof.
  intros at_ b answer t s B [[M ->]|(M & -> & P)]; unfold run_code.
  - rewrite (proj2 (Z.eqb_eq _ _) M); apply run_at_ok; [exact B|reflexivity|intros [? _]; discriminate].
  - rewrite (proj2 (Z.eqb_neq _ _) M), (alloc_ok _ _ _ P); cbv beta iota.
    destruct (run_at_ok true t b (with_blocks ((t, b) :: blocks s) s) (blocks s) B eq_refl) as (s' & -> & H).
    { intros [_ I]; exact (placed_new _ _ _ P I). }
    exists s'; split; [reflexivity|exact H].
Qed.
(** The second VirtualProtect refused. *)
Lemma run_code_stays : forall at_ b answer t s, b <> [] -> target (blocks s) at_ b answer t ->
  exists s', run_code at_ b answer true false s = (PErr EOSError, b, s') /\
    blocks s' = blocks s /\ tbl s' = tbl s /\ locked s' = locked s /\
    forall q, prot s' q = if touches t b q then 64 else prot s q.
Proof.
  intros at_ b answer t s B T.
  assert (G : forall (f : bool) s0 l, blocks s0 = (if f then [(t, b)] else []) ++ l -> ~ (f = true /\ In t (map fst l)) ->
    exists s', run_at f t b true false s0 = (PErr EOSError, b, s') /\ blocks s' = l /\ tbl s' = tbl s0 /\ locked s' = locked s0 /\
    forall q, prot s' q = if touches t b q then 64 else prot s0 q).
  { intros f s0 l Bl N; unfold run_at.
    destruct (vp_ok t b RWX s0 B) as (s1 & -> & B1 & T1 & L1 & P1); cbv beta iota.
    rewrite (can_run_touch s1 t b) by (intros q Q; rewrite P1, Q; reflexivity); cbv beta iota.
    cbn [virtual_protect andb]; unfold release; destruct f; cbn [app] in Bl.
    - erewrite (free_new s1 t b l); [|congruence|tauto].
      eexists; split; [reflexivity|]; cbn; repeat split; try congruence; exact P1.
    - exists s1; split; [reflexivity|]; repeat split; try congruence; exact P1. }
  destruct T as [[M ->]|(M & -> & P)]; unfold run_code.
  - rewrite (proj2 (Z.eqb_eq _ _) M); apply G; [reflexivity|intros [? _]; discriminate].
  - rewrite (proj2 (Z.eqb_neq _ _) M), (alloc_ok _ _ _ P); cbv beta iota.
    destruct (G true (with_blocks ((t, b) :: blocks s) s) (blocks s) eq_refl) as (s' & -> & H).
    { intros [_ I]; exact (placed_new _ _ _ P I). }
    exists s'; split; [reflexivity|exact H].
Qed.
(** The first VirtualProtect refused: nothing is left. *)
Lemma run_code_refused : forall at_ b answer t ok2 s, target (blocks s) at_ b answer t ->
  run_code at_ b answer false ok2 s = (PErr EOSError, [], s).
Proof.
  intros at_ b answer t ok2 s [[M ->]|(M & -> & P)]; unfold run_code.
  - rewrite (proj2 (Z.eqb_eq _ _) M); reflexivity.
  - rewrite (proj2 (Z.eqb_neq _ _) M), (alloc_ok _ _ _ P); cbv beta iota; unfold run_at; cbn [virtual_protect andb release].
    erewrite free_new; [|reflexivity|exact (placed_new _ _ _ P)].
    destruct s; reflexivity.
Qed.
Lemma make_at_refused : forall b a s k, placed (blocks s) a b -> make_at b (Some a) false s k = (PErr EOSError, [], s).
Proof.
  intros b a s k P; unfold make_at; rewrite (alloc_ok _ _ _ P); cbv beta iota; cbn [virtual_protect andb release].
  erewrite free_new; [|reflexivity|exact (placed_new _ _ _ P)].
  destruct s; reflexivity.
Qed.

Lemma tget_put : forall t a v k, tget (tput t a v) k = if a =? k then Some v else tget t k.
Proof.
  intros t a v k; unfold tput; cbn [tget]; destruct (a =? k) eqn:E; [reflexivity|]; unfold terase.
  induction t as [|[j w] t IH]; [reflexivity|]; cbn [filter fst tget].
  destruct (j =? a) eqn:J; cbn [negb].
  - apply Z.eqb_eq in J; subst; rewrite IH; rewrite E; reflexivity.
  - cbn [tget]; destruct (j =? k); [reflexivity|exact IH].
Qed.
Lemma tget_erase : forall t a k, tget (terase t a) k = if a =? k then None else tget t k.
Proof.
  intros t a k; unfold terase; induction t as [|[j w] t IH]; [destruct (a =? k); reflexivity|]; cbn [filter fst tget].
  destruct (j =? a) eqn:J; cbn [negb].
  - apply Z.eqb_eq in J; subst; rewrite IH; destruct (a =? k); reflexivity.
  - cbn [tget]; destruct (j =? k) eqn:K; [|exact IH].
    apply Z.eqb_eq in K; subst; rewrite Z.eqb_sym, J; reflexivity.
Qed.

(** Making a function. *)
Lemma make_ok : forall s a b at_ c, b <> [] -> placed (blocks s) a b -> locked s = false -> tget (tbl s) a = None ->
  c = KMake (Code at_ b) (Some a) true \/ c = KMakeFast b (Some a) true ->
  exists s', pstep c s = (PPtr a, [], s') /\ blocks s' = (a, b) :: blocks s /\ locked s' = false /\
    tbl s' = tput (tbl s) a (zlen b, prot s (a / 4096)) /\
    forall q, prot s' q = if touches a b q then 64 else prot s q.
Proof.
  intros s a b at_ c B P L T C.
  destruct (vp_ok a b RWX (with_blocks ((a, b) :: blocks s) s) B) as (s1 & V & B1 & T1 & L1 & P1); cbn in B1, T1, L1, P1, V.
  destruct C as [-> | ->]; cbn [pstep]; unfold make, make_fast, make_at.
  - rewrite (proj2 (nonempty_pos b B)), (alloc_ok _ _ _ P); cbv beta iota.
    rewrite V; cbv beta iota; rewrite L1, L, T1, T; cbv beta iota.
    eexists; split; [reflexivity|]; cbn; rewrite B1, L1, L; repeat split; exact P1.
  - rewrite (alloc_ok _ _ _ P); cbv beta iota; rewrite V; cbv beta iota; rewrite T1.
    eexists; split; [reflexivity|]; cbn; rewrite B1, L1, L; repeat split; exact P1.
Qed.

Lemma block_mid : forall n a b o, ~ In a (map fst n) -> block_at (n ++ (a, b) :: o) a = Some b.
Proof.
  induction n as [|[k c] n IH]; intros a b o N; cbn [app block_at]; [rewrite Z.eqb_refl; reflexivity|].
  cbn in N; destruct (k =? a) eqn:E; [apply Z.eqb_eq in E; tauto|]; apply IH; tauto.
Qed.
Lemma filter_mid : forall n a b o, ~ In a (map fst n) -> ~ In a (map fst o) ->
  filter (fun e : Z * list Z => negb (fst e =? a)) (n ++ (a, b) :: o) = n ++ o.
Proof.
  intros n a b o N O; rewrite filter_app; cbn [filter fst]; rewrite Z.eqb_refl; cbn [negb].
  rewrite !filter_gone by assumption; reflexivity.
Qed.

(** Freeing one. *)
Lemma free_ok : forall s n a b o old c, b <> [] -> blocks s = n ++ (a, b) :: o -> ~ In a (map fst n) -> ~ In a (map fst o) ->
  locked s = false -> tget (tbl s) a = Some (zlen b, old) ->
  c = KFree a true \/ c = KFreeFast a true ->
  exists s', pstep c s = (PNone, [], s') /\ blocks s' = n ++ o /\ locked s' = false /\ tbl s' = terase (tbl s) a /\
    forall q, prot s' q = if touches a b q then old else prot s q.
Proof.
  intros s n a b o old c B Bl N O L T C.
  destruct (vp_ok a b old s B) as (s1 & V & B1 & T1 & L1 & P1).
  assert (F : forget a s1 = Some (with_tbl (terase (tbl s) a) (with_blocks (n ++ o) s1))).
  { unfold forget, aligned_free; rewrite B1, Bl, block_mid by exact N; cbv beta iota; rewrite filter_mid by assumption.
    cbn [tbl with_blocks]; rewrite T1; reflexivity. }
  destruct C as [-> | ->]; cbn [pstep]; unfold free_function, free_fast; rewrite ?L, T; cbv beta iota; rewrite V; cbv beta iota; rewrite F;
    (eexists; split; [reflexivity|]); cbn; rewrite L1, L; repeat split; exact P1.
Qed.

Lemma call_ok : forall base live s a b, holds base live s -> In (a, b) live -> pstep (KCall a) s = (PNone, b, s).
Proof.
  intros base live s a b (Bl & L & P & ND & TN & H) I; cbn [pstep]; unfold call_at.
  destruct (in_split _ _ I) as (n & o & E); rewrite Bl, E.
  assert (N : ~ In a (map fst n)).
  { rewrite E, map_app in ND; cbn [map fst] in ND; apply NoDup_remove_2 in ND; rewrite in_app_iff in ND; tauto. }
  rewrite block_mid by exact N; cbv beta iota.
  rewrite can_run_touch; [reflexivity|]; intros q T; rewrite P; unfold under.
  replace (existsb _ live) with true; [reflexivity|]; symmetry; apply existsb_exists; exists (a, b); split; assumption.
Qed.

Lemma under_cons : forall base a b live q, under base ((a, b) :: live) q = if touches a b q then 64 else under base live q.
Proof. intros; unfold under; cbn [existsb fst snd]; destruct (touches a b q); reflexivity. Qed.
Lemma under_app : forall base n o q, under base (n ++ o) q = if existsb (fun f => touches (fst f) (snd f) q) n then 64 else under base o q.
Proof. intros; unfold under; rewrite existsb_app; destruct (existsb _ n); reflexivity. Qed.

Lemma split_unique : forall (n n' o o' : list (Z * list Z)) a b b', NoDup (map fst (n ++ (a, b) :: o)) ->
  n ++ (a, b) :: o = n' ++ (a, b') :: o' -> n = n' /\ b = b' /\ o = o'.
Proof.
  induction n as [|[k c] n IH]; intros [|[k' c'] n'] o o' a b b' ND E; cbn [app] in E.
  - inversion E; auto.
  - inversion E; subst. cbn [app map fst] in ND; apply NoDup_cons_iff in ND; destruct ND as [ND _]; exfalso; apply ND.
    rewrite map_app, in_app_iff; right; left; reflexivity.
  - inversion E; subst. cbn [app map fst] in ND; apply NoDup_cons_iff in ND; destruct ND as [ND _]; exfalso; apply ND.
    rewrite map_app, in_app_iff; right; left; reflexivity.
  - inversion E; subst. cbn [app map] in ND; apply NoDup_cons_iff in ND.
    destruct (IH n' o o' a b b' (proj2 ND) H2) as (-> & -> & ->); auto.
Qed.

Lemma holds_make : forall base live s a b at_ c, holds base live s -> b <> [] -> placed live a b -> even (under base live) a b ->
  c = KMake (Code at_ b) (Some a) true \/ c = KMakeFast b (Some a) true ->
  exists s', pstep c s = (PPtr a, [], s') /\ holds base ((a, b) :: live) s'.
Proof.
  intros base live s a b at_ c (Bl & L & P & ND & TN & H) B Pl E C; rewrite <- Bl in Pl.
  pose proof (placed_new _ _ _ Pl) as NI; rewrite Bl in NI.
  destruct (make_ok s a b at_ c B Pl L (TN a NI) C) as (s' & -> & B' & L' & T' & P').
  exists s'; split; [reflexivity|]; unfold holds; rewrite B', Bl, T'; split; [reflexivity|]; split; [exact L'|]; split; [|split; [|split]].
  - intro q; rewrite P', P, under_cons; reflexivity.
  - cbn [map fst]; constructor; assumption.
  - intros k N; rewrite tget_put; cbn in N; destruct (a =? k) eqn:K; [apply Z.eqb_eq in K; tauto|apply TN; tauto].
  - intros [|[k d] n] x y o Q; cbn [app] in Q; inversion Q; subst.
    + split; [exact B|]; rewrite tget_put, Z.eqb_refl, P; split; [reflexivity|exact E].
    + destruct (H n x y o ltac:(congruence)) as (X & Y & W); split; [exact X|]; split; [|exact W].
      rewrite tget_put. destruct (k =? x) eqn:K; [|exact Y]; apply Z.eqb_eq in K; subst k.
      exfalso; apply NI; replace (blocks s) with (n ++ (x, y) :: o) by congruence; rewrite map_app, in_app_iff; right; left; reflexivity.
Qed.

Lemma holds_free : forall base n a b o s c, holds base (n ++ (a, b) :: o) s ->
  (forall k d, In (k, d) n -> ~ shares a b k d) -> c = KFree a true \/ c = KFreeFast a true ->
  exists s', pstep c s = (PNone, [], s') /\ holds base (n ++ o) s'.
Proof.
  intros base n a b o s c (Bl & L & P & ND & TN & H) NS C.
  destruct (H n a b o eq_refl) as (B & T & E).
  assert (N : ~ In a (map fst n) /\ ~ In a (map fst o)).
  { rewrite map_app in ND; cbn [map fst] in ND; apply NoDup_remove_2 in ND; rewrite in_app_iff in ND; tauto. }
  assert (ND' : NoDup (map fst (n ++ o))).
  { rewrite map_app in *; cbn [map fst] in ND; apply NoDup_remove_1 in ND; exact ND. }
  destruct N as [N O].
  assert (SEP : forall q, touches a b q = true -> existsb (fun f => touches (fst f) (snd f) q) n = false).
  { intros q Q; apply not_true_is_false; intro X; apply existsb_exists in X; destruct X as ((k & d) & I & X).
    apply (NS k d I); exists q; split; assumption. }
  destruct (free_ok s n a b o _ c B Bl N O L T C) as (s' & -> & B' & L' & T' & P').
  exists s'; split; [reflexivity|]; unfold holds; rewrite B', T'; split; [reflexivity|]; split; [exact L'|]; split; [|split; [exact ND'|split]].
  - intro q; rewrite P', P, !under_app, under_cons; destruct (touches a b q) eqn:Q.
    + rewrite (SEP q Q); symmetry; apply E; exact Q.
    + reflexivity.
  - intros k K; rewrite tget_erase; destruct (a =? k) eqn:Z; [reflexivity|]; apply TN.
    rewrite map_app, in_app_iff in *; cbn [map fst In]; apply Z.eqb_neq in Z; tauto.
  - intros n' x y o' Q; rewrite tget_erase.
    assert (XA : a <> x).
    { intros <-; assert (In a (map fst (n ++ o))) as I by (rewrite Q, map_app, in_app_iff; right; left; reflexivity).
      rewrite map_app, in_app_iff in I; tauto. }
    rewrite (proj2 (Z.eqb_neq _ _) XA).
    destruct (app_eq_app _ _ _ _ Q) as (l & [[En Eo]|[En Eo]]).
    + (* n = n' ++ l, (x,y)::o' = l ++ o *)
      destruct l as [|p l]; cbn [app] in Eo.
      * rewrite app_nil_r in En; subst n'; subst o.
        destruct (H (n ++ [(a, b)]) x y o') as (X & Y & W); [rewrite <- app_assoc; reflexivity|auto].
      * inversion Eo; subst p o'; subst n.
        destruct (H n' x y (l ++ (a, b) :: o)) as (X & Y & W); [rewrite <- app_assoc; reflexivity|].
        assert (SM : forall q, touches x y q = true -> under base (l ++ (a, b) :: o) q = under base (l ++ o) q).
        { intros q Q2; rewrite !under_app, under_cons; destruct (touches a b q) eqn:Q3; [|reflexivity].
          exfalso; apply (NS x y); [rewrite in_app_iff; right; left; reflexivity|exists q; split; assumption]. }
        split; [exact X|]; rewrite <- (SM _ (touches_first x y X)); split; [exact Y|].
        intros q Q2; rewrite <- (SM q Q2), <- (SM _ (touches_first x y X)); apply W; exact Q2.
    + (* n' = n ++ l, o = l ++ (x,y)::o' *)
      subst n' o. destruct (H (n ++ (a, b) :: l) x y o') as (X & Y & W); [rewrite <- app_assoc; reflexivity|auto].
Qed.

Lemma holds_run : forall base live s at_ b answer t, holds base live s -> b <> [] -> target live at_ b answer t -> even (under base live) t b ->
  exists s', run_code at_ b answer true true s = (PNone, b, s') /\ holds base live s'.
Proof.
  intros base live s at_ b answer t (Bl & L & P & ND & TN & H) B T E; rewrite <- Bl in T.
  destruct (run_code_ok at_ b answer t s B T) as (s' & -> & B' & T' & L' & P').
  exists s'; split; [reflexivity|]; unfold holds; rewrite B', T', L'; split; [exact Bl|]; split; [exact L|]; split; [|auto].
  intro q; rewrite P'; unfold after; rewrite !P; destruct (touches t b q) eqn:Q; [symmetry; apply E; exact Q|reflexivity].
Qed.

Lemma step_run : forall c s r ran s' rs s2 cs, pstep c s = (r, ran, s') -> (forall f, r <> PFault f) -> prun cs s' = (rs, s2) ->
  prun (c :: cs) s = ((r, ran) :: rs, s2).
Proof. intros c s r ran s' rs s2 cs H N R; cbn [prun]; rewrite H; destruct r; try (rewrite R; reflexivity); exfalso; eapply N; reflexivity. Qed.

Lemma histories : forall base live cs rs live', hist base live cs rs live' -> forall s, holds base live s ->
  exists s', prun cs s = (rs, s') /\ holds base live' s'.
Proof.
  induction 1 as [live|live c at_ b a cs rs live' C B P E _ IH|n a b o c cs rs live' C NS _ IH|live a b cs rs live' I _ IH
    |live c at_ b answer t cs rs live' C B T E _ IH|live c e cs rs live' C _ IH|live c at_ b ok ok2 cs rs live' C B _ IH
    |live c at_ b answer t ok2 cs rs live' B C _ IH]; intros s H.
  - exists s; split; [reflexivity|exact H].
  - destruct (holds_make base live s a b at_ c H B P E C) as (s1 & S1 & H1).
    destruct (IH s1 H1) as (s2 & R & H2); exists s2; split; [eapply step_run; eauto; discriminate|exact H2].
  - destruct (holds_free base n a b o s c H NS C) as (s1 & S1 & H1).
    destruct (IH s1 H1) as (s2 & R & H2); exists s2; split; [eapply step_run; eauto; discriminate|exact H2].
  - destruct (IH s H) as (s2 & R & H2); exists s2; split; [|exact H2].
    eapply step_run; [eapply call_ok; eauto|discriminate|exact R].
  - destruct (holds_run base live s at_ b answer t H B T E) as (s1 & S1 & H1).
    destruct (IH s1 H1) as (s2 & R & H2); exists s2; split; [|exact H2].
    eapply step_run; [|discriminate|exact R]; destruct C as [-> | ->]; cbn [pstep]; [|exact S1].
    unfold run; rewrite (proj2 (nonempty_pos b B)); exact S1.
  - destruct (IH s H) as (s2 & R & H2); exists s2; split; [|exact H2].
    eapply step_run; [|discriminate|exact R].
    destruct C as (x & answer & ok & ok2 & [-> | ->] & [[[-> | ->] ->]|[[at_ ->] ->]]); reflexivity.
  - destruct (IH s H) as (s2 & R & H2); exists s2; split; [|exact H2].
    eapply step_run; [|discriminate|exact R].
    destruct C as [-> |[-> |(M & [-> | ->])]]; cbn [pstep]; unfold make, make_fast, run, run_code, make_at.
    + destruct B as [B|[B|B]]; [|discriminate|discriminate]; rewrite (proj2 (nonempty_pos b B)); reflexivity.
    + reflexivity.
    + destruct B as [B|[B|B]]; [|discriminate|discriminate]; rewrite (proj2 (nonempty_pos b B)), (proj2 (Z.eqb_neq _ _) M); reflexivity.
    + rewrite (proj2 (Z.eqb_neq _ _) M); reflexivity.
  - destruct (IH s H) as (s2 & R & H2); exists s2; split; [|exact H2].
    eapply step_run; [|discriminate|exact R].
    destruct H as (Bl & _); rewrite <- Bl in C.
    destruct C as [[[-> | ->] P]|[[-> | ->] T]]; cbn [pstep]; unfold make, make_fast, run; rewrite ?(proj2 (nonempty_pos b B)).
    + apply make_at_refused; exact P.
    + apply make_at_refused; exact P.
    + eapply run_code_refused; exact T.
    + eapply run_code_refused; exact T.
Qed.

(** Two functions on one page, freed in the order they were made. *)
Definition calm (base : Z -> Z) : pst := {| prot := base; blocks := []; tbl := []; locked := false |}.
Lemma calm_holds : forall base, holds base [] (calm base).
Proof.
  intro base; unfold holds, calm; cbn; split; [reflexivity|]; split; [reflexivity|]; split; [intro q; reflexivity|]; split; [constructor|]; split; [reflexivity|].
  intros [|? ?] ? ? ? E; discriminate.
Qed.
Lemma shared : forall base a b c d q x y, b <> [] -> d <> [] -> placed [] a b -> placed [(a, b)] c d ->
  even base a b -> even (under base [(a, b)]) c d ->
  touches a b q = true -> touches c d q = true -> executable (base q) = false ->
  exists s, prun [KMake (Code x b) (Some a) true; KMake (Code y d) (Some c) true; KFree a true] (calm base) =
              ([(PPtr a, []); (PPtr c, []); (PNone, [])], s) /\
    pstep (KCall c) s = (PFault FNoExec, [], s) /\
    exists s', pstep (KFree c true) s = (PNone, [], s') /\ blocks s' = [] /\ tbl s' = [] /\
      (touches a b (c / 4096) = true -> prot s' q = 64).
Proof.
  intros base a b c d q x y B D P1 P2 E1 E2 Ta Tc X.
  destruct (holds_make base [] (calm base) a b x _ (calm_holds base) B P1 E1 (or_introl eq_refl)) as (s1 & S1 & H1).
  destruct (holds_make base [(a, b)] s1 c d y _ H1 D P2 E2 (or_introl eq_refl)) as (s2 & S2 & H2).
  pose proof H2 as (Bl & L & P & ND & TN & HH).
  destruct (HH [(c, d)] a b [] eq_refl) as (_ & T & _).
  destruct (HH [] c d [(a, b)] eq_refl) as (_ & TC & _).
  assert (N : c <> a) by (cbn in ND; inversion ND; subst; cbn in *; intuition).
  destruct (free_ok s2 [(c, d)] a b [] _ (KFree a true) B Bl ltac:(cbn; intuition congruence) ltac:(cbn; tauto) L T (or_introl eq_refl))
    as (s3 & S3 & B3 & L3 & T3 & P3).
  assert (U : forall p, touches a b p = true -> prot s3 p = base p).
  { intros p Q; rewrite P3, Q; unfold under; cbn; symmetry; rewrite (E1 p Q); reflexivity. }
  exists s3; split; [|split].
  - eapply step_run; [exact S1|discriminate|]; eapply step_run; [exact S2|discriminate|]; eapply step_run; [exact S3|discriminate|reflexivity].
  - cbn [pstep]; unfold call_at; rewrite B3; cbn [app block_at]; rewrite Z.eqb_refl.
    rewrite (can_run_not s3 c d q Tc); [reflexivity|]; rewrite (U q Ta); exact X.
  - assert (TC3 : tget (tbl s3) c = Some (zlen d, under base [(a, b)] (c / 4096))).
    { rewrite T3, tget_erase, (proj2 (Z.eqb_neq _ _) (not_eq_sym N)); exact TC. }
    destruct (free_ok s3 [] c d [] _ (KFree c true) D B3 ltac:(cbn; tauto) ltac:(cbn; tauto) L3 TC3 (or_introl eq_refl))
      as (s4 & S4 & B4 & L4 & T4 & P4).
    exists s4; split; [exact S4|]; split; [exact B4|]; split.
    + rewrite T4, T3. clear - S1 S2.
      assert (E : tbl s1 = [(a, (zlen b, base (a / PAGE)))]).
      { revert S1; cbn [pstep]; unfold make; destruct (zlen b =? 0); [discriminate|]; unfold make_at.
        destruct (aligned_alloc _ _ _) as [[k s]|] eqn:A; [|discriminate].
        unfold aligned_alloc in A; destruct (_ && _); [|discriminate]; inversion A; subst.
        destruct (virtual_protect true k (zlen b) RWX _) as [[old s]|] eqn:V; [|unfold release; destruct (aligned_free _ _); discriminate].
        unfold virtual_protect in V; destruct (true && _); [|discriminate]; inversion V; subst; cbn.
        intro Q; inversion Q; reflexivity. }
      revert S2; cbn [pstep]; unfold make; destruct (zlen d =? 0); [discriminate|]; unfold make_at.
      destruct (aligned_alloc _ _ _) as [[k s]|] eqn:A; [|discriminate].
      unfold aligned_alloc in A; destruct (_ && _); [|discriminate]; inversion A; subst.
      destruct (virtual_protect true k (zlen d) RWX _) as [[old s]|] eqn:V; [|unfold release; destruct (aligned_free _ _); discriminate].
      unfold virtual_protect in V; destruct (true && _); [|discriminate]; inversion V; subst; cbn.
      destruct (locked s1); [discriminate|]; destruct (tget (tbl s1) k); [discriminate|].
      intro Q; inversion Q; subst; cbn; rewrite E; cbn.
      repeat (match goal with |- context [?u =? ?v] => destruct (u =? v) eqn:?; cbn end); try reflexivity; rewrite ?Z.eqb_refl in *; try discriminate; congruence.
    + intro Q; rewrite P4, Tc; unfold under; cbn [existsb fst snd]; rewrite Q; reflexivity.
Qed.

Lemma runs : forall c at_ b answer t s, b <> [] -> target (blocks s) at_ b answer t ->
  c = KRun (Code at_ b) answer true true \/ c = KRunFast at_ b answer true true ->
  exists s', pstep c s = (PNone, b, s') /\ blocks s' = blocks s /\ tbl s' = tbl s /\ locked s' = locked s /\
    forall q, prot s' q = if touches t b q then prot s (t / 4096) else prot s q.
Proof.
  intros c at_ b answer t s B T C; destruct (run_code_ok at_ b answer t s B T) as (s' & R & H).
  exists s'; split; [|exact H]; destruct C as [-> | ->]; cbn [pstep]; [|exact R]; unfold run; rewrite (proj2 (nonempty_pos b B)); exact R.
Qed.
Lemma runs_even : forall c at_ b answer t s, b <> [] -> target (blocks s) at_ b answer t -> even (prot s) t b ->
  c = KRun (Code at_ b) answer true true \/ c = KRunFast at_ b answer true true ->
  exists s', pstep c s = (PNone, b, s') /\ blocks s' = blocks s /\ tbl s' = tbl s /\ locked s' = locked s /\
    forall q, prot s' q = prot s q.
Proof.
  intros c at_ b answer t s B T E C; destruct (runs c at_ b answer t s B T C) as (s' & R & B' & T' & L' & P').
  exists s'; repeat split; auto; intro q; rewrite P'; destruct (touches t b q) eqn:Q; [symmetry; apply E; exact Q|reflexivity].
Qed.
Lemma runs_uneven : forall c at_ b answer t s q, b <> [] -> target (blocks s) at_ b answer t ->
  touches t b q = true -> prot s q <> prot s (t / 4096) ->
  c = KRun (Code at_ b) answer true true \/ c = KRunFast at_ b answer true true ->
  exists s', pstep c s = (PNone, b, s') /\ prot s' q = prot s (t / 4096) /\ prot s' q <> prot s q.
Proof.
  intros c at_ b answer t s q B T Q N C; destruct (runs c at_ b answer t s B T C) as (s' & R & _ & _ & _ & P').
  exists s'; split; [exact R|]; rewrite P', Q; split; [reflexivity|congruence].
Qed.
Lemma runs_stay : forall c at_ b answer t s, b <> [] -> target (blocks s) at_ b answer t ->
  c = KRun (Code at_ b) answer true false \/ c = KRunFast at_ b answer true false ->
  exists s', pstep c s = (PErr EOSError, b, s') /\ blocks s' = blocks s /\ tbl s' = tbl s /\ locked s' = locked s /\
    forall q, prot s' q = if touches t b q then 64 else prot s q.
Proof.
  intros c at_ b answer t s B T C; destruct (run_code_stays at_ b answer t s B T) as (s' & R & H).
  exists s'; split; [|exact H]; destruct C as [-> | ->]; cbn [pstep]; [|exact R]; unfold run; rewrite (proj2 (nonempty_pos b B)); exact R.
Qed.
Lemma runs_fail : forall at_ b answer t ok2 s, target (blocks s) at_ b answer t ->
  pstep (KRunFast at_ b answer false ok2) s = (PErr EOSError, [], s) /\
  (b <> [] -> pstep (KRun (Code at_ b) answer false ok2) s = (PErr EOSError, [], s)) /\
  (at_ mod 16 <> 0 -> pstep (KRunFast at_ b None true ok2) s = (PErr EMemoryError, [], s) /\
     (b <> [] -> pstep (KRun (Code at_ b) None true ok2) s = (PErr EMemoryError, [], s))).
Proof.
  intros at_ b answer t ok2 s T; cbn [pstep]; split; [eapply run_code_refused; exact T|]; split.
  - intro B; unfold run; rewrite (proj2 (nonempty_pos b B)); eapply run_code_refused; exact T.
  - intro M; unfold run, run_code; rewrite (proj2 (Z.eqb_neq _ _) M); cbn [aligned_alloc]; split; [reflexivity|].
    intro B; rewrite (proj2 (nonempty_pos b B)); reflexivity.
Qed.
Lemma clean : forall base cs rs, hist base [] cs rs [] -> exists s, prun cs (calm base) = (rs, s) /\
  blocks s = [] /\ locked s = false /\ (forall a, tget (tbl s) a = None) /\ forall q, prot s q = base q.
Proof.
  intros base cs rs H; destruct (histories base [] cs rs [] H (calm base) (calm_holds base)) as (s & R & Bl & L & P & _ & TN & _).
  exists s; repeat split; auto.
Qed.
(** A function that cannot be given back is still there, but the lock is held. *)
Lemma free_refused : forall s a n old, locked s = false -> tget (tbl s) a = Some (n, old) ->
  exists s', pstep (KFree a false) s = (PErr EOSError, [], s') /\ prot s' = prot s /\ blocks s' = blocks s /\ tbl s' = tbl s /\
    (forall ok, pstep (KFree a ok) s' = (PFault FRelock, [], s')) /\ pstep (KFreeFast a false) s = (PErr EOSError, [], s).
Proof.
  intros s a n old L T; cbn [pstep]; unfold free_function, free_fast; rewrite L, T; cbv beta iota; cbn [virtual_protect andb].
  eexists; split; [reflexivity|]; cbn; repeat split.
Qed.
