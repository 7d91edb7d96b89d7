(** ObjectArrayList: counted calls keep the counts, and results agree with the
    Python list. *)
From Coq Require Import ZArith List Bool Lia Arith.
From Verif Require Import Base PyLongModel PyLongProofs MemModel QReverseModel QReverseProofs PyListSpec ListLemmas
  ArrayListModel ArrayListProofs ObjModel ObjArrayModel ObjWorldModel ObjSpec ObjLemmas.
Import ListNotations.
Local Open Scope Z_scope.
Local Arguments Z.pow : simpl never.
Local Arguments Z.add : simpl never.
Local Arguments Z.sub : simpl never.
Local Arguments Z.mul : simpl never.
Local Arguments Z.of_nat : simpl never.
Local Arguments Z.to_nat : simpl never.

Definition agood := @good vec (fun s => s) (fun _ => True).

(** ** Slices *)
Lemma unpack_step sl a b c : PySlice_Unpack sl = Ret (a, b, c) -> (c = 1 <-> step_of sl = 1).
Proof.
  unfold PySlice_Unpack, step_of. destruct ssize_consts as [EA EB].
  destruct (sl_step sl) as [z|].
  - destruct (clip_cases z) as [[A B]|[[A B]|[A B]]]; rewrite B in *.
    + change (SSIZE_MIN =? 0) with false. change (SSIZE_MIN <? - SSIZE_MAX) with true. cbv iota.
      intros H; injection H as _ _ <-. rewrite ?EA, ?EB in *. lia.
    + change (SSIZE_MAX =? 0) with false. change (SSIZE_MAX <? - SSIZE_MAX) with false. cbv iota.
      intros H; injection H as _ _ <-. rewrite ?EA, ?EB in *. lia.
    + destruct (Z.eqb_spec z 0); [discriminate|]. destruct (Z.ltb_spec z (- SSIZE_MAX)); intros HH; injection HH as _ _ <-; rewrite ?EA, ?EB in *; lia.
  - change (1 =? 0) with false. change (1 <? - SSIZE_MAX) with false. cbv iota. intros H; injection H as _ _ <-. tauto.
Qed.
Lemma slots_ssize : SLOTS = SSIZE_MAX.
Proof. reflexivity. Qed.
Lemma slice_len_eq s sl start stop step a b c : zlen s <= SSIZE_MAX -> PySlice_Unpack sl = Ret (start, stop, step) ->
  PySlice_AdjustIndices (zlen s) start stop step = (a, b, c) -> slice_len s sl = Z.max 0 c.
Proof.
  intros Hl U A. pose proof (slice_positions_eq (length s) sl start stop step Hl U) as P. fold (zlen s) in P. rewrite A in P.
  destruct P as (P & _). unfold slice_len, zlen. rewrite P, map_length, seq_length. lia.
Qed.

(** ** Loops *)
Lemma fast_loop_ok : forall b pre rest a c start rc, (length b <= length rest)%nat -> zlen a = start + zlen pre ->
  Forall obj b -> (forall x, occ b x <= rc x) -> Forall (fun o => obj o /\ occ b o < rc o) rest ->
  exists rc', fast_loop (fun _ i => znth (pre ++ rest) i) (length b) (zlen pre) start (a ++ b ++ c) rc
    = Ret (a ++ repeat 0 (length b) ++ c, rc') /\
    (forall x, rc' x = rc x - occ b x + occ (firstn (length b) rest) x).
Proof.
  induction b as [|o b IH]; intros pre rest a c start rc L Ea Fb Hb Hr; cbn [length fast_loop].
  - exists rc. split; [reflexivity|]. intros x. cbn [firstn occ]. lia.
  - destruct rest as [|y rest]; [cbn in L; lia|]. inversion Fb as [|? ? Oo Fb']; subst. inversion Hr as [|? ? [Oy Py] Hr']; subst.
    cbn [app]. rewrite (znth_mid a o (b ++ c)) by lia. cbn [or_ub obind].
    assert (Po : 0 < rc o). { specialize (Hb o). cbn [occ] in Hb. rewrite Z.eqb_refl in Hb. pose proof (occ_nonneg b o). lia. }
    destruct (decref_ok o rc Oo Po) as (rc1 & E1 & R1). rewrite E1. cbn [obind].
    rewrite (zset_mid a o (b ++ c)) by lia. cbn [or_ub obind]. rewrite (znth_mid pre y rest) by reflexivity. cbn [or_ub obind].
    assert (Py1 : 0 < rc1 y). { rewrite R1. cbn [occ] in *. pose proof (occ_nonneg b y). lia. }
    destruct (incref_ok y rc1 Oy Py1) as (rc2 & E2 & R2). rewrite E2. cbn [obind].
    assert (R12 : forall x, rc2 x = rc x - occ [o] x + occ [y] x) by (intros x; rewrite R2, R1; lia).
    destruct (IH (pre ++ [y]) rest (a ++ [0]) c start rc2) as (rc3 & E3 & R3).
    + cbn in L. lia.
    + rewrite !zlen_app. unfold zlen at 2 4. cbn [length]. lia.
    + exact Fb'.
    + intros x. rewrite R12. specialize (Hb x). cbn [occ] in *. pose proof (occ_nonneg [y] x) as Q. cbn [occ] in Q. lia.
    + eapply Forall_impl; [|exact Hr']. cbn beta. intros x [O P]. split; [exact O|]. rewrite R12. cbn [occ] in *.
      pose proof (occ_nonneg [y] x) as Q. cbn [occ] in Q. lia.
    + rewrite zlen_app in E3. change (zlen [y]) with 1 in E3. rewrite <- !app_assoc in E3. cbn [app] in E3. rewrite E3.
      exists rc3. split; [reflexivity|]. intros x. rewrite R3, R12. cbn [firstn occ]. lia.
Qed.
Lemma copy_in_ok : forall src a b c start, length b = length src -> start = zlen a ->
  copy_in src start (a ++ b ++ c) = Ret (a ++ src ++ c).
Proof.
  induction src as [|o src IH]; intros a b c start L ->; cbn [copy_in].
  - destruct b; [reflexivity|discriminate].
  - destruct b as [|x b]; [discriminate|]. cbn [app]. rewrite (zset_mid a x (b ++ c)) by lia. cbn [or_ub obind].
    replace (a ++ o :: b ++ c) with ((a ++ [o]) ++ b ++ c) by (rewrite <- app_assoc; reflexivity).
    rewrite IH; [rewrite <- app_assoc; reflexivity|cbn in L; lia|]. rewrite zlen_app. reflexivity.
Qed.
Lemma fast_copy_ok ys a b c rc : (length b <= length ys)%nat -> Forall obj b ->
  (forall x, occ b x <= rc x) -> Forall (fun o => obj o /\ occ b o < rc o) ys ->
  exists rc', fast_copy ys (zlen b) (zlen a) (a ++ b ++ c) rc = Ret (a ++ firstn (length b) ys ++ c, rc') /\
    (forall x, rc' x = rc x - occ b x + occ (firstn (length b) ys) x).
Proof.
  intros L Fb Hb Hr. unfold fast_copy. assert (N : Z.to_nat (zlen b) = length b) by (unfold zlen; lia). rewrite N.
  destruct (fast_loop_ok b [] ys a c (zlen a) rc) as (rc' & E & R); auto.
  { change (zlen (@nil Z)) with 0. lia. }
  change (zlen (@nil Z)) with 0 in E. cbn [app] in E. rewrite E. cbn [obind].
  rewrite copy_in_ok; [|rewrite repeat_length, firstn_length; lia|reflexivity].
  cbn [omap obind]. exists rc'. auto.
Qed.
Lemma drop_loop_ok : forall b a c i rc, i = zlen a -> Forall obj b -> (forall x, occ b x <= rc x) ->
  exists rc', drop_loop (length b) i (a ++ b ++ c) rc = Ret (a ++ repeat 0 (length b) ++ c, rc') /\
    (forall x, rc' x = rc x - occ b x).
Proof.
  induction b as [|o b IH]; intros a c i rc -> Fb Hb; cbn [length drop_loop].
  - exists rc. split; [reflexivity|]. intros x. cbn [occ]. lia.
  - inversion Fb as [|? ? Oo Fb']; subst. cbn [app]. rewrite (znth_mid a o (b ++ c)) by lia. cbn [or_ub obind].
    assert (Po : 0 < rc o). { specialize (Hb o). cbn [occ] in Hb. rewrite Z.eqb_refl in Hb. pose proof (occ_nonneg b o). lia. }
    destruct (decref_ok o rc Oo Po) as (rc1 & E1 & R1). rewrite E1. cbn [obind].
    rewrite (zset_mid a o (b ++ c)) by lia. cbn [or_ub obind].
    destruct (IH (a ++ [0]) c (zlen a + 1) rc1) as (rc2 & E2 & R2).
    + rewrite zlen_app. reflexivity.
    + exact Fb'.
    + intros x. rewrite R1. specialize (Hb x). cbn [occ] in *. lia.
    + rewrite <- !app_assoc in E2. cbn [app] in E2. rewrite E2. exists rc2. split; [reflexivity|]. intros x. rewrite R2, R1. cbn [occ]. lia.
Qed.
Lemma drop_range_ok b a c n i stop rc : i = zlen a -> n = zlen b -> stop = zlen a + zlen b -> Forall obj b -> (forall x, occ b x <= rc x) ->
  exists rc', drop_range i n stop (a ++ b ++ c) rc = Ret (a ++ c, rc') /\ (forall x, rc' x = rc x - occ b x).
Proof.
  intros -> -> -> Fb Hb. unfold drop_range. replace (Z.to_nat (zlen b)) with (length b) by (unfold zlen; lia).
  destruct (drop_loop_ok b a c (zlen a) rc eq_refl Fb Hb) as (rc' & E & R). rewrite E. cbn [obind].
  rewrite zerase_range_mid; [|reflexivity|unfold zlen; rewrite repeat_length; reflexivity].
  cbn [or_ub omap obind]. exists rc'. auto.
Qed.

Definition end_exn (fin : option exn) : exn := match fin with Some e => e | None => IndexError end.
Lemma seq_get_end items fin i : i = zlen items -> seq_get items fin i = Raise (end_exn fin).
Proof.
  intros ->. unfold seq_get. destruct (znth items (zlen items)) eqn:E; [|reflexivity]. apply znth_some in E. lia.
Qed.
Lemma generic_loop_ok : forall b pre rest fin a c start rc, zlen a = start + zlen pre ->
  Forall obj b -> Forall obj rest -> (forall x, occ b x <= rc x) ->
  exists rc', generic_loop (seq_get (pre ++ rest) fin) (length b) (zlen pre) start (a ++ b ++ c) rc
    = (if (length b <=? length rest)%nat then Ret tt else Raise (end_exn fin),
       (a ++ firstn (length b) rest ++ skipn (length rest) b ++ c, rc')) /\
    (forall x, rc' x = rc x - occ (firstn (length rest) b) x + occ (firstn (length b) rest) x).
Proof.
  induction b as [|o b IH]; intros pre rest fin a c start rc Ea Fb Fr Hb; cbn [length generic_loop].
  - exists rc. split; [|intros x; rewrite firstn_nil; cbn [firstn occ]; lia]. rewrite skipn_nil. reflexivity.
  - inversion Fb as [|? ? Oo Fb']; subst.
    destruct rest as [|y rest]; cbn [length Nat.leb].
    + rewrite app_nil_r. rewrite seq_get_end by reflexivity. exists rc. split; [reflexivity|]. intros x. cbn [firstn occ]. lia.
    + inversion Fr as [|? ? Oy Fr']; subst. unfold seq_get at 1. rewrite (znth_mid pre y rest) by reflexivity. cbv zeta.
      cbn [app]. rewrite (znth_mid a o (b ++ c)) by lia. cbn [or_ub obind].
      assert (N1 : forall x, new_ref y rc x = rc x + occ [y] x) by (intros x; apply upd_plus).
      assert (Po : 0 < new_ref y rc o).
      { rewrite N1. specialize (Hb o). cbn [occ] in Hb. rewrite Z.eqb_refl in Hb. pose proof (occ_nonneg b o). pose proof (occ_nonneg [y] o). lia. }
      destruct (decref_ok o _ Oo Po) as (rc2 & E2 & R2). rewrite E2. rewrite (zset_mid a o (b ++ c)) by lia.
      destruct (IH (pre ++ [y]) rest fin (a ++ [y]) c start rc2) as (rc3 & E3 & R3).
      * rewrite !zlen_app. unfold zlen at 2 4. cbn [length]. lia.
      * exact Fb'.
      * exact Fr'.
      * intros x. rewrite R2, N1. specialize (Hb x). pose proof (occ_nonneg [y] x). cbn [occ] in *. lia.
      * rewrite zlen_app in E3. change (zlen [y]) with 1 in E3. rewrite <- !app_assoc in E3. cbn [app] in E3. rewrite E3.
        exists rc3. split; [reflexivity|]. intros x. rewrite R3, R2, N1. cbn [firstn occ]. lia.
Qed.
Lemma generic_insert_ok : forall n pre rest fin a c start rc, zlen a = start + zlen pre ->
  exists rc', generic_insert (seq_get (pre ++ rest) fin) n (zlen pre) start (a ++ c) rc
    = (if (n <=? length rest)%nat then Ret tt else Raise (end_exn fin), (a ++ firstn n rest ++ c, rc')) /\
    (forall x, rc' x = rc x + occ (firstn n rest) x).
Proof.
  induction n as [|n IH]; intros pre rest fin a c start rc Ea; cbn [generic_insert].
  - exists rc. split; [reflexivity|]. intros x. cbn [firstn occ]. lia.
  - destruct rest as [|y rest]; cbn [length Nat.leb].
    + rewrite app_nil_r. rewrite seq_get_end by reflexivity. exists rc. split; [reflexivity|]. intros x. cbn [firstn occ]. lia.
    + unfold seq_get at 1. rewrite (znth_mid pre y rest) by reflexivity. rewrite (zinsert_mid a c) by lia.
      destruct (IH (pre ++ [y]) rest fin (a ++ [y]) c start (new_ref y rc)) as (rc3 & E3 & R3).
      * rewrite !zlen_app. unfold zlen at 2 4. cbn [length]. lia.
      * rewrite zlen_app in E3. change (zlen [y]) with 1 in E3. rewrite <- !app_assoc in E3. cbn [app] in E3. rewrite E3.
        exists rc3. split; [reflexivity|]. intros x. rewrite R3. unfold new_ref. rewrite upd_plus. cbn [firstn occ]. lia.
Qed.

(** ** Slice assignment *)
Section Assign.
Variables (s : vec) (rc d : counts) (sl : slice).
Hypothesis (D : forall x, 0 <= d x) (R : forall x, rc x = occ s x + d x) (F : Forall obj s) (Hl : zlen s <= SSIZE_MAX).

(** From a list, not growing. *)
Lemma a_setslice_fast ys v : v = SetTo (OSame ys) \/ v = SetTo (OList ys) -> step_of sl = 1 -> zlen ys <= slice_len s sl ->
  Forall (fun o => obj o /\ 0 < d o) ys ->
  exists rc', a_setitem_slice sl v s rc = (Ret ONone, (py_setslice s sl ys, rc')) /\
    forall x, rc' x = occ (py_setslice s sl ys) x + d x.
Proof.
  intros V S1 SL P. destruct (unpack_step1 s sl Hl S1) as (start & stop & U & Adj).
  rewrite (slice_len_eq s sl _ _ _ _ _ _ Hl U Adj) in SL. rewrite Z.max_r in SL by lia.
  unfold a_setitem_slice. rewrite U. cbn [owith]. rewrite Adj. change (negb (1 =? 1)) with false. cbv iota zeta.
  destruct (slice_split s sl) as (a & b & c & E & La & Lb & Pp). rewrite Pp.
  assert (Fb : Forall obj b) by (rewrite E in F; apply Forall_app in F; destruct F as [_ F']; apply Forall_app in F'; apply F').
  assert (Hb : forall x, occ s x = occ a x + occ b x + occ c x) by (intros x; rewrite E, !occ_app; lia).
  set (lo := lo_of s sl) in *. set (hi := hi_of s sl) in *. clearbody lo hi. rewrite <- Lb in *.
  assert (Hlt : zlen ys <> zlen b -> zlen b = hi - lo) by (pose proof (zlen_nonneg ys); lia).
  subst lo. clear Adj U Pp Hl. rewrite E in *. clear E s.
  assert (Q : (if zlen ys =? zlen b then done_ (fast_copy ys (zlen b) (zlen a) (a ++ b ++ c) rc) (a ++ b ++ c) rc
     else if zlen ys <? zlen b then done_ (obind (fast_copy ys (zlen ys) (zlen a) (a ++ b ++ c) rc) (fun '(s, rc) =>
             drop_range (zlen a + zlen ys) (zlen b - zlen ys) hi s rc)) (a ++ b ++ c) rc
     else done_ (obind (fast_copy ys (zlen b) (zlen a) (a ++ b ++ c) rc) (fun '(s, rc) =>
             omap (fun s => (s, rc)) (insert_range (zlen a + zlen b) (skipn (Z.to_nat (zlen b)) ys) s))) (a ++ b ++ c) rc) =
     (if zlen ys =? zlen b then done_ (fast_copy ys (zlen b) (zlen a) (a ++ b ++ c) rc) (a ++ b ++ c) rc
     else done_ (obind (fast_copy ys (zlen ys) (zlen a) (a ++ b ++ c) rc) (fun '(s, rc) =>
             drop_range (zlen a + zlen ys) (zlen b - zlen ys) hi s rc)) (a ++ b ++ c) rc)).
  { destruct (Z.eqb_spec (zlen ys) (zlen b)); [reflexivity|]. destruct (Z.ltb_spec (zlen ys) (zlen b)); [reflexivity|]. lia. }
  assert (G : exists rc', (if zlen ys =? zlen b then done_ (fast_copy ys (zlen b) (zlen a) (a ++ b ++ c) rc) (a ++ b ++ c) rc
     else done_ (obind (fast_copy ys (zlen ys) (zlen a) (a ++ b ++ c) rc) (fun '(s, rc) =>
             drop_range (zlen a + zlen ys) (zlen b - zlen ys) hi s rc)) (a ++ b ++ c) rc) = (Ret ONone, (a ++ ys ++ c, rc')) /\
      forall x, rc' x = occ (a ++ ys ++ c) x + d x).
  { destruct (Z.eqb_spec (zlen ys) (zlen b)) as [EL|NL].
    - destruct (fast_copy_ok ys a b c rc) as (rc' & Ef & Rf); auto.
      + unfold zlen in EL. lia.
      + intros x. rewrite R, Hb. pose proof (occ_nonneg a x). pose proof (occ_nonneg c x). specialize (D x). lia.
      + eapply Forall_impl; [|exact P]. cbn beta. intros x [O X]. split; [exact O|]. rewrite R, Hb.
        pose proof (occ_nonneg a x). pose proof (occ_nonneg c x). lia.
      + rewrite Ef. unfold done_. cbn [owith]. rewrite firstn_all2 in * by (unfold zlen in EL; lia). exists rc'. split; [reflexivity|].
        intros x. rewrite Rf, R, !occ_app. lia.
    - destruct (zsplit_le b (zlen ys)) as (b1 & b2 & Eb & Lb1); [pose proof (zlen_nonneg ys); lia|].
      assert (N1 : length b1 = length ys) by (unfold zlen in Lb1; lia).
      assert (Hb12 : forall x, occ b x = occ b1 x + occ b2 x) by (intros x; rewrite Eb, occ_app; lia).
      assert (Fb12 : Forall obj b1 /\ Forall obj b2) by (rewrite Eb in Fb; apply Forall_app in Fb; exact Fb).
      destruct (fast_copy_ok ys a b1 (b2 ++ c) rc) as (rc' & Ef & Rf).
      + lia.
      + apply Fb12.
      + intros x. rewrite R, Hb, Hb12. pose proof (occ_nonneg a x). pose proof (occ_nonneg c x). pose proof (occ_nonneg b2 x). specialize (D x). lia.
      + eapply Forall_impl; [|exact P]. cbn beta. intros x [O X]. split; [exact O|]. rewrite R, Hb, Hb12.
        pose proof (occ_nonneg a x). pose proof (occ_nonneg c x). pose proof (occ_nonneg b2 x). lia.
      + rewrite Lb1 in Ef. rewrite N1, firstn_all in Ef, Rf. replace (a ++ b ++ c) with (a ++ b1 ++ b2 ++ c) by (rewrite Eb, <- app_assoc; reflexivity).
        rewrite Ef. cbn [obind]. rewrite (app_assoc a ys).
        destruct (drop_range_ok b2 (a ++ ys) c (zlen b - zlen ys) (zlen a + zlen ys) hi rc') as (rc2 & E2 & R2).
        * rewrite zlen_app. lia.
        * rewrite Eb, zlen_app in *. lia.
        * specialize (Hlt NL). rewrite Eb, !zlen_app in *. lia.
        * apply Fb12.
        * intros x. rewrite Rf, R, Hb, Hb12. pose proof (occ_nonneg a x). pose proof (occ_nonneg c x). pose proof (occ_nonneg ys x). specialize (D x). lia.
        * rewrite E2. unfold done_. cbn [owith]. exists rc2. rewrite <- app_assoc. split; [reflexivity|].
          intros x. rewrite R2, Rf, R, Hb, Hb12, !occ_app. lia. }
  destruct G as (rc' & G1 & G2). exists rc'. split; [|exact G2]. rewrite <- G1. destruct V as [-> | ->]; exact Q.
Qed.

(** From another sequence, possibly ending in an error. *)
Lemma a_setslice_generic items fin : step_of sl = 1 -> Forall obj items ->
  exists v s' rc', a_setitem_slice sl (SetTo (OIter items fin)) s rc = (v, (s', rc')) /\
    (forall x, rc' x = occ s' x + d x) /\ Forall obj s' /\
    match fin with None => v = Ret ONone /\ s' = py_setslice s sl items | Some e => v = Raise e end.
Proof.
  intros S1 FI. destruct (unpack_step1 s sl Hl S1) as (start & stop & U & Adj).
  unfold a_setitem_slice. rewrite U. cbn [owith]. rewrite Adj. change (negb (1 =? 1)) with false. cbv iota zeta.
  destruct (slice_split s sl) as (a & b & c & E & La & Lb & Pp). rewrite Pp.
  assert (FF : Forall obj a /\ Forall obj b /\ Forall obj c).
  { rewrite E in F; apply Forall_app in F; destruct F as [? F']; apply Forall_app in F'; tauto. }
  assert (Hb : forall x, occ s x = occ a x + occ b x + occ c x) by (intros x; rewrite E, !occ_app; lia).
  set (lo := lo_of s sl) in *. set (hi := hi_of s sl) in *. clearbody lo hi. rewrite <- Lb in *.
  subst lo. clear Adj U Pp Hl. rewrite E in *. clear E s. set (s := a ++ b ++ c) in *.
  assert (SL : seq_len items fin = zlen items + match fin with None => 0 | Some _ => 1 end) by (destruct fin; cbn; lia).
  assert (B0 : forall x, occ b x <= rc x).
  { intros x. rewrite R, Hb. pose proof (occ_nonneg a x). pose proof (occ_nonneg c x). specialize (D x). lia. }
  destruct FF as (Fa & Fb & Fc).
  destruct (Z.eqb_spec (seq_len items fin) (zlen b)) as [EL|NL]; [|destruct (Z.ltb_spec (seq_len items fin) (zlen b)) as [LT|GT]].
  - destruct (generic_loop_ok b [] items fin a c (zlen a) rc) as (rc' & E' & R'); auto.
    { change (zlen (@nil Z)) with 0. lia. }
    change (zlen (@nil Z)) with 0 in E'. cbn [app] in E'. replace (Z.to_nat (zlen b)) with (length b) by (unfold zlen; lia). fold s in E'. rewrite E'.
    unfold after. cbn [fst snd]. destruct fin as [e|].
    + destruct (Nat.leb_spec (length b) (length items)); [unfold zlen in *; lia|].
      exists (Raise e), (a ++ firstn (length b) items ++ skipn (length items) b ++ c), rc'. split; [reflexivity|]. split; [|split; [|reflexivity]].
      * intros x. rewrite R', R, Hb, !occ_app, (occ_split b (length items) x). lia.
      * repeat apply Forall_app_2; auto using Forall_firstn, Forall_skipn.
    + destruct (Nat.leb_spec (length b) (length items)); [|unfold zlen in *; lia].
      assert (LE : length items = length b) by (unfold zlen in *; lia).
      exists (Ret ONone), (a ++ items ++ c), rc'. split; [|split; [|split; [|split; reflexivity]]].
      * do 2 f_equal. rewrite <- LE, firstn_all. rewrite LE, skipn_all. reflexivity.
      * intros x. rewrite R', R, Hb, !occ_app. rewrite LE, firstn_all, <- LE, firstn_all. lia.
      * repeat apply Forall_app_2; auto.
  - destruct (zsplit_le b (seq_len items fin)) as (b1 & b2 & Eb & Lb1); [pose proof (zlen_nonneg items); destruct fin; lia|].
    assert (N1 : Z.to_nat (seq_len items fin) = length b1) by (unfold zlen in Lb1; lia).
    assert (Hb12 : forall x, occ b x = occ b1 x + occ b2 x) by (intros x; rewrite Eb, occ_app; lia).
    assert (Fb12 : Forall obj b1 /\ Forall obj b2) by (rewrite Eb in Fb; apply Forall_app in Fb; exact Fb).
    destruct Fb12 as [Fb1 Fb2].
    destruct (generic_loop_ok b1 [] items fin a (b2 ++ c) (zlen a) rc) as (rc' & E' & R'); auto.
    { change (zlen (@nil Z)) with 0. lia. }
    { intros x. specialize (B0 x). rewrite Hb12 in B0. pose proof (occ_nonneg b2 x). lia. }
    change (zlen (@nil Z)) with 0 in E'. cbn [app] in E'. replace (a ++ b1 ++ b2 ++ c) with s in E' by (unfold s; rewrite Eb, <- app_assoc; reflexivity).
    rewrite N1, E'. unfold after. cbn [fst snd]. destruct fin as [e|].
    + destruct (Nat.leb_spec (length b1) (length items)); [unfold zlen in *; lia|].
      exists (Raise e), (a ++ firstn (length b1) items ++ skipn (length items) b1 ++ b2 ++ c), rc'. split; [reflexivity|]. split; [|split; [|reflexivity]].
      * intros x. rewrite R', R, Hb, Hb12, !occ_app, (occ_split b1 (length items) x). lia.
      * repeat apply Forall_app_2; auto using Forall_firstn, Forall_skipn.
    + destruct (Nat.leb_spec (length b1) (length items)); [|unfold zlen in *; lia].
      assert (LE : length items = length b1) by (unfold zlen in *; lia).
      assert (EI : firstn (length b1) items = items) by (rewrite <- LE; apply firstn_all). rewrite EI in *.
      assert (ES : skipn (length items) b1 = []) by (rewrite LE; apply skipn_all). rewrite ES. cbn [app].
      assert (EF : firstn (length items) b1 = b1) by (rewrite LE; apply firstn_all). rewrite EF in *.
      rewrite (app_assoc a items).
      destruct (drop_range_ok b2 (a ++ items) c (zlen b - seq_len items None) (zlen a + seq_len items None) hi rc') as (rc2 & E2 & R2).
      * rewrite zlen_app. lia.
      * rewrite Eb, zlen_app. lia.
      * rewrite zlen_app. assert (zlen b = hi - zlen a) by (pose proof (zlen_nonneg items); lia). rewrite Eb, zlen_app in *. lia.
      * exact Fb2.
      * intros x. rewrite R', R, Hb, Hb12. pose proof (occ_nonneg a x). pose proof (occ_nonneg c x). pose proof (occ_nonneg items x). specialize (D x). lia.
      * rewrite E2. unfold done_. cbn [owith]. exists (Ret ONone), (a ++ items ++ c), rc2.
        split; [rewrite <- app_assoc; reflexivity|]. split; [|split; [|split; reflexivity]].
        -- intros x. rewrite R2, R', R, Hb, Hb12, !occ_app. lia.
        -- repeat apply Forall_app_2; auto.
  - destruct (generic_loop_ok b [] items fin a c (zlen a) rc) as (rc' & E' & R'); auto.
    { change (zlen (@nil Z)) with 0. lia. }
    change (zlen (@nil Z)) with 0 in E'. cbn [app] in E'. replace (Z.to_nat (zlen b)) with (length b) by (unfold zlen; lia). fold s in E'. rewrite E'.
    unfold after at 1. cbn [fst snd]. destruct (Nat.leb_spec (length b) (length items)) as [LB|LB].
    + assert (ES : skipn (length items) b = []) by (apply skipn_all2; lia). rewrite ES. cbn [app].
      assert (EF : firstn (length items) b = b) by (apply firstn_all2; lia). rewrite EF in *.
      destruct (generic_insert_ok (Z.to_nat (seq_len items fin - zlen b)) (firstn (length b) items) (skipn (length b) items) fin
                 (a ++ firstn (length b) items) c (zlen a) rc') as (rc2 & E2 & R2).
      { rewrite zlen_app. reflexivity. }
      rewrite firstn_skipn in E2. assert (ZF : zlen (firstn (length b) items) = zlen b) by (unfold zlen; rewrite firstn_length; lia).
      rewrite ZF, <- app_assoc in E2. rewrite E2. unfold after. cbn [fst snd].
      set (k := Z.to_nat (seq_len items fin - zlen b)) in *. rewrite skipn_length.
      assert (EK : firstn k (skipn (length b) items) = skipn (length b) items).
      { apply firstn_all2. rewrite skipn_length. unfold k. rewrite SL. unfold zlen. destruct fin; lia. }
      rewrite EK in *. rewrite <- !app_assoc, (app_assoc (firstn _ items)), firstn_skipn.
      assert (CO : forall x, rc2 x = occ (a ++ items ++ c) x + d x).
      { intros x. rewrite R2, R', R, Hb, !occ_app. rewrite (occ_split items (length b) x). lia. }
      destruct fin as [e|].
      * destruct (Nat.leb_spec k (length items - length b)); [unfold k, zlen in *; lia|].
        exists (Raise e), (a ++ items ++ c), rc2. split; [reflexivity|]. split; [exact CO|]. split; [|reflexivity]. repeat apply Forall_app_2; auto.
      * destruct (Nat.leb_spec k (length items - length b)); [|unfold k, zlen in *; lia].
        exists (Ret ONone), (a ++ items ++ c), rc2. split; [reflexivity|]. split; [exact CO|]. split; [|split; reflexivity]. repeat apply Forall_app_2; auto.
    + exfalso. destruct fin; unfold zlen in *; lia.
Qed.
End Assign.

(** ** All calls *)
Section Calls.
Variables (f : cpu) (s : vec) (rc d : counts).
Hypothesis (D : forall x, 0 <= d x) (R : forall x, rc x = occ s x + d x) (F : Forall obj s).
Hypothesis Hl : zlen s <= SSIZE_MAX.

Lemma live_s : Forall (fun o => obj o /\ 0 < rc o) s.
Proof.
  rewrite Forall_forall in *. intros x X. split; [apply F; exact X|]. rewrite R. pose proof (occ_in s x X). specialize (D x). lia.
Qed.
Lemma live_d ys : Forall (fun o => obj o /\ 0 < d o) ys -> Forall (fun o => obj o /\ 0 < rc o) ys.
Proof. intros H. eapply Forall_impl; [|exact H]. cbn beta. intros x [O P]. split; [exact O|]. rewrite R. pose proof (occ_nonneg s x). lia. Qed.
Lemma obj_d ys : Forall (fun o => obj o /\ 0 < d o) ys -> Forall obj ys.
Proof. intros H. eapply Forall_impl; [|exact H]. cbn beta. tauto. Qed.

(** A call that leaves everything alone. *)
Lemma keep v : defined v -> result_owned v = [] -> new_items (fun s : vec => s) v = [] -> agood d (v, (s, rc)).
Proof.
  intros H O N. unfold agood, good. rewrite O, N. split; [exact H|]. split; [exact I|]. split; [exact F|].
  split; [constructor|]. split; [constructor|]. split; [intros; exact I|]. intros x. rewrite R. cbn [occ]. lia.
Qed.
Lemma keep_new v s' rc' : defined v -> Forall obj s' -> Forall obj (new_items (fun s : vec => s) v) -> Forall obj (result_owned v) ->
  (forall x, rc' x = occ s' x + d x + occ (result_owned v) x + occ (new_items (fun s : vec => s) v) x) -> agood d (v, (s', rc')).
Proof. intros. unfold agood, good. repeat (split; [first [exact I|assumption]|]). split; [intros; exact I|assumption]. Qed.

Definition result (r : ares) : outcome (oval vec) * vec := (fst r, fst (snd r)).
Definition ok (c : ocall oarg) (r : ares) : Prop := agood d r /\ (a_agrees c s = true -> result r = py_obj c s).

Lemma find_result (o : Z) : std_find s o (length s) 0 = Ret (match occurrences s o with [] => zlen s | p :: _ => p end).
Proof. apply std_find_all. Qed.

Lemma a_slice_read_ok step start : 0 <= start <= SSIZE_MAX -> forall n i rc0, 0 <= i ->
  (forall j, 0 <= j < i + Z.of_nat n -> 0 <= start + j * step < zlen s) ->
  (forall x, In x s -> 0 < rc0 x) ->
  exists rc', a_slice_read s n i start step rc0 =
    Ret (map (fun j => get_default s (start + (i + Z.of_nat j) * step)) (seq 0 n), rc') /\
    forall x, rc' x = rc0 x + occ (map (fun j => get_default s (start + (i + Z.of_nat j) * step)) (seq 0 n)) x.
Proof.
  intros Hs. induction n as [|n IH]; intros i rc0 Hi Hb Hr; cbn [a_slice_read].
  - exists rc0. split; [reflexivity|]. intros x. cbn [seq map occ]. lia.
  - pose proof (Hb i ltac:(lia)) as Bi. destruct ssize_consts as [EA EB].
    rewrite ssz_ok by (rewrite EA, EB in *; lia). cbn [obind]. rewrite ssz_ok by (rewrite EA, EB in *; lia). cbn [obind].
    rewrite znth_default by lia. cbn [or_ub obind].
    set (o := get_default s (start + i * step)).
    assert (Io : In o s). { unfold o, get_default. apply nth_In. unfold zlen in Bi. lia. }
    destruct (incref_ok o rc0) as (rc1 & E1 & R1).
    { rewrite Forall_forall in F. apply F. exact Io. } { apply Hr. exact Io. }
    rewrite E1. cbn [obind].
    destruct (IH (i + 1) rc1) as (rc2 & E2 & R2); [lia|intros j Hj; apply Hb; lia| |].
    { intros x X. rewrite R1. pose proof (occ_nonneg [o] x). specialize (Hr x X). lia. }
    rewrite E2. cbn [obind].
    assert (EQ : map (fun j => get_default s (start + (i + Z.of_nat j) * step)) (seq 0 (S n)) =
                 o :: map (fun j => get_default s (start + (i + 1 + Z.of_nat j) * step)) (seq 0 n)).
    { cbn [seq map]. f_equal; [unfold o; do 2 f_equal; lia|]. rewrite <- seq_shift, map_map. apply map_ext. intros a. do 3 f_equal. lia. }
    rewrite EQ. exists rc2. split; [reflexivity|]. intros x. rewrite R2, R1. cbn [occ]. lia.
Qed.

Lemma a_getitem_slice_ok sl : exists rc', a_getitem_slice sl s rc =
  ((if step_of sl =? 0 then Raise ValueError else Ret (OPyList (py_getslice s sl))), (s, rc')) /\
  forall x, rc' x = rc x + occ (if step_of sl =? 0 then [] else py_getslice s sl) x.
Proof.
  unfold a_getitem_slice. destruct (unpack_cases sl) as [[E U]|[E (start & stop & step & U)]].
  - rewrite E, U. cbn [owith]. exists rc. split; [reflexivity|]. intros x. cbn [occ Z.eqb]. lia.
  - destruct (Z.eqb_spec (step_of sl) 0); [lia|]. rewrite U. cbn [owith].
    pose proof (slice_positions_eq (length s) sl start stop step Hl U) as P. fold (zlen s) in P.
    destruct (PySlice_AdjustIndices (zlen s) start stop step) as [[a b] c]. destruct P as (P1 & P2 & P3).
    destruct (Z.leb_spec c 0) as [C|C].
    + replace (Z.to_nat c) with 0%nat in * by lia. cbn [a_slice_read owith]. exists rc. unfold py_getslice. rewrite P1.
      split; [reflexivity|]. intros x. cbn [seq map occ]. lia.
    + destruct (a_slice_read_ok step a) with (n := Z.to_nat c) (i := 0) (rc0 := rc) as (rc' & E' & R').
      * pose proof (P2 0 ltac:(lia)). lia.
      * lia.
      * intros j Hj. apply P2. lia.
      * pose proof live_s as L. rewrite Forall_forall in L. intros x X. apply L. exact X.
      * rewrite E'. cbn [owith]. exists rc'. unfold py_getslice. rewrite P1, map_map. split; [reflexivity|]. exact R'.
Qed.

Lemma getslice_obj sl : Forall obj (py_getslice s sl).
Proof.
  unfold py_getslice. rewrite Forall_map. rewrite Forall_forall. intros p P. unfold get_default.
  assert (In (nth (Z.to_nat p) s 0) s).
  { apply nth_In. assert (B : 0 <= p < zlen s); [|unfold zlen in B; lia].
    unfold slice_positions in P. destruct (0 <? step_of sl); apply filter_In in P; destruct P as [P _];
      [|apply in_rev in P]; apply in_positions in P; exact P. }
  rewrite Forall_forall in F. apply F. exact H.
Qed.

Lemma a_mul_loop_ok n : forall acc rc0, (forall x, In x s -> 0 < rc0 x) ->
  exists rc', a_mul_loop n s acc rc0 = Ret (acc ++ concat (repeat s n), rc') /\
    forall x, rc' x = rc0 x + occ (concat (repeat s n)) x.
Proof.
  induction n as [|n IH]; intros acc rc0 H; cbn [a_mul_loop repeat concat].
  - exists rc0. rewrite app_nil_r. split; [reflexivity|]. intros x. cbn [occ]. lia.
  - destruct (incref_all_ok s rc0) as (rc1 & E1 & R1).
    { rewrite Forall_forall in *. intros x X. split; [apply F; exact X|apply H; exact X]. }
    rewrite E1. cbn [obind]. destruct (IH (acc ++ s) rc1) as (rc2 & E2 & R2).
    { intros x X. rewrite R1. specialize (H x X). pose proof (occ_nonneg s x). lia. }
    rewrite E2. exists rc2. rewrite <- app_assoc. split; [reflexivity|]. intros x. rewrite R2, R1, occ_app. lia.
Qed.
Lemma concat_repeat_obj n : Forall obj (concat (repeat s n)).
Proof. induction n; cbn [repeat concat]; [constructor|]. apply Forall_app_2; auto. Qed.

Lemma imul_empty n : forall k i rc0, (Z.to_nat (n - i) <= k)%nat ->
  imul_steps n (S k) {| l_i := i; l_j := 0; l_vec := []; l_rc := rc0 |} = Finished [] rc0.
Proof.
  induction k as [|k IH]; intros i rc0 H; cbn [imul_steps]; unfold imul_step at 1; cbn [l_i l_j l_vec l_rc].
  - destruct (Z.ltb_spec i n); [lia|]. reflexivity.
  - destruct (Z.ltb_spec i n); [|reflexivity]. change (0 <? zlen (@nil Z)) with false. cbv iota.
    change (imul_steps n (S k) {| l_i := i + 1; l_j := 0; l_vec := []; l_rc := rc0 |} = Finished [] rc0). apply IH. lia.
Qed.

Lemma in_range_obj ys : Forall obj ys -> Forall (in_range KBig) ys.
Proof.
  intros H. eapply Forall_impl; [|exact H]. intros x X. pose proof (obj_pos x X). pose proof (obj_lt x X).
  unfold in_range, in_sbits. cbn [bits]. change (2 ^ (64 - 1)) with (2 ^ 63). lia.
Qed.
Lemma a_reverse_ok : a_reverse f s rc = (Ret ONone, (rev s, rc)).
Proof.
  unfold a_reverse, encode.
  pose proof (qreverse_ok f (esize KBig) (map (le_bytes (esize KBig)) s) (encode_sizes KBig s)) as Q.
  rewrite map_length in Q. change 8%nat with (esize KBig). rewrite Q by (left; discriminate). cbn [owith].
  rewrite <- map_rev. change (concat (map (le_bytes (esize KBig)) (rev s))) with (encode KBig (rev s)).
  rewrite <- (rev_length s), decode_encode; [reflexivity|]. apply Forall_rev. apply in_range_obj. exact F.
Qed.

Lemma index_same i : in_sbits 64 i -> (if i <? 0 then zlen s + i else i) = rel (zlen s) i.
Proof. intros. unfold rel. destruct (i <? 0); lia. Qed.
Lemma index_fits z : in_sbits_b 64 z = false -> (0 <=? rel (zlen s) z) && (rel (zlen s) z <? zlen s) = false.
Proof.
  intros E. destruct (_ && _) eqn:B; [|reflexivity]. exfalso. apply rel_bounds_dec in B. apply in_sbits_b_false in E. apply E.
  unfold in_sbits. destruct ssize_consts as [EA EB]. rewrite EA in Hl. unfold rel in B. destruct (Z.ltb_spec z 0); lia.
Qed.
Lemma in_nth p : 0 <= p < zlen s -> In (get_default s p) s.
Proof. intros H. unfold get_default. apply nth_In. unfold zlen in H. lia. Qed.

Lemma a_get_ok i : ok (CGet i) (a_subscript i s rc).
Proof.
  unfold a_subscript. destruct i as [z|id]; cbn [as_index].
  2:{ cbn [owith]. split; [apply keep; auto; exact I|reflexivity]. }
  unfold ok. cbn [py_obj int_arg py_step]. fold (zlen s).
  destruct (in_sbits_b 64 z) eqn:E; cbn [owith].
  - unfold a_getitem. cbv zeta. rewrite index_same by (apply in_sbits_b_spec; exact E). rewrite idx_test.
    destruct (_ && _) eqn:B; cbn [negb]; [|split; [apply keep; auto; exact I|reflexivity]].
    apply rel_bounds_dec in B. rewrite znth_default by exact B. pose proof (in_nth _ B) as I0. set (o := get_default s _) in *.
    pose proof live_s as L. rewrite Forall_forall in L. destruct (L o I0) as [O P].
    destruct (incref_ok o rc O P) as (rc' & E' & R'). rewrite E'. cbn [owith]. split; [|reflexivity].
    apply keep_new; cbn; auto. intros x. rewrite R', R. cbn [occ]. lia.
  - rewrite index_fits by exact E. split; [apply keep; auto; exact I|reflexivity].
Qed.

Lemma zerase_default p : 0 <= p < zlen s ->
  zerase s p = Some (firstn (Z.to_nat p) s ++ skipn (Z.to_nat p + 1) s) /\
  (forall x, occ s x = occ (firstn (Z.to_nat p) s ++ skipn (Z.to_nat p + 1) s) x + occ [get_default s p] x) /\
  Forall obj (firstn (Z.to_nat p) s ++ skipn (Z.to_nat p + 1) s).
Proof.
  intros H. split; [|split].
  - destruct (zsplit s p H) as (a & x & b & -> & La). rewrite zerase_mid, firstn_zlen, skipn1_zlen by (symmetry; exact La). reflexivity.
  - intros x. destruct (zsplit s p H) as (a & y & b & -> & La). rewrite firstn_zlen, skipn1_zlen, get_default_mid by (symmetry; exact La).
    rewrite !occ_app. cbn [occ]. lia.
  - apply Forall_app_2; auto using Forall_firstn, Forall_skipn.
Qed.

Lemma a_ass_ok i ov c : c = match ov with Some o => CSet i o | None => CDel i end -> a_counted c s = true ->
  ok c (a_ass_subscript i ov s rc).
Proof.
  intros -> CT. unfold a_ass_subscript. destruct i as [z|id]; cbn [as_index].
  2:{ cbn [owith]. split; [apply keep; auto; exact I|]. destruct ov; reflexivity. }
  assert (V : valid_index s (PInt z) = (0 <=? rel (zlen s) z) && (rel (zlen s) z <? zlen s)) by reflexivity.
  destruct (in_sbits_b 64 z) eqn:E; cbn [owith].
  - unfold a_setitem. cbv zeta. rewrite index_same by (apply in_sbits_b_spec; exact E). rewrite idx_test.
    destruct (_ && _) eqn:B; cbn [negb].
    2:{ split; [apply keep; auto; exact I|]. intros _. destruct ov; cbn [py_obj int_arg py_step]; fold (zlen s); rewrite B; reflexivity. }
    destruct ov as [o|].
    + unfold a_counted in CT. rewrite V in CT. cbn [negb] in CT. rewrite andb_false_r in CT. discriminate.
    + apply rel_bounds_dec in B. rewrite znth_default by exact B. destruct (zerase_default _ B) as (Z1 & Z2 & Z3). rewrite Z1.
      pose proof (in_nth _ B) as I0. set (o := get_default s _) in *.
      pose proof live_s as L. rewrite Forall_forall in L. destruct (L o I0) as [O P].
      destruct (decref_ok o rc O P) as (rc' & E' & R'). rewrite E'. cbn [owith]. split.
      * apply keep_new; cbn; auto. intros x. rewrite R', R, Z2. cbn [occ]. lia.
      * intros _. cbn [py_obj int_arg py_step]. fold (zlen s). rewrite (proj2 (rel_bounds_dec _ _)) by exact B. reflexivity.
  - split; [apply keep; auto; exact I|]. intros _. destruct ov; cbn [py_obj int_arg py_step]; fold (zlen s); rewrite (index_fits z E); reflexivity.
Qed.

Lemma a_pop_ok a : ok (CPop a) (a_pop a s rc).
Proof.
  destruct (list_eq_dec Z.eq_dec s []) as [ES|NE].
  - assert (P : a_pop a s rc = (Raise IndexError, (s, rc))) by (unfold a_pop; rewrite ES; reflexivity). rewrite P.
    split; [apply keep; auto; exact I|]. intros A. unfold a_agrees in A. apply andb_true_iff in A. destruct A as [_ A]. unfold result. cbn [fst snd].
    rewrite ES in *. destruct a as [[z|]|]; cbn [emptyb negb orb] in A; [|discriminate|reflexivity].
    cbn [py_obj int_arg py_step length]. rewrite A. change (Z.of_nat 0) with 0.
    destruct (_ && _) eqn:B; [|reflexivity]. apply rel_bounds_dec in B. lia.
  - assert (P : a_pop a s rc = match a with
      | None => match znth s (zlen s - 1) with
                | Some v => (Ret (OElem v), (removelast s, rc))
                | None => (Undef OutOfBounds, (s, rc)) end
      | Some i => owith (as_long i) s rc (fun index =>
          let index := if index <? 0 then index + zlen s else index in
          if (index <? 0) || (zlen s <=? index) then (Raise IndexError, (s, rc))
          else match znth s index, zerase s index with
               | Some v, Some s' => (Ret (OElem v), (s', rc))
               | _, _ => (Undef OutOfBounds, (s, rc)) end) end) by (destruct s; [contradiction|reflexivity]).
    rewrite P. clear P. assert (NZ : 0 < zlen s) by (destruct s as [|x0 s0]; [contradiction|rewrite zlen_cons; pose proof (zlen_nonneg s0); lia]).
    assert (T : forall p, 0 <= p < zlen s -> agood d (Ret (OElem (get_default s p)), (firstn (Z.to_nat p) s ++ skipn (Z.to_nat p + 1) s, rc))).
    { intros p H. destruct (zerase_default _ H) as (Z1 & Z2 & Z3). apply keep_new; cbn; auto.
      - constructor; [|constructor]. rewrite Forall_forall in F. apply F. apply in_nth. exact H.
      - intros x. rewrite R, Z2. cbn [occ]. lia. }
    destruct a as [[z|id]|]; cbn [as_long].
    + unfold ok. cbn [py_obj int_arg py_step]. fold (zlen s). fold (in_ssize z). destruct (in_ssize z); cbn [owith]; [|split; [apply keep; auto; exact I|reflexivity]].
      cbv zeta. fold (rel (zlen s) z). rewrite idx_test. destruct (_ && _) eqn:B; cbn [negb]; [|split; [apply keep; auto; exact I|reflexivity]].
      apply rel_bounds_dec in B. rewrite znth_default by exact B. destruct (zerase_default _ B) as (Z1 & _). rewrite Z1.
      split; [apply T; exact B|reflexivity].
    + cbn [owith]. split; [apply keep; auto; exact I|reflexivity].
    + rewrite znth_default by lia.
      assert (EQ : removelast s = firstn (Z.to_nat (zlen s - 1)) s ++ skipn (Z.to_nat (zlen s - 1) + 1) s).
      { destruct (zsplit s (zlen s - 1)) as (a & x & b & E & La); [lia|].
        assert (b = []) as ->.
        { destruct b as [|y b]; [reflexivity|]. rewrite E in La. rewrite zlen_app, !zlen_cons in La. pose proof (zlen_nonneg b). lia. }
        rewrite E at 1. rewrite removelast_last. symmetry. rewrite E at 2 4. rewrite firstn_zlen, skipn1_zlen by (symmetry; exact La). apply app_nil_r. }
      rewrite EQ. split; [apply T; lia|]. intros _. cbn [py_obj py_step]. fold (zlen s). change (in_ssize (-1)) with true. cbv iota.
      unfold rel. change (-1 <? 0) with true. cbv iota. replace (-1 + zlen s) with (zlen s - 1) by lia.
      rewrite (proj2 (rel_bounds_dec (zlen s) (zlen s - 1))) by lia. reflexivity.
Qed.

Lemma a_index_ok o oa ob : ok (CIndex o oa ob) (a_index o oa ob s rc).
Proof.
  unfold a_index.
  assert (G : forall x, exists z, (forall y, x = Some y -> as_long y = Ret z) /\ (x = None -> z = 0) \/ True) by (intros; exists 0; right; exact I).
  clear G.
  destruct (match oa with None => Ret 0 | Some x => parse_n x end) as [a0|e|? e|u] eqn:EA.
  2:{ cbn [owith]. split; [apply keep; auto; exact I|]. intros A. destruct oa as [[z|]|]; try discriminate; cbn in EA.
      - destruct (in_sbits_b 64 z) eqn:Z; [discriminate|]. unfold a_agrees in A. rewrite !andb_true_iff in A. destruct A as [_ [A _]].
        cbn [opt_fits] in A. unfold in_ssize in A. congruence.
      - injection EA as <-. cbn. destruct (opt_int ob); reflexivity. }
  2:{ destruct oa as [[z|]|]; cbn in EA; try destruct (in_sbits_b 64 z); discriminate. }
  2:{ destruct oa as [[z|]|]; cbn in EA; try destruct (in_sbits_b 64 z); discriminate. }
  cbn [owith]. destruct (match ob with None => Ret (zlen s) | Some x => parse_n x end) as [b0|e|? e|u] eqn:EB.
  2:{ cbn [owith]. split; [apply keep; auto; exact I|]. intros A. destruct ob as [[z|]|]; try discriminate; cbn in EB.
      - destruct (in_sbits_b 64 z) eqn:Z; [discriminate|]. unfold a_agrees in A. rewrite !andb_true_iff in A. destruct A as [_ [_ A]].
        cbn [opt_fits] in A. unfold in_ssize in A. congruence.
      - injection EB as <-. cbn. destruct (opt_int oa); reflexivity. }
  2:{ destruct ob as [[z|]|]; cbn in EB; try destruct (in_sbits_b 64 z); discriminate. }
  2:{ destruct ob as [[z|]|]; cbn in EB; try destruct (in_sbits_b 64 z); discriminate. }
  cbn [owith].
  assert (IA : exists ia, opt_int oa = Some ia /\ a0 = match ia with None => 0 | Some a => a end).
  { destruct oa as [[z|]|]; cbn in EA; [|discriminate|injection EA as <-; exists None; auto].
    destruct (in_sbits_b 64 z); [|discriminate]. injection EA as <-. exists (Some z). auto. }
  assert (IB : exists ib, opt_int ob = Some ib /\ b0 = match ib with None => zlen s | Some b => b end).
  { destruct ob as [[z|]|]; cbn in EB; [|discriminate|injection EB as <-; exists None; auto].
    destruct (in_sbits_b 64 z); [|discriminate]. injection EB as <-. exists (Some z). auto. }
  destruct IA as (ia & IA1 & IA2). destruct IB as (ib & IB1 & IB2).
  unfold ok. cbn [py_obj]. rewrite IA1, IB1. cbn [py_step]. fold (zlen s). clear EA EB IA1 IB1.
  cbv zeta. fold (rel (zlen s) a0). fold (rel (zlen s) b0). pose proof (zlen_nonneg s) as L0.
  set (i := match ia with None => 0 | Some i => Z.max 0 (rel (zlen s) i) end).
  set (j := match ib with None => zlen s | Some j => rel (zlen s) j end).
  assert (Ei : (if rel (zlen s) a0 <? 0 then 0 else rel (zlen s) a0) = i).
  { unfold i. subst a0. destruct ia as [a|].
    - destruct (Z.ltb_spec (rel (zlen s) a) 0); lia.
    - reflexivity. }
  assert (Ej : (if zlen s <? rel (zlen s) b0 then zlen s else rel (zlen s) b0) = Z.min (zlen s) j).
  { unfold j. subst b0. destruct ib as [b|].
    - destruct (Z.ltb_spec (zlen s) (rel (zlen s) b)); lia.
    - unfold rel. destruct (Z.ltb_spec (zlen s) 0); [lia|]. rewrite Z.ltb_irrefl. lia. }
  rewrite Ei, Ej. assert (0 <= i) by (unfold i; destruct ia; lia). clearbody i j. clear Ei Ej IA2 IB2.
  unfold occurrences. rewrite filter_filter.
  pose proof (filter_head (fun x => (get_default s x =? o) && ((i <=? x) && (x <? j))) (length s)) as FH.
  fold (zlen s) in FH.
  destruct (Z.ltb_spec (Z.min (zlen s) j) i) as [C|C].
  - split; [apply keep; auto; exact I|]. intros _. destruct (filter _ _) as [|p r]; [reflexivity|]. exfalso. destruct FH as (A & B & _).
    rewrite !andb_true_iff, Z.leb_le, Z.ltb_lt in B. lia.
  - destruct (std_find_spec s o (Z.to_nat (Z.min (zlen s) j - i)) i) as (r & -> & R1 & R2 & R3); [lia|lia|].
    rewrite Z2Nat.id in R1, R2 by lia. cbn [owith].
    destruct (Z.eqb_spec r (Z.min (zlen s) j)) as [ER|N].
    + split; [apply keep; auto; exact I|]. intros _. destruct (filter _ _) as [|p l]; [reflexivity|]. exfalso.
      destruct FH as (A & B & _). rewrite !andb_true_iff, Z.eqb_eq, Z.leb_le, Z.ltb_lt in B. apply (R3 p); [lia|tauto].
    + split; [apply keep; auto; exact I|]. intros _. destruct (filter _ _) as [|p l].
      * exfalso. specialize (FH r ltac:(lia)). cbv beta in FH. rewrite R2 in FH by lia. rewrite Z.eqb_refl in FH. cbn [andb] in FH.
        apply andb_false_iff in FH. rewrite Z.leb_gt, Z.ltb_ge in FH. lia.
      * destruct FH as (A & B & G). rewrite !andb_true_iff, Z.eqb_eq, Z.leb_le, Z.ltb_lt in B.
        assert (r = p); [|subst r; reflexivity].
        destruct (Z.lt_trichotomy r p) as [L|[L|L]]; [|assumption|].
        -- exfalso. specialize (G r ltac:(lia)). cbv beta in G. rewrite R2 in G by lia.
           rewrite Z.eqb_refl in G. cbn [andb] in G. apply andb_false_iff in G. rewrite Z.leb_gt, Z.ltb_ge in G. lia.
        -- exfalso. apply (R3 p); [lia|tauto].
Qed.

Lemma occ_occurrences o : occurrences s o = [] <-> occ s o = 0.
Proof.
  pose proof (occurrences_head s o) as H. split; intros E.
  - rewrite E in H. destruct (Z.eq_dec (occ s o) 0) as [Z|N]; [exact Z|]. exfalso. pose proof (occ_nonneg s o).
    assert (I0 : In o s) by (apply occ_pos; lia). apply In_nth with (d := 0) in I0. destruct I0 as (n & L & X).
    apply (H (Z.of_nat n)); [unfold zlen; lia|]. unfold get_default. rewrite Nat2Z.id. exact X.
  - destruct (occurrences s o) as [|p r]; [reflexivity|]. destruct H as (A & B & _). pose proof (in_nth p A) as I0. rewrite B in I0.
    apply occ_in in I0. lia.
Qed.

Lemma a_call_ok c : pre d c -> a_counted c s = true -> ok c (a_call f c s rc).
Proof.
  intros [PH PA] CT. destruct c; cbn [a_call call_held call_arg] in *; try (match type of PH with Forall _ [_] => inversion PH as [|? ? [Oo Po] _]; subst end).
  - (* append *) unfold a_append. destruct (incref_ok o rc Oo) as (rc' & E & R'); [rewrite R; pose proof (occ_nonneg s o); lia|].
    rewrite E. cbn [owith]. split; [|reflexivity]. apply keep_new; cbn; auto. { apply Forall_app_2; auto. }
    intros x. rewrite R', R, occ_app. lia.
  - (* extend *) destruct a; cbn [a_extend pre_arg] in *.
    + destruct (incref_all_ok ys rc (live_d ys PA)) as (rc' & E & R'). rewrite E. cbn [owith]. split; [|reflexivity].
      apply keep_new; cbn; auto using Forall_app_2, obj_d. intros x. rewrite R', R, occ_app. lia.
    + unfold a_counted in CT. rewrite andb_false_r in CT. discriminate.
    + destruct (incref_all_ok items rc (live_d items PA)) as (rc' & E & R'). rewrite E. cbn [owith]. split; [|reflexivity].
      apply keep_new; cbn; auto using Forall_app_2, obj_d. intros x. rewrite R', R, occ_app. lia.
    + unfold push_items. split.
      * apply keep_new; destruct fin; cbn; auto using Forall_app_2; intros x; rewrite new_refs_ok, R, occ_app; lia.
      * intros _. destruct fin; reflexivity.
    + split; [apply keep; auto; exact I|reflexivity].
  - (* iadd *) destruct a; cbn [a_iadd pre_arg] in *.
    + destruct (incref_all_ok ys rc (live_d ys PA)) as (rc' & E & R'). rewrite E. cbn [owith]. split.
      * apply keep_new; cbn; auto using Forall_app_2, obj_d. intros x. rewrite R', R, occ_app. lia.
      * unfold a_agrees. rewrite andb_false_r. discriminate.
    + unfold a_counted in CT. rewrite andb_false_r in CT. discriminate.
    + unfold push_items. split; [|reflexivity].
      apply keep_new; cbn; auto using Forall_app_2, obj_d. intros x. rewrite new_refs_ok, R, occ_app. lia.
    + unfold push_items. split.
      * apply keep_new; destruct fin; cbn; auto using Forall_app_2; intros x; rewrite new_refs_ok, R, occ_app; lia.
      * intros _. destruct fin; reflexivity.
    + split; [apply keep; auto; exact I|reflexivity].
  - (* add *) assert (N : forall v, (a_agrees (CAdd a) s = false \/ (Raise v, s) = py_obj (CAdd a) s) -> ok (CAdd a) (@Raise (oval vec) v, (s, rc))).
    { intros v H. split; [apply keep; auto; exact I|]. intros A. destruct H as [H|H]; [congruence|exact H]. }
    destruct (incref_all_ok s rc live_s) as (rc1 & E1 & R1).
    destruct a; cbn [a_add pre_arg] in *.
    + apply N. left. unfold a_agrees. apply andb_false_r.
    + apply N. left. unfold a_agrees. apply andb_false_r.
    + rewrite E1. cbn [owith].
      assert (LV : Forall (fun o => obj o /\ 0 < rc1 o) (s ++ items)).
      { apply Forall_app_2.
        - eapply Forall_impl; [|exact live_s]. cbn beta. intros x [? ?]. split; [assumption|]. rewrite R1. pose proof (occ_nonneg s x). lia.
        - eapply Forall_impl; [|exact PA]. cbn beta. intros x [? ?]. split; [assumption|]. rewrite R1, R. pose proof (occ_nonneg s x). lia. }
      destruct (incref_all_ok (s ++ items) rc1 LV) as (rc2 & E2 & R2). rewrite E2. cbn [owith].
      destruct (decref_all_ok s rc2 F) as (rc3 & E3 & R3).
      { intros x _. rewrite R2, R1, occ_app, R. pose proof (occ_nonneg s x). pose proof (occ_nonneg items x). specialize (D x). lia. }
      rewrite E3. cbn [owith]. split; [|reflexivity]. apply keep_new; cbn; auto using Forall_app_2, obj_d.
      intros x. rewrite R3, R2, R1, R. cbn [occ]. lia.
    + rewrite E1. cbn [owith]. destruct (decref_all_ok s rc1 F) as (rc3 & E3 & R3).
      { intros x _. rewrite R1, R. pose proof (occ_nonneg s x). specialize (D x). lia. }
      rewrite E3. cbn [owith]. split; [|reflexivity]. apply keep_new; cbn; auto. intros x. rewrite R3, R1, R. lia.
    + rewrite E1. cbn [owith]. destruct (decref_all_ok s rc1 F) as (rc3 & E3 & R3).
      { intros x _. rewrite R1, R. pose proof (occ_nonneg s x). specialize (D x). lia. }
      rewrite E3. cbn [owith]. split; [|reflexivity]. apply keep_new; cbn; auto. intros x. rewrite R3, R1, R. lia.
  - apply a_pop_ok.
  - apply a_index_ok.
  - (* count *) unfold a_count. split; [apply keep; auto; exact I|]. intros _. rewrite std_count_occ. reflexivity.
  - (* insert *) unfold a_insert, parse_n. destruct i as [z|id]; cbn [as_long].
    2:{ cbn [owith]. split; [apply keep; auto; exact I|reflexivity]. }
    unfold ok. cbn [py_obj int_arg py_step]. fold (zlen s). fold (in_ssize z). destruct (in_ssize z); cbn [owith]; [|split; [apply keep; auto; exact I|reflexivity]].
    cbv zeta. set (p := clamp (zlen s) (rel (zlen s) z)).
    assert (Ep : (if z <? 0 then Z.max 0 (zlen s + z) else if zlen s <? z then zlen s else z) = p).
    { unfold p, clamp, rel. pose proof (zlen_nonneg s). destruct (Z.ltb_spec z 0); [lia|]. destruct (Z.ltb_spec (zlen s) z); lia. }
    rewrite Ep. assert (0 <= p <= zlen s) by (unfold p, clamp; pose proof (zlen_nonneg s); lia). clearbody p.
    assert (Z1 : zinsert s p o = Some (firstn (Z.to_nat p) s ++ o :: skipn (Z.to_nat p) s)).
    { destruct (zsplit_le s p) as (a & b & -> & La); [lia|]. rewrite zinsert_mid, firstn_zlen, skipn_zlen by (symmetry; exact La). reflexivity. }
    rewrite Z1. destruct (incref_ok o rc Oo) as (rc' & E & R'); [rewrite R; pose proof (occ_nonneg s o); lia|].
    rewrite E. cbn [owith]. split; [|reflexivity]. apply keep_new; cbn; auto.
    { apply Forall_app_2; [apply Forall_firstn; exact F|]. constructor; [exact Oo|apply Forall_skipn; exact F]. }
    intros x. rewrite R', R, occ_app, (occ_split s (Z.to_nat p) x). cbn [occ]. lia.
  - (* remove *) unfold a_remove. rewrite find_result. cbn [owith]. pose proof (occurrences_head s o) as OH. unfold ok. cbn [py_obj py_step].
    destruct (occurrences s o) as [|p r].
    + rewrite Z.eqb_refl. split; [apply keep; auto; exact I|reflexivity].
    + destruct OH as (A & B & _). destruct (Z.eqb_spec p (zlen s)); [lia|]. destruct (zerase_default _ A) as (Z1 & Z2 & Z3). rewrite Z1.
      destruct (decref_ok o rc Oo) as (rc' & E & R'); [rewrite R; pose proof (occ_nonneg s o); lia|].
      rewrite E. cbn [owith]. split; [|reflexivity]. apply keep_new; cbn; auto. intros x. rewrite R', R, Z2, B. cbn [occ]. lia.
  - split; [apply keep; auto; exact I|reflexivity].
  - apply a_get_ok.
  - (* slice read *) destruct (a_getitem_slice_ok sl) as (rc' & E & R'). rewrite E. unfold ok. cbn [py_obj py_step].
    destruct (step_of sl =? 0).
    + split; [|reflexivity]. apply keep_new; cbn; auto. intros x. rewrite R', R. cbn [occ]. lia.
    + split; [|reflexivity]. apply keep_new; cbn; auto using getslice_obj. intros x. rewrite R', R. lia.
  - apply (a_ass_ok i (Some o)); auto.
  - apply (a_ass_ok i None); auto.
  - (* slice assignment *)
    destruct v as [|e|a]; [unfold a_counted in CT; rewrite andb_false_r in CT; discriminate|unfold a_counted in CT; rewrite andb_false_r in CT; discriminate|].
    assert (NS : step_of sl <> 1 -> exists e, a_setitem_slice sl (SetTo a) s rc = (Raise e, (s, rc))).
    { intros NS. unfold a_setitem_slice. destruct (unpack_cases sl) as [[E U]|[E (start & stop & step & U)]]; rewrite U; cbn [owith].
      - exists ValueError. reflexivity.
      - pose proof (unpack_step sl _ _ _ U) as US. destruct (PySlice_AdjustIndices (zlen s) start stop step) as [[a1 b1] c1].
        destruct (Z.eqb_spec step 1) as [->|N1]; [exfalso; apply NS; apply US; reflexivity|].
        destruct a; cbn [negb]; eexists; reflexivity. }
    destruct (Z.eq_dec (step_of sl) 1) as [S1|S1].
    2:{ destruct (NS S1) as (e & ->). split; [apply keep; auto; exact I|]. unfold a_agrees. intros A. exfalso. apply andb_true_iff in A. destruct A as [_ A].
        destruct a as [| | |? [|]|]; try discriminate; apply Z.eqb_eq in A; lia. }
    clear NS. unfold a_counted in CT. apply andb_true_iff in CT. destruct CT as [_ CT].
    destruct a; cbn [pre_arg] in *.
    + rewrite S1 in CT. change (1 =? 1) with true in CT. cbn [negb orb] in CT. apply Z.leb_le in CT.
      destruct (a_setslice_fast s rc d sl D R F Hl ys (SetTo (OSame ys)) (or_introl eq_refl) S1 CT PA) as (rc' & E & R'). rewrite E.
      split; [|reflexivity]. apply keep_new; cbn; auto; [|intros x; rewrite R'; lia].
      unfold py_setslice. repeat apply Forall_app_2; auto using Forall_firstn, Forall_skipn, obj_d.
    + assert (s = []) as EN by (destruct s; [reflexivity|discriminate]).
      destruct (unpack_step1 s sl Hl S1) as (start & stop & U & Adj).
      assert (PS : py_setslice s sl s = s). { rewrite EN. unfold py_setslice. rewrite firstn_nil, skipn_nil. reflexivity. }
      unfold a_setitem_slice. rewrite U. cbn [owith]. rewrite Adj. change (negb (1 =? 1)) with false. cbv iota zeta.
      pose proof (lo_hi_bounds s sl) as [B1 B2]. assert (ZS : zlen s = 0) by (rewrite EN; reflexivity).
      replace (Z.max 0 (hi_of s sl - lo_of s sl)) with 0 by lia. rewrite ZS. change (0 =? 0) with true. cbv iota.
      unfold fast_copy_self. change (Z.to_nat 0) with 0%nat. cbn [fast_loop obind]. change (0 <? 0) with false. cbn [andb firstn copy_in omap obind done_ owith].
      split; [apply keep; auto; exact I|]. intros _. unfold result. cbn [fst snd py_obj items_of py_step lift]. rewrite PS. reflexivity.
    + rewrite S1 in CT. change (1 =? 1) with true in CT. cbn [negb orb] in CT. apply Z.leb_le in CT.
      destruct (a_setslice_fast s rc d sl D R F Hl items (SetTo (OList items)) (or_intror eq_refl) S1 CT PA) as (rc' & E & R'). rewrite E.
      split; [|reflexivity]. apply keep_new; cbn; auto; [|intros x; rewrite R'; lia].
      unfold py_setslice. repeat apply Forall_app_2; auto using Forall_firstn, Forall_skipn, obj_d.
    + destruct (a_setslice_generic s rc d sl D R F Hl items fin S1 PA) as (v & s' & rc' & E & R' & F' & V). rewrite E.
      destruct fin as [e|].
      * subst v. split; [|unfold a_agrees; rewrite andb_false_r; discriminate]. apply keep_new; cbn; auto. intros x. rewrite R'. lia.
      * destruct V as [-> ->]. split; [|reflexivity]. apply keep_new; cbn; auto. intros x. rewrite R'. lia.
    + destruct (unpack_step1 s sl Hl S1) as (start & stop & U & Adj). unfold a_setitem_slice. rewrite U. cbn [owith]. rewrite Adj.
      split; [apply keep; auto; exact I|reflexivity].
  - (* resize *) unfold a_resize. destruct n as [z|]; [|split; [apply keep; auto; exact I|reflexivity]].
    unfold a_counted in CT. apply andb_true_iff in CT. destruct CT as [_ CT]. unfold ok. cbn [py_obj]. fold (in_ssize z).
    destruct (in_ssize z) eqn:IZ.
    + destruct (Z.ltb_spec z 0) as [N0|N0].
      * destruct (Z.leb_spec 0 z); [lia|]. split; [apply keep; auto; exact I|reflexivity].
      * destruct (Z.leb_spec 0 z); [|lia]. cbn [andb]. cbn [andb negb] in CT. rewrite orb_false_r in CT. apply Z.eqb_eq in CT.
        assert (LZ : Z.to_nat z = length s) by (unfold zlen in CT; lia). rewrite LZ, firstn_all, Nat.sub_diag. cbn [repeat]. rewrite app_nil_r.
        split; [apply keep; auto; exact I|reflexivity].
    + rewrite andb_false_r. change (-1 <? 0) with true. cbv iota. split; [apply keep; auto; exact I|reflexivity].
  - (* tolist *) unfold a_to_list. destruct (incref_all_ok s rc live_s) as (rc1 & E1 & R1). rewrite E1. cbn [owith]. split; [|reflexivity].
    apply keep_new; cbn; auto. intros x. rewrite R1, R. lia.
  - (* copy *) unfold a_copy. destruct (incref_all_ok s rc live_s) as (rc1 & E1 & R1). rewrite E1. cbn [owith]. split; [|reflexivity].
    apply keep_new; cbn; auto. intros x. rewrite R1, R. lia.
  - (* mul *) unfold a_mul. cbv zeta. unfold ok. cbn [py_obj]. unfold repeated.
    destruct (Z.ltb_spec n 0) as [N0|N0].
    { change (0 =? 0) with true. cbv iota. split; [apply keep_new; cbn; auto; intros x; rewrite R; lia|]. intros _.
      replace (Z.to_nat n) with 0%nat by lia. reflexivity. }
    destruct (Z.eqb_spec n 0) as [->|NZ].
    { split; [apply keep_new; cbn; auto; intros x; rewrite R; lia|]. reflexivity. }
    destruct (reserve_fails (zlen s) n) eqn:RF.
    + split; [apply keep; auto; exact I|]. unfold a_agrees. intros A. apply andb_true_iff in A. destruct A as [_ A]. apply Z.leb_le in A.
      exfalso. unfold reserve_fails in RF. apply Z.ltb_lt in RF. unfold MAXVEC in A. unfold max_size in RF. pose proof (zlen_nonneg s).
      rewrite Z.mod_small in RF by nia. lia.
    + destruct (a_mul_loop_ok (Z.to_nat n) [] rc) as (rc' & E & R').
      { pose proof live_s as L. rewrite Forall_forall in L. intros x X. apply L. exact X. }
      rewrite E. cbn [owith app]. split; [|reflexivity]. apply keep_new; cbn; auto using concat_repeat_obj. intros x. rewrite R', R. lia.
  - (* imul *) unfold a_counted in CT. apply andb_true_iff in CT. destruct CT as [_ CT]. apply orb_true_iff in CT.
    destruct (list_eq_dec Z.eq_dec s []) as [EN|NE].
    + assert (E : a_imul (Z.to_nat (Z.max 1 n)) n s rc = Some (Ret OSelf, (s, rc))).
      { unfold a_imul. cbv zeta. destruct (Z.ltb_spec n 0) as [N0|N0]; [change (0 =? 0) with true; rewrite EN; reflexivity|].
        destruct (Z.eqb_spec n 0) as [->|NZ]; [rewrite EN; reflexivity|]. rewrite EN.
        assert (RF : reserve_fails (zlen (@nil Z)) n = false) by reflexivity. rewrite RF.
        replace (Z.to_nat (Z.max 1 n)) with (S (Z.to_nat (n - 1))) by lia. rewrite imul_empty by lia. reflexivity. }
      rewrite E. split; [apply keep; auto; exact I|]. intros _. unfold result. cbn [fst snd py_obj]. rewrite EN. unfold repeated.
      f_equal. induction (Z.to_nat n); cbn; auto.
    + assert (n = 1) as ->. { destruct CT as [CT|CT]; [apply Z.eqb_eq; exact CT|]. destruct s; [contradiction|discriminate]. }
      unfold a_imul. change (1 <? 0) with false. change (1 =? 0) with false. cbv iota zeta. change (Z.to_nat (Z.max 1 1)) with 1%nat.
      destruct (reserve_fails (zlen s) 1) eqn:RF.
      * split; [apply keep; auto; exact I|]. unfold a_agrees. intros A. apply andb_true_iff in A. destruct A as [_ A]. apply Z.leb_le in A.
        exfalso. unfold reserve_fails in RF. apply Z.ltb_lt in RF. unfold MAXVEC in A. unfold max_size in RF. pose proof (zlen_nonneg s).
        rewrite Z.mod_small in RF by lia. lia.
      * cbn [imul_steps]. unfold imul_step. cbn [l_i]. change (1 <? 1) with false. cbv iota. cbn [l_vec l_rc]. split; [apply keep; auto; exact I|].
        intros _. unfold result, repeated. cbn [fst snd py_obj]. unfold repeated. change (Z.to_nat 1) with 1%nat. cbn [repeat concat]. rewrite app_nil_r. reflexivity.
  - (* contains *) unfold a_contains. destruct isint; cbn [negb].
    + rewrite find_result. cbn [owith]. split; [apply keep; auto; exact I|]. intros _. unfold result. cbn [fst snd py_obj py_step lift].
      pose proof (occurrences_head s o) as OH. destruct (occurrences s o) as [|p r].
      * rewrite Z.eqb_refl. reflexivity.
      * destruct OH as (A & _). destruct (Z.eqb_spec p (zlen s)); [lia|reflexivity].
    + split; [apply keep; auto; exact I|]. unfold a_agrees. intros A. apply andb_true_iff in A. destruct A as [_ A]. cbn [orb] in A. apply Z.eqb_eq in A.
      unfold result. cbn [fst snd py_obj py_step lift]. rewrite (proj2 (occ_occurrences o)) by exact A. reflexivity.
  - rewrite a_reverse_ok. split; [|reflexivity]. apply keep_new; cbn; auto using Forall_rev. intros x. rewrite R, occ_rev. lia.
  - (* clear *) unfold a_clear. destruct (decref_all_ok s rc F) as (rc3 & E3 & R3).
    { intros x _. rewrite R. specialize (D x). lia. }
    rewrite E3. cbn [owith]. split; [|reflexivity]. apply keep_new; cbn; auto. intros x. rewrite R3, R. lia.
Qed.
End Calls.
