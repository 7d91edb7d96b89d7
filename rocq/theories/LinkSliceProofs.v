(** Proofs for C52: slice assignment of ObjectLinkedList. *)
From Coq Require Import ZArith List Bool Lia.
From Verif Require Import Base PyListSpec ListLemmas ArrayListModel ArrayListProofs StdListModel StdListProofs LinkedListModel LinkedListProofs ObjModel ObjSpec ObjLemmas ObjArrayProofs ObjLinkedModel ObjLinkedProofs LinkSliceSpec.
Import ListNotations.
Local Open Scope Z_scope.
Local Arguments Z.pow : simpl never.
Local Arguments Z.add : simpl never.
Local Arguments Z.sub : simpl never.
Local Arguments Z.mul : simpl never.

Lemma adjusted s sl start stop step a b c : zlen s <= SSIZE_MAX -> PySlice_Unpack sl = Ret (start, stop, step) ->
  PySlice_AdjustIndices (zlen s) start stop step = (a, b, c) -> a = first_of s sl /\ b = last_of s sl.
Proof.
  intros Hl U A. destruct ssize_consts as [EA EB]. pose proof (zlen_nonneg s) as Hn.
  unfold PySlice_AdjustIndices in A. injection A as <- <- _. unfold PySlice_Unpack in U.
  set (st0 := match sl_step sl with None => 1 | Some z => clip z end) in *.
  destruct (Z.eqb_spec st0 0) as [|NZ]; [discriminate|].
  set (st := if st0 <? - SSIZE_MAX then - SSIZE_MAX else st0) in *. injection U as <- <- <-.
  assert (Sg : (st <? 0) = negb (0 <? step_of sl)).
  { unfold st, st0, step_of in *. destruct (sl_step sl) as [z|].
    - destruct (clip_cases z) as [[A B]|[[A B]|[A B]]]; rewrite B in *; rewrite ?EA, ?EB in *; destruct (Z.ltb_spec 0 z);
        match goal with |- context [if ?x <? ?y then _ else _] => destruct (Z.ltb_spec x y) end;
        match goal with |- (?x <? ?y) = _ => destruct (Z.ltb_spec x y) end; try reflexivity; lia.
    - rewrite EA. reflexivity. }
  unfold first_of, last_of, adjust1, rel. rewrite Sg. rewrite EA in *. rewrite EB in *.
  destruct (0 <? step_of sl); cbn [negb]; (split; [destruct (sl_start sl) as [i|]|destruct (sl_stop sl) as [i|]]);
    try (destruct (clip_cases i) as [[? B]|[[? B]|[? B]]]; rewrite B; rewrite ?EA, ?EB in *);
    repeat match goal with |- context [if ?x <? ?y then _ else _] => destruct (Z.ltb_spec x y) | |- context [if ?x <=? ?y then _ else _] => destruct (Z.leb_spec x y) end; lia.
Qed.

(** The step used: the given one, or both so large that only one place exists. *)
Lemma step_used sl start stop step : PySlice_Unpack sl = Ret (start, stop, step) ->
  step = step_of sl \/ (SSIZE_MAX <= step /\ SSIZE_MAX <= step_of sl) \/ (step <= - SSIZE_MAX /\ step_of sl <= - SSIZE_MAX).
Proof.
  unfold PySlice_Unpack, step_of. destruct ssize_consts as [EA EB]. destruct (sl_step sl) as [z|].
  - destruct (clip_cases z) as [[A B]|[[A B]|[A B]]]; rewrite B in *.
    + change (SSIZE_MIN =? 0) with false. change (SSIZE_MIN <? - SSIZE_MAX) with true. cbv iota. intros H; injection H as _ _ <-. rewrite ?EA, ?EB in *. lia.
    + change (SSIZE_MAX =? 0) with false. change (SSIZE_MAX <? - SSIZE_MAX) with false. cbv iota. intros H; injection H as _ _ <-. rewrite ?EA, ?EB in *. lia.
    + destruct (Z.eqb_spec z 0); [discriminate|]. destruct (Z.ltb_spec z (- SSIZE_MAX)); intros HH; injection HH as _ _ <-; rewrite ?EA, ?EB in *; lia.
  - change (1 =? 0) with false. change (1 <? - SSIZE_MAX) with false. cbv iota. intros H; injection H as _ _ <-. auto.
Qed.
Lemma place_len s i y s' : place s i y = Some s' -> 0 <= i < zlen s /\ zlen s' = zlen s.
Proof.
  unfold place. destruct (Z.leb_spec 0 i); [|discriminate]. destruct (Z.ltb_spec i (zlen s)); [|discriminate]. cbn [andb]. intros H1; injection H1 as <-.
  split; [lia|]. unfold zlen in *. rewrite app_length, firstn_length. cbn [length]. rewrite skipn_length. lia.
Qed.
Lemma place_all_len ys : forall s i k s', place_all s i k ys = Some s' -> zlen s' = zlen s.
Proof.
  induction ys as [|y ys IH]; intros s i k s' H; cbn [place_all] in H; [injection H as <-; reflexivity|].
  destruct (place s i y) as [s1|] eqn:E; [|discriminate]. apply place_len in E. rewrite (IH _ _ _ _ H). apply E.
Qed.
Lemma place_none s i y : ~ (0 <= i < zlen s) -> place s i y = None.
Proof. intros H. unfold place. destruct (Z.leb_spec 0 i); [|reflexivity]. destruct (Z.ltb_spec i (zlen s)); [lia|reflexivity]. Qed.
Lemma place_all_far ys s i k k' : zlen s <= SSIZE_MAX -> (SSIZE_MAX <= k /\ SSIZE_MAX <= k') \/ (k <= - SSIZE_MAX /\ k' <= - SSIZE_MAX) ->
  place_all s i k ys = place_all s i k' ys.
Proof.
  intros H K. destruct ys as [|y [|y2 ys]]; [reflexivity|cbn [place_all]; destruct (place s i y); reflexivity|].
  cbn [place_all]. destruct (place s i y) as [s1|] eqn:E; [|reflexivity]. apply place_len in E. destruct E as [E1 E2].
  rewrite !place_none; [reflexivity| |]; rewrite E2; lia.
Qed.

Section D.
Context (d : counts) (D : forall x, 0 <= d x).

Lemma over_step s rc start step ys i o : okst d s rc -> zlen (values s) <= SSIZE_MAX -> -1 <= start <= SSIZE_MAX ->
  znth ys i = Some o -> obj o -> 0 < d o ->
  match place (values s) (start + i * step) o with
  | Some vs => exists it rc1 y rc2 s', obind (ssz (i * step)) (fun is_ => obind (ssz (start + is_)) (fun idx => at_z s idx)) = Ret it /\
      get_list ys s i rc = Ret (o, rc1) /\ deref s it = Ret y /\ decref y rc1 = Ret rc2 /\ assign s it o = Ret s' /\ okst d s' rc2 /\ values s' = vs
  | None => (exists u, obind (ssz (i * step)) (fun is_ => obind (ssz (start + is_)) (fun idx => at_z s idx)) = Undef u) \/
      (exists rc1, obind (ssz (i * step)) (fun is_ => obind (ssz (start + is_)) (fun idx => at_z s idx)) = Ret end_ /\ get_list ys s i rc = Ret (o, rc1))
  end.
Proof.
  intros (W & F & R) Hs Hst E Oo Po. destruct ssize_consts as [EA EB].
  assert (G : exists rc1, get_list ys s i rc = Ret (o, rc1) /\ forall x, rc1 x = rc x + occ [o] x).
  { destruct (own_ref_ok o rc Oo) as (rc1 & E1 & R1); [rewrite R; pose proof (occ_nonneg (values s) o); lia|]. exists rc1. unfold get_list. rewrite E. auto. }
  destruct G as (rc1 & G & R1).
  unfold place. destruct (Z.leb_spec 0 (start + i * step)) as [B1|B1]; [destruct (Z.ltb_spec (start + i * step) (zlen (values s))) as [B2|B2]|]; cbn [andb].
  - rewrite ssz_ok by (rewrite EA, EB in *; lia). cbn [obind]. rewrite ssz_ok by (rewrite EA, EB in *; lia). cbn [obind].
    unfold at_z. destruct (Z.ltb_spec (start + i * step) 0); [lia|]. rewrite at_pos by exact W.
    set (p := Z.to_nat (start + i * step)) in *. assert (Hp : (p < length (values s))%nat) by (unfold zlen in *; lia).
    destruct (nth_error (values s) p) as [y|] eqn:Ny; [|apply nth_error_None in Ny; lia].
    assert (Iy : In y (values s)) by (eapply nth_error_In; exact Ny).
    assert (Oy : obj y) by (rewrite Forall_forall in F; auto).
    destruct (decref_ok y rc1 Oy) as (rc2 & E2 & R2). { rewrite R1, R. pose proof (occ_in _ _ Iy). pose proof (occ_nonneg [o] y). specialize (D y). lia. }
    destruct (assign_pos s p o W) as (s' & E3 & W' & I' & V' & _); [rewrite size_values; exact Hp|].
    exists (itpos s p), rc1, y, rc2, s'. split; [reflexivity|]. split; [exact G|]. split; [apply deref_pos; assumption|]. split; [exact E2|]. split; [exact E3|].
    replace (p + 1)%nat with (S p) by lia. split; [|exact V'].
    split; [exact W'|]. destruct (nth_error_split _ _ Ny) as (u1 & u2 & Eu & Lu). subst p. rewrite <- Lu in V'. rewrite Eu in V'. rewrite firstn_app_len, skipn_app_S in V'.
    rewrite V'. rewrite Eu in F. apply Forall_app in F. destruct F as [F1 F2]. inversion F2; subst. split.
    + apply Forall_app_2; auto.
    + intros x. rewrite R2, R1, R, Eu, !occ_app. cbn [occ]. lia.
  - unfold ssz. destruct (in_sbits_b 64 (i * step)); [|left; eexists; reflexivity]. cbn [obind].
    destruct (in_sbits_b 64 (start + i * step)); [|left; eexists; reflexivity]. cbn [obind]. right. exists rc1. split; [|exact G].
    unfold at_z. destruct (Z.ltb_spec (start + i * step) 0); [reflexivity|]. rewrite at_pos by exact W. f_equal.
    unfold itpos, id_at. rewrite (proj2 (nth_error_None _ _)); [reflexivity|]. change (length (nodes s)) with (size s). rewrite size_values. unfold zlen in *. lia.
  - unfold ssz. destruct (in_sbits_b 64 (i * step)); [|left; eexists; reflexivity]. cbn [obind].
    destruct (in_sbits_b 64 (start + i * step)); [|left; eexists; reflexivity]. cbn [obind]. right. exists rc1. split; [|exact G].
    unfold at_z. destruct (Z.ltb_spec (start + i * step) 0); [reflexivity|lia].
Qed.

Lemma over_all start step ys n : Forall (fun o => obj o /\ 0 < d o) ys -> -1 <= start <= SSIZE_MAX -> forall i s rc,
  okst d s rc -> zlen (values s) <= SSIZE_MAX -> 0 <= i -> i + Z.of_nat n = zlen ys ->
  match place_all (values s) (start + i * step) step (skipn (Z.to_nat i) ys) with
  | Some vs => exists s' rc', l_overwrite (get_list ys) n i start step s rc = (Ret tt, (s', rc')) /\ okst d s' rc' /\ values s' = vs
  | None => exists u st, l_overwrite (get_list ys) n i start step s rc = (Undef u, st)
  end.
Proof.
  intros Fy Hst. induction n as [|n IH]; intros i s rc K Hs Hi Hn; cbn [l_overwrite].
  - rewrite skipn_all2 by (unfold zlen in Hn; lia). cbn [place_all]. exists s, rc. auto.
  - destruct (znth ys i) as [o|] eqn:E; [|rewrite znth_default in E by lia; discriminate].
    assert (E' := E). unfold znth in E'. destruct (Z.ltb_spec i 0); [lia|]. rewrite (skipn_nth _ _ _ E'). cbn [place_all].
    assert (P : obj o /\ 0 < d o) by (rewrite Forall_forall in Fy; apply Fy; eapply nth_error_In; exact E'). destruct P as [Oo Po].
    pose proof (over_step s rc start step ys i o K Hs Hst E Oo Po) as ST. destruct (place (values s) (start + i * step) o) as [vs|] eqn:PL.
    + destruct ST as (it & rc1 & y & rc2 & s' & E1 & E2 & E3 & E4 & E5 & K' & V'). rewrite E1, E2, E3. cbn [obind]. rewrite E4, E5.
      apply place_len in PL. specialize (IH (i + 1) s' rc2 K'). rewrite V' in IH. specialize (IH ltac:(lia) ltac:(lia) ltac:(lia)).
      replace (start + (i + 1) * step) with (start + i * step + step) in IH by lia. replace (Z.to_nat (i + 1)) with (S (Z.to_nat i)) in IH by lia. exact IH.
    + destruct ST as [(u & E1)|(rc1 & E1 & E2)]; rewrite E1; [eauto|]. rewrite E2. cbn [deref end_ obind]. eauto.
Qed.
Lemma drop_short n : forall a b s rc, okst d s rc -> values s = a ++ b -> (length b < n)%nat ->
  exists u, l_drop n (itpos s (length a)) s rc = Undef u.
Proof.
  intros a b s rc K V L. replace n with (length b + S (n - length b - 1))%nat by lia. clear L. generalize (n - length b - 1)%nat. clear n. intros n.
  revert a s rc K V. induction b as [|x b IH]; intros a s rc (W & F & R) V; cbn [length Nat.add l_drop].
  - rewrite app_nil_r in V. unfold itpos, id_at. rewrite (proj2 (nth_error_None _ _)) by (change (length (nodes s)) with (size s); rewrite size_values, V; lia). cbn. eauto.
  - rewrite (deref_mid s a x b W V). cbn [obind].
    assert (Ox : obj x). { rewrite V in F. apply Forall_app in F. destruct F as [_ F]. inversion F; assumption. }
    destruct (decref_ok x rc Ox) as (rc1 & E1 & R1). { rewrite R, V, occ_app. cbn [app occ]. rewrite Z.eqb_refl. pose proof (occ_nonneg a x). pose proof (occ_nonneg b x). specialize (D x). lia. }
    rewrite E1. cbn [obind]. assert (Hs : (length a < size s)%nat) by (rewrite size_values, V, !app_length; cbn; lia).
    rewrite next_pos by auto. cbn [obind]. destruct (erase_pos s (length a) W Hs) as (s1 & E2 & W1 & V1 & I1 & _). rewrite E2. cbn [obind].
    assert (IP : itpos s (S (length a)) = itpos s1 (length a)).
    { rewrite !itpos_nth, I1. rewrite size_ids in Hs. pose proof (nth_error_skip (ids s) (length a) 0 Hs) as N. rewrite Nat.add_0_r in N. rewrite N. reflexivity. }
    rewrite IP. rewrite V in V1. rewrite firstn_app_len, skipn_app_S in V1.
    apply IH; [|exact V1]. split; [exact W1|]. split.
    + rewrite V in F. rewrite V1. apply Forall_app in F. destruct F as [F1 F2]. inversion F2; subst. apply Forall_app_2; auto.
    + intros y. rewrite R1, R, V, V1, !occ_app. cbn [occ]. lia.
Qed.

Lemma setslice_exact l rc sl ys : lwf l -> Forall obj (vals l) -> (forall x, rc x = occ (vals l) x + d x) -> Forall (fun o => obj o /\ 0 < d o) ys ->
  zlen (vals l) + zlen ys <= SSIZE_MAX -> step_of sl <> 0 ->
  let r := l_call (CSetSlice sl (SetTo (OList ys))) l rc in
  match linked_setslice (vals l) sl ys with
  | Some s' => fst r = Ret ONone /\ lwf (fst (snd r)) /\ vals (fst (snd r)) = s' /\ forall x, snd (snd r) x = occ s' x + d x
  | None => exists u, fst r = Undef u
  end.
Proof.
  intros W F R Fy Hz NZ. cbv zeta. cbn [l_call]. unfold l_setitem_slice.
  destruct (unpack_cases sl) as [[E _]|[_ (start & stop & step & U)]]; [contradiction|]. rewrite U. cbn [owith].
  pose proof (zlen_nonneg ys) as Hy. pose proof (zlen_nonneg (vals l)) as Hv. destruct ssize_consts as [EA EB].
  assert (Hl : zlen (vals l) <= SSIZE_MAX) by lia.
  pose proof (slice_positions_eq (length (vals l)) sl start stop step Hl U) as P. fold (zlen (vals l)) in P. rewrite lsize_vals.
  destruct (PySlice_AdjustIndices (zlen (vals l)) start stop step) as [[a b] c] eqn:A.
  destruct P as (_ & P2 & P3).
  destruct (adjusted (vals l) sl _ _ _ _ _ _ Hl U A) as [Ea Eb]. pose proof (slice_len_eq (vals l) sl _ _ _ _ _ _ Hl U A) as Ec.
  assert (C0 : 0 <= c).
  { unfold PySlice_AdjustIndices in A. injection A as _ _ <-.
    destruct (Z.ltb_spec step 0); [destruct (_ <? _) eqn:Q; [|lia]; apply Z.ltb_lt in Q; assert (0 <= (adjust1 (zlen (vals l)) start step - adjust1 (zlen (vals l)) stop step - 1) / - step) by (apply Z.div_pos; lia); lia|].
    destruct (_ <? _) eqn:Q; [|lia]; apply Z.ltb_lt in Q. destruct (Z.eq_dec step 0) as [->|]; [rewrite Zdiv_0_r; lia|].
    assert (0 <= (adjust1 (zlen (vals l)) stop step - adjust1 (zlen (vals l)) start step - 1) / step) by (apply Z.div_pos; lia). lia. }
  rewrite Z.max_r in Ec by lia. unfold linked_setslice. rewrite Ec, <- Ea, <- Eb.
  assert (Ba : -1 <= a <= zlen (vals l)) by (rewrite Ea; unfold first_of; destruct (0 <? step_of sl), (sl_start sl); lia).
  assert (Bb : -1 <= b <= zlen (vals l)) by (rewrite Eb; unfold last_of; destruct (0 <? step_of sl), (sl_stop sl); lia).
  assert (ST : okst d (lst l) rc) by (split; [exact W|split; assumption]).
  pose proof (step_used sl _ _ _ U) as SU.
  assert (FIN : forall s1 rc1, okst d s1 rc1 -> zlen (values s1) <= SSIZE_MAX ->
    let r := l_after l (l_overwrite (get_list ys) (Z.to_nat (zlen ys)) 0 a step s1 rc1) (fun s rc => (Ret ONone, (put l s, rc))) in
    match place_all (values s1) a (step_of sl) ys with
    | Some s' => fst r = Ret ONone /\ lwf (fst (snd r)) /\ vals (fst (snd r)) = s' /\ forall x, snd (snd r) x = occ s' x + d x
    | None => exists u, fst r = Undef u
    end).
  { intros s1 rc1 K1 Z1. cbv zeta. pose proof (over_all a step ys (Z.to_nat (zlen ys)) Fy ltac:(lia) 0 s1 rc1 K1 Z1 ltac:(lia) ltac:(lia)) as O.
    rewrite Z.mul_0_l, Z.add_0_r in O. change (Z.to_nat 0) with 0%nat in O. cbn [skipn] in O.
    replace (place_all (values s1) a step ys) with (place_all (values s1) a (step_of sl) ys) in O.
    2:{ destruct SU as [->|SU]; [reflexivity|]. apply place_all_far; [exact Z1|]. lia. }
    destruct (place_all (values s1) a (step_of sl) ys) as [vs|].
    - destruct O as (s2 & rc2 & -> & (W2 & F2 & R2) & V2). unfold l_after. cbn [fst snd]. split; [reflexivity|]. split; [exact W2|]. split; [exact V2|].
      intros x. rewrite R2, V2. reflexivity.
    - destruct O as (u & st & ->). unfold l_after. cbn [fst snd]. eauto. }
  destruct (Z.ltb_spec (zlen ys) c) as [LT|GE].
  - assert (IDX : a + zlen ys * step = a + zlen ys * step_of sl /\ 0 <= a + zlen ys * step < zlen (vals l)).
    { split; [|apply P2; lia]. destruct SU as [->|SU]; [reflexivity|]. assert (c <= 1 \/ 2 <= c) as [Q|Q] by lia; [replace (zlen ys) with 0 by lia; lia|].
      exfalso. pose proof (P2 0 ltac:(lia)). pose proof (P2 1 ltac:(lia)). lia. }
    destruct IDX as [I1 I2]. rewrite <- I1. set (idx := a + zlen ys * step) in *.
    rewrite ssz_ok by (subst idx; rewrite EA, EB in *; lia). cbn [obind]. rewrite ssz_ok by (subst idx; rewrite EA, EB in *; lia). cbn [obind].
    fold idx. unfold at_z. destruct (Z.ltb_spec idx 0); [lia|]. rewrite at_pos by exact W. cbn [obind].
    destruct (zsplit_le (vals l) idx) as (p & q & Epq & Lp); [lia|]. replace (Z.to_nat idx) with (length p) by (unfold zlen in Lp; lia).
    unfold cut. assert (ZL : zlen (vals l) = zlen p + zlen q) by (rewrite Epq; apply zlen_app).
    assert (V0 : values (lst l) = p ++ q) by exact Epq.
    destruct (Z.leb_spec (idx + (c - zlen ys)) (zlen (vals l))) as [B|B].
    + destruct (zsplit_le q (c - zlen ys)) as (q1 & q2 & Eq & Lq); [lia|]. subst q.
      destruct (l_drop_ok d D q1 p q2 (lst l) rc ST V0) as (s1 & rc1 & E1 & K1 & V1).
      replace (Z.to_nat (c - zlen ys)) with (length q1) by (unfold zlen in *; lia). rewrite E1. cbn [owith].
      replace (firstn (Z.to_nat idx) (vals l) ++ skipn (Z.to_nat (idx + (c - zlen ys))) (vals l)) with (values s1).
      2:{ rewrite V1, Epq. replace (Z.to_nat idx) with (length p) by (unfold zlen in *; lia). rewrite firstn_app_len. f_equal.
          rewrite app_assoc. replace (Z.to_nat (idx + (c - zlen ys))) with (length (p ++ q1)) by (rewrite app_length; unfold zlen in *; lia). rewrite skipn_app_len. reflexivity. }
      apply FIN; [exact K1|]. rewrite V1, zlen_app. rewrite Epq, !zlen_app in Hl. pose proof (zlen_nonneg q1). lia.
    + destruct (drop_short (Z.to_nat (c - zlen ys)) p q (lst l) rc ST V0) as (u & E1); [unfold zlen in *; lia|]. rewrite E1. cbn [owith fst]. eauto.
  - destruct (Z.ltb_spec c (zlen ys)) as [GT|EQ].
    + assert (PB : exists p q, vals l = p ++ q /\ at_z (lst l) b = Ret (itpos (lst l) (length p)) /\ Z.to_nat (if b <? 0 then zlen (vals l) else b) = length p).
      { unfold at_z. destruct (Z.ltb_spec b 0).
        - exists (vals l), []. split; [rewrite app_nil_r; reflexivity|]. split; [|unfold zlen; lia]. f_equal. unfold itpos, id_at.
          rewrite (proj2 (nth_error_None _ _)); [reflexivity|]. change (length (nodes (lst l))) with (size (lst l)). rewrite size_values. apply le_n.
        - destruct (zsplit_le (vals l) b) as (p & q & E & L); [lia|]. exists p, q. split; [exact E|]. rewrite at_pos by exact W.
          replace (Z.to_nat b) with (length p) by (unfold zlen in L; lia). auto. }
      destruct PB as (p & q & Epq & At & Ep). rewrite At. cbn [owith]. unfold insert_at. rewrite Ep. 
      assert (P0 : firstn (length p) (vals l) = p) by (rewrite Epq; apply firstn_app_len).
      assert (Q0 : skipn (length p) (vals l) = q) by (rewrite Epq; apply skipn_app_len). rewrite P0, Q0.
      destruct (l_grow_ok d (get_list ys) (fun _ j => znth ys j) (get_list_source d ys Fy) (Z.to_nat (zlen ys - c)) c p q (lst l) rc ST Epq) as (r & s1 & rc1 & new & E1 & K1 & V1 & _ & Q1).
      destruct (Q1 ys ltac:(reflexivity) ltac:(lia) ltac:(lia)) as (-> & ->). rewrite E1. unfold l_after at 1. cbn [fst snd].
      assert (V1' : values s1 = p ++ skipn (Z.to_nat c) ys ++ q).
      { rewrite V1. f_equal. f_equal. apply firstn_all2. rewrite skipn_length. unfold zlen. lia. }
      rewrite <- V1'. apply FIN; [exact K1|]. rewrite V1', !zlen_app. rewrite Epq, zlen_app in Hz. assert (zlen (skipn (Z.to_nat c) ys) <= zlen ys) by (unfold zlen; rewrite skipn_length; lia). lia.
    + rewrite skipn_all2 by (unfold zlen in *; lia). unfold insert_at. cbn [app]. rewrite firstn_skipn. apply FIN; [exact ST|exact Hl].
Qed.
End D.

(** * What the assignment means *)
Lemma positions_at s sl : zlen s <= SSIZE_MAX -> step_of sl <> 0 ->
  let a := first_of s sl in let k := step_of sl in let n := slice_len s sl in
  slice_positions (length s) sl = map (fun j => a + Z.of_nat j * k) (seq 0 (Z.to_nat n)) /\
  (forall t, 0 <= t < n -> 0 <= a + t * k < zlen s) /\ (k = 1 -> n = Z.max 0 (last_of s sl - a)) /\ 0 <= n.
Proof.
  intros Hl NZ. cbv zeta. destruct (unpack_cases sl) as [[E _]|[_ (start & stop & step & U)]]; [contradiction|].
  pose proof (slice_positions_eq (length s) sl start stop step Hl U) as P. fold (zlen s) in P.
  destruct (PySlice_AdjustIndices (zlen s) start stop step) as [[a b] c] eqn:A. destruct P as (P1 & P2 & P3).
  destruct (adjusted s sl _ _ _ _ _ _ Hl U A) as [<- <-]. pose proof (slice_len_eq s sl _ _ _ _ _ _ Hl U A) as Ec.
  pose proof (step_used sl _ _ _ U) as SU. destruct ssize_consts as [EA EB].
  assert (FAR : step = step_of sl \/ c <= 1).
  { destruct SU as [->|SU]; [auto|]. right. destruct (Z.le_gt_cases c 1) as [|Q]; [assumption|exfalso]. pose proof (P2 0 ltac:(lia)). pose proof (P2 1 ltac:(lia)). lia. }
  rewrite Ec. split; [|split; [|split]].
  - rewrite P1. replace (Z.to_nat (Z.max 0 c)) with (Z.to_nat c) by lia. destruct FAR as [->|Q]; [reflexivity|].
    apply map_ext_in. intros j Hj. apply in_seq in Hj. replace j with 0%nat by lia. lia.
  - intros t Ht. specialize (P2 t ltac:(lia)). destruct FAR as [<-|Q]; [exact P2|]. replace t with 0 in * by lia. lia.
  - intros K. destruct SU as [SU|SU]; [|exfalso; rewrite K, EA in SU; lia]. rewrite K in SU. subst step.
    unfold PySlice_AdjustIndices in A. injection A as <- <- <-. change (1 <? 0) with false. cbv iota.
    destruct (Z.ltb_spec (adjust1 (zlen s) start 1) (adjust1 (zlen s) stop 1)); [rewrite Z.div_1_r|]; lia.
  - lia.
Qed.
Lemma place_nth s i y s' : place s i y = Some s' -> znth s' i = Some y /\ forall j, j <> i -> znth s' j = znth s j.
Proof.
  intros H. destruct (place_len _ _ _ _ H) as [B L]. unfold place in H. destruct (Z.leb_spec 0 i); [|discriminate]. destruct (Z.ltb_spec i (zlen s)); [|discriminate]. cbn [andb] in H. injection H as <-.
  destruct (zsplit s i B) as (p & x & q & -> & <-). replace (Z.to_nat (zlen p) + 1)%nat with (S (length p)) by (unfold zlen; lia).
  replace (Z.to_nat (zlen p)) with (length p) by (unfold zlen; lia). rewrite firstn_app_len, skipn_app_S. unfold znth. split.
  - destruct (Z.ltb_spec (zlen p) 0); [lia|]. replace (Z.to_nat (zlen p)) with (length p) by (unfold zlen; lia). rewrite nth_error_app2 by lia. rewrite Nat.sub_diag. reflexivity.
  - intros j Hj. destruct (Z.ltb_spec j 0); [reflexivity|]. destruct (Nat.lt_ge_cases (Z.to_nat j) (length p)) as [Q|Q]; [rewrite !nth_error_app1 by lia; reflexivity|].
    rewrite !nth_error_app2 by lia. destruct (Z.to_nat j - length p)%nat eqn:E; [unfold zlen in Hj; lia|reflexivity].
Qed.
Lemma place_all_nth ys : forall s i k s', k <> 0 -> place_all s i k ys = Some s' ->
  (forall t, 0 <= t < zlen ys -> znth s' (i + t * k) = znth ys t) /\
  (forall j, (forall t, 0 <= t < zlen ys -> j <> i + t * k) -> znth s' j = znth s j).
Proof.
  induction ys as [|y ys IH]; intros s i k s' K H; cbn [place_all] in H.
  - injection H as <-. change (zlen (@nil Z)) with 0. split; [lia|reflexivity].
  - destruct (place s i y) as [s1|] eqn:E; [|discriminate]. destruct (place_nth _ _ _ _ E) as [E1 E2]. destruct (IH _ _ _ _ K H) as [I1 I2].
    replace (zlen (y :: ys)) with (1 + zlen ys) by (unfold zlen; cbn [length]; lia). split.
    + intros t Ht. destruct (Z.eq_dec t 0) as [->|].
      * rewrite Z.mul_0_l, Z.add_0_r. rewrite I2; [exact E1|]. intros t Ht'. nia.
      * specialize (I1 (t - 1) ltac:(lia)). replace (i + k + (t - 1) * k) with (i + t * k) in I1 by lia. rewrite I1. unfold znth.
        destruct (Z.ltb_spec t 0); [lia|]. destruct (Z.ltb_spec (t - 1) 0); [lia|]. replace (Z.to_nat t) with (S (Z.to_nat (t - 1))) by lia. reflexivity.
    + intros j Hj. rewrite I2; [apply E2|].
      * specialize (Hj 0). pose proof (zlen_nonneg ys). lia.
      * intros t Ht. specialize (Hj (t + 1)). lia.
Qed.
Lemma place_all_none ys : forall s i k, place_all s i k ys <> None <-> ys = [] \/ (0 <= i < zlen s /\ 0 <= i + (zlen ys - 1) * k < zlen s).
Proof.
  induction ys as [|y ys IH]; intros s i k; cbn [place_all].
  - split; [auto|congruence].
  - replace (zlen (y :: ys)) with (1 + zlen ys) by (unfold zlen; cbn [length]; lia). destruct (place s i y) as [s1|] eqn:E.
    + apply place_len in E. destruct E as [E1 E2]. rewrite IH, E2. destruct ys as [|z ys]; [change (zlen (@nil Z)) with 0; split; [right; lia|auto]|].
      assert (1 <= zlen (z :: ys)) by (unfold zlen; cbn [length]; lia). set (m := zlen (z :: ys)) in *. split.
      * intros [Q|Q]; [discriminate|]. right. nia.
      * intros [Q|Q]; [discriminate|]. right. nia.
    + split; [congruence|]. intros [Q|[Q _]]; [discriminate|]. exfalso. unfold place in E. destruct (Z.leb_spec 0 i); [|lia]. destruct (Z.ltb_spec i (zlen s)); [discriminate|lia].
Qed.
Lemma place_all_run ys : forall p r q, length r = length ys -> place_all (p ++ r ++ q) (zlen p) 1 ys = Some (p ++ ys ++ q).
Proof.
  induction ys as [|y ys IH]; intros p r q L; destruct r as [|x r]; try discriminate L; cbn [place_all]; [reflexivity|].
  unfold place. destruct (Z.leb_spec 0 (zlen p)); [|pose proof (zlen_nonneg p); lia]. destruct (Z.ltb_spec (zlen p) (zlen (p ++ (x :: r) ++ q))) as [|Q].
  2:{ unfold zlen in Q. rewrite !app_length in Q. cbn [length] in Q. lia. }
  cbn [andb]. replace (Z.to_nat (zlen p) + 1)%nat with (S (length p)) by (unfold zlen; lia). replace (Z.to_nat (zlen p)) with (length p) by (unfold zlen; lia).
  cbn [app]. rewrite firstn_app_len, skipn_app_S. specialize (IH (p ++ [y]) r q ltac:(cbn in L; lia)). rewrite <- !app_assoc in IH. cbn [app] in IH.
  rewrite zlen_app in IH. change (zlen [y]) with 1 in IH. exact IH.
Qed.
Lemma insert_len s i new : -1 <= i <= zlen s -> zlen (insert_at s i new) = zlen s + zlen new.
Proof.
  intros H. unfold insert_at. set (p := Z.to_nat _). assert ((p <= length s)%nat) by (unfold p, zlen in *; destruct (Z.ltb_spec i 0); lia).
  unfold zlen. rewrite !app_length, firstn_length, skipn_length. lia.
Qed.
Lemma cut_len s i n s' : 0 <= i -> 0 <= n -> cut s i n = Some s' -> zlen s' = zlen s - n.
Proof.
  intros H H0. unfold cut. destruct (Z.leb_spec (i + n) (zlen s)); [|discriminate]. intros E; injection E as <-.
  unfold zlen in *. rewrite app_length, firstn_length, skipn_length. lia.
Qed.
Lemma bounds_of s sl : -1 <= first_of s sl <= zlen s /\ -1 <= last_of s sl <= zlen s /\
  (0 < step_of sl -> 0 <= first_of s sl /\ 0 <= last_of s sl) /\ (step_of sl < 0 -> first_of s sl < zlen s).
Proof.
  pose proof (zlen_nonneg s). unfold first_of, last_of. destruct (Z.ltb_spec 0 (step_of sl)), (sl_start sl), (sl_stop sl); lia.
Qed.
Lemma setslice_len s sl ys s' : zlen s <= SSIZE_MAX -> step_of sl <> 0 -> linked_setslice s sl ys = Some s' -> zlen s' = zlen s + zlen ys - slice_len s sl.
Proof.
  intros Hl NZ. destruct (positions_at s sl Hl NZ) as (_ & P2 & _ & N0). destruct (bounds_of s sl) as (Ba & Bb & _). unfold linked_setslice.
  destruct (Z.ltb_spec (zlen ys) (slice_len s sl)) as [L|G].
  - destruct (cut _ _ _) as [s1|] eqn:E; [|discriminate]. intros H. rewrite (place_all_len _ _ _ _ _ H). pose proof (zlen_nonneg ys). apply cut_len in E; [lia|apply P2; lia|lia].
  - intros H. rewrite (place_all_len _ _ _ _ _ H). rewrite insert_len by lia. unfold zlen at 2. rewrite skipn_length. unfold zlen in *. lia.
Qed.
Lemma setslice_reach s sl ys : zlen s <= SSIZE_MAX -> step_of sl <> 0 -> linked_setslice s sl ys <> None <-> in_reach s sl ys.
Proof.
  intros Hl NZ. destruct (positions_at s sl Hl NZ) as (_ & P2 & _ & N0). destruct (bounds_of s sl) as (Ba & Bb & Bp & Bn). pose proof (zlen_nonneg ys) as Hm.
  assert (Nil : ys = [] <-> zlen ys = 0) by (destruct ys; [split; reflexivity|unfold zlen; cbn [length]; split; [discriminate|lia]]).
  unfold linked_setslice, in_reach. set (a := first_of s sl) in *. set (k := step_of sl) in *. set (n := slice_len s sl) in *. set (m := zlen ys) in *.
  destruct (Z.ltb_spec m n) as [L|G].
  - pose proof (P2 (n - 1) ltac:(lia)) as Pn. pose proof (P2 m ltac:(lia)) as Pm. pose proof (P2 0 ltac:(lia)) as P0.
    destruct (cut s (a + m * k) (n - m)) as [s1|] eqn:E.
    + assert (L1 := E). apply cut_len in L1; [|lia|lia]. unfold cut in E. destruct (Z.leb_spec (a + m * k + (n - m)) (zlen s)) as [C|C]; [|discriminate].
      rewrite place_all_none, L1, Nil. fold m. nia.
    + unfold cut in E. destruct (Z.leb_spec (a + m * k + (n - m)) (zlen s)) as [C|C]; [discriminate|].
      split; [congruence|]. intros Q. exfalso. nia.
  - rewrite place_all_none, insert_len, Nil by lia. fold m.
    assert (Sk : zlen (skipn (Z.to_nat n) ys) = m - n) by (unfold m, zlen in *; rewrite skipn_length; lia). rewrite Sk.
    destruct (Z.eq_dec m n) as [Q|Q].
    + split; [auto|]. intros _. destruct (Z.eq_dec m 0) as [|NZm]; [auto|]. right. pose proof (P2 0 ltac:(lia)). pose proof (P2 (m - 1) ltac:(lia)). lia.
    + destruct (Z.lt_trichotomy k 0) as [K|[K|K]]; [|contradiction|]; nia.
Qed.
Lemma setslice_strided s sl ys : zlen s <= SSIZE_MAX -> step_of sl <> 0 -> zlen ys = slice_len s sl ->
  exists s', linked_setslice s sl ys = Some s' /\ strided s sl ys s'.
Proof.
  intros Hl NZ E. destruct (linked_setslice s sl ys) as [s'|] eqn:H.
  2:{ exfalso. revert H. apply setslice_reach; [assumption..|]. unfold in_reach. rewrite E, Z.ltb_irrefl. auto. }
  exists s'. split; [reflexivity|]. pose proof (setslice_len _ _ _ _ Hl NZ H) as L. destruct (positions_at s sl Hl NZ) as (P1 & P2 & _ & N0).
  unfold linked_setslice in H. rewrite E, Z.ltb_irrefl in H. rewrite skipn_all2 in H by (unfold zlen in *; lia). unfold insert_at in H. cbn [app] in H. rewrite firstn_skipn in H.
  destruct (place_all_nth _ _ _ _ _ NZ H) as [I1 I2]. split; [unfold zlen in *; lia|]. rewrite P1. split.
  - intros t p Hp. assert (Ht : (t < Z.to_nat (slice_len s sl))%nat) by (rewrite <- (seq_length (Z.to_nat (slice_len s sl)) 0), <- (map_length (fun j => first_of s sl + Z.of_nat j * step_of sl)); apply nth_error_Some; congruence).
    rewrite (map_nth_error _ t _ (d := t)) in Hp. 2:{ rewrite nth_error_nth' with (d := 0%nat) by (rewrite seq_length; lia). rewrite seq_nth by lia. reflexivity. }
    injection Hp as <-. rewrite I1 by lia. unfold znth. destruct (Z.ltb_spec (Z.of_nat t) 0); [lia|]. rewrite Nat2Z.id. reflexivity.
  - intros p Hp. apply I2. intros t Ht Q. apply Hp. apply in_map_iff. exists (Z.to_nat t). split; [rewrite Z2Nat.id; lia|]. apply in_seq. lia.
Qed.
Lemma setslice_one s sl ys : zlen s <= SSIZE_MAX -> step_of sl = 1 ->
  let a := Z.to_nat (first_of s sl) in let b := Z.to_nat (last_of s sl) in
  linked_setslice s sl ys = Some (if last_of s sl <? first_of s sl then firstn a (firstn b s ++ ys ++ skipn b s) ++ ys ++ skipn a s else py_setslice s sl ys).
Proof.
  intros Hl K. cbv zeta. assert (NZ : step_of sl <> 0) by lia. destruct (positions_at s sl Hl NZ) as (_ & _ & P3 & N0). specialize (P3 K).
  destruct (bounds_of s sl) as (Ba & Bb & Bp & _). destruct (Bp ltac:(lia)) as [A0 B0]. clear Bp.
  assert (PY : py_setslice s sl ys = firstn (Z.to_nat (first_of s sl)) s ++ ys ++ skipn (Z.to_nat (Z.max (first_of s sl) (last_of s sl))) s).
  { unfold py_setslice, first_of, last_of, clamp. rewrite K. change (0 <? 1) with true. reflexivity. }
  unfold linked_setslice. rewrite P3, K. set (a := first_of s sl) in *. set (b := last_of s sl) in *. pose proof (zlen_nonneg ys) as Hm.
  destruct (Z.ltb_spec b a) as [X|X].
  - replace (Z.max 0 (b - a)) with 0 by lia. destruct (Z.ltb_spec (zlen ys) 0); [lia|]. change (Z.to_nat 0) with 0%nat. cbn [skipn]. unfold insert_at. destruct (Z.ltb_spec b 0); [lia|].
    set (w := firstn (Z.to_nat b) s ++ ys ++ skipn (Z.to_nat b) s).
    assert (Lw : length w = (length s + length ys)%nat) by (unfold w; rewrite !app_length, firstn_length, skipn_length; lia).
    assert (Ew : skipn (Z.to_nat a + length ys) w = skipn (Z.to_nat a) s).
    { unfold w. rewrite app_assoc, skipn_app. rewrite skipn_all2 by (rewrite app_length, firstn_length; unfold zlen in *; lia). cbn [app].
      rewrite app_length, firstn_length, skipn_skipn. f_equal. unfold zlen in *. lia. }
    rewrite <- Ew. set (p := firstn (Z.to_nat a) w). set (r := firstn (length ys) (skipn (Z.to_nat a) w)). set (q := skipn (Z.to_nat a + length ys) w).
    assert (W : w = p ++ r ++ q). { unfold p, r, q. rewrite <- skipn_skipn, firstn_skipn, firstn_skipn. reflexivity. }
    rewrite W at 1. assert (Lp : zlen p = a) by (unfold p, zlen in *; rewrite firstn_length; lia). rewrite <- Lp. apply place_all_run. unfold r. rewrite firstn_length, skipn_length. unfold zlen in *. lia.
  - rewrite PY. replace (Z.max 0 (b - a)) with (b - a) by lia. replace (Z.max a b) with b by lia.
    destruct (zsplit_le s b) as (pr & q & Es & Lb); [lia|]. destruct (zsplit_le pr a) as (p & r & Ep & La); [lia|]. subst pr.
    rewrite zlen_app in Lb. assert (F1 : firstn (Z.to_nat a) s = p).
    { rewrite Es, <- app_assoc. replace (Z.to_nat a) with (length p) by (unfold zlen in *; lia). apply firstn_app_len. }
    assert (F2 : skipn (Z.to_nat b) s = q). { rewrite Es. replace (Z.to_nat b) with (length (p ++ r)) by (rewrite app_length; unfold zlen in *; lia). apply skipn_app_len. }
    rewrite F1, F2. destruct (Z.ltb_spec (zlen ys) (b - a)) as [L|G].
    + unfold cut. destruct (Z.leb_spec (a + zlen ys * 1 + (b - a - zlen ys)) (zlen s)); [|lia]. replace (Z.to_nat (a + zlen ys * 1 + (b - a - zlen ys))) with (Z.to_nat b) by lia. rewrite F2.
      replace (firstn (Z.to_nat (a + zlen ys * 1)) s) with (p ++ firstn (length ys) r).
      2:{ rewrite Es, <- app_assoc, firstn_app. rewrite (firstn_all2 p) by (unfold zlen in *; lia). f_equal. rewrite firstn_app. replace (Z.to_nat (a + zlen ys * 1) - length p)%nat with (length ys) by (unfold zlen in *; lia).
          replace (length ys - length r)%nat with 0%nat by (unfold zlen in *; lia). cbn [firstn]. rewrite app_nil_r. reflexivity. }
      rewrite <- app_assoc, <- La. apply place_all_run. rewrite firstn_length. unfold zlen in *. lia.
    + unfold insert_at. destruct (Z.ltb_spec b 0); [lia|]. rewrite F2. replace (firstn (Z.to_nat b) s) with (p ++ r).
      2:{ rewrite Es. replace (Z.to_nat b) with (length (p ++ r)) by (rewrite app_length; unfold zlen in *; lia). rewrite firstn_app_len. reflexivity. }
      rewrite <- app_assoc. rewrite (app_assoc r). rewrite <- La. apply place_all_run. rewrite app_length, skipn_length. unfold zlen in *. lia.
Qed.

(** * Together *)
Section Runs.
Context (d : counts) (D : forall x, 0 <= d x) (l : ll) (rc : counts) (W : lwf l) (F : Forall obj (vals l)) (R : forall x, rc x = occ (vals l) x + d x).
Context (sl : slice) (ys : list Z) (Fy : Forall (fun o => obj o /\ 0 < d o) ys) (Hz : zlen (vals l) + zlen ys <= SSIZE_MAX) (NZ : step_of sl <> 0).
Context (v : oarg) (V : v = OList ys \/ v = OSame ys).
Let r := l_call (CSetSlice sl (SetTo v)) l rc.
Let small : zlen (vals l) <= SSIZE_MAX.
Proof. pose proof (zlen_nonneg ys). lia. Qed.

Lemma slice_exact : match linked_setslice (vals l) sl ys with
  | Some s' => fst r = Ret ONone /\ lwf (fst (snd r)) /\ vals (fst (snd r)) = s' /\ forall x, snd (snd r) x = occ s' x + d x
  | None => exists u, fst r = Undef u
  end.
Proof. pose proof (setslice_exact d D l rc sl ys W F R Fy Hz NZ) as H. unfold r. destruct V as [-> | ->]; exact H. Qed.
Lemma slice_undefined : (exists u, fst r = Undef u) <-> ~ in_reach (vals l) sl ys.
Proof.
  rewrite <- (setslice_reach (vals l) sl ys small NZ). pose proof slice_exact as H. destruct (linked_setslice (vals l) sl ys) as [s'|].
  - destruct H as [H _]. rewrite H. split; [intros [u Q]; discriminate|intros Q; exfalso; apply Q; discriminate].
  - split; [intros _ Q; apply Q; reflexivity|auto].
Qed.
Lemma slice_wrong_size : zlen ys <> slice_len (vals l) sl -> in_reach (vals l) sl ys ->
  fst r = Ret ONone /\ zlen (vals (fst (snd r))) = zlen (vals l) + zlen ys - slice_len (vals l) sl /\ vals (fst (snd r)) <> vals l.
Proof.
  intros N I. pose proof slice_exact as H. apply (setslice_reach (vals l) sl ys small NZ) in I. destruct (linked_setslice (vals l) sl ys) as [s'|] eqn:E; [|congruence].
  destruct H as (H1 & _ & H2 & _). apply (setslice_len _ _ _ _ small NZ) in E. split; [exact H1|]. rewrite H2. split; [exact E|]. intros Q. rewrite Q in E. lia.
Qed.
Lemma slice_same_size : zlen ys = slice_len (vals l) sl -> fst r = Ret ONone /\ strided (vals l) sl ys (vals (fst (snd r))).
Proof.
  intros N. pose proof slice_exact as H. destruct (setslice_strided (vals l) sl ys small NZ N) as (s' & E & S'). rewrite E in H. destruct H as (H1 & _ & H2 & _). rewrite H2. auto.
Qed.
Lemma slice_crossing : step_of sl = 1 -> last_of (vals l) sl < first_of (vals l) sl ->
  let a := Z.to_nat (first_of (vals l) sl) in let b := Z.to_nat (last_of (vals l) sl) in
  let s' := firstn a (firstn b (vals l) ++ ys ++ skipn b (vals l)) ++ ys ++ skipn a (vals l) in
  fst r = Ret ONone /\ vals (fst (snd r)) = s' /\
  (s' = py_setslice (vals l) sl ys <-> firstn a (firstn b (vals l) ++ ys ++ skipn b (vals l)) = firstn a (vals l)).
Proof.
  intros K X. cbv zeta. pose proof slice_exact as H. rewrite (setslice_one _ _ _ small K) in H. destruct (Z.ltb_spec (last_of (vals l) sl) (first_of (vals l) sl)); [|lia].
  destruct H as (H1 & _ & H2 & _). split; [exact H1|]. split; [exact H2|].
  assert (PY : py_setslice (vals l) sl ys = firstn (Z.to_nat (first_of (vals l) sl)) (vals l) ++ ys ++ skipn (Z.to_nat (first_of (vals l) sl)) (vals l)).
  { replace (first_of (vals l) sl) with (Z.max (first_of (vals l) sl) (last_of (vals l) sl)) at 2 by lia. unfold py_setslice, first_of, last_of, clamp. rewrite K. reflexivity. }
  rewrite PY. split; [apply app_inv_tail|intros ->; reflexivity].
Qed.
End Runs.
