(** Proofs for C75: where clear goes wrong, remove, and no finalizers. *)
From Coq Require Import ZArith List Bool Lia Arith.
From Verif Require Import Base PyListSpec ListLemmas ArrayListModel ArrayListProofs StdListModel StdListProofs LinkedListModel LinkedListProofs ObjModel ObjSpec ObjLemmas ObjLinkedModel LFinalModel LFinalSpec LFinalProofs.
Import ListNotations.
Local Open Scope Z_scope.
Local Arguments Z.pow : simpl never.
Local Arguments Z.add : simpl never.
Local Arguments Z.sub : simpl never.
Local Arguments Z.mul : simpl never.

Lemma release_none F o s : o <> 0 -> 0 < refs s o -> (forall t, F o t = inl t) -> release F o s = Ret (dec o s).
Proof.
  intros NZ R H. unfold release. destruct (Z.eqb_spec o 0); [contradiction|]. destruct (Z.leb_spec (refs s o) 0); [lia|].
  rewrite H. destruct (Z.leb_spec (refs s o) 0); [lia|]. destruct (refs s o =? 1); reflexivity.
Qed.
Definition wiped (b : list (nat * Z)) : list (nat * Z) := map (fun n => (fst n, 0)) b.

(** Elements without finalizers are passed over. *)
Lemma clear_skips F : forall b pre rest s n, nodes (nds s) = pre ++ b ++ rest -> linked s -> ~ In 0 (map snd b) ->
  (forall p t, In p (map snd b) -> F p t = inl t) -> (forall x, x <> 0 -> occ (map snd b) x <= refs s x) ->
  exists s', clear_loop (length b + n) F (id_at (b ++ rest) 0) s = clear_loop n F (id_at rest 0) s' /\
    nodes (nds s') = pre ++ wiped b ++ rest /\ fresh (nds s') = fresh (nds s) /\ (forall x, refs s' x = refs s x - occ (map snd b) x) /\
    held s' = held s /\ srcs s' = srcs s /\ linked s'.
Proof.
  induction b as [|[i o] b IH]; intros pre rest s n E L NZ HF R.
  - exists s. cbn [wiped map app length Nat.add] in *. split; [reflexivity|]. split; [exact E|]. split; [reflexivity|]. split; [intros x; cbn; lia|]. auto.
  - cbn [map snd In] in NZ. assert (No : o <> 0) by (intros ->; tauto). cbn [app length Nat.add clear_loop id_at nth_error option_map it_eqb fst end_] in *.
    assert (Ro : 0 < refs s o). { specialize (R o No). cbn [map snd occ] in R. rewrite Z.eqb_refl in R. pose proof (occ_nonneg (map snd b) o). lia. }
    assert (SD : safe_decref F (Some i) s = Ret (with_nds {| nodes := pre ++ (i, 0) :: b ++ rest; fresh := fresh (nds s) |} (dec o s))).
    { unfold safe_decref. rewrite (deref_at _ pre i o (b ++ rest) (proj1 L) E). cbn [obind]. rewrite (release_none F o s No Ro) by (intros t; apply HF; left; reflexivity).
      cbn [obind nds dec with_refs]. rewrite (assign_at _ pre i o (b ++ rest) 0 (proj1 L) E). reflexivity. }
    rewrite SD. cbn [obind nds with_nds]. pose proof (linked_set s pre i o 0 (b ++ rest) L E) as L2.
    rewrite (next_at {| nodes := pre ++ (i, 0) :: b ++ rest; fresh := fresh (nds s) |} pre i 0 (b ++ rest) (proj1 L2) eq_refl). cbn [obind].
    set (s1 := with_nds {| nodes := pre ++ (i, 0) :: b ++ rest; fresh := fresh (nds s) |} (dec o s)).
    assert (R1 : forall x, refs s1 x = refs s x - occ [o] x) by (intros x; unfold s1; cbn [refs with_nds dec with_refs]; apply upd_minus).
    destruct (IH (pre ++ [(i, 0)]) rest s1 n) as (s' & C & N' & F' & R' & H' & S' & L').
    + unfold s1. cbn [nds with_nds nodes]. rewrite <- app_assoc. reflexivity.
    + exact L2.
    + tauto.
    + intros p t Hp. apply HF. right. exact Hp.
    + intros x Hx. rewrite R1. specialize (R x Hx). cbn [map snd occ] in *. lia.
    + exists s'. split; [exact C|]. split; [rewrite N', <- app_assoc; reflexivity|]. split; [exact F'|].
      split; [|split; [exact H'|]; split; [exact S'|exact L']]. intros x. rewrite R', R1. cbn [map snd occ]. lia.
Qed.

(** Facts about a dying element of a balanced list. *)
Lemma dying s a i o c : balanced s -> nodes (nds s) = a ++ (i, o) :: c -> refs s o = 1 ->
  o <> 0 /\ ~ In o (map snd a) /\ ~ In o (map snd c) /\ ~ In 0 (map snd a) /\ ~ In 0 (map snd c) /\ held s o = 0 /\
  (forall x, x <> 0 -> refs s x = held s x + occ (srcs s) x + occ (map snd a) x + occ [o] x + occ (map snd c) x /\ 0 <= held s x).
Proof.
  intros (L & B & NI & NS) E R. rewrite (items_nodes s _ E), map_app in NI. cbn [map snd] in NI. rewrite in_app_iff in NI. cbn [In] in NI.
  assert (No : o <> 0) by tauto.
  assert (G : forall x, x <> 0 -> refs s x = held s x + occ (srcs s) x + occ (map snd a) x + occ [o] x + occ (map snd c) x /\ 0 <= held s x).
  { intros x Hx. destruct (B x Hx) as [H S]. unfold slack in S. rewrite (items_nodes s _ E), map_app, occ_app in S. cbn [map snd occ] in S |- *. lia. }
  destruct (G o No) as [G1 G2]. rewrite occ_self in G1. pose proof (occ_nonneg (srcs s) o). pose proof (occ_nonneg (map snd a) o). pose proof (occ_nonneg (map snd c) o).
  split; [exact No|]. split; [intros H9; apply occ_in in H9; lia|]. split; [intros H9; apply occ_in in H9; lia|]. split; [tauto|]. split; [tauto|]. split; [lia|exact G].
Qed.

Lemma clear_upto F s a i o c n : balanced s -> nodes (nds s) = a ++ (i, o) :: c -> refs s o = 1 -> (forall p t, In p (map snd a) -> F p t = inl t) ->
  exists s', clear_loop (length a + n) F (begin_ (nds s)) s = clear_loop n F (Some i) s' /\
    nodes (nds s') = wiped a ++ (i, o) :: c /\ fresh (nds s') = fresh (nds s) /\ (forall x, refs s' x = refs s x - occ (map snd a) x) /\
    held s' = held s /\ srcs s' = srcs s /\ linked s'.
Proof.
  intros B E R HF. destruct (dying s a i o c B E R) as (No & NA & NC & ZA & ZC & HO & G).
  destruct (clear_skips F a [] ((i, o) :: c) s n E (proj1 B) ZA HF) as (s' & H).
  - intros x Hx. destruct (G x Hx) as [G1 G2]. pose proof (occ_nonneg (srcs s) x). pose proof (occ_nonneg [o] x). pose proof (occ_nonneg (map snd c) x). lia.
  - exists s'. unfold begin_. rewrite E. exact H.
Qed.

Lemma clear_removed F o i s fuel : balanced s -> In (i, o) (nodes (nds s)) -> refs s o = 1 -> only o F -> removes F o i ->
  (length (items s) <= fuel)%nat -> f_clear fuel F s = Some (Undef UseAfterFree).
Proof.
  intros B IN R HO HR Hf. destruct (in_split _ _ IN) as (a & c & E). destruct (dying s a i o c B E R) as (No & NA & NC & ZA & ZC & HH & G).
  rewrite (items_nodes s _ E), map_length, app_length in Hf. cbn [length] in Hf.
  destruct (clear_upto F s a i o c (S (fuel - length a - 1)) B E R) as (s1 & C & N1 & _ & R1 & _ & _ & L1).
  { intros p t Hp. apply HO. intros ->. contradiction. }
  unfold f_clear. replace fuel with (length a + S (fuel - length a - 1))%nat by lia. rewrite C. cbn [clear_loop it_eqb end_].
  unfold safe_decref. rewrite (deref_at _ _ i o c (proj1 L1) N1). cbn [obind]. unfold release.
  destruct (Z.eqb_spec o 0); [contradiction|]. rewrite R1, R. assert (A0 : occ (map snd a) o = 0).
  { pose proof (occ_nonneg (map snd a) o). destruct (Z.eq_dec (occ (map snd a) o) 0); [assumption|]. exfalso. apply NA, occ_pos. lia. }
  rewrite A0. change (1 - 0 <=? 0) with false. change (1 - 0 =? 1) with true. cbv iota.
  destruct (HR s1) as (t & -> & NI). destruct (refs t o <=? 0); [reflexivity|]. cbn [obind nds with_refs]. rewrite gone by exact NI. reflexivity.
Qed.

Lemma clear_read F o i s a c fuel : balanced s -> nodes (nds s) = a ++ (i, o) :: c -> a <> [] -> refs s o = 1 -> only o F ->
  (forall t, F o t = match f_get 0 t with Ret t' => inl t' | Undef u => inr u | _ => inl t end) ->
  (length (items s) <= fuel)%nat -> f_clear fuel F s = Some (Undef NullDeref).
Proof.
  intros B E NE R HO HF Hf. destruct (dying s a i o c B E R) as (No & NA & NC & ZA & ZC & HH & G).
  rewrite (items_nodes s _ E), map_length, app_length in Hf. cbn [length] in Hf.
  destruct (clear_upto F s a i o c (S (fuel - length a - 1)) B E R) as (s1 & C & N1 & _ & R1 & _ & _ & L1).
  { intros p t Hp. apply HO. intros ->. contradiction. }
  unfold f_clear. replace fuel with (length a + S (fuel - length a - 1))%nat by lia. rewrite C. cbn [clear_loop it_eqb end_].
  unfold safe_decref. rewrite (deref_at _ _ i o c (proj1 L1) N1). cbn [obind]. unfold release.
  destruct (Z.eqb_spec o 0); [contradiction|]. rewrite R1, R. assert (A0 : occ (map snd a) o = 0).
  { pose proof (occ_nonneg (map snd a) o). destruct (Z.eq_dec (occ (map snd a) o) 0); [assumption|]. exfalso. apply NA, occ_pos. lia. }
  rewrite A0. change (1 - 0 <=? 0) with false. change (1 - 0 =? 1) with true. cbv iota. rewrite HF.
  destruct a as [|[j x] a]; [contradiction|]. cbn [wiped map fst app] in N1. fold (wiped a) in N1.
  unfold f_get. change (0 <? 0) with false. cbv iota. assert (SZ : (0 < size (nds s1))%nat) by (unfold size; rewrite N1; cbn; lia).
  destruct (Z.leb_spec (Z.of_nat (size (nds s1))) 0); [lia|]. cbn [orb]. change (Z.to_nat 0) with (length (@nil (nat * Z))).
  rewrite (at_at _ [] j 0 (wiped a ++ (i, o) :: c) L1 N1). cbn [obind]. rewrite (deref_at _ [] j 0 (wiped a ++ (i, o) :: c) (proj1 L1) N1). reflexivity.
Qed.

Lemma clear_front F o i x s fuel : balanced s -> In (i, o) (nodes (nds s)) -> refs s o = 1 -> only o F -> x <> 0 -> x <> o -> fronts F o x ->
  (length (items s) <= fuel)%nat ->
  exists s', f_clear fuel F s = Some (Ret s') /\ items s' = [] /\ srcs s' = srcs s /\ forall p, p <> 0 -> 0 <= held s' p /\ slack s' p = occ [x] p.
Proof.
  intros B IN R HO NX XO HF Hf. destruct (in_split _ _ IN) as (a & c & E). destruct (dying s a i o c B E R) as (No & NA & NC & ZA & ZC & HH & G).
  rewrite (items_nodes s _ E), map_length, app_length in Hf. cbn [length] in Hf.
  destruct (clear_upto F s a i o c (S (length c + (fuel - length a - 1 - length c))) B E R) as (s1 & C & N1 & F1 & R1 & H1 & S1 & L1).
  { intros p t Hp. apply HO. intros ->. contradiction. }
  unfold f_clear. replace fuel with (length a + S (length c + (fuel - length a - 1 - length c)))%nat by lia. rewrite C. cbn [clear_loop it_eqb end_].
  unfold safe_decref. rewrite (deref_at _ _ i o c (proj1 L1) N1). cbn [obind]. unfold release.
  destruct (Z.eqb_spec o 0); [contradiction|]. assert (A0 : occ (map snd a) o = 0).
  { pose proof (occ_nonneg (map snd a) o). destruct (Z.eq_dec (occ (map snd a) o) 0); [assumption|]. exfalso. apply NA, occ_pos. lia. }
  assert (R1o : refs s1 o = 1) by (rewrite R1; lia). rewrite R1o. change (1 <=? 0) with false. change (1 =? 1) with true. cbv iota. rewrite HF.
  set (t := with_nds {| nodes := (fresh (nds s1), x) :: nodes (nds s1); fresh := S (fresh (nds s1)) |} (with_refs (upd (refs s1) x (refs s1 x + 1)) s1)).
  assert (Rt : forall p, refs t p = refs s1 p + occ [x] p) by (intros p; apply upd_plus).
  assert (Rto : refs t o = 1). { rewrite Rt, R1o. cbn [occ]. destruct (Z.eqb_spec x o); [congruence|lia]. }
  rewrite Rto. change (1 <=? 0) with false. cbv iota. cbn [obind].
  assert (Nt : nodes (nds t) = ((fresh (nds s1), x) :: wiped a) ++ (i, o) :: c) by (unfold t; cbn [nds with_nds nodes]; rewrite N1; reflexivity).
  assert (Lt : linked t).
  { destruct L1 as [D Fr]. unfold linked, ids, t in *. cbn [nds with_nds nodes fresh map fst]. split.
    - constructor; [|exact D]. intros HI. rewrite Forall_forall in Fr. specialize (Fr _ HI). lia.
    - constructor; [lia|]. eapply Forall_impl; [|exact Fr]. cbn. lia. }
  cbn [nds with_refs]. rewrite (assign_at _ _ i o c 0 (proj1 Lt) Nt). cbn [obind nds with_nds].
  pose proof (linked_set t _ i o 0 c Lt Nt) as L2.
  rewrite (next_at {| nodes := ((fresh (nds s1), x) :: wiped a) ++ (i, 0) :: c; fresh := fresh (nds t) |} _ i 0 c (proj1 L2) eq_refl). cbn [obind].
  set (s2 := with_nds {| nodes := ((fresh (nds s1), x) :: wiped a) ++ (i, 0) :: c; fresh := fresh (nds t) |} (with_refs (upd (refs t) o (1 - 1)) t)).
  assert (R2 : forall p, refs s2 p = refs t p - occ [o] p). { intros p. unfold s2. cbn [refs with_nds with_refs]. rewrite <- (upd_minus (refs t) o p), Rto. reflexivity. }
  destruct (clear_skips F c (((fresh (nds s1), x) :: wiped a) ++ [(i, 0)]) [] s2 (fuel - length a - 1 - length c)) as (s3 & C3 & N3 & F3 & R3 & H3 & S3 & L3).
  - unfold s2. cbn [nds with_nds nodes]. rewrite app_nil_r, <- app_assoc. reflexivity.
  - exact L2.
  - exact ZC.
  - intros p t' Hp. apply HO. intros ->. contradiction.
  - intros p Hp. rewrite R2, Rt, R1. destruct (G p Hp) as [G1 G2]. pose proof (occ_nonneg (srcs s) p). pose proof (occ_nonneg [x] p). lia.
  - rewrite app_nil_r in C3. rewrite C3. destruct (fuel - length a - 1 - length c)%nat; cbn [clear_loop id_at nth_error option_map it_eqb end_ obind];
      (eexists; split; [reflexivity|]; split; [reflexivity|]; cbn [srcs held with_nds]; split; [rewrite S3; exact S1|]);
      (intros p Hp; rewrite H3; cbn [held s2 t with_nds with_refs]; rewrite H1; destruct (G p Hp) as [G1 G2]; split; [exact G2|]);
      unfold slack; cbn [refs held srcs with_nds items]; unfold items; cbn [values nds with_nds clear_ nodes map occ];
      rewrite R3, R2, Rt, R1, H3, S3; cbn [held srcs s2 t with_nds with_refs]; rewrite H1, S1; change (values (clear_ (nds s3))) with (@nil Z); cbn [occ] in *; lia.
Qed.

(** A list that is never cleared. *)
Lemma respawn F o0 : respawns F o0 -> forall fuel o pre i s, nodes (nds s) = pre ++ [(i, o)] -> linked s -> 0 < o0 -> o0 <= o -> refs s o = 1 ->
  (forall n, o < n -> refs s n = 0) -> clear_loop fuel F (Some i) s = None.
Proof.
  intros [_ HF]. induction fuel as [|fuel IH]; intros o pre i s E L O0 Ho R HN; cbn [clear_loop it_eqb end_]; [reflexivity|].
  unfold safe_decref. rewrite (deref_at _ pre i o [] (proj1 L) E). cbn [obind]. unfold release. destruct (Z.eqb_spec o 0); [lia|].
  rewrite R. change (1 <=? 0) with false. change (1 =? 1) with true. cbv iota. rewrite (HF o s Ho (HN (o + 1) ltac:(lia))).
  set (t := with_nds (push_back (nds s) (o + 1)) (with_refs (upd (refs s) (o + 1) 1) s)).
  assert (Rto : refs t o = 1). { unfold t. cbn [refs with_nds with_refs]. unfold upd. destruct (Z.eqb_spec o (o + 1)); [lia|]. exact R. }
  rewrite Rto. change (1 <=? 0) with false. cbv iota. cbn [obind nds with_refs].
  assert (Nt : nodes (nds t) = pre ++ (i, o) :: [(fresh (nds s), o + 1)]) by (unfold t; cbn [nds with_nds push_back nodes]; rewrite E, <- app_assoc; reflexivity).
  assert (Lt : linked t) by (apply (push_back_ok (nds s) (o + 1)); exact L).
  rewrite (assign_at _ pre i o _ 0 (proj1 Lt) Nt). cbn [obind nds with_nds]. pose proof (linked_set t pre i o 0 _ Lt Nt) as L2.
  rewrite (next_at {| nodes := pre ++ (i, 0) :: [(fresh (nds s), o + 1)]; fresh := fresh (nds t) |} pre i 0 _ (proj1 L2) eq_refl). cbn [obind id_at nth_error option_map fst].
  apply (IH (o + 1) (pre ++ [(i, 0)])).
  - cbn [nds with_nds nodes]. rewrite <- app_assoc. reflexivity.
  - exact L2.
  - exact O0.
  - lia.
  - cbn [refs with_nds with_refs]. unfold upd at 1. destruct (Z.eqb_spec (o + 1) o); [lia|]. unfold t. cbn [refs with_nds with_refs]. unfold upd. rewrite Z.eqb_refl. reflexivity.
  - intros q Hq. cbn [refs with_nds with_refs]. unfold upd at 1. destruct (Z.eqb_spec q o); [lia|]. unfold t. cbn [refs with_nds with_refs]. unfold upd. destruct (Z.eqb_spec q (o + 1)); [lia|]. apply HN. lia.
Qed.
Lemma clear_endless F o0 b s fuel : balanced s -> items s = b ++ [o0] -> 0 < o0 -> refs s o0 = 1 -> (forall n, o0 < n -> refs s n = 0) -> respawns F o0 ->
  f_clear fuel F s = None.
Proof.
  intros B E O0 R HN HF. unfold items, values in E.
  destruct (map_eq_app _ _ _ _ E) as (a & e & En & Ea & Ee). destruct e as [|[i o] [|? ?]]; cbn [map snd] in Ee; [discriminate| |discriminate].
  injection Ee as ->. destruct (dying s a i o0 [] B En R) as (No & NA & _ & ZA & _ & HH & G).
  assert (C0 : clear_loop (length a + fuel) F (begin_ (nds s)) s = None).
  { destruct (clear_upto F s a i o0 [] fuel B En R) as (s1 & C & N1 & F1 & R1 & H1 & S1 & L1).
    - intros p t Hp. apply HF. assert (Hp0 : p <> 0) by (intros ->; contradiction).
      destruct (Z.lt_trichotomy p o0) as [|[->|Hlt]]; [assumption|contradiction|]. exfalso. specialize (HN p Hlt).
      destruct (G p Hp0) as [G1 G2]. cbn [map] in G1. change (occ [] p) with 0 in G1. pose proof (occ_in _ _ Hp). pose proof (occ_nonneg (srcs s) p). pose proof (occ_nonneg [o0] p). lia.
    - rewrite C. apply (respawn F o0 HF fuel o0 (wiped a) i s1 N1 L1 O0 ltac:(lia)).
      + rewrite R1, R. assert (occ (map snd a) o0 = 0). { pose proof (occ_nonneg (map snd a) o0). destruct (Z.eq_dec (occ (map snd a) o0) 0); [assumption|]. exfalso. apply NA, occ_pos. lia. } lia.
      + intros n Hn. rewrite R1. specialize (HN n Hn). destruct (G n ltac:(lia)) as [G1 G2]. cbn [map] in G1. change (occ [] n) with 0 in G1. pose proof (occ_nonneg (srcs s) n). pose proof (occ_nonneg [o0] n). pose proof (occ_nonneg (map snd a) n). lia. }
  unfold f_clear. destruct (clear_loop fuel F (begin_ (nds s)) s) as [r|] eqn:E1; [|reflexivity].
  rewrite (clear_loop_fuel F fuel (length a + fuel) _ _ _ ltac:(lia) E1) in C0. discriminate.
Qed.

(** ** remove *)
Lemma remove_balanced F o s : o <> 0 -> balanced s -> 1 <= held s o ->
  match occurrences (items s) o with
  | [] => f_remove F o s = Raise ValueError
  | k :: _ => exists i, nth_error (nodes (nds s)) (Z.to_nat k) = Some (i, o) /\
      f_remove F o s = Ret (with_refs (upd (refs s) o (refs s o - 1)) (with_nds (without i (nds s)) s))
  end.
Proof.
  intros No B H. destruct (balanced_ok s B) as (L & X & SK). unfold f_remove.
  pose (l := {| lst := nds s; modc := 0 |}). pose proof (find_all l o L) as FA. cbn [lst l] in FA. rewrite FA. cbn [obind].
  change (vals l) with (items s). pose proof (occurrences_head (items s) o) as OH.
  assert (FF : forall m, (forall x, 0 <= x < zlen m -> get_default m x <> o) -> find_from (fun x => x =? o) m = length m).
  { intros m. induction m as [|y m IH]; intros Hm; cbn [find_from length]; [reflexivity|]. destruct (Z.eqb_spec y o) as [Ey|].
    - exfalso. apply (Hm 0); [rewrite zlen_cons; pose proof (zlen_nonneg m); lia|]. exact Ey.
    - rewrite IH; [reflexivity|]. intros x Hx. specialize (Hm (x + 1)). rewrite zlen_cons in Hm. specialize (Hm ltac:(lia)).
      unfold get_default in *. replace (Z.to_nat (x + 1)) with (S (Z.to_nat x)) in Hm by lia. exact Hm. }
  assert (FK : forall m k, 0 <= k < zlen m -> get_default m k = o -> (forall x, 0 <= x < k -> get_default m x <> o) -> find_from (fun x => x =? o) m = Z.to_nat k).
  { intros m. induction m as [|y m IH]; intros k Hk E Hm; cbn [find_from]; [change (zlen (@nil Z)) with 0 in Hk; lia|].
    destruct (Z.eq_dec k 0) as [->|K0].
    - cbn in E. subst y. rewrite Z.eqb_refl. reflexivity.
    - destruct (Z.eqb_spec y o) as [Ey|]; [exfalso; apply (Hm 0); [lia|exact Ey]|]. rewrite zlen_cons in Hk.
      rewrite (IH (k - 1)); [lia|lia| |].
      + unfold get_default in *. replace (Z.to_nat k) with (S (Z.to_nat (k - 1))) in E by lia. exact E.
      + intros x Hx. specialize (Hm (x + 1) ltac:(lia)). unfold get_default in *. replace (Z.to_nat (x + 1)) with (S (Z.to_nat x)) in Hm by lia. exact Hm. }
  destruct (occurrences (items s) o) as [|k r].
  - rewrite (FF _ OH). unfold items. rewrite <- size_values, itpos_end by lia. reflexivity.
  - destruct OH as (Hk & E & Hm). rewrite (FK _ k Hk E Hm).
    assert (Hs : (Z.to_nat k < size (nds s))%nat) by (pose proof (size_zlen s); lia).
    destruct (nth_error (nodes (nds s)) (Z.to_nat k)) as [[i v]|] eqn:N; [|apply nth_error_None in N; unfold size in Hs; lia].
    assert (v = o). { unfold get_default, items, values in E. rewrite (nth_error_nth _ _ 0 (map_nth_error snd _ _ N)) in E. exact E. } subst v.
    exists i. split; [reflexivity|]. unfold itpos, id_at. rewrite N. cbn [option_map fst it_eqb end_].
    destruct (node_at s k i o N) as (a & c & Ea & La). rewrite (erase_at _ a i o c (proj1 L) Ea). cbn [obind].
    assert (NW : without i (nds s) = {| nodes := a ++ c; fresh := fresh (nds s) |}).
    { destruct L as [D _]. unfold ids in D. destruct (nds s) as [ns f]. cbn [nodes fresh] in *. subst ns. apply without_mid. exact D. }
    unfold release. cbn [refs with_nds]. destruct (Z.eqb_spec o 0); [contradiction|].
    assert (R : 1 < refs s o).
    { specialize (SK o No). unfold slack in SK. assert (1 <= occ (items s) o) by (rewrite (items_nodes s _ Ea); apply occ_mid). pose proof (occ_nonneg (srcs s) o). lia. }
    destruct (Z.leb_spec (refs s o) 0); [lia|]. destruct (Z.eqb_spec (refs s o) 1); [lia|]. rewrite NW. reflexivity.
Qed.

(** ** Without finalizers: the model of C35 *)
Definition quiet : nfins := fun _ t => inl t.
Lemma release_quiet o s : release quiet o s = omap (fun c => with_refs c s) (decref o (refs s)).
Proof.
  unfold release, decref, quiet. destruct (o =? 0); [reflexivity|]. destruct (Z.leb_spec (refs s o) 0); [reflexivity|].
  destruct (refs s o =? 1); reflexivity.
Qed.
Definition as_call (r : outcome nst) (s : nst) (l : ll) : nres :=
  match r with
  | Ret t => (Ret ONone, (put l (nds t), refs t)) | Raise e => (Raise e, (l, refs s))
  | RetPending _ e => (Raise e, (l, refs s)) | Undef u => (Undef u, (l, refs s))
  end.
Lemma decref_cases o rc : (exists r, decref o rc = Ret r) \/ exists u, decref o rc = Undef u.
Proof. unfold decref. destruct (o =? 0); [eauto|]. destruct (rc o <=? 0); eauto. Qed.
Lemma quiet_del x s l : linked s -> lst l = nds s -> as_call (f_del quiet x s) s l = l_setitem x None l (refs s).
Proof.
  intros L El. unfold l_setitem, lsize. rewrite El, size_zlen. set (k := if x <? 0 then zlen (items s) + x else x).
  destruct (Z.ltb_spec k 0) as [K|K]; [|destruct (Z.leb_spec (zlen (items s)) k) as [K2|K2]]; cbn [orb].
  - unfold f_del. rewrite size_zlen. fold k. destruct (Z.ltb_spec k 0); [reflexivity|lia].
  - unfold f_del. rewrite size_zlen. fold k. destruct (Z.ltb_spec k 0); [lia|]. destruct (Z.leb_spec (zlen (items s)) k); [reflexivity|lia].
  - destruct (del_start quiet x k s) as (a & i & o & c & E & La & ->); [unfold k, rel; destruct (x <? 0); lia|lia|exact L|].
    rewrite <- La, (at_at _ a i o c L E). cbn [owith]. unfold safe_decref. rewrite (deref_at _ a i o c (proj1 L) E), (erase_at _ a i o c (proj1 L) E). cbn [obind].
    rewrite release_quiet. destruct (decref_cases o (refs s)) as [[r D]|[u D]]; rewrite D; cbn [omap obind owith as_call nds with_refs]; [|reflexivity].
    rewrite (assign_at _ a i o c 0 (proj1 L) E). cbn [obind nds with_nds]. pose proof (linked_set s a i o 0 c L E) as L2.
    rewrite (erase_at {| nodes := a ++ (i, 0) :: c; fresh := fresh (nds s) |} a i 0 c (proj1 L2) eq_refl). reflexivity.
Qed.
Lemma quiet_loop : forall c a s n, nodes (nds s) = a ++ c -> linked s -> (length c <= n)%nat ->
  match decref_all (map snd c) (refs s) with
  | Ret r => exists s', clear_loop n quiet (id_at c 0) s = Some (Ret s') /\ refs s' = r /\ fresh (nds s') = fresh (nds s)
  | x => exists u, x = Undef u /\ clear_loop n quiet (id_at c 0) s = Some (Undef u)
  end.
Proof.
  induction c as [|[i o] c IH]; intros a s n E L Hn; cbn [map snd decref_all].
  - exists s. destruct n; cbn; auto.
  - destruct n as [|n]; [cbn in Hn; lia|]. cbn [clear_loop id_at nth_error option_map it_eqb fst end_].
    unfold safe_decref. rewrite (deref_at _ a i o c (proj1 L) E). cbn [obind]. rewrite release_quiet.
    destruct (decref_cases o (refs s)) as [[r D]|[u D]]; rewrite D; cbn [omap obind nds with_refs]; [|exists u; auto].
    rewrite (assign_at _ a i o c 0 (proj1 L) E). cbn [obind nds with_nds]. pose proof (linked_set s a i o 0 c L E) as L2.
    rewrite (next_at {| nodes := a ++ (i, 0) :: c; fresh := fresh (nds s) |} a i 0 c (proj1 L2) eq_refl). cbn [obind].
    specialize (IH (a ++ [(i, 0)]) (with_nds {| nodes := a ++ (i, 0) :: c; fresh := fresh (nds s) |} (with_refs r s)) n).
    cbn [nds with_nds with_refs nodes refs fresh] in IH. rewrite <- app_assoc in IH. apply IH; [reflexivity|exact L2|cbn in Hn; lia].
Qed.
Lemma quiet_clear s l fuel : linked s -> lst l = nds s -> (length (items s) <= fuel)%nat ->
  exists r, f_clear fuel quiet s = Some r /\ as_call r s l = l_clear l (refs s).
Proof.
  intros L El Hf. unfold items, values in Hf. rewrite map_length in Hf. pose proof (quiet_loop (nodes (nds s)) [] s fuel eq_refl L Hf) as Q.
  unfold f_clear, l_clear, begin_. rewrite El. unfold values. destruct (decref_all (map snd (nodes (nds s))) (refs s)) as [r| | |u].
  - destruct Q as (s' & -> & R & Fr). cbn [option_map obind]. eexists. split; [reflexivity|]. cbn. rewrite R. unfold clear_. rewrite Fr. reflexivity.
  - destruct Q as (u & ? & _). discriminate.
  - destruct Q as (u & ? & _). discriminate.
  - destruct Q as (u' & E & ->). injection E as ->. eexists. split; [reflexivity|]. reflexivity.
Qed.

(** ** x[i] *)
Lemma fget_ok i s : balanced s -> - zlen (items s) <= i < zlen (items s) ->
  exists o s', znth (items s) (if i <? 0 then zlen (items s) + i else i) = Some o /\ f_get i s = Ret s' /\ balanced s' /\
    nds s' = nds s /\ srcs s' = srcs s /\ forall p, held s' p = held s p + occ [o] p /\ refs s' p = refs s p + occ [o] p.
Proof.
  intros B Hi. pose proof B as (L & SL & NI & NS). set (k := if i <? 0 then zlen (items s) + i else i).
  assert (Hk : 0 <= k < zlen (items s)) by (unfold k; destruct (Z.ltb_spec i 0); lia).
  assert (SZ : Z.of_nat (size (nds s)) = zlen (items s)) by (unfold size, zlen, items, values; rewrite map_length; reflexivity).
  assert (Hlt : (Z.to_nat k < length (nodes (nds s)))%nat) by (unfold size in SZ; lia).
  destruct (nth_error (nodes (nds s)) (Z.to_nat k)) as [[j o]|] eqn:Hn; [|apply nth_error_None in Hn; lia].
  destruct (nth_error_split _ _ Hn) as (a & c & E & La).
  assert (Io : In o (items s)) by (rewrite (items_nodes s _ E), map_app; apply in_or_app; right; left; reflexivity).
  assert (No : o <> 0) by (intros ->; contradiction).
  assert (Ro : 0 < refs s o).
  { destruct (SL o No) as (SL1 & SL2). unfold slack in SL2. apply occ_in in Io. pose proof (occ_nonneg (srcs s) o). lia. }
  exists o. eexists. split.
  { unfold znth. destruct (Z.ltb_spec k 0); [lia|]. rewrite (items_nodes s _ E), map_app, nth_error_app2; rewrite map_length, La; [|lia].
    rewrite Nat.sub_diag. reflexivity. }
  unfold f_get. rewrite SZ. fold k. destruct (Z.ltb_spec k 0); [lia|]. destruct (Z.leb_spec (zlen (items s)) k); [lia|]. cbn [orb].
  rewrite <- La, (at_at _ a j o c L E). cbn [obind]. rewrite (deref_at _ a j o c (proj1 L) E). cbn [obind].
  unfold incref. destruct (Z.eqb_spec o 0); [contradiction|]. destruct (Z.leb_spec (refs s o) 0); [lia|]. cbn [obind].
  split; [reflexivity|].
  assert (K : forall (f : counts) p, upd f o (f o + 1) p = f p + occ [o] p).
  { intros f p. unfold upd. cbn [occ]. rewrite (Z.eqb_sym o p). destruct (Z.eqb_spec p o) as [->|]; lia. }
  split; [|cbn [nds srcs held refs]; auto]. split; [exact L|]. split; [|split; assumption].
  intros p Hp. destruct (SL p Hp) as (SL1 & SL2). unfold slack, items in *. cbn [nds srcs held refs]. rewrite !K. pose proof (occ_nonneg [o] p). lia.
Qed.
