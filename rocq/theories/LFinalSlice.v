(** Proofs for C75: slice assignment. *)
From Coq Require Import ZArith List Bool Lia Arith.
From Verif Require Import Base PyListSpec ListLemmas ArrayListModel ArrayListProofs StdListModel StdListProofs LinkedListModel LinkedListProofs ObjModel ObjSpec ObjLemmas ObjLinkedModel ObjLinkedProofs ObjArrayProofs LinkSliceSpec LinkSliceProofs LFinalModel LFinalSpec LFinalProofs LFinalMore.
Import ListNotations.
Local Open Scope Z_scope.
Local Arguments Z.pow : simpl never.
Local Arguments Z.add : simpl never.
Local Arguments Z.sub : simpl never.
Local Arguments Z.mul : simpl never.

(** A state in the middle of a call: every reference is still owned. *)
Definition sane (ys : list Z) (s : nst) : Prop :=
  linked s /\ srcs s = ys /\ held_ok s /\ (forall p, p <> 0 -> slack s p = 0) /\ ~ In 0 (items s).
Lemma balanced_sane s : balanced s <-> sane (srcs s) s /\ ~ In 0 (srcs s).
Proof.
  unfold balanced, sane, held_ok. split.
  - intros (L & B & N & M). split; [|exact M]. split; [exact L|]. split; [reflexivity|]. split; [intros p Hp; apply B, Hp|]. split; [intros p Hp; apply B, Hp|exact N].
  - intros ((L & _ & H & S & N) & M). auto.
Qed.
Lemma items_split s v w : items s = v ++ w -> exists a c, nodes (nds s) = a ++ c /\ map snd a = v /\ map snd c = w.
Proof. apply map_eq_app. Qed.
Lemma notin_app {A} (x : A) l m : ~ In x (l ++ m) <-> ~ In x l /\ ~ In x m.
Proof. rewrite in_app_iff. tauto. Qed.

Section Appending.
Context (Q : list Z -> Prop) (F : nfins) (ys : list Z).
Context (RQ : runs Q) (HF : appends Q F) (NY : ~ In 0 ys).

(** SAFE_DECREF of an element that is then replaced or erased. *)
Lemma decref_mid s a i o c : sane ys s -> nodes (nds s) = a ++ (i, o) :: c ->
  exists s1 m, safe_decref F (Some i) s = Ret s1 /\ Q (map snd m) /\ nodes (nds s1) = a ++ (i, 0) :: c ++ m /\ linked s1 /\ srcs s1 = ys /\ held_ok s1 /\
    (forall p, p <> 0 -> slack s1 p = 0) /\ ~ In 0 (map snd a) /\ ~ In 0 (map snd (c ++ m)).
Proof.
  intros (L & Sr & X & S & N) E. destruct RQ as (Q0 & QA & QN). pose proof N as N'. rewrite (items_nodes s _ E), map_app in N'. cbn [map snd] in N'.
  apply notin_app in N'. destruct N' as [Na Nc]. cbn [In] in Nc. assert (NZ : o <> 0) by tauto.
  destruct (safe_decref_ok F _ (around_appends Q F Q0 HF) s a i o c E ltac:(tauto) NZ L X) as (t & a' & c' & SD & C & E' & (-> & m & -> & Qm) & L1 & S1 & X1 & K1).
  { intros p Hp. rewrite S by exact Hp. lia. }
  eexists _, m. split; [exact SD|]. split; [exact Qm|]. split; [reflexivity|]. split; [exact (linked_set t a i o 0 _ L1 E')|]. split; [cbn; congruence|]. split; [exact X1|]. split; [|split; [exact Na|]].
  - intros p Hp. rewrite slack_clear0 by assumption. rewrite K1, S by exact Hp. lia.
  - rewrite map_app. apply notin_app. split; [tauto|]. apply QN, Qm.
Qed.

Lemma drop_ok : forall q1 a q2 s, sane ys s -> nodes (nds s) = a ++ q1 ++ q2 ->
  exists s' m, f_drop F (length q1) (id_at (q1 ++ q2) 0) s = (Ret tt, s') /\ Q (map snd m) /\ nodes (nds s') = a ++ q2 ++ m /\ sane ys s'.
Proof.
  induction q1 as [|[i o] q1 IH]; intros a q2 s K E; cbn [length f_drop].
  - exists s, []. rewrite app_nil_r. cbn [app] in E. split; [reflexivity|]. split; [apply RQ|]. auto.
  - cbn [app] in E. cbn [app id_at nth_error option_map fst]. destruct (decref_mid s a i o (q1 ++ q2) K E) as (s1 & m & SD & Qm & N1 & L1 & S1 & X1 & K1 & Za & Zc).
    rewrite SD. cbn [obind]. rewrite (next_at _ a i 0 _ (proj1 L1) N1), (erase_at _ a i 0 _ (proj1 L1) N1). cbn [obind].
    rewrite <- app_assoc. destruct (IH a (q2 ++ m) (with_nds {| nodes := a ++ (q1 ++ q2) ++ m; fresh := fresh (nds s1) |} s1)) as (s' & m' & D & Qm' & N' & K').
    + split; [exact (linked_cut s1 a i 0 _ L1 N1)|]. split; [exact S1|]. split; [exact X1|]. split.
      * intros p Hp. rewrite slack_nds, K1 by exact Hp. rewrite (items_nodes s1 _ N1). unfold values. cbn [nodes]. rewrite !map_app, !occ_app. cbn [map snd]. rewrite !map_app. cbn [occ]. rewrite !occ_app.
        destruct (Z.eqb_spec 0 p); [congruence|]. lia.
      * unfold items, values. cbn [nds with_nds nodes]. rewrite map_app. apply notin_app. auto.
    + cbn [nds with_nds nodes]. rewrite <- !app_assoc. reflexivity.
    + exists s', (m ++ m'). split; [rewrite !app_assoc in *; exact D|]. split; [rewrite map_app; apply RQ; assumption|]. split; [rewrite N', <- !app_assoc; reflexivity|exact K'].
Qed.

Lemma insert_at_mid (l : slist Z) a c v : NoDup (ids l) -> nodes l = a ++ c ->
  insert_ l (id_at c 0) v = Ret {| nodes := a ++ (fresh l, v) :: c; fresh := S (fresh l) |}.
Proof.
  intros N E. unfold insert_. destruct c as [|[i o] c]; cbn [id_at nth_error option_map fst].
  - rewrite app_nil_r in E. unfold size. rewrite E, firstn_all, skipn_all. reflexivity.
  - rewrite (pos_mid l a i o c N E), E, firstn_at. do 2 f_equal. f_equal. f_equal. clear. induction a; cbn; auto.
Qed.
Lemma get_ok s i o : sane ys s -> znth ys i = Some o -> get_item i s = Ret (o, with_refs (upd (refs s) o (refs s o + 1)) s) /\ o <> 0.
Proof.
  intros (L & Sr & X & S & N) E. assert (IO : In o ys) by (unfold znth in E; destruct (i <? 0); [discriminate|]; eapply nth_error_In; exact E).
  assert (NZ : o <> 0) by (intros ->; contradiction). split; [|exact NZ]. unfold get_item. rewrite Sr, E. unfold incref. destruct (Z.eqb_spec o 0); [contradiction|].
  specialize (X o NZ). specialize (S o NZ). unfold slack in S. rewrite Sr in S. pose proof (occ_in _ _ IO). pose proof (occ_nonneg (items s) o).
  destruct (Z.leb_spec (refs s o) 0); [lia|]. reflexivity.
Qed.
Lemma grow_ok n : forall i a c s, sane ys s -> nodes (nds s) = a ++ c -> 0 <= i -> i + Z.of_nat n = zlen ys ->
  exists s' new, f_grow n i (id_at c 0) s = (Ret tt, s') /\ nodes (nds s') = a ++ new ++ c /\ map snd new = skipn (Z.to_nat i) ys /\ sane ys s' /\ held s' = held s.
Proof.
  induction n as [|n IH]; intros i a c s K E Hi Hn; cbn [f_grow].
  - exists s, []. split; [reflexivity|]. split; [exact E|]. split; [|split; [exact K|reflexivity]]. rewrite skipn_all2 by (unfold zlen in Hn; lia). reflexivity.
  - destruct (znth ys i) as [o|] eqn:EO; [|rewrite znth_default in EO by lia; discriminate].
    destruct (get_ok s i o K EO) as [G NZ]. rewrite G. cbn [obind nds with_refs]. destruct K as (L & Sr & X & S & N).
    rewrite (insert_at_mid _ a c o (proj1 L) E). cbn [obind].
    set (s1 := with_nds {| nodes := a ++ (fresh (nds s), o) :: c; fresh := Datatypes.S (fresh (nds s)) |} (with_refs (upd (refs s) o (refs s o + 1)) s)).
    assert (K1 : sane ys s1).
    { split; [|split; [exact Sr|split; [exact X|split]]].
      - destruct L as [D Fr]. unfold linked, ids, s1 in *. cbn [nds with_nds nodes fresh]. rewrite E, map_app in D, Fr. rewrite map_app. cbn [map fst]. split.
        + apply NoDup_insert; [exact D|]. intros HI. rewrite Forall_forall in Fr. specialize (Fr _ HI). lia.
        + apply Forall_app in Fr. destruct Fr as [F1 F2]. apply Forall_app. split; [|constructor; [lia|]]; eapply Forall_impl; try eassumption; cbn; intros; lia.
      - intros p Hp. unfold s1. rewrite slack_nds, slack_refs, upd_plus, S by exact Hp. change (items (with_refs (upd (refs s) o (refs s o + 1)) s)) with (items s).
        rewrite (items_nodes s _ E). unfold values. cbn [nodes]. rewrite !map_app, !occ_app. cbn [map snd occ]. lia.
      - unfold s1, items, values. cbn [nds with_nds nodes]. rewrite (items_nodes s _ E), map_app in N. rewrite map_app. cbn [map snd]. rewrite notin_app in *. cbn [In]. tauto. }
    destruct (IH (i + 1) (a ++ [(fresh (nds s), o)]) c s1 K1) as (s' & new & D & N' & V' & K' & H'); [unfold s1; cbn [nds with_nds nodes]; rewrite <- app_assoc; reflexivity|lia|lia|].
    exists s', ((fresh (nds s), o) :: new). split; [exact D|]. split; [rewrite N', <- app_assoc; reflexivity|]. split; [|split; [exact K'|exact H']].
    cbn [map snd]. rewrite V'. unfold znth in EO. destruct (Z.ltb_spec i 0); [lia|]. rewrite (skipn_nth _ _ _ EO). replace (Z.to_nat (i + 1)) with (Datatypes.S (Z.to_nat i)) by lia. reflexivity.
Qed.

Lemma over_ok start step n : -1 <= start <= SSIZE_MAX -> forall i s v m v', sane ys s -> items s = v ++ m -> zlen v <= SSIZE_MAX -> 0 <= i -> i + Z.of_nat n = zlen ys ->
  place_all v (start + i * step) step (skipn (Z.to_nat i) ys) = Some v' ->
  exists s' m', f_over F n i start step s = (Ret tt, s') /\ Q m' /\ items s' = v' ++ m ++ m' /\ sane ys s'.
Proof.
  intros Hst. destruct ssize_consts as [EA EB]. induction n as [|n IH]; intros i s v m v' K V Hv Hi Hn PL; cbn [f_over].
  - rewrite skipn_all2 in PL by (unfold zlen in Hn; lia). cbn [place_all] in PL. injection PL as <-. exists s, []. rewrite app_nil_r. split; [reflexivity|]. split; [apply RQ|]. auto.
  - destruct (znth ys i) as [o|] eqn:EO; [|rewrite znth_default in EO by lia; discriminate].
    pose proof EO as EO'. unfold znth in EO'. destruct (Z.ltb_spec i 0); [lia|]. rewrite (skipn_nth _ _ _ EO') in PL. cbn [place_all] in PL.
    destruct (place v (start + i * step) o) as [v1|] eqn:P1; [|discriminate]. pose proof (place_len _ _ _ _ P1) as [B1 B2]. set (idx := start + i * step) in *.
    rewrite ssz_ok by (subst idx; rewrite EA, EB in *; lia). cbn [obind]. rewrite ssz_ok by (subst idx; rewrite EA, EB in *; lia). cbn [obind]. fold idx.
    unfold at_z. destruct (Z.ltb_spec idx 0); [lia|].
    destruct (zsplit v idx B1) as (va & x & vc & Ev & La). rewrite Ev, <- app_assoc in V. cbn [app] in V.
    destruct (items_split s va (x :: vc ++ m) V) as (a & c0 & En & Ea & Ec). destruct c0 as [|[j x'] c]; cbn [map snd] in Ec; [discriminate|]. injection Ec as -> Ec.
    assert (Lz : Z.to_nat idx = length a) by (rewrite <- La, <- Ea; unfold zlen; rewrite map_length; lia). rewrite Lz, (at_at _ a j x c (proj1 K) En). cbn [obind].
    destruct (get_ok s i o K EO) as [G NZ]. rewrite G. cbn [obind].
    (* the state with the new reference in hand: slack of the item is 1 *)
    pose (s0 := with_refs (upd (refs s) o (refs s o + 1)) s). destruct RQ as (Q0 & QA & QN).
    assert (Na : ~ In 0 (map snd a) /\ x <> 0 /\ ~ In 0 (map snd c)).
    { destruct K as (_ & _ & _ & _ & N). rewrite (items_nodes s _ En), map_app in N. cbn [map snd] in N. rewrite notin_app in N. cbn [In] in N. tauto. }
    destruct Na as (Na & Nx & Nc). destruct K as (L & Sr & X & S & N).
    assert (S0 : forall p, p <> 0 -> slack s0 p = occ [o] p) by (intros p Hp; unfold s0; rewrite slack_refs, upd_plus, S by exact Hp; lia).
    destruct (safe_decref_ok F _ (around_appends Q F Q0 HF) s0 a j x c En Nc Nx L X) as (t & a' & c' & SD & C & E' & (-> & mm & -> & Qm) & L1 & S1 & X1 & K1).
    { intros p Hp. rewrite S0 by exact Hp. apply occ_nonneg. }
    fold s0. rewrite SD. cbn [obind nds with_nds]. pose proof (linked_set t a j x 0 (c ++ mm) L1 E') as L2.
    rewrite (assign_at {| nodes := a ++ (j, 0) :: c ++ mm; fresh := fresh (nds t) |} a j 0 (c ++ mm) o (proj1 L2) eq_refl). cbn [obind fresh].
    set (s1 := with_nds {| nodes := a ++ (j, o) :: c ++ mm; fresh := fresh (nds t) |} (with_nds {| nodes := a ++ (j, 0) :: c ++ mm; fresh := fresh (nds t) |} (dec x t))).
    assert (I1 : items s1 = v1 ++ m ++ map snd mm).
    { unfold s1, items, values. cbn [nds with_nds nodes]. rewrite map_app. cbn [map snd]. rewrite map_app, Ea, Ec.
      unfold place in P1. destruct ((0 <=? idx) && (idx <? zlen v)); [|discriminate]. injection P1 as <-. rewrite Ev.
      replace (Z.to_nat idx) with (length va) by (rewrite <- La; unfold zlen; lia). rewrite firstn_app_len. replace (length va + 1)%nat with (Datatypes.S (length va)) by lia. rewrite skipn_app_S.
      repeat (rewrite <- app_assoc; cbn [app]). reflexivity. }
    assert (K2 : sane ys s1).
    { split; [exact (linked_set _ a j 0 o (c ++ mm) L2 eq_refl)|]. split; [cbn; rewrite S1; exact Sr|]. split; [exact X1|]. split.
      - intros p Hp. unfold s1. rewrite slack_nds, slack_clear0 by assumption. rewrite K1, S0 by exact Hp. unfold items, values. cbn [nds with_nds nodes]. rewrite !map_app, !occ_app. cbn [map snd occ].
        destruct (Z.eqb_spec 0 p); [congruence|]. lia.
      - unfold s1, items, values. cbn [nds with_nds nodes]. rewrite map_app. cbn [map snd]. rewrite map_app, notin_app. cbn [In]. rewrite in_app_iff. specialize (QN _ Qm). tauto. }
    destruct (IH (i + 1) s1 v1 (m ++ map snd mm) v' K2 I1) as (s' & m' & O & Qm' & I' & K'); [lia|lia|lia| |].
    { replace (start + (i + 1) * step) with (idx + step) by (unfold idx; lia). replace (Z.to_nat (i + 1)) with (Datatypes.S (Z.to_nat i)) by lia. exact PL. }
    exists s', (map snd mm ++ m'). split; [exact O|]. split; [auto|]. split; [rewrite I', <- !app_assoc; reflexivity|exact K'].
Qed.
End Appending.

(** ** Polite finalizers where the assignment runs out of the list *)
Section Polite.
Context (F : nfins) (ys : list Z) (HF : polite F) (NY : ~ In 0 ys).
Lemma drop_short : forall b a n s, sane ys s -> nodes (nds s) = a ++ b -> (length b < n)%nat ->
  exists u, fst (f_drop F n (id_at b 0) s) = Undef u.
Proof.
  induction b as [|[i o] b IH]; intros a n s K E Hn; destruct n as [|n]; try (cbn in Hn; lia); cbn [f_drop].
  - cbn. eauto.
  - cbn [id_at nth_error option_map fst]. destruct (decref_mid none F ys runs_none HF s a i o b K E) as (s1 & m & SD & Qm & N1 & L1 & S1 & X1 & K1 & Za & Zc).
    apply map_eq_nil in Qm. subst m. rewrite app_nil_r in *. rewrite SD. cbn [obind]. rewrite (next_at _ a i 0 _ (proj1 L1) N1), (erase_at _ a i 0 _ (proj1 L1) N1). cbn [obind].
    apply (IH a); [|reflexivity|cbn in Hn; lia]. split; [exact (linked_cut s1 a i 0 _ L1 N1)|]. split; [exact S1|]. split; [exact X1|]. split.
    + intros p Hp. rewrite slack_nds, K1 by exact Hp. rewrite (items_nodes s1 _ N1). unfold values. cbn [nodes]. rewrite !map_app, !occ_app. cbn [map snd occ]. destruct (Z.eqb_spec 0 p); [congruence|]. lia.
    + unfold items, values. cbn [nds with_nds nodes]. rewrite map_app. apply notin_app. auto.
Qed.
Lemma over_out start step n : -1 <= start <= SSIZE_MAX -> forall i s, sane ys s -> zlen (items s) <= SSIZE_MAX -> 0 <= i -> i + Z.of_nat n = zlen ys ->
  place_all (items s) (start + i * step) step (skipn (Z.to_nat i) ys) = None -> exists u, fst (f_over F n i start step s) = Undef u.
Proof.
  intros Hst. induction n as [|n IH]; intros i s K Hv Hi Hn PL.
  - rewrite skipn_all2 in PL by (unfold zlen in Hn; lia). discriminate.
  - destruct (znth ys i) as [o|] eqn:EO; [|rewrite znth_default in EO by lia; discriminate].
    pose proof EO as EO'. unfold znth in EO'. destruct (Z.ltb_spec i 0); [lia|]. rewrite (skipn_nth _ _ _ EO') in PL. cbn [place_all] in PL.
    destruct (place (items s) (start + i * step) o) as [v1|] eqn:P1.
    + (* one item is stored: as in the case of one item *)
      assert (ONE : place_all (items s) (start + i * step) step [o] = Some v1) by (cbn [place_all]; rewrite P1; reflexivity).
      assert (ST : exists s1, obind (obind (ssz (i * step)) (fun is_ => obind (ssz (start + is_)) (at_z (nds s)))) (fun it =>
            obind (get_item i s) (fun '(o, s) => obind (safe_decref F it s) (fun s =>
            obind (assign (nds s) it o) (fun l => Ret (with_nds l s))))) = Ret s1 /\ items s1 = v1 /\ sane ys s1).
      { destruct ssize_consts as [EA EB]. pose proof (place_len _ _ _ _ P1) as [B1 B2]. set (idx := start + i * step) in *.
        rewrite ssz_ok by (subst idx; rewrite EA, EB in *; lia). cbn [obind]. rewrite ssz_ok by (subst idx; rewrite EA, EB in *; lia). cbn [obind]. fold idx.
        unfold at_z. destruct (Z.ltb_spec idx 0); [lia|].
        destruct (zsplit (items s) idx B1) as (va & x & vc & Ev & La).
        destruct (items_split s va (x :: vc) Ev) as (a & c0 & En & Ea & Ec). destruct c0 as [|[j x'] c]; cbn [map snd] in Ec; [discriminate|]. injection Ec as -> Ec.
        assert (Lz : Z.to_nat idx = length a) by (rewrite <- La, <- Ea; unfold zlen; rewrite map_length; lia). rewrite Lz, (at_at _ a j x c (proj1 K) En). cbn [obind].
        destruct (get_ok ys NY s i o K EO) as [G NZ]. rewrite G. cbn [obind].
        pose (s0 := with_refs (upd (refs s) o (refs s o + 1)) s).
        assert (Na : ~ In 0 (map snd a) /\ x <> 0 /\ ~ In 0 (map snd c)).
        { destruct K as (_ & _ & _ & _ & N). rewrite (items_nodes s _ En), map_app in N. cbn [map snd] in N. rewrite notin_app in N. cbn [In] in N. tauto. }
        destruct Na as (Na & Nx & Nc). destruct K as (L & Sr & X & S & N).
        assert (S0 : forall p, p <> 0 -> slack s0 p = occ [o] p) by (intros p Hp; unfold s0; rewrite slack_refs, upd_plus, S by exact Hp; lia).
        destruct (safe_decref_ok F _ (around_appends none F eq_refl HF) s0 a j x c En Nc Nx L X) as (t & a' & c' & SD & C & E' & (-> & mm & -> & Qm) & L1 & S1 & X1 & K1).
        { intros p Hp. rewrite S0 by exact Hp. apply occ_nonneg. }
        apply map_eq_nil in Qm. subst mm. rewrite app_nil_r in *.
        fold s0. rewrite SD. cbn [obind nds with_nds]. pose proof (linked_set t a j x 0 c L1 E') as L2.
        rewrite (assign_at {| nodes := a ++ (j, 0) :: c; fresh := fresh (nds t) |} a j 0 c o (proj1 L2) eq_refl). cbn [obind fresh].
        eexists. split; [reflexivity|]. split.
        - unfold items, values. cbn [nds with_nds nodes]. rewrite map_app. cbn [map snd]. rewrite Ea, Ec.
          unfold place in P1. destruct ((0 <=? idx) && (idx <? zlen (items s))); [|discriminate]. injection P1 as <-. rewrite Ev.
          replace (Z.to_nat idx) with (length va) by (rewrite <- La; unfold zlen; lia). rewrite firstn_app_len. replace (length va + 1)%nat with (Datatypes.S (length va)) by lia. rewrite skipn_app_S. reflexivity.
        - split; [exact (linked_set _ a j 0 o c L2 eq_refl)|]. split; [cbn; rewrite S1; exact Sr|]. split; [exact X1|]. split.
          + intros p Hp. rewrite slack_nds, slack_clear0 by assumption. rewrite K1, S0 by exact Hp. unfold items, values. cbn [nds with_nds nodes]. rewrite !map_app, !occ_app. cbn [map snd occ].
            destruct (Z.eqb_spec 0 p); [congruence|]. lia.
          + unfold items, values. cbn [nds with_nds nodes]. rewrite map_app. cbn [map snd]. rewrite notin_app. cbn [In]. tauto. }
      destruct ST as (s1 & ST & I1 & K1). cbn [f_over]. rewrite ST. apply (IH (i + 1) s1 K1).
      * rewrite I1. apply place_len in P1. lia.
      * lia.
      * lia.
      * rewrite I1. replace (start + (i + 1) * step) with (start + i * step + step) by lia. replace (Z.to_nat (i + 1)) with (Datatypes.S (Z.to_nat i)) by lia. exact PL.
    + cbn [f_over]. destruct (get_ok ys NY s i o K EO) as [G NZ].
      unfold ssz. destruct (in_sbits_b 64 (i * step)); [|cbn; eauto]. cbn [obind].
      destruct (in_sbits_b 64 (start + i * step)); [|cbn; eauto]. cbn [obind].
      assert (EN : at_z (nds s) (start + i * step) = Ret end_).
      { unfold at_z. destruct (Z.ltb_spec (start + i * step) 0); [reflexivity|]. rewrite at_pos by apply K. f_equal. apply itpos_end.
        rewrite size_values. change (values (nds s)) with (items s). unfold place in P1. destruct (Z.leb_spec 0 (start + i * step)); [|lia].
        destruct (Z.ltb_spec (start + i * step) (zlen (items s))); [discriminate|]. unfold zlen in *. lia. }
      rewrite EN. cbn [obind]. rewrite G. cbn. eauto.
Qed.
End Polite.

(** ** The whole assignment *)
Lemma setslice_parts F sl s : linked s -> zlen (items s) + zlen (srcs s) <= SSIZE_MAX -> step_of sl <> 0 ->
  exists a b c step, a = first_of (items s) sl /\ b = last_of (items s) sl /\ c = slice_len (items s) sl /\ -1 <= a <= zlen (items s) /\ -1 <= b <= zlen (items s) /\ 0 <= c /\
    (forall v, zlen v <= SSIZE_MAX -> place_all v a (step_of sl) (srcs s) = place_all v a step (srcs s)) /\
    (zlen (srcs s) < c -> a + zlen (srcs s) * step = a + zlen (srcs s) * step_of sl /\ 0 <= a + zlen (srcs s) * step < zlen (items s)) /\
    f_setslice F sl s =
    andthen
        (if zlen (srcs s) <? c then
           match obind (ssz (zlen (srcs s) * step)) (fun x => obind (ssz (a + x)) (at_z (nds s))) with
           | Ret it => f_drop F (Z.to_nat (c - zlen (srcs s))) it s
           | x => failed x s
           end
         else if c <? zlen (srcs s) then
           match at_z (nds s) b with
           | Ret it => f_grow (Z.to_nat (zlen (srcs s) - c)) c it s
           | x => failed x s
           end
         else (Ret tt, s))
        (f_over F (Z.to_nat (zlen (srcs s))) 0 a step).
Proof.
  intros L Hz NZ. destruct (unpack_cases sl) as [[E _]|[_ (start & stop & step & U)]]; [contradiction|].
  pose proof (zlen_nonneg (srcs s)) as Hy. pose proof (zlen_nonneg (items s)) as Hv. destruct ssize_consts as [EA EB].
  assert (Hl : zlen (items s) <= SSIZE_MAX) by lia.
  pose proof (slice_positions_eq (length (items s)) sl start stop step Hl U) as P. fold (zlen (items s)) in P.
  unfold f_setslice. rewrite U, size_zlen.
  destruct (PySlice_AdjustIndices (zlen (items s)) start stop step) as [[a b] c] eqn:A.
  destruct P as (_ & P2 & P3).
  destruct (adjusted (items s) sl _ _ _ _ _ _ Hl U A) as [Ea Eb]. pose proof (slice_len_eq (items s) sl _ _ _ _ _ _ Hl U A) as Ec.
  assert (C0 : 0 <= c).
  { unfold PySlice_AdjustIndices in A. injection A as _ _ <-.
    destruct (Z.ltb_spec step 0); [destruct (_ <? _) eqn:Q; [|lia]; apply Z.ltb_lt in Q; assert (0 <= (adjust1 (zlen (items s)) start step - adjust1 (zlen (items s)) stop step - 1) / - step) by (apply Z.div_pos; lia); lia|].
    destruct (_ <? _) eqn:Q; [|lia]; apply Z.ltb_lt in Q. destruct (Z.eq_dec step 0) as [->|]; [rewrite Zdiv_0_r; lia|].
    assert (0 <= (adjust1 (zlen (items s)) stop step - adjust1 (zlen (items s)) start step - 1) / step) by (apply Z.div_pos; lia). lia. }
  rewrite Z.max_r in Ec by lia. pose proof (step_used sl _ _ _ U) as SU.
  exists a, b, c, step. split; [exact Ea|]. split; [exact Eb|]. split; [symmetry; exact Ec|].
  split; [rewrite Ea; unfold first_of; destruct (0 <? step_of sl), (sl_start sl); lia|].
  split; [rewrite Eb; unfold last_of; destruct (0 <? step_of sl), (sl_stop sl); lia|].
  split; [exact C0|]. split; [|split; [|reflexivity]].
  - intros v Hvv. destruct SU as [->|SU]; [reflexivity|]. apply place_all_far; [exact Hvv|]. lia.
  - intros LT. split; [|apply P2; lia]. destruct SU as [->|SU]; [reflexivity|]. assert (c <= 1 \/ 2 <= c) as [Q|Q] by lia; [replace (zlen (srcs s)) with 0 by lia; lia|].
    exfalso. pose proof (P2 0 ltac:(lia)). pose proof (P2 1 ltac:(lia)). lia.
Qed.

Lemma slice_appending Q F sl s r : runs Q -> appends Q F -> balanced s -> zlen (items s) + zlen (srcs s) <= SSIZE_MAX -> step_of sl <> 0 ->
  linked_setslice (items s) sl (srcs s) = Some r ->
  exists s' more, f_setslice F sl s = (Ret tt, s') /\ Q more /\ items s' = r ++ more /\ srcs s' = srcs s /\ balanced s'.
Proof.
  intros RQ HF B Hz NZ LS. pose proof B as B0. apply balanced_sane in B. destruct B as [K NY]. pose proof (zlen_nonneg (srcs s)) as Hy. destruct ssize_consts as [EA EB].
  destruct (setslice_parts F sl s (proj1 K) Hz NZ) as (a & b & c & step & Ea & Eb & Ec & Ba & Bb & C0 & PA & IDX & ->).
  unfold linked_setslice in LS. rewrite <- Ea, <- Eb, <- Ec in LS.
  assert (FIN : forall s1 v m, sane (srcs s) s1 -> items s1 = v ++ m -> Q m -> zlen v <= SSIZE_MAX -> place_all v a (step_of sl) (srcs s) = Some r ->
    exists s' more, f_over F (Z.to_nat (zlen (srcs s))) 0 a step s1 = (Ret tt, s') /\ Q more /\ items s' = r ++ more /\ srcs s' = srcs s /\ balanced s').
  { intros s1 v m K1 V1 Qm Hv PL. rewrite PA in PL by exact Hv.
    destruct (over_ok Q F (srcs s) RQ HF NY a step (Z.to_nat (zlen (srcs s))) ltac:(lia) 0 s1 v m r K1 V1 Hv ltac:(lia) ltac:(lia)) as (s' & m' & O & Qm' & I' & K').
    { rewrite Z.mul_0_l, Z.add_0_r. exact PL. }
    exists s', (m ++ m'). split; [exact O|]. split; [apply RQ; assumption|]. split; [exact I'|]. assert (Es : srcs s' = srcs s) by apply K'. split; [exact Es|].
    apply balanced_sane. rewrite Es. auto. }
  destruct (Z.ltb_spec (zlen (srcs s)) c) as [LT|GE].
  - destruct (IDX LT) as [I1 I2]. rewrite <- I1 in LS. set (idx := a + zlen (srcs s) * step) in *.
    rewrite ssz_ok by (subst idx; rewrite EA, EB in *; lia). cbn [obind]. rewrite ssz_ok by (subst idx; rewrite EA, EB in *; lia). cbn [obind].
    fold idx. unfold at_z. destruct (Z.ltb_spec idx 0); [lia|]. rewrite at_pos by apply K.
    unfold cut in LS. destruct (Z.leb_spec (idx + (c - zlen (srcs s))) (zlen (items s))) as [LE|GT]; [|discriminate].
    destruct (zsplit_le (items s) idx) as (p & q & Epq & Lp); [lia|].
    assert (ZL : zlen (items s) = zlen p + zlen q) by (rewrite Epq; apply zlen_app).
    destruct (zsplit_le q (c - zlen (srcs s))) as (q1 & q2 & Eq & Lq); [lia|]. subst q.
    destruct (items_split s p (q1 ++ q2) Epq) as (na & nc & En & Ep & Eq). destruct (map_eq_app _ _ _ _ Eq) as (n1 & n2 & -> & E1 & E2).
    destruct (drop_ok Q F (srcs s) RQ HF n1 na n2 s K En) as (s1 & m & D & Qm & N1 & K1).
    replace (itpos (nds s) (Z.to_nat idx)) with (id_at (n1 ++ n2) 0).
    2:{ unfold itpos, id_at. rewrite En. replace (Z.to_nat idx) with (length na) by (rewrite <- Lp, <- Ep; unfold zlen; rewrite map_length; lia). rewrite (nth_error_app2 na), Nat.sub_diag by lia. reflexivity. }
    replace (Z.to_nat (c - zlen (srcs s))) with (length n1) by (rewrite <- Lq, <- E1; unfold zlen; rewrite map_length; lia).
    rewrite D. unfold andthen. cbn [fst snd].
    apply (FIN s1 (p ++ q2) (map snd m)); [exact K1| |exact Qm| |].
    + rewrite (items_nodes s1 _ N1), !map_app, Ep, E2, app_assoc. reflexivity.
    + rewrite zlen_app. rewrite Epq, !zlen_app in Hz. pose proof (zlen_nonneg q1). lia.
    + replace (p ++ q2) with (firstn (Z.to_nat idx) (items s) ++ skipn (Z.to_nat (idx + (c - zlen (srcs s)))) (items s)); [exact LS|].
      rewrite Epq. replace (Z.to_nat idx) with (length p) by (unfold zlen in *; lia). rewrite firstn_app_len. f_equal.
      rewrite app_assoc. replace (Z.to_nat (idx + (c - zlen (srcs s)))) with (length (p ++ q1)) by (rewrite app_length; unfold zlen in *; lia). rewrite skipn_app_len. reflexivity.
  - destruct (Z.ltb_spec c (zlen (srcs s))) as [GT|EQ].
    + assert (PB : exists p q, items s = p ++ q /\ at_z (nds s) b = Ret (itpos (nds s) (length p)) /\ Z.to_nat (if b <? 0 then zlen (items s) else b) = length p).
      { unfold at_z. destruct (Z.ltb_spec b 0).
        - exists (items s), []. split; [rewrite app_nil_r; reflexivity|]. split; [|unfold zlen; lia]. rewrite itpos_end; [reflexivity|]. rewrite size_values. apply le_n.
        - destruct (zsplit_le (items s) b) as (p & q & E & Lq); [lia|]. exists p, q. split; [exact E|]. rewrite at_pos by apply K.
          replace (Z.to_nat b) with (length p) by (unfold zlen in Lq; lia). auto. }
      destruct PB as (p & q & Epq & At & Ep). rewrite At. destruct (items_split s p q Epq) as (na & nc & En & E1 & E2).
      replace (itpos (nds s) (length p)) with (id_at nc 0).
      2:{ unfold itpos, id_at. rewrite En, <- E1, map_length, (nth_error_app2 na), Nat.sub_diag by lia. reflexivity. }
      destruct (grow_ok (srcs s) NY (Z.to_nat (zlen (srcs s) - c)) c na nc s K En C0 ltac:(lia)) as (s1 & new & G & N1 & V1 & K1 & _).
      rewrite G. unfold andthen. cbn [fst snd]. unfold insert_at in LS. rewrite Ep in LS.
      assert (P0 : firstn (length p) (items s) = p) by (rewrite Epq; apply firstn_app_len).
      assert (Q0 : skipn (length p) (items s) = q) by (rewrite Epq; apply skipn_app_len). rewrite P0, Q0 in LS.
      apply (FIN s1 (p ++ skipn (Z.to_nat c) (srcs s) ++ q) []); [exact K1| |apply RQ| |exact LS].
      * rewrite app_nil_r, (items_nodes s1 _ N1), !map_app, V1, E1, E2. reflexivity.
      * rewrite !zlen_app. rewrite Epq, zlen_app in Hz. assert (zlen (skipn (Z.to_nat c) (srcs s)) <= zlen (srcs s)) by (unfold zlen; rewrite skipn_length; lia). lia.
    + rewrite skipn_all2 in LS by (unfold zlen in *; lia). unfold insert_at in LS. cbn [app] in LS. rewrite firstn_skipn in LS. unfold andthen. cbn [fst snd].
      apply (FIN s (items s) []); [exact K|rewrite app_nil_r; reflexivity|apply RQ|lia|exact LS].
Qed.

Lemma slice_polite F sl s : polite F -> balanced s -> zlen (items s) + zlen (srcs s) <= SSIZE_MAX -> step_of sl <> 0 ->
  match linked_setslice (items s) sl (srcs s) with
  | Some r => exists s', f_setslice F sl s = (Ret tt, s') /\ items s' = r /\ srcs s' = srcs s /\ balanced s'
  | None => exists u, fst (f_setslice F sl s) = Undef u
  end.
Proof.
  intros HF B Hz NZ. destruct (linked_setslice (items s) sl (srcs s)) as [r|] eqn:LS.
  - destruct (slice_appending none F sl s r runs_none HF B Hz NZ LS) as (s' & m & E & Qm & I & S & B'). unfold none in Qm. subst m. rewrite app_nil_r in I. eauto.
  - pose proof B as B0. apply balanced_sane in B. destruct B as [K NY]. pose proof (zlen_nonneg (srcs s)) as Hy. destruct ssize_consts as [EA EB].
    destruct (setslice_parts F sl s (proj1 K) Hz NZ) as (a & b & c & step & Ea & Eb & Ec & Ba & Bb & C0 & PA & IDX & ->).
    unfold linked_setslice in LS. rewrite <- Ea, <- Eb, <- Ec in LS.
    assert (FIN : forall s1, sane (srcs s) s1 -> zlen (items s1) <= SSIZE_MAX -> place_all (items s1) a (step_of sl) (srcs s) = None ->
      exists u, fst (f_over F (Z.to_nat (zlen (srcs s))) 0 a step s1) = Undef u).
    { intros s1 K1 Hv PL. rewrite PA in PL by exact Hv. apply (over_out F (srcs s) HF NY a step (Z.to_nat (zlen (srcs s))) ltac:(lia) 0 s1 K1 Hv ltac:(lia) ltac:(lia)).
      rewrite Z.mul_0_l, Z.add_0_r. exact PL. }
    destruct (Z.ltb_spec (zlen (srcs s)) c) as [LT|GE].
    + destruct (IDX LT) as [I1 I2]. rewrite <- I1 in LS. set (idx := a + zlen (srcs s) * step) in *.
      rewrite ssz_ok by (subst idx; rewrite EA, EB in *; lia). cbn [obind]. rewrite ssz_ok by (subst idx; rewrite EA, EB in *; lia). cbn [obind].
      fold idx. unfold at_z. destruct (Z.ltb_spec idx 0); [lia|]. rewrite at_pos by apply K.
      destruct (zsplit_le (items s) idx) as (p & q & Epq & Lp); [lia|].
      assert (ZL : zlen (items s) = zlen p + zlen q) by (rewrite Epq; apply zlen_app).
      destruct (items_split s p q Epq) as (na & nc & En & Ep & Eq).
      replace (itpos (nds s) (Z.to_nat idx)) with (id_at nc 0).
      2:{ unfold itpos, id_at. rewrite En. replace (Z.to_nat idx) with (length na) by (rewrite <- Lp, <- Ep; unfold zlen; rewrite map_length; lia). rewrite (nth_error_app2 na), Nat.sub_diag by lia. reflexivity. }
      unfold cut in LS. destruct (Z.leb_spec (idx + (c - zlen (srcs s))) (zlen (items s))) as [LE|GT].
      * destruct (zsplit_le q (c - zlen (srcs s))) as (q1 & q2 & Eqq & Lq); [lia|]. subst q. destruct (map_eq_app _ _ _ _ Eqq) as (n1 & n2 & -> & E1 & E2).
        destruct (drop_ok none F (srcs s) runs_none HF n1 na n2 s K En) as (s1 & m & D & Qm & N1 & K1). apply map_eq_nil in Qm. subst m. rewrite app_nil_r in N1.
        replace (Z.to_nat (c - zlen (srcs s))) with (length n1) by (rewrite <- Lq, <- E1; unfold zlen; rewrite map_length; lia).
        rewrite D. unfold andthen. cbn [fst snd].
        assert (I1' : items s1 = p ++ q2) by (rewrite (items_nodes s1 _ N1), map_app, Ep, E2; reflexivity). apply (FIN s1 K1).
        -- rewrite I1', zlen_app. rewrite Epq, Eqq, !zlen_app in Hz. pose proof (zlen_nonneg q1). lia.
        -- rewrite I1'. replace (p ++ q2) with (firstn (Z.to_nat idx) (items s) ++ skipn (Z.to_nat (idx + (c - zlen (srcs s)))) (items s)); [exact LS|].
           rewrite Epq, Eqq. replace (Z.to_nat idx) with (length p) by (unfold zlen in *; lia). rewrite firstn_app_len. f_equal.
           rewrite app_assoc. replace (Z.to_nat (idx + (c - zlen (srcs s)))) with (length (p ++ q1)) by (rewrite app_length; unfold zlen in *; lia). rewrite skipn_app_len. reflexivity.
      * destruct (drop_short F (srcs s) HF nc na (Z.to_nat (c - zlen (srcs s))) s K En) as (u & D).
        { rewrite <- (map_length snd nc), Eq. unfold zlen in *. lia. }
        unfold andthen. rewrite D. exists u. exact D.
    + destruct (Z.ltb_spec c (zlen (srcs s))) as [GT|EQ].
      * assert (PB : exists p q, items s = p ++ q /\ at_z (nds s) b = Ret (itpos (nds s) (length p)) /\ Z.to_nat (if b <? 0 then zlen (items s) else b) = length p).
        { unfold at_z. destruct (Z.ltb_spec b 0).
          - exists (items s), []. split; [rewrite app_nil_r; reflexivity|]. split; [|unfold zlen; lia]. rewrite itpos_end; [reflexivity|]. rewrite size_values. apply le_n.
          - destruct (zsplit_le (items s) b) as (p & q & E & Lq); [lia|]. exists p, q. split; [exact E|]. rewrite at_pos by apply K.
            replace (Z.to_nat b) with (length p) by (unfold zlen in Lq; lia). auto. }
        destruct PB as (p & q & Epq & At & Ep). rewrite At. destruct (items_split s p q Epq) as (na & nc & En & E1 & E2).
        replace (itpos (nds s) (length p)) with (id_at nc 0).
        2:{ unfold itpos, id_at. rewrite En, <- E1, map_length, (nth_error_app2 na), Nat.sub_diag by lia. reflexivity. }
        destruct (grow_ok (srcs s) NY (Z.to_nat (zlen (srcs s) - c)) c na nc s K En C0 ltac:(lia)) as (s1 & new & G & N1 & V1 & K1 & _).
        rewrite G. unfold andthen. cbn [fst snd]. unfold insert_at in LS. rewrite Ep in LS.
        assert (P0 : firstn (length p) (items s) = p) by (rewrite Epq; apply firstn_app_len).
        assert (Q0 : skipn (length p) (items s) = q) by (rewrite Epq; apply skipn_app_len). rewrite P0, Q0 in LS.
        assert (I1' : items s1 = p ++ skipn (Z.to_nat c) (srcs s) ++ q) by (rewrite (items_nodes s1 _ N1), !map_app, V1, E1, E2; reflexivity).
        apply (FIN s1 K1); rewrite I1'; [|exact LS].
        rewrite !zlen_app. rewrite Epq, zlen_app in Hz. assert (zlen (skipn (Z.to_nat c) (srcs s)) <= zlen (srcs s)) by (unfold zlen; rewrite skipn_length; lia). lia.
      * rewrite skipn_all2 in LS by (unfold zlen in *; lia). unfold insert_at in LS. cbn [app] in LS. rewrite firstn_skipn in LS. unfold andthen. cbn [fst snd].
        apply (FIN s K); [lia|exact LS].
Qed.
Lemma slice_zero F sl s : step_of sl = 0 -> f_setslice F sl s = (Raise ValueError, s).
Proof. intros E. unfold f_setslice. destruct (unpack_cases sl) as [[_ U]|[NE _]]; [rewrite U; reflexivity|contradiction]. Qed.

(** ** A finalizer that removes the node of its own object *)
Section Removed.
Context (F : nfins) (ys : list Z) (o : Z) (nid : nat) (HO : only o F) (HR : removes F o nid) (NY : ~ In 0 ys) (OY : ~ In o ys) (NO : o <> 0).

Definition before (b : list (nat * Z)) (s : nst) : Prop :=
  linked s /\ srcs s = ys /\ refs s o = 1 /\ (forall p, p <> 0 -> occ (map snd b) p + occ ys p <= refs s p) /\ ~ In 0 (map snd b) /\ ~ In o (map snd b).

Lemma hit s a c : linked s -> nodes (nds s) = a ++ (nid, o) :: c -> refs s o = 1 -> safe_decref F (Some nid) s = Undef UseAfterFree.
Proof.
  intros L E R. unfold safe_decref. rewrite (deref_at _ a nid o c (proj1 L) E). cbn [obind]. unfold release. destruct (Z.eqb_spec o 0); [contradiction|].
  rewrite R. change (1 <=? 0) with false. change (1 =? 1) with true. cbv iota. destruct (HR s) as (t & -> & NI).
  destruct (refs t o <=? 0); [reflexivity|]. cbn [obind nds with_refs]. rewrite gone by exact NI. reflexivity.
Qed.
Lemma miss s a j x c : linked s -> nodes (nds s) = a ++ (j, x) :: c -> x <> 0 -> x <> o -> 0 < refs s x ->
  safe_decref F (Some j) s = Ret (with_nds {| nodes := a ++ (j, 0) :: c; fresh := fresh (nds s) |} (dec x s)).
Proof.
  intros L E NX XO R. unfold safe_decref. rewrite (deref_at _ a j x c (proj1 L) E). cbn [obind]. rewrite (release_none F x s NX R) by (intros t; apply HO, XO).
  cbn [obind nds dec with_refs]. rewrite (assign_at _ a j x c 0 (proj1 L) E). reflexivity.
Qed.
Lemma occ_other x p : x <> p -> occ [x] p = 0.
Proof. intros H. cbn [occ]. destruct (Z.eqb_spec x p); [contradiction|lia]. Qed.

Lemma drop_through n : forall b a c s, before b s -> nodes (nds s) = a ++ b ++ c ->
  exists s', f_drop F (length b + n) (id_at (b ++ c) 0) s = f_drop F n (id_at c 0) s' /\ nodes (nds s') = a ++ c /\ linked s' /\ srcs s' = ys /\ held s' = held s /\
    forall p, refs s' p = refs s p - occ (map snd b) p.
Proof.
  induction b as [|[j x] b IH]; intros a c s (L & Sr & R & G & N0 & No) E; cbn [length Nat.add f_drop].
  - exists s. cbn [app] in E. split; [reflexivity|]. split; [exact E|]. split; [exact L|]. split; [exact Sr|]. split; [reflexivity|]. intros p. cbn. lia.
  - cbn [map snd In] in N0, No. assert (NX : x <> 0) by tauto. assert (XO : x <> o) by tauto. cbn [app id_at nth_error option_map fst] in *.
    assert (RX : 0 < refs s x). { specialize (G x NX). cbn [map snd occ] in G. rewrite Z.eqb_refl in G. pose proof (occ_nonneg (map snd b) x). pose proof (occ_nonneg ys x). lia. }
    rewrite (miss s a j x (b ++ c) L E NX XO RX). cbn [obind nds with_nds]. pose proof (linked_set s a j x 0 (b ++ c) L E) as L1.
    rewrite (next_at {| nodes := a ++ (j, 0) :: b ++ c; fresh := fresh (nds s) |} a j 0 (b ++ c) (proj1 L1) eq_refl). cbn [obind].
    rewrite (erase_at {| nodes := a ++ (j, 0) :: b ++ c; fresh := fresh (nds s) |} a j 0 (b ++ c) (proj1 L1) eq_refl). cbn [obind fresh].
    match goal with |- context [f_drop F _ _ ?st] => set (s1 := st) end.
    assert (R1 : forall p, refs s1 p = refs s p - occ [x] p) by (intros p; apply upd_minus).
    destruct (IH a c s1) as (s' & D & N' & L' & S' & H' & R').
    + split; [exact (linked_cut _ a j 0 (b ++ c) L1 eq_refl)|]. split; [exact Sr|]. split; [rewrite R1, R, occ_other by exact XO; lia|]. split; [|tauto].
      intros p Hp. rewrite R1. specialize (G p Hp). cbn [map snd occ] in *. lia.
    + reflexivity.
    + exists s'. split; [exact D|]. split; [exact N'|]. split; [exact L'|]. split; [exact S'|]. split; [exact H'|]. intros p. rewrite R', R1. cbn [map snd occ]. lia.
Qed.
Lemma drop_hits n b a c s : before b s -> nodes (nds s) = a ++ b ++ (nid, o) :: c ->
  fst (f_drop F (length b + S n) (id_at (b ++ (nid, o) :: c) 0) s) = Undef UseAfterFree.
Proof.
  intros B E. destruct (drop_through (S n) b a ((nid, o) :: c) s B E) as (s' & D & N' & L' & _ & _ & R'). rewrite D. cbn [id_at nth_error option_map fst f_drop].
  rewrite (hit s' a c L' N'); [reflexivity|]. rewrite R'. destruct B as (_ & _ & R & _ & _ & No). rewrite R.
  pose proof (occ_nonneg (map snd b) o). destruct (Z.eq_dec (occ (map snd b) o) 0); [lia|]. exfalso. apply No, occ_pos. lia.
Qed.

Lemma over_hits start n : forall b a c i s, before b s -> nodes (nds s) = a ++ b ++ (nid, o) :: c -> 0 <= i -> zlen a = start + i -> 0 <= start ->
  zlen a + zlen b <= SSIZE_MAX -> i + Z.of_nat (length b + S n) <= zlen ys -> zlen ys <= SSIZE_MAX ->
  fst (f_over F (length b + S n) i start 1 s) = Undef UseAfterFree.
Proof.
  destruct ssize_consts as [EA EB]. induction b as [|[j x] b IH]; intros a c i s (L & Sr & R & G & N0 & No) E Hi La H0 Hb Hn Hy.
  - cbn [length Nat.add app] in *. cbn [f_over].
    destruct (znth ys i) as [y|] eqn:EY; [|rewrite znth_default in EY by lia; discriminate].
    rewrite ssz_ok by (rewrite EA, EB in *; pose proof (zlen_nonneg a); lia). cbn [obind]. rewrite ssz_ok by (rewrite EA, EB in *; cbn in Hb; unfold zlen in *; cbn in *; lia). cbn [obind].
    rewrite Z.mul_1_r, <- La. unfold at_z. pose proof (zlen_nonneg a). destruct (Z.ltb_spec (zlen a) 0); [lia|]. replace (Z.to_nat (zlen a)) with (length a) by (unfold zlen; lia).
    rewrite (at_at _ a nid o c L E). cbn [obind].
    assert (IY : In y ys) by (unfold znth in EY; destruct (i <? 0); [discriminate|]; eapply nth_error_In; exact EY).
    assert (Y0 : y <> 0) by (intros ->; contradiction). assert (YO : y <> o) by (intros ->; contradiction).
    assert (RY : 0 < refs s y). { specialize (G y Y0). apply occ_in in IY. cbn in G. lia. }
    unfold get_item. rewrite Sr, EY. unfold incref. destruct (Z.eqb_spec y 0); [contradiction|]. destruct (Z.leb_spec (refs s y) 0); [lia|]. cbn [obind].
    rewrite (hit (with_refs (upd (refs s) y (refs s y + 1)) s) a c L E); [reflexivity|]. cbn [refs with_refs]. rewrite upd_plus, R, occ_other by exact YO. lia.
  - cbn [length Nat.add app] in *. cbn [f_over]. cbn [map snd In] in N0, No. assert (NX : x <> 0) by tauto. assert (XO : x <> o) by tauto.
    destruct (znth ys i) as [y|] eqn:EY; [|rewrite znth_default in EY by lia; discriminate].
    assert (Hc : zlen ((j, x) :: b) = zlen b + 1) by (unfold zlen; cbn [length]; lia). pose proof (zlen_nonneg a). pose proof (zlen_nonneg b).
    rewrite ssz_ok by (rewrite EA, EB in *; lia). cbn [obind]. rewrite ssz_ok by (rewrite EA, EB in *; lia). cbn [obind].
    rewrite Z.mul_1_r, <- La. unfold at_z. destruct (Z.ltb_spec (zlen a) 0); [lia|]. replace (Z.to_nat (zlen a)) with (length a) by (unfold zlen; lia).
    rewrite (at_at _ a j x _ L E). cbn [obind].
    assert (IY : In y ys) by (unfold znth in EY; destruct (i <? 0); [discriminate|]; eapply nth_error_In; exact EY).
    assert (Y0 : y <> 0) by (intros ->; contradiction). assert (YO : y <> o) by (intros ->; contradiction).
    assert (RY : 0 < refs s y). { specialize (G y Y0). apply occ_in in IY. pose proof (occ_nonneg (map snd ((j, x) :: b)) y). lia. }
    unfold get_item. rewrite Sr, EY. unfold incref. destruct (Z.eqb_spec y 0); [contradiction|]. destruct (Z.leb_spec (refs s y) 0); [lia|]. cbn [obind].
    pose (s0 := with_refs (upd (refs s) y (refs s y + 1)) s). fold s0. assert (R0 : forall p, refs s0 p = refs s p + occ [y] p) by (intros p; apply upd_plus).
    assert (RX : 0 < refs s0 x). { rewrite R0. specialize (G x NX). cbn [map snd occ] in G. rewrite Z.eqb_refl in G. pose proof (occ_nonneg (map snd b) x). pose proof (occ_nonneg ys x). pose proof (occ_nonneg [y] x). lia. }
    rewrite (miss s0 a j x _ L E NX XO RX). cbn [obind nds with_nds]. pose proof (linked_set s a j x 0 _ L E) as L1. change (fresh (nds s0)) with (fresh (nds s)).
    rewrite (assign_at {| nodes := a ++ (j, 0) :: b ++ (nid, o) :: c; fresh := fresh (nds s) |} a j 0 _ y (proj1 L1) eq_refl). cbn [obind fresh].
    match goal with |- context [f_over F _ _ _ _ ?st] => set (s1 := st) end.
    assert (R1 : forall p, refs s1 p = refs s p + occ [y] p - occ [x] p) by (intros p; rewrite <- R0; apply upd_minus).
    apply (IH (a ++ [(j, y)]) c (i + 1) s1); try lia.
    + split; [exact (linked_set _ a j 0 y _ L1 eq_refl)|]. split; [exact Sr|]. split; [rewrite R1, R, !occ_other by assumption; lia|]. split; [|tauto].
      intros p Hp. rewrite R1. specialize (G p Hp). pose proof (occ_nonneg [y] p). cbn [map snd occ] in *. lia.
    + unfold s1. cbn [nds with_nds nodes]. rewrite <- app_assoc. reflexivity.
    + rewrite zlen_app. unfold zlen in *. cbn [length]. lia.
    + rewrite zlen_app. unfold zlen in *. cbn [length]. lia.
Qed.
End Removed.

Lemma slice_removed F i j k nid o s : balanced s -> zlen (items s) + zlen (srcs s) <= SSIZE_MAX ->
  0 <= i -> i <= k < j -> j <= zlen (items s) -> nth_error (nodes (nds s)) (Z.to_nat k) = Some (nid, o) -> refs s o = 1 -> only o F -> removes F o nid ->
  fst (f_setslice F {| sl_start := Some i; sl_stop := Some j; sl_step := None |} s) = Undef UseAfterFree.
Proof.
  intros B Hz I0 HK J EK R HO HR. set (sl := {| sl_start := Some i; sl_stop := Some j; sl_step := None |}).
  destruct (nth_error_split _ _ EK) as (a & c & E & La). destruct (dying s a nid o c B E R) as (No & NA & NC & ZA & ZC & HH & G).
  pose proof (zlen_nonneg (srcs s)) as Hy. pose proof (zlen_nonneg (items s)) as Hv.
  assert (OY : ~ In o (srcs s)). { intros H9. apply occ_in in H9. destruct (G o No) as [G1 _]. rewrite occ_self in G1. pose proof (occ_nonneg (map snd a) o). pose proof (occ_nonneg (map snd c) o). lia. }
  assert (NY : ~ In 0 (srcs s)) by apply B. pose proof (proj1 B) as L.
  destruct (unpack_step1 (items s) sl ltac:(lia) eq_refl) as (start & stop & U & Adj).
  assert (Lo : lo_of (items s) sl = i) by (unfold lo_of, sl, clamp, rel; cbn; destruct (Z.ltb_spec i 0); lia).
  assert (Hi : hi_of (items s) sl = j) by (unfold hi_of, sl, clamp, rel; cbn; destruct (Z.ltb_spec j 0); lia).
  rewrite Lo, Hi, Z.max_r in Adj by lia. unfold f_setslice. rewrite U, size_zlen, Adj. cbv iota zeta.
  assert (LA : zlen a = k) by (unfold zlen; lia). destruct ssize_consts as [EA EB].
  (* the nodes in front of the dying one, from place p on *)
  assert (CUT : forall p, 0 <= p <= k -> exists a1 b, a = a1 ++ b /\ zlen a1 = p /\ zlen b = k - p).
  { intros p Hp. destruct (zsplit_le a p) as (a1 & b & Eb & Lb); [lia|]. exists a1, b. split; [exact Eb|]. split; [exact Lb|]. rewrite Eb, zlen_app in LA. lia. }
  assert (BEF : forall b a1, a = a1 ++ b -> before (srcs s) o b s).
  { intros b a1 Eb. split; [exact L|]. split; [reflexivity|]. split; [exact R|]. rewrite Eb, map_app, in_app_iff in NA. rewrite Eb, map_app, in_app_iff in ZA. split; [|tauto].
    intros p Hp. destruct (G p Hp) as [G1 G2]. rewrite Eb, map_app, occ_app in G1. pose proof (occ_nonneg (map snd a1) p). pose proof (occ_nonneg [o] p). pose proof (occ_nonneg (map snd c) p). lia. }
  set (m := zlen (srcs s)) in *.
  destruct (Z.ltb_spec m (j - i)) as [LT|GE].
  - rewrite Z.mul_1_r. rewrite ssz_ok by (rewrite EA, EB in *; lia). cbn [obind]. rewrite ssz_ok by (rewrite EA, EB in *; lia). cbn [obind].
    unfold at_z. destruct (Z.ltb_spec (i + m) 0); [lia|]. rewrite at_pos by apply L. unfold andthen.
    destruct (Z.leb_spec (i + m) k) as [IN|OUT].
    + destruct (CUT (i + m)) as (a1 & b & Eb & L1 & L2); [lia|].
      pose proof (drop_hits F (srcs s) o nid HO HR No (Z.to_nat (j - i - m - (k - (i + m)) - 1)) b a1 c s (BEF b a1 Eb)) as D.
      rewrite E, Eb, <- app_assoc in D. specialize (D eq_refl).
      replace (itpos (nds s) (Z.to_nat (i + m))) with (id_at (b ++ (nid, o) :: c) 0).
      2:{ unfold itpos, id_at. rewrite E, Eb, <- app_assoc. replace (Z.to_nat (i + m)) with (length a1) by (unfold zlen in *; lia). rewrite (nth_error_app2 a1), Nat.sub_diag by lia. reflexivity. }
      replace (Z.to_nat (j - i - m)) with (length b + S (Z.to_nat (j - i - m - (k - (i + m)) - 1)))%nat by (unfold zlen in *; lia).
      rewrite D. exact D.
    + (* the dropped nodes are behind the dying one *)
      assert (LC : zlen c = zlen (items s) - k - 1) by (rewrite (items_nodes s _ E); unfold zlen in *; rewrite map_length, app_length; cbn [length]; lia).
      destruct (zsplit_le c (i + m - k - 1)) as (c1 & q & Ec & Lc1); [lia|]. assert (Lq : zlen q = zlen c - (i + m - k - 1)) by (rewrite Ec, zlen_app; lia).
      destruct (zsplit_le q (j - i - m)) as (q1 & q2 & Eq & Lq1); [lia|]. subst q.
      assert (E' : nodes (nds s) = (a ++ (nid, o) :: c1) ++ q1 ++ q2) by (rewrite E, Ec, <- app_assoc; reflexivity).
      assert (Bq : before (srcs s) o q1 s).
      { split; [exact L|]. split; [reflexivity|]. split; [exact R|]. rewrite Ec, !map_app, !in_app_iff in NC. rewrite Ec, !map_app, !in_app_iff in ZC. split; [|tauto].
        intros p Hp. destruct (G p Hp) as [G1 G2]. rewrite Ec, !map_app, !occ_app in G1. pose proof (occ_nonneg (map snd a) p). pose proof (occ_nonneg [o] p). pose proof (occ_nonneg (map snd c1) p). pose proof (occ_nonneg (map snd q2) p). lia. }
      destruct (drop_through F (srcs s) o HO No 0%nat q1 _ q2 s Bq E') as (s1 & D & N1 & Ln1 & S1 & H1 & R1). rewrite Nat.add_0_r in D.
      replace (itpos (nds s) (Z.to_nat (i + m))) with (id_at (q1 ++ q2) 0).
      2:{ unfold itpos, id_at. rewrite E'. replace (Z.to_nat (i + m)) with (length (a ++ (nid, o) :: c1)) by (rewrite app_length; unfold zlen in *; cbn [length]; lia). rewrite (nth_error_app2 (a ++ (nid, o) :: c1)), Nat.sub_diag by lia. reflexivity. }
      replace (Z.to_nat (j - i - m)) with (length q1) by (unfold zlen in *; lia). rewrite D. cbn [f_drop fst snd].
      destruct (CUT i) as (a1 & b & Eb & L1 & L2); [lia|].
      replace (Z.to_nat m) with (length b + S (Z.to_nat (m - (k - i) - 1)))%nat by (unfold zlen in *; lia).
      apply (over_hits F (srcs s) o nid HO HR NY OY No i _ b a1 (c1 ++ q2) 0 s1); try lia.
      * destruct Bq as (_ & _ & _ & _ & _ & Oq). split; [exact Ln1|]. split; [exact S1|]. split.
        { rewrite R1, R. pose proof (occ_nonneg (map snd q1) o). destruct (Z.eq_dec (occ (map snd q1) o) 0); [lia|]. exfalso. apply Oq, occ_pos. lia. }
        rewrite Eb, map_app, in_app_iff in NA. rewrite Eb, map_app, in_app_iff in ZA. split; [|tauto].
        intros p Hp. rewrite R1. destruct (G p Hp) as [G1 G2]. rewrite Ec, Eb, !map_app, !occ_app in G1. pose proof (occ_nonneg (map snd a1) p). pose proof (occ_nonneg [o] p). pose proof (occ_nonneg (map snd c1) p). pose proof (occ_nonneg (map snd q2) p). lia.
      * rewrite N1, Eb, <- !app_assoc. reflexivity.
      * fold m. unfold zlen in *. lia.
  - assert (OV : forall s1 c', linked s1 -> srcs s1 = srcs s -> (forall p, p <> 0 -> refs s p <= refs s1 p) -> refs s1 o = 1 -> nodes (nds s1) = a ++ (nid, o) :: c' ->
      fst (f_over F (Z.to_nat m) 0 i 1 s1) = Undef UseAfterFree).
    { intros s1 c' Ln1 S1 R1 Ro N1. destruct (CUT i) as (a1 & b & Eb & L1 & L2); [lia|].
      replace (Z.to_nat m) with (length b + S (Z.to_nat (m - (k - i) - 1)))%nat by (unfold zlen in *; lia).
      destruct (BEF b a1 Eb) as (_ & _ & _ & Gb & Zb & Ob).
      apply (over_hits F (srcs s) o nid HO HR NY OY No i _ b a1 c' 0 s1); try lia.
      - split; [exact Ln1|]. split; [exact S1|]. split; [exact Ro|]. split; [|tauto]. intros p Hp. specialize (Gb p Hp). specialize (R1 p Hp). lia.
      - rewrite N1, Eb, <- !app_assoc. reflexivity.
      - fold m. unfold zlen in *. lia.
      }
    destruct (Z.ltb_spec (j - i) m) as [GT|EQ]; unfold andthen.
    + unfold at_z. destruct (Z.ltb_spec j 0); [lia|]. rewrite at_pos by apply L.
      assert (LC : zlen c = zlen (items s) - k - 1) by (rewrite (items_nodes s _ E); unfold zlen in *; rewrite map_length, app_length; cbn [length]; lia).
      destruct (zsplit_le c (j - k - 1)) as (c1 & c2 & Ec & Lc1); [lia|].
      assert (E' : nodes (nds s) = (a ++ (nid, o) :: c1) ++ c2) by (rewrite E, Ec, <- app_assoc; reflexivity).
      replace (itpos (nds s) (Z.to_nat j)) with (id_at c2 0).
      2:{ unfold itpos, id_at. rewrite E'. replace (Z.to_nat j) with (length (a ++ (nid, o) :: c1)) by (rewrite app_length; unfold zlen in *; cbn [length]; lia). rewrite (nth_error_app2 (a ++ (nid, o) :: c1)), Nat.sub_diag by lia. reflexivity. }
      pose proof (proj1 (proj1 (balanced_sane s) B)) as K.
      destruct (grow_ok (srcs s) NY (Z.to_nat (m - (j - i))) (j - i) _ c2 s K E' ltac:(lia) ltac:(fold m; lia)) as (s1 & new & Gr & N1 & V1 & K1 & H1).
      rewrite Gr. cbn [fst snd]. destruct K1 as (Ln1 & S1 & X1 & Sl1 & NZ1).
      assert (RR : forall p, p <> 0 -> refs s1 p = refs s p + occ (skipn (Z.to_nat (j - i)) (srcs s)) p).
      { intros p Hp. specialize (Sl1 p Hp). destruct B as (_ & B & _). destruct (B p Hp) as [_ Sl]. unfold slack in *. rewrite H1, S1 in Sl1.
        rewrite (items_nodes s1 _ N1), !map_app, !occ_app, V1 in Sl1. rewrite (items_nodes s _ E'), !map_app, !occ_app in Sl. lia. }
      apply (OV s1 (c1 ++ new ++ c2) Ln1 S1).
      * intros p Hp. rewrite RR by exact Hp. pose proof (occ_nonneg (skipn (Z.to_nat (j - i)) (srcs s)) p). lia.
      * rewrite RR by exact No. rewrite R. destruct (Z.eq_dec (occ (skipn (Z.to_nat (j - i)) (srcs s)) o) 0); [lia|]. exfalso. apply OY.
        rewrite <- (firstn_skipn (Z.to_nat (j - i)) (srcs s)). apply in_or_app. right. apply occ_pos. pose proof (occ_nonneg (skipn (Z.to_nat (j - i)) (srcs s)) o). lia.
      * rewrite N1, <- !app_assoc. reflexivity.
    + cbn [fst snd]. apply (OV s c L eq_refl); [intros; lia|exact R|exact E].
Qed.
