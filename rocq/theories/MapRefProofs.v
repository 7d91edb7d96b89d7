From Coq Require Import ZArith List Bool Lia.
From Verif Require Import Base PyLongModel HashModel HashSpec HashRun HashProofs ObjModel ObjSpec MapModel MapSpec MapProofs MapRefModel MapRefSpec.
Import ListNotations.
Local Open Scope Z_scope.
Local Arguments Z.pow : simpl never.
Local Arguments Z.add : simpl never.
Local Arguments Z.sub : simpl never.
Local Arguments wrap : simpl never.

Lemma inc_at : forall o rc p, inc o rc p = rc p + occ [o] p.
Proof. intros; unfold inc, upd; cbn [occ]; rewrite (Z.eqb_sym p o); destruct (Z.eqb_spec o p); subst; lia. Qed.
Lemma occ_pos : forall l o, 0 <= occ l o.
Proof. induction l; intros o; cbn [occ]; [lia|]; specialize (IHl o); destruct (a =? o); lia. Qed.
Lemma occ_app : forall a b o, occ (a ++ b) o = occ a o + occ b o.
Proof. induction a; intros; cbn [app occ]; [lia|]; rewrite IHa; destruct (a =? o); lia. Qed.
Lemma occ_cons : forall a b o, occ (a :: b) o = occ [a] o + occ b o.
Proof. intros; cbn [occ]; destruct (a =? o); lia. Qed.
Lemma occ_self : forall o, occ [o] o = 1.
Proof. intros; cbn [occ]; rewrite Z.eqb_refl; lia. Qed.
Lemma dec_ok : forall o rc k, 0 < rc o -> exists rc', dec o rc k = k rc' /\ forall p, rc' p = rc p - occ [o] p.
Proof.
  intros o rc k P; unfold dec; destruct (Z.leb_spec (rc o) 0); [lia|]; eexists; split; [reflexivity|].
  intro p; unfold upd; cbn [occ]; rewrite (Z.eqb_sym p o); destruct (Z.eqb_spec o p); subst; lia.
Qed.
(** The three objects of an entry that is iterated over are given back. *)
Lemma dec3 : forall a b c rc k, (forall p, 0 <= rc p) ->
  exists rc', dec a (inc c (inc b (inc a rc))) (fun rc => dec b rc (fun rc => dec c rc k)) = k rc' /\ forall p, rc' p = rc p.
Proof.
  intros a b c rc k P; set (rc0 := inc c (inc b (inc a rc))).
  assert (V : forall p, rc0 p = rc p + occ [a] p + occ [b] p + occ [c] p) by (intro; unfold rc0; rewrite !inc_at; lia).
  destruct (dec_ok a rc0 (fun rc => dec b rc (fun rc => dec c rc k))) as (r1 & E1 & V1).
  { rewrite V, occ_self; pose proof (P a); pose proof (occ_pos [b] a); pose proof (occ_pos [c] a); lia. }
  destruct (dec_ok b r1 (fun rc => dec c rc k)) as (r2 & E2 & V2).
  { rewrite V1, V, occ_self; pose proof (P b); pose proof (occ_pos [c] b); lia. }
  destruct (dec_ok c r2 k) as (r3 & E3 & V3).
  { rewrite V2, V1, V, occ_self; pose proof (P c); lia. }
  exists r3; split; [congruence|]; intro p; rewrite V3, V2, V1, V; lia.
Qed.

(** ** The same results as without counts, and nothing dead is touched *)
Definition agrees (i : list Z) (rc : counts) (r : run (outcome (table Z))) (x : res) : Prop :=
  exists rc', x = Done r rc' /\ forall o, rc o - occ i o <= rc' o.
Lemma agrees_done : forall i rc r, agrees i rc r (Done r rc).
Proof. intros; exists rc; split; [reflexivity|]; intro o; pose proof (occ_pos i o); lia. Qed.
Lemma agrees_more : forall i rc rc' r x, (forall o, rc o <= rc' o) -> agrees i rc' r x -> agrees i rc r x.
Proof. intros i rc rc' r x L (r1 & E & V); exists r1; split; [exact E|]; intro o; specialize (V o); specialize (L o); lia. Qed.
Lemma agrees_dec : forall i rc r, 0 < rc i -> agrees [i] rc r (dec i rc (Done r)).
Proof. intros i rc r P; destruct (dec_ok i rc (Done r) P) as (rc' & E & V); exists rc'; split; [exact E|]; intro o; rewrite V; lia. Qed.
Lemma inc_le : forall o rc p, rc p <= inc o rc p.
Proof. intros; rewrite inc_at; pose proof (occ_pos [o] p); lia. Qed.
Lemma inc3_le : forall a b c rc p, rc p <= inc c (inc b (inc a rc)) p.
Proof. intros; rewrite !inc_at; pose proof (occ_pos [a] p); pose proof (occ_pos [b] p); pose proof (occ_pos [c] p); lia. Qed.

Lemma iter_agrees : forall cfg i tail es s rc, (forall o, 0 <= rc o) -> 0 < rc i ->
  agrees [i] rc (iter_loop cfg (map e_is es) tail s) (iter_r cfg i es tail s rc).
Proof.
  intros cfg i tail; induction es as [|e r IH]; intros s rc P Q; cbn [map iter_loop iter_r]; [apply agrees_dec; exact Q|].
  set (rc1 := inc (e_obj e) rc).
  assert (L1 : forall o, rc o <= rc1 o) by (intro; apply inc_le).
  assert (GO : forall s rc2, (forall o, rc o <= rc2 o) ->
    agrees [i] rc (match snd s with Some e => Ok (Raise e) | None => iter_loop cfg (map e_is r) tail s end)
                  (match snd s with Some x => dec i rc2 (Done (Ok (Raise x))) | None => iter_r cfg i r tail s rc2 end)).
  { intros s2 rc2 L; apply (agrees_more _ rc rc2 _ _ L); destruct (snd s2).
    - apply agrees_dec; specialize (L i); lia.
    - apply IH; [intro o; specialize (L o); specialize (P o); lia|specialize (L i); lia]. }
  assert (ST : forall x rc2, (forall o, rc o <= rc2 o) ->
    agrees [i] rc (rbind x (fun s => match snd s with Some e => Ok (Raise e) | None => iter_loop cfg (map e_is r) tail s end))
      (stepr x rc2 (fun s => match snd s with Some x => dec i rc2 (Done (Ok (Raise x))) | None => iter_r cfg i r tail s rc2 end))).
  { intros x rc2 L; destruct x; cbn [rbind stepr]; try (apply (agrees_more _ rc rc2 _ _ L); apply agrees_done); apply GO; exact L. }
  destruct (e_is e) as [l|l|l|]; try (apply (agrees_more _ rc rc1 _ _ L1); apply agrees_done).
  - destruct l as [|k [|v [|]]]; try (apply (agrees_more _ rc rc1 _ _ L1); apply agrees_done); apply ST; exact L1.
  - destruct l as [|k [|v [|]]]; try (apply (agrees_more _ rc rc1 _ _ L1); apply agrees_done); apply ST; exact L1.
  - destruct l as [|k [|v m]].
    + apply (agrees_more _ rc (inc (e_iter e) rc1)); [|apply agrees_done]; intro o; rewrite inc_at; pose proof (occ_pos [e_iter e] o); specialize (L1 o); lia.
    + apply (agrees_more _ rc (inc (e_key e) (inc (e_iter e) rc1))); [|apply agrees_done]; intro o; rewrite !inc_at; pose proof (occ_pos [e_iter e] o); pose proof (occ_pos [e_key e] o); specialize (L1 o); lia.
    + destruct (put cfg s k v) as [s2| | |]; cbn [rbind stepr];
        try (apply (agrees_more _ rc (inc (e_val e) (inc (e_key e) (inc (e_iter e) rc1)))); [intro o; pose proof (inc3_le (e_iter e) (e_key e) (e_val e) rc1 o); specialize (L1 o); lia|apply agrees_done]).
      destruct (dec3 (e_iter e) (e_key e) (e_val e) rc1 (fun rc => match snd s2 with Some x => dec i rc (Done (Ok (Raise x))) | None => iter_r cfg i r tail s2 rc end)) as (rc3 & E & V).
      { intro o; specialize (L1 o); specialize (P o); lia. }
      rewrite E; apply GO; intro o; rewrite V; apply L1.
Qed.
Lemma fast_agrees : forall cfg i es s rc, (forall o, 0 <= rc o) -> 0 < rc i ->
  agrees [i] rc (fast_loop cfg (map e_is es) s) (fast_r cfg i es s rc).
Proof.
  intros cfg i; induction es as [|e r IH]; intros s rc P Q; cbn [map fast_loop fast_r]; [apply agrees_dec; exact Q|].
  assert (GO : forall s rc2, (forall o, rc o <= rc2 o) ->
    agrees [i] rc (match snd s with Some e => Ok (Raise e) | None => fast_loop cfg (map e_is r) s end)
                  (match snd s with Some x => dec i rc2 (Done (Ok (Raise x))) | None => fast_r cfg i r s rc2 end)).
  { intros s2 rc2 L; apply (agrees_more _ rc rc2 _ _ L); destruct (snd s2).
    - apply agrees_dec; specialize (L i); lia.
    - apply IH; [intro o; specialize (L o); specialize (P o); lia|specialize (L i); lia]. }
  destruct (e_is e) as [l|l|l|]; try apply agrees_done.
  - destruct l as [|k [|v [|]]]; apply agrees_done.
  - destruct l as [|k [|v [|]]]; try apply agrees_done; destruct (put cfg s k v); cbn [rbind stepr]; try apply agrees_done; apply GO; intro; lia.
  - destruct l as [|k [|v m]].
    + apply (agrees_more _ rc (inc (e_iter e) rc)); [|apply agrees_done]; intro o; apply inc_le.
    + apply (agrees_more _ rc (inc (e_key e) (inc (e_iter e) rc))); [|apply agrees_done]; intro o; rewrite !inc_at; pose proof (occ_pos [e_iter e] o); pose proof (occ_pos [e_key e] o); lia.
    + destruct (put cfg s k v) as [s2| | |]; cbn [rbind stepr];
        try (apply (agrees_more _ rc (inc (e_val e) (inc (e_key e) (inc (e_iter e) rc)))); [intro o; apply inc3_le|apply agrees_done]).
      destruct (dec3 (e_iter e) (e_key e) (e_val e) rc (fun rc => match snd s2 with Some x => dec i rc (Done (Ok (Raise x))) | None => fast_r cfg i r s2 rc end) P) as (rc3 & E & V).
      rewrite E; apply GO; intro o; rewrite V; lia.
Qed.
Lemma mapping_agrees : forall cfg ks items s rc, (forall o, 0 <= rc o) -> 0 < rc ks ->
  agrees [ks] rc (mapping_loop cfg (map snd items) s) (mapping_r cfg ks items s rc).
Proof.
  intros cfg ks; induction items as [|[v [k x]] r IH]; intros s rc P Q; cbn [map snd mapping_loop mapping_r]; [apply agrees_dec; exact Q|].
  destruct x as [x|e|x e|u]; try (apply agrees_dec; exact Q); [|apply agrees_done].
  destruct (put cfg s k x) as [s2| | |]; cbn [rbind stepr]; try (apply (agrees_more _ rc (inc v rc)); [intro; apply inc_le|apply agrees_done]).
  destruct (dec_ok v (inc v rc) (mapping_r cfg ks r s2)) as (rc2 & E & V); [rewrite inc_at, occ_self; specialize (P v); lia|].
  assert (W : forall o, rc2 o = rc o) by (intro o; rewrite V, inc_at; lia).
  rewrite E; apply (agrees_more _ rc rc2); [intro o; rewrite W; lia|]; apply IH; [intro o; rewrite W; apply P|rewrite W; exact Q].
Qed.

(** ** Exactly what is left *)
Definition leaves (xs : list Z) (minus : list Z) (rc : counts) (x : res) : Prop :=
  exists r rc', x = Done r rc' /\ forall o, rc' o = rc o + occ xs o - occ minus o.
Lemma put_last_ok : forall t l k v, HR t l -> small (S (length l)) ->
  exists t' l', put_last (t, None) k v = Ok (t', last_error [long_error v; long_error k]) /\ HR t' l' /\ (length l' <= S (length l))%nat.
Proof.
  intros t l k v H1 S1; unfold put_last; destruct (long_of v) as (vz & ->), (long_of k) as (kz & ->); cbn [fst snd].
  destruct (assign_bind t l kz vz H1 S1) as (t' & E & R'); rewrite E; cbn [rbind]; exists t', (bind l kz vz); split; [|split; [exact R'|apply bind_len]].
  destruct (long_error v), (long_error k); reflexivity.
Qed.
Lemma put_stop : forall cfg t l k v, HR t l -> small (S (length l)) ->
  exists t' l', put cfg (t, None) k v = Ok (t', last_error (errors cfg (k, v))) /\ HR t' l' /\ (length l' <= S (length l))%nat.
Proof.
  intros cfg t l k v H1 S1; destruct (put_ok cfg t None l k v H1 S1) as (t' & E & R').
  exists t', (keep l (int_of (m_py312 cfg) k) (int_of (m_py312 cfg) v)); split; [|split; [exact R'|apply keep_len]].
  rewrite E, last_later; destruct (last_error (errors cfg (k, v))); reflexivity.
Qed.
Lemma stops_pair : forall cfg k v, (forall l, stops_iter cfg (EIter (k :: v :: l)) = match last_error (errors cfg (k, v)) with Some _ => true | None => false end) /\
  stops_iter cfg (ETuple [k; v]) = match last_error (errors cfg (k, v)) with Some _ => true | None => false end /\
  stops_iter cfg (EList [k; v]) = match last_error [long_error v; long_error k] with Some _ => true | None => false end.
Proof.
  intros cfg k v; unfold stops_iter, stop_of, errors; cbn [fst snd last_error].
  split; [|split]; try intro l; destruct (key_first cfg); destruct (error_of (m_py312 cfg) k), (error_of (m_py312 cfg) v); try reflexivity; destruct (long_error k), (long_error v); reflexivity.
Qed.
Lemma leaves_dec : forall i rc r, 0 < rc i -> leaves [] [i] rc (dec i rc (Done r)).
Proof. intros i rc r P; destruct (dec_ok i rc (Done r) P) as (rc' & E & V); exists r, rc'; split; [exact E|]; intro o; rewrite V; cbn [occ]; lia. Qed.
Lemma leaves_shift : forall a b m rc rc' x, (forall o, rc' o = rc o + occ a o) -> leaves b m rc' x -> leaves (a ++ b) m rc x.
Proof. intros a b m rc rc' x V (r & rc2 & E & W); exists r, rc2; split; [exact E|]; intro o; rewrite W, V, occ_app; lia. Qed.
Lemma leaves_here : forall a m rc rc' r, (forall o, rc' o = rc o + occ a o - occ m o) -> leaves a m rc (Done r rc').
Proof. intros a m rc rc' r V; exists r, rc'; split; [reflexivity|exact V]. Qed.

Lemma iter_leaves : forall cfg i tail es t l rc, HR t l -> small (length l + length es) -> (forall o, 0 <= rc o) -> 0 < rc i ->
  leaves (left_iter cfg i es) [i] rc (iter_r cfg i es tail (t, None) rc).
Proof.
  intros cfg i tail; induction es as [|e r IH]; intros t l rc H1 S1 P Q; cbn [iter_r]; [apply leaves_dec; exact Q|].
  cbn [length] in S1; set (rc1 := inc (e_obj e) rc).
  assert (V1 : forall o, rc1 o = rc o + occ [e_obj e] o) by (intro; apply inc_at).
  assert (L1 : forall o, rc o <= rc1 o) by (intro o; rewrite V1; pose proof (occ_pos [e_obj e] o); lia).
  assert (S0 : small (S (length l))) by (unfold small in *; lia).
  assert (UN : left_iter cfg i (e :: r) = [e_obj e] ++ (if stops_iter cfg (e_is e) then and_rest i (Some e) else left_iter cfg i r)).
  { unfold left_iter, stopped_by; cbn [entries_read List.find]; destruct (stops_iter cfg (e_is e)); reflexivity. }
  assert (GO : forall (st : option exn) t' l' rc2, HR t' l' -> (length l' <= S (length l))%nat -> (forall o, rc2 o = rc1 o) ->
     stops_iter cfg (e_is e) = (match st with Some _ => true | None => false end) -> misshapen (e_is e) = false ->
     leaves (left_iter cfg i (e :: r)) [i] rc (match st with Some x => dec i rc2 (Done (Ok (Raise x))) | None => iter_r cfg i r tail (t', None) rc2 end)).
  { intros st t' l' rc2 R' LL V2 ST MS; rewrite UN, ST; apply (leaves_shift _ _ _ rc rc2); [intro o; rewrite V2; apply V1|].
    destruct st; [cbn [and_rest]; rewrite MS; apply leaves_dec; rewrite V2; specialize (L1 i); lia|].
    apply IH with (l := l'); [exact R'|unfold small in *; lia|intro o; rewrite V2; specialize (L1 o); specialize (P o); lia|rewrite V2; specialize (L1 i); lia]. }
  destruct (e_is e) as [ls|ls|ls|] eqn:EI.
  - destruct ls as [|k [|v [|]]]; try (rewrite UN; unfold and_rest, taken; rewrite EI; apply leaves_here; intro o; rewrite V1, occ_app; cbn; destruct (i =? o); lia).
    destruct (put_last_ok t l k v H1 S0) as (t' & l' & E & R' & LL); rewrite E; cbn [stepr snd].
    pose proof (GO (last_error [long_error v; long_error k]) t' l' rc1 R' LL (fun _ => eq_refl)) as G.
    rewrite (proj2 (proj2 (stops_pair cfg k v))) in G; specialize (G eq_refl eq_refl).
    destruct (last_error [long_error v; long_error k]); exact G.
  - destruct ls as [|k [|v [|]]]; try (rewrite UN; unfold and_rest, taken; rewrite EI; apply leaves_here; intro o; rewrite V1, occ_app; cbn; destruct (i =? o); lia).
    destruct (put_stop cfg t l k v H1 S0) as (t' & l' & E & R' & LL); rewrite E; cbn [stepr snd].
    pose proof (GO (last_error (errors cfg (k, v))) t' l' rc1 R' LL (fun _ => eq_refl)) as G.
    rewrite (proj1 (proj2 (stops_pair cfg k v))) in G; specialize (G eq_refl eq_refl).
    destruct (last_error (errors cfg (k, v))); exact G.
  - destruct ls as [|k [|v m]].
    + rewrite UN; unfold and_rest, taken; rewrite EI; apply leaves_here; intro o; rewrite inc_at, V1, occ_app; cbn; destruct (i =? o), (e_iter e =? o); lia.
    + rewrite UN; unfold and_rest, taken; rewrite EI; apply leaves_here; intro o; rewrite !inc_at, V1, occ_app; cbn; destruct (i =? o), (e_iter e =? o), (e_key e =? o); lia.
    + destruct (put_stop cfg t l k v H1 S0) as (t' & l' & E & R' & LL); rewrite E; cbn [stepr snd].
      match goal with |- leaves _ _ _ (dec _ _ (fun rc => dec _ rc (fun rc => dec _ rc ?K))) => destruct (dec3 (e_iter e) (e_key e) (e_val e) rc1 K) as (rc3 & E3 & V3) end.
      { intro o; specialize (L1 o); specialize (P o); lia. }
      rewrite E3; pose proof (GO (last_error (errors cfg (k, v))) t' l' rc3 R' LL V3) as G.
      rewrite (proj1 (stops_pair cfg k v)) in G; specialize (G eq_refl eq_refl).
      destruct (last_error (errors cfg (k, v))); exact G.
  - rewrite UN; unfold and_rest, taken; rewrite EI; apply leaves_here; intro o; rewrite V1, occ_app; cbn; destruct (i =? o); lia.
Qed.
Lemma fast_leaves : forall cfg i es t l rc, HR t l -> small (length l + length es) -> (forall o, 0 <= rc o) -> 0 < rc i -> no_pairs es ->
  leaves (left_seq cfg i es) [i] rc (fast_r cfg i es (t, None) rc).
Proof.
  intros cfg i; induction es as [|e r IH]; intros t l rc H1 S1 P Q NP; cbn [fast_r]; [apply leaves_dec; exact Q|].
  cbn [length] in S1.
  assert (S0 : small (S (length l))) by (unfold small in *; lia).
  assert (UN : left_seq cfg i (e :: r) = if stops_iter cfg (e_is e) then and_rest i (Some e) else left_seq cfg i r).
  { unfold left_seq, stopped_by; cbn [List.find]; destruct (stops_iter cfg (e_is e)); reflexivity. }
  assert (GO : forall (st : option exn) t' l' rc2, HR t' l' -> (length l' <= S (length l))%nat -> (forall o, rc2 o = rc o) ->
     stops_iter cfg (e_is e) = (match st with Some _ => true | None => false end) -> misshapen (e_is e) = false ->
     leaves (left_seq cfg i (e :: r)) [i] rc (match st with Some x => dec i rc2 (Done (Ok (Raise x))) | None => fast_r cfg i r (t', None) rc2 end)).
  { intros st t' l' rc2 R' LL V2 ST MS; rewrite UN, ST.
    match goal with |- leaves ?a _ _ _ => change (leaves ([] ++ a) [i] rc (match st with Some x => dec i rc2 (Done (Ok (Raise x))) | None => fast_r cfg i r (t', None) rc2 end)) end.
    apply (leaves_shift _ _ _ rc rc2); [intro o; rewrite V2; cbn [occ]; lia|].
    destruct st; [cbn [and_rest]; rewrite MS; apply leaves_dec; rewrite V2; lia|].
    apply IH with (l := l'); [exact R'|unfold small in *; lia|intro o; rewrite V2; apply P|rewrite V2; exact Q|intros e' k v I; apply NP; right; exact I]. }
  destruct (e_is e) as [ls|ls|ls|] eqn:EI.
  - destruct ls as [|k [|v [|]]]; try (rewrite UN; unfold and_rest, taken; rewrite EI; apply leaves_here; intro o; cbn; destruct (i =? o); lia).
    exfalso; apply (NP e k v); [left; reflexivity|exact EI].
  - destruct ls as [|k [|v [|]]]; try (rewrite UN; unfold and_rest, taken; rewrite EI; apply leaves_here; intro o; cbn; destruct (i =? o); lia).
    destruct (put_stop cfg t l k v H1 S0) as (t' & l' & E & R' & LL); rewrite E; cbn [stepr snd].
    pose proof (GO (last_error (errors cfg (k, v))) t' l' rc R' LL (fun _ => eq_refl)) as G.
    rewrite (proj1 (proj2 (stops_pair cfg k v))) in G; specialize (G eq_refl eq_refl).
    destruct (last_error (errors cfg (k, v))); exact G.
  - destruct ls as [|k [|v m]].
    + rewrite UN; unfold and_rest, taken; rewrite EI; apply leaves_here; intro o; rewrite inc_at; cbn; destruct (i =? o), (e_iter e =? o); lia.
    + rewrite UN; unfold and_rest, taken; rewrite EI; apply leaves_here; intro o; rewrite !inc_at; cbn; destruct (i =? o), (e_iter e =? o), (e_key e =? o); lia.
    + destruct (put_stop cfg t l k v H1 S0) as (t' & l' & E & R' & LL); rewrite E; cbn [stepr snd].
      match goal with |- leaves _ _ _ (dec _ _ (fun rc => dec _ rc (fun rc => dec _ rc ?K))) => destruct (dec3 (e_iter e) (e_key e) (e_val e) rc K P) as (rc3 & E3 & V3) end.
      rewrite E3; pose proof (GO (last_error (errors cfg (k, v))) t' l' rc3 R' LL V3) as G.
      rewrite (proj1 (stops_pair cfg k v)) in G; specialize (G eq_refl eq_refl).
      destruct (last_error (errors cfg (k, v))); exact G.
  - rewrite UN; unfold and_rest, taken; rewrite EI; apply leaves_here; intro o; cbn; destruct (i =? o); lia.
Qed.
Lemma mapping_leaves : forall cfg ks items t l p rc, HR t l -> small (length l + length items) -> (forall o, 0 <= rc o) -> 0 < rc ks ->
  answers (map snd items) -> leaves [] [ks] rc (mapping_r cfg ks items (t, p) rc).
Proof.
  intros cfg ks; induction items as [|[v [k x]] r IH]; intros t l p rc H1 S1 P Q A; cbn [mapping_r]; [apply leaves_dec; exact Q|].
  cbn [map snd] in A; apply Forall_cons_iff in A; destruct A as [A1 A]; cbn [snd length] in *.
  destruct x as [x|e|x e|u]; try contradiction; [|apply leaves_dec; exact Q].
  destruct (put_ok cfg t p l k x H1) as (t1 & E & R1); [unfold small in *; lia|]; rewrite E; cbn [stepr].
  match goal with |- leaves _ _ _ (dec _ _ ?K) => destruct (dec_ok v (inc v rc) K) as (rc2 & E2 & V2) end; [rewrite inc_at, occ_self; specialize (P v); lia|].
  assert (W : forall o, rc2 o = rc o) by (intro o; rewrite V2, inc_at; lia).
  rewrite E2; apply (leaves_shift [] [] [ks] rc rc2); [intro o; rewrite W; cbn [occ]; lia|].
  apply (IH t1 _ _ rc2 R1); [pose proof (keep_len l (int_of (m_py312 cfg) k) (int_of (m_py312 cfg) x)); unfold small in *; lia|intro o; rewrite W; apply P|rewrite W; exact Q|exact A].
Qed.
Lemma dict_answers : forall items, answers (map snd (map (fun '(v, (k, x)) => (v, (k, Ret x))) items : list (Z * (pyobj * outcome pyobj)))).
Proof. induction items as [|[v [k x]] r IH]; constructor; [exact I|exact IH]. Qed.
Lemma keys_start : forall ks rc k, (forall o, 0 <= rc o) -> exists rc', dec ks (inc ks (inc ks rc)) k = k rc' /\ forall o, rc' o = rc o + occ [ks] o.
Proof.
  intros ks rc k P; destruct (dec_ok ks (inc ks (inc ks rc)) k) as (rc' & E & V); [rewrite !inc_at, occ_self; specialize (P ks); lia|].
  exists rc'; split; [exact E|]; intro o; rewrite V, !inc_at; lia.
Qed.
Lemma leaves_twice : forall a i rc rc' x, (forall o, rc' o = rc o + occ [i] o) -> leaves a [i] rc' x -> leaves a [] rc x.
Proof. intros a i rc rc' x V (r & rc2 & E & W); exists r, rc2; split; [exact E|]; intro o; rewrite W, V; cbn [occ]; lia. Qed.
Lemma leaves_caught : forall a m rc x, leaves a m rc x -> leaves a m rc (caught x).
Proof. intros a m rc x (r & rc' & -> & V); cbn [caught]; eexists; eexists; split; [reflexivity|exact V]. Qed.
Lemma from_mapping_leaves : forall cfg a rc, (forall o, 0 <= rc o) -> fits (Some a) -> defined (Some a) -> leaves [] [] rc (from_mapping_r cfg a rc).
Proof.
  intros cfg a rc P F D; assert (N : forall r, leaves [] [] rc (Done r rc)) by (intro r; apply leaves_here; intro o; cbn [occ]; lia).
  destruct a as [t|ks items|i es tail|q es|ks [m|e]|]; cbn [from_mapping_r]; try apply N.
  - match goal with |- leaves _ _ _ (dec _ _ ?K) => destruct (keys_start ks rc K P) as (rc' & E & V) end; rewrite E.
    apply (leaves_twice [] ks rc rc' _ V), mapping_leaves with (l := []); [apply R_empty| | | |apply dict_answers].
    + unfold small; rewrite map_length; cbn; cbn in F; lia.
    + intro o; rewrite V; pose proof (occ_pos [ks] o); specialize (P o); lia.
    + rewrite V, occ_self; specialize (P ks); lia.
  - match goal with |- leaves _ _ _ (dec _ _ ?K) => destruct (keys_start ks rc K P) as (rc' & E & V) end; rewrite E.
    apply (leaves_twice [] ks rc rc' _ V), mapping_leaves with (l := []); [apply R_empty|exact F| | |exact D].
    + intro o; rewrite V; pose proof (occ_pos [ks] o); specialize (P o); lia.
    + rewrite V, occ_self; specialize (P ks); lia.
Qed.
Lemma fill_leaves : forall cfg arg1 arg2 rc, (forall o, 0 <= rc o) -> fits arg1 -> fits arg2 -> defined arg1 -> defined arg2 ->
  exists r rc', fill_r cfg arg1 arg2 rc = Done r rc' /\ forall o, rc' o = rc o + occ (left_behind cfg arg1 arg2) o.
Proof.
  intros cfg arg1 arg2 rc P F1 F2 D1 D2.
  assert (G : leaves (left_behind cfg arg1 arg2) [] rc (fill_r cfg arg1 arg2 rc)); [|destruct G as (r & rc' & E & V); exists r, rc'; split; [exact E|]; intro o; rewrite V; cbn [occ]; lia].
  assert (N : forall r, leaves [] [] rc (Done r rc)) by (intro r; apply leaves_here; intro o; cbn [occ]; lia).
  unfold fill_r; apply leaves_caught; destruct arg1 as [[t|ks items|i es tail|q es|ks m|]|]; cbn [left_behind]; try apply N; try (destruct arg2; apply N).
  - destruct arg2 as [a|]; [apply from_mapping_leaves; assumption|].
    apply (leaves_twice _ i rc (inc i rc)); [intro; apply inc_at|]; apply iter_leaves with (l := []); [apply R_empty|exact F1| |].
    + intro o; pose proof (inc_le i rc o); specialize (P o); lia.
    + rewrite inc_at, occ_self; specialize (P i); lia.
  - destruct arg2 as [a|]; [apply from_mapping_leaves; assumption|].
    apply (leaves_twice _ q rc (inc q rc)); [intro; apply inc_at|]; apply fast_leaves with (l := []); [apply R_empty|exact F1| | |exact D1].
    + intro o; pose proof (inc_le q rc o); specialize (P o); lia.
    + rewrite inc_at, occ_self; specialize (P q); lia.
  - apply (from_mapping_leaves cfg (RMapping ks m)); assumption.
Qed.

(** The same answers as MapModel's, whatever the size. *)
Lemma agrees_caught : forall i rc r x, agrees i rc r x -> exists rc', caught x = Done (handler r) rc' /\ forall o, rc o - occ i o <= rc' o.
Proof. intros i rc r x (rc' & -> & V); exists rc'; split; [reflexivity|exact V]. Qed.
Lemma from_mapping_agrees : forall cfg a rc, (forall o, 0 <= rc o) -> agrees [] rc (from_mapping cfg (plain_arg a)) (from_mapping_r cfg a rc).
Proof.
  intros cfg a rc P; unfold from_mapping; destruct a as [t|ks items|i es tail|q es|ks [m|e]|]; cbn [from_mapping_r plain_arg keys_of]; try apply agrees_done.
  - match goal with |- agrees _ _ _ (dec _ _ ?K) => destruct (keys_start ks rc K P) as (rc' & E & V) end; rewrite E.
    replace (map (fun '(k, v) => (k, Ret v)) (map snd items)) with (map snd (map (fun '(v, (k, x)) => (v, (k, Ret x))) items : list (Z * (pyobj * outcome pyobj)))).
    2:{ rewrite !map_map; apply map_ext; intros [v [k x]]; reflexivity. }
    destruct (mapping_agrees cfg ks (map (fun '(v, (k, x)) => (v, (k, Ret x))) items) (empty_table, None) rc') as (rc2 & E2 & V2).
    + intro o; rewrite V; pose proof (occ_pos [ks] o); specialize (P o); lia.
    + rewrite V, occ_self; specialize (P ks); lia.
    + exists rc2; split; [exact E2|]; intro o; specialize (V2 o); rewrite V in V2; cbn [occ] in *; lia.
  - match goal with |- agrees _ _ _ (dec _ _ ?K) => destruct (keys_start ks rc K P) as (rc' & E & V) end; rewrite E.
    destruct (mapping_agrees cfg ks m (empty_table, None) rc') as (rc2 & E2 & V2).
    + intro o; rewrite V; pose proof (occ_pos [ks] o); specialize (P o); lia.
    + rewrite V, occ_self; specialize (P ks); lia.
    + exists rc2; split; [exact E2|]; intro o; specialize (V2 o); rewrite V in V2; cbn [occ] in *; lia.
Qed.
Lemma fill_same : forall cfg arg1 arg2 rc, (forall o, 0 <= rc o) ->
  exists rc', fill_r cfg arg1 arg2 rc = Done (fill cfg (option_map plain_arg arg1) (option_map plain_arg arg2)) rc' /\ forall o, rc o <= rc' o.
Proof.
  intros cfg arg1 arg2 rc P; unfold fill_r, fill.
  assert (N : forall r x, agrees [] rc r x -> exists rc', caught x = Done (handler r) rc' /\ forall o, rc o <= rc' o).
  { intros r x A; destruct (agrees_caught _ _ _ _ A) as (rc' & E & V); exists rc'; split; [exact E|]; intro o; specialize (V o); cbn [occ] in V; lia. }
  assert (K : forall i r x, agrees [i] (inc i rc) r x -> agrees [] rc r x).
  { intros i r x (rc' & E & V); exists rc'; split; [exact E|]; intro o; specialize (V o); rewrite inc_at in V; cbn [occ] in *; lia. }
  assert (I1 : forall i, (forall o, 0 <= inc i rc o) /\ 0 < inc i rc i).
  { intro i; split; [intro o; pose proof (inc_le i rc o); specialize (P o); lia|rewrite inc_at, occ_self; specialize (P i); lia]. }
  destruct arg1 as [[t|ks items|i es tail|q es|ks m|]|]; cbn [option_map plain_arg]; try (apply N, agrees_done).
  - destruct arg2 as [a|]; cbn [option_map]; apply N; [apply from_mapping_agrees; exact P|].
    apply (K i), iter_agrees; apply I1.
  - destruct arg2 as [a|]; cbn [option_map]; apply N; [apply from_mapping_agrees; exact P|].
    apply (K q), fast_agrees; apply I1.
  - pose proof (from_mapping_agrees cfg (RMapping ks m) rc P) as A; destruct m; apply N; exact A.
Qed.
(** Nothing is left behind exactly when nothing of an iterator is read and no
    entry is misshapen. *)
Lemma left_iter_nil : forall cfg i es, left_iter cfg i es = [] <-> es = [].
Proof.
  intros cfg i es; split; [|intros ->; reflexivity]; destruct es as [|e r]; [reflexivity|]; unfold left_iter; cbn [entries_read]; destruct (stops_iter cfg (e_is e)); discriminate.
Qed.
Lemma left_iter_all : forall cfg i es, (forall e, In e es -> stop_of cfg (e_is e) = None) -> left_iter cfg i es = map e_obj es.
Proof.
  intros cfg i es; unfold left_iter, stopped_by; induction es as [|e r IH]; intro G; [reflexivity|]; cbn [entries_read List.find map].
  assert (stops_iter cfg (e_is e) = false) as -> by (unfold stops_iter; rewrite (G e (or_introl eq_refl)); reflexivity).
  cbn [map app]; f_equal; apply IH; intros x I; apply G; right; exact I.
Qed.
Lemma left_seq_all : forall cfg q es, (forall e, In e es -> stop_of cfg (e_is e) = None) -> left_seq cfg q es = [].
Proof.
  intros cfg q es; unfold left_seq, stopped_by; induction es as [|e r IH]; intro G; [reflexivity|]; cbn [List.find].
  assert (stops_iter cfg (e_is e) = false) as -> by (unfold stops_iter; rewrite (G e (or_introl eq_refl)); reflexivity).
  apply IH; intros x I; apply G; right; exact I.
Qed.
Lemma iterator_good : forall cfg i es tail rc, (forall o, 0 <= rc o) -> Z.of_nat (length es) <= 2 ^ 24 - 2 ->
  (forall e, In e es -> stop_of cfg (e_is e) = None) ->
  exists r rc', fill_r cfg (Some (RIter i es tail)) None rc = Done r rc' /\ forall o, rc' o = rc o + occ (map e_obj es) o.
Proof.
  intros cfg i es tail rc P F G; destruct (fill_leaves cfg (Some (RIter i es tail)) None rc P F I I I) as (r & rc' & E & V).
  exists r, rc'; split; [exact E|]; intro o; rewrite V; cbn [left_behind]; rewrite left_iter_all by exact G; reflexivity.
Qed.
Lemma sequence_good : forall cfg q es rc, (forall o, 0 <= rc o) -> Z.of_nat (length es) <= 2 ^ 24 - 2 -> no_pairs es ->
  (forall e, In e es -> stop_of cfg (e_is e) = None) ->
  exists r rc', fill_r cfg (Some (RSeqIter q es)) None rc = Done r rc' /\ forall o, rc' o = rc o.
Proof.
  intros cfg q es rc P F NP G; destruct (fill_leaves cfg (Some (RSeqIter q es)) None rc P F I NP I) as (r & rc' & E & V).
  exists r, rc'; split; [exact E|]; intro o; rewrite V; cbn [left_behind]; rewrite left_seq_all by exact G; cbn [occ]; lia.
Qed.
