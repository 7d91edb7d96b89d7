(** The invariant of the hash table and its consequences. *)
From Coq Require Import ZArith List Bool Lia.
From Verif Require Import Base HashModel HashCoreProofs.
Import ListNotations.
Local Open Scope Z_scope.
Local Arguments Z.pow : simpl never.
Local Arguments Z.mul : simpl never.
Local Arguments Z.add : simpl never.
Local Arguments Z.sub : simpl never.
Local Arguments Z.modulo : simpl never.
Local Arguments Z.div : simpl never.

Lemma NoDup_map_in : forall A B (f : A -> B) (l : list A),
  (forall a b, In a l -> In b l -> f a = f b -> a = b) -> NoDup l -> NoDup (map f l).
Proof.
  intros A B f; induction l as [|x l IH]; intros Inj ND; cbn; [constructor|].
  inversion ND as [|? ? Nx ND']; subst. constructor.
  - intros Hin. apply in_map_iff in Hin. destruct Hin as (y & E & Hy).
    assert (y = x) by (apply Inj; [right; exact Hy|left; reflexivity|exact E]). subst y; contradiction.
  - apply IH; [|exact ND']. intros a b Ha Hb; apply Inj; right; assumption.
Qed.

Definition limit : Z := 2 ^ 24 - 2.

Section Inv.
Context {V : Type}.
Variable hash : Z -> Z.
Hypothesis hash_range : forall k, 0 <= hash k < 2 ^ 64.

Definition fp (k : Z) : Z := hash k mod 256.
Definition home (s k : Z) : Z := hash k / 2 ^ s.
Definition nthv (vs : list (Z * V)) (i : Z) : option (Z * V) := if i <? 0 then None else nth_error vs (Z.to_nat i).

Lemma fp_range : forall k, 0 <= fp k < 256.
Proof. intros k; unfold fp; apply Z.mod_pos_bound; lia. Qed.

Lemma daf_of_eq : forall k, daf_of (hash k) = 256 * 1 + fp k.
Proof.
  intros k. unfold daf_of, wrap32, dist_step. pose proof (fp_range k) as F.
  assert (E : Z.land (hash k mod 2 ^ 32) 255 = fp k).
  { change 255 with (Z.ones 8). rewrite Z.land_ones by lia. unfold fp. change (2 ^ 8) with 256.
    change (2 ^ 32) with (256 * 2 ^ 24). rewrite Z.rem_mul_r by lia.
    rewrite Z.mul_comm, Z_mod_plus_full, Z.mod_mod by lia. reflexivity. }
  rewrite E. assert (L : Z.land 256 (fp k) = 0).
  { apply Z.bits_inj'. intros n Hn. rewrite Z.land_spec, Z.bits_0.
    change 256 with (2 ^ 8). rewrite Z.pow2_bits_eqb by lia.
    destruct (8 =? n) eqn:E8; [|reflexivity]. apply Z.eqb_eq in E8; subst n. cbn [andb].
    destruct (Z.eq_dec (fp k) 0) as [->|Nz]; [reflexivity|].
    apply Z.bits_above_log2; [lia|]. apply Z.log2_lt_pow2; [lia|]. change (2 ^ 8) with 256; lia. }
  rewrite <- Z.lxor_lor by exact L. rewrite <- Z.add_nocarry_lxor by exact L. lia.
Qed.

Lemma idx_of_eq : forall s k, 32 <= s <= 62 -> idx_of s (hash k) = home s k /\ 0 <= home s k < 2 ^ (64 - s).
Proof.
  intros s k Hs. pose proof (hash_range k) as Hk. unfold idx_of, home, wrap32.
  rewrite Z.shiftr_div_pow2 by lia.
  assert (R : 0 <= hash k / 2 ^ s < 2 ^ (64 - s)).
  { split; [apply Z.div_pos; [lia|apply Z.pow_pos_nonneg; lia]|].
    apply Z.div_lt_upper_bound; [apply Z.pow_pos_nonneg; lia|]. rewrite <- Z.pow_add_r by lia.
    replace (s + (64 - s)) with 64 by lia. lia. }
  split; [|exact R]. apply Z.mod_small. split; [lia|].
  apply Z.lt_le_trans with (2 ^ (64 - s)); [lia|]. apply Z.pow_le_mono_r; lia.
Qed.

Record Inv (vs : list (Z * V)) (bs : list bucket) (s c : Z) (live : Z -> Prop) : Prop := mkInv {
  i_s : 32 <= s <= 62;
  i_N : size_of bs = 2 ^ (64 - s);
  i_c : 0 <= c /\ c < size_of bs /\ c <= limit /\ c <= Z.of_nat (length vs);
  i_live : forall i, live i -> 0 <= i < c;
  i_keys : forall i j k v w, nthv vs i = Some (k, v) -> nthv vs j = Some (k, w) -> i = j;
  i_loc : forall x, daf (bk bs (x + 1)) < 512 \/ daf (bk bs (x + 1)) <= daf (bk bs x) + 256;
  i_emp : forall x, daf (bk bs x) = 0 -> vidx (bk bs x) = 0;
  i_ent : forall x, daf (bk bs x) <> 0 -> exists k v D,
      nthv vs (vidx (bk bs x)) = Some (k, v) /\ live (vidx (bk bs x)) /\ 1 <= D /\
      daf (bk bs x) = 256 * D + fp k /\ (home s k + D - 1) mod size_of bs = x mod size_of bs;
  i_uniq : forall x y, daf (bk bs x) <> 0 -> daf (bk bs y) <> 0 -> vidx (bk bs x) = vidx (bk bs y) ->
      x mod size_of bs = y mod size_of bs;
  i_all : forall i, live i -> exists x, daf (bk bs x) <> 0 /\ vidx (bk bs x) = i }.

Section One.
Variables (vs : list (Z * V)) (bs : list bucket) (s c : Z) (live : Z -> Prop).
Hypothesis I : Inv vs bs s c live.

Lemma N_bounds : 4 <= size_of bs <= 2 ^ 32.
Proof.
  rewrite (i_N _ _ _ _ _ I). pose proof (i_s _ _ _ _ _ I) as S0. split.
  - change 4 with (2 ^ 2). apply Z.pow_le_mono_r; lia.
  - apply Z.pow_le_mono_r; lia.
Qed.

Lemma home_range : forall k, 0 <= home s k < size_of bs.
Proof. intros k. rewrite (i_N _ _ _ _ _ I). apply idx_of_eq. apply (i_s _ _ _ _ _ I). Qed.

Lemma daf_pos : forall x, daf (bk bs x) <> 0 -> 256 <= daf (bk bs x).
Proof.
  intros x H. destruct (i_ent _ _ _ _ _ I x H) as (k & v & D & _ & _ & HD & E & _).
  pose proof (fp_range k). lia.
Qed.
Lemma daf_nonneg : forall x, 0 <= daf (bk bs x).
Proof.
  intros x. destruct (Z.eq_dec (daf (bk bs x)) 0) as [->|H]; [lia|]. apply daf_pos in H; lia.
Qed.

(** Distinct non-empty positions: no more than [c]. *)
Lemma pigeon : forall (n : nat) p, Z.of_nat n <= size_of bs ->
  (forall i, 0 <= i < Z.of_nat n -> daf (bk bs (p + i)) <> 0) -> Z.of_nat n <= c.
Proof.
  intros n p Hn H.
  set (l := map (fun i => Z.to_nat (vidx (bk bs (p + Z.of_nat i)))) (seq 0 n)).
  assert (ND : NoDup l).
  { apply NoDup_map_in; [|apply seq_NoDup].
    intros a b Ha Hb E. apply in_seq in Ha, Hb.
    assert (Da : daf (bk bs (p + Z.of_nat a)) <> 0) by (apply H; lia).
    assert (Db : daf (bk bs (p + Z.of_nat b)) <> 0) by (apply H; lia).
    destruct (i_ent _ _ _ _ _ I _ Da) as (k1 & v1 & D1 & _ & L1 & _). apply (i_live _ _ _ _ _ I) in L1.
    destruct (i_ent _ _ _ _ _ I _ Db) as (k2 & v2 & D2 & _ & L2 & _). apply (i_live _ _ _ _ _ I) in L2.
    assert (M := i_uniq _ _ _ _ _ I _ _ Da Db ltac:(lia)).
    destruct (Z.lt_trichotomy (Z.of_nat a) (Z.of_nat b)) as [L|[L|L]]; [|lia|]; exfalso.
    - assert (Q : (Z.of_nat b - Z.of_nat a) mod size_of bs = 0).
      { replace (Z.of_nat b - Z.of_nat a) with ((p + Z.of_nat b) - (p + Z.of_nat a)) by lia.
        rewrite Zminus_mod, M, Z.sub_diag. apply Z.mod_0_l. pose proof N_bounds; lia. }
      rewrite Z.mod_small in Q by lia. lia.
    - assert (Q : (Z.of_nat a - Z.of_nat b) mod size_of bs = 0).
      { replace (Z.of_nat a - Z.of_nat b) with ((p + Z.of_nat a) - (p + Z.of_nat b)) by lia.
        rewrite Zminus_mod, M, Z.sub_diag. apply Z.mod_0_l. pose proof N_bounds; lia. }
      rewrite Z.mod_small in Q by lia. lia. }
  assert (IN : incl l (seq 0 (Z.to_nat c))).
  { intros z Hz. apply in_map_iff in Hz. destruct Hz as (a & <- & Ha). apply in_seq in Ha.
    assert (Da : daf (bk bs (p + Z.of_nat a)) <> 0) by (apply H; lia).
    destruct (i_ent _ _ _ _ _ I _ Da) as (k1 & v1 & D1 & _ & L1 & _). apply (i_live _ _ _ _ _ I) in L1.
    apply in_seq; lia. }
  pose proof (NoDup_incl_length ND IN) as Le. unfold l in Le. rewrite map_length, !seq_length in Le.
  pose proof (i_c _ _ _ _ _ I); lia.
Qed.

(** From any position an empty bucket is met within one round. *)
Lemma free_from : forall p, exists e, 0 <= e < size_of bs /\ daf (bk bs (p + e)) = 0.
Proof.
  intros p. pose proof N_bounds as NB. pose proof (i_c _ _ _ _ _ I) as C.
  destruct (existsb (fun i => daf (bk bs (p + Z.of_nat i)) =? 0) (seq 0 (Z.to_nat (size_of bs)))) eqn:E.
  - apply existsb_exists in E. destruct E as (i & Hi & Ei). apply in_seq in Hi. apply Z.eqb_eq in Ei.
    exists (Z.of_nat i); split; [lia|assumption].
  - exfalso. assert (P : Z.of_nat (Z.to_nat (size_of bs)) <= c); [|lia].
    apply (pigeon _ p); [lia|]. intros i Hi Z0.
    assert (T : existsb (fun i => daf (bk bs (p + Z.of_nat i)) =? 0) (seq 0 (Z.to_nat (size_of bs))) = true); [|congruence].
    apply existsb_exists. exists (Z.to_nat i). split; [apply in_seq; lia|].
    apply Z.eqb_eq. rewrite <- Z0. do 2 f_equal; lia.
Qed.

(** Before a bucket with distance [D]: distances at least [D - i]. *)
Lemma behind : forall x D f (i : nat), daf (bk bs x) >= 256 * D + f -> 0 <= f < 256 -> Z.of_nat i < D ->
  daf (bk bs (x - Z.of_nat i)) >= 256 * (D - Z.of_nat i) + f.
Proof.
  intros x D f i HD Hf. induction i as [|i IH]; intros Hi.
  - replace (x - Z.of_nat 0) with x by lia. lia.
  - specialize (IH ltac:(lia)). pose proof (i_loc _ _ _ _ _ I (x - Z.of_nat (S i))) as L.
    replace (x - Z.of_nat (S i) + 1) with (x - Z.of_nat i) in L by lia. lia.
Qed.

Lemma dist_le : forall x D f, daf (bk bs x) >= 256 * D + f -> 0 <= f < 256 -> D <= c.
Proof.
  intros x D f HD Hf. pose proof N_bounds as NB. pose proof (i_c _ _ _ _ _ I) as C.
  destruct (Z_le_gt_dec D 0) as [L|G]; [lia|].
  assert (DN : D < size_of bs).
  { destruct (Z_lt_le_dec D (size_of bs)) as [|G2]; [assumption|]. exfalso.
    destruct (free_from (x - (size_of bs - 1))) as (e & He & Ee).
    assert (B := behind x D f (Z.to_nat (size_of bs - 1 - e)) HD Hf ltac:(lia)).
    replace (x - Z.of_nat (Z.to_nat (size_of bs - 1 - e))) with (x - (size_of bs - 1) + e) in B by lia.
    nia. }
  replace D with (Z.of_nat (Z.to_nat D)) by lia.
  apply (pigeon _ (x - (D - 1))); [lia|]. intros i Hi.
  assert (B := behind x D f (Z.to_nat (D - 1 - i)) HD Hf ltac:(lia)).
  replace (x - Z.of_nat (Z.to_nat (D - 1 - i))) with (x - (D - 1) + i) in B by lia. nia.
Qed.

Lemma daf_le : forall x, daf (bk bs x) <= 256 * c + 255.
Proof.
  intros x. pose proof (i_c _ _ _ _ _ I) as C.
  destruct (Z.eq_dec (daf (bk bs x)) 0) as [->|H]; [lia|].
  destruct (i_ent _ _ _ _ _ I x H) as (k & v & D & _ & _ & HD & E & _).
  pose proof (fp_range k) as F. assert (D <= c) by (apply (dist_le x D (fp k)); lia). lia.
Qed.

(** Where a key is. *)
Definition stored (key i D : Z) : Prop :=
  live i /\ (exists v, nthv vs i = Some (key, v)) /\ 1 <= D <= c /\
  daf (bk bs (home s key + D - 1)) = 256 * D + fp key /\ vidx (bk bs (home s key + D - 1)) = i.

Lemma stored_ex : forall key i v, live i -> nthv vs i = Some (key, v) -> exists D, stored key i D.
Proof.
  intros key i v L E. destruct (i_all _ _ _ _ _ I i L) as (x & Dx & Vx).
  destruct (i_ent _ _ _ _ _ I x Dx) as (k & w & D & Ek & _ & HD & Ed & M).
  rewrite Vx, E in Ek. injection Ek as <- <-.
  pose proof (fp_range key). assert (D <= c) by (apply (dist_le x D (fp key)); lia).
  exists D. split; [exact L|]. split; [eexists; exact E|]. split; [lia|].
  rewrite (bk_cong bs _ _ M). split; assumption.
Qed.

Lemma stored_before : forall key i D d, stored key i D -> 1 <= d <= D ->
  daf (bk bs (home s key + d - 1)) >= 256 * d + fp key.
Proof.
  intros key i D d (_ & _ & HD & E & _) Hd. pose proof (fp_range key).
  assert (B := behind (home s key + D - 1) D (fp key) (Z.to_nat (D - d)) ltac:(lia) ltac:(lia) ltac:(lia)).
  replace (home s key + D - 1 - Z.of_nat (Z.to_nat (D - d))) with (home s key + d - 1) in B by lia. lia.
Qed.

(** A bucket with exactly the searched mark: its distance is the searched one. *)
Lemma mark_eq : forall x key d, daf (bk bs x) = 256 * d + fp key -> 1 <= d -> exists k v,
  nthv vs (vidx (bk bs x)) = Some (k, v) /\ live (vidx (bk bs x)) /\ fp k = fp key /\ d <= c /\
  (home s k + d - 1) mod size_of bs = x mod size_of bs.
Proof.
  intros x key d E Hd. pose proof (fp_range key) as F.
  destruct (i_ent _ _ _ _ _ I x ltac:(lia)) as (k & v & D & Ek & L & HD & Ed & M).
  pose proof (fp_range k) as F2. assert (D = d) by lia. subst D.
  exists k, v. split; [exact Ek|]. split; [exact L|]. split; [lia|]. split; [apply (dist_le x d (fp key)); lia|exact M].
Qed.

Lemma inc_ok : forall d f, 0 <= f < 256 -> 0 <= d <= 2 ^ 24 - 2 -> dist_inc (256 * d + f) = 256 * (d + 1) + f.
Proof. intros d f F D. unfold dist_inc, wrap32, dist_step. rewrite Z.mod_small by lia. lia. Qed.

(** The position of step [d]. *)
Definition pos (key d : Z) : Z := (home s key + d - 1) mod size_of bs.
Lemma pos_range : forall key d, 0 <= pos key d < size_of bs.
Proof. intros; unfold pos; apply Z.mod_pos_bound. pose proof N_bounds; lia. Qed.
Lemma bk_pos : forall key d, bk bs (pos key d) = bk bs (home s key + d - 1).
Proof. intros; apply bk_cong; unfold pos. apply Z.mod_mod. pose proof N_bounds; lia. Qed.
Lemma next_pos : forall key d, next bs (pos key d) = pos key (d + 1).
Proof.
  intros key d. rewrite next_mod by (apply pos_range || apply N_bounds). unfold pos.
  rewrite Zplus_mod_idemp_l. f_equal; lia.
Qed.
Lemma pos_1 : forall key, idx_of s (hash key) = pos key 1.
Proof.
  intros key. destruct (idx_of_eq s key (i_s _ _ _ _ _ I)) as [-> R]. unfold pos.
  rewrite Z.mod_small; [lia|]. rewrite (i_N _ _ _ _ _ I). lia.
Qed.
Lemma at_pos : forall key d, at_ bs (pos key d) = Ok (bk bs (home s key + d - 1)).
Proof. intros key d. rewrite at_bk by apply pos_range. rewrite bk_pos; reflexivity. Qed.

Lemma key_at_nthv : forall l i k (v : V), nthv l i = Some (k, v) -> key_at l i = Ok k.
Proof.
  intros l i k v; unfold nthv, key_at. destruct (i <? 0); [discriminate|]. intros ->; reflexivity.
Qed.

(** The key is not among the live values. *)
Definition absent (key : Z) : Prop := forall i v, live i -> nthv vs i <> Some (key, v).

Lemma not_here : forall key i D d k v, stored key i D -> d <= D -> 
  daf (bk bs (home s key + d - 1)) = 256 * d + fp key ->
  nthv vs (vidx (bk bs (home s key + d - 1))) = Some (k, v) -> key <> k -> d + 1 <= D.
Proof.
  intros key i D d k v St Hd E Ek Ne. destruct (Z.eq_dec d D) as [->|]; [|lia]. exfalso.
  destruct St as (_ & (w & Ew) & _ & _ & Vi). rewrite Vi, Ew in Ek. congruence.
Qed.

(** The search of do_try_emplace. *)
Lemma try_loop_ok : forall (n : nat) key d, (forall i D, stored key i D -> d <= D) ->
  1 <= d <= c + 1 -> (d >= 2 -> daf (bk bs (home s key + d - 2)) >= 256 * (d - 1) + fp key) ->
  c + 1 - d < Z.of_nat n ->
  (exists i, (exists v, nthv vs i = Some (key, v)) /\ live i /\ try_loop n vs bs key (256 * d + fp key) (pos key d) = Ok (Found i)) \/
  (absent key /\ exists e, try_loop n vs bs key (256 * d + fp key) (pos key d) = Ok (Vacant (256 * e + fp key) (pos key e)) /\
     1 <= e <= c + 1 /\ daf (bk bs (home s key + e - 1)) < 256 * e + fp key /\
     (e >= 2 -> daf (bk bs (home s key + e - 2)) >= 256 * (e - 1) + fp key)).
Proof.
  induction n as [|n IH]; intros key d Hst Hd Hp Hn; [lia|]. cbn [try_loop].
  pose proof (fp_range key) as F. pose proof (i_c _ _ _ _ _ I) as C.
  rewrite at_pos. cbn [rbind]. set (b := bk bs (home s key + d - 1)) in *.
  destruct (256 * d + fp key =? daf b) eqn:E.
  - apply Z.eqb_eq in E. destruct (mark_eq _ key d (eq_sym E) ltac:(lia)) as (k & v & Ek & L & Ef & Dc & M).
    fold b in Ek, L. rewrite (key_at_nthv _ _ _ _ Ek). cbn [rbind]. destruct (key =? k) eqn:K.
    + apply Z.eqb_eq in K; subst k. left. exists (vidx b). split; [eexists; exact Ek|]. split; [exact L|reflexivity].
    + apply Z.eqb_neq in K. unfold limit in C. rewrite inc_ok by lia. rewrite next_pos. apply IH; [|lia| |lia].
      * intros i D St. eapply not_here; [exact St|apply (Hst i D St)|symmetry; exact E|exact Ek|exact K].
      * intros _. replace (home s key + (d + 1) - 2) with (home s key + d - 1) by lia. fold b. lia.
  - apply Z.eqb_neq in E. destruct (daf b <? 256 * d + fp key) eqn:Lt.
    + apply Z.ltb_lt in Lt. right. split.
      * intros i v L Ev. destruct (stored_ex key i v L Ev) as (D & St).
        pose proof (stored_before key i D d St ltac:(specialize (Hst i D St); lia)) as B. fold b in B. lia.
      * exists d. split; [reflexivity|]. fold b. split; [lia|]. split; [lia|]. exact Hp.
    + apply Z.ltb_ge in Lt. assert (Gt : daf b > 256 * d + fp key) by lia.
      assert (Dc : d <= c) by (apply (dist_le (home s key + d - 1) d (fp key)); fold b; lia).
      unfold limit in C. rewrite inc_ok by lia. rewrite next_pos. apply IH; [|lia| |lia].
      * intros i D St. specialize (Hst i D St). destruct (Z.eq_dec d D) as [->|]; [|lia].
        destruct St as (_ & _ & _ & Ed & _). fold b in Ed. lia.
      * intros _. replace (home s key + (d + 1) - 2) with (home s key + d - 1) by lia. fold b. lia.
Qed.

(** next_while_less. *)
Lemma less_loop_ok : forall (n : nat) key d, (forall i D, stored key i D -> d <= D) ->
  1 <= d <= c + 1 -> (d >= 2 -> daf (bk bs (home s key + d - 2)) >= 256 * (d - 1) + fp key) ->
  c + 1 - d < Z.of_nat n ->
  exists e, less_loop n bs (256 * d + fp key) (pos key d) = Ok (256 * e + fp key, pos key e) /\
     1 <= e <= c + 1 /\ daf (bk bs (home s key + e - 1)) <= 256 * e + fp key /\
     (e >= 2 -> daf (bk bs (home s key + e - 2)) >= 256 * (e - 1) + fp key) /\
     (forall i D, stored key i D -> e <= D).
Proof.
  induction n as [|n IH]; intros key d Hst Hd Hp Hn; [lia|]. cbn [less_loop].
  pose proof (fp_range key) as F. pose proof (i_c _ _ _ _ _ I) as C.
  rewrite at_pos. cbn [rbind]. set (b := bk bs (home s key + d - 1)) in *.
  destruct (256 * d + fp key <? daf b) eqn:E.
  - apply Z.ltb_lt in E. assert (Dc : d <= c) by (apply (dist_le (home s key + d - 1) d (fp key)); fold b; lia).
    unfold limit in C. rewrite inc_ok by lia. rewrite next_pos. apply IH; [|lia| |lia].
    + intros i D St. specialize (Hst i D St). destruct (Z.eq_dec d D) as [->|]; [|lia].
      destruct St as (_ & _ & _ & Ed & _). fold b in Ed. lia.
    + intros _. replace (home s key + (d + 1) - 2) with (home s key + d - 1) by lia. fold b. lia.
  - apply Z.ltb_ge in E. exists d. split; [reflexivity|]. fold b. split; [lia|]. split; [lia|]. split; assumption.
Qed.

Lemma stored_1 : forall key i D, stored key i D -> 1 <= D.
Proof. intros key i D (_ & _ & H & _); lia. Qed.

Lemma less_ok : forall key, exists e, next_while_less hash bs s key = Ok (256 * e + fp key, pos key e) /\
     1 <= e <= c + 1 /\ daf (bk bs (home s key + e - 1)) <= 256 * e + fp key /\
     (e >= 2 -> daf (bk bs (home s key + e - 2)) >= 256 * (e - 1) + fp key) /\
     (forall i D, stored key i D -> e <= D).
Proof.
  intros key. unfold next_while_less. rewrite daf_of_eq, pos_1. pose proof (i_c _ _ _ _ _ I) as C.
  apply less_loop_ok; [apply stored_1|lia|lia|]. unfold fuel. unfold size_of in C. lia.
Qed.

(** The loop of do_erase_key. *)
Lemma erase_loop_ok : forall (n : nat) key d, (forall i D, stored key i D -> d <= D) ->
  1 <= d <= c + 1 -> daf (bk bs (home s key + d - 1)) <= 256 * d + fp key ->
  c + 1 - d < Z.of_nat n ->
  exists e, erase_loop n vs bs key (256 * e + fp key) (pos key e) = Ok (256 * e + fp key, pos key e) /\
    erase_loop n vs bs key (256 * d + fp key) (pos key d) = Ok (256 * e + fp key, pos key e) /\
    ((exists i, stored key i e) \/ (absent key /\ daf (bk bs (home s key + e - 1)) <> 256 * e + fp key)).
Proof.
  induction n as [|n IH]; intros key d Hst Hd Hle Hn; [lia|]. cbn [erase_loop].
  pose proof (fp_range key) as F. pose proof (i_c _ _ _ _ _ I) as C.
  rewrite at_pos. cbn [rbind]. set (b := bk bs (home s key + d - 1)) in *.
  destruct (256 * d + fp key =? daf b) eqn:E.
  - apply Z.eqb_eq in E. destruct (mark_eq _ key d (eq_sym E) ltac:(lia)) as (k & v & Ek & L & Ef & Dc & M).
    fold b in Ek, L. rewrite (key_at_nthv _ _ _ _ Ek). cbn [rbind]. destruct (key =? k) eqn:K.
    + apply Z.eqb_eq in K; subst k. exists d. rewrite at_pos. fold b. cbn [rbind].
      rewrite <- E, Z.eqb_refl, (key_at_nthv _ _ _ _ Ek). cbn [rbind]. rewrite Z.eqb_refl.
      split; [reflexivity|]. split; [reflexivity|]. left. exists (vidx b).
      split; [exact L|]. split; [eexists; exact Ek|]. split; [lia|]. fold b. split; [lia|reflexivity].
    + apply Z.eqb_neq in K. unfold limit in C. rewrite inc_ok by lia. rewrite next_pos.
      assert (N1 : daf (bk bs (home s key + (d + 1) - 1)) <= 256 * (d + 1) + fp key).
      { destruct (i_loc _ _ _ _ _ I (home s key + d - 1)) as [Lo|Lo];
          replace (home s key + d - 1 + 1) with (home s key + (d + 1) - 1) in Lo by lia; [|fold b in Lo]; lia. }
      destruct (IH key (d + 1)) as (e & _ & E2 & R); [|lia|exact N1|lia|].
      * intros i D St. eapply not_here; [exact St|apply (Hst i D St)|symmetry; exact E|exact Ek|exact K].
      * exists e. split; [|split; [exact E2|exact R]].
        rewrite at_pos. cbn [rbind]. destruct (256 * e + fp key =? daf (bk bs (home s key + e - 1))) eqn:Ee; [|reflexivity].
        apply Z.eqb_eq in Ee. destruct R as [(i & St)|(_ & R)]; [|congruence].
        destruct St as (_ & (w & Ew) & _ & _ & Vi). rewrite Vi, (key_at_nthv _ _ _ _ Ew). cbn [rbind]. rewrite Z.eqb_refl. reflexivity.
  - apply Z.eqb_neq in E. exists d. rewrite at_pos. fold b. cbn [rbind].
    destruct (256 * d + fp key =? daf b) eqn:E'; [apply Z.eqb_eq in E'; contradiction|].
    split; [reflexivity|]. split; [reflexivity|]. right. split; [|lia].
    intros i v L Ev. destruct (stored_ex key i v L Ev) as (D & St).
    pose proof (stored_before key i D d St ltac:(specialize (Hst i D St); lia)) as B. fold b in B. lia.
Qed.

(** The loop of do_find. *)
Lemma find_loop_ok : forall (n : nat) key d, (forall i D, stored key i D -> d <= D) ->
  1 <= d <= Z.max 3 (c + 1) -> Z.max 3 (c + 1) - d < Z.of_nat n ->
  (exists i, (exists v, nthv vs i = Some (key, v)) /\ live i /\ find_loop n vs bs key (256 * d + fp key) (pos key d) = Ok (Some i)) \/
  (absent key /\ find_loop n vs bs key (256 * d + fp key) (pos key d) = Ok None).
Proof.
  induction n as [|n IH]; intros key d Hst Hd Hn; [lia|]. cbn [find_loop].
  pose proof (fp_range key) as F. pose proof (i_c _ _ _ _ _ I) as C.
  rewrite at_pos. cbn [rbind]. set (b := bk bs (home s key + d - 1)) in *.
  destruct (256 * d + fp key =? daf b) eqn:E.
  - apply Z.eqb_eq in E. destruct (mark_eq _ key d (eq_sym E) ltac:(lia)) as (k & v & Ek & L & Ef & Dc & M).
    fold b in Ek, L. rewrite (key_at_nthv _ _ _ _ Ek). cbn [rbind]. destruct (key =? k) eqn:K.
    + apply Z.eqb_eq in K; subst k. left. exists (vidx b). split; [eexists; exact Ek|]. split; [exact L|reflexivity].
    + apply Z.eqb_neq in K. unfold limit in C. rewrite inc_ok by lia. rewrite next_pos. apply IH; [|lia|lia].
      intros i D St. eapply not_here; [exact St|apply (Hst i D St)|symmetry; exact E|exact Ek|exact K].
  - apply Z.eqb_neq in E. destruct (daf b <? 256 * d + fp key) eqn:Lt.
    + apply Z.ltb_lt in Lt. right. split; [|reflexivity].
      intros i v L Ev. destruct (stored_ex key i v L Ev) as (D & St).
      pose proof (stored_before key i D d St ltac:(specialize (Hst i D St); lia)) as B. fold b in B. lia.
    + apply Z.ltb_ge in Lt. assert (Gt : daf b > 256 * d + fp key) by lia.
      assert (Dc : d <= c) by (apply (dist_le (home s key + d - 1) d (fp key)); fold b; lia).
      unfold limit in C. rewrite inc_ok by lia. rewrite next_pos. apply IH; [|lia|lia].
      intros i D St. specialize (Hst i D St). destruct (Z.eq_dec d D) as [->|]; [|lia].
      destruct St as (_ & _ & _ & Ed & _). fold b in Ed. lia.
Qed.

Lemma find_step_ok : forall key d rest, (forall i D, stored key i D -> d <= D) -> 1 <= d ->
  (exists i v, nthv vs i = Some (key, v) /\ live i /\ find_step vs bs key (256 * d + fp key) (pos key d) rest = Ok (Some i)) \/
  (find_step vs bs key (256 * d + fp key) (pos key d) rest = rest /\ forall i D, stored key i D -> d + 1 <= D).
Proof.
  intros key d rest Hst Hd. unfold find_step. rewrite at_pos. cbn [rbind].
  set (b := bk bs (home s key + d - 1)) in *. destruct (256 * d + fp key =? daf b) eqn:E.
  - apply Z.eqb_eq in E. destruct (mark_eq _ key d (eq_sym E) ltac:(lia)) as (k & v & Ek & L & Ef & Dc & M).
    fold b in Ek, L. rewrite (key_at_nthv _ _ _ _ Ek). cbn [rbind]. destruct (key =? k) eqn:K.
    + apply Z.eqb_eq in K; subst k. left. exists (vidx b), v. split; [exact Ek|]. split; [exact L|reflexivity].
    + apply Z.eqb_neq in K. right. split; [reflexivity|]. intros i D St.
      eapply not_here; [exact St|apply (Hst i D St)|symmetry; exact E|exact Ek|exact K].
  - apply Z.eqb_neq in E. right. split; [reflexivity|]. intros i D St. specialize (Hst i D St).
    destruct (Z.eq_dec d D) as [->|]; [|lia]. destruct St as (_ & _ & _ & Ed & _). fold b in Ed. lia.
Qed.

(** The search for a moved value. *)
Lemma seek_ok : forall (n : nat) key i D d, stored key i D -> 1 <= i -> 1 <= d <= D -> D - d < Z.of_nat n ->
  seek n bs i (pos key d) = Ok (pos key D).
Proof.
  induction n as [|n IH]; intros key i D d St Hi Hd Hn; [lia|]. cbn [seek]. rewrite at_pos. cbn [rbind].
  destruct (i =? vidx (bk bs (home s key + d - 1))) eqn:E.
  - apply Z.eqb_eq in E. destruct (Z.eq_dec d D) as [->|Ne]; [reflexivity|]. exfalso.
    pose proof (stored_before key i D d St ltac:(lia)) as B. pose proof (fp_range key) as F.
    pose proof St as (L & (w & Ew) & HD & Ed & Vi).
    assert (M := i_uniq _ _ _ _ _ I (home s key + d - 1) (home s key + D - 1) ltac:(lia) ltac:(lia) ltac:(lia)).
    pose proof (i_c _ _ _ _ _ I) as C.
    assert (Q : (D - d) mod size_of bs = 0).
    { replace (D - d) with ((home s key + D - 1) - (home s key + d - 1)) by lia.
      rewrite Zminus_mod, M, Z.sub_diag. apply Z.mod_0_l. lia. }
    rewrite Z.mod_small in Q by lia. lia.
  - rewrite next_pos. apply Z.eqb_neq in E. apply IH; try assumption; [|lia].
    destruct (Z.eq_dec d D) as [->|]; [|lia]. destruct St as (_ & _ & _ & _ & Vi). congruence.
Qed.
End One.
End Inv.
