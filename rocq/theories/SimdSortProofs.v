(** Proofs about simdsort. *)
From Coq Require Import ZArith List Bool Lia Sorting.Sorted Sorting.Permutation Arith.
From Verif Require Import Base MemModel PyListSpec ListLemmas ArrayListModel CPythonSortModel SortSpec
  TimSortModel TimSortProofs SimdSortModel SimdSortSpec.
Import ListNotations.
Local Open Scope Z_scope.
Local Arguments Z.pow : simpl never.
Local Arguments Z.of_nat : simpl never.
Local Arguments Z.to_nat : simpl never.
Local Arguments Z.add : simpl never.
Local Arguments Z.sub : simpl never.
Local Arguments Z.mul : simpl never.
Local Arguments Z.modulo : simpl never.
Local Arguments Z.div : simpl never.

(** ** The library sort *)
Lemma insert_perm lt x l : Permutation (insert_by lt x l) (x :: l).
Proof.
  induction l as [|y r IH]; cbn; [reflexivity|].
  destruct (lt y x); [|reflexivity]. rewrite IH. apply perm_swap.
Qed.

Lemma std_sort_perm rv l : Permutation (std_sort rv l) l.
Proof.
  induction l as [|x r IH]; cbn; [reflexivity|]. rewrite insert_perm. auto.
Qed.

Lemma insert_ordered rv x l : ordered rv l -> ordered rv (insert_by (before rv) x l).
Proof.
  unfold ordered. induction l as [|y r IH]; cbn; intros H.
  - repeat constructor.
  - inversion H as [|? ? Hr Hy]; subst.
    destruct (before rv y x) eqn:E.
    + constructor; [auto|]. rewrite Forall_forall in *. intros z Hz.
      apply (Permutation_in _ (insert_perm _ _ _)) in Hz. destruct Hz as [<-|Hz]; [|apply Hy; exact Hz].
      unfold before in E. destruct rv; lia.
    + constructor; [auto|]. unfold before in E. constructor; [destruct rv; lia|].
      rewrite Forall_forall in *. intros z Hz. specialize (Hy z Hz). destruct rv; lia.
Qed.

Lemma std_sort_ordered rv l : ordered rv (std_sort rv l).
Proof. induction l; cbn; [constructor|]. apply insert_ordered. auto. Qed.

Lemma before_weak rv : weak_order (before rv).
Proof. unfold weak_order, before. split; intros; destruct rv; lia. Qed.

Lemma ascending_ordered rv l : ascending (before rv) l -> ordered rv l.
Proof.
  unfold ascending, ordered. intros H. induction H as [|x l S IH F]; constructor; auto.
  rewrite Forall_forall in *. intros y Hy. specialize (F y Hy). unfold before in F. destruct rv; lia.
Qed.

(** ** Small sizes and CPUs without AVX2 and AVX-512 *)
Definition sorts (f : cpu) (k : kind) (rv : bool) (l : list Z) : Prop :=
  exists l', simdsort f k rv l = Ret l' /\ Permutation l' l /\ ordered rv l'.

Lemma sorts_std f k rv l : simdsort f k rv l = Ret (std_sort rv l) -> sorts f k rv l.
Proof. intros E. exists (std_sort rv l). split; [auto|]. split; [apply std_sort_perm|apply std_sort_ordered]. Qed.

Lemma sorts_tiny f k rv l : zlen l < 8 -> sorts f k rv l.
Proof.
  intros H. destruct (Z.leb_spec (zlen l) 1).
  - exists l. unfold simdsort. destruct (Z.leb_spec (zlen l) 1); [|lia]. split; [auto|].
    split; [reflexivity|]. unfold ordered. destruct l as [|x [|y r]]; [constructor|repeat constructor|].
    rewrite !zlen_cons in *. pose proof (zlen_nonneg r). lia.
  - apply sorts_std. unfold simdsort. destruct (Z.leb_spec (zlen l) 1); [lia|].
    destruct (Z.ltb_spec (zlen l) 8); [auto|lia].
Qed.

Lemma sorts_scalar f k rv l : avx2 f = false -> avx512 f = false -> 2 * zlen l + 1 <= SSIZE_MAX ->
  sorts f k rv l.
Proof.
  intros E1 E2 HM. destruct (Z.ltb_spec (zlen l) 8); [apply sorts_tiny; auto|].
  destruct (Z.ltb_spec 5000 (zlen l)).
  - destruct (timsort_correct (before rv) l HM (before_weak rv)) as (l' & E & P & A & _).
    exists l'. unfold simdsort, fallback_sort. rewrite E1, E2.
    destruct (Z.leb_spec (zlen l) 1); [lia|]. destruct (Z.ltb_spec (zlen l) 8); [lia|].
    cbn [negb andb]. destruct (Z.ltb_spec 5000 (zlen l)); [|lia]. rewrite E.
    split; [auto|]. split; [auto|]. apply ascending_ordered; auto.
  - apply sorts_std. unfold simdsort, fallback_sort. rewrite E1, E2.
    destruct (Z.leb_spec (zlen l) 1); [lia|]. destruct (Z.ltb_spec (zlen l) 8); [lia|].
    cbn [negb andb]. destruct (Z.ltb_spec 5000 (zlen l)); [lia|]. auto.
Qed.

Lemma per_val w k : per w k = w / ez k. Proof. reflexivity. Qed.
Lemma ez_val k : ez k = match k with KInt => 4 | KBig => 8 end.
Proof. destruct k; reflexivity. Qed.

Lemma merge_blocks_done fuel f k rv size cur other : zlen cur <= size ->
  merge_blocks fuel f k rv size cur other = Ret cur.
Proof. intros H. destruct fuel; cbn [merge_blocks]; destruct (Z.ltb_spec size (zlen cur)); auto; lia. Qed.

Lemma firstn_0 {A} (l : list A) : firstn (Z.to_nat 0) l = []. Proof. reflexivity. Qed.

(** The sizes at which no vector block is sorted. *)
Lemma sorts_unblocked f k rv l :
  (avx512 f = true -> zlen l <= per 64 k) -> (avx2 f = true -> zlen l <= per 32 k) ->
  (avx2 f || avx512 f = true) ->
  sorts f k rv l.
Proof.
  intros H5 H2 HV. destruct (Z.ltb_spec (zlen l) 8); [apply sorts_tiny; auto|].
  apply sorts_std. unfold simdsort.
  destruct (Z.leb_spec (zlen l) 1); [lia|]. destruct (Z.ltb_spec (zlen l) 8); [lia|].
  destruct (negb (avx2 f) && negb (avx512 f)) eqn:E.
  { destruct (avx2 f), (avx512 f); discriminate. }
  replace (avx512 f && (0 + per 64 k <? zlen l)) with false.
  2:{ destruct (avx512 f); [|auto]. cbn [andb]. specialize (H5 eq_refl). symmetry. apply Z.ltb_ge. lia. }
  cbn [obind]. cbv zeta.
  replace (avx2 f && (0 + per 32 k <? zlen l)) with false.
  2:{ destruct (avx2 f); [|auto]. cbn [andb]. specialize (H2 eq_refl). symmetry. apply Z.ltb_ge. lia. }
  cbn [obind]. cbv zeta.
  destruct (Z.ltb_spec 0 (zlen l)); [|lia].
  rewrite firstn_0. change (skipn (Z.to_nat 0) l) with l. cbn [app].
  apply merge_blocks_done. unfold zlen. rewrite (Permutation_length (std_sort_perm rv l)).
  fold (zlen l). destruct (avx2 f); [|destruct (avx512 f); [auto|discriminate]].
  specialize (H2 eq_refl). assert (per 32 k <= per 64 k) by (destruct k; cbv; discriminate). lia.
Qed.

(** ** Vector accesses *)
Section Vec.
Context (k : kind).

Definition width (w : Z) : Prop := w = 16 \/ w = 32 \/ w = 64.

Lemma per_ez w : width w -> per w k * ez k = w.
Proof. intros [-> | [-> | ->]]; destruct k; reflexivity. Qed.
Lemma per_pos w : width w -> 2 <= per w k.
Proof. intros [-> | [-> | ->]]; destruct k; cbv; discriminate. Qed.

Definition aligned (w i : Z) : Prop := (i * ez k) mod w = 0.

Lemma aligned_step w i : width w -> aligned w i -> aligned w (i + per w k).
Proof.
  unfold aligned. intros W A. rewrite Z.mul_add_distr_r, per_ez by auto.
  rewrite Z.add_mod, A, Z_mod_same_full by (destruct W as [-> | [-> | ->]]; lia). apply Z.mod_0_l.
  destruct W as [-> | [-> | ->]]; lia.
Qed.

Lemma vget_ok w a i (P : Z -> Prop) : aligned w i -> 0 <= i -> i + per w k <= zlen a -> 0 <= per w k ->
  Forall P a -> exists v, vget w k a i = Ret v /\ zlen v = per w k /\ Forall P v.
Proof.
  intros A H0 H1 HP F. unfold vget. rewrite A. cbn [Z.eqb negb].
  destruct (Z.leb_spec 0 i); [|lia]. destruct (Z.leb_spec (i + per w k) (zlen a)); [|lia]. cbn [andb].
  eexists. split; [reflexivity|]. split.
  - unfold zlen in *. rewrite firstn_length, skipn_length. lia.
  - apply Forall_forall. intros x Hx. rewrite Forall_forall in F. apply F.
    rewrite <- (firstn_skipn (Z.to_nat i) a). apply in_or_app. right.
    rewrite <- (firstn_skipn (Z.to_nat (per w k)) (skipn (Z.to_nat i) a)). apply in_or_app. auto.
Qed.

Lemma vput_ok w a i v x y z : aligned w i -> a = x ++ y ++ z -> zlen x = i -> zlen y = per w k ->
  vput w k a i v = Ret (x ++ v ++ z).
Proof.
  intros A -> Hx Hy. unfold vput. rewrite A. cbn [Z.eqb negb].
  pose proof (zlen_nonneg x). pose proof (zlen_nonneg z).
  rewrite (zlen_app x (y ++ z)), (zlen_app y z).
  destruct (Z.leb_spec 0 i); [|lia].
  destruct (Z.leb_spec (i + per w k) (zlen x + (zlen y + zlen z))); [|lia]. cbn [andb].
  rewrite (firstn_zlen x (y ++ z) i) by auto. rewrite (app_assoc x y z).
  rewrite (skipn_zlen (x ++ y) z) by (rewrite zlen_app; lia). reflexivity.
Qed.

(** Lengths and contents of the lane operations. *)
Lemma vop_len rv a b : length a = length b -> length (vop rv a b) = length a.
Proof. revert b; induction a as [|x a IH]; intros [|y b] H; cbn in *; auto; try lia. Qed.

Lemma vop_forall rv a b (P : Z -> Prop) : Forall P a -> Forall P b -> Forall P (vop rv a b).
Proof.
  revert b; induction a as [|x a IH]; intros [|y b] Ha Hb; cbn; auto.
  inversion Ha; inversion Hb; subst. constructor; [|auto].
  destruct rv; [destruct (Z.max_spec x y) as [[_ ->]|[_ ->]]|destruct (Z.min_spec x y) as [[_ ->]|[_ ->]]]; auto.
Qed.

Lemma to_lanes_len v : length (to_lanes k v) = (match k with KInt => 1 | KBig => 2 end * length v)%nat.
Proof. destruct k; cbn [to_lanes]; [lia|]. induction v; cbn [flat_map app length] in *; lia. Qed.

Lemma pack_pairs_len : forall n v, length v = (2 * n)%nat -> length (pack_pairs v) = n.
Proof.
  induction n as [|n IH]; intros v H; destruct v as [|a [|b r]]; cbn [length pack_pairs] in *; try lia.
  rewrite IH by lia. lia.
Qed.

Lemma of_lanes_len v n : length v = (match k with KInt => 1 | KBig => 2 end * n)%nat ->
  length (of_lanes k v) = n.
Proof. destruct k; cbn [of_lanes]; intros H; [lia|]. apply pack_pairs_len. lia. Qed.

(** Integers that may appear: for int vectors any set closed under nothing;
    for long long vectors no restriction is kept. *)
Definition closed (P : Z -> Prop) : Prop := match k with KInt => True | KBig => forall z, P z end.

Lemma lane_op_ok rv (P : Z -> Prop) a b : closed P -> zlen a = zlen b -> Forall P a -> Forall P b ->
  let r := of_lanes k (vop rv (to_lanes k a) (to_lanes k b)) in zlen r = zlen a /\ Forall P r.
Proof.
  intros C L Fa Fb r. unfold zlen in *. split.
  - f_equal. unfold r. apply of_lanes_len. rewrite vop_len; rewrite !to_lanes_len; lia.
  - unfold r, closed in *. destruct k; cbn [of_lanes to_lanes]; [apply vop_forall; auto|].
    apply Forall_forall. auto.
Qed.

(** ** doSingleMerge *)
Section Merge.
Context (rv : bool) (P : Z -> Prop) (C : closed P).
Context (left mid right : Z) (src A Z0 : list Z).
Context (Hl : 0 <= left) (Hlm : left <= mid + 1) (Hmr : mid <= right) (Hr : right < zlen src)
  (Fs : Forall P src) (HA : zlen A = left).

(** Positions reached and what the target holds: [A], the merged part, a rest
    to be overwritten up to [right], and [Z0]. *)
Definition inv (st : Z * Z * Z * list Z) : Prop :=
  let '(i, j, kk, dst) := st in
  left <= i <= mid + 1 /\ mid + 1 <= j <= right + 1 /\
  kk - left = (i - left) + (j - (mid + 1)) /\
  exists M R, dst = A ++ M ++ R ++ Z0 /\ zlen M = kk - left /\ zlen R = right + 1 - kk /\ Forall P M.

(** No wrap-around and aligned addresses whenever a vector loop is entered. *)
Definition fit (w : Z) (st : Z * Z * Z * list Z) : Prop :=
  let '(i, j, kk, _) := st in
  i <= usub mid (per w k) -> j <= usub right (per w k) ->
  per w k - 1 <= mid /\ per w k - 1 <= right /\ aligned w i /\ aligned w j /\ aligned w kk.

Hypothesis Hbig : right < 2 ^ 63.

Lemma usub_val a w : width w -> per w k - 1 <= a -> a <= right -> usub a (per w k) = a - per w k + 1.
Proof.
  intros W H1 H2. unfold usub. pose proof (per_pos w W). apply Z.mod_small.
  change (2 ^ 64) with (2 * 2 ^ 63). lia.
Qed.

Lemma split_at {X} (l : list X) n : 0 <= n <= zlen l -> exists a b, l = a ++ b /\ zlen a = n.
Proof. apply zsplit_le. Qed.


(** Alignment that later, narrower loops rely on. *)
Definition al (w : Z) (st : Z * Z * Z * list Z) : Prop :=
  let '(i, j, kk, _) := st in aligned w i /\ aligned w kk /\ (aligned w j \/ right < j).

Lemma aligned_step' w w' i : width w -> width w' -> w mod w' = 0 -> aligned w' i -> aligned w' (i + per w k).
Proof.
  unfold aligned. intros W W' D E. rewrite Z.mul_add_distr_r, per_ez by auto.
  rewrite Z.add_mod, E, D by (destruct W' as [-> | [-> | ->]]; lia). apply Z.mod_0_l.
  destruct W' as [-> | [-> | ->]]; lia.
Qed.

Lemma merge_vec_ok w w' : width w -> width w' -> w mod w' = 0 -> forall fuel i j kk dst,
  inv (i, j, kk, dst) -> fit w (i, j, kk, dst) -> al w' (i, j, kk, dst) ->
  (right + 1 - kk) < Z.of_nat fuel ->
  exists st, merge_vec fuel w k rv mid right src i j kk dst = Ret st /\ inv st /\ al w' st.
Proof.
  intros W W' D. pose proof (per_pos w W) as HP.
  induction fuel as [|fuel IH]; intros i j kk dst I F L HF.
  { destruct I as (_ & _ & _ & M & R & _ & _ & E & _). pose proof (zlen_nonneg R). lia. }
  cbn [merge_vec].
  destruct (Z.leb_spec i (usub mid (per w k))) as [Hi|Hi]; cbn [andb];
    [destruct (Z.leb_spec j (usub right (per w k))) as [Hj|Hj]|].
  2:{ exists (i, j, kk, dst). auto. }
  2:{ exists (i, j, kk, dst). auto. }
  destruct (F Hi Hj) as (B1 & B2 & Ai & Aj & Ak).
  rewrite usub_val in Hi by (auto; lia). rewrite usub_val in Hj by (auto; lia).
  destruct I as (I1 & I2 & I3 & M & R & Ed & LM & LR & FM).
  destruct (vget_ok w src i P) as (vi & Ei & Li & Fi); auto; try lia. rewrite Ei. cbn [obind].
  destruct (vget_ok w src j P) as (vj & Ej & Lj & Fj); auto; try lia. rewrite Ej. cbn [obind].
  destruct (lane_op_ok rv P vi vj) as (Lv & Fv); auto; try lia.
  set (v := of_lanes k _) in *.
  destruct (split_at R (per w k)) as (R1 & R2 & ER & LR1); [lia|]. subst R.
  rewrite zlen_app in LR.
  erewrite (vput_ok w dst kk v (A ++ M) R1 (R2 ++ Z0)); auto; [|subst dst; rewrite <- !app_assoc; auto|rewrite zlen_app; lia].
  cbn [obind]. destruct L as (L1 & L2 & L3).
  assert (L3' : aligned w' j) by (destruct L3; [auto|lia]).
  assert (N : zlen R2 >= 0) by (pose proof (zlen_nonneg R2); lia).
  assert (X : exists M' R', (A ++ M) ++ v ++ R2 ++ Z0 = A ++ M' ++ R' ++ Z0 /\ zlen M' = kk + per w k - left /\
     zlen R' = right + 1 - (kk + per w k) /\ Forall P M').
  { exists (M ++ v), R2. split; [rewrite <- !app_assoc; auto|]. rewrite zlen_app. split; [lia|]. split; [lia|].
    apply Forall_app; auto. }
  destruct rv; apply IH; try lia;
  try (split; [lia|]; split; [lia|]; split; [lia|]; exact X);
  try (intros _ _; split; [lia|]; split; [lia|]; repeat split; auto using aligned_step);
  (split; [eauto using aligned_step'|]; split; [eauto using aligned_step'|]; left; eauto using aligned_step').
Qed.

Lemma eget_ok i : 0 <= i < zlen src -> exists x, eget src i = Ret x /\ P x.
Proof.
  intros H. destruct (znth_in src i H) as (x & E). exists x. unfold eget. rewrite E. split; [auto|].
  rewrite Forall_forall in Fs. apply Fs. unfold znth in E. destruct (i <? 0); [discriminate|].
  eapply nth_error_In; eauto.
Qed.

Lemma eput_ok M R kk x : P x -> zlen M = kk - left -> zlen R = right + 1 - kk -> kk <= right ->
  exists R', eput (A ++ M ++ R ++ Z0) kk x = Ret (A ++ (M ++ [x]) ++ R' ++ Z0) /\ zlen R' = right + 1 - (kk + 1).
Proof.
  intros Hx LM LR Hk. destruct R as [|r R']; [unfold zlen in LR; cbn [length] in LR; lia|].
  exists R'. rewrite zlen_cons in LR. split; [|lia]. unfold eput.
  replace (A ++ M ++ (r :: R') ++ Z0) with ((A ++ M) ++ r :: (R' ++ Z0)) by (rewrite <- app_assoc; auto).
  rewrite (zset_mid (A ++ M)) by (rewrite zlen_app; lia). cbn [or_ub].
  f_equal. rewrite <- !app_assoc. auto.
Qed.

Lemma merge_scalar_ok : forall fuel i j kk dst, inv (i, j, kk, dst) ->
  (right + 1 - kk) < Z.of_nat fuel ->
  exists i' j' kk' dst', merge_scalar fuel rv mid right src i j kk dst = Ret (i', j', kk', dst') /\
    inv (i', j', kk', dst').
Proof.
  induction fuel as [|fuel IH]; intros i j kk dst I HF.
  { destruct I as (_ & _ & _ & M & R & _ & _ & E & _). pose proof (zlen_nonneg R). lia. }
  cbn [merge_scalar].
  destruct (Z.leb_spec i mid) as [Hi|Hi]; cbn [andb]; [destruct (Z.leb_spec j right) as [Hj|Hj]|];
    [|exists i, j, kk, dst; auto|exists i, j, kk, dst; auto].
  destruct I as (I1 & I2 & I3 & M & R & -> & LM & LR & FM).
  destruct (eget_ok i) as (x & Ex & Px); [lia|]. destruct (eget_ok j) as (y & Ey & Py); [lia|].
  rewrite Ex. cbn [obind]. rewrite Ey. cbn [obind].
  destruct (before rv x y).
  - destruct (eput_ok M R kk x) as (R' & E & LR'); auto; try lia. rewrite E. cbn [obind].
    apply IH; [|lia]. split; [lia|]. split; [lia|]. split; [lia|]. exists (M ++ [x]), R'.
    split; [auto|]. rewrite zlen_app. split; [change (zlen [x]) with 1; lia|]. split; [lia|].
    apply Forall_app. auto.
  - destruct (eput_ok M R kk y) as (R' & E & LR'); auto; try lia. rewrite E. cbn [obind].
    apply IH; [|lia]. split; [lia|]. split; [lia|]. split; [lia|]. exists (M ++ [y]), R'.
    split; [auto|]. rewrite zlen_app. split; [change (zlen [y]) with 1; lia|]. split; [lia|].
    apply Forall_app. auto.
Qed.

(** A copying loop that fits into the remaining room. *)
Lemma merge_drain_ok last : forall fuel i kk M R, 0 <= i <= last + 1 -> last < zlen src ->
  zlen M = kk - left -> zlen R = right + 1 - kk -> Forall P M -> last + 1 - i <= right + 1 - kk ->
  last + 1 - i < Z.of_nat fuel ->
  exists M' R', merge_drain fuel last src i kk (A ++ M ++ R ++ Z0) =
      Ret (kk + (last + 1 - i), A ++ M' ++ R' ++ Z0) /\
    zlen M' = kk + (last + 1 - i) - left /\ zlen R' = right + 1 - (kk + (last + 1 - i)) /\ Forall P M'.
Proof.
  induction fuel as [|fuel IH]; intros i kk M R Hi Hla LM LR FM Hroom HF; [lia|].
  cbn [merge_drain]. destruct (Z.leb_spec i last).
  - destruct (eget_ok i) as (x & Ex & Px); [lia|]. rewrite Ex. cbn [obind].
    destruct (eput_ok M R kk x) as (R' & E & LR'); auto; try lia. rewrite E. cbn [obind].
    destruct (IH (i + 1) (kk + 1) (M ++ [x]) R') as (M2 & R2 & E2 & L1 & L2 & F2); auto; try lia.
    { rewrite zlen_app. change (zlen [x]) with 1. lia. }
    { apply Forall_app; auto. }
    exists M2, R2. rewrite E2. split; [do 2 f_equal; lia|]. split; [lia|]. split; [lia|auto].
  - exists M, R. replace (kk + (last + 1 - i)) with kk by lia. auto.
Qed.

Lemma single_merge_ok f B : zlen B = right + 1 - left ->
  (avx512 f = true -> fit 64 (left, mid + 1, left, A ++ B ++ Z0)) ->
  7 <= mid -> al 32 (left, mid + 1, left, A ++ B ++ Z0) ->
  exists M, single_merge f k rv left mid right src (A ++ B ++ Z0) = Ret (A ++ M ++ Z0) /\
    zlen M = zlen B /\ Forall P M.
Proof.
  intros LB F5 H7 L32. unfold single_merge. cbv zeta.
  assert (I0 : inv (left, mid + 1, left, A ++ B ++ Z0)).
  { split; [lia|]. split; [lia|]. split; [lia|]. exists [], B. cbn [app]. split; [auto|].
    change (zlen (@nil Z)) with 0. split; [lia|]. split; [lia|constructor]. }
  assert (FU : right + 1 - left < Z.of_nat (S (length src))) by (unfold zlen in Hr; lia).
  assert (KK : forall i j kk d, inv (i, j, kk, d) -> left <= kk) by (intros i j kk d (? & ? & ? & _); lia).
  (* AVX-512 *)
  assert (S1 : exists st, (if avx512 f then merge_vec (S (length src)) 64 k rv mid right src left (mid + 1) left (A ++ B ++ Z0)
              else Ret (left, mid + 1, left, A ++ B ++ Z0)) = Ret st /\ inv st /\ al 32 st).
  { destruct (avx512 f); [|eauto].
    apply (merge_vec_ok 64 32); auto; [right; right; auto|right; left; auto]. }
  destruct S1 as ([[[i1 j1] k1] d1] & E1 & I1 & L1). rewrite E1. cbn [obind].
  assert (Fit : forall w i j kk d, width w -> per w k <= 8 -> inv (i, j, kk, d) -> al w (i, j, kk, d) -> fit w (i, j, kk, d)).
  { intros w i j kk d W H8 I L Ha Hb. pose proof (per_pos w W). split; [lia|]. split; [lia|].
    rewrite usub_val in Hb by (auto; lia). destruct L as (? & ? & [?|?]); [auto|lia]. }
  assert (S2 : exists st, (if avx2 f then merge_vec (S (length src)) 32 k rv mid right src i1 j1 k1 d1
              else Ret (i1, j1, k1, d1)) = Ret st /\ inv st /\ al 32 st).
  { destruct (avx2 f); [|eauto].
    apply (merge_vec_ok 32 32); auto; try (right; left; auto).
    - apply Fit; auto; [right; left; auto|destruct k; cbv; discriminate].
    - specialize (KK _ _ _ _ I1). lia. }
  destruct S2 as ([[[i2 j2] k2] d2] & E2 & I2 & L2). rewrite E2. cbn [obind].
  assert (L16 : al 16 (i2, j2, k2, d2)).
  { assert (T : forall x, aligned 32 x -> aligned 16 x).
    { unfold aligned. intros x Hx. apply Z.mod_divide in Hx; [|lia]. destruct Hx as (q & ->).
      replace (q * 32) with (q * 2 * 16) by lia. apply Z_mod_mult. }
    destruct L2 as (a & b & [c|c]); (split; [auto|]; split; [auto|]; auto). }
  assert (S3 : exists st, (if sse41 f then merge_vec (S (length src)) 16 k rv mid right src i2 j2 k2 d2
              else Ret (i2, j2, k2, d2)) = Ret st /\ inv st /\ al 16 st).
  { destruct (sse41 f); [|eauto].
    apply (merge_vec_ok 16 16); auto; try (left; auto).
    - apply Fit; auto; [left; auto|destruct k; cbv; discriminate].
    - specialize (KK _ _ _ _ I2). lia. }
  destruct S3 as ([[[i3 j3] k3] d3] & E3 & I3 & L3). rewrite E3. cbn [obind].
  destruct (merge_scalar_ok (S (length src) + S (length src)) i3 j3 k3 d3 I3) as (i4 & j4 & k4 & d4 & E4 & I4).
  { specialize (KK _ _ _ _ I3). lia. }
  rewrite E4. cbn [obind]. pose proof (KK _ _ _ _ I4).
  destruct I4 as (J1 & J2 & J3 & M & R & -> & LM & LR & FM).
  destruct (merge_drain_ok mid (S (length src)) i4 k4 M R) as (M5 & R5 & E5 & LM5 & LR5 & FM5); auto; try lia.
  rewrite E5. cbn [obind].
  destruct (merge_drain_ok right (S (length src)) j4 (k4 + (mid + 1 - i4)) M5 R5) as (M6 & R6 & E6 & LM6 & LR6 & FM6); auto; try lia.
  rewrite E6. cbn [obind]. exists M6.
  assert (R6 = []).
  { destruct R6; [auto|]. rewrite zlen_cons in LR6. pose proof (zlen_nonneg R6). lia. }
  subst R6. cbn [app]. split; [auto|]. split; [lia|auto].
Qed.
End Merge.

(** ** mergeSortedBlocks *)
Section Blocks.
Context (f : cpu) (rv : bool) (P : Z -> Prop) (C : closed P).

(** The block sizes that occur, for a vector of [total] elements. *)
Definition size_ok (total size : Z) : Prop :=
  8 <= size /\ size mod 8 = 0 /\
  (avx512 f = true -> k = KInt -> size mod 16 = 0 \/ (size = 8 /\ 16 <= total)).

Lemma in_firstn {X} n (l : list X) x : In x (firstn n l) -> In x l.
Proof. intros H. rewrite <- (firstn_skipn n l). apply in_or_app. auto. Qed.

Lemma in_skipn {X} n (l : list X) x : In x (skipn n l) -> In x l.
Proof. intros H. rewrite <- (firstn_skipn n l). apply in_or_app. auto. Qed.

Lemma merge_pass_ok size src : size_ok (zlen src) size -> size < zlen src -> zlen src < 2 ^ 62 ->
  Forall P src -> forall fuel q dst, 0 <= q -> zlen dst = zlen src ->
  Forall P (firstn (Z.to_nat (2 * size * q)) dst) ->
  zlen src - 2 * size * q <= Z.of_nat fuel ->
  exists dst', merge_pass fuel f k rv size (2 * size * q) src dst = Ret dst' /\
    zlen dst' = zlen src /\ Forall P dst'.
Proof.
  intros (S8 & SM & S5) ST HM Fs. change (2 ^ 62) with 4611686018427387904 in HM.
  assert (exists t, size = 8 * t) as (t & Et) by (exists (size / 8); apply Z.div_exact; lia).
  induction fuel as [|fuel IH]; intros q dst Hq Ld Fd HF; cbn [merge_pass]; cbv zeta.
  - destruct (Z.ltb_spec (2 * size * q) (zlen src)); [lia|]. exists dst. split; [auto|]. split; [auto|].
    rewrite firstn_all2 in Fd by (unfold zlen in *; lia). auto.
  - destruct (Z.ltb_spec (2 * size * q) (zlen src)) as [H|H].
    2:{ exists dst. split; [auto|]. split; [auto|].
        rewrite firstn_all2 in Fd by (unfold zlen in *; lia). auto. }
    set (left := 2 * size * q) in *.
    set (mid := Z.min (left + size - 1) (zlen src - 1)).
    set (right := Z.min (left + 2 * size - 1) (zlen src - 1)).
    assert (Hleft : 0 <= left) by (unfold left; nia).
    destruct (zsplit_le dst left) as (A & T & -> & LA); [lia|]. rewrite zlen_app in Ld.
    destruct (zsplit_le T (right + 1 - left)) as (B & Z0 & -> & LB); [lia|]. rewrite zlen_app in Ld.
    rewrite firstn_zlen in Fd by lia.
    assert (HL16 : exists u, left = 16 * u) by (exists (t * q); unfold left; subst size; lia).
    destruct HL16 as (u & Hu).
    assert (Hbig : right < 2 ^ 63) by (change (2 ^ 63) with 9223372036854775808; lia).
    assert (Mcase : mid = left + size - 1 \/ (mid = zlen src - 1 /\ right = mid)) by lia.
    assert (JA : forall w, width w -> mid + 1 <= usub right (per w k) -> per w k - 1 <= right ->
              mid = left + size - 1).
    { intros w W Hj Hw. destruct Mcase as [?|[? E]]; [auto|]. rewrite (usub_val right Hbig right w) in Hj by (auto; lia).
      pose proof (per_pos w W). lia. }
    assert (AL : forall x n, match k with KInt => n = 8 | KBig => n = 4 end -> aligned 32 (n * x)).
    { intros x n Hn. unfold aligned. rewrite ez_val. destruct k; subst n.
      - replace (8 * x * 4) with (x * 32) by lia. apply Z_mod_mult.
      - replace (4 * x * 8) with (x * 32) by lia. apply Z_mod_mult. }
    assert (AL8 : forall x, aligned 32 (8 * x)).
    { intros x. destruct k eqn:Ek; [apply AL; auto|]. replace (8 * x) with (4 * (2 * x)) by lia. apply AL; auto. }
    assert (W64 : width 64) by (right; right; auto).
    destruct (single_merge_ok rv P C left mid right src A Z0) with (f := f) (B := B)
      as (M & E & LM & FM); auto; try lia.
    + intros E5 H1 H2.
      assert (Hp : per 64 k = match k with KInt => 16 | KBig => 8 end) by (destruct k; reflexivity).
      assert (NW : per 64 k - 1 <= mid).
      { destruct k eqn:Ek; rewrite Hp; [|lia].
        destruct (S5 E5 eq_refl) as [D16|[-> T16]].
        - assert (16 <= size); [|lia].
          destruct (Z.ltb_spec size 16); [|lia]. rewrite Z.mod_small in D16 by lia. lia.
        - destruct (Z.eq_dec left 0) as [E0|N0]; [|lia]. exfalso.
          assert (right = 15) as ER by lia.
          rewrite Hp, ER in H2. change (usub 15 16) with 0 in H2. lia. }
      pose proof (JA 64 W64 H2 ltac:(lia)) as EM.
      rewrite (usub_val right Hbig mid 64 W64 NW ltac:(lia)), Hp in H1.
      split; [auto|]. split; [lia|].
      assert (A64 : aligned 64 left /\ aligned 64 (mid + 1)).
      { rewrite EM. unfold aligned. rewrite ez_val. destruct k eqn:Ek.
        - destruct (S5 E5 eq_refl) as [D16|[S88 T16]].
          + assert (exists s, size = 16 * s) as (s & Es) by (exists (size / 16); apply Z.div_exact; lia).
            rewrite Hu, Es. split.
            * replace (16 * u * 4) with (u * 64) by lia. apply Z_mod_mult.
            * replace ((16 * u + 16 * s - 1 + 1) * 4) with ((u + s) * 64) by lia. apply Z_mod_mult.
          + exfalso. lia.
        - rewrite Hu, Et. split.
          + replace (16 * u * 8) with (2 * u * 64) by lia. apply Z_mod_mult.
          + replace ((16 * u + 8 * t - 1 + 1) * 8) with ((2 * u + t) * 64) by lia. apply Z_mod_mult. }
      destruct A64; auto.
    + split; [|split].
      * rewrite Hu. replace (16 * u) with (8 * (2 * u)) by lia. apply AL8.
      * rewrite Hu. replace (16 * u) with (8 * (2 * u)) by lia. apply AL8.
      * destruct Mcase as [EM|[EM ER]]; [left|right; lia].
        rewrite EM, Hu, Et. replace (16 * u + 8 * t - 1 + 1) with (8 * (2 * u + t)) by lia. apply AL8.
    + rewrite E. cbn [obind].
      replace (left + 2 * size) with (2 * size * (q + 1)) by (unfold left; lia).
      apply IH; try lia.
      * rewrite (zlen_app A (M ++ Z0)), (zlen_app M Z0). lia.
      * replace (2 * size * (q + 1)) with (left + 2 * size) by (unfold left; lia).
        assert (FAM : Forall P (A ++ M)) by (apply Forall_app; auto).
        rewrite app_assoc. destruct (Z.leb_spec (left + 2 * size) (zlen src)).
        -- rewrite firstn_zlen; [auto|rewrite zlen_app; lia].
        -- assert (Z0 = []) as ->.
           { destruct Z0; [auto|]. rewrite zlen_cons in Ld. pose proof (zlen_nonneg Z0). lia. }
           rewrite app_nil_r. rewrite Forall_forall in *. intros x Hx. apply FAM. eapply in_firstn; eauto.
Qed.

Lemma merge_blocks_ok : forall fuel size cur other, size_ok (zlen cur) size -> zlen cur < 2 ^ 62 ->
  Forall P cur -> zlen other = zlen cur -> zlen cur - size < Z.of_nat fuel ->
  exists l', merge_blocks fuel f k rv size cur other = Ret l' /\ zlen l' = zlen cur /\ Forall P l'.
Proof.
  induction fuel as [|fuel IH]; intros size cur other (S8 & SM & S5) HM F L HF; cbn [merge_blocks].
  - destruct (Z.ltb_spec size (zlen cur)); [lia|]. eauto.
  - destruct (Z.ltb_spec size (zlen cur)) as [H|H]; [|eauto].
    destruct (merge_pass_ok size cur) with (fuel := length cur) (q := 0) (dst := other) as (o & E & Lo & Fo);
      auto; try lia.
    { split; auto. }
    { replace (2 * size * 0) with 0 by lia. constructor. }
    { unfold zlen in *. lia. }
    replace (2 * size * 0) with 0 in E by lia. rewrite E. cbn [obind].
    destruct (IH (size * 2) o cur) as (l' & E' & L' & F'); auto; try lia.
    { rewrite Lo. assert (exists t, size = 8 * t) as (t & ->) by (exists (size / 8); apply Z.div_exact; lia).
      split; [lia|]. split; [replace (8 * t * 2) with (2 * t * 8) by lia; apply Z_mod_mult|].
      intros _ _. left. replace (8 * t * 2) with (t * 16) by lia. apply Z_mod_mult. }
    exists l'. split; [auto|]. split; [lia|auto].
Qed.
End Blocks.

(** ** Block sorting *)
Definition good_marks (L : nat) (marks : list (list nat)) : Prop :=
  Forall (fun m => length m = L /\ Forall (fun i => (i < L)%nat) m) marks.

Lemma sort_lanes_ok rv L marks v (P : Z -> Prop) : good_marks L marks -> length v = L ->
  length (sort_lanes rv marks v) = L /\ (Forall P v -> Forall P (sort_lanes rv marks v)).
Proof.
  unfold sort_lanes. revert v. induction marks as [|m marks IH]; intros v G Lv; cbn [fold_left]; [auto|].
  inversion G as [|? ? [Lm Fm] G']; subst.
  assert (Lp : length (permute m v) = length v) by (unfold permute; rewrite map_length; auto).
  destruct (IH (vop rv v (permute m v)) G') as (A & B); [rewrite vop_len; auto|].
  split; [auto|]. intros F. apply B. apply vop_forall; auto.
  apply Forall_forall. intros x Hx. unfold permute in Hx. apply in_map_iff in Hx.
  destruct Hx as (i & <- & Hi). rewrite Forall_forall in F, Fm. apply F. apply nth_In. auto.
Qed.

Definition block_fun (rv : bool) (marks : list (list nat)) (v : list Z) : list Z :=
  of_lanes k (sort_lanes rv marks (to_lanes k v)).

Definition lanes_of (w : Z) : nat := Z.to_nat (w / 4).

Lemma block_fun_len rv w marks v : width w -> good_marks (lanes_of w) marks -> zlen v = per w k ->
  zlen (block_fun rv marks v) = per w k.
Proof.
  intros W G Lv. rewrite <- Lv. unfold zlen. f_equal. unfold block_fun. apply of_lanes_len.
  rewrite <- to_lanes_len.
  destruct (sort_lanes_ok rv (lanes_of w) marks (to_lanes k v) (fun _ => True)) as (E & _); auto.
  - rewrite to_lanes_len. unfold zlen in Lv. assert (length v = Z.to_nat (per w k)) as -> by lia.
    destruct W as [-> | [-> | ->]]; destruct k; reflexivity.
  - rewrite E. rewrite to_lanes_len. unfold zlen in Lv.
    assert (length v = Z.to_nat (per w k)) as -> by lia.
    destruct W as [-> | [-> | ->]]; destruct k; reflexivity.
Qed.

Lemma block_loop_ok w marks rv (P : Z -> Prop) : width w -> good_marks (lanes_of w) marks ->
  forall fuel D R, aligned w (zlen D) -> Forall P D ->
  (forall x b y, R = x ++ b ++ y -> (zlen x) mod (per w k) = 0 -> zlen b = per w k -> Forall P (block_fun rv marks b)) ->
  (forall x y, R = x ++ y -> (zlen x) mod (per w k) = 0 -> zlen y < per w k -> Forall P y) ->
  zlen R < Z.of_nat fuel \/ zlen R <= Z.of_nat fuel ->
  exists D' R', block_loop fuel w marks k rv (zlen D) (D ++ R) = Ret (zlen D', D' ++ R') /\
    zlen (D' ++ R') = zlen (D ++ R) /\ Forall P (D' ++ R') /\ zlen D <= zlen D' /\
    aligned w (zlen D') /\ zlen R' < per w k.
Proof.
  intros W G. pose proof (per_pos w W) as HP.
  induction fuel as [|fuel IH]; intros D R AD FD HB HT HF; cbn [block_loop]; rewrite zlen_app.
  - assert (zlen R = 0) by (pose proof (zlen_nonneg R); lia).
    destruct (Z.leb_spec (zlen D + per w k) (zlen D + zlen R)); [lia|].
    exists D, R. split; [auto|]. split; [apply zlen_app|]. split; [|split; [lia|split; [auto|lia]]].
    apply Forall_app. split; [auto|]. apply (HT [] R); auto. lia.
  - destruct (Z.leb_spec (zlen D + per w k) (zlen D + zlen R)) as [H|H].
    + destruct (zsplit_le R (per w k)) as (b & R2 & -> & Lb); [lia|].
      assert (EG : vget w k (D ++ b ++ R2) (zlen D) = Ret b).
      { unfold vget. rewrite AD. cbn [Z.eqb negb]. pose proof (zlen_nonneg D).
        destruct (Z.leb_spec 0 (zlen D)); [|lia]. rewrite zlen_app.
        destruct (Z.leb_spec (zlen D + per w k) (zlen D + zlen (b ++ R2))); [|lia]. cbn [andb].
        rewrite (skipn_zlen D) by auto. rewrite firstn_zlen by auto. auto. }
      rewrite EG. cbn [obind]. fold (block_fun rv marks b).
      rewrite (vput_ok w (D ++ b ++ R2) (zlen D) _ D b R2) by auto. cbn [obind].
      pose proof (block_fun_len rv w marks b W G Lb) as Lg.
      replace (zlen D + per w k) with (zlen (D ++ block_fun rv marks b)) by (rewrite zlen_app; lia).
      rewrite (app_assoc D _ R2).
      destruct (IH (D ++ block_fun rv marks b) R2) as (D' & R' & E & L' & F' & M' & A' & T').
      * rewrite zlen_app, Lg. apply aligned_step; auto.
      * apply Forall_app. split; [auto|]. apply (HB [] b R2); auto.
      * intros x b' y -> Hx Lb'. apply (HB (b ++ x) b' y); auto.
        -- rewrite <- app_assoc. auto.
        -- rewrite zlen_app, Lb, Z.add_comm. rewrite <- (Z.mul_1_l (per w k)) at 1. rewrite Z.mod_add by lia. auto.
      * intros x y -> Hx Ly. apply (HT (b ++ x) y); auto.
        -- rewrite <- app_assoc. auto.
        -- rewrite zlen_app, Lb, Z.add_comm. rewrite <- (Z.mul_1_l (per w k)) at 1. rewrite Z.mod_add by lia. auto.
      * rewrite zlen_app in HF. lia.
      * exists D', R'. split; [auto|]. split.
        { rewrite L'. rewrite !zlen_app. lia. }
        split; [auto|]. rewrite zlen_app in M'. split; [lia|auto].
    + exists D, R. split; [auto|]. split; [apply zlen_app|]. split; [|split; [lia|split; [auto|lia]]].
      apply Forall_app. split; [auto|]. apply (HT [] R); auto. lia.
Qed.

Lemma good_avx2 : good_marks (lanes_of 32) avx2_marks.
Proof. change (lanes_of 32) with 8%nat. repeat constructor. Qed.
Lemma good_avx512 : good_marks (lanes_of 64) avx512_marks.
Proof. change (lanes_of 64) with 16%nat. repeat constructor. Qed.

(** The blocks keep a closed property. *)
Lemma block_fun_closed w rv marks (P : Z -> Prop) b : width w -> good_marks (lanes_of w) marks -> closed P ->
  zlen b = per w k -> Forall P b -> Forall P (block_fun rv marks b).
Proof.
  intros W G C L F. unfold closed, block_fun in *. destruct k eqn:Ek.
  - cbn [of_lanes to_lanes]. apply (sort_lanes_ok rv (lanes_of w)); auto.
    unfold zlen in L. destruct W as [-> | [-> | ->]]; apply Nat2Z.inj; rewrite L; reflexivity.
  - apply Forall_forall. auto.
Qed.
End Vec.

(** ** The vector path *)
(** What must hold of [l] for [P] to hold of every element after the blocks
    of width [w] have been processed. *)
Definition stage (k : kind) (rv : bool) (w : Z) (marks : list (list nat)) (P : Z -> Prop) (l : list Z) : Prop :=
  (forall x b y, l = x ++ b ++ y -> (zlen x) mod (per w k) = 0 -> zlen b = per w k ->
     Forall P (block_fun k rv marks b)) /\
  (forall x y, l = x ++ y -> (zlen x) mod (per w k) = 0 -> zlen y < per w k -> Forall P y).

Lemma stage_closed k rv w marks P l : width w -> good_marks (lanes_of w) marks -> closed k P -> Forall P l ->
  stage k rv w marks P l.
Proof.
  intros W G C F. split.
  - intros x b y -> _ Lb. rewrite !Forall_app in F. apply (block_fun_closed k w); tauto.
  - intros x y -> _ _. rewrite Forall_app in F. tauto.
Qed.

Lemma simdsort_vec f k rv l (P : Z -> Prop) : closed k P -> 8 <= zlen l < 2 ^ 62 ->
  avx2 f || avx512 f = true -> no_oob f k (zlen l) ->
  (avx512 f = true -> per 64 k < zlen l -> stage k rv 64 avx512_marks P l) ->
  ((avx512 f = false \/ zlen l <= per 64 k) -> avx2 f = true -> per 32 k < zlen l -> stage k rv 32 avx2_marks P l) ->
  ((avx512 f = false \/ zlen l <= per 64 k) -> (avx2 f = false \/ zlen l <= per 32 k) -> Forall P l) ->
  exists l', simdsort f k rv l = Ret l' /\ zlen l' = zlen l /\ Forall P l'.
Proof.
  intros C HL HV NO H5 H2 H0. unfold simdsort.
  destruct (Z.leb_spec (zlen l) 1); [lia|]. destruct (Z.ltb_spec (zlen l) 8); [lia|].
  destruct (negb (avx2 f) && negb (avx512 f)) eqn:E.
  { destruct (avx2 f), (avx512 f); discriminate. }
  clear E. rewrite Z.add_0_l.
  assert (W64 : width 64) by (right; right; auto). assert (W32 : width 32) by (right; left; auto).
  (* first stage *)
  assert (S1 : exists D R, (if avx512 f && (per 64 k <? zlen l) then block_loop (length l) 64 avx512_marks k rv 0 l else Ret (0, l))
       = Ret (zlen D, D ++ R) /\ zlen (D ++ R) = zlen l /\ aligned k 64 (zlen D) /\
       ((avx512 f = true /\ per 64 k < zlen l /\ Forall P (D ++ R)) \/
        ((avx512 f = false \/ zlen l <= per 64 k) /\ D = [] /\ R = l))).
  { destruct (avx512 f) eqn:E5; cbn [andb]; [destruct (Z.ltb_spec (per 64 k) (zlen l))|].
    - destruct (H5 eq_refl ltac:(auto)) as (A & B).
      destruct (block_loop_ok k 64 avx512_marks rv P W64 good_avx512 (length l) [] l)
        as (D & R & E & L & F & _ & AD & _); auto.
      { reflexivity. }
      { unfold zlen. lia. }
      exists D, R. cbn [app] in *. split; [exact E|]. split; [auto|]. split; [auto|]. left. auto.
    - exists [], l. split; [auto|]. split; [auto|]. split; [reflexivity|]. right. auto.
    - exists [], l. split; [auto|]. split; [auto|]. split; [reflexivity|]. right. auto. }
  destruct S1 as (D & R & E1 & L1 & A1 & C1). rewrite E1. cbn [obind]. cbv zeta. clear E1.
  assert (A32 : aligned k 32 (zlen D)).
  { unfold aligned in *. apply Z.mod_divide in A1; [|lia]. destruct A1 as (q & ->).
    replace (q * 64) with (q * 2 * 32) by lia. apply Z_mod_mult. }
  set (go2 := avx2 f && (zlen D + per 32 k <? zlen l)).
  assert (S2 : exists D' R', (if go2 then block_loop (length l) 32 avx2_marks k rv (zlen D) (D ++ R) else Ret (zlen D, D ++ R))
       = Ret (zlen D', D' ++ R') /\ zlen (D' ++ R') = zlen l /\ Forall P (D' ++ R')).
  { unfold go2. destruct (avx2 f) eqn:E2; cbn [andb]; [destruct (Z.ltb_spec (zlen D + per 32 k) (zlen l))|].
    - assert (ST : Forall P D /\ stage k rv 32 avx2_marks P R).
      { destruct C1 as [(X1 & X2 & X3)|(X1 & -> & ->)].
        - apply Forall_app in X3. destruct X3. split; [auto|].
          apply stage_closed; auto. apply good_avx2.
        - split; [constructor|]. apply H2; auto. }
      destruct ST as (FD & S3 & S4).
      destruct (block_loop_ok k 32 avx2_marks rv P W32 good_avx2 (length l) D R)
        as (D' & R' & E & L & F & _ & AD & _); auto.
      { rewrite zlen_app in L1. pose proof (zlen_nonneg D). unfold zlen in *. lia. }
      exists D', R'. split; [exact E|]. split; [lia|auto].
    - exists D, R. split; [auto|]. split; [auto|].
      destruct C1 as [(X1 & X2 & X3)|(X1 & -> & ->)]; [auto|]. cbn [app].
      apply H0; auto.
    - exists D, R. split; [auto|]. split; [auto|].
      destruct C1 as [(X1 & X2 & X3)|(X1 & -> & ->)]; [auto|]. cbn [app]. apply H0; auto. }
  destruct S2 as (D' & R' & E2 & L2 & F2). rewrite E2. cbn [obind]. cbv zeta.
  set (a := if zlen D' <? zlen l then _ else _).
  assert (Fa : Forall P a /\ zlen a = zlen l).
  { unfold a. destruct (zlen D' <? zlen l); [|auto].
    rewrite (firstn_zlen D') by auto. rewrite (skipn_zlen D') by auto.
    rewrite Forall_app in *. rewrite zlen_app in *. destruct F2 as (F3 & F4). split.
    - split; [auto|]. rewrite Forall_forall in *. intros x Hx. apply F4.
      apply (Permutation_in _ (std_sort_perm rv R')). auto.
    - assert (zlen (std_sort rv R') = zlen R') as ->; [|auto].
      unfold zlen. f_equal. apply Permutation_length. apply std_sort_perm. }
  destruct Fa as (Fa & La).
  destruct (merge_blocks_ok k f rv P C (length l) (if go2 then 8 else per 64 k) a (map (fun _ => 0) a))
    as (l' & E & L & F); auto; try lia.
  - rewrite La. unfold go2. split; [destruct (_ && _); [lia|destruct k; cbv; discriminate]|].
    split; [destruct (_ && _); [reflexivity|destruct k; reflexivity]|].
    intros E5 ->. change (per 64 KInt) with 16. change (per 32 KInt) with 8.
    destruct (avx2 f) eqn:E6; cbn [andb]; [|left; reflexivity].
    destruct (Z.ltb_spec (zlen D + 8) (zlen l)); [|left; reflexivity]. right. split; [auto|].
    pose proof (zlen_nonneg D). unfold no_oob in NO.
    destruct (Z.leb_spec 16 (zlen l)); [auto|]. exfalso. apply NO. repeat split; auto; lia.
  - apply zlen_map.
  - assert (8 <= (if go2 then 8 else per 64 k)) by (destruct go2; [lia|destruct k; cbv; discriminate]).
    unfold zlen in *. lia.
  - exists l'. split; [auto|]. split; [lia|auto].
Qed.

(** Memory safety and length on every CPU and length but one corner. *)
Lemma simdsort_safe f k rv l : zlen l < 2 ^ 62 -> no_oob f k (zlen l) ->
  exists l', simdsort f k rv l = Ret l' /\ zlen l' = zlen l /\ (k = KInt -> incl l' l).
Proof.
  intros HM NO. destruct (Z.ltb_spec (zlen l) 8) as [H8|H8].
  { destruct (sorts_tiny f k rv l H8) as (l' & E & P & _). exists l'. split; [auto|].
    split; [unfold zlen; f_equal; apply Permutation_length; auto|].
    intros _ x Hx. eapply Permutation_in; eauto. }
  destruct (avx2 f || avx512 f) eqn:EV.
  2:{ apply orb_false_iff in EV. destruct EV.
      destruct (sorts_scalar f k rv l) as (l' & E & P & _); auto.
      { change SSIZE_MAX with 9223372036854775807. change (2 ^ 62) with 4611686018427387904 in HM. lia. }
      exists l'. split; [auto|].
      split; [unfold zlen; f_equal; apply Permutation_length; auto|].
      intros _ x Hx. eapply Permutation_in; eauto. }
  assert (W64 : width 64) by (right; right; auto). assert (W32 : width 32) by (right; left; auto).
  set (P := match k with KInt => fun x => In x l | KBig => fun _ => True end).
  assert (C : closed k P) by (unfold closed, P; destruct k; auto).
  assert (F : Forall P l) by (apply Forall_forall; unfold P; destruct k; auto).
  destruct (simdsort_vec f k rv l P C) as (l' & E & L & F'); auto.
  - intros _ _. apply stage_closed; auto. apply good_avx512.
  - intros _ _ _. apply stage_closed; auto. apply good_avx2.
  - exists l'. split; [auto|]. split; [auto|]. intros ->. unfold P in F'. rewrite Forall_forall in F'.
    intros x. apply F'.
Qed.

(** ** The corner: AVX-512 with AVX2, int vectors of 9 to 15 elements *)
Lemma simdsort_oob f rv l : avx512 f = true -> avx2 f = true -> 9 <= zlen l <= 15 ->
  simdsort f KInt rv l = Undef OutOfBounds.
Proof.
  intros E5 E2 H. unfold simdsort.
  destruct (Z.leb_spec (zlen l) 1); [lia|]. destruct (Z.ltb_spec (zlen l) 8); [lia|].
  rewrite E5, E2. cbn [negb andb]. change (per 64 KInt) with 16. change (per 32 KInt) with 8.
  destruct (Z.ltb_spec (0 + 16) (zlen l)); [lia|]. cbn [obind]. cbv zeta.
  destruct (Z.ltb_spec (0 + 8) (zlen l)); [|lia].
  assert (W32 : width 32) by (right; left; auto).
  destruct (block_loop_ok KInt 32 avx2_marks rv (fun _ => True) W32 good_avx2 (length l) [] l)
    as (D & R & E & L & _); auto.
  { reflexivity. }
  { intros. apply Forall_forall. auto. }
  { intros. apply Forall_forall. auto. }
  { unfold zlen. lia. }
  change (block_loop (length l) 32 avx2_marks KInt rv 0 l = Ret (zlen D, D ++ R)) in E.
  rewrite E. cbn [obind]. cbv zeta. cbn [app] in L.
  set (a := if zlen D <? zlen l then _ else _).
  assert (La : zlen a = zlen l).
  { unfold a. destruct (zlen D <? zlen l); [|auto].
    rewrite (firstn_zlen D) by auto. rewrite (skipn_zlen D) by auto. rewrite <- L, !zlen_app. f_equal.
    unfold zlen. f_equal. apply Permutation_length. apply std_sort_perm. }
  clearbody a.
  destruct (length l) as [|fuel] eqn:EL; [unfold zlen in H; lia|].
  cbn [merge_blocks]. destruct (Z.ltb_spec 8 (zlen a)); [|lia].
  assert (length a = S fuel) as -> by (unfold zlen in *; lia).
  cbn [merge_pass]. cbv zeta. destruct (Z.ltb_spec 0 (zlen a)); [|lia].
  replace (Z.min (0 + 8 - 1) (zlen a - 1)) with 7 by lia.
  replace (Z.min (0 + 2 * 8 - 1) (zlen a - 1)) with (zlen a - 1) by lia.
  unfold single_merge. cbv zeta. rewrite E5. cbn [merge_vec]. change (per 64 KInt) with 16.
  change (usub 7 16) with 18446744073709551608.
  replace (usub (zlen a - 1) 16) with (zlen a + 18446744073709551600).
  2:{ unfold usub. change (2 ^ 64) with 18446744073709551616.
      rewrite <- (Z.mod_add _ 1) by lia. rewrite Z.mod_small by lia. lia. }
  destruct (Z.leb_spec (7 + 1) (zlen a + 18446744073709551600)); [|lia]. cbn [Z.leb Z.compare andb].
  assert (EG : vget 64 KInt a 0 = Undef OutOfBounds).
  { unfold vget. change (0 * ez KInt mod 64 =? 0) with true. cbn [negb].
    change (per 64 KInt) with 16. change (0 <=? 0) with true. destruct (Z.leb_spec (0 + 16) (zlen a)); [lia|].
    reflexivity. }
  rewrite EG. reflexivity.
Qed.

(** ** What the block functions compute *)
(** [v] is at most (at least, when reversed) [x]. *)
Definition leads (rv : bool) (v x : Z) : Prop := if rv then x <= v else v <= x.

(** Lane [c] is the least (greatest) of the entries of [v] whose positions are
    in [S]. *)
Definition covers (rv : bool) (v : list Z) (c : Z) (js : list nat) : Prop :=
  (exists j, In j js /\ c = nth j v 0) /\ (forall j, In j js -> leads rv c (nth j v 0)).

Definition join_sets (sets : list (list nat)) (m : list nat) : list (list nat) :=
  map (fun '(a, b) => a ++ b) (combine sets (map (fun i => nth i sets []) m)).

Lemma covers_vop rv v c d s t : covers rv v c s -> covers rv v d t ->
  covers rv v (if rv then Z.max c d else Z.min c d) (s ++ t).
Proof.
  unfold covers, leads. intros ((j & Hj & ->) & A) ((j' & Hj' & ->) & B).
  assert (In j (s ++ t) /\ In j' (s ++ t)) as (X & Y) by (split; apply in_or_app; auto).
  destruct rv.
  - split.
    + destruct (Z.max_spec (nth j v 0) (nth j' v 0)) as [[_ ->]|[_ ->]]; eauto.
    + intros i Hi. apply in_app_or in Hi. destruct Hi as [Hi|Hi]; [specialize (A i Hi)|specialize (B i Hi)]; lia.
  - split.
    + destruct (Z.min_spec (nth j v 0) (nth j' v 0)) as [[_ ->]|[_ ->]]; eauto.
    + intros i Hi. apply in_app_or in Hi. destruct Hi as [Hi|Hi]; [specialize (A i Hi)|specialize (B i Hi)]; lia.
Qed.

Lemma forall2_nth {X Y} (R : X -> Y -> Prop) a b dx dy i : Forall2 R a b -> (i < length a)%nat ->
  R (nth i a dx) (nth i b dy).
Proof.
  intros H. revert i. induction H as [|x y a b Hxy H IH]; intros i Hi; cbn [length] in Hi; [lia|].
  destruct i; cbn [nth]; [auto|]. apply IH. lia.
Qed.

Lemma forall2_len {X Y} (R : X -> Y -> Prop) a b : Forall2 R a b -> length a = length b.
Proof. induction 1; cbn; auto. Qed.

Lemma covers_step rv v cur sets m : Forall2 (covers rv v) cur sets -> length m = length cur ->
  Forall (fun i => (i < length cur)%nat) m ->
  Forall2 (covers rv v) (vop rv cur (permute m cur)) (join_sets sets m).
Proof.
  intros H Lm Fm.
  assert (HP : Forall2 (covers rv v) (permute m cur) (map (fun i => nth i sets []) m)).
  { unfold permute. clear Lm. induction Fm as [|i m Hi Fm IH]; cbn [map]; constructor; auto.
    apply forall2_nth; auto. }
  unfold join_sets. clear Lm Fm. revert HP.
  generalize (permute m cur), (map (fun i => nth i sets []) m).
  induction H as [|c s cur sets Hc H IH]; intros p q HP; [constructor|].
  inversion HP; subst; cbn [vop combine map]; constructor; auto using covers_vop.
Qed.

Lemma covers_fold rv L v : forall marks cur sets, good_marks L marks -> length cur = L ->
  Forall2 (covers rv v) cur sets ->
  Forall2 (covers rv v) (fold_left (fun v m => vop rv v (permute m v)) marks cur) (fold_left join_sets marks sets).
Proof.
  induction marks as [|m marks IH]; intros cur sets G Lc H0; cbn [fold_left]; [auto|].
  inversion G as [|? ? [Lm Fm] G']. apply IH; auto.
  - rewrite vop_len; auto. unfold permute. rewrite map_length. congruence.
  - apply covers_step; auto; [congruence|]. rewrite Lc. auto.
Qed.

Lemma covers_sort rv L marks v : good_marks L marks -> length v = L ->
  Forall2 (covers rv v) (sort_lanes rv marks v)
    (fold_left join_sets marks (map (fun i => [i]) (seq 0 L))).
Proof.
  intros G Lv. unfold sort_lanes.
  assert (H0 : Forall2 (covers rv v) v (map (fun i => [i]) (seq 0 L))).
  { subst L. clear G.
    assert (X : forall pre u, v = pre ++ u ->
       Forall2 (covers rv v) u (map (fun i => [i]) (seq (length pre) (length u)))).
    { intros pre u. revert pre. induction u as [|x u IH]; intros pre E; cbn [length seq map]; constructor.
      - split.
        + exists (length pre). split; [left; auto|]. rewrite E, app_nth2, Nat.sub_diag; auto.
        + intros j [<-|[]]. rewrite E, app_nth2, Nat.sub_diag by auto. cbn [nth]. unfold leads. destruct rv; lia.
      - replace (S (length pre)) with (length (pre ++ [x])) by (rewrite app_length; cbn; lia).
        apply IH. rewrite E, <- app_assoc. auto. }
    apply (X [] v). auto. }
  apply covers_fold with (L := L); auto.
Qed.

(** Each lane of the 8-lane sort covers all eight positions; each lane of the
    16-lane sort covers eight. *)
Definition avx2_sets : list (list nat) := fold_left join_sets avx2_marks (map (fun i => [i]) (seq 0 8)).
Definition avx512_sets : list (list nat) := fold_left join_sets avx512_marks (map (fun i => [i]) (seq 0 16)).

Definition wide_b (L : nat) (js : list nat) : bool :=
  (8 <=? length (nodup Nat.eq_dec js))%nat && forallb (fun j => (j <? L)%nat) js.

Lemma avx2_wide : forallb (wide_b 8) avx2_sets = true. Proof. vm_compute. reflexivity. Qed.
Lemma avx512_wide : forallb (wide_b 16) avx512_sets = true. Proof. vm_compute. reflexivity. Qed.

Lemma filter_positions (g : Z -> bool) b :
  length (filter g b) = length (filter (fun j => g (nth j b 0)) (seq 0 (length b))).
Proof.
  assert (X : forall pre u, b = pre ++ u ->
     length (filter g u) = length (filter (fun j => g (nth j b 0)) (seq (length pre) (length u)))).
  { intros pre u. revert pre. induction u as [|x u IH]; intros pre E; cbn [length seq filter]; [auto|].
    assert (nth (length pre) b 0 = x) as -> by (rewrite E, app_nth2, Nat.sub_diag; auto).
    specialize (IH (pre ++ [x])). rewrite <- app_assoc in IH. specialize (IH E).
    rewrite app_length in IH. cbn [length] in IH. rewrite Nat.add_1_r in IH.
    destruct (g x); cbn [length]; auto. }
  apply (X [] b). auto.
Qed.

Lemma covers_half rv b c js : covers rv b c js -> wide_b (length b) js = true -> half_extreme rv c b.
Proof.
  intros ((j & Hj & E) & H) W. apply andb_true_iff in W. destruct W as (W1 & W2).
  apply Nat.leb_le in W1. rewrite forallb_forall in W2.
  split.
  - rewrite E. apply nth_In. specialize (W2 j Hj). apply Nat.ltb_lt in W2. auto.
  - rewrite filter_positions. etransitivity; [exact W1|].
    apply NoDup_incl_length; [apply NoDup_nodup|].
    intros i Hi. apply nodup_In in Hi. apply filter_In. split.
    + apply in_seq. specialize (W2 i Hi). apply Nat.ltb_lt in W2. lia.
    + specialize (H i Hi). unfold leads in H. destruct rv; lia.
Qed.

Lemma block_half rv w marks sets b : good_marks (lanes_of w) marks ->
  sets = fold_left join_sets marks (map (fun i => [i]) (seq 0 (lanes_of w))) ->
  forallb (wide_b (lanes_of w)) sets = true -> length b = lanes_of w ->
  Forall (fun v => half_extreme rv v b) (block_fun KInt rv marks b).
Proof.
  intros G -> W Lb. unfold block_fun. cbn [of_lanes to_lanes].
  pose proof (covers_sort rv _ marks b G Lb) as H.
  rewrite <- Lb in W, H. revert H W. generalize (sort_lanes rv marks b) as cur0.
  generalize (fold_left join_sets marks (map (fun i => [i]) (seq 0 (length b)))) as ss0.
  intros ss0 cur0 H. induction H as [|c s cur ss Hc H IH]; intros W; cbn [forallb] in *; constructor.
  - apply andb_true_iff in W. destruct W. eapply covers_half; eauto.
  - apply andb_true_iff in W. destruct W. auto.
Qed.

Lemma stage_half rv w marks l q : width w -> good_marks (lanes_of w) marks ->
  (forall b, length b = lanes_of w -> Forall (fun v => half_extreme rv v b) (block_fun KInt rv marks b)) ->
  (lanes_of w * q + lanes_of w <= length l)%nat ->
  stage KInt rv w marks
    (fun v => In v (outside (lanes_of w) q l) \/ half_extreme rv v (block (lanes_of w) q l)) l.
Proof.
  intros W G HB HL. set (K := lanes_of w) in *.
  assert (HK : per w KInt = Z.of_nat K) by (destruct W as [-> | [-> | ->]]; reflexivity).
  assert (K0 : (0 < K)%nat) by (destruct W as [-> | [-> | ->]]; unfold K; cbv; lia).
  split.
  - intros x b y E Hx Lb. rewrite HK in *.
    assert (exists t, length x = (K * t)%nat) as (t & Ht).
    { exists (length x / K)%nat. apply Nat.div_exact; [lia|]. apply Nat2Z.inj. rewrite Nat2Z.inj_mod. exact Hx. }
    assert (Lb' : length b = K) by (unfold zlen in Lb; lia).
    destruct (Nat.eq_dec t q) as [->|Hne].
    + assert (block K q l = b) as Eb.
      { unfold block. rewrite E, <- Ht, skipn_app, skipn_all, Nat.sub_diag. cbn [app skipn].
        rewrite <- Lb', firstn_app, firstn_all, Nat.sub_diag. cbn [firstn]. apply app_nil_r. }
      rewrite Eb. eapply Forall_impl; [|apply HB; auto]. auto.
    + assert (F : Forall (fun v => In v (outside K q l)) b).
      { apply Forall_forall. intros v Hv. unfold outside. apply in_or_app.
        destruct (Nat.lt_ge_cases t q).
        - left. rewrite E. rewrite app_assoc, firstn_app. apply in_or_app. left.
          rewrite firstn_all2 by (rewrite app_length, Ht, Lb'; nia). apply in_or_app. auto.
        - right. rewrite E. rewrite skipn_app. apply in_or_app. right.
          replace (K * q + K - length x)%nat with 0%nat by nia. cbn [skipn]. apply in_or_app. auto. }
      assert (C : closed KInt (fun v => In v (outside K q l))) by exact I.
      eapply Forall_impl; [|apply (block_fun_closed KInt w rv marks _ b W G C); auto; unfold zlen; lia].
      auto.
  - intros x y E Hx Ly. rewrite HK in *. apply Forall_forall. intros v Hv. left. unfold outside.
    apply in_or_app. right.
    assert (exists t, length x = (K * t)%nat) as (t & Ht).
    { exists (length x / K)%nat. apply Nat.div_exact; [lia|]. apply Nat2Z.inj. rewrite Nat2Z.inj_mod. exact Hx. }
    assert (length l = length x + length y)%nat by (rewrite E, app_length; auto).
    unfold zlen in Ly. assert (q < t)%nat by nia.
    rewrite E, skipn_app. apply in_or_app. right.
    replace (K * q + K - length x)%nat with 0%nat by nia. auto.
Qed.

Lemma simdsort_blocks f rv l q : zlen l < 2 ^ 62 -> no_oob f KInt (zlen l) -> blocked f (zlen l) ->
  (block_len f (zlen l) * q + block_len f (zlen l) <= length l)%nat ->
  exists l', simdsort f KInt rv l = Ret l' /\ length l' = length l /\
    forall v, In v l' -> In v (outside (block_len f (zlen l)) q l) \/
                         half_extreme rv v (block (block_len f (zlen l)) q l).
Proof.
  intros HM NO BL Hq. set (K := block_len f (zlen l)) in *.
  assert (W64 : width 64) by (right; right; auto). assert (W32 : width 32) by (right; left; auto).
  destruct (simdsort_vec f KInt rv l
     (fun v => In v (outside K q l) \/ half_extreme rv v (block K q l)) I) as (l' & E & L & F); auto.
  - destruct BL; lia.
  - destruct BL as [[-> _]|[-> _]]; [apply orb_true_r|auto].
  - intros E5 Hn. change (per 64 KInt) with 16 in Hn.
    assert (EK : K = 16%nat) by (unfold K, block_len; rewrite E5; destruct (Z.ltb_spec 16 (zlen l)); [auto|lia]).
    rewrite EK in *. apply (stage_half rv 64 avx512_marks l q W64 good_avx512); auto.
    intros b Lb. apply (block_half rv 64 avx512_marks avx512_sets); auto using good_avx512, avx512_wide.
  - intros H5 E2 Hn. change (per 64 KInt) with 16 in H5. change (per 32 KInt) with 8 in Hn.
    assert (EK : K = 8%nat).
    { unfold K, block_len. destruct H5 as [->|H5]; [auto|]. destruct (Z.ltb_spec 16 (zlen l)); [lia|].
      rewrite andb_false_r. auto. }
    rewrite EK in *. apply (stage_half rv 32 avx2_marks l q W32 good_avx2); auto.
    intros b Lb. apply (block_half rv 32 avx2_marks avx2_sets); auto using good_avx2, avx2_wide.
  - change (per 64 KInt) with 16. change (per 32 KInt) with 8. intros [H5|H5] [H2|H2]; exfalso.
    + destruct BL as [[? ?]|[? ?]]; congruence.
    + destruct BL as [[? ?]|[? ?]]; [congruence|lia].
    + destruct BL as [[? ?]|[? ?]]; [lia|congruence].
    + destruct BL as [[? ?]|[? ?]]; lia.
  - exists l'. split; [auto|]. split; [unfold zlen in L; lia|]. rewrite Forall_forall in F. exact F.
Qed.

Lemma NoDup_app_disj {X} (a b : list X) x : NoDup (a ++ b) -> In x a -> In x b -> False.
Proof.
  induction a as [|y a IH]; cbn [app]; intros ND Ha Hb; [destruct Ha|].
  inversion ND; subst. destruct Ha as [->|Ha]; [|auto]. apply H1. apply in_or_app. auto.
Qed.

Lemma NoDup_app_l {X} (a b : list X) : NoDup (a ++ b) -> NoDup a.
Proof.
  induction a as [|y a IH]; cbn [app]; intros ND; constructor; inversion ND; subst; auto.
  intros H. apply H1. apply in_or_app. auto.
Qed.

(** A list without repetitions is never sorted by the block path. *)
Lemma max_exists (rv : bool) (b : list Z) : b <> [] ->
  exists x, In x b /\ forall y, In y b -> if rv then x <= y else y <= x.
Proof.
  induction b as [|a b IH]; [congruence|]. intros _. destruct b as [|c b].
  - exists a. split; [left; auto|]. intros y [<-|[]]. destruct rv; lia.
  - destruct IH as (x & Hx & Hm); [discriminate|].
    destruct rv.
    + destruct (Z.leb_spec a x); [exists a|exists x]; (split; [cbn; auto|]); intros y [<-|Hy]; try lia;
      specialize (Hm y Hy); lia.
    + destruct (Z.leb_spec x a); [exists a|exists x]; (split; [cbn; auto|]); intros y [<-|Hy]; try lia;
      specialize (Hm y Hy); lia.
Qed.

Lemma simdsort_loses f rv l : zlen l < 2 ^ 62 -> no_oob f KInt (zlen l) -> blocked f (zlen l) -> NoDup l ->
  exists l' x, simdsort f KInt rv l = Ret l' /\ length l' = length l /\ In x l /\ ~ In x l'.
Proof.
  intros HM NO BL ND. set (K := block_len f (zlen l)).
  assert (HK : (K <= length l)%nat /\ (8 <= K)%nat).
  { unfold K, block_len. unfold zlen in *.
    destruct BL as [[E H]|[E H]]; [rewrite E; cbn [andb]; destruct (Z.ltb_spec 16 (Z.of_nat (length l))); lia|].
    destruct (avx512 f); cbn [andb]; [|lia]. destruct (Z.ltb_spec 16 (Z.of_nat (length l))); lia. }
  destruct (simdsort_blocks f rv l 0 HM NO BL) as (l' & E & L & F); [fold K; lia|]. fold K in F.
  destruct (max_exists rv (firstn K l)) as (x & Hx & Hm).
  { intros E0. apply (f_equal (@length Z)) in E0. rewrite firstn_length in E0. cbn [length] in E0. lia. }
  exists l', x. split; [auto|]. split; [auto|]. split; [eapply in_firstn; eauto|].
  intros Hin. specialize (F x Hin). unfold outside, block in F. rewrite Nat.mul_0_r in F. cbn [firstn skipn app plus] in F.
  pose proof ND as ND'. rewrite <- (firstn_skipn K l) in ND'.
  destruct F as [F|(_ & F)].
  - exact (NoDup_app_disj _ _ x ND' Hx F).
  - assert (NF : NoDup (firstn K l)) by (eapply NoDup_app_l; eauto).
    set (g := fun y => if rv then y <=? x else x <=? y) in F.
    assert (X : incl (filter g (firstn K l)) [x]).
    { intros y Hy. apply filter_In in Hy. destruct Hy as (Hy & Gy). specialize (Hm y Hy). left.
      unfold g in Gy. destruct rv; lia. }
    apply NoDup_incl_length in X; [cbn [length] in X; lia|]. apply NoDup_filter. auto.
Qed.

(** ** BigIntArrayList of eight elements *)
Lemma block_step k w marks rv fuel D b R : width w -> good_marks (lanes_of w) marks ->
  aligned k w (zlen D) -> zlen b = per w k ->
  block_loop (S fuel) w marks k rv (zlen D) (D ++ b ++ R) =
  block_loop fuel w marks k rv (zlen (D ++ block_fun k rv marks b)) ((D ++ block_fun k rv marks b) ++ R).
Proof.
  intros W G AD Lb. cbn [block_loop]. pose proof (zlen_nonneg D). pose proof (zlen_nonneg R).
  rewrite (zlen_app D (b ++ R)), (zlen_app b R).
  destruct (Z.leb_spec (zlen D + per w k) (zlen D + (zlen b + zlen R))); [|lia].
  assert (EG : vget w k (D ++ b ++ R) (zlen D) = Ret b).
  { unfold vget. rewrite AD. cbn [Z.eqb negb].
    destruct (Z.leb_spec 0 (zlen D)); [|lia]. rewrite (zlen_app D (b ++ R)), (zlen_app b R).
    destruct (Z.leb_spec (zlen D + per w k) (zlen D + (zlen b + zlen R))); [|lia]. cbn [andb].
    rewrite (skipn_zlen D) by auto. rewrite firstn_zlen by auto. auto. }
  rewrite EG. cbn [obind]. fold (block_fun k rv marks b).
  rewrite (vput_ok k w (D ++ b ++ R) (zlen D) _ D b R) by auto. cbn [obind].
  rewrite zlen_app, (block_fun_len k rv w marks b W G Lb), (app_assoc D _ R). auto.
Qed.

Definition full_b (js : list nat) : bool := forallb (fun i => existsb (Nat.eqb i) js) (seq 0 8).
Lemma avx2_full : forallb full_b avx2_sets = true. Proof. vm_compute. reflexivity. Qed.

Lemma sort8_extreme rv v : length v = 8%nat ->
  exists m, extreme rv m v /\ sort_lanes rv avx2_marks v = repeat m 8.
Proof.
  intros Lv. pose proof (covers_sort rv 8 avx2_marks v good_avx2 Lv) as H.
  fold avx2_sets in H.
  assert (F : Forall (fun c => extreme rv c v) (sort_lanes rv avx2_marks v)).
  { pose proof avx2_full as A. pose proof avx2_wide as B. revert A B.
    induction H as [|c s cur ss Hc H IH]; intros A B; constructor; cbn [forallb] in A, B;
      apply andb_true_iff in A, B; destruct A as (A1 & A2), B as (B1 & B2); [|auto].
    destruct Hc as ((j & Hj & ->) & HA). split.
    - apply nth_In. rewrite Lv. apply andb_true_iff in B1. destruct B1 as (_ & B1).
      rewrite forallb_forall in B1. specialize (B1 j Hj). apply Nat.ltb_lt in B1. auto.
    - apply Forall_forall. intros x Hx. apply (In_nth v x 0) in Hx. destruct Hx as (i & Hi & <-).
      unfold full_b in A1. rewrite forallb_forall in A1. specialize (A1 i).
      rewrite existsb_exists in A1. destruct A1 as (i' & Hi' & E); [apply in_seq; lia|].
      apply Nat.eqb_eq in E. subst i'. apply HA in Hi'. exact Hi'. }
  destruct (sort_lanes_ok rv 8 avx2_marks v (fun _ => True) good_avx2 Lv) as (L & _).
  assert (U : forall a b, extreme rv a v -> extreme rv b v -> a = b).
  { intros a b (Ia & Fa) (Ib & Fb). rewrite Forall_forall in Fa, Fb. specialize (Fa b Ib). specialize (Fb a Ia).
    destruct rv; lia. }
  destruct (sort_lanes rv avx2_marks v) as [|m r] eqn:E; [discriminate|].
  exists m. inversion F as [|? ? Fm Fr]; subst. split; [auto|].
  change (repeat m 8) with (m :: repeat m 7). f_equal. cbn [length] in L. assert (Lr : length r = 7%nat) by lia. clear - Fr Lr U Fm.
  revert Lr. generalize 7%nat as n. induction Fr as [|x r Fx Fr IH]; intros n Lr; subst n; cbn [length repeat]; auto.
  rewrite (U x m Fx Fm). f_equal. apply IH. auto.
Qed.

Lemma block_big rv b : length b = 4%nat ->
  exists m, extreme rv m (halves b) /\ block_fun KBig rv avx2_marks b = repeat (from_halves m m) 4.
Proof.
  intros Lb. destruct (sort8_extreme rv (to_lanes KBig b)) as (m & X & E).
  { rewrite to_lanes_len, Lb. auto. }
  exists m. split; [exact X|]. unfold block_fun. rewrite E. reflexivity.
Qed.

Lemma simdsort_big8 f rv b1 b2 : avx2 f = true -> length b1 = 4%nat -> length b2 = 4%nat ->
  exists m1 m2, extreme rv m1 (halves b1) /\ extreme rv m2 (halves b2) /\
    simdsort f KBig rv (b1 ++ b2) = Ret (repeat (from_halves m1 m1) 4 ++ repeat (from_halves m2 m2) 4).
Proof.
  intros E2 L1 L2. destruct (block_big rv b1 L1) as (m1 & X1 & B1). destruct (block_big rv b2 L2) as (m2 & X2 & B2).
  exists m1, m2. split; [auto|]. split; [auto|]. unfold simdsort. cbv zeta.
  assert (LL : zlen (b1 ++ b2) = 8) by (unfold zlen; rewrite app_length, L1, L2; auto).
  assert (Ln : length (b1 ++ b2) = 8%nat) by (rewrite app_length, L1, L2; auto).
  rewrite LL, Ln. change (8 <=? 1) with false. change (8 <? 8) with false. rewrite E2. cbn [negb andb].
  change (0 + per 64 KBig <? 8) with false. rewrite andb_false_r. cbn [obind].
  change (0 + per 32 KBig <? 8) with true.
  assert (W32 : width 32) by (right; left; auto).
  pose proof (block_step KBig 32 avx2_marks rv 7 [] b1 b2 W32 good_avx2 eq_refl) as S1.
  cbn [app] in S1. change (zlen (@nil Z)) with 0 in S1. rewrite S1 by (unfold zlen; rewrite L1; auto).
  rewrite B1.
  pose proof (block_step KBig 32 avx2_marks rv 6 (repeat (from_halves m1 m1) 4) b2 [] W32 good_avx2) as S2.
  rewrite !app_nil_r in S2. rewrite S2; [|reflexivity|unfold zlen; rewrite L2; auto].
  rewrite B2. set (a := repeat (from_halves m1 m1) 4 ++ repeat (from_halves m2 m2) 4).
  assert (La : zlen a = 8) by reflexivity.
  cbn [block_loop]. rewrite La. change (8 + per 32 KBig <=? 8) with false. cbn [obind].
  change (8 <? 8) with false. cbv iota. apply merge_blocks_done. rewrite La. lia.
Qed.

(** ** sort() without key *)
Lemma bytes_fit (k : kind) (s : list Z) : zlen s * ez k <= SSIZE_MAX -> zlen s < 2 ^ 62 /\ 2 * zlen s + 1 <= SSIZE_MAX.
Proof.
  intros H. pose proof (zlen_nonneg s). change SSIZE_MAX with 9223372036854775807 in *.
  change (2 ^ 62) with 4611686018427387904. rewrite ez_val in H. destruct k; lia.
Qed.

Lemma sort_nokey_sorts cfg k r s : zlen s * ez k <= SSIZE_MAX -> ~ vector_path (feat cfg) k (zlen s) ->
  exists s', sort_nokey cfg k r s = (Ret VNone, s') /\ Permutation s' s /\ ordered (r =? 1) s'.
Proof.
  intros HM NV. destruct (bytes_fit k s HM) as (_ & HM').
  assert (S : sorts (feat cfg) k (r =? 1) s).
  { destruct (Z.ltb_spec (zlen s) 8); [apply sorts_tiny; auto|].
    destruct (avx2 (feat cfg) || avx512 (feat cfg)) eqn:EV.
    - assert (NV' : 8 <= zlen s /\ match k with
                   | KInt => avx512 (feat cfg) = true /\ 16 < zlen s \/ avx2 (feat cfg) = true /\ 8 < zlen s
                   | KBig => avx512 (feat cfg) = true /\ 8 < zlen s \/ avx2 (feat cfg) = true /\ 4 < zlen s
                   end -> False) by exact NV.
      apply sorts_unblocked; auto.
      + intros E5. destruct (Z.leb_spec (zlen s) (per 64 k)) as [|X]; [auto|]. exfalso. apply NV'. split; [auto|].
        destruct k; [change (per 64 KInt) with 16 in X|change (per 64 KBig) with 8 in X]; auto.
      + intros E2. destruct (Z.leb_spec (zlen s) (per 32 k)) as [|X]; [auto|]. exfalso. apply NV'. split; [auto|].
        destruct k; [change (per 32 KInt) with 8 in X|change (per 32 KBig) with 4 in X]; auto.
    - apply orb_false_iff in EV. destruct EV. apply sorts_scalar; auto. }
  destruct S as (s' & E & P & O). exists s'. unfold sort_nokey. rewrite E. auto.
Qed.

Lemma sort_nokey_safe cfg k r s : zlen s * ez k <= SSIZE_MAX -> no_oob (feat cfg) k (zlen s) ->
  exists s', sort_nokey cfg k r s = (Ret VNone, s') /\ length s' = length s /\ (k = KInt -> incl s' s).
Proof.
  intros HM NO. destruct (bytes_fit k s HM) as (HM' & _).
  destruct (simdsort_safe (feat cfg) k (r =? 1) s HM' NO) as (s' & E & L & I).
  exists s'. unfold sort_nokey. rewrite E. split; [auto|]. split; [unfold zlen in L; lia|auto].
Qed.

Lemma sort_nokey_oob cfg r s : avx512 (feat cfg) = true -> avx2 (feat cfg) = true -> 9 <= zlen s <= 15 ->
  fst (sort_nokey cfg KInt r s) = Undef OutOfBounds.
Proof. intros A B C. unfold sort_nokey. rewrite simdsort_oob; auto. Qed.

Lemma sort_nokey_blocks cfg r s q : zlen s * 4 <= SSIZE_MAX -> no_oob (feat cfg) KInt (zlen s) ->
  blocked (feat cfg) (zlen s) ->
  let K := block_len (feat cfg) (zlen s) in (K * q + K <= length s)%nat ->
  exists s', sort_nokey cfg KInt r s = (Ret VNone, s') /\ length s' = length s /\
    forall v, In v s' -> In v (outside K q s) \/ half_extreme (r =? 1) v (block K q s).
Proof.
  intros HM NO BL K HK. destruct (bytes_fit KInt s HM) as (HM' & _).
  destruct (simdsort_blocks (feat cfg) (r =? 1) s q HM' NO BL HK) as (s' & E & L & F).
  exists s'. unfold sort_nokey. rewrite E. auto.
Qed.

Lemma sort_nokey_loses cfg r s : zlen s * 4 <= SSIZE_MAX -> no_oob (feat cfg) KInt (zlen s) ->
  blocked (feat cfg) (zlen s) -> NoDup s ->
  exists s', sort_nokey cfg KInt r s = (Ret VNone, s') /\ length s' = length s /\
    (exists x, In x s /\ ~ In x s') /\ ~ Permutation s' s.
Proof.
  intros HM NO BL ND. destruct (bytes_fit KInt s HM) as (HM' & _).
  destruct (simdsort_loses (feat cfg) (r =? 1) s HM' NO BL ND) as (s' & x & E & L & I & N).
  exists s'. unfold sort_nokey. rewrite E. split; [auto|]. split; [auto|]. split; [eauto|].
  intros P. apply N. apply (Permutation_in x (Permutation_sym P)). auto.
Qed.

Lemma sort_nokey_big8 cfg r b1 b2 : avx2 (feat cfg) = true -> length b1 = 4%nat -> length b2 = 4%nat ->
  exists m1 m2, extreme (r =? 1) m1 (halves b1) /\ extreme (r =? 1) m2 (halves b2) /\
    sort_nokey cfg KBig r (b1 ++ b2) =
      (Ret VNone, repeat (from_halves m1 m1) 4 ++ repeat (from_halves m2 m2) 4).
Proof.
  intros E2 L1 L2. destruct (simdsort_big8 (feat cfg) (r =? 1) b1 b2 E2 L1 L2) as (m1 & m2 & X1 & X2 & E).
  exists m1, m2. unfold sort_nokey. rewrite E. auto.
Qed.
