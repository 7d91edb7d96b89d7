(** Proofs for C20: what the vector path loses of a long long vector. Only
    values are followed here; that the code returns is in SimdSortProofs.v. *)
From Coq Require Import ZArith List Bool Lia Sorting.Permutation Arith.
From Verif Require Import Base MemModel PyLongModel PyLongProofs PyListSpec ListLemmas ArrayListModel SimdSortModel SimdSortSpec SimdSortProofs.
Import ListNotations.
Local Open Scope Z_scope.
Local Arguments Z.pow : simpl never.
Local Arguments Z.of_nat : simpl never.
Local Arguments Z.to_nat : simpl never.
Local Arguments Z.add : simpl never.
Local Arguments Z.sub : simpl never.
Local Arguments Z.mul : simpl never.
Local Arguments Z.modulo : simpl never.
Local Arguments Z.div : simpl never.

Lemma obind_ret {A B} (o : outcome A) (f : A -> outcome B) b : obind o f = Ret b -> exists a, o = Ret a /\ f a = Ret b.
Proof. destruct o as [a|e|a e|u]; cbn [obind]; intros H; [eauto|discriminate| |discriminate]. destruct (f a); discriminate. Qed.

(** ** Positions *)
Lemma znth_app_l {A} (a b : list A) i : i < zlen a -> znth (a ++ b) i = znth a i.
Proof. intros H. unfold znth, zlen in *. destruct (Z.ltb_spec i 0); [reflexivity|]. apply nth_error_app1. lia. Qed.
Lemma znth_app_r {A} (a b : list A) i : zlen a <= i -> znth (a ++ b) i = znth b (i - zlen a).
Proof.
  intros H. unfold znth, zlen in *. destruct (Z.ltb_spec i 0); [lia|]. destruct (Z.ltb_spec (i - Z.of_nat (length a)) 0); [lia|].
  rewrite nth_error_app2 by lia. f_equal. lia.
Qed.
Lemma znth_inside {A} (l : list A) i : (exists x, znth l i = Some x) <-> 0 <= i < zlen l.
Proof. split; [intros [x H]; eapply znth_some; eauto|apply znth_in]. Qed.
Lemma znth_firstn {A} (l : list A) n i : 0 <= n <= zlen l -> i < n -> znth (firstn (Z.to_nat n) l) i = znth l i.
Proof. intros H Hi. rewrite <- (firstn_skipn (Z.to_nat n) l) at 2. symmetry. apply znth_app_l. unfold zlen in *. rewrite firstn_length. lia. Qed.
Lemma znth_skipn {A} (l : list A) n i : 0 <= n <= zlen l -> 0 <= i -> znth (skipn (Z.to_nat n) l) i = znth l (n + i).
Proof.
  intros H Hi. rewrite <- (firstn_skipn (Z.to_nat n) l) at 2. assert (L : zlen (firstn (Z.to_nat n) l) = n) by (unfold zlen in *; rewrite firstn_length; lia).
  rewrite znth_app_r by lia. f_equal. lia.
Qed.
Lemma vget_inv w k a i v : 0 <= per w k -> vget w k a i = Ret v ->
  0 <= i /\ i + per w k <= zlen a /\ zlen v = per w k /\ forall t, 0 <= t < per w k -> znth v t = znth a (i + t).
Proof.
  intros P. unfold vget. destruct (negb _); [discriminate|]. destruct (Z.leb_spec 0 i); [|discriminate]. destruct (Z.leb_spec (i + per w k) (zlen a)); [|discriminate].
  cbn [andb]. intros E. injection E as <-. split; [lia|]. split; [lia|].
  assert (L : zlen (skipn (Z.to_nat i) a) = zlen a - i) by (unfold zlen in *; rewrite skipn_length; lia). split.
  - unfold zlen in *. rewrite firstn_length, skipn_length. lia.
  - intros t Ht. rewrite znth_firstn by lia. apply znth_skipn; lia.
Qed.
Lemma vput_inv w k a i v a' : 0 <= per w k -> zlen v = per w k -> vput w k a i v = Ret a' ->
  0 <= i /\ i + per w k <= zlen a /\ zlen a' = zlen a /\ (forall t, 0 <= t < per w k -> znth a' (i + t) = znth v t) /\
  (forall p, p < i \/ i + per w k <= p -> znth a' p = znth a p).
Proof.
  intros P L. unfold vput. destruct (negb _); [discriminate|]. destruct (Z.leb_spec 0 i); [|discriminate]. destruct (Z.leb_spec (i + per w k) (zlen a)); [|discriminate].
  cbn [andb]. intros E. injection E as <-.
  assert (L1 : zlen (firstn (Z.to_nat i) a) = i) by (unfold zlen in *; rewrite firstn_length; lia).
  assert (L2 : zlen (skipn (Z.to_nat (i + per w k)) a) = zlen a - (i + per w k)) by (unfold zlen in *; rewrite skipn_length; lia).
  split; [lia|]. split; [lia|]. split; [rewrite !zlen_app; lia|]. split.
  - intros t Ht. rewrite znth_app_r by lia. rewrite znth_app_l by lia. f_equal. lia.
  - intros p [Q|Q].
    + rewrite znth_app_l by lia. apply znth_firstn; lia.
    + rewrite znth_app_r by lia. rewrite znth_app_r by lia. rewrite znth_skipn by lia. f_equal. lia.
Qed.
Lemma nset_inv {A} (v : A) : forall l i l', nset l i v = Some l' -> (i < length l)%nat /\ length l' = length l /\ nth_error l' i = Some v /\ forall p, p <> i -> nth_error l' p = nth_error l p.
Proof.
  induction l as [|x l IH]; intros i l' H; destruct i; cbn [nset] in H; try discriminate.
  - injection H as <-. cbn [length]. split; [lia|]. split; [reflexivity|]. split; [reflexivity|]. intros [|p] Q; [lia|reflexivity].
  - destruct (nset l i v) as [r|] eqn:E; [|discriminate]. cbn [option_map] in H. injection H as <-. destruct (IH _ _ E) as (A1 & A2 & A3 & A4). cbn [length].
    split; [lia|]. split; [lia|]. split; [exact A3|]. intros [|p] Q; [reflexivity|]. apply A4. lia.
Qed.
Lemma eput_inv a i v a' : eput a i v = Ret a' -> 0 <= i < zlen a /\ zlen a' = zlen a /\ znth a' i = Some v /\ forall p, p <> i -> znth a' p = znth a p.
Proof.
  unfold eput, zset. destruct (Z.ltb_spec i 0); [discriminate|]. destruct (nset a (Z.to_nat i) v) as [l'|] eqn:E; [|discriminate]. cbn [or_ub]. intros Q; injection Q as <-.
  apply nset_inv in E. destruct E as (A1 & A2 & A3 & A4). unfold zlen in *. split; [lia|]. split; [lia|]. unfold znth. destruct (Z.ltb_spec i 0); [lia|].
  split; [exact A3|]. intros p Q. destruct (Z.ltb_spec p 0); [reflexivity|]. apply A4. lia.
Qed.
Lemma eget_inv a i x : eget a i = Ret x -> znth a i = Some x.
Proof. unfold eget. destruct (znth a i); [|discriminate]. intros H; injection H as <-. reflexivity. Qed.

(** ** Merging *)
Definition holds (P : Z -> Prop) (a : list Z) (lo hi : Z) : Prop := forall p x, lo <= p < hi -> znth a p = Some x -> P x.
Lemma holds_sub P a lo hi lo' hi' : holds P a lo hi -> lo <= lo' -> hi' <= hi -> holds P a lo' hi'.
Proof. intros H A B p x Hp. apply H. lia. Qed.
Lemma holds_all P a : holds P a 0 (zlen a) <-> Forall P a.
Proof.
  rewrite Forall_forall. split.
  - intros H x Hx. apply In_nth_error in Hx. destruct Hx as [n Hn]. assert (n < length a)%nat by (apply nth_error_Some; congruence).
    apply (H (Z.of_nat n)); [unfold zlen; lia|]. unfold znth. destruct (Z.ltb_spec (Z.of_nat n) 0); [lia|]. rewrite Nat2Z.id. exact Hn.
  - intros H p x Hp Hx. apply H. unfold znth in Hx. destruct (p <? 0); [discriminate|]. eapply nth_error_In; eauto.
Qed.

(** [Q] survives one lane-wise step with anything in [P]. *)
Definition absorbs (rv : bool) (Q P : Z -> Prop) : Prop :=
  forall x y, Q x -> P y -> P (pack64 (if rv then Z.max (lo32 x) (lo32 y) else Z.min (lo32 x) (lo32 y)) (if rv then Z.max (hi32 x) (hi32 y) else Z.min (hi32 x) (hi32 y))).

Lemma lanes_cons x v : to_lanes KBig (x :: v) = lo32 x :: hi32 x :: to_lanes KBig v.
Proof. reflexivity. Qed.
Lemma op_znth rv : forall a b, length a = length b ->
  let r := of_lanes KBig (vop rv (to_lanes KBig a) (to_lanes KBig b)) in length r = length a /\
  forall t z, nth_error r t = Some z -> exists x y, nth_error a t = Some x /\ nth_error b t = Some y /\
    z = pack64 (if rv then Z.max (lo32 x) (lo32 y) else Z.min (lo32 x) (lo32 y)) (if rv then Z.max (hi32 x) (hi32 y) else Z.min (hi32 x) (hi32 y)).
Proof.
  induction a as [|x a IH]; intros [|y b] L; try discriminate L.
  - split; [reflexivity|]. intros [|t] z H; discriminate.
  - cbv zeta. rewrite !lanes_cons. cbn [vop of_lanes pack_pairs length]. destruct (IH b ltac:(cbn in L; lia)) as [I1 I2]. split; [cbn [of_lanes] in I1; lia|].
    intros [|t] z H; cbn [nth_error] in *; [injection H as <-; exists x, y; auto|]. apply I2 in H. exact H.
Qed.

Lemma width_per w : width w -> 2 <= per w KBig <= 8.
Proof. intros [-> | [-> | ->]]; cbv; split; discriminate. Qed.

Section Merge.
Context (rv : bool) (P Q : Z -> Prop) (AB : absorbs rv Q P) (src dst0 : list Z) (left mid right : Z).
Context (Hl : 0 <= left <= mid) (Hm : mid <= right) (H7 : 7 <= mid) (Hr : right < 2 ^ 63).
Context (Ri : mid < right -> holds Q src left (mid + 1)) (Pi : holds P src left (mid + 1)) (Pj : holds P src (mid + 1) (right + 1)).

Definition minv (st : Z * Z * Z * list Z) : Prop :=
  let '(i, j, kk, dst) := st in
  left <= i <= mid + 1 /\ mid + 1 <= j <= right + 1 /\ kk = i + j - (mid + 1) /\ zlen dst = zlen dst0 /\
  holds P dst left kk /\ forall p, p < left \/ right < p -> znth dst p = znth dst0 p.

Lemma usub_in a w : width w -> 7 <= a -> a <= right -> usub a (per w KBig) = a - per w KBig + 1.
Proof. intros W H1 H2. unfold usub. pose proof (width_per w W). apply Z.mod_small. change (2 ^ 64) with (2 * 2 ^ 63). lia. Qed.

Lemma vec_inv w : width w -> forall fuel i j kk dst st, minv (i, j, kk, dst) -> merge_vec fuel w KBig rv mid right src i j kk dst = Ret st -> minv st.
Proof.
  intros W. pose proof (width_per w W) as Wp. induction fuel as [|fuel IH]; intros i j kk dst st V H; cbn [merge_vec] in H; rewrite !usub_in in H by (auto; lia);
    (destruct (Z.leb_spec i (mid - per w KBig + 1)) as [Ci|Ci]; [destruct (Z.leb_spec j (right - per w KBig + 1)) as [Cj|Cj]|]; cbn [andb] in H; try discriminate H; try (injection H as <-; exact V)).
  destruct V as (V1 & V2 & V3 & V4 & V5 & V6).
  apply obind_ret in H. destruct H as (vi & Gi & H). apply obind_ret in H. destruct H as (vj & Gj & H). apply obind_ret in H. destruct H as (dst' & Pu & H).
  apply vget_inv in Gi; [|lia]. apply vget_inv in Gj; [|lia]. destruct Gi as (_ & _ & Li & Gi). destruct Gj as (_ & _ & Lj & Gj).
  destruct (op_znth rv vi vj) as [Lo Op]; [unfold zlen in *; lia|]. set (r := of_lanes KBig (vop rv (to_lanes KBig vi) (to_lanes KBig vj))) in *.
  apply vput_inv in Pu; [|lia|unfold zlen in *; lia]. destruct Pu as (_ & _ & Ld & Pn & Po).
  assert (N : minv (if rv then i else i + per w KBig, if rv then j + per w KBig else j, kk + per w KBig, dst')).
  { cbv beta iota delta [minv]. split; [destruct rv; lia|]. split; [destruct rv; lia|]. split; [destruct rv; lia|]. split; [lia|]. split.
    - intros p x Hp Hx. destruct (Z.lt_ge_cases p kk) as [L|G].
      + apply (V5 p); [lia|]. rewrite <- Po by lia. exact Hx.
      + replace p with (kk + (p - kk)) in Hx by lia. rewrite Pn in Hx by lia. assert (Hx' := Hx). unfold znth in Hx'. destruct (Z.ltb_spec (p - kk) 0); [lia|].
        destruct (Op _ _ Hx') as (a & b & Na & Nb & ->).
        assert (Za : znth vi (p - kk) = Some a) by (unfold znth; destruct (Z.ltb_spec (p - kk) 0); [lia|exact Na]).
        assert (Zb : znth vj (p - kk) = Some b) by (unfold znth; destruct (Z.ltb_spec (p - kk) 0); [lia|exact Nb]).
        rewrite Gi in Za by lia. rewrite Gj in Zb by lia. apply AB; [eapply Ri; [lia| |exact Za]; lia|eapply Pj; [|exact Zb]; lia].
    - intros p Hp. rewrite Po by lia. apply V6. exact Hp. }
  destruct rv; eapply IH; eauto.
Qed.
Lemma scalar_inv : forall fuel i j kk dst st, minv (i, j, kk, dst) -> merge_scalar fuel rv mid right src i j kk dst = Ret st -> minv st.
Proof.
  induction fuel as [|fuel IH]; intros i j kk dst st V H; cbn [merge_scalar] in H;
    (destruct (Z.leb_spec i mid) as [Ci|Ci]; [destruct (Z.leb_spec j right) as [Cj|Cj]|]; cbn [andb] in H; try discriminate H; try (injection H as <-; exact V)).
  destruct V as (V1 & V2 & V3 & V4 & V5 & V6).
  apply obind_ret in H. destruct H as (x & Gi & H). apply obind_ret in H. destruct H as (y & Gj & H). apply eget_inv in Gi. apply eget_inv in Gj.
  destruct (before rv x y); apply obind_ret in H; destruct H as (dst' & Pu & H); apply eput_inv in Pu; destruct Pu as (_ & Ld & Pn & Po); eapply IH; [|exact H| |exact H]; cbv beta iota delta [minv];
    (split; [lia|]; split; [lia|]; split; [lia|]; split; [lia|]; split; [|intros p Hp; rewrite Po by lia; apply V6; exact Hp]);
    intros p z Hp Hz; (destruct (Z.eq_dec p kk) as [->|]; [rewrite Pn in Hz; injection Hz as <-|rewrite Po in Hz by lia; apply (V5 p); [lia|exact Hz]]).
  - eapply Pi; [|exact Gi]; lia.
  - eapply Pj; [|exact Gj]; lia.
Qed.
Lemma drain_inv last : last <= right -> forall fuel i kk dst kk' dst', holds P src i (last + 1) -> left <= kk -> kk + (last + 1 - i) <= right + 1 -> zlen dst = zlen dst0 -> i <= last + 1 ->
  holds P dst left kk -> (forall p, p < left \/ right < p -> znth dst p = znth dst0 p) -> merge_drain fuel last src i kk dst = Ret (kk', dst') ->
  kk' = kk + (last + 1 - i) /\ zlen dst' = zlen dst0 /\ holds P dst' left kk' /\ forall p, p < left \/ right < p -> znth dst' p = znth dst0 p.
Proof.
  intros La. induction fuel as [|fuel IH]; intros i kk dst kk' dst' Ps K1 K2 Ld Il Pd Fr H; cbn [merge_drain] in H;
    (destruct (Z.leb_spec i last) as [Ci|Ci]; [|injection H as <- <-; split; [lia|]; auto]); [discriminate|].
  apply obind_ret in H. destruct H as (x & Gi & H). apply eget_inv in Gi. apply obind_ret in H. destruct H as (d1 & Pu & H). apply eput_inv in Pu. destruct Pu as (_ & L1 & Pn & Po).
  apply IH in H; [|eapply holds_sub; [exact Ps|lia|lia]|lia|lia|lia|lia| |].
  - destruct H as (H1 & H2 & H3 & H4). split; [lia|]. auto.
  - intros p z Hp Hz. destruct (Z.eq_dec p kk) as [->|]; [rewrite Pn in Hz; injection Hz as <-; eapply Ps; [|exact Gi]; lia|]. rewrite Po in Hz by lia. apply (Pd p); [lia|exact Hz].
  - intros p Hp. rewrite Po by lia. apply Fr. exact Hp.
Qed.
Lemma merge_inv f dst' : single_merge f KBig rv left mid right src dst0 = Ret dst' ->
  zlen dst' = zlen dst0 /\ holds P dst' left (right + 1) /\ forall p, p < left \/ right < p -> znth dst' p = znth dst0 p.
Proof.
  unfold single_merge. intros H.
  assert (V : minv (left, mid + 1, left, dst0)).
  { cbv beta iota delta [minv]. split; [lia|]. split; [lia|]. split; [lia|]. split; [reflexivity|]. split; [intros p x Hp; lia|reflexivity]. }
  apply obind_ret in H. destruct H as (st1 & E1 & H). apply obind_ret in H. destruct H as (st2 & E2 & H). apply obind_ret in H. destruct H as (st3 & E3 & H).
  assert (V1 : minv st1) by (destruct (avx512 f); [eapply vec_inv; [|exact V|exact E1]; right; right; reflexivity|injection E1 as <-; exact V]).
  destruct st1 as [[[i1 j1] k1] d1].
  assert (V2 : minv st2) by (destruct (avx2 f); [eapply vec_inv; [|exact V1|exact E2]; right; left; reflexivity|injection E2 as <-; exact V1]).
  destruct st2 as [[[i2 j2] k2] d2].
  assert (V3 : minv st3) by (destruct (sse41 f); [eapply vec_inv; [|exact V2|exact E3]; left; reflexivity|injection E3 as <-; exact V2]).
  destruct st3 as [[[i3 j3] k3] d3]. apply obind_ret in H. destruct H as (st4 & E4 & H).
  assert (V4 : minv st4) by (eapply scalar_inv; eauto). destruct st4 as [[[i4 j4] k4] d4].
  destruct V4 as (A1 & A2 & A3 & A4 & A5 & A6). apply obind_ret in H. destruct H as ([k5 d5] & E5 & H).
  apply drain_inv in E5; [|lia|eapply holds_sub; [exact Pi|lia|lia]|lia|lia|assumption|lia|assumption|assumption].
  destruct E5 as (B1 & B2 & B3 & B4). apply obind_ret in H. destruct H as ([k6 d6] & E6 & H). injection H as <-.
  apply drain_inv in E6; [|lia|eapply holds_sub; [exact Pj|lia|lia]|lia|lia|assumption|lia|assumption|assumption].
  destruct E6 as (C1 & C2 & C3 & C4). split; [assumption|]. split; [|assumption]. replace (right + 1) with k6 by lia. exact C3.
Qed.
End Merge.

(** One pass over blocks of [size]: below the last block everything is [Q]. *)
Section Pass.
Context (f : cpu) (rv : bool) (P Q : Z -> Prop) (QP : forall x, Q x -> P x) (AP : absorbs rv Q P) (AQ : absorbs rv Q Q).
Definition last_block (size total L : Z) : Prop := L mod size = 0 /\ 0 <= L <= total - 1 /\ total - 1 < L + size.

Lemma pass_inv size src L L2 : 8 <= size -> 8 <= zlen src < 2 ^ 62 -> last_block size (zlen src) L -> last_block (2 * size) (zlen src) L2 ->
  holds Q src 0 L -> holds P src 0 (zlen src) ->
  forall fuel left dst dst', left mod (2 * size) = 0 -> 0 <= left -> zlen dst = zlen src ->
  merge_pass fuel f KBig rv size left src dst = Ret dst' ->
  holds Q dst 0 (Z.min left L2) -> holds P dst 0 (Z.min left (zlen src)) ->
  zlen dst' = zlen src /\ holds Q dst' 0 L2 /\ holds P dst' 0 (zlen src).
Proof.
  intros S8 Hn (LM & LB1 & LB2) (KM & KB1 & KB2) Hq Hp. set (n := zlen src) in *.
  assert (LL : L2 <= L).
  { apply Z.mod_divide in LM; [|lia]. apply Z.mod_divide in KM; [|lia]. destruct LM as [a Ea]. destruct KM as [b Eb]. subst L L2.
    assert (2 * b < a + 1) by (apply (Z.mul_lt_mono_pos_r size); lia). nia. }
  assert (LL2 : L2 + size <= n - 1 -> L = L2 + size).
  { intros Q1. apply Z.mod_divide in LM; [|lia]. apply Z.mod_divide in KM; [|lia]. destruct LM as [a Ea]. destruct KM as [b Eb]. subst L L2. 
    assert (2 * b + 1 < a + 1) by (apply (Z.mul_lt_mono_pos_r size); lia). assert (a < 2 * b + 2) by (apply (Z.mul_lt_mono_pos_r size); lia). assert (a = 2 * b + 1) by lia. subst a. lia. }
  induction fuel as [|fuel IH]; intros left dst dst' M0 H0 Ld H Dq Dp; cbn [merge_pass] in H; fold n in H; (destruct (Z.ltb_spec left n) as [C|C]; [|injection H as <-; split; [assumption|]; split; [eapply holds_sub; [exact Dq|lia|lia]|eapply holds_sub; [exact Dp|lia|lia]]]); [discriminate|].
  apply obind_ret in H. destruct H as (d1 & E1 & H). set (mid := Z.min (left + size - 1) (n - 1)) in *. set (right := Z.min (left + 2 * size - 1) (n - 1)) in *.
  assert (LE : left <= L2).
  { apply Z.mod_divide in M0; [|lia]. apply Z.mod_divide in KM; [|lia]. destruct M0 as [a Ea]. destruct KM as [b Eb]. subst left L2.
    assert (a < b + 1) by (apply (Z.mul_lt_mono_pos_r (2 * size)); lia). nia. }
  assert (B63 : n < 2 ^ 63) by (change (2 ^ 63) with (2 * 2 ^ 62); lia).
  assert (STEP : zlen d1 = n /\ holds P d1 left (right + 1) /\ (left < L2 -> holds Q d1 left (right + 1)) /\ forall p, p < left \/ right < p -> znth d1 p = znth dst p).
  { destruct (Z.lt_ge_cases left L2) as [Lt|Ge].
    - assert (E2 : left + 2 * size <= L2).
      { apply Z.mod_divide in M0; [|lia]. apply Z.mod_divide in KM; [|lia]. destruct M0 as [a Ea]. destruct KM as [b Eb]. subst left L2.
        assert (a < b) by (apply (Z.mul_lt_mono_pos_r (2 * size)); lia). nia. }
      apply (merge_inv rv Q Q AQ) in E1; [|subst mid; lia|subst mid right; lia|subst mid; lia|subst right; lia|intros _; eapply holds_sub; [exact Hq|lia|subst mid; lia]|eapply holds_sub; [exact Hq|lia|subst mid; lia]|eapply holds_sub; [exact Hq|subst mid; lia|subst right; lia]].
      destruct E1 as (A1 & A2 & A3). split; [lia|]. split; [intros p x X Y; apply QP; eapply A2; eauto|]. auto.
    - assert (left = L2) by lia. subst left.
      apply (merge_inv rv P Q AP) in E1; [|subst mid; lia|subst mid right; lia|subst mid; lia|subst right; lia|intros Lt; eapply holds_sub; [exact Hq|lia|subst mid right; lia]|eapply holds_sub; [exact Hp|lia|subst mid; lia]|eapply holds_sub; [exact Hp|subst mid; lia|subst right; lia]].
      destruct E1 as (A1 & A2 & A3). split; [lia|]. split; [exact A2|]. split; [lia|exact A3]. }
  destruct STEP as (S1 & S2 & S3 & S4). eapply IH; [| |exact S1|exact H| |].
  - replace (left + 2 * size) with (left + 1 * (2 * size)) by lia. rewrite Z.mod_add by lia. exact M0.
  - lia.
  - intros p x Hpos Hx. destruct (Z.lt_ge_cases p left) as [A|A]; [rewrite S4 in Hx by lia; apply (Dq p); [lia|exact Hx]|].
    apply (S3 ltac:(lia) p); [subst right; lia|exact Hx].
  - intros p x Hpos Hx. destruct (Z.lt_ge_cases p left) as [A|A]; [rewrite S4 in Hx by lia; apply (Dp p); [lia|exact Hx]|].
    apply (S2 p); [subst right; lia|exact Hx].
Qed.
Lemma blocks_inv : forall fuel size cur other l', 8 <= size -> 8 <= zlen cur < 2 ^ 62 -> zlen other = zlen cur ->
  (exists L, last_block size (zlen cur) L /\ holds Q cur 0 L) -> holds P cur 0 (zlen cur) ->
  merge_blocks fuel f KBig rv size cur other = Ret l' -> Forall P l'.
Proof.
  induction fuel as [|fuel IH]; intros size cur other l' S8 Hn Lo (L & LB & Hq) Hp H; cbn [merge_blocks] in H;
    (destruct (Z.ltb_spec size (zlen cur)) as [C|C]; [|injection H as <-; apply holds_all; exact Hp]); [discriminate|].
  apply obind_ret in H. destruct H as (o1 & E1 & H).
  assert (LB2 : last_block (2 * size) (zlen cur) ((zlen cur - 1) / (2 * size) * (2 * size))).
  { pose proof (Z.div_mod (zlen cur - 1) (2 * size) ltac:(lia)). pose proof (Z.mod_pos_bound (zlen cur - 1) (2 * size) ltac:(lia)).
    assert (0 <= (zlen cur - 1) / (2 * size)) by (apply Z.div_pos; lia). split; [apply Z.mod_mul; lia|nia]. }
  set (L2 := (zlen cur - 1) / (2 * size) * (2 * size)) in *.
  eapply (pass_inv size cur L L2) in E1; [|lia|exact Hn|exact LB|exact LB2|exact Hq|exact Hp|apply Z.mod_0_l; lia|lia|exact Lo| |].
  - destruct E1 as (A1 & A2 & A3). eapply (IH (size * 2) o1 cur); [lia|rewrite A1; exact Hn|lia| | |exact H].
    + exists L2. rewrite A1. replace (size * 2) with (2 * size) by lia. auto.
    + rewrite A1. exact A3.
  - intros p x Hpos. destruct LB2. lia.
  - intros p x Hpos. lia.
Qed.
End Pass.

(** ** The 32-bit halves *)
Lemma halves_range x : - 2147483648 <= wrap 32 x < 2147483648.
Proof. unfold wrap. change (2 ^ (32 - 1)) with 2147483648. change (2 ^ 32) with 4294967296. pose proof (Z.mod_pos_bound (x + 2147483648) 4294967296 ltac:(lia)). lia. Qed.
Lemma wrap32_id x : - 2147483648 <= x < 2147483648 -> wrap 32 x = x.
Proof. intros H. unfold wrap. change (2 ^ (32 - 1)) with 2147483648. change (2 ^ 32) with 4294967296. rewrite Z.mod_small; lia. Qed.
Lemma wrap32_mod x : wrap 32 x mod 2 ^ 32 = x mod 2 ^ 32.
Proof.
  unfold wrap. change (2 ^ (32 - 1)) with 2147483648. change (2 ^ 32) with 4294967296. rewrite Zminus_mod_idemp_l. f_equal. lia.
Qed.
Lemma lo32_pack a b : - 2147483648 <= a < 2147483648 -> lo32 (pack64 a b) = a.
Proof.
  intros H. unfold lo32, pack64. rewrite <- (wrap32_id a H) at 2. unfold wrap. change (2 ^ (32 - 1)) with 2147483648. change (2 ^ 32) with 4294967296.
  f_equal. replace (b * 4294967296 + a mod 4294967296 + 2147483648) with (a mod 4294967296 + 2147483648 + b * 4294967296) by lia. rewrite Z.mod_add by lia. apply Zplus_mod_idemp_l.
Qed.
Lemma hi32_pack a b : - 2147483648 <= b < 2147483648 -> hi32 (pack64 a b) = b.
Proof.
  intros H. unfold hi32, pack64. change (2 ^ 32) with 4294967296. rewrite Z.add_comm, Z.div_add by lia. rewrite Z.div_small by (apply Z.mod_pos_bound; lia). apply wrap32_id. lia.
Qed.
Lemma pack_halves x : in_sbits 64 x -> pack64 (lo32 x) (hi32 x) = x.
Proof.
  unfold in_sbits. change (2 ^ (64 - 1)) with 9223372036854775808. intros H. unfold pack64, lo32, hi32. rewrite wrap32_mod. rewrite wrap32_id.
  - change (2 ^ 32) with 4294967296. pose proof (Z.div_mod x 4294967296 ltac:(lia)). lia.
  - change (2 ^ 32) with 4294967296. split; [apply Z.div_le_lower_bound; lia|apply Z.div_lt_upper_bound; lia].
Qed.

Definition beyond (rv : bool) (m z : Z) : Prop := if rv then m < z else z < m.
Definition low (rv : bool) (m x : Z) : Prop := beyond rv m (lo32 x) /\ beyond rv m (hi32 x).
Definition i32 (z : Z) : Prop := - 2147483648 <= z < 2147483648.

Lemma low_absorbs rv m (P : Z -> Prop) : (forall x, low rv m x -> P x) -> absorbs rv (low rv m) P.
Proof.
  intros LP x y [H1 H2] _. apply LP. pose proof (halves_range x). pose proof (halves_range y). pose proof (halves_range (x / 2 ^ 32)). pose proof (halves_range (y / 2 ^ 32)).
  fold (lo32 x) in *. fold (lo32 y) in *. fold (hi32 x) in *. fold (hi32 y) in *.
  split; [rewrite lo32_pack by (destruct rv; lia)|rewrite hi32_pack by (destruct rv; lia)]; unfold beyond in *; destruct rv; lia.
Qed.
Lemma low_pairs rv m : forall n v, (length v <= n)%nat -> Forall i32 v -> Forall (beyond rv m) v -> Forall (low rv m) (pack_pairs v).
Proof.
  induction n as [|n IH]; intros [|a [|b r]] L F G; cbn [pack_pairs length] in *; try lia; try constructor.
  - inversion F as [|? ? Fa Fr]; subst. inversion Fr as [|? ? Fb Fs]; subst. inversion G as [|? ? Ga Gr]; subst. inversion Gr as [|? ? Gb Gs]; subst.
    split; [rewrite lo32_pack by exact Fa|rewrite hi32_pack by exact Fb]; assumption.
  - inversion F as [|? ? Fa Fr]; subst. inversion Fr as [|? ? Fb Fs]; subst. inversion G as [|? ? Ga Gr]; subst. inversion Gr as [|? ? Gb Gs]; subst. apply IH; [lia|assumption|assumption].
Qed.

(** Every lane of both block sorts covers the two halves of two neighbouring
    elements. *)
Definition quad_b (L : nat) (js : list nat) : bool :=
  existsb (fun g => forallb (fun j => existsb (Nat.eqb j) js) (seq (4 * g) 4) && (4 * g + 3 <? L)%nat) (seq 0 L) && forallb (fun j => (j <? L)%nat) js.
Lemma avx2_quad : forallb (quad_b 8) avx2_sets = true. Proof. vm_compute. reflexivity. Qed.
Lemma avx512_quad : forallb (quad_b 16) avx512_sets = true. Proof. vm_compute. reflexivity. Qed.

Lemma nth_lanes : forall v i, (i < length v)%nat -> nth (2 * i) (to_lanes KBig v) 0 = lo32 (nth i v 0) /\ nth (2 * i + 1) (to_lanes KBig v) 0 = hi32 (nth i v 0).
Proof.
  induction v as [|x v IH]; intros i Hi; cbn [length] in Hi; [lia|]. rewrite lanes_cons. destruct i; [split; reflexivity|].
  replace (2 * S i)%nat with (S (S (2 * i))) by lia. replace (S (S (2 * i)) + 1)%nat with (S (S (2 * i + 1))) by lia. cbn [nth]. apply IH. lia.
Qed.
Lemma lanes_in v z : In z (to_lanes KBig v) <-> exists x, In x v /\ (z = lo32 x \/ z = hi32 x).
Proof.
  cbn [to_lanes]. rewrite in_flat_map. split; intros (x & Hx & H); exists x; (split; [exact Hx|]).
  - destruct H as [H|[H|[]]]; auto.
  - destruct H as [->| ->]; cbn; auto.
Qed.

Lemma block_low (rv : bool) m w marks sets v : good_marks (lanes_of w) marks ->
  sets = fold_left join_sets marks (map (fun i => [i]) (seq 0 (lanes_of w))) -> forallb (quad_b (lanes_of w)) sets = true ->
  (2 * length v)%nat = lanes_of w -> NoDup v -> Forall (in_sbits 64) v -> (forall z, In z (to_lanes KBig v) -> if rv then m <= z else z <= m) ->
  Forall (low rv m) (block_fun KBig rv marks v).
Proof.
  intros G Es W Lv ND F64 HM. unfold block_fun. cbn [of_lanes]. set (lanes := to_lanes KBig v) in *.
  assert (LL : length lanes = lanes_of w) by (unfold lanes; rewrite to_lanes_len; lia).
  pose proof (covers_sort rv _ marks lanes G LL) as H. rewrite <- Es in H. clear Es.
  assert (K : Forall (fun c => In c lanes /\ beyond rv m c) (sort_lanes rv marks lanes)).
  { revert W H. generalize (sort_lanes rv marks lanes). intros cur W H. induction H as [|c s cur ss Hc H IH]; constructor; cbn [forallb] in W; apply andb_true_iff in W; destruct W as [W1 W2]; [|apply IH; exact W2].
    unfold quad_b in W1. apply andb_true_iff in W1. destruct W1 as [Wq Wr]. rewrite forallb_forall in Wr. destruct Hc as ((j & Hj & Ec) & Hle).
    assert (Ic : In c lanes) by (rewrite Ec; apply nth_In; rewrite LL; specialize (Wr j Hj); apply Nat.ltb_lt in Wr; exact Wr).
    split; [exact Ic|]. assert (Bc := HM c Ic). destruct (Z.eq_dec c m) as [Em|Ne]; [exfalso|unfold beyond; destruct rv; lia].
    apply existsb_exists in Wq. destruct Wq as (g & _ & Wg). apply andb_true_iff in Wg. destruct Wg as [Wg Wl]. apply Nat.ltb_lt in Wl. rewrite forallb_forall in Wg.
    assert (A : forall j', In j' (seq (4 * g) 4) -> nth j' lanes 0 = m).
    { intros j' Hj'. specialize (Wg j' Hj'). apply existsb_exists in Wg. destruct Wg as (j2 & I2 & E2). apply Nat.eqb_eq in E2. subst j2.
      assert (B1 := Hle j' I2). assert (B2 : In (nth j' lanes 0) lanes) by (apply nth_In; rewrite LL; apply in_seq in Hj'; lia). apply HM in B2. unfold leads in B1. destruct rv; lia. }
    assert (N1 : (2 * g < length v)%nat) by lia. assert (N2 : (2 * g + 1 < length v)%nat) by lia.
    destruct (nth_lanes v (2 * g) N1) as [P1 P2]. destruct (nth_lanes v (2 * g + 1) N2) as [P3 P4]. fold lanes in P1, P2, P3, P4.
    rewrite A in P1, P2, P3, P4 by (apply in_seq; lia).
    assert (Q1 : in_sbits 64 (nth (2 * g) v 0)) by (rewrite Forall_forall in F64; apply F64; apply nth_In; exact N1).
    assert (Q2 : in_sbits 64 (nth (2 * g + 1) v 0)) by (rewrite Forall_forall in F64; apply F64; apply nth_In; exact N2).
    assert (EQ : nth (2 * g) v 0 = nth (2 * g + 1) v 0) by (rewrite <- (pack_halves _ Q1), <- (pack_halves _ Q2); congruence).
    rewrite NoDup_nth in ND. apply ND in EQ; lia. }
  apply (low_pairs rv m (length (sort_lanes rv marks lanes))); [lia| |].
  - eapply Forall_impl; [|exact K]. intros z [Iz _]. apply lanes_in in Iz. destruct Iz as (x & _ & [-> | ->]); apply halves_range.
  - eapply Forall_impl; [|exact K]. intros z [_ Bz]. exact Bz.
Qed.

(** ** Block loops *)
Lemma loop_inv w marks rv : width w -> good_marks (lanes_of w) marks -> forall fuel s a T a', 0 <= s <= zlen a ->
  block_loop fuel w marks KBig rv s a = Ret (T, a') ->
  s <= T <= zlen a /\ T mod per w KBig = s mod per w KBig /\ zlen a < T + per w KBig /\ zlen a' = zlen a /\ (forall p, p < s \/ T <= p -> znth a' p = znth a p).
Proof.
  intros W G. pose proof (width_per w W) as Wp. induction fuel as [|fuel IH]; intros s a T a' Hs H; cbn [block_loop] in H;
    (destruct (Z.leb_spec (s + per w KBig) (zlen a)) as [C|C]; [|injection H as <- <-; split; [lia|]; split; [reflexivity|]; split; [lia|]; split; [reflexivity|]; auto]); [discriminate|].
  apply obind_ret in H. destruct H as (v & Gv & H). apply obind_ret in H. destruct H as (a1 & Pu & H). apply vget_inv in Gv; [|lia]. destruct Gv as (_ & _ & Lv & Gv).
  apply vput_inv in Pu; [|lia|apply (block_fun_len KBig rv w marks v W G Lv)]. destruct Pu as (_ & _ & L1 & Pn & Po).
  apply IH in H; [|lia]. destruct H as (A1 & A2 & A3 & A4 & A5). split; [lia|]. split; [|split; [lia|split; [lia|]]].
  - rewrite A2. replace (s + per w KBig) with (s + 1 * per w KBig) by lia. apply Z.mod_add. lia.
  - intros p Hp. rewrite A5 by lia. apply Po. lia.
Qed.
Lemma loop_holds w marks rv (Q : Z -> Prop) l T : width w -> good_marks (lanes_of w) marks ->
  (forall i v, 0 <= i -> i + per w KBig <= T -> zlen v = per w KBig -> (forall t, 0 <= t < per w KBig -> znth v t = znth l (i + t)) -> Forall Q (block_fun KBig rv marks v)) ->
  forall fuel s a a', 0 <= s <= zlen a -> (forall p, s <= p -> znth a p = znth l p) ->
  block_loop fuel w marks KBig rv s a = Ret (T, a') -> holds Q a' s T.
Proof.
  intros W G HB. pose proof (width_per w W) as Wp. induction fuel as [|fuel IH]; intros s a a' Hs Ha H; cbn [block_loop] in H;
    (destruct (Z.leb_spec (s + per w KBig) (zlen a)) as [C|C]; [|injection H as <- <-; intros p x Hp; lia]); [discriminate|].
  apply obind_ret in H. destruct H as (v & Gv & H). apply obind_ret in H. destruct H as (a1 & Pu & H). apply vget_inv in Gv; [|lia]. destruct Gv as (_ & _ & Lv & Gv).
  fold (block_fun KBig rv marks v) in Pu.
  apply vput_inv in Pu; [|lia|apply (block_fun_len KBig rv w marks v W G Lv)]. destruct Pu as (_ & _ & L1 & Pn & Po).
  assert (B : 0 <= s + per w KBig <= zlen a1) by lia. apply (loop_inv w marks rv W G _ _ _ _ _ B) in H as B'. clear B. destruct B' as (B1 & _ & _ & B4 & B5).
  assert (FQ : Forall Q (block_fun KBig rv marks v)).
  { apply (HB s v); [lia|lia|exact Lv|]. intros t Ht. rewrite Gv by exact Ht. apply Ha. lia. }
  apply IH in H; [|lia|intros p Hp; rewrite Po by lia; apply Ha; lia].
  intros p x Hp Hx. destruct (Z.lt_ge_cases p (s + per w KBig)) as [A|A]; [|apply (H p); [lia|exact Hx]].
  rewrite B5 in Hx by lia. replace p with (s + (p - s)) in Hx by lia. rewrite Pn in Hx by lia. rewrite Forall_forall in FQ. apply FQ. unfold znth in Hx. destruct (p - s <? 0); [discriminate|]. eapply nth_error_In; eauto.
Qed.

Lemma nth_error_same {A} : forall a b : list A, (forall n, nth_error a n = nth_error b n) -> a = b.
Proof.
  induction a as [|x a IH]; intros [|y b] H; [reflexivity|discriminate (H O)|discriminate (H O)|]. pose proof (H O) as E. cbn in E. injection E as <-. f_equal. apply IH. intros n. apply (H (S n)).
Qed.

(** A stretch of a duplicate-free list. *)
Lemma stretch (l v : list Z) i K : 0 <= i -> i + K <= zlen l -> zlen v = K -> 0 <= K -> (forall t, 0 <= t < K -> znth v t = znth l (i + t)) ->
  v = firstn (Z.to_nat K) (skipn (Z.to_nat i) l).
Proof.
  intros Hi Hk Lv K0 H. assert (LS : zlen (skipn (Z.to_nat i) l) = zlen l - i) by (unfold zlen in *; rewrite skipn_length; lia).
  assert (LF : length (firstn (Z.to_nat K) (skipn (Z.to_nat i) l)) = length v) by (unfold zlen in *; rewrite firstn_length; lia).
  apply nth_error_same. intros n. destruct (Nat.lt_ge_cases n (length v)) as [L|L].
  - specialize (H (Z.of_nat n) ltac:(unfold zlen in *; lia)). rewrite <- (znth_skipn l i (Z.of_nat n)) in H by (unfold zlen in *; lia).
    rewrite <- (znth_firstn (skipn (Z.to_nat i) l) K (Z.of_nat n)) in H by (unfold zlen in *; lia).
    unfold znth in H. destruct (Z.ltb_spec (Z.of_nat n) 0); [lia|]. rewrite Nat2Z.id in H. exact H.
  - rewrite (proj2 (nth_error_None v n)) by lia. symmetry. apply nth_error_None. lia.
Qed.

Lemma firstn_nodup {A} (l : list A) n : NoDup l -> NoDup (firstn n l).
Proof. intros H. rewrite <- (firstn_skipn n l) in H. revert H. generalize (firstn n l), (skipn n l). induction l0 as [|x r IH]; intros q H; [constructor|]. inversion H; subst. constructor; [intros X; apply H2; apply in_or_app; auto|eapply IH; eauto]. Qed.
Lemma skipn_nodup {A} (l : list A) n : NoDup l -> NoDup (skipn n l).
Proof. intros H. rewrite <- (firstn_skipn n l) in H. revert H. generalize (firstn n l), (skipn n l). induction l0 as [|x r IH]; intros q H; [exact H|]. inversion H; subst. eapply IH; eauto. Qed.
Lemma in_znth {A} (l : list A) x : In x l -> exists p, 0 <= p < zlen l /\ znth l p = Some x.
Proof.
  intros H. apply In_nth_error in H. destruct H as [n Hn]. exists (Z.of_nat n). assert (n < length l)%nat by (apply nth_error_Some; congruence).
  split; [unfold zlen; lia|]. unfold znth. destruct (Z.ltb_spec (Z.of_nat n) 0); [lia|]. rewrite Nat2Z.id. exact Hn.
Qed.
Lemma znth_In {A} (l : list A) p x : znth l p = Some x -> In x l.
Proof. unfold znth. destruct (p <? 0); [discriminate|]. apply nth_error_In. Qed.

Lemma big_blocks f rv l l' : 8 <= zlen l < 2 ^ 62 -> vector_path f KBig (zlen l) -> Forall (in_sbits 64) l -> NoDup l ->
  simdsort f KBig rv l = Ret l' -> exists x, In x l /\ ~ In x l'.
Proof.
  intros Hn VP F64 ND. unfold simdsort. destruct (Z.leb_spec (zlen l) 1) as [?|_]; [lia|]. destruct (Z.ltb_spec (zlen l) 8) as [?|_]; [lia|].
  destruct VP as [_ VP]. assert (EV : negb (avx2 f) && negb (avx512 f) = false) by (destruct VP as [[-> _]|[-> _]]; [apply andb_false_r|reflexivity]). rewrite EV. clear EV.
  change (per 64 KBig) with 8. change (per 32 KBig) with 4. intros H.
  assert (W64 : width 64) by (right; right; reflexivity). assert (W32 : width 32) by (right; left; reflexivity).
  apply obind_ret in H. destruct H as ([T1 a1] & E1 & H). cbv zeta in H. apply obind_ret in H. destruct H as ([T a2] & E2 & H).
  (* what the two block loops leave alone *)
  assert (B1 : 0 <= T1 <= zlen l /\ T1 mod 8 = 0 /\ zlen a1 = zlen l /\ (forall p, T1 <= p -> znth a1 p = znth l p) /\ (T1 = 0 \/ zlen l < T1 + 8) /\ (avx512 f = true -> 8 < zlen l -> zlen l < T1 + 8)).
  { destruct (avx512 f) eqn:E5; cbn [andb] in E1; [destruct (Z.ltb_spec (0 + 8) (zlen l))|].
    - apply loop_inv in E1; [|exact W64|exact good_avx512|lia]. change (per 64 KBig) with 8 in E1. destruct E1 as (A1 & A2 & A3 & A4 & A5). split; [lia|]. split; [exact A2|]. split; [lia|]. split; [intros p Hp; apply A5; lia|]. split; [lia|]. intros _ _. lia.
    - injection E1 as <- <-. split; [lia|]. split; [reflexivity|]. split; [reflexivity|]. split; [reflexivity|]. split; [auto|]. intros; lia.
    - injection E1 as <- <-. split; [lia|]. split; [reflexivity|]. split; [reflexivity|]. split; [reflexivity|]. split; [auto|]. intros; discriminate. }
  destruct B1 as (B1 & B2 & B3 & B4 & B5 & B6).
  assert (C1 : T1 <= T <= zlen l /\ zlen a2 = zlen l /\ (forall p, p < T1 \/ T <= p -> znth a2 p = znth a1 p) /\ 4 <= T /\ (zlen l - 1) / 8 * 8 <= T).
  { pose proof (Z.div_mod (zlen l - 1) 8 ltac:(lia)) as DM. pose proof (Z.mod_pos_bound (zlen l - 1) 8 ltac:(lia)) as MB. pose proof (Z.div_mod T1 8 ltac:(lia)) as DT. rewrite B2 in DT.
    assert (STOP : (avx2 f = false \/ zlen l <= T1 + 4) -> 4 <= T1 /\ (zlen l - 1) / 8 * 8 <= T1).
    { intros NG. assert (zlen l < T1 + 8) by (destruct VP as [[? ?]|[? ?]]; [apply B6; assumption|destruct NG as [NG|NG]; [congruence|lia]]). split; lia. }
    destruct (avx2 f) eqn:E6; cbn [andb] in E2; [destruct (Z.ltb_spec (T1 + 4) (zlen l))|].
    - apply loop_inv in E2; [|exact W32|exact good_avx2|lia]. change (per 32 KBig) with 4 in E2. destruct E2 as (A1 & A2 & A3 & A4 & A5).
      assert (M4 : T mod 4 = 0) by (rewrite A2, DT; replace (8 * (T1 / 8) + 0) with (2 * (T1 / 8) * 4) by lia; apply Z_mod_mult).
      pose proof (Z.div_mod T 4 ltac:(lia)) as DQ. rewrite M4 in DQ. split; [lia|]. split; [lia|]. split; [intros p Hp; apply A5; exact Hp|]. split; lia.
    - injection E2 as <- <-. destruct STOP; [lia|]. split; [lia|]. split; [exact B3|]. split; [reflexivity|]. split; assumption.
    - injection E2 as <- <-. destruct STOP; [auto|]. split; [lia|]. split; [exact B3|]. split; [reflexivity|]. split; assumption. }
  destruct C1 as (C1 & C2 & C3 & C4 & C5).
  (* the extreme half of the blocks *)
  destruct (max_exists rv (to_lanes KBig (firstn (Z.to_nat T) l))) as (m & Im & Hm).
  { intros X. apply (f_equal (@length Z)) in X. rewrite to_lanes_len, firstn_length in X. unfold zlen in *. cbn [length] in X. lia. }
  apply lanes_in in Im. destruct Im as (x & Ix & Ex). exists x. split; [eapply in_firstn; exact Ix|].
  set (tail := skipn (Z.to_nat T) l). set (Q := low rv m). set (P := fun y => Q y \/ In y tail).
  assert (LOW : forall w marks sets, width w -> good_marks (lanes_of w) marks -> sets = fold_left join_sets marks (map (fun i => [i]) (seq 0 (lanes_of w))) -> forallb (quad_b (lanes_of w)) sets = true ->
    (2 * Z.to_nat (per w KBig))%nat = lanes_of w ->
    forall i v, 0 <= i -> i + per w KBig <= T -> zlen v = per w KBig -> (forall t, 0 <= t < per w KBig -> znth v t = znth l (i + t)) -> Forall Q (block_fun KBig rv marks v)).
  { intros w marks sets W G Es Wq Lw i v Hi Hi2 Lv Gv. pose proof (width_per w W). assert (SV : v = firstn (Z.to_nat (per w KBig)) (skipn (Z.to_nat i) l)) by (apply stretch; [lia|lia|exact Lv|lia|exact Gv]).
    assert (IV : forall y, In y v -> In y (firstn (Z.to_nat T) l)).
    { intros y Hy. apply in_znth in Hy. destruct Hy as (p & Hp & Ey). rewrite Lv in Hp. rewrite Gv in Ey by exact Hp. rewrite <- (znth_firstn l T) in Ey by lia. eapply znth_In; eauto. }
    eapply (block_low rv m w marks sets); [exact G|exact Es|exact Wq|rewrite <- Lw; unfold zlen in Lv; lia| | |].
    - rewrite SV. apply firstn_nodup. apply skipn_nodup. exact ND.
    - rewrite Forall_forall in *. intros y Hy. apply F64. eapply in_firstn. apply IV. exact Hy.
    - intros z Hz. apply lanes_in in Hz. destruct Hz as (y & Hy & Ez). apply Hm. apply lanes_in. exists y. split; [apply IV; exact Hy|exact Ez]. }
  assert (H1 : holds Q a1 0 T1).
  { destruct (avx512 f && (0 + 8 <? zlen l)); [|injection E1 as <- <-; intros p y Hp; lia].
    refine (loop_holds 64 avx512_marks rv Q l T1 W64 good_avx512 _ (length l) 0 l a1 _ _ _); [|pose proof (zlen_nonneg l); lia|reflexivity|exact E1].
    intros i v Hi Hi2. apply (LOW 64 avx512_marks avx512_sets W64 good_avx512 eq_refl avx512_quad eq_refl i v Hi). lia. }
  assert (H2 : holds Q a2 T1 T).
  { destruct (avx2 f && (T1 + 4 <? zlen l)); [|injection E2 as <- <-; intros p y Hp; lia].
    refine (loop_holds 32 avx2_marks rv Q l T W32 good_avx2 _ (length l) T1 a1 a2 _ _ _); [|lia|exact B4|exact E2].
    intros i v Hi Hi2. apply (LOW 32 avx2_marks avx2_sets W32 good_avx2 eq_refl avx2_quad eq_refl i v Hi). lia. }
  assert (H3 : holds Q a2 0 T).
  { intros p y Hp Hy. destruct (Z.lt_ge_cases p T1); [rewrite C3 in Hy by lia; apply (H1 p); [lia|exact Hy]|apply (H2 p); [lia|exact Hy]]. }
  assert (ET : skipn (Z.to_nat T) a2 = tail).
  { assert (LS : length (skipn (Z.to_nat T) a2) = length tail) by (unfold tail, zlen in *; rewrite !skipn_length; lia).
    apply nth_error_same. intros n. pose proof (znth_skipn a2 T (Z.of_nat n) ltac:(lia) ltac:(lia)) as S1. pose proof (znth_skipn l T (Z.of_nat n) ltac:(lia) ltac:(lia)) as S2.
    rewrite C3, B4 in S1 by lia. rewrite <- S2 in S1. unfold znth in S1. destruct (Z.ltb_spec (Z.of_nat n) 0); [lia|]. rewrite Nat2Z.id in S1. exact S1. }
  set (a := if T <? zlen l then _ else _) in H.
  assert (Ha : zlen a = zlen l /\ holds Q a 0 T /\ holds P a 0 (zlen l)).
  { unfold a. destruct (Z.ltb_spec T (zlen l)).
    - rewrite ET. assert (LF : zlen (firstn (Z.to_nat T) a2) = T) by (unfold zlen in *; rewrite firstn_length; lia).
      assert (LT : zlen (std_sort rv tail) = zlen l - T) by (unfold zlen; rewrite (Permutation_length (std_sort_perm rv tail)); unfold tail, zlen in *; rewrite skipn_length; lia).
      assert (X : holds Q (firstn (Z.to_nat T) a2 ++ std_sort rv tail) 0 T).
      { intros p y Hp Hy. rewrite znth_app_l in Hy by lia. rewrite znth_firstn in Hy by lia. apply (H3 p); [lia|exact Hy]. }
      split; [rewrite zlen_app; lia|]. split; [exact X|]. intros p y Hp Hy. destruct (Z.lt_ge_cases p T) as [A|A]; [left; apply (X p); [lia|exact Hy]|right].
      rewrite znth_app_r in Hy by lia. apply znth_In in Hy. eapply Permutation_in; [apply (std_sort_perm rv)|exact Hy].
    - split; [exact C2|]. split; [exact H3|]. intros p y Hp Hy. left. apply (H3 p); [lia|exact Hy]. }
  destruct Ha as (La & Qa & Pa).
  assert (E8 : (if avx2 f && (T1 + 4 <? zlen l) then 8 else 8) = 8) by (destruct (avx2 f && (T1 + 4 <? zlen l)); reflexivity). rewrite E8 in H.
  apply (blocks_inv f rv P Q (fun y Hy => or_introl Hy)) in H; [|apply low_absorbs; intros y Hy; left; exact Hy|apply low_absorbs; intros y Hy; exact Hy|lia|rewrite La; exact Hn|rewrite zlen_map; reflexivity| |rewrite La; exact Pa].
  - intros Hx. rewrite Forall_forall in H. apply H in Hx. destruct Hx as [[X1 X2]|Hx].
    + unfold beyond in *. destruct Ex as [Ex|Ex]; rewrite <- Ex in *; destruct rv; lia.
    + pose proof ND as ND'. rewrite <- (firstn_skipn (Z.to_nat T) l) in ND'. exact (NoDup_app_disj _ _ x ND' Ix Hx).
  - exists ((zlen a - 1) / 8 * 8). rewrite La. split; [|eapply holds_sub; [exact Qa|lia|exact C5]].
    pose proof (Z.div_mod (zlen l - 1) 8 ltac:(lia)). pose proof (Z.mod_pos_bound (zlen l - 1) 8 ltac:(lia)). split; [apply Z_mod_mult|]. lia.
Qed.

Lemma sort_nokey_big_loses cfg r s : zlen s * 8 <= SSIZE_MAX -> vector_path (feat cfg) KBig (zlen s) -> Forall (in_sbits 64) s -> NoDup s ->
  exists s', sort_nokey cfg KBig r s = (Ret VNone, s') /\ length s' = length s /\ (exists x, In x s /\ ~ In x s') /\ ~ Permutation s' s.
Proof.
  intros HM VP F64 ND. destruct (bytes_fit KBig s HM) as (HM' & _).
  destruct (simdsort_safe (feat cfg) KBig (r =? 1) s HM') as (s' & E & L & _); [intros (X & _); discriminate|].
  assert (N8 : 8 <= zlen s) by (destruct VP; assumption).
  destruct (big_blocks (feat cfg) (r =? 1) s s' (conj N8 HM') VP F64 ND E) as (x & I1 & I2).
  exists s'. unfold sort_nokey. rewrite E. split; [reflexivity|]. split; [unfold zlen in L; lia|]. split; [eauto|].
  intros Q. apply I2. eapply Permutation_in; [apply Permutation_sym; exact Q|exact I1].
Qed.
