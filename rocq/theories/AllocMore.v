(** Further proofs for AllocModel: exact conditions, repetition, sort, repr,
    construction. *)
From Coq Require Import ZArith List Bool Arith Lia.
From Verif Require Import Base PyLongModel PyLongProofs PyListSpec MemModel ListLemmas ArrayListModel ArrayListProofs
  ArrayListMoreModel SimdSortModel ArrayWorldProofs AllocModel AllocSpec AllocProofs.
Import ListNotations.
Local Open Scope Z_scope.
Local Arguments Z.pow : simpl never.
Local Arguments Z.add : simpl never.
Local Arguments Z.sub : simpl never.
Local Arguments Z.mul : simpl never.
Local Arguments Z.modulo : simpl never.
Local Arguments Z.of_nat : simpl never.
Local Arguments Z.to_nat : simpl never.
Local Arguments Z.ltb : simpl never.
Local Arguments Z.leb : simpl never.
Local Arguments Z.eqb : simpl never.

(** append, insert, resize: exactly when they are refused. *)
Lemma refused_exact M cfg k o w : vector_ok M k w -> sound_memory M -> op_ok k (vec w) o ->
  In RuntimeError (refusals o) -> o <> OCopy -> fst (py_step o (vec w)) = SRet SNone ->
  let need := zlen (snd (py_step o (vec w))) in
  (max_size M k < need \/ (cap w < need /\ granted M (asked w) = false) ->
     fst (xstep M cfg k o w) = XDone (Raise RuntimeError) /\ vec (snd (xstep M cfg k o w)) = vec w) /\
  (need <= max_size M k -> (cap w < need -> granted M (asked w) = true) ->
     fst (xstep M cfg k o w) = XDone (Ret VNone) /\ vec (snd (xstep M cfg k o w)) = snd (py_step o (vec w))).
Proof.
  intros V S O R NC E. assert (L : zlen (vec w) <= SSIZE_MAX) by (destruct V as [_ V]; destruct (proj1 S k); lia).
  assert (X : xstep M cfg k o w = in_try M k (step cfg k o (vec w)) w).
  { destruct o; try reflexivity; cbn [refusals In] in R; try contradiction; try congruence;
    destruct R as [R|R]; try discriminate; try contradiction. }
  rewrite X. unfold in_try. rewrite step_refines by (try assumption; apply V). cbn [fst snd]. rewrite E. cbn [expected].
  pose proof (enlarge_exact M k (zlen (vec w)) (cap w) (zlen (snd (py_step o (vec w)))) (asked w)) as EX.
  unfold caught. split; intros H.
  - rewrite (proj2 EX H). split; reflexivity.
  - intros G. destruct (fst (enlarge _ _ _ _ _ _)) as [c|] eqn:EN; [split; reflexivity|]. exfalso.
    destruct (proj1 EX eq_refl) as [A|[A B]]; [lia|]. rewrite (G A) in B. discriminate.
Qed.

(** Enough memory and room: every call is Python's. *)
Lemma enlarge_all M k size cap need n : generous M -> need <= max_size M k -> exists c n', enlarge M k size cap need n = (Val c, n').
Proof.
  intros G H. unfold enlarge. destruct (Z.ltb_spec (max_size M k) need); [lia|].
  destruct (need <=? cap); [eexists; eexists; reflexivity|]. rewrite G. eexists; eexists; reflexivity.
Qed.
Lemma reserve_all M k cap need n : generous M -> need <= max_size M k -> exists c n', reserve M k cap need n = (Val c, n').
Proof.
  intros G H. unfold reserve. destruct (Z.ltb_spec (max_size M k) need); [lia|].
  destruct (need <=? cap); [eexists; eexists; reflexivity|]. rewrite G. eexists; eexists; reflexivity.
Qed.

Lemma xextend_items_all M k v vs fin w : generous M -> Forall (in_range k) vs -> zlen (vec w) + zlen vs <= max_size M k ->
  exists w', xextend_items M k v (map PInt vs) fin w = (XDone (match fin with None => Ret v | Some e => Raise e end), w') /\
     vec w' = vec w ++ vs.
Proof.
  intros G F. revert w. induction vs as [|z vs IH]; intros w H.
  - exists w. split; [reflexivity|rewrite app_nil_r; reflexivity].
  - inversion F as [|? ? Fz Fr]; subst. cbn [map xextend_items]. rewrite as_elem_ok by assumption. unfold uncaught.
    rewrite zlen_cons in H. pose proof (zlen_nonneg vs).
    destruct (enlarge_all M k (zlen (vec w)) (cap w) (zlen (vec w) + 1) (asked w) G ltac:(lia)) as (c & n & E).
    rewrite E. cbn [fst snd].
    destruct (IH Fr {| vec := vec w ++ [z]; cap := c; asked := n |}) as (w' & R & V).
    + cbn [vec]. rewrite zlen_app. change (zlen [z]) with 1. lia.
    + exists w'. split; [exact R|]. rewrite V. cbn [vec]. rewrite <- app_assoc. reflexivity.
Qed.

Lemma zinsert_zlen (s s' : list Z) i v : zinsert s i v = Some s' -> zlen s' = zlen s + 1.
Proof.
  unfold zinsert. destruct (i <? 0); [discriminate|]. generalize (Z.to_nat i). clear i. intros i.
  revert i s'. induction s as [|x s IH]; intros [|i] s'; cbn [ninsert]; try discriminate; intros E.
  - injection E as <-. reflexivity.
  - injection E as <-. rewrite !zlen_cons. lia.
  - destruct (ninsert s i v) as [t|] eqn:N; [|discriminate]. injection E as <-. rewrite !zlen_cons. rewrite (IH _ _ N). lia.
Qed.
Lemma xinsert_no_refusal M k its start n : generous M -> forall i w, zlen (vec w) + Z.of_nat n <= max_size M k ->
  fst (xinsert_loop M k (map PInt its) n i start w) <> XDone (Raise RuntimeError).
Proof.
  intros G. induction n as [|n IH]; intros i w H; cbn [xinsert_loop]; [discriminate|].
  destruct (znth (map PInt its) i) as [o|] eqn:Z; [|discriminate].
  assert (exists z, o = PInt z) as (z & ->).
  { rewrite znth_map in Z. destruct (znth its i) as [z|]; [injection Z as <-; exists z; reflexivity|discriminate]. }
  destruct (enlarge_all M k (zlen (vec w)) (cap w) (zlen (vec w) + 1) (asked w) G ltac:(lia)) as (c & m & E).
  cbn [as_long]. unfold as_long. destruct (in_sbits_b 64 z); unfold caught; rewrite E; cbn [fst snd];
  (destruct (zinsert _ _ _) as [s'|] eqn:ZI; [|discriminate]); [|discriminate].
  apply IH. cbn [vec]. rewrite (zinsert_zlen _ _ _ _ ZI). lia.
Qed.
Lemma xslice_no_refusal M (cfg : config) k sl vs w : sound_memory M -> vector_ok M k w -> generous M -> op_ok k (vec w) (OSetSlice sl vs) ->
  zlen (py_setslice (vec w) sl vs) <= max_size M k ->
  fst (xsetitem_slice M k sl (map PInt vs) w) <> XDone (Raise RuntimeError) .
Proof.
  intros S V G [Fv Hs] H. assert (L : zlen (vec w) <= SSIZE_MAX) by (destruct V as [_ V]; destruct (proj1 S k); lia).
  pose proof (good_map vs k Fv) as GM.
  unfold xsetitem_slice. destruct (unpack_step1 (vec w) sl L Hs) as (start & stop & EU & Adj). rewrite EU, Adj.
  rewrite zlen_map. change (1 =? 1) with true. cbn [andb].
  destruct (slice_split (vec w) sl) as (a & b & c & E & La & Lb & P).
  destruct (Z.ltb_spec (Z.max 0 (hi_of (vec w) sl - lo_of (vec w) sl)) (zlen vs)) as [LT|GE].
  - rewrite <- Lb in *. rewrite (zlen_to_nat b _ eq_refl).
    pose proof (assign_loop_ok k [] (map PInt vs) (lo_of (vec w) sl) (length b) a b c) as Q. cbn [app] in Q.
    change (zlen (@nil pyobj)) with 0 in Q. rewrite <- E in Q.
    rewrite Q; [|apply Forall_firstn; exact GM|rewrite map_length; unfold zlen in LT; lia|reflexivity|lia]. cbn [fst snd].
    apply xinsert_no_refusal; [exact G|]. cbn [vec]. rewrite P in H. rewrite firstn_map, !zlen_app, zlen_map, zlen_map in *.
    unfold zlen in *. rewrite firstn_length. lia.
  - unfold plain. change (setitem_slice k sl (AssSeq (src_items (map PInt vs))) (vec w)) with (step cfg k (OSetSlice sl vs) (vec w)).
    rewrite step_refines; [|apply V|exact L|split; assumption]. cbn [fst py_step expected]. discriminate.
Qed.
Lemma slice_enough M cfg k sl vs w : sound_memory M -> vector_ok M k w -> generous M -> op_ok k (vec w) (OSetSlice sl vs) ->
  zlen (snd (py_step (OSetSlice sl vs) (vec w))) <= max_size M k ->
  fst (xstep M cfg k (OSetSlice sl vs) w) = XDone (expected cfg k (fst (py_step (OSetSlice sl vs) (vec w)))) /\
  vec (snd (xstep M cfg k (OSetSlice sl vs) w)) = snd (py_step (OSetSlice sl vs) (vec w)).
Proof.
  intros S V G O H. pose proof (xstep_short M cfg k _ w S V O) as SH. unfold short_ok in SH.
  pose proof (xslice_no_refusal M cfg k sl vs w S V G O H) as NR. cbn [xstep] in *.
  destruct (xsetitem_slice _ _ _ _ _) as [[x|] w0]; cbn [fst snd] in *; [|exfalso; exact (SH I)].
  destruct SH as (q & SS & -> & _). inversion SS as [? E1 E2|? ? I|? ? ? ?|? ? ? ? ? ?]; subst.
  - split; reflexivity.
  - contradiction I.
  - exfalso. apply NR. reflexivity.
Qed.

Lemma enough M cfg k o w : sound_memory M -> vector_ok M k w -> generous M -> op_ok k (vec w) o ->
  zlen (snd (py_step o (vec w))) <= max_size M k ->
  fst (xstep M cfg k o w) = XDone (expected cfg k (fst (py_step o (vec w)))) /\
  vec (snd (xstep M cfg k o w)) = snd (py_step o (vec w)) /\ vector_ok M k (snd (xstep M cfg k o w)).
Proof.
  intros S V G O H. assert (L : zlen (vec w) <= SSIZE_MAX) by (destruct V as [_ V]; destruct (proj1 S k); lia).
  pose proof (step_refines cfg k o (vec w) (proj1 V) L O) as SR.
  pose proof (xstep_short M cfg k o w S V O) as SH. unfold short_ok in SH.
  assert (MAIN : fst (xstep M cfg k o w) = XDone (expected cfg k (fst (py_step o (vec w)))) /\
                 vec (snd (xstep M cfg k o w)) = snd (py_step o (vec w))).
  { assert (TRY : xstep M cfg k o w = in_try M k (step cfg k o (vec w)) w ->
       fst (xstep M cfg k o w) = XDone (expected cfg k (fst (py_step o (vec w)))) /\
       vec (snd (xstep M cfg k o w)) = snd (py_step o (vec w))).
    { intros ->. unfold in_try. rewrite SR. cbn [fst snd].
      destruct (expected_ret cfg k (fst (py_step o (vec w)))) as [[v E]|(e & E1 & E2)].
      - rewrite E. destruct (enlarge_all M k (zlen (vec w)) (cap w) (zlen (snd (py_step o (vec w)))) (asked w) G H) as (c & n & EN).
        unfold caught. rewrite EN. split; reflexivity.
      - rewrite E2. split; [reflexivity|]. cbn [snd]. symmetry. rewrite E2 in SR.
        eapply step_raise_keeps; [apply V|exact L|exact O|exact SR]. }
    assert (HO : xstep M cfg k o w = hand_out M (step cfg k o (vec w)) w ->
       fst (xstep M cfg k o w) = XDone (expected cfg k (fst (py_step o (vec w)))) /\
       vec (snd (xstep M cfg k o w)) = snd (py_step o (vec w))).
    { intros ->. unfold hand_out, plain. rewrite SR. cbn [fst snd].
      destruct (expected_ret cfg k (fst (py_step o (vec w)))) as [[v E]|(e & E1 & E2)].
      - rewrite E. rewrite objects_all by exact G. split; reflexivity.
      - rewrite E2. split; reflexivity. }
    assert (PL : xstep M cfg k o w = plain (step cfg k o (vec w)) w ->
       fst (xstep M cfg k o w) = XDone (expected cfg k (fst (py_step o (vec w)))) /\
       vec (snd (xstep M cfg k o w)) = snd (py_step o (vec w))).
    { intros ->. unfold plain. rewrite SR. split; reflexivity. }
    destruct o; try (apply TRY; reflexivity); try (apply HO; reflexivity); try (apply PL; reflexivity);
    clear TRY HO PL SR SH.
    - cbn [py_step snd fst expected] in *. rewrite zlen_app in H. cbn [op_ok] in O.
      cbn [xstep]. destruct how; cbn [xextend]; rewrite ?G.
      + destruct (0 <? zlen vs).
        * unfold uncaught. destruct (reserve_all M k (cap w) (zlen (vec w) + zlen vs) (Datatypes.S (asked w)) G H) as (c & n & ->).
          cbn [fst snd]. edestruct xextend_items_all as (w' & -> & E); [exact G|exact O| |split; [reflexivity|exact E]]. cbn [vec]. lia.
        * edestruct xextend_items_all as (w' & -> & E); [exact G|exact O| |split; [reflexivity|exact E]]. cbn [vec count_to]. lia.
      + change (0 <? 0) with false. cbv iota.
        edestruct xextend_items_all as (w' & -> & E); [exact G|exact O| |split; [reflexivity|exact E]]. cbn [vec count_to]. lia.
      + unfold uncaught. destruct (enlarge_all M k (zlen (vec w)) (cap w) (zlen (vec w) + zlen vs) (asked w) G H) as (c & n & ->).
        split; reflexivity.
    - exact (slice_enough M cfg k sl vs w S V G O H).
    - cbn [xstep]. unfold xcopy. rewrite G. unfold caught.
      destruct (reserve_all M k 0 (zlen (vec w)) (Datatypes.S (asked w)) G H) as (c & n & ->). split; reflexivity. }
  destruct MAIN as [M1 M2]. split; [exact M1|]. split; [exact M2|]. rewrite M1 in SH. destruct SH as (q & _ & _ & VV). exact VV.
Qed.

(** ** extend *)
Lemma no_more_asks M k v vs fin w : Forall (in_range k) vs -> zlen (vec w) + zlen vs <= cap w <= max_size M k ->
  xextend_items M k v (map PInt vs) fin w =
  (XDone (match fin with None => Ret v | Some e => Raise e end), {| vec := vec w ++ vs; cap := cap w; asked := asked w |}).
Proof.
  intros F. revert w. induction vs as [|z vs IH]; intros w H; cbn [map xextend_items].
  - rewrite app_nil_r, world_eq. reflexivity.
  - inversion F as [|? ? Fz Fr]; subst. rewrite as_elem_ok by assumption. rewrite zlen_cons in H. pose proof (zlen_nonneg vs).
    unfold uncaught, enlarge. destruct (Z.ltb_spec (max_size M k) (zlen (vec w) + 1)); [lia|].
    destruct (Z.leb_spec (zlen (vec w) + 1) (cap w)); [|lia]. cbn [fst snd].
    rewrite IH; [|exact Fr|cbn [vec cap]; rewrite zlen_app; change (zlen [z]) with 1; lia].
    cbn [vec cap asked]. rewrite <- app_assoc. reflexivity.
Qed.

Lemma extend_list_exact M cfg k vs w : vector_ok M k w -> Forall (in_range k) vs -> vs <> [] ->
  let need := zlen (vec w) + zlen vs in
  let r := xstep M cfg k (OExtend FromList vs) w in
  let short := max_size M k < need \/ (cap w < need /\ granted M (S (asked w)) = false) in
  (granted M (asked w) = false -> fst r = XDone (Raise MemoryError) /\ vec (snd r) = vec w) /\
  (granted M (asked w) = true -> short -> fst r = XKilled) /\
  (granted M (asked w) = true -> ~ short -> fst r = XDone (Ret VNone) /\ vec (snd r) = vec w ++ vs).
Proof.
  intros V F NE need r short. subst r. cbn [xstep xextend].
  assert (P : 0 < zlen vs). { destruct vs; [contradiction|]. rewrite zlen_cons. pose proof (zlen_nonneg vs). lia. }
  destruct (Z.ltb_spec 0 (zlen vs)); [|lia].
  pose proof (reserve_exact M k (cap w) (zlen (vec w) + zlen vs) (S (asked w))) as EX. fold need in EX. fold short in EX.
  destruct (granted M (asked w)) eqn:G; [|split; [intros _; split; reflexivity|split; discriminate]].
  split; [discriminate|]. unfold uncaught. fold need.
  destruct (reserve M k (cap w) need (S (asked w))) as [[c|] n] eqn:E; cbn [fst snd] in EX |- *.
  - split; [intros _ HH; apply EX in HH; discriminate|]. intros _ _.
    destruct (reserve_in _ _ _ _ _ _ _ (proj2 (proj2 V)) E) as [B _].
    rewrite no_more_asks; [split; reflexivity|exact F|exact B].
  - split; [reflexivity|]. intros _ N. exfalso. apply N. apply EX. reflexivity.
Qed.

Lemma extend_same_exact M cfg k vs w :
  let need := zlen (vec w) + zlen vs in
  let r := xstep M cfg k (OExtend FromSameType vs) w in
  let short := max_size M k < need \/ (cap w < need /\ granted M (asked w) = false) in
  (short -> fst r = XKilled) /\
  (~ short -> fst r = XDone (Ret VNone) /\ vec (snd r) = vec w ++ vs).
Proof.
  intros need r short. subst r. cbn [xstep xextend].
  pose proof (enlarge_exact M k (zlen (vec w)) (cap w) (zlen (vec w) + zlen vs) (asked w)) as EX. fold need in EX. fold short in EX.
  unfold uncaught. fold need. destruct (enlarge _ _ _ _ _ _) as [[c|] n]; cbn [fst snd] in EX |- *.
  - split; [intros H; apply EX in H; discriminate|]. split; reflexivity.
  - split; [reflexivity|]. intros N. exfalso. apply N. apply EX. reflexivity.
Qed.

(** The iterator path: the first growth that fails kills the process, whatever
    was appended before it. *)
Lemma extend_iter_killed M cfg k vs z rest w : Forall (in_range k) vs -> in_range k z ->
  granted M (asked w) = true -> zlen (vec w) + zlen vs = cap w -> cap w <= max_size M k ->
  granted M (S (asked w)) = false \/ cap w = max_size M k ->
  fst (xstep M cfg k (OExtend FromIterator (vs ++ z :: rest)) w) = XKilled.
Proof.
  intros F Fz G E H R. cbn [xstep xextend]. rewrite G. change (0 <? 0) with false. cbv iota.
  assert (X : forall vs w1, Forall (in_range k) vs -> zlen (vec w1) + zlen vs = cap w1 -> cap w1 <= max_size M k ->
    granted M (asked w1) = false \/ cap w1 = max_size M k ->
    fst (xextend_items M k VNone (map PInt (vs ++ z :: rest)) None w1) = XKilled).
  { clear - Fz. intros vs. induction vs as [|y vs IH]; intros w1 F E H R; cbn [app map xextend_items].
    - rewrite as_elem_ok by exact Fz. unfold uncaught. change (zlen (@nil Z)) with 0 in E.
      pose proof (enlarge_exact M k (zlen (vec w1)) (cap w1) (zlen (vec w1) + 1) (asked w1)) as EX.
      destruct (enlarge _ _ _ _ _ _) as [[c|] n]; cbn [fst snd] in *; [|reflexivity].
      enough (A : @Val Z c = Throw) by discriminate. apply EX. destruct R as [R|R]; [right; split; [lia|exact R]|left; lia].
    - inversion F as [|? ? Fy Fr]; subst. rewrite as_elem_ok by assumption. rewrite zlen_cons in E. pose proof (zlen_nonneg vs).
      unfold uncaught, enlarge. destruct (Z.ltb_spec (max_size M k) (zlen (vec w1) + 1)); [lia|].
      destruct (Z.leb_spec (zlen (vec w1) + 1) (cap w1)); [|lia]. cbn [fst snd].
      apply IH; cbn [vec cap asked]; [exact Fr| |exact H|exact R]. rewrite zlen_app. change (zlen [y]) with 1. lia. }
  apply X; cbn [count_to vec cap asked]; assumption.
Qed.

(** A length hint alone is enough. *)
Lemma extend_hint M k fast slow hint items fin w : granted M (asked w) = true -> 0 < hint ->
  max_size M k < zlen (vec w) + hint ->
  fst (xextend M k fast slow hint (AIter items fin) w) = XKilled.
Proof.
  intros G H L. cbn [xextend]. rewrite G. destruct (Z.ltb_spec 0 hint); [|lia].
  unfold uncaught, reserve. destruct (Z.ltb_spec (max_size M k) (zlen (vec w) + hint)); [reflexivity|lia].
Qed.

(** ** Repetition *)
Lemma mul_exact M cfg k n w : sound_memory M -> in_sbits 64 n ->
  let r := fst (xmul M cfg k n w) in
  let total := zlen (vec w) * n in
  vec (snd (xmul M cfg k n w)) = vec w /\
  (granted M (asked w) = false -> r = XDone (Raise MemoryError)) /\
  (granted M (asked w) = true ->
    (n <= 0 -> r = XDone (Ret (VNewList []))) /\
    (0 < n -> total <= max_size M k -> total = 0 \/ granted M (S (asked w)) = true ->
       r = XDone (fst (mul cfg k n (vec w)))) /\
    (0 < n -> total <= max_size M k -> total <> 0 -> granted M (S (asked w)) = false -> r = XDone (Undef NullDeref)) /\
    (0 < n -> max_size M k < total < 2 ^ 64 -> r = XDone (Undef NullDeref)) /\
    (0 < n -> 2 ^ 64 <= total -> exists u, r = XDone (Undef u))).
Proof.
  intros (SM & _ & _ & _) _ r total. subst r. unfold xmul. fold total. pose proof (zlen_nonneg (vec w)). destruct (SM k) as [S0 S1].
  assert (SSIZE_MAX < 2 ^ 64) by (vm_compute; reflexivity).
  split.
  { destruct (granted M (asked w)); [|reflexivity]. destruct (n <=? 0); [reflexivity|]. unfold caught_released.
    destruct (fst (enlarge _ _ _ _ _ _)); [|reflexivity]. destruct (wrap_u64 total =? total); reflexivity. }
  destruct (granted M (asked w)) eqn:G; [|split; [reflexivity|discriminate]]. split; [discriminate|]. intros _.
  split; [intros N; destruct (Z.leb_spec n 0); [reflexivity|lia]|].
  assert (W : total < 2 ^ 64 -> 0 < n -> wrap_u64 total = total).
  { intros A B. unfold wrap_u64. apply Z.mod_small. unfold total in *. split; [nia|exact A]. }
  assert (W' : 2 ^ 64 <= total -> wrap_u64 total <> total).
  { intros A B. unfold wrap_u64 in B. pose proof (Z.mod_pos_bound total (2 ^ 64) ltac:(lia)). lia. }
  pose proof (enlarge_exact M k 0 0 total (Datatypes.S (asked w))) as EX.
  assert (0 < n -> 0 <= total) by (unfold total; nia).
  repeat match goal with |- _ /\ _ => split end; intros N; (destruct (Z.leb_spec n 0); [lia|]); unfold caught_released.
  - intros B C. rewrite W by lia. destruct (fst (enlarge _ _ _ _ _ _)).
    + rewrite Z.eqb_refl. reflexivity.
    + exfalso. destruct (proj1 EX eq_refl) as [A|[A A']]; [lia|]. destruct C as [C|C]; [lia|congruence].
  - intros B C D. rewrite W by lia. rewrite (proj2 EX); [reflexivity|]. right. split; [lia|exact D].
  - intros [B C]. rewrite W by lia. rewrite (proj2 EX); [reflexivity|]. left. exact B.
  - intros B. clear EX. destruct (fst (enlarge _ _ _ _ _ _)); [|eexists; reflexivity].
    destruct (Z.eqb_spec (wrap_u64 total) total) as [E|_]; [exfalso; exact (W' B E)|eexists; reflexivity].
Qed.

Lemma imul_exact M cfg k n spare w : sound_memory M -> vector_ok M k w -> in_sbits 64 n ->
  let r := fst (ximul M cfg k n spare w) in
  let total := zlen (vec w) * n in
  (n <= 0 -> r = XDone (Ret VSelf) /\ vec (snd (ximul M cfg k n spare w)) = []) /\
  (0 < n -> total <= max_size M k -> total <= cap w \/ granted M (asked w) = true ->
     r = XDone (fst (imul cfg k n spare (vec w))) /\ vec (snd (ximul M cfg k n spare w)) = snd (imul cfg k n spare (vec w))) /\
  (0 < n -> cap w < total <= max_size M k -> granted M (asked w) = false -> r = XDone (Undef NullDeref)) /\
  (0 < n -> max_size M k < total < 2 ^ 64 -> r = XDone (Undef NullDeref)) /\
  (0 < n -> 2 ^ 64 <= total -> exists u, r = XDone (Undef u)).
Proof.
  intros (SM & _ & _ & _) V _ r total. subst r. unfold ximul. fold total. pose proof (zlen_nonneg (vec w)). destruct (SM k) as [S0 S1].
  assert (SSIZE_MAX < 2 ^ 64) by (vm_compute; reflexivity).
  split; [intros N; destruct (Z.leb_spec n 0); [split; reflexivity|lia]|].
  assert (W : total < 2 ^ 64 -> 0 < n -> wrap_u64 total = total).
  { intros A B. unfold wrap_u64. apply Z.mod_small. unfold total in *. split; [nia|exact A]. }
  assert (W' : 2 ^ 64 <= total -> wrap_u64 total <> total).
  { intros A B. unfold wrap_u64 in B. pose proof (Z.mod_pos_bound total (2 ^ 64) ltac:(lia)). lia. }
  pose proof (enlarge_exact M k (zlen (vec w)) (cap w) total (asked w)) as EX.
  assert (0 < n -> 0 <= total) by (unfold total; nia).
  repeat match goal with |- _ /\ _ => split end; intros N; (destruct (Z.leb_spec n 0); [lia|]); unfold caught_released.
  - intros B C. rewrite W by lia. destruct (fst (enlarge _ _ _ _ _ _)).
    + rewrite Z.eqb_refl. split; reflexivity.
    + exfalso. destruct (proj1 EX eq_refl) as [A|[A A']]; [lia|]. destruct C as [C|C]; [lia|congruence].
  - intros [B C] D. rewrite W by lia. rewrite (proj2 EX); [reflexivity|]. right. split; [lia|exact D].
  - intros [B C]. rewrite W by lia. rewrite (proj2 EX); [reflexivity|]. left. exact B.
  - intros B. clear EX. destruct (fst (enlarge _ _ _ _ _ _)); [|eexists; reflexivity].
    destruct (Z.eqb_spec (wrap_u64 total) total) as [E|_]; [exfalso; exact (W' B E)|eexists; reflexivity].
Qed.

(** ** sort *)
Lemma sort_exact M cfg k r tim w : vector_ok M k w ->
  let x := xsort M cfg k r tim w in
  let simd := (avx2 (feat cfg) || avx512 (feat cfg))%bool in
  (8 <= zlen (vec w) -> simd = true -> granted M (asked w) = false -> fst x = XDone (Undef NullDeref)) /\
  (zlen (vec w) < 8 \/ (simd = true /\ granted M (asked w) = true) \/ (simd = false /\ (zlen (vec w) <= 5000 \/ generous M)) ->
     fst x = XDone (fst (sort_nokey cfg k r (vec w))) /\ vec (snd x) = snd (sort_nokey cfg k r (vec w))) /\
  (5000 < zlen (vec w) -> simd = false -> (0 < tim)%nat -> granted M (asked w) = false -> fst x = XDone (Undef NullDeref)).
Proof.
  intros V x simd. subst x. unfold xsort, merges. fold simd. pose proof (zlen_nonneg (vec w)). destruct V as [_ V].
  assert (RS : 8 <= zlen (vec w) -> reserve M k 0 (zlen (vec w)) (asked w) =
               if granted M (asked w) then (Val (zlen (vec w)), S (asked w)) else (Throw, S (asked w))).
  { intros A. unfold reserve. destruct (Z.ltb_spec (max_size M k) (zlen (vec w))); [lia|].
    destruct (Z.leb_spec (zlen (vec w)) 0); [lia|reflexivity]. }
  split; [|split].
  - intros A S G. destruct (Z.leb_spec 8 (zlen (vec w))); [|lia]. rewrite S. cbn [andb]. rewrite RS, G by lia. reflexivity.
  - intros C. destruct (Z.leb_spec 8 (zlen (vec w))); cbn [andb].
    + destruct C as [C|[[S G]|[S G]]]; [lia| |].
      * rewrite S, RS, G by lia. split; reflexivity.
      * rewrite S. destruct (Z.ltb_spec 5000 (zlen (vec w))); [|split; reflexivity].
        destruct G as [G|G]; [lia|]. rewrite objects_all by exact G. split; reflexivity.
    + destruct (Z.ltb_spec 5000 (zlen (vec w))); [lia|]. split; reflexivity.
  - intros A S T G. rewrite S. rewrite andb_false_r. destruct (Z.ltb_spec 5000 (zlen (vec w))); [|lia].
    destruct tim as [|tim]; [lia|]. cbn [objects]. rewrite G. reflexivity.
Qed.

Lemma objects_fail M c n : (exists j, (j < c)%nat /\ granted M (n + j) = false) <-> fst (objects M c n) = false.
Proof.
  revert n. induction c as [|c IH]; intros n; cbn [objects].
  - split; [intros (j & A & _); lia|discriminate].
  - destruct (granted M n) eqn:G.
    + rewrite <- IH. split; intros (j & A & B).
      * destruct j as [|j]; [rewrite Nat.add_0_r in B; congruence|]. exists j. split; [lia|]. rewrite <- B. f_equal. lia.
      * exists (S j). split; [lia|]. rewrite <- B. f_equal. lia.
    + split; [reflexivity|]. intros _. exists 0%nat. split; [lia|]. rewrite Nat.add_0_r. exact G.
Qed.

Lemma sort_key_exact M after w :
  (granted M (asked w) = false -> fst (xsort_key M after w) = XDone (Raise MemoryError) /\ vec (snd (xsort_key M after w)) = vec w) /\
  (granted M (asked w) = true -> (exists j, (j < length (vec w))%nat /\ granted M (S (asked w) + j) = false) ->
     fst (xsort_key M after w) = XDone (Undef NullDeref)) /\
  (granted M (asked w) = true -> (forall j, (j < length (vec w))%nat -> granted M (S (asked w) + j) = true) ->
     fst (xsort_key M after w) = XDone (fst after) /\ vec (snd (xsort_key M after w)) = snd after).
Proof.
  unfold xsort_key. destruct (granted M (asked w)).
  - split; [discriminate|]. pose proof (objects_fail M (length (vec w)) (S (asked w))) as OF.
    destruct (objects M (length (vec w)) (S (asked w))) as [[|] n]; cbn [fst] in OF.
    + split; [intros _ H; apply OF in H; discriminate|]. split; reflexivity.
    + split; [reflexivity|]. intros _ H. destruct (proj2 OF eq_refl) as (j & A & B). rewrite (H j A) in B. discriminate.
  - split; [split; reflexivity|]. split; discriminate.
Qed.

(** ** repr *)
Lemma append_int_eq v t : append_int v = Ret t -> t = format_int v.
Proof. unfold append_int. destruct (length (format_int v) <? 32)%nat; [congruence|discriminate]. Qed.
Lemma repr_loop_len s acc t : repr_loop s acc = Ret t -> zlen acc <= zlen t.
Proof.
  revert acc. induction s as [|v s IH]; intros acc E; [discriminate|].
  destruct s as [|v' s].
  - cbn [repr_loop] in E. destruct (append_int v) as [a| | |] eqn:A; try discriminate. cbn [obind] in E. injection E as <-.
    rewrite zlen_app. pose proof (zlen_nonneg (a ++ [93])). lia.
  - change (obind (append_int v) (fun t => repr_loop (v' :: s) (acc ++ t ++ [44; 32])) = Ret t) in E.
    destruct (append_int v) as [a| |? ?|] eqn:A; try discriminate E;
      [|exfalso; revert A; unfold append_int; destruct (_ <? _)%nat; discriminate]. cbn [obind] in E. specialize (IH _ E).
    rewrite zlen_app in IH. pose proof (zlen_nonneg (a ++ [44; 32])). lia.
Qed.
Lemma str_need_all M size cap need n : generous M -> need <= max_str M -> exists c n', str_need M size cap need n = (Val c, n').
Proof.
  intros G H. unfold str_need. destruct (Z.ltb_spec (max_str M) need); [lia|].
  destruct (need <=? cap); [eexists; eexists; reflexivity|]. rewrite G. eexists; eexists; reflexivity.
Qed.
Lemma repr_asks_all M s acc t c n : generous M -> repr_loop s acc = Ret t -> zlen t <= max_str M ->
  exists n', repr_asks M s (zlen acc) c n = (Val tt, n').
Proof.
  intros G. revert acc c n. induction s as [|v s IH]; intros acc c n E L; [discriminate|].
  destruct s as [|v' s].
  - cbn [repr_loop] in E. destruct (append_int v) as [a| | |] eqn:A; try discriminate. cbn [obind] in E. injection E as <-.
    apply append_int_eq in A. subst a. rewrite !zlen_app in L. change (zlen [93]) with 1 in L. cbn [repr_asks].
    destruct (str_need_all M (zlen acc) c (zlen acc + zlen (format_int v)) n G ltac:(lia)) as (c1 & n1 & ->).
    destruct (str_need_all M (zlen acc + zlen (format_int v)) c1 (zlen acc + zlen (format_int v) + 1) n1 G ltac:(lia)) as (c2 & n2 & ->).
    eexists; reflexivity.
  - change (obind (append_int v) (fun t => repr_loop (v' :: s) (acc ++ t ++ [44; 32])) = Ret t) in E.
    destruct (append_int v) as [a| |? ?|] eqn:A; try discriminate E;
      [|exfalso; revert A; unfold append_int; destruct (_ <? _)%nat; discriminate]. cbn [obind] in E.
    pose proof (repr_loop_len _ _ _ E) as LL. apply append_int_eq in A. subst a. rewrite !zlen_app in LL. change (zlen [44; 32]) with 2 in LL.
    specialize (IH (acc ++ format_int v ++ [44; 32])). rewrite !zlen_app in IH. change (zlen [44; 32]) with 2 in IH.
    cbn [repr_asks].
    destruct (str_need_all M (zlen acc) c (zlen acc + zlen (format_int v)) n G ltac:(lia)) as (c1 & n1 & ->).
    destruct (str_need_all M (zlen acc + zlen (format_int v)) c1 (zlen acc + zlen (format_int v) + 2) n1 G ltac:(lia)) as (c2 & n2 & ->).
    rewrite Z.add_assoc in IH. exact (IH c2 n2 E L).
Qed.

Lemma repr_short M w : sound_memory M ->
  (* enough memory: the text *)
  (forall t, generous M -> repr_ (vec w) = Ret t -> zlen t <= max_str M -> zlen (vec w) * 4 <= max_str M ->
     fst (xrepr M w) = TDone (Ret t)) /\
  (* four elements or more and the buffer refused: the process ends *)
  (4 <= zlen (vec w) -> granted M (asked w) = false \/ max_str M < zlen (vec w) * 4 -> fst (xrepr M w) = TKilled) /\
  (* always: the text, MemoryError, or the end; the list is as before *)
  (fst (xrepr M w) = TDone (repr_ (vec w)) \/ fst (xrepr M w) = TDone (Raise MemoryError) \/ fst (xrepr M w) = TKilled) /\
  vec (snd (xrepr M w)) = vec w.
Proof.
  intros (_ & SM & _ & _). unfold xrepr. cbn [objects].
  split; [|split; [|split]].
  - intros t G E L L4. destruct (vec w) as [|v s] eqn:EV.
    + rewrite G. cbn [repr_] in E. cbn [fst repr_]. rewrite E. reflexivity.
    + unfold str_reserve. destruct (Z.ltb_spec (max_str M) (zlen (v :: s) * 4)); [lia|].
      assert (X : forall c n, fst (match repr_asks M (v :: s) 1 c n with
          | (Val _, n0) => let '(ok, n1) := if granted M n0 then (true, S n0) else (false, S n0) in
               (TDone (if ok then repr_ (v :: s) else Raise MemoryError), count_to w n1)
          | (Throw, n0) => (TKilled, count_to w n0) end) = TDone (Ret t)).
      { intros c n. destruct (repr_asks_all M (v :: s) [91] t c n G E L) as (n' & R).
        change (zlen [91]) with 1 in R. rewrite R, G. cbn [fst]. rewrite E. reflexivity. }
      destruct (zlen (v :: s) * 4 <=? 15); [apply X|]. rewrite G. apply X.
  - intros L R. destruct (vec w) as [|v s] eqn:EV; [vm_compute in L; exfalso; apply L; reflexivity|].
    unfold str_reserve. destruct (Z.ltb_spec (max_str M) (zlen (v :: s) * 4)); [reflexivity|].
    destruct (Z.leb_spec (zlen (v :: s) * 4) 15); [lia|]. destruct R as [->|R]; [reflexivity|lia].
  - destruct (vec w) as [|v s].
    + destruct (granted M (asked w)); [left|right; left]; reflexivity.
    + destruct (str_reserve _ _ _) as [[c|] n]; [|right; right; reflexivity].
      destruct (repr_asks _ _ _ _ _) as [[u|] n']; [|right; right; reflexivity].
      destruct (granted M n'); [left|right; left]; reflexivity.
  - destruct (vec w) as [|v s] eqn:EV.
    + destruct (granted M (asked w)); exact EV.
    + destruct (str_reserve _ _ _) as [[c|] n]; [|exact EV].
      destruct (repr_asks _ _ _ _ _) as [[u|] n']; [|exact EV].
      destruct (granted M n'); exact EV.
Qed.

(** ** Construction *)
Lemma xinit_items_safe M k items fin w :
  match fst (xinit_items M k items fin w) with
  | XDone (Ret (VNewList l)) => exists vs, init_items k items (vec w) = (Ret tt, vs) /\ l = vs /\ fin = None
  | XDone (Raise e) => e = RuntimeError \/ fin = Some e
  | _ => False
  end.
Proof.
  revert w. induction items as [|o r IH]; intros w; cbn [xinit_items init_items].
  - destruct fin; cbn [fst]; [right; reflexivity|]. eexists; split; [reflexivity|split; reflexivity].
  - destruct (as_elem k o) as [z| | |]; cbn [fst]; try (left; reflexivity).
    unfold caught. destruct (fst (enlarge _ _ _ _ _ _)) as [c|]; cbn [fst]; [|left; reflexivity]. exact (IH _).
Qed.
Lemma init_safe M k e a n :
  match fst (xinit M k e a n) with
  | XDone (Ret v) => init k (IArg a) = Ret v
  | XDone (Raise x) => x = RuntimeError \/ x = TypeError \/ (exists items, a = AIter items (Some x))
  | _ => False
  end.
Proof.
  unfold xinit. set (rq := if 0 <? e then _ else _). clearbody rq. destruct rq as [[c|] m]; unfold caught; cbn [fst snd]; [|left; reflexivity].
  destruct a as [ys| |items|items fin|]; cbn [init].
  - destruct (reserve _ _ _ _ _) as [[c'|] m']; cbn [fst snd]; [reflexivity|left; reflexivity].
  - reflexivity.
  - pose proof (xinit_items_safe M k items None {| vec := []; cap := c; asked := m |} ) as X.
    destruct (xinit_items _ _ _ _ _) as [[[v|x| |]|] w']; cbn [fst] in *; try contradiction.
    + destruct v; try contradiction. destruct X as (vs & E & -> & _). cbn [vec] in E. rewrite E. reflexivity.
    + destruct X as [->|X]; [left; reflexivity|discriminate].
  - destruct (granted M m); cbn [fst]; [|right; left; reflexivity].
    pose proof (xinit_items_safe M k items fin (count_to {| vec := []; cap := c; asked := m |} (S m)) ) as X.
    destruct (xinit_items _ _ _ _ _) as [[[v|x| |]|] w']; cbn [fst] in *; try contradiction.
    + destruct v; try contradiction. destruct X as (vs & E & -> & ->). cbn [vec count_to] in E. rewrite E. reflexivity.
    + destruct X as [->| ->]; [left; reflexivity|]. right. right. exists items. reflexivity.
  - right. left. reflexivity.
Qed.
Lemma init_huge M k e a n : 0 < e -> max_size M k < e -> fst (xinit M k e a n) = XDone (Raise RuntimeError).
Proof.
  intros P L. unfold xinit. destruct (Z.ltb_spec 0 e); [|lia]. unfold caught, reserve.
  destruct (Z.ltb_spec (max_size M k) e); [reflexivity|lia].
Qed.
Lemma xinit_items_enough M k items fin w vs : generous M -> init_items k items (vec w) = (Ret tt, vs) -> zlen vs <= max_size M k ->
  fst (xinit_items M k items fin w) = XDone (match fin with None => Ret (VNewList vs) | Some e => Raise e end) /\ zlen (vec w) <= zlen vs.
Proof.
  intros G. revert w. induction items as [|o r IH]; intros w E L; cbn [xinit_items init_items] in *.
  - injection E as <-. split; [reflexivity|lia].
  - destruct (as_elem k o) as [z| | |]; try discriminate. unfold caught.
    assert (LE : zlen (vec w ++ [z]) <= zlen vs).
    { clear - E. revert E. generalize (vec w ++ [z]). intros l. revert l. induction r as [|o r IH]; intros l E; cbn [init_items] in E.
      - injection E as <-. lia.
      - destruct (as_elem k o) as [y| | |]; try discriminate. apply IH in E. rewrite zlen_app in E. change (zlen [y]) with 1 in E. lia. }
    rewrite zlen_app in LE. change (zlen [z]) with 1 in LE.
    destruct (enlarge_all M k (zlen (vec w)) (cap w) (zlen (vec w) + 1) (asked w) G ltac:(lia)) as (c & n & ->). cbn [fst snd].
    split; [|lia]. exact (proj1 (IH {| vec := vec w ++ [z]; cap := c; asked := n |} E L)).
Qed.
Lemma init_enough M k e a n vs : generous M -> e <= max_size M k -> zlen vs <= max_size M k ->
  init k (IArg a) = Ret (VNewList vs) -> fst (xinit M k e a n) = XDone (Ret (VNewList vs)).
Proof.
  intros G H L E. unfold xinit.
  assert (RQ : exists c m, (if 0 <? e then reserve M k 0 e n else (Val 0, n)) = (Val c, m)).
  { destruct (0 <? e); [apply reserve_all; assumption|eexists; eexists; reflexivity]. }
  destruct RQ as (c & m & ->). unfold caught at 1. cbn [fst snd].
  destruct a as [ys| |items|items fin|]; cbn [init] in E; try discriminate.
  - injection E as ->. unfold caught. destruct (reserve_all M k c (zlen vs) m G L) as (c' & m' & ->). reflexivity.
  - injection E as <-. reflexivity.
  - destruct (init_items k items []) as [[u| | |] s] eqn:I; try discriminate. destruct u. injection E as ->.
    apply (xinit_items_enough M k items None {| vec := []; cap := c; asked := m |} vs G I L).
  - destruct (init_items k items []) as [[u| | |] s] eqn:I; try discriminate. destruct u. destruct fin; [discriminate|]. injection E as ->.
    rewrite G. apply (xinit_items_enough M k items None (count_to {| vec := []; cap := c; asked := m |} (S m)) vs G I L).
Qed.

Lemma obind_inv {A B} (o : outcome A) (f : A -> outcome B) b : obind o f = Ret b -> exists a, o = Ret a.
Proof. destruct o as [a| |a e|]; cbn [obind]; try discriminate; [eexists; reflexivity|]. destruct (f a); discriminate. Qed.
Lemma from_range_short M k a1 a2 a3 n l : from_range k a1 a2 a3 = Ret (VNewList l) ->
  let r := fst (xfrom_range M k a1 a2 a3 n) in
  (granted M n = false -> r = XDone (Raise MemoryError)) /\
  (granted M n = true -> max_size M k < zlen l \/ (0 < zlen l /\ granted M (S n) = false) -> r = XDone (Raise RuntimeError)) /\
  (granted M n = true -> zlen l <= max_size M k -> zlen l = 0 \/ granted M (S n) = true -> r = XDone (Ret (VNewList l))).
Proof.
  intros E r. subst r. unfold xfrom_range. pose proof E as E'. unfold from_range in E'.
  destruct (obind_inv _ _ _ E') as (q & ->). clear E'. rewrite E.
  pose proof (enlarge_exact M k 0 0 (zlen l) (S n)) as EX.
  destruct (granted M n); [|split; [reflexivity|split; discriminate]]. split; [discriminate|]. unfold caught.
  split; intros _.
  - intros H. rewrite (proj2 EX H). reflexivity.
  - intros L H. destruct (fst (enlarge _ _ _ _ _ _)); [reflexivity|]. exfalso. destruct (proj1 EX eq_refl) as [A|[A B]]; [lia|].
    destruct H as [H|H]; [lia|congruence].
Qed.

(** ** add *)
Lemma add_short M cfg k a w :
  vec (snd (xadd M cfg k a w)) = vec w /\
  (fst (xadd M cfg k a w) = XDone (fst (add cfg k a (vec w))) \/ fst (xadd M cfg k a w) = XDone (Raise MemoryError)) /\
  (generous M -> fst (xadd M cfg k a w) = XDone (fst (add cfg k a (vec w)))).
Proof.
  destruct a as [ys|items|]; cbn [xadd add].
  - split; [reflexivity|]. split; [left; reflexivity|reflexivity].
  - unfold hand_out. cbn [fst]. split; [|split].
    + destruct (objects _ _ _) as [ok m]; reflexivity.
    + destruct (objects _ _ _) as [[|] m]; [left|right]; reflexivity.
    + intros G. rewrite objects_all by exact G. reflexivity.
  - split; [|split].
    + destruct (objects _ _ _) as [[|] m]; reflexivity.
    + destruct (objects _ _ _) as [[|] m]; [left|right]; reflexivity.
    + intros G. rewrite objects_all by exact G. reflexivity.
Qed.

(** One object for each element, one for the list of them, and one for the sum. *)
Lemma add_exact M cfg k a w : (forall ys, a <> AddSame ys) ->
  let need := match a with AddList _ => (length (vec w) + 2)%nat | _ => (length (vec w) + 1)%nat end in
  ((forall i, (i < need)%nat -> granted M (asked w + i) = true) -> fst (xadd M cfg k a w) = XDone (fst (add cfg k a (vec w)))) /\
  (forall i, (i < need)%nat -> granted M (asked w + i) = false -> fst (xadd M cfg k a w) = XDone (Raise MemoryError)).
Proof.
  intros NS. destruct a as [ys|items|]; [exfalso; apply (NS ys); reflexivity| |]; cbn [xadd add].
  - unfold hand_out. cbn [fst objects_of]. rewrite map_length.
    replace (S (S (length (vec w)))) with (length (vec w) + 2)%nat by lia. split.
    + intros H. apply objects_granted in H. destruct (objects _ _ _) as [ok m]. cbn [fst] in *. subst ok. reflexivity.
    + intros i L H. pose proof (objects_refused M _ _ i L H) as Rf. destruct (objects _ _ _) as [ok m]. cbn [fst] in *. subst ok. reflexivity.
  - replace (S (length (vec w))) with (length (vec w) + 1)%nat by lia. split.
    + intros H. apply objects_granted in H. destruct (objects _ _ _) as [ok m]. cbn [fst] in *. subst ok. reflexivity.
    + intros i L H. pose proof (objects_refused M _ _ i L H) as Rf. destruct (objects _ _ _) as [ok m]. cbn [fst] in *. subst ok. reflexivity.
Qed.

(** ** Histories with extend *)
Lemma xrun_any M cfg k ops w : sound_memory M -> vector_ok M k w -> Forall (op_fits k) ops ->
  exists qs done rest s', ops = done ++ rest /\ short_run (vec w) done qs s' /\
   ((rest = [] /\ xrun M cfg k ops w = (map (fun q => XDone (expected cfg k q)) qs, snd (xrun M cfg k ops w)) /\
     vec (snd (xrun M cfg k ops w)) = s') \/
    (exists how vs r, rest = OExtend how vs :: r /\
     fst (xrun M cfg k ops w) = map (fun q => XDone (expected cfg k q)) qs ++ [XKilled])).
Proof.
  intros S V F. revert w V. induction ops as [|o ops IH]; intros w V.
  - exists [], [], [], (vec w). split; [reflexivity|]. split; [constructor|]. left. split; [reflexivity|]. split; reflexivity.
  - inversion F as [|? ? F1 F2]; subst. cbn [xrun].
    pose proof (xstep_short M cfg k o w S V (F1 (vec w))) as H. unfold short_ok in H.
    destruct (xstep M cfg k o w) as [[x|] w1]; cbn [fst snd] in H.
    + destruct H as (q & Hq & -> & V1).
      destruct (IH F2 w1 V1) as (qs & dn & rest & s' & -> & SR & C).
      exists (q :: qs), (o :: dn), rest, s'. split; [reflexivity|]. split; [econstructor; eassumption|].
      destruct (xrun M cfg k (dn ++ rest) w1) as [xs w2]; cbn [fst snd] in *.
      destruct C as [(-> & E & E')|(how & vs & r & -> & E)].
      * left. split; [reflexivity|]. injection E as ->. split; [reflexivity|exact E'].
      * right. exists how, vs, r. split; [reflexivity|]. rewrite E. reflexivity.
    + exists [], [], (o :: ops), (vec w). split; [reflexivity|]. split; [constructor|]. right.
      destruct o; try (exfalso; apply H; exact I). eexists; eexists; eexists. split; reflexivity.
Qed.
