(** Proofs about the raw memory methods of Unsafe. *)
From Coq Require Import ZArith List Bool Arith Lia.
From Verif Require Import Base ListLemmas MemModel SimdCopyProofs UnsafeModel UnsafeSpec.
Import ListNotations.
Local Open Scope Z_scope.
Local Arguments Z.pow : simpl never.
Local Arguments Z.of_nat : simpl never.
Local Arguments Z.to_nat : simpl never.
Local Arguments Z.add : simpl never.
Local Arguments Z.sub : simpl never.
Local Arguments Z.mul : simpl never.
Local Arguments Z.max : simpl never.
Local Arguments Z.modulo : simpl never.

(** ** Blocks *)
Lemma size_nonneg b : 0 <= b_size b.
Proof. unfold b_size, zlen. lia. Qed.

Lemma separate_sym b c : separate b c -> separate c b.
Proof. unfold separate. tauto. Qed.

Lemma ok_cons b h : heap_ok (b :: h) <->
  (Forall (separate b) h /\ 0 < b_base b /\ b_base b + Z.max 1 (b_size b) <= 2 ^ 64) /\ heap_ok h.
Proof.
  unfold heap_ok. split.
  - intros [P Q]. inversion P; inversion Q; subst. tauto.
  - intros ((S & A & B) & P & Q). split; constructor; auto.
Qed.

Lemma inside_iff a n b : inside a n b = true <-> b_base b <= a /\ a + n <= b_base b + b_size b.
Proof. unfold inside. rewrite andb_true_iff, !Z.leb_le. reflexivity. Qed.

Lemma find_block h a n b : heap_ok h -> 0 < n -> In b h -> b_base b <= a -> a + n <= b_base b + b_size b -> find (inside a n) h = Some b.
Proof.
  induction h as [|c h IH]; intros H N I A B; [destruct I|]. apply ok_cons in H. destruct H as ((S & _) & H). cbn [find].
  destruct (inside a n c) eqn:E.
  - apply inside_iff in E. destruct I as [->|I]; [reflexivity|]. rewrite Forall_forall in S. specialize (S b I). unfold separate in S.
    pose proof (size_nonneg b). pose proof (size_nonneg c). exfalso. lia.
  - destruct I as [->|I]; [|auto]. exfalso. assert (inside a n b = true) by (apply inside_iff; lia). congruence.
Qed.

Lemma find_none h a n : ~ accessible h a n -> find (inside a n) h = None.
Proof.
  intros N. destruct (find (inside a n) h) as [b|] eqn:E; [|reflexivity]. exfalso. apply N.
  apply find_some in E. destruct E as (I & E). apply inside_iff in E. exists b. auto.
Qed.

Lemma cell_block h b x : heap_ok h -> In b h -> b_base b <= x < b_base b + b_size b -> cell h x = nth_error (b_data b) (Z.to_nat (x - b_base b)).
Proof.
  induction h as [|c h IH]; intros H I B; [destruct I|]. apply ok_cons in H. destruct H as ((S & _) & H). cbn [cell].
  destruct ((b_base c <=? x) && (x <? b_base c + b_size c)) eqn:E.
  - apply andb_true_iff in E. destruct E as (E1 & E2). apply Z.leb_le in E1. apply Z.ltb_lt in E2.
    destruct I as [->|I]; [reflexivity|]. rewrite Forall_forall in S. specialize (S b I). unfold separate in S. exfalso. lia.
  - destruct I as [->|I]; [|auto]. exfalso. apply andb_false_iff in E. rewrite Z.leb_gt, Z.ltb_ge in E. lia.
Qed.

Lemma cell_none h x : (forall b, In b h -> ~ b_base b <= x < b_base b + b_size b) <-> cell h x = None.
Proof.
  induction h as [|c h IH]; cbn [cell]; [split; [reflexivity|intros _ b []]|].
  destruct ((b_base c <=? x) && (x <? b_base c + b_size c)) eqn:E.
  - apply andb_true_iff in E. destruct E as (E1 & E2). apply Z.leb_le in E1. apply Z.ltb_lt in E2. split.
    + intros N. exfalso. apply (N c); [left; reflexivity|lia].
    + intros N. apply nth_error_None in N. unfold b_size, zlen in *. exfalso. lia.
  - apply andb_false_iff in E. rewrite Z.leb_gt, Z.ltb_ge in E. rewrite <- IH. split.
    + intros N b I. apply N. right. exact I.
    + intros N b [<-|I]; [lia|auto].
Qed.

Lemma cells_len h a n : length (cells h a n) = Z.to_nat n.
Proof. unfold cells. rewrite map_length, seq_length. reflexivity. Qed.

Lemma nth_error_cells h a n i : (i < Z.to_nat n)%nat -> nth_error (cells h a n) i = Some (cell h (a + Z.of_nat i)).
Proof.
  intros L. unfold cells. rewrite (nth_error_nth' _ None) by (rewrite map_length, seq_length; lia).
  f_equal. rewrite (nth_indep _ None (cell h (a + Z.of_nat 0))) by (rewrite map_length, seq_length; lia).
  rewrite (map_nth (fun i => cell h (a + Z.of_nat i))), seq_nth by lia. reflexivity.
Qed.

(** ** Reading *)
Lemma hload_ok h a n : heap_ok h -> accessible h a n -> 0 < n -> exists bs, hload h a n = Ret bs /\ zlen bs = n /\ map Some bs = cells h a n.
Proof.
  intros H (b & I & A & B) N. unfold hload. rewrite (proj2 (Z.eqb_neq n 0)) by lia.
  pose proof (proj2 H) as F. rewrite Forall_forall in F. specialize (F b I).
  rewrite (proj2 (Z.eqb_neq a 0)) by lia. rewrite (find_block h a n b H N I A B). eexists. split; [reflexivity|].
  assert (L : length (firstn (Z.to_nat n) (skipn (Z.to_nat (a - b_base b)) (b_data b))) = Z.to_nat n).
  { rewrite firstn_length, skipn_length. unfold b_size, zlen in *. lia. }
  split; [unfold zlen; lia|]. apply nth_error_ext. intros i. destruct (Nat.lt_ge_cases i (Z.to_nat n)) as [J|J].
  - rewrite nth_error_cells by exact J. rewrite nth_error_map.
    rewrite nth_error_firstn, nth_error_skipn. rewrite (proj2 (Nat.ltb_lt _ _) J).
    rewrite (cell_block h b) by (auto; lia). replace (Z.to_nat (a + Z.of_nat i - b_base b)) with (Z.to_nat (a - b_base b) + i)%nat by lia.
    destruct (nth_error (b_data b) (Z.to_nat (a - b_base b) + i)) eqn:E; [reflexivity|]. apply nth_error_None in E.
    unfold b_size, zlen in *. lia.
  - rewrite (proj2 (nth_error_None _ _)), (proj2 (nth_error_None _ _)); [reflexivity|rewrite cells_len; lia|rewrite map_length; lia].
Qed.

Lemma hload_bad h a n : 0 < n -> ~ accessible h a n -> exists u, hload h a n = Undef u.
Proof.
  intros N A. unfold hload. rewrite (proj2 (Z.eqb_neq n 0)) by lia. rewrite (find_none h a n A).
  destruct (a =? 0); eexists; reflexivity.
Qed.

(** ** Writing *)
Lemma layout_ok h : forall h', layout h' = layout h -> heap_ok h -> heap_ok h'.
Proof.
  induction h as [|b h IH]; intros [|b' h'] E H; try discriminate; [exact H|]. injection E as E1 E2 E3 E.
  apply ok_cons in H. destruct H as ((S & A & B) & H). apply ok_cons. split; [|exact (IH h' E H)]. rewrite E2, E3. split; [|auto].
  clear -E E2 E3 S. revert h' E. induction h as [|c h IH]; intros [|c' h'] E; try discriminate; [constructor|].
  injection E as D1 D2 D3 E. inversion S; subst. constructor; [|auto]. unfold separate in *. rewrite E2, E3, D2, D3. assumption.
Qed.

Lemma layout_accessible h h' a n : layout h' = layout h -> accessible h a n -> accessible h' a n.
Proof.
  intros E (b & I & A & B). assert (J : In (b_al b, b_base b, b_size b) (layout h)) by (apply (in_map (fun b => (b_al b, b_base b, b_size b))); exact I).
  rewrite <- E in J. apply in_map_iff in J. destruct J as (c & C & J). injection C as C1 C2 C3. exists c. rewrite C2, C3. auto.
Qed.

Lemma patch_len d i v : (i + length v <= length d)%nat -> length (patch d i v) = length d.
Proof. intros L. unfold patch. rewrite !app_length, firstn_length, skipn_length. lia. Qed.

Lemma patch_nth d i v k : (i + length v <= length d)%nat ->
  nth_error (patch d i v) k = if (i <=? k)%nat && (k <? i + length v)%nat then nth_error v (k - i) else nth_error d k.
Proof.
  intros L. unfold patch. rewrite !nth_error_app, firstn_length, nth_error_firstn, nth_error_skipn.
  replace (Nat.min i (length d)) with i by lia.
  destruct (Nat.ltb_spec k i); destruct (Nat.leb_spec i k); cbn [andb]; try lia; [reflexivity|].
  destruct (Nat.ltb_spec (k - i) (length v)); destruct (Nat.ltb_spec k (i + length v)); try lia; [reflexivity|].
  f_equal. lia.
Qed.

Lemma hstore_ok h a v : heap_ok h -> accessible h a (zlen v) -> exists h', hstore h a v = Ret h' /\ overwritten h h' a v.
Proof.
  intros H (b & I & A & B). unfold hstore. destruct (Z.eqb_spec (zlen v) 0) as [Z0|Z0].
  { exists h. split; [reflexivity|]. split; [reflexivity|]. intros x. destruct (Z.leb_spec a x); destruct (Z.ltb_spec x (a + zlen v)); cbn [andb]; try reflexivity. lia. }
  assert (N : 0 < zlen v) by (unfold zlen in *; lia).
  pose proof (proj2 H) as F. rewrite Forall_forall in F. pose proof (F b I) as Fb.
  rewrite (proj2 (Z.eqb_neq a 0)) by lia. rewrite (find_block h a (zlen v) b H N I A B). eexists. split; [reflexivity|].
  set (f := fun c => if inside a (zlen v) c then {| b_al := b_al c; b_base := b_base c; b_data := patch (b_data c) (Z.to_nat (a - b_base c)) v |} else c).
  assert (Fs : forall c, b_al (f c) = b_al c /\ b_base (f c) = b_base c /\ b_size (f c) = b_size c).
  { intros c. unfold f. destruct (inside a (zlen v) c) eqn:E; [|auto]. apply inside_iff in E. cbn [b_al b_base]. split; [reflexivity|]. split; [reflexivity|].
    unfold b_size at 1. cbn [b_data]. unfold zlen. rewrite patch_len; [reflexivity|]. unfold b_size, zlen in *. lia. }
  assert (Ly : layout (map f h) = layout h).
  { unfold layout. rewrite map_map. apply map_ext. intros c. destruct (Fs c) as (-> & -> & ->). reflexivity. }
  split; [exact Ly|]. intros x. pose proof (layout_ok h _ Ly H) as H'.
  destruct (cell h x) as [o|] eqn:C.
  - assert (exists c, In c h /\ b_base c <= x < b_base c + b_size c) as (c & J & R).
    { clear -C. induction h as [|c h IH]; cbn [cell] in C; [discriminate|].
      destruct ((b_base c <=? x) && (x <? b_base c + b_size c)) eqn:E.
      - exists c. apply andb_true_iff in E. rewrite Z.leb_le, Z.ltb_lt in E. split; [left; reflexivity|lia].
      - destruct (IH C) as (d & J & R). exists d. split; [right; exact J|exact R]. }
    rewrite <- C, (cell_block h c x H J R). destruct (Fs c) as (_ & F2 & F3).
    rewrite (cell_block (map f h) (f c) x H'); [|apply in_map; exact J|rewrite F2, F3; exact R]. rewrite F2.
    unfold f. destruct (inside a (zlen v) c) eqn:E.
    + apply inside_iff in E. cbn [b_data]. rewrite patch_nth by (unfold b_size, zlen in *; lia).
      replace (Z.to_nat (a - b_base c) <=? Z.to_nat (x - b_base c))%nat with (a <=? x)
        by (destruct (Z.leb_spec a x); symmetry; [apply Nat.leb_le|apply Nat.leb_gt]; lia).
      replace (Z.to_nat (x - b_base c) <? Z.to_nat (a - b_base c) + length v)%nat with (x <? a + zlen v)
        by (unfold zlen; destruct (Z.ltb_spec x (a + Z.of_nat (length v))); symmetry; [apply Nat.ltb_lt|apply Nat.ltb_ge]; lia).
      destruct (Z.leb_spec a x); cbn [andb]; [|reflexivity]. destruct (x <? a + zlen v); [|reflexivity]. f_equal. lia.
    + destruct (Z.leb_spec a x); destruct (Z.ltb_spec x (a + zlen v)); cbn [andb]; try reflexivity. exfalso.
      pose proof (find_block h x 1 b H ltac:(lia) I ltac:(lia) ltac:(lia)) as E1.
      pose proof (find_block h x 1 c H ltac:(lia) J ltac:(lia) ltac:(lia)) as E2.
      rewrite E1 in E2. injection E2 as ->. assert (inside a (zlen v) c = true) by (apply inside_iff; lia). congruence.
  - rewrite (proj2 (andb_false_iff (a <=? x) (x <? a + zlen v))).
    + apply cell_none. intros d J R. apply in_map_iff in J. destruct J as (c & <- & J). destruct (Fs c) as (_ & F2 & F3). rewrite F2, F3 in R.
      exact (proj2 (cell_none h x) C c J R).
    + rewrite Z.leb_gt, Z.ltb_ge. destruct (Z.lt_ge_cases x a); [auto|]. right. destruct (Z.le_gt_cases (a + zlen v) x); [auto|].
      exfalso. exact (proj2 (cell_none h x) C b I ltac:(lia)).
Qed.

Lemma hstore_bad h a v : v <> [] -> ~ accessible h a (zlen v) -> exists u, hstore h a v = Undef u.
Proof.
  intros N A. unfold hstore. rewrite (find_none _ _ _ A). destruct v; [congruence|].
  rewrite (proj2 (Z.eqb_neq (zlen (z :: v)) 0)) by (unfold zlen; cbn [length]; lia). destruct (a =? 0); eexists; reflexivity.
Qed.

(** ** Allocation and release *)
Lemma apart_iff a n b : apart a n b = true <-> a + Z.max 1 n <= b_base b \/ b_base b + Z.max 1 (b_size b) <= a.
Proof. unfold apart, extent. rewrite orb_true_iff, !Z.leb_le. reflexivity. Qed.

Lemma grant_iff h n o a init : grant h n o = Some (a, init) <-> o = Some (a, init) /\ usable h n a init.
Proof.
  unfold grant, usable. destruct o as [[a' i']|]; [|split; [discriminate|intros [E _]; discriminate]].
  destruct ((0 <? a') && (a' + extent n <=? 2 ^ 64) && (zlen i' =? n) && forallb (apart a' n) h) eqn:E.
  - rewrite !andb_true_iff, Z.ltb_lt, Z.leb_le, Z.eqb_eq, forallb_forall in E. destruct E as (((E1 & E2) & E3) & E4). split.
    + intros [= -> ->]. split; [reflexivity|]. split; [exact E1|]. split; [exact E2|]. split; [exact E3|].
      apply Forall_forall. intros b I. apply apart_iff. auto.
    + intros [X _]. exact X.
  - split; [discriminate|]. intros ([= -> ->] & A & B & C & D). exfalso. revert E. rewrite (proj2 (Z.ltb_lt _ _) A).
    change (extent n) with (Z.max 1 n). rewrite (proj2 (Z.leb_le _ _) B), (proj2 (Z.eqb_eq _ _) C).
    rewrite (proj2 (forallb_forall _ _)); [discriminate|]. rewrite Forall_forall in D. intros b I. apply apart_iff. auto.
Qed.

Lemma grant_none h n o : (forall a init, o = Some (a, init) -> ~ usable h n a init) -> grant h n o = None.
Proof.
  intros N. destruct (grant h n o) as [[a init]|] eqn:E; [|reflexivity]. apply grant_iff in E. destruct E as [E U]. exfalso. exact (N a init E U).
Qed.

Lemma usable_ok h n a init al d : heap_ok h -> usable h n a init -> zlen d = n -> heap_ok ({| b_al := al; b_base := a; b_data := d |} :: h).
Proof.
  intros H (A & B & C & D) L. apply ok_cons. split; [|exact H]. unfold b_size. cbn [b_base b_data]. rewrite L. split; [|auto].
  eapply Forall_impl; [|exact D]. intros b S. unfold separate, b_size at 1. cbn [b_base b_data]. rewrite L. exact S.
Qed.

Lemma add_ok b h : heap_ok (b :: h) -> added h (b :: h) (b_al b) (b_base b) (b_size b) /\ cells (b :: h) (b_base b) (b_size b) = map Some (b_data b).
Proof.
  intros H. pose proof H as H'. apply ok_cons in H. destruct H as ((S & A & B) & H). split; [split; [reflexivity|split]|].
  - intros x R. apply cell_none. intros c I Rc. rewrite Forall_forall in S. specialize (S c I). unfold separate in S. lia.
  - intros x R. cbn [cell]. destruct (Z.leb_spec (b_base b) x); destruct (Z.ltb_spec x (b_base b + b_size b)); cbn [andb]; try reflexivity. lia.
  - apply nth_error_ext. intros i. destruct (Nat.lt_ge_cases i (Z.to_nat (b_size b))) as [J|J].
    + rewrite nth_error_cells by exact J. rewrite (cell_block (b :: h) b) by (first [exact H'|left; reflexivity|lia]). rewrite nth_error_map.
      replace (Z.to_nat (b_base b + Z.of_nat i - b_base b)) with i by lia. destruct (nth_error (b_data b) i) eqn:E; [reflexivity|].
      apply nth_error_None in E. unfold b_size, zlen in J. lia.
    + rewrite (proj2 (nth_error_None _ _)), (proj2 (nth_error_None _ _)); [reflexivity|rewrite map_length; unfold b_size, zlen in J; lia|rewrite cells_len; lia].
Qed.

Lemma find_at h b : heap_ok h -> In b h -> find (at_base (b_base b)) h = Some b.
Proof.
  induction h as [|c h IH]; intros H I; [destruct I|]. apply ok_cons in H. destruct H as ((S & _) & H). cbn [find]. unfold at_base at 1.
  destruct (Z.eqb_spec (b_base c) (b_base b)) as [E|E].
  - destruct I as [->|I]; [reflexivity|]. rewrite Forall_forall in S. specialize (S b I). unfold separate in S. exfalso.
    pose proof (size_nonneg b). pose proof (size_nonneg c). lia.
  - destruct I as [->|I]; [congruence|auto].
Qed.

Lemma find_at_none h a : ~ In a (map b_base h) -> find (at_base a) h = None.
Proof.
  intros N. destruct (find (at_base a) h) as [b|] eqn:E; [|reflexivity]. apply find_some in E. destruct E as (I & E). unfold at_base in E.
  apply Z.eqb_eq in E. exfalso. apply N. rewrite <- E. apply in_map. exact I.
Qed.

Lemma in_drop a h c : In c (drop a h) <-> In c h /\ b_base c <> a.
Proof.
  unfold drop, at_base. rewrite filter_In, negb_true_iff, Z.eqb_neq. reflexivity.
Qed.

Lemma drop_ok a h : heap_ok h -> heap_ok (drop a h).
Proof.
  induction h as [|c h IH]; intros H; [exact H|]. apply ok_cons in H. destruct H as ((S & A) & H). unfold drop. cbn [filter].
  destruct (negb (at_base a c)); [|auto]. apply ok_cons. split; [|auto]. split; [|exact A].
  rewrite Forall_forall in S |- *. intros b I. apply filter_In in I. apply S. tauto.
Qed.

Lemma drop_layout a h : layout (drop a h) = filter (fun t => negb (snd (fst t) =? a)) (layout h).
Proof.
  induction h as [|c h IH]; [reflexivity|]. unfold drop, layout. cbn [filter map]. unfold at_base. cbn [fst snd].
  destruct (negb (b_base c =? a)); cbn [map]; [f_equal|]; exact IH.
Qed.

Lemma drop_removed h b : heap_ok h -> In b h -> removed h (drop (b_base b) h) (b_base b) (b_size b).
Proof.
  intros H I. split; [apply drop_layout|]. intros x. pose proof (drop_ok (b_base b) h H) as H'.
  destruct ((b_base b <=? x) && (x <? b_base b + b_size b)) eqn:E.
  - apply andb_true_iff in E. rewrite Z.leb_le, Z.ltb_lt in E. apply cell_none. intros c J R. apply in_drop in J. destruct J as (J & N).
    pose proof (find_block h x 1 b H ltac:(lia) I ltac:(lia) ltac:(lia)) as E1.
    pose proof (find_block h x 1 c H ltac:(lia) J ltac:(lia) ltac:(lia)) as E2. rewrite E1 in E2. injection E2 as ->. congruence.
  - apply andb_false_iff in E. rewrite Z.leb_gt, Z.ltb_ge in E. destruct (cell h x) as [o|] eqn:C.
    + assert (exists c, In c h /\ b_base c <= x < b_base c + b_size c) as (c & J & R).
      { clear -C. induction h as [|c h IH]; cbn [cell] in C; [discriminate|].
        destruct ((b_base c <=? x) && (x <? b_base c + b_size c)) eqn:E.
        - exists c. apply andb_true_iff in E. rewrite Z.leb_le, Z.ltb_lt in E. split; [left; reflexivity|lia].
        - destruct (IH C) as (d & J & R). exists d. split; [right; exact J|exact R]. }
      rewrite <- C, (cell_block h c x H J R). apply cell_block; [exact H'| |exact R]. apply in_drop. split; [exact J|].
      intros Eb. pose proof (find_at h b H I) as E1. pose proof (find_at h c H J) as E2. rewrite Eb, E1 in E2. injection E2 as ->. lia.
    + apply cell_none. intros c J R. apply in_drop in J. exact (proj2 (cell_none h x) C c (proj1 J) R).
Qed.

(** ** Histories *)
(** What a call that returns or raises did to the heap. *)
Inductive effect (h : heap) (op : uop) : heap -> Prop :=
| EffNone : effect h op h
| EffWrite a v h' : accessible h a (zlen v) -> overwritten h h' a v ->
    (forall p b n, leaves p b n op -> zlen v = 0 \/ apart_from b n a (zlen v)) -> effect h op h'
| EffAdd b : heap_ok (b :: h) -> effect h op (b :: h)
| EffDrop a : (forall p b n, leaves p b n op -> a <> p) -> effect h op (drop a h)
| EffMove a b : heap_ok (b :: drop a h) -> (forall p b n, leaves p b n op -> a <> p) -> effect h op (b :: drop a h).

Lemma hstore_effect h op a v h' : heap_ok h -> hstore h a v = Ret h' ->
  (forall p b n, leaves p b n op -> apart_from b n a (zlen v)) -> effect h op h'.
Proof.
  intros H E L. pose proof E as E0. unfold hstore in E. destruct (Z.eqb_spec (zlen v) 0) as [Z0|Z0].
  - injection E as <-. constructor.
  - destruct (a =? 0); [discriminate|]. destruct (find (inside a (zlen v)) h) as [b|] eqn:F; [|discriminate].
    assert (A : accessible h a (zlen v)) by (apply find_some in F; destruct F as (I & F); apply inside_iff in F; exists b; auto).
    destruct (hstore_ok h a v H A) as (h2 & E2 & O). rewrite E2 in E0. injection E0 as <-.
    apply (EffWrite h op a v h2 A O). intros p c n X. right. exact (L p c n X).
Qed.

Lemma done_effect h op o h' v : done o h = (v, h') -> (forall u, v <> Undef u) ->
  (forall h2 e, o <> RetPending h2 e) -> (forall h2, o = Ret h2 -> effect h op h2) -> effect h op h'.
Proof.
  intros E U P F. destruct o as [h2|e|h2 e|u]; cbn [done] in E; injection E as <- <-.
  - apply F. reflexivity.
  - constructor.
  - exfalso. exact (P h2 e eq_refl).
  - exfalso. exact (U u eq_refl).
Qed.

Lemma hstore_no_pending h a v h' e : hstore h a v <> RetPending h' e.
Proof. unfold hstore. destruct (zlen v =? 0); [discriminate|]. destruct (a =? 0); [discriminate|]. destruct (find _ h); discriminate. Qed.

Lemma hload_cases h a n : (exists v, hload h a n = Ret v) \/ exists u, hload h a n = Undef u.
Proof. unfold hload. destruct (n =? 0); [eauto|]. destruct (a =? 0); [eauto|]. destruct (find _ h); eauto. Qed.

Lemma hload_len h a n v : 0 <= n -> hload h a n = Ret v -> zlen v = n.
Proof.
  intros N. unfold hload. destruct (Z.eqb_spec n 0); [intros [= <-]; subst; reflexivity|]. destruct (a =? 0); [discriminate|].
  destruct (find (inside a n) h) as [b|] eqn:E; [|discriminate]. intros [= <-]. apply find_some in E. destruct E as (_ & E). apply inside_iff in E.
  unfold zlen. rewrite firstn_length, skipn_length. unfold b_size, zlen in E. lia.
Qed.

Lemma le_bytes_len n z : length (le_bytes n z) = n.
Proof. revert z. induction n as [|n IH]; intros z; cbn [le_bytes length]; [reflexivity|]. rewrite IH. reflexivity. Qed.

Lemma as_size_inv o n : as_size o = Ret n -> o = PInt n /\ 0 <= n < 2 ^ 64.
Proof.
  destruct o as [z|]; [|discriminate]. cbn [as_size]. destruct ((0 <=? z) && (z <? 2 ^ 64)) eqn:E; [|discriminate]. intros [= ->].
  apply andb_true_iff in E. rewrite Z.leb_le, Z.ltb_lt in E. auto.
Qed.
Lemma as_ptr_inv o a : as_ptr o = Ret a -> addr_of o = a.
Proof. destruct o as [z|]; [|discriminate]. cbn [as_ptr addr_of]. destruct (_ && _); [|discriminate]. intros [= ->]. reflexivity. Qed.
Lemma as_K_inv o a : as_K o = Ret a -> addr_of o = a /\ 0 <= a < 2 ^ 64.
Proof. destruct o as [z|]; [|discriminate]. cbn [as_K addr_of]. intros [= <-]. split; [reflexivity|]. apply Z.mod_pos_bound. reflexivity. Qed.
Lemma pair_inv {A B} (a : outcome A) (b : outcome B) x y : obind a (fun x => omap (pair x) b) = Ret (x, y) -> a = Ret x /\ b = Ret y.
Proof. destruct a, b; cbn; try discriminate. intros [= -> ->]. auto. Qed.
Lemma both_inv {A B} (a : outcome A) (b : outcome B) x y : both a b = Ret (x, y) -> a = Ret x /\ b = Ret y.
Proof. destruct a, b; cbn; try discriminate. intros [= -> ->]. auto. Qed.

Lemma give_effect h op al o v h' : heap_ok h -> give al o h = (v, h') ->
  (forall a d, o = Some (a, d) -> heap_ok ({| b_al := al; b_base := a; b_data := d |} :: h)) -> effect h op h'.
Proof.
  intros H E G. destruct o as [[a d]|]; cbn [give] in E; injection E as <- <-; [apply EffAdd; auto|constructor].
Qed.

Lemma step_effect win op h v h' : heap_ok h -> ustep win op h = (v, h') -> (forall u, v <> Undef u) -> effect h op h'.
Proof.
  intros H E U. destruct op as [sz o|x y o|ad sz o|ad|sz al o|ad|ad sz f|ad d|s d n|ad vl n|r ad n]; cbn [ustep] in E.
  - unfold u_malloc in E. destruct (as_size sz) as [n|e|n e|u] eqn:S; try (injection E as <- <-; constructor).
    eapply give_effect; [exact H|exact E|]. intros a i G. apply grant_iff in G. eapply usable_ok; [exact H|apply G|apply G].
  - unfold u_calloc in E. destruct (obind (as_K x) _) as [[x' y']|e|p e|u] eqn:S; try (injection E as <- <-; constructor).
    destruct (2 ^ 64 <=? x' * y'); [injection E as <- <-; constructor|].
    eapply give_effect; [exact H|exact E|]. intros a i G. destruct (grant h (x' * y') o) as [[a' i']|] eqn:Gr; [|discriminate].
    cbn [option_map fst snd] in G. injection G as <- <-. apply grant_iff in Gr. destruct Gr as [_ Us]. eapply usable_ok; [exact H|exact Us|].
    destruct Us as (_ & _ & L & _). rewrite <- L. unfold zlen. rewrite repeat_length. reflexivity.
  - unfold u_realloc in E. destruct (obind (as_K ad) _) as [[a n]|e|p e|u] eqn:S; try (injection E as <- <-; constructor).
    apply pair_inv in S. destruct S as (S1 & S2). apply as_K_inv in S1. apply as_K_inv in S2.
    assert (Lv : forall p b m, leaves p b m (URealloc ad sz o) -> a <> p) by (intros p b m X; cbn [leaves] in X; rewrite (proj1 S1) in X; exact X).
    destruct (a =? 0).
    + eapply give_effect; [exact H|exact E|]. intros a' i G. apply grant_iff in G. eapply usable_ok; [exact H|apply G|apply G].
    + destruct (find (at_base a) h) as [b|] eqn:F; [|injection E as <- <-; constructor].
      destruct (negb (takes win false b)); [injection E as <- <-; constructor|].
      destruct (Z.eqb_spec n 0); [injection E as <- <-; apply EffDrop; exact Lv|].
      destruct (grant (drop a h) n o) as [[a' i]|] eqn:G; [|injection E as <- <-; constructor].
      injection E as <- <-. apply EffMove; [|exact Lv]. apply grant_iff in G. destruct G as [_ G]. eapply usable_ok; [apply drop_ok; exact H|exact G|].
      destruct G as (_ & _ & L & _). unfold zlen in *. rewrite app_length, firstn_length, skipn_length. lia.
  - unfold u_free in E. destruct (as_size ad) as [a|e|a e|u] eqn:S; try (injection E as <- <-; constructor).
    destruct (a =? 0); [injection E as <- <-; constructor|]. destruct (find (at_base a) h) as [b|]; [|injection E as <- <-; constructor].
    destruct (takes win false b); injection E as <- <-; [|constructor]. apply EffDrop. intros p c m X. cbn [leaves] in X.
    apply as_size_inv in S. destruct S as (-> & R). cbn [addr_of] in X. rewrite Z.mod_small in X by exact R. exact X.
  - unfold u_aligned_malloc in E. destruct (obind (as_K sz) _) as [[n a0]|e|p e|u] eqn:S; try (injection E as <- <-; constructor).
    eapply give_effect; [exact H|exact E|]. intros a i G. destruct (grant h n o) as [[a' i']|] eqn:Gr; [|discriminate].
    destruct (pow2 a0 && negb (a' mod a0 =? 0)); [discriminate|]. injection G as <- <-. apply grant_iff in Gr. eapply usable_ok; [exact H|apply Gr|apply Gr].
  - unfold u_free in E. destruct (as_size ad) as [a|e|a e|u] eqn:S; try (injection E as <- <-; constructor).
    destruct (a =? 0); [injection E as <- <-; constructor|]. destruct (find (at_base a) h) as [b|]; [|injection E as <- <-; constructor].
    destruct (takes win true b); injection E as <- <-; [|constructor]. apply EffDrop. intros p c m X. cbn [leaves] in X.
    apply as_size_inv in S. destruct S as (-> & R). cbn [addr_of] in X. rewrite Z.mod_small in X by exact R. exact X.
  - assert (h' = h) as ->; [|constructor]. unfold u_get in E. destruct (obind (as_K ad) _) as [[a k]|e|p e|u]; [|injection E as _ <-; reflexivity ..].
    cbv zeta in E. destruct (wrap 64 k <? 0); [injection E as _ <-; reflexivity|]. destruct (wrap 64 k =? 0); [injection E as _ <-; reflexivity|].
    destruct (_ && _); [injection E as _ <-; reflexivity|]. destruct (_ <? _); [injection E as _ <-; reflexivity|].
    destruct f; [|injection E as _ <-; reflexivity]. destruct (a =? 0); injection E as _ <-; reflexivity.
  - unfold u_set in E. destruct (as_K ad) as [a|e|a e|u] eqn:S; try (injection E as <- <-; constructor).
    destruct d as [w|]; [|injection E as <- <-; constructor]. eapply done_effect; [exact E|exact U|intros; apply hstore_no_pending|].
    intros h2 G. eapply hstore_effect; [exact H|exact G|]. intros p b m X. cbn [leaves] in X. rewrite (proj1 (as_K_inv _ _ S)) in X. exact X.
  - unfold u_memcpy in E. destruct (both (both _ _) _) as [[[s' d'] n']|e|p e|u] eqn:S; try (injection E as <- <-; constructor).
    apply both_inv in S. destruct S as (S & S3). apply both_inv in S. destruct S as (_ & S2). apply as_size_inv in S3. destruct S3 as (-> & R).
    eapply done_effect; [exact E|exact U| |].
    + intros h2 e. destruct (hload_cases h s' n') as [(w & ->)|(u & ->)]; cbn [obind]; [|discriminate]. destruct (meet s' d' n'); [discriminate|apply hstore_no_pending].
    + intros h2 G. destruct (hload h s' n') as [w| | |] eqn:Ld; try discriminate. cbn [obind] in G. destruct (meet s' d' n'); [discriminate|].
      eapply hstore_effect; [exact H|exact G|]. intros p b m X. cbn [leaves num_of] in X. rewrite (as_ptr_inv _ _ S2) in X. rewrite (hload_len h s' n' w ltac:(lia) Ld). exact X.
      destruct (hload_cases h s' n') as [(w & Q)|(u0 & Q)]; rewrite Q in Ld; discriminate.
  - unfold u_memset in E. destruct (both (both _ _) _) as [[[a v'] n']|e|p e|u] eqn:S; try (injection E as <- <-; constructor).
    apply both_inv in S. destruct S as (S & S3). apply both_inv in S. destruct S as (S1 & _). apply as_size_inv in S3. destruct S3 as (-> & R).
    destruct (n' =? 0); [injection E as <- <-; constructor|]. destruct (find (inside a n') h); [|injection E as <- <-; constructor].
    eapply done_effect; [exact E|exact U|intros; apply hstore_no_pending|].
    intros h2 G. eapply hstore_effect; [exact H|exact G|]. intros p b0 m X. cbn [leaves num_of] in X. rewrite (as_ptr_inv _ _ S1) in X.
    unfold zlen. rewrite repeat_length, Z2Nat.id by lia. exact X.
  - unfold u_call in E. destruct (both _ _) as [[a n']|e|p e|u] eqn:S; try (injection E as <- <-; constructor).
    apply both_inv in S. destruct S as (S1 & S3). apply as_size_inv in S3. destruct S3 as (-> & R).
    destruct (n' =? 0); [injection E as <- <-; constructor|]. destruct (8 <? n').
    + eapply done_effect; [exact E|exact U| |].
      * intros h2 e. destruct (hload_cases h (r mod 2 ^ 64) n') as [(w & ->)|(u & ->)]; cbn [obind]; [|discriminate]. destruct (meet _ _ _); [discriminate|apply hstore_no_pending].
      * intros h2 G. destruct (hload h (r mod 2 ^ 64) n') as [w| | |] eqn:Ld; try discriminate. cbn [obind] in G. destruct (meet _ _ _); [discriminate|].
        eapply hstore_effect; [exact H|exact G|]. intros p b m X. cbn [leaves num_of] in X. rewrite (as_ptr_inv _ _ S1) in X. rewrite (hload_len h (r mod 2 ^ 64) n' w ltac:(lia) Ld). exact X.
        destruct (hload_cases h (r mod 2 ^ 64) n') as [(w & Q)|(u0 & Q)]; rewrite Q in Ld; discriminate.
    + eapply done_effect; [exact E|exact U|intros; apply hstore_no_pending|].
      intros h2 G. eapply hstore_effect; [exact H|exact G|]. intros p b0 m X. cbn [leaves num_of] in X. rewrite (as_ptr_inv _ _ S1) in X.
      unfold zlen. rewrite le_bytes_len, Z2Nat.id by lia. exact X.
Qed.

Lemma effect_ok h op h' : heap_ok h -> effect h op h' -> heap_ok h'.
Proof.
  intros H E. destruct E; auto; [|apply drop_ok; exact H]. eapply layout_ok; [apply H1|exact H].
Qed.

(** The block at [p] holding [a, a+n). *)
Definition holds (h : heap) (p a n : Z) : Prop := exists b, In b h /\ b_base b = p /\ p <= a /\ a + n <= p + b_size b.

Lemma effect_keeps h op h' p a n : heap_ok h -> effect h op h' -> leaves p a n op -> holds h p a n ->
  holds h' p a n /\ forall x, a <= x < a + n -> cell h' x = cell h x.
Proof.
  intros H E L (b & I & B & A1 & A2). destruct E as [|c v h' Ac [Ly O] Ap|c Hc|q D|q c Hc D].
  - split; [exists b; auto|auto].
  - split.
    + assert (J : In (b_al b, b_base b, b_size b) (layout h)) by (apply (in_map (fun b => (b_al b, b_base b, b_size b))); exact I).
      rewrite <- Ly in J. apply in_map_iff in J. destruct J as (d & C & J). injection C as C1 C2 C3. exists d. rewrite C3, C2. auto.
    + intros x R. rewrite O. specialize (Ap p a n L). unfold apart_from in Ap. pose proof (zlen_nonneg v).
      destruct (Z.leb_spec c x); destruct (Z.ltb_spec x (c + zlen v)); cbn [andb]; try reflexivity. lia.
  - split; [exists b; split; [right; exact I|auto]|]. intros x R. apply add_ok in Hc. destruct Hc as ((_ & Nn & Q) & _). apply Q.
    intros Rc. specialize (Nn x Rc). exact (proj2 (cell_none h x) Nn b I ltac:(lia)).
  - pose proof (D p a n L) as Dq. assert (I' : In b (drop q h)) by (apply in_drop; split; [exact I|congruence]). split; [exists b; auto|].
    intros x R. rewrite (cell_block h b x H I) by lia. apply cell_block; [apply drop_ok; exact H|exact I'|lia].
  - pose proof (D p a n L) as Dq. assert (I' : In b (drop q h)) by (apply in_drop; split; [exact I|congruence]).
    split; [exists b; split; [right; exact I'|auto]|]. intros x R. rewrite (cell_block h b x H I) by lia. apply cell_block; [exact Hc|right; exact I'|lia].
Qed.

Lemma cells_ext h h' a n : (forall x, a <= x < a + n -> cell h' x = cell h x) -> cells h' a n = cells h a n.
Proof.
  intros E. unfold cells. apply map_ext_in. intros i J. apply in_seq in J. apply E. lia.
Qed.

Lemma run_ok win ops : forall h vs h', heap_ok h -> urun win ops h = Ret (vs, h') -> heap_ok h'.
Proof.
  induction ops as [|op ops IH]; intros h vs h' H E; cbn [urun] in E; [injection E as _ <-; exact H|].
  destruct (ustep win op h) as [v h1] eqn:S.
  assert (U : (forall u, v <> Undef u) /\ exists vs1, urun win ops h1 = Ret (vs1, h')).
  { destruct v; [| | |discriminate]; (split; [discriminate|]); destruct (urun win ops h1) as [[vs1 h2]| |[] |]; try discriminate; cbn in E; injection E as _ <-; eauto. }
  destruct U as (U & vs1 & R). eapply IH; [|exact R]. eapply effect_ok; [exact H|eapply step_effect; eauto].
Qed.

Lemma run_keeps win p a n ops : forall h vs h', heap_ok h -> urun win ops h = Ret (vs, h') -> Forall (leaves p a n) ops -> holds h p a n ->
  holds h' p a n /\ cells h' a n = cells h a n.
Proof.
  induction ops as [|op ops IH]; intros h vs h' H E L Hd; cbn [urun] in E; [injection E as _ <-; auto|].
  destruct (ustep win op h) as [v h1] eqn:S.
  assert (U : (forall u, v <> Undef u) /\ exists vs1, urun win ops h1 = Ret (vs1, h')).
  { destruct v; [| | |discriminate]; (split; [discriminate|]); destruct (urun win ops h1) as [[vs1 h2]| |[] |]; try discriminate; cbn in E; injection E as _ <-; eauto. }
  destruct U as (U & vs1 & R). pose proof (step_effect win op h v h1 H S U) as Ef. inversion L; subst.
  destruct (effect_keeps h op h1 p a n H Ef ltac:(assumption) Hd) as (Hd1 & C1).
  destruct (IH h1 vs1 h' (effect_ok h op h1 H Ef) R ltac:(assumption) Hd1) as (Hd2 & C2). split; [exact Hd2|]. rewrite C2. apply cells_ext. exact C1.
Qed.

(** ** Single calls *)
Lemma as_K_int a : 0 <= a < 2 ^ 64 -> as_K (PInt a) = Ret a.
Proof. intros R. cbn [as_K]. rewrite Z.mod_small by exact R. reflexivity. Qed.
Lemma as_size_int n : 0 <= n < 2 ^ 64 -> as_size (PInt n) = Ret n.
Proof. intros R. cbn [as_size]. rewrite (proj2 (Z.leb_le 0 n)), (proj2 (Z.ltb_lt n (2 ^ 64))) by lia. reflexivity. Qed.
Lemma as_ptr_int a : 0 <= a < 2 ^ 64 -> as_ptr (PInt a) = Ret a.
Proof.
  intros R. cbn [as_ptr]. rewrite (proj2 (Z.leb_le _ a)), (proj2 (Z.ltb_lt a (2 ^ 64))) by lia. cbn [andb]. rewrite Z.mod_small by exact R. reflexivity.
Qed.

Lemma accessible_range h a n : heap_ok h -> accessible h a n -> 0 < n -> 0 < a /\ a + n <= 2 ^ 64.
Proof. intros H (b & I & A & B) N. pose proof (proj2 H) as F. rewrite Forall_forall in F. specialize (F b I). lia. Qed.

Lemma accessible_cell h a n : heap_ok h -> accessible h a n -> forall x, a <= x < a + n -> cell h x <> None.
Proof. intros H (b & I & A & B) x R E. exact (proj2 (cell_none h x) E b I ltac:(lia)). Qed.

Lemma wrap_small n : 0 <= n <= BYTES_MAX -> wrap 64 n = n.
Proof. unfold BYTES_MAX, SSIZE_MAX, wrap. intros R. change (2 ^ (64 - 1)) with (2 ^ 63). rewrite Z.mod_small; lia. Qed.

Lemma get_ok h a n fresh : heap_ok h -> accessible h a n -> 0 <= a < 2 ^ 64 -> 0 <= n <= BYTES_MAX -> (2 <= n -> fresh <> None) ->
  exists bs, u_get (PInt a) (PInt n) fresh h = (Ret (UBytes bs), h) /\ map Some bs = cells h a n.
Proof.
  intros H A R N Fr. unfold u_get. rewrite as_K_int by exact R. rewrite as_K_int by (unfold BYTES_MAX, SSIZE_MAX in N; lia). cbn [obind omap]. cbv zeta. rewrite wrap_small by exact N.
  rewrite (proj2 (Z.ltb_ge n 0)) by lia. destruct (Z.eqb_spec n 0) as [->|N0].
  { exists []. split; reflexivity. }
  destruct (accessible_range h a n H A ltac:(lia)) as (Pa & _). rewrite (proj2 (Z.eqb_neq a 0)) by lia. cbn [negb]. rewrite andb_true_r.
  destruct (hload_ok h a n H A ltac:(lia)) as (bs & E & L & C). exists bs. split; [|exact C].
  destruct (Z.eqb_spec n 1) as [->|N1]; [rewrite E; reflexivity|]. rewrite (proj2 (Z.ltb_ge _ _)) by lia.
  destruct fresh as [m|]; [rewrite E; reflexivity|]. exfalso. apply Fr; [lia|reflexivity].
Qed.

Lemma get_bad h a n m : 0 < a < 2 ^ 64 -> 0 < n <= BYTES_MAX -> ~ accessible h a n -> exists u, fst (u_get (PInt a) (PInt n) (Some m) h) = Undef u.
Proof.
  intros R N A. unfold u_get. rewrite as_K_int by lia. rewrite as_K_int by (unfold BYTES_MAX, SSIZE_MAX in N; lia). cbn [obind omap]. cbv zeta. rewrite wrap_small by lia.
  rewrite (proj2 (Z.ltb_ge n 0)), (proj2 (Z.eqb_neq n 0)), (proj2 (Z.eqb_neq a 0)) by lia. cbn [negb]. rewrite andb_true_r.
  rewrite (proj2 (Z.ltb_ge BYTES_MAX n)) by lia. destruct (hload_bad h a n ltac:(lia) A) as (u & E). exists u.
  destruct (Z.eqb_spec n 1) as [->|]; rewrite E; reflexivity.
Qed.

Lemma get_null h n m : 0 < n <= BYTES_MAX -> u_get (PInt 0) (PInt n) (Some m) h = (Ret (UBytes m), h).
Proof.
  intros N. unfold u_get. rewrite as_K_int by lia. rewrite as_K_int by (unfold BYTES_MAX, SSIZE_MAX in N; lia). cbn [obind omap]. cbv zeta. rewrite wrap_small by lia.
  rewrite (proj2 (Z.ltb_ge n 0)), (proj2 (Z.eqb_neq n 0)) by lia. rewrite Z.eqb_refl. cbn [negb]. rewrite andb_false_r.
  rewrite (proj2 (Z.ltb_ge BYTES_MAX n)) by lia. reflexivity.
Qed.

Lemma set_ok h a v : heap_ok h -> accessible h a (zlen v) -> 0 <= a < 2 ^ 64 ->
  exists h', u_set (PInt a) (Some v) h = (Ret UNone, h') /\ overwritten h h' a v.
Proof.
  intros H A R. destruct (hstore_ok h a v H A) as (h' & E & O). exists h'. split; [|exact O]. unfold u_set. rewrite as_K_int by exact R. rewrite E. reflexivity.
Qed.

Lemma set_bad h a v : 0 <= a < 2 ^ 64 -> v <> [] -> ~ accessible h a (zlen v) -> exists u, fst (u_set (PInt a) (Some v) h) = Undef u.
Proof. intros R N A. destruct (hstore_bad h a v N A) as (u & E). exists u. unfold u_set. rewrite as_K_int by exact R. rewrite E. reflexivity. Qed.

Lemma memset_ok h a v n : heap_ok h -> accessible h a n -> 0 <= a < 2 ^ 64 -> 0 <= n < 2 ^ 64 -> - 2 ^ 63 <= v < 2 ^ 63 ->
  exists h', u_memset (PInt a) (PInt v) (PInt n) h = (Ret UNone, h') /\ overwritten h h' a (repeat (v mod 256) (Z.to_nat n)).
Proof.
  intros H A R N V. unfold u_memset. rewrite as_ptr_int, as_size_int by assumption.
  assert (as_long (PInt v) = Ret v) as ->.
  { cbn [as_long]. unfold in_sbits_b. change (2 ^ (64 - 1)) with (2 ^ 63). rewrite (proj2 (Z.leb_le (- 2 ^ 63) v)), (proj2 (Z.ltb_lt v (2 ^ 63))) by lia. reflexivity. }
  cbn [both]. destruct (Z.eqb_spec n 0) as [->|N0].
  { exists h. split; [reflexivity|]. split; [reflexivity|]. intros x. change (repeat (v mod 256) (Z.to_nat 0)) with (@nil Z). change (zlen (@nil Z)) with 0.
    destruct (Z.leb_spec a x); destruct (Z.ltb_spec x (a + 0)); cbn [andb]; try reflexivity. lia. }
  destruct A as (b & I & A & B). rewrite (find_block h a n b H ltac:(lia) I A B).
  assert (W : wrap 32 v mod 256 = v mod 256).
  { unfold wrap. pose proof (Z.div_mod (v + 2 ^ (32 - 1)) (2 ^ 32) ltac:(lia)) as D. change (2 ^ (32 - 1)) with (8388608 * 256) in *. change (2 ^ 32) with (16777216 * 256) in *.
    set (q := (v + 8388608 * 256) / (16777216 * 256)) in *. set (r := (v + 8388608 * 256) mod (16777216 * 256)) in *.
    replace (r - 8388608 * 256) with (v + (- 16777216 * q) * 256) by lia. apply Z.mod_add. lia. }
  rewrite W. set (w := repeat (v mod 256) (Z.to_nat n)). assert (Lw : zlen w = n) by (unfold zlen, w; rewrite repeat_length; lia).
  destruct (hstore_ok h a w H) as (h' & E & O); [rewrite Lw; exists b; auto|]. exists h'. rewrite E. split; [reflexivity|exact O].
Qed.

Lemma memset_bad h a v n : 0 <= a < 2 ^ 64 -> 0 < n < 2 ^ 64 -> - 2 ^ 63 <= v < 2 ^ 63 -> ~ accessible h a n ->
  exists u, fst (u_memset (PInt a) (PInt v) (PInt n) h) = Undef u.
Proof.
  intros R N V A. unfold u_memset. rewrite as_ptr_int, as_size_int by (assumption || lia).
  assert (as_long (PInt v) = Ret v) as ->.
  { cbn [as_long]. unfold in_sbits_b. change (2 ^ (64 - 1)) with (2 ^ 63). rewrite (proj2 (Z.leb_le (- 2 ^ 63) v)), (proj2 (Z.ltb_lt v (2 ^ 63))) by lia. reflexivity. }
  cbn [both]. rewrite (proj2 (Z.eqb_neq n 0)) by lia. rewrite (find_none h a n A). eexists. reflexivity.
Qed.

Lemma memcpy_ok h s d n : heap_ok h -> accessible h s n -> accessible h d n -> 0 <= s < 2 ^ 64 -> 0 <= d < 2 ^ 64 -> 0 <= n < 2 ^ 64 ->
  s + n <= d \/ d + n <= s ->
  exists v h', u_memcpy (PInt s) (PInt d) (PInt n) h = (Ret UNone, h') /\ map Some v = cells h s n /\ overwritten h h' d v.
Proof.
  intros H A B Rs Rd N D. unfold u_memcpy. rewrite !as_ptr_int, as_size_int by assumption. cbn [both].
  assert (exists v, hload h s n = Ret v /\ zlen v = n /\ map Some v = cells h s n) as (v & E & L & C).
  { destruct (Z.eqb_spec n 0) as [->|N0]; [exists []; split; [reflexivity|split; reflexivity]|exact (hload_ok h s n H A ltac:(lia))]. }
  rewrite E. cbn [obind]. assert (meet s d n = false) as ->.
  { unfold meet. destruct (Z.ltb_spec 0 n); [|reflexivity]. destruct (Z.ltb_spec s (d + n)); [|reflexivity]. destruct (Z.ltb_spec d (s + n)); [lia|reflexivity]. }
  destruct (hstore_ok h d v H) as (h' & E' & O); [rewrite L; exact B|]. rewrite E'. exists v, h'. auto.
Qed.

Lemma memcpy_bad h s d n : heap_ok h -> 0 <= s < 2 ^ 64 -> 0 <= d < 2 ^ 64 -> 0 < n < 2 ^ 64 ->
  ~ accessible h s n \/ ~ accessible h d n \/ (s < d + n /\ d < s + n) ->
  exists u, fst (u_memcpy (PInt s) (PInt d) (PInt n) h) = Undef u.
Proof.
  intros H Rs Rd N D. unfold u_memcpy. rewrite !as_ptr_int, as_size_int by (assumption || lia). cbn [both].
  destruct (hload_cases h s n) as [(v & E)|(u & E)]; rewrite E; cbn [obind]; [|eexists; reflexivity].
  destruct (meet s d n) eqn:M; [eexists; reflexivity|].
  destruct D as [D|[D|D]].
  - destruct (hload_bad h s n ltac:(lia) D) as (u & E'). congruence.
  - pose proof (hload_len h s n v ltac:(lia) E) as L. destruct (hstore_bad h d v) as (u & E').
    + intros ->. unfold zlen in L. cbn [length] in L. lia.
    + rewrite L. exact D.
    + rewrite E'. eexists. reflexivity.
  - exfalso. revert M. unfold meet. rewrite (proj2 (Z.ltb_lt _ _)), (proj2 (Z.ltb_lt _ _)), (proj2 (Z.ltb_lt _ _)) by lia. discriminate.
Qed.

Lemma call_ok h r a n : heap_ok h -> accessible h a n -> 0 <= a < 2 ^ 64 -> 0 <= n <= 8 ->
  exists h', u_call r (PInt a) (PInt n) h = (Ret UNone, h') /\ overwritten h h' a (le_bytes (Z.to_nat n) r).
Proof.
  intros H A R N. unfold u_call. rewrite as_ptr_int, as_size_int by lia. cbn [both]. destruct (Z.eqb_spec n 0) as [->|N0].
  { exists h. split; [reflexivity|]. split; [reflexivity|]. intros x. change (le_bytes (Z.to_nat 0) r) with (@nil Z). change (zlen (@nil Z)) with 0.
    destruct (Z.leb_spec a x); destruct (Z.ltb_spec x (a + 0)); cbn [andb]; try reflexivity. lia. }
  rewrite (proj2 (Z.ltb_ge 8 n)) by lia. destruct (hstore_ok h a (le_bytes (Z.to_nat n) r) H) as (h' & E & O).
  { unfold zlen. rewrite le_bytes_len, Z2Nat.id by lia. exact A. }
  rewrite E. exists h'. auto.
Qed.

Lemma call_large h r a n : heap_ok h -> accessible h r n -> accessible h a n -> 0 <= r < 2 ^ 64 -> 0 <= a < 2 ^ 64 -> 8 < n < 2 ^ 64 ->
  r + n <= a \/ a + n <= r ->
  exists v h', u_call r (PInt a) (PInt n) h = (Ret UNone, h') /\ map Some v = cells h r n /\ overwritten h h' a v.
Proof.
  intros H A B Rs Rd N D. destruct (memcpy_ok h r a n H A B Rs Rd ltac:(lia) D) as (v & h' & E & C & O). exists v, h'. split; [|auto].
  rewrite <- E. unfold u_call, u_memcpy. rewrite !as_ptr_int, as_size_int by lia. cbn [both]. rewrite (proj2 (Z.eqb_neq n 0)), (proj2 (Z.ltb_lt 8 n)) by lia.
  rewrite (Z.mod_small r) by exact Rs. reflexivity.
Qed.

Lemma call_large_bad h r a n : 0 <= r < 2 ^ 64 -> 0 <= a < 2 ^ 64 -> 8 < n < 2 ^ 64 -> ~ accessible h r n ->
  exists u, fst (u_call r (PInt a) (PInt n) h) = Undef u.
Proof.
  intros Rs Rd N D. unfold u_call. rewrite !as_ptr_int, as_size_int by lia. cbn [both]. rewrite (proj2 (Z.eqb_neq n 0)), (proj2 (Z.ltb_lt 8 n)) by lia.
  rewrite (Z.mod_small r) by exact Rs. destruct (hload_bad h r n ltac:(lia) D) as (u & ->). eexists. reflexivity.
Qed.

Lemma malloc_ok h n a init : heap_ok h -> 0 <= n < 2 ^ 64 -> usable h n a init ->
  exists h', u_malloc (PInt n) (Some (a, init)) h = (Ret (UAddr a), h') /\ heap_ok h' /\ added h h' false a n /\ cells h' a n = map Some init.
Proof.
  intros H N U. unfold u_malloc. rewrite as_size_int by exact N. rewrite (proj2 (grant_iff h n _ a init) (conj eq_refl U)). cbn [give].
  eexists. split; [reflexivity|]. assert (L : zlen init = n) by apply U.
  assert (K : heap_ok ({| b_al := false; b_base := a; b_data := init |} :: h)) by (eapply usable_ok; eauto).
  split; [exact K|]. pose proof (add_ok _ _ K) as P. unfold b_size in P. cbn [b_al b_base b_data] in P. rewrite L in P. exact P.
Qed.

Lemma malloc_fails h n o : 0 <= n < 2 ^ 64 -> (forall a init, o = Some (a, init) -> ~ usable h n a init) -> u_malloc (PInt n) o h = (Raise MemoryError, h).
Proof. intros N F. unfold u_malloc. rewrite as_size_int by exact N. rewrite grant_none by exact F. reflexivity. Qed.

Lemma calloc_ok h x y a init : heap_ok h -> 0 <= x < 2 ^ 64 -> 0 <= y < 2 ^ 64 -> x * y < 2 ^ 64 -> usable h (x * y) a init ->
  exists h', u_calloc (PInt x) (PInt y) (Some (a, init)) h = (Ret (UAddr a), h') /\ heap_ok h' /\ added h h' false a (x * y) /\
    cells h' a (x * y) = repeat (Some 0) (Z.to_nat (x * y)).
Proof.
  intros H X Y N U. unfold u_calloc. rewrite !as_K_int by assumption. cbn [obind omap]. rewrite (proj2 (Z.leb_gt _ _)) by lia.
  rewrite (proj2 (grant_iff h (x * y) _ a init) (conj eq_refl U)). cbn [option_map fst snd give].
  eexists. split; [reflexivity|]. assert (L : zlen (repeat 0 (length init)) = x * y) by (unfold zlen; rewrite repeat_length; apply U).
  assert (K : heap_ok ({| b_al := false; b_base := a; b_data := repeat 0 (length init) |} :: h)) by (eapply usable_ok; eauto).
  split; [exact K|]. pose proof (add_ok _ _ K) as P. unfold b_size in P. cbn [b_al b_base b_data] in P. rewrite L in P. split; [apply P|].
  rewrite (proj2 P). replace (Z.to_nat (x * y)) with (length init) by (unfold zlen in L; rewrite repeat_length in L; lia).
  clear. induction (length init) as [|k IH]; [reflexivity|]. cbn [repeat map]. f_equal. exact IH.
Qed.

Lemma calloc_overflow h x y o : 0 <= x < 2 ^ 64 -> 0 <= y < 2 ^ 64 -> 2 ^ 64 <= x * y -> u_calloc (PInt x) (PInt y) o h = (Raise MemoryError, h).
Proof.
  intros X Y N. unfold u_calloc. rewrite !as_K_int by assumption. cbn [obind omap]. rewrite (proj2 (Z.leb_le _ _)) by lia. reflexivity.
Qed.

Lemma aligned_ok h n al a init : heap_ok h -> 0 <= n < 2 ^ 64 -> 0 <= al < 2 ^ 64 -> usable h n a init -> (a mod al = 0) ->
  exists h', u_aligned_malloc (PInt n) (PInt al) (Some (a, init)) h = (Ret (UAddr a), h') /\ heap_ok h' /\ added h h' true a n /\ cells h' a n = map Some init.
Proof.
  intros H N A U M. unfold u_aligned_malloc. rewrite !as_K_int by assumption. cbn [obind omap]. rewrite (proj2 (grant_iff h n _ a init) (conj eq_refl U)).
  rewrite M. rewrite Z.eqb_refl. cbn [negb]. rewrite andb_false_r. cbn [give].
  eexists. split; [reflexivity|]. assert (L : zlen init = n) by apply U.
  assert (K : heap_ok ({| b_al := true; b_base := a; b_data := init |} :: h)) by (eapply usable_ok; eauto).
  split; [exact K|]. pose proof (add_ok _ _ K) as P. unfold b_size in P. cbn [b_al b_base b_data] in P. rewrite L in P. exact P.
Qed.

(** Whatever the allocator does, an address returned for a power of two is a
    multiple of it. *)
Lemma aligned_multiple h n k o a h' : 0 <= k < 64 -> u_aligned_malloc (PInt n) (PInt (2 ^ k)) o h = (Ret (UAddr a), h') -> a mod 2 ^ k = 0.
Proof.
  intros K E. unfold u_aligned_malloc in E. destruct (obind (as_K (PInt n)) _) as [[m al]|e|p e|u] eqn:S; try discriminate.
  apply pair_inv in S. destruct S as (_ & S). rewrite as_K_int in S.
  2: { pose proof (Z.pow_lt_mono_r 2 k 64 ltac:(lia) ltac:(lia) ltac:(lia)). pose proof (Z.pow_pos_nonneg 2 k ltac:(lia) ltac:(lia)). lia. }
  injection S as <-. assert (P : pow2 (2 ^ k) = true).
  { unfold pow2. rewrite (proj2 (Z.ltb_lt _ _)) by (apply Z.pow_pos_nonneg; lia). cbn [andb]. apply Z.eqb_eq.
    replace (2 ^ k - 1) with (Z.ones k) by (rewrite Z.ones_equiv; lia). rewrite Z.land_ones by lia. apply Z.mod_same. pose proof (Z.pow_pos_nonneg 2 k ltac:(lia) ltac:(lia)). lia. }
  rewrite P in E. cbn [andb] in E. destruct (grant h m o) as [[a' i]|]; [|discriminate]. destruct (Z.eqb_spec (a' mod 2 ^ k) 0) as [M|M]; cbn [negb] in E; [|discriminate].
  cbn [give] in E. injection E as <- _. exact M.
Qed.

Lemma free_ok win fn h b : heap_ok h -> In b h -> (win = true -> b_al b = fn) ->
  exists h', u_free win fn (PInt (b_base b)) h = (Ret UNone, h') /\ heap_ok h' /\ removed h h' (b_base b) (b_size b).
Proof.
  intros H I W. pose proof (proj2 H) as F. rewrite Forall_forall in F. specialize (F b I). exists (drop (b_base b) h).
  split; [|split; [apply drop_ok; exact H|apply drop_removed; assumption]].
  unfold u_free. rewrite as_size_int by lia. rewrite (proj2 (Z.eqb_neq _ 0)) by lia. rewrite (find_at h b H I).
  assert (takes win fn b = true) as ->; [|reflexivity]. unfold takes. destruct win; [|reflexivity]. rewrite (W eq_refl). apply eqb_reflx.
Qed.

Lemma free_bad win fn h a : 0 < a < 2 ^ 64 -> ~ In a (map b_base h) -> u_free win fn (PInt a) h = (Undef BadFree, h).
Proof. intros R N. unfold u_free. rewrite as_size_int by lia. rewrite (proj2 (Z.eqb_neq a 0)) by lia. rewrite (find_at_none h a N). reflexivity. Qed.

Lemma free_wrong h b fn : heap_ok h -> In b h -> b_al b <> fn -> u_free true fn (PInt (b_base b)) h = (Undef BadFree, h).
Proof.
  intros H I W. pose proof (proj2 H) as F. rewrite Forall_forall in F. specialize (F b I).
  unfold u_free. rewrite as_size_int by lia. rewrite (proj2 (Z.eqb_neq _ 0)) by lia. rewrite (find_at h b H I).
  assert (takes true fn b = false) as ->; [|reflexivity]. unfold takes. destruct fn, (b_al b); try reflexivity; congruence.
Qed.

Lemma removed_gone h h' p n x : heap_ok h' -> removed h h' p n -> p <= x < p + n -> forall m, 0 < m -> ~ accessible h' x m.
Proof.
  intros H (_ & R) X m M A. apply (accessible_cell h' x m H A x ltac:(lia)). rewrite R.
  rewrite (proj2 (Z.leb_le _ _)), (proj2 (Z.ltb_lt _ _)) by lia. reflexivity.
Qed.

Lemma realloc_ok win h b n a init : heap_ok h -> In b h -> (win = true -> b_al b = false) -> 0 < n < 2 ^ 64 -> usable (drop (b_base b) h) n a init ->
  exists h1 h', removed h h1 (b_base b) (b_size b) /\ u_realloc win (PInt (b_base b)) (PInt n) (Some (a, init)) h = (Ret (UAddr a), h') /\
    heap_ok h' /\ added h1 h' (b_al b) a n /\
    forall i, 0 <= i < n -> cell h' (a + i) = if i <? b_size b then cell h (b_base b + i) else nth_error init (Z.to_nat i).
Proof.
  intros H I W N U. pose proof (proj2 H) as F. rewrite Forall_forall in F. specialize (F b I). exists (drop (b_base b) h).
  set (d := firstn (Z.to_nat n) (b_data b) ++ skipn (length (b_data b)) init).
  assert (L : zlen d = n). { destruct U as (_ & _ & U & _). unfold d, zlen in *. rewrite app_length, firstn_length, skipn_length. lia. }
  exists ({| b_al := b_al b; b_base := a; b_data := d |} :: drop (b_base b) h). split; [apply drop_removed; assumption|].
  assert (K : heap_ok ({| b_al := b_al b; b_base := a; b_data := d |} :: drop (b_base b) h)) by (eapply usable_ok; eauto; apply drop_ok; exact H).
  split; [|split; [exact K|split]].
  - unfold u_realloc. rewrite !as_K_int by lia. cbn [obind omap]. rewrite (proj2 (Z.eqb_neq _ 0)) by lia. rewrite (find_at h b H I).
    assert (takes win false b = true) as -> by (unfold takes; destruct win; [rewrite (W eq_refl); reflexivity|reflexivity]).
    cbn [negb]. rewrite (proj2 (Z.eqb_neq n 0)) by lia. rewrite (proj2 (grant_iff _ n _ a init) (conj eq_refl U)). reflexivity.
  - pose proof (add_ok _ _ K) as P. unfold b_size in P. cbn [b_al b_base b_data] in P. rewrite L in P. apply P.
  - intros i R. rewrite (cell_block _ {| b_al := b_al b; b_base := a; b_data := d |} _ K);
      [|left; reflexivity|unfold b_size; cbn [b_base b_data]; rewrite L; lia].
    cbn [b_base b_data]. replace (a + i - a) with i by lia. unfold d. rewrite nth_error_app, nth_error_firstn, nth_error_skipn, firstn_length.
    destruct (Z.ltb_spec i (b_size b)) as [J|J].
    + rewrite (cell_block h b _ H I) by lia. replace (b_base b + i - b_base b) with i by lia. unfold b_size, zlen in J.
      rewrite (proj2 (Nat.ltb_lt _ _)), (proj2 (Nat.ltb_lt _ _)) by lia. reflexivity.
    + unfold b_size, zlen in J. rewrite (proj2 (Nat.ltb_ge _ _)) by lia. f_equal. lia.
Qed.

Lemma realloc_fails win h b n o : heap_ok h -> In b h -> (win = true -> b_al b = false) -> 0 < n < 2 ^ 64 ->
  (forall a init, o = Some (a, init) -> ~ usable (drop (b_base b) h) n a init) ->
  u_realloc win (PInt (b_base b)) (PInt n) o h = (Raise MemoryError, h).
Proof.
  intros H I W N U. pose proof (proj2 H) as F. rewrite Forall_forall in F. specialize (F b I).
  unfold u_realloc. rewrite !as_K_int by lia. cbn [obind omap]. rewrite (proj2 (Z.eqb_neq _ 0)) by lia. rewrite (find_at h b H I).
  assert (takes win false b = true) as -> by (unfold takes; destruct win; [rewrite (W eq_refl); reflexivity|reflexivity]).
  cbn [negb]. rewrite (proj2 (Z.eqb_neq n 0)) by lia. rewrite grant_none by exact U. reflexivity.
Qed.

Lemma realloc_zero win h b o : heap_ok h -> In b h -> (win = true -> b_al b = false) ->
  exists h', u_realloc win (PInt (b_base b)) (PInt 0) o h = (Raise MemoryError, h') /\ removed h h' (b_base b) (b_size b) /\
    u_free win false (PInt (b_base b)) h' = (Undef BadFree, h').
Proof.
  intros H I W. pose proof (proj2 H) as F. rewrite Forall_forall in F. specialize (F b I). exists (drop (b_base b) h). split; [|split].
  - unfold u_realloc. rewrite !as_K_int by lia. cbn [obind omap]. rewrite (proj2 (Z.eqb_neq _ 0)) by lia. rewrite (find_at h b H I).
    assert (takes win false b = true) as -> by (unfold takes; destruct win; [rewrite (W eq_refl); reflexivity|reflexivity]). reflexivity.
  - apply drop_removed; assumption.
  - apply free_bad; [lia|]. intros X. apply in_map_iff in X. destruct X as (c & E & J). apply in_drop in J. tauto.
Qed.

Lemma realloc_bad win h a n o : 0 < a < 2 ^ 64 -> 0 <= n < 2 ^ 64 -> ~ In a (map b_base h) -> u_realloc win (PInt a) (PInt n) o h = (Undef BadFree, h).
Proof.
  intros R N A. unfold u_realloc. rewrite !as_K_int by lia. cbn [obind omap]. rewrite (proj2 (Z.eqb_neq a 0)) by lia. rewrite (find_at_none h a A). reflexivity.
Qed.

Lemma nth_error_map_some (l : list Z) i : nth_error (map Some l) i = match nth_error l i with Some x => Some (Some x) | None => None end.
Proof. revert i. induction l as [|x l IH]; intros [|i]; cbn [map nth_error]; auto. Qed.
Lemma map_some_inj (l m : list Z) : map Some l = map Some m -> l = m.
Proof. revert m. induction l as [|x l IH]; intros [|y m]; cbn [map]; intros E; try discriminate; [reflexivity|]. injection E as -> E. f_equal. apply IH. exact E. Qed.

Lemma overwritten_cells h h' a v : overwritten h h' a v -> cells h' a (zlen v) = map Some v.
Proof.
  intros (_ & C). apply nth_error_ext. intros i. rewrite nth_error_map_some. unfold cells, zlen. rewrite Nat2Z.id, nth_error_map.
  destruct (Nat.ltb_spec i (length v)) as [J|J].
  - rewrite (nth_error_nth' (seq 0 (length v)) 0%nat) by (rewrite seq_length; exact J). rewrite seq_nth by exact J. cbn [option_map Nat.add]. rewrite C. unfold zlen.
    rewrite (proj2 (Z.leb_le _ _)), (proj2 (Z.ltb_lt _ _)) by lia. cbn [andb]. replace (Z.to_nat (a + Z.of_nat i - a)) with i by lia.
    destruct (nth_error v i) eqn:E; [reflexivity|]. apply nth_error_None in E. lia.
  - rewrite (proj2 (nth_error_None (seq 0 (length v)) i)) by (rewrite seq_length; lia). rewrite (proj2 (nth_error_None v i)) by lia. reflexivity.
Qed.

Lemma holds_layout h h' p a n : layout h' = layout h -> holds h p a n -> holds h' p a n.
Proof.
  intros E (b & I & P & A & B). assert (J : In (b_al b, b_base b, b_size b) (layout h)) by (apply (in_map (fun b => (b_al b, b_base b, b_size b))); exact I).
  rewrite <- E in J. apply in_map_iff in J. destruct J as (c & Ec & J). injection Ec as _ Eb Es. exists c. rewrite Eb, Es. auto.
Qed.
Lemma holds_accessible h p a n : holds h p a n -> accessible h a n.
Proof. intros (b & I & P & A & B). exists b. split; [exact I|]. lia. Qed.

Lemma persists win b a v ops h h1 vs h' : heap_ok h -> In b h -> b_base b <= a -> a + zlen v <= b_base b + b_size b -> 0 <= a < 2 ^ 64 ->
  zlen v <= BYTES_MAX ->
  u_set (PInt a) (Some v) h = (Ret UNone, h1) -> Forall (leaves (b_base b) a (zlen v)) ops -> urun win ops h1 = Ret (vs, h') ->
  forall fresh, fresh <> None -> u_get (PInt a) (PInt (zlen v)) fresh h' = (Ret (UBytes v), h').
Proof.
  intros H I A B R M E L U fresh Fr. destruct (set_ok h a v H ltac:(exists b; auto) R) as (h1' & E1 & O). rewrite E in E1. injection E1 as <-.
  assert (H1 : heap_ok h1) by (eapply layout_ok; [exact (proj1 O)|exact H]).
  assert (P1 : holds h1 (b_base b) a (zlen v)) by (eapply holds_layout; [exact (proj1 O)|exists b; auto]).
  destruct (run_keeps win _ _ _ ops h1 vs h' H1 U L P1) as (P' & C).
  pose proof (run_ok win ops h1 vs h' H1 U) as H'.
  destruct (get_ok h' a (zlen v) fresh H' ltac:(eapply holds_accessible; exact P') R ltac:(unfold zlen in *; lia) (fun _ => Fr)) as (bs & G & Cb).
  rewrite G. f_equal. f_equal. f_equal. apply map_some_inj. rewrite Cb, C. apply (overwritten_cells h). exact O.
Qed.

(** ** Arguments that cannot be read *)
Definition agrees {A} (r : option exn) (o : outcome A) : Prop :=
  match r with Some e => o = Raise e | None => exists x, o = Ret x end.
Lemma as_K_agrees o : agrees (refusal AnyInt o) (as_K o).
Proof. destruct o; cbn [refusal agrees as_K]; eauto. Qed.
Lemma as_size_agrees o : agrees (refusal Size o) (as_size o).
Proof.
  destruct o as [z|i]; cbn [refusal agrees as_size]; eauto.
  destruct (Z.ltb_spec z 0), (Z.leb_spec 0 z), (Z.leb_spec (2 ^ 64) z), (Z.ltb_spec z (2 ^ 64)); try lia; cbn [orb andb agrees]; eauto.
Qed.
Lemma as_ptr_agrees o : agrees (refusal Pointer o) (as_ptr o).
Proof.
  destruct o as [z|i]; cbn [refusal agrees as_ptr]; eauto.
  destruct (Z.ltb_spec z (- 2 ^ 63)), (Z.leb_spec (- 2 ^ 63) z), (Z.leb_spec (2 ^ 64) z), (Z.ltb_spec z (2 ^ 64)); try lia; cbn [orb andb agrees]; eauto.
Qed.
Lemma as_long_agrees o : agrees (refusal Long o) (as_long o).
Proof.
  destruct o as [z|i]; cbn [refusal agrees as_long]; eauto.
  unfold in_sbits_b. change (2 ^ (64 - 1)) with (2 ^ 63).
  destruct (Z.ltb_spec z (- 2 ^ 63)), (Z.leb_spec (- 2 ^ 63) z), (Z.leb_spec (2 ^ 63) z), (Z.ltb_spec z (2 ^ 63)); try lia; cbn [orb andb agrees]; eauto.
Qed.
Lemma both_raise {A B} (a : outcome A) e : both a (Raise e : outcome B) = Raise e.
Proof. destruct a; reflexivity. Qed.
Lemma arguments win op h :
  (forall e, argument_error op = Some e -> ustep win op h = (Raise e, h)) /\
  (argument_error op = None -> forall e h', ustep win op h = (Raise e, h') -> other_error op e).
Proof.
  assert (GI : forall al o e h', give al o h = (Raise e, h') -> e = MemoryError) by (intros al [[a i]|] e h'; cbn; congruence).
  assert (DO : forall o e h', (forall x, o <> Raise x) -> done o h <> (Raise e, h')) by (intros [hh|x|hh x|u] e h' X; cbn; [congruence| |congruence|congruence]; intros _; eapply X; reflexivity).
  assert (LO : forall a n x, hload h a n <> Raise x).
  { intros a n x. unfold hload. destruct (n =? 0); [discriminate|]. destruct (a =? 0); [discriminate|]. destruct (find _ h); discriminate. }
  assert (ST : forall a v x, hstore h a v <> Raise x).
  { intros a v x. unfold hstore. destruct (zlen v =? 0); [discriminate|]. destruct (a =? 0); [discriminate|]. destruct (find _ h); discriminate. }
  assert (CP : forall s d n x, obind (hload h s n) (fun v => if meet s d n then Undef Overlap else hstore h d v) <> Raise x).
  { intros s d n x. unfold hload. destruct (n =? 0); [cbn; destruct (meet s d n); [discriminate | apply ST]|]. destruct (s =? 0); [discriminate|].
    destruct (find _ h); [|discriminate]. cbn [obind]. destruct (meet s d n); [discriminate | apply ST]. }
  destruct op; cbn [argument_error ustep other_error].
  all: unfold u_malloc, u_calloc, u_realloc, u_free, u_aligned_malloc, u_get, u_set, u_memcpy, u_memset, u_call, last_of; cbn [rev app first_of fold_right].
  all: repeat match goal with
  | |- context [refusal AnyInt ?o] => pose proof (as_K_agrees o); destruct (refusal AnyInt o)
  | |- context [refusal Size ?o] => pose proof (as_size_agrees o); destruct (refusal Size o)
  | |- context [refusal Pointer ?o] => pose proof (as_ptr_agrees o); destruct (refusal Pointer o)
  | |- context [refusal Long ?o] => pose proof (as_long_agrees o); destruct (refusal Long o)
  end; cbn [agrees] in *;
  repeat match goal with
  | H : exists x, _ = Ret x |- _ => destruct H as (? & ->)
  | H : _ = Raise _ |- _ => rewrite H; clear H
  end; cbn [obind omap both]; (split; [intros err; try (intros [= <-]); try discriminate; try reflexivity | try discriminate]); intros; eauto.
  all: rewrite ?both_raise; cbn [both]; try reflexivity.
  - destruct (2 ^ 64 <=? x0 * x); [congruence | eauto].
  - destruct (x0 =? 0); [eauto|]. destruct (find _ h); [|congruence]. destruct (negb _); [congruence|]. destruct (x =? 0); [congruence|].
    destruct (grant _ _ _) as [[]|]; congruence.
  - destruct (x =? 0); [congruence|]. destruct (find _ h) as [b|]; [|congruence]. destruct (takes _ _ _); congruence.
  - destruct (x =? 0); [congruence|]. destruct (find _ h) as [b|]; [|congruence]. destruct (takes _ _ _); congruence.
  - destruct (_ <? 0); [intuition congruence|]. destruct (_ =? 0); [congruence|]. destruct (_ && _); [revert H0; destruct (hload _ _ _) eqn:HL; cbn [omap]; try discriminate; exfalso; exact (LO _ _ _ HL)|].
    destruct (_ <? _); [intuition congruence|]. destruct fresh; [|intuition congruence]. destruct (_ =? 0); [congruence|].
    revert H0; destruct (hload _ _ _) eqn:HL; cbn [omap]; try discriminate; exfalso; exact (LO _ _ _ HL).
  - destruct data; congruence.
  - destruct data; [|discriminate]. eapply DO; [|eassumption]. auto.
  - eapply DO; [|eassumption]. auto.
  - destruct (_ =? 0); [congruence|]. destruct (find _ h); [|congruence]. eapply DO; [|eassumption]. auto.
  - destruct (_ =? 0); [congruence|]. destruct (_ <? _); (eapply DO; [|eassumption]); auto.
Qed.
