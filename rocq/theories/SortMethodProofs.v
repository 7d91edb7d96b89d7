(** Facts about the sort methods of SortMethodModel.v. *)
From Coq Require Import ZArith List Bool Lia Arith Sorting.Sorted Sorting.Permutation.
From Verif Require Import Base PyLongModel PyLongProofs PyListSpec ListLemmas ArrayListModel ArrayListSpec CPythonSortModel
  SortSpec SortMachineProofs SortMainProofs SortMethodModel.
Import ListNotations.
Local Open Scope Z_scope.
Local Arguments Z.pow : simpl never.
Local Arguments Z.of_nat : simpl never.
Local Arguments Z.add : simpl never.
Local Arguments Z.sub : simpl never.
Local Arguments Z.mul : simpl never.

(** What the round trip element -> Python int -> element gives, in plain
    arithmetic: the value stored, and whether it fails. *)
Definition stored (cfg : config) (k : kind) (v : Z) : Z :=
  match k with
  | KBig => v
  | KInt => if py312 cfg then (if (v <? 0) && negb (v =? - 2 ^ 31) then -1 else v)
            else Z.sgn v * (Z.abs v mod 2 ^ 30)
  end.
Definition fails (cfg : config) (k : kind) (v : Z) : bool :=
  match k with
  | KBig => false
  | KInt => py312 cfg && (v <? 0) && negb (v =? - 2 ^ 31)
  end.

Definition elem_bits (k : kind) : Z := match k with KInt => 32 | KBig => 64 end.

Lemma round_trip cfg k v : in_sbits (elem_bits k) v ->
  to_elem cfg k (from_elem cfg k v) =
  if fails cfg k v then RetPending (-1) OverflowError else Ret (stored cfg k v).
Proof.
  destruct k; unfold to_elem, from_elem, fails, stored, elem_bits.
  - destruct (py312 cfg); cbv [andb]; intros H.
    + unfold PyFast_AsInt. rewrite from_int_312_value by exact H.
      unfold in_sbits in H.
      destruct (Z.ltb_spec v 0); [|cbv [andb]].
      * destruct (Z.eqb_spec v (- 2 ^ 31)) as [->|N]; cbv [andb negb].
        -- reflexivity.
        -- assert (X : in_sbits_b 32 (- (2 ^ 32 + v)) = false).
           { apply in_sbits_b_false. unfold in_sbits. change (2 ^ 32) with 4294967296.
             change (2 ^ (32 - 1)) with 2147483648 in *. change (2 ^ 31) with 2147483648 in *. lia. }
           rewrite X. reflexivity.
      * assert (X : in_sbits_b 32 v = true). { apply in_sbits_b_spec. exact H. }
        rewrite X. reflexivity.
    + rewrite from_int_old. apply as_int_old.
  - intros H. rewrite mk_pylong_val. assert (X : in_sbits_b 64 v = true) by (apply in_sbits_b_spec; exact H).
    rewrite X. reflexivity.
Qed.

Lemma fails_stored cfg k v : fails cfg k v = true -> stored cfg k v = -1.
Proof.
  destruct k; simpl; [|discriminate]. destruct (py312 cfg); simpl; [|discriminate]. intros ->. reflexivity.
Qed.

Lemma write_back_spec cfg k vs : forall err, Forall (in_sbits (elem_bits k)) vs ->
  write_back cfg k (map (from_elem cfg k) vs) err =
  (map (stored cfg k) vs, if existsb (fails cfg k) vs then Some OverflowError else err).
Proof.
  induction vs as [|v vs IH]; intros err H; [reflexivity|].
  inversion H as [|? ? Hv Hvs]; subst. cbn [map write_back existsb].
  rewrite (round_trip cfg k v Hv). destruct (fails cfg k v) eqn:F.
  - rewrite IH by exact Hvs. cbn [orb]. rewrite (fails_stored _ _ _ F). destruct (existsb _ vs); reflexivity.
  - rewrite IH by exact Hvs. reflexivity.
Qed.

(** The values for which the round trip is the identity and does not fail. *)
Definition exact (cfg : config) (k : kind) (v : Z) : Prop :=
  match k with
  | KBig => True
  | KInt => if py312 cfg then 0 <= v \/ v = - 2 ^ 31 else Z.abs v < 2 ^ 30
  end.

Lemma exact_spec cfg k v : in_sbits (elem_bits k) v ->
  (exact cfg k v <-> to_elem cfg k (from_elem cfg k v) = Ret v).
Proof.
  intros H. rewrite (round_trip cfg k v H). destruct k; unfold exact, fails, stored; [|tauto].
  destruct (py312 cfg); cbv [andb].
  - destruct (Z.ltb_spec v 0), (Z.eqb_spec v (- 2 ^ 31)); cbv [andb negb]; split; intros; try reflexivity; try lia; try discriminate.
  - rewrite <- as_int_old_iff, as_int_old. reflexivity.
Qed.

Lemma exact_stored cfg k v : in_sbits (elem_bits k) v -> exact cfg k v -> stored cfg k v = v /\ fails cfg k v = false.
Proof.
  intros H E. apply (exact_spec cfg k v H) in E. rewrite round_trip in E by exact H.
  destruct (fails cfg k v); [discriminate|]. injection E as E. auto.
Qed.

(** The number that the key function sees. *)
Lemma exact_seen cfg k v : in_sbits (elem_bits k) v -> exact cfg k v -> pl_val (from_elem cfg k v) = v.
Proof.
  destruct k; unfold exact, from_elem, elem_bits; intros H E; [|apply mk_pylong_val].
  destruct (py312 cfg); [|rewrite from_int_old; apply mk_pylong_val].
  rewrite from_int_312_value by exact H. destruct (Z.ltb_spec v 0); [|reflexivity].
  destruct E as [E|E]; [lia|subst v; reflexivity].
Qed.

Lemma perm_map_inv {X Y} (f : X -> Y) : forall l l', Permutation l' (map f l) -> exists m, l' = map f m /\ Permutation m l.
Proof.
  intros l l' H. apply Permutation_sym in H. destruct (Permutation_map_inv f l (Permutation_sym H)) as (m & -> & P).
  exists m. split; [reflexivity|apply Permutation_sym; exact P].
Qed.

Lemma forall_perm {X} (P : X -> Prop) l l' : Permutation l' l -> Forall P l -> Forall P l'.
Proof. intros H F. rewrite Forall_forall in *. intros x Hx. apply F. eapply Permutation_in; eassumption. Qed.

Lemma existsb_perm {X} (f : X -> bool) l l' : Permutation l' l -> existsb f l' = existsb f l.
Proof.
  intros H. apply eq_true_iff_eq. rewrite !existsb_exists. split; intros (x & I & F); exists x; split; auto.
  - eapply Permutation_in; eassumption.
  - eapply Permutation_in; [apply Permutation_sym|]; eassumption.
Qed.

Lemma zlen_map {X Y} (f : X -> Y) l : zlen (map f l) = zlen l.
Proof. unfold zlen. rewrite map_length. reflexivity. Qed.

Section Any.
Context {K : Type} (cfg : config) (k : kind) (keyf : nat -> pylong -> option K)
  (cmp : nat -> K -> K -> option bool) (grab : Z -> bool) (e : exn) (r : Z).

(** The error left behind: that of the last failing conversion, else that of
    the sort. *)
Definition left_over (s : list Z) (ok : bool) : option exn :=
  if existsb (fails cfg k) s then Some OverflowError else if ok then None else Some e.

(** Whatever the callbacks do: some permutation of the round-tripped elements is
    written back. *)
Lemma sort_key_any t (s : list Z) :
  8 * zlen s <= SSIZE_MAX -> Forall (in_sbits (elem_bits k)) s ->
  exists m ok, Permutation m s /\
    (ok = true <-> exists ps, CPython_sort_key keyf cmp grab (map (from_elem cfg k) s) (key_reverse r) = SortOk ps) /\
    sort_key cfg k keyf cmp true grab e t r s =
    match t with
    | Kept now => (return_none (left_over s ok), firstn (length now) (map (stored cfg k) m) ++ skipn (length s) now)
    | Moved => if (length s =? 0)%nat then (return_none (left_over s ok), s) else (Undef UseAfterFree, s)
    end.
Proof.
  intros L F. destruct (key_sort_safe keyf cmp grab (map (from_elem cfg k) s) (key_reverse r)) as (l' & P & E).
  { rewrite zlen_map. exact L. }
  destruct (perm_map_inv _ _ _ P) as (m & -> & Pm).
  exists m. exists (match CPython_sort_key keyf cmp grab (map (from_elem cfg k) s) (key_reverse r) with SortOk _ => true | _ => false end).
  split; [exact Pm|]. split.
  { destruct E as [-> | ->]; split; intros X; eauto; try discriminate. destruct X as (? & ?); discriminate. }
  assert (Fm := forall_perm _ _ _ Pm F).
  unfold sort_key, left_over. cbv [negb].
  destruct E as [-> | ->]; cbv zeta; rewrite (write_back_spec cfg k m _ Fm), (existsb_perm _ _ _ Pm), map_length, (Permutation_length Pm);
    destruct t; reflexivity.
Qed.

Lemma sort_key_nomem t s : sort_key cfg k keyf cmp false grab e t r s = (Raise MemoryError, s).
Proof. reflexivity. Qed.
End Any.

Lemma firstn_skipn_same {X Y} (l : list X) (s : list Y) (now : list X) :
  length l = length s -> length now = length s -> firstn (length now) l ++ skipn (length s) now = l.
Proof.
  intros H1 H2. rewrite H2, <- H1, firstn_all, H1, <- H2, skipn_all, app_nil_r. reflexivity.
Qed.

(** ** The order of keys seen through a number *)

Lemma sorted_ext_in {X} (R R' : X -> X -> Prop) l :
  (forall x y, In x l -> In y l -> R x y -> R' x y) -> StronglySorted R l -> StronglySorted R' l.
Proof.
  induction l; intros H S; [constructor|]. inversion S as [|? ? S1 S2]; subst. constructor.
  - apply IHl; auto. intros. apply H; simpl; auto.
  - rewrite Forall_forall in *. intros x Hx. apply H; simpl; auto.
Qed.

Lemma filter_map_comm {X Y} (f : X -> Y) p l : filter p (map f l) = map f (filter (fun x => p (f x)) l).
Proof. induction l; simpl; auto. rewrite IHl. destruct (p (f a)); reflexivity. Qed.

Section Exact.
Context {K : Type} (cfg : config) (k : kind) (keyf : nat -> pylong -> option K) (key : Z -> K)
  (cmp : nat -> K -> K -> option bool) (lt : K -> K -> bool) (grab : Z -> bool) (r : Z).

Lemma exact_sort (s : list Z) :
  8 * zlen s <= SSIZE_MAX -> Forall (in_sbits (elem_bits k)) s -> Forall (exact cfg k) s ->
  (forall i p, keyf i p = Some (key (pl_val p))) -> sane cmp grab lt ->
  exists m, CPython_sort_key keyf cmp grab (map (from_elem cfg k) s) (key_reverse r) = SortOk (map (from_elem cfg k) m) /\
    Permutation m s /\
    (if key_reverse r then descending (fun x y => lt (key x) (key y)) m else ascending (fun x y => lt (key x) (key y)) m) /\
    stable (fun x y => lt (key x) (key y)) m s.
Proof.
  intros L F X Hk HS.
  destruct (key_sort_correct keyf (fun p => key (pl_val p)) cmp lt grab (map (from_elem cfg k) s) (key_reverse r)) as (l' & E & P & O & St); auto.
  { rewrite zlen_map. exact L. }
  destruct (perm_map_inv _ _ _ P) as (m & -> & Pm).
  assert (Seen : forall v, In v m -> pl_val (from_elem cfg k v) = v).
  { intros v Hv. apply (Permutation_in v Pm) in Hv. rewrite Forall_forall in F, X. apply exact_seen; auto. }
  assert (Seen' : forall v, In v s -> pl_val (from_elem cfg k v) = v).
  { intros v Hv. rewrite Forall_forall in F, X. apply exact_seen; auto. }
  exists m. split; [exact E|]. split; [exact Pm|]. split.
  - destruct (key_reverse r); unfold ascending, descending in *; apply sorted_map in O; revert O; apply sorted_ext_in;
      intros x y Hx Hy; rewrite !Seen; auto.
  - intros v. specialize (St (mk_pylong v)). rewrite !filter_map_comm in St.
    apply (f_equal (map pl_val)) in St. rewrite !map_map in St.
    assert (G : forall l, (forall w, In w l -> pl_val (from_elem cfg k w) = w) ->
      map (fun x => pl_val (from_elem cfg k x))
        (filter (fun x => equiv (fun x y => lt (key (pl_val x)) (key (pl_val y))) (mk_pylong v) (from_elem cfg k x)) l)
      = filter (equiv (fun x y => lt (key x) (key y)) v) l).
    { induction l as [|w l IH]; intros Hl; [reflexivity|]. cbn [filter].
      assert (Ew : equiv (fun x y => lt (key (pl_val x)) (key (pl_val y))) (mk_pylong v) (from_elem cfg k w)
                 = equiv (fun x y => lt (key x) (key y)) v w).
      { unfold equiv. rewrite mk_pylong_val, (Hl w) by (left; reflexivity). reflexivity. }
      assert (IH' := IH (fun u Hu => Hl u (or_intror Hu))).
      rewrite Ew. destruct (equiv _ v w); cbn [map]; rewrite IH'; [|reflexivity].
      rewrite (Hl w) by (left; reflexivity). reflexivity. }
    rewrite (G m Seen), (G s Seen') in St. exact St.
Qed.
End Exact.

(** ** The method on integer array lists *)
Section Methods.
Context {K : Type} (cfg : config) (keyf : nat -> pylong -> option K)
  (cmp : nat -> K -> K -> option bool) (grab : Z -> bool) (e : exn) (r : Z).

Lemma stored_map_id k s : Forall (in_sbits (elem_bits k)) s -> Forall (exact cfg k) s ->
  map (stored cfg k) s = s /\ existsb (fails cfg k) s = false.
Proof.
  induction s as [|v s IH]; intros F X; [split; reflexivity|].
  inversion F; inversion X; subst. destruct IH as (IH1 & IH2); auto.
  destruct (exact_stored cfg k v) as (S1 & S2); auto. cbn [map existsb]. rewrite S1, S2, IH1, IH2. split; reflexivity.
Qed.

Lemma sort_key_exact k (key : Z -> K) lt s :
  8 * zlen s <= SSIZE_MAX -> Forall (in_sbits (elem_bits k)) s -> Forall (exact cfg k) s ->
  (forall i p, keyf i p = Some (key (pl_val p))) -> sane cmp grab lt ->
  exists m, sort_key cfg k keyf cmp true grab e (Kept s) r s = (Ret VNone, m) /\
    Permutation m s /\
    (if key_reverse r then descending (fun x y => lt (key x) (key y)) m else ascending (fun x y => lt (key x) (key y)) m) /\
    stable (fun x y => lt (key x) (key y)) m s.
Proof.
  intros L F X Hk HS. destruct (exact_sort cfg k keyf key cmp lt grab r s L F X Hk HS) as (m & E & P & O & St).
  exists m. split; [|auto]. unfold sort_key. cbv [negb]. rewrite E. cbv zeta.
  rewrite (write_back_spec cfg k m None (forall_perm _ _ _ P F)).
  destruct (stored_map_id k m (forall_perm _ _ _ P F) (forall_perm _ _ _ P X)) as (-> & ->). cbn [return_none].
  rewrite (Permutation_length P).
  rewrite (firstn_skipn_same m s s); auto. apply Permutation_length; auto.
Qed.

(** Callbacks that leave the list alone. *)
Lemma sort_key_left_alone k s :
  8 * zlen s <= SSIZE_MAX -> Forall (in_sbits (elem_bits k)) s ->
  exists m ok, Permutation m (map (stored cfg k) s) /\
    (ok = true <-> exists ps, CPython_sort_key keyf cmp grab (map (from_elem cfg k) s) (key_reverse r) = SortOk ps) /\
    sort_key cfg k keyf cmp true grab e (Kept s) r s = (return_none (left_over cfg k e s ok), m).
Proof.
  intros L F. destruct (sort_key_any cfg k keyf cmp grab e r (Kept s) s L F) as (m & ok & P & Hok & E).
  exists (map (stored cfg k) m), ok. split; [apply Permutation_map; exact P|]. split; [exact Hok|]. rewrite E.
  rewrite (firstn_skipn_same (map (stored cfg k) m) s s); auto. rewrite map_length. apply Permutation_length; auto.
Qed.

(** ** IntLinkedList *)
Lemma linked_sort_key_any now s :
  8 * zlen s <= SSIZE_MAX -> Forall (in_sbits 32) s ->
  exists m ok, Permutation m s /\
    (ok = true <-> exists ps, CPython_sort_key keyf cmp grab (map (from_elem cfg KInt) s) (key_reverse r) = SortOk ps) /\
    linked_sort_key cfg keyf cmp true grab e now r s =
    if (length now <? length s)%nat then (Undef IterBeforeBegin, s)
    else (return_none (left_over cfg KInt e s ok), map (stored cfg KInt) m ++ skipn (length s) now).
Proof.
  intros L F. destruct (key_sort_safe keyf cmp grab (map (from_elem cfg KInt) s) (key_reverse r)) as (l' & P & E).
  { rewrite zlen_map. exact L. }
  destruct (perm_map_inv _ _ _ P) as (m & -> & Pm).
  exists m. exists (match CPython_sort_key keyf cmp grab (map (from_elem cfg KInt) s) (key_reverse r) with SortOk _ => true | _ => false end).
  split; [exact Pm|]. split.
  { destruct E as [-> | ->]; split; intros X; eauto; try discriminate. destruct X as (? & ?); discriminate. }
  assert (Fm := forall_perm _ _ _ Pm F).
  unfold linked_sort_key, left_over. cbv [negb].
  destruct E as [-> | ->]; cbv zeta; rewrite (write_back_spec cfg KInt m _ Fm), (existsb_perm _ _ _ Pm), map_length, (Permutation_length Pm);
    reflexivity.
Qed.

Lemma linked_sort_key_exact (key : Z -> K) lt s :
  8 * zlen s <= SSIZE_MAX -> Forall (in_sbits 32) s -> Forall (exact cfg KInt) s ->
  (forall i p, keyf i p = Some (key (pl_val p))) -> sane cmp grab lt ->
  exists m, linked_sort_key cfg keyf cmp true grab e s r s = (Ret VNone, m) /\
    Permutation m s /\
    (if key_reverse r then descending (fun x y => lt (key x) (key y)) m else ascending (fun x y => lt (key x) (key y)) m) /\
    stable (fun x y => lt (key x) (key y)) m s.
Proof.
  intros L F X Hk HS. destruct (exact_sort cfg KInt keyf key cmp lt grab r s L F X Hk HS) as (m & E & P & O & St).
  exists m. split; [|auto]. unfold linked_sort_key. cbv [negb]. rewrite E. cbv zeta.
  rewrite (write_back_spec cfg KInt m None (forall_perm _ _ _ P F)).
  destruct (stored_map_id KInt m (forall_perm _ _ _ P F) (forall_perm _ _ _ P X)) as (-> & ->). cbn [return_none].
  rewrite (Permutation_length P), Nat.ltb_irrefl, skipn_all, app_nil_r. reflexivity.
Qed.
End Methods.

(** ** When are the old values kept? *)
Fixpoint weight (l : list Z) : Z := match l with [] => 0 | v :: r => Z.abs v + weight r end.
Lemma weight_perm l l' : Permutation l l' -> weight l = weight l'.
Proof. induction 1; simpl; lia. Qed.

Lemma stored_old_abs v : Z.abs (Z.sgn v * (Z.abs v mod 2 ^ 30)) <= Z.abs v /\
  (Z.abs (Z.sgn v * (Z.abs v mod 2 ^ 30)) = Z.abs v <-> Z.abs v < 2 ^ 30).
Proof.
  assert (B := Z.mod_pos_bound (Z.abs v) (2 ^ 30) eq_refl).
  assert (M := Z.mod_le (Z.abs v) (2 ^ 30) (Z.abs_nonneg v) eq_refl).
  rewrite Z.abs_mul. rewrite (Z.abs_eq (Z.abs v mod 2 ^ 30)) by lia.
  destruct (Z.eq_dec v 0) as [->|N].
  - split; [simpl; lia|]. split; intros; [reflexivity|reflexivity].
  - assert (Z.abs (Z.sgn v) = 1) as -> by lia. split; [lia|]. split; intros H; [|rewrite Z.mod_small; lia].
    lia.
Qed.

Lemma kept_old cfg s : py312 cfg = false ->
  (Permutation (map (stored cfg KInt) s) s <-> Forall (exact cfg KInt) s).
Proof.
  intros E. unfold stored, exact. rewrite E. split.
  - intros P. apply weight_perm in P.
    assert (G : forall l, weight (map (fun v => Z.sgn v * (Z.abs v mod 2 ^ 30)) l) <= weight l).
    { induction l as [|v l IH]; cbn [map weight]; [lia|]. destruct (stored_old_abs v) as (? & _). lia. }
    induction s as [|v s IH]; [constructor|]. cbn [map weight] in P.
    destruct (stored_old_abs v) as (A & B). specialize (G s). constructor.
    + apply B. lia.
    + apply IH. lia.
  - intros F. rewrite (map_ext_in _ id).
    + rewrite map_id. reflexivity.
    + rewrite Forall_forall in F. intros v Hv. unfold id. rewrite Z.mod_small by (specialize (F v Hv); lia).
      rewrite <- Z.abs_sgn. lia.
Qed.

(** ** Object lists *)
Section Objects.
Context {K : Type} (keyf : option (nat -> Z -> option K)) (cmpo : nat -> Z -> Z -> option bool)
  (cmpk : nat -> K -> K -> option bool) (grab : Z -> bool) (e : exn) (r : Z).

Lemma sort_objects_safe s : 8 * zlen s <= SSIZE_MAX ->
  exists l, Permutation l s /\
    (sort_objects keyf cmpo cmpk grab r s = SortOk l \/ sort_objects keyf cmpo cmpk grab r s = SortErr l).
Proof. intros H. destruct keyf; simpl; [apply key_sort_safe|apply plain_sort_safe]; exact H. Qed.

Lemma object_sort_any s : 8 * zlen s <= SSIZE_MAX ->
  exists l, Permutation l s /\
    object_sort keyf cmpo cmpk grab e false r s =
    (match sort_objects keyf cmpo cmpk grab r s with SortOk _ => Ret VNone | _ => Raise e end, l).
Proof.
  intros H. destruct (sort_objects_safe s H) as (l & P & [E|E]); exists l; unfold object_sort; rewrite E; auto.
Qed.

Lemma object_linked_sort_any now s : 8 * zlen s <= SSIZE_MAX ->
  exists l, Permutation l s /\
    object_linked_sort keyf cmpo cmpk true grab e now r s =
    if (length now <? length s)%nat then (Undef IterBeforeBegin, s)
    else (match sort_objects keyf cmpo cmpk grab r s with SortOk _ => Ret VNone | _ => RetPending VNone e end,
          l ++ skipn (length s) now).
Proof.
  intros H. destruct (sort_objects_safe s H) as (l & P & [E|E]); exists l; (split; [exact P|]);
    unfold object_linked_sort; rewrite E; cbv [negb]; cbv zeta; rewrite (Permutation_length P); reflexivity.
Qed.

Lemma object_linked_sort_left_alone s : 8 * zlen s <= SSIZE_MAX ->
  exists l, Permutation l s /\
    object_linked_sort keyf cmpo cmpk true grab e s r s =
    (match sort_objects keyf cmpo cmpk grab r s with SortOk _ => Ret VNone | _ => RetPending VNone e end, l).
Proof.
  intros H. destruct (object_linked_sort_any s s H) as (l & P & E). exists l. split; [exact P|].
  rewrite E, Nat.ltb_irrefl, skipn_all, app_nil_r. reflexivity.
Qed.
End Objects.

Section ObjectsOrder.
Context {K : Type} (cmpo : nat -> Z -> Z -> option bool) (cmpk : nat -> K -> K -> option bool) (grab : Z -> bool) (e : exn) (r : Z).

Lemma sort_objects_plain lt s : 8 * zlen s <= SSIZE_MAX -> sane cmpo grab lt ->
  exists l, sort_objects None cmpo cmpk grab r s = SortOk l /\ Permutation l s /\
    (if key_reverse r then descending lt l else ascending lt l) /\ stable lt l s.
Proof. intros H HS. apply plain_sort_correct; assumption. Qed.

Lemma sort_objects_key keyf (key : Z -> K) lt s : 8 * zlen s <= SSIZE_MAX ->
  (forall i v, keyf i v = Some (key v)) -> sane cmpk grab lt ->
  exists l, sort_objects (Some keyf) cmpo cmpk grab r s = SortOk l /\ Permutation l s /\
    (if key_reverse r then descending (fun x y => lt (key x) (key y)) l else ascending (fun x y => lt (key x) (key y)) l) /\
    stable (fun x y => lt (key x) (key y)) l s.
Proof. intros H Hk HS. apply key_sort_correct; assumption. Qed.

Lemma object_methods keyf s l : Permutation l s -> sort_objects keyf cmpo cmpk grab r s = SortOk l ->
  object_sort keyf cmpo cmpk grab e false r s = (Ret VNone, l) /\
  object_linked_sort keyf cmpo cmpk true grab e s r s = (Ret VNone, l).
Proof.
  intros P E. unfold object_sort, object_linked_sort. rewrite E. split; [reflexivity|].
  cbv [negb]. cbv zeta. rewrite (Permutation_length P), Nat.ltb_irrefl, skipn_all, app_nil_r. reflexivity.
Qed.
End ObjectsOrder.

(** ** A failing key function makes the sort fail *)
Lemma compute_keys_fails {V K} (keyf : nat -> V -> option K) l : forall n i v,
  nth_error l i = Some v -> keyf (n + i)%nat v = None -> compute_keys keyf n l = None.
Proof.
  induction l as [|x l IH]; intros n i v N H; [destruct i; discriminate|].
  cbn [compute_keys]. destruct i; simpl in N.
  - injection N as ->. rewrite Nat.add_0_r in H. rewrite H. reflexivity.
  - destruct (keyf n x); [|reflexivity]. rewrite (IH (S n) i v N); [reflexivity|].
    rewrite Nat.add_succ_l, <- Nat.add_succ_r. exact H.
Qed.
Lemma key_failure {V K} (keyf : nat -> V -> option K) cmp grab l reverse i v :
  nth_error l i = Some v -> keyf i v = None -> CPython_sort_key keyf cmp grab l reverse = SortErr l.
Proof.
  intros N H. unfold CPython_sort_key. destruct (_ && _); [reflexivity|].
  rewrite (compute_keys_fails keyf l 0 i v N H). reflexivity.
Qed.
