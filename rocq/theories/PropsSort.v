(** Property theorems C21-C23, C47, C48: sorting through CPython_sort.
    [sane cmp grab lt]: [lt] is a strict weak order, every comparison answers
    [lt] and never raises, and allocations succeed.  [8 * zlen l <= SSIZE_MAX]
    says that the array of pointers fits the address space. *)
From Coq Require Import ZArith List Bool Lia Arith Sorting.Sorted Sorting.Permutation.
From Verif Require Import Base PyLongModel PyLongProofs PyListSpec ListLemmas ArrayListModel ArrayListSpec CPythonSortModel
  SortSliceModel SortSliceProofs SortSpec SortMachineProofs SortMainProofs SortMethodModel SortMethodProofs PropsArrayList.
Import ListNotations.
Local Open Scope Z_scope.

(** * C21 *)
(** CPython_sort without a key function. *)
Theorem C21_plain_sort : forall (V : Type) (cmp : nat -> V -> V -> option bool) lt grab l (reverse : bool),
  8 * zlen l <= SSIZE_MAX -> sane cmp grab lt ->
  exists l', CPython_sort_plain cmp grab l reverse = SortOk l' /\ Permutation l' l /\
    (if reverse then descending lt l' else ascending lt l') /\ stable lt l' l.
Proof. exact @plain_sort_correct. Qed.
Print Assumptions C21_plain_sort.

(** ... and with one. *)
Theorem C21_key_sort : forall (V K : Type) (keyf : nat -> V -> option K) (key : V -> K) cmp lt grab l (reverse : bool),
  8 * zlen l <= SSIZE_MAX -> (forall i v, keyf i v = Some (key v)) -> sane cmp grab lt ->
  exists l', CPython_sort_key keyf cmp grab l reverse = SortOk l' /\ Permutation l' l /\
    (if reverse then descending (fun x y => lt (key x) (key y)) l'
     else ascending (fun x y => lt (key x) (key y)) l') /\
    stable (fun x y => lt (key x) (key y)) l' l.
Proof. exact @key_sort_correct. Qed.
Print Assumptions C21_key_sort.

(** The sort method of the integer array lists with a key function of the
    number it is given, on the elements whose conversion is exact. *)
Theorem C21_array_list : forall (K : Type) cfg (keyf : nat -> pylong -> option K) cmp grab e r k (key : Z -> K) lt s,
  8 * zlen s <= SSIZE_MAX -> Forall (in_sbits (elem_bits k)) s -> Forall (exact cfg k) s ->
  (forall i p, keyf i p = Some (key (pl_val p))) -> sane cmp grab lt ->
  exists m, sort_key cfg k keyf cmp true grab e (Kept s) r s = (Ret VNone, m) /\
    Permutation m s /\
    (if negb (r =? 0) then descending (fun x y => lt (key x) (key y)) m
     else ascending (fun x y => lt (key x) (key y)) m) /\
    stable (fun x y => lt (key x) (key y)) m s.
Proof. exact @sort_key_exact. Qed.
Print Assumptions C21_array_list.

Theorem C21_int_linked_list : forall (K : Type) cfg (keyf : nat -> pylong -> option K) cmp grab e r (key : Z -> K) lt s,
  8 * zlen s <= SSIZE_MAX -> Forall (in_sbits 32) s -> Forall (exact cfg KInt) s ->
  (forall i p, keyf i p = Some (key (pl_val p))) -> sane cmp grab lt ->
  exists m, linked_sort_key cfg keyf cmp true grab e s r s = (Ret VNone, m) /\
    Permutation m s /\
    (if negb (r =? 0) then descending (fun x y => lt (key x) (key y)) m
     else ascending (fun x y => lt (key x) (key y)) m) /\
    stable (fun x y => lt (key x) (key y)) m s.
Proof. exact @linked_sort_key_exact. Qed.
Print Assumptions C21_int_linked_list.

(** [exact] is exactly where the conversions there and back are the identity. *)
Theorem C21_exact_domain : forall cfg k v, in_sbits (elem_bits k) v ->
  (exact cfg k v <-> to_elem cfg k (from_elem cfg k v) = Ret v).
Proof. exact exact_spec. Qed.
Print Assumptions C21_exact_domain.

(** The object lists, without and with a key function. *)
Theorem C21_object_lists : forall (K : Type) (cmpo : nat -> Z -> Z -> option bool) (cmpk : nat -> K -> K -> option bool) grab e r lt s,
  8 * zlen s <= SSIZE_MAX -> sane cmpo grab lt ->
  exists l, object_sort None cmpo cmpk grab e false r s = (Ret VNone, l) /\
    object_linked_sort None cmpo cmpk true grab e s r s = (Ret VNone, l) /\
    Permutation l s /\ (if negb (r =? 0) then descending lt l else ascending lt l) /\ stable lt l s.
Proof.
  exact (fun K cmpo cmpk grab e r lt s H HS =>
    match sort_objects_plain cmpo cmpk grab r lt s H HS with
    | ex_intro _ l (conj E (conj P Q)) =>
        ex_intro _ l (match object_methods cmpo cmpk grab e r None s l P E with conj A B => conj A (conj B (conj P Q)) end)
    end).
Qed.
Print Assumptions C21_object_lists.

Theorem C21_object_lists_key : forall (K : Type) (cmpo : nat -> Z -> Z -> option bool) (cmpk : nat -> K -> K -> option bool) grab e r
    keyf (key : Z -> K) lt s,
  8 * zlen s <= SSIZE_MAX -> (forall i v, keyf i v = Some (key v)) -> sane cmpk grab lt ->
  exists l, object_sort (Some keyf) cmpo cmpk grab e false r s = (Ret VNone, l) /\
    object_linked_sort (Some keyf) cmpo cmpk true grab e s r s = (Ret VNone, l) /\
    Permutation l s /\
    (if negb (r =? 0) then descending (fun x y => lt (key x) (key y)) l
     else ascending (fun x y => lt (key x) (key y)) l) /\
    stable (fun x y => lt (key x) (key y)) l s.
Proof.
  exact (fun K cmpo cmpk grab e r keyf key lt s H Hk HS =>
    match sort_objects_key cmpo cmpk grab r keyf key lt s H Hk HS with
    | ex_intro _ l (conj E (conj P Q)) =>
        ex_intro _ l (match object_methods cmpo cmpk grab e r (Some keyf) s l P E with conj A B => conj A (conj B (conj P Q)) end)
    end).
Qed.
Print Assumptions C21_object_lists_key.

(** The key and value arrays stay in step: each helper that moves slots acts on
    the two arrays as the slot operation acts on the array of pairs. *)
Theorem C21_slices_in_step : forall (K V : Type) (s1 s2 : slice K V) l1 l2 i j n,
  slots s1 l1 -> slots s2 l2 ->
  same_slots (sortslice_memmove s1 i s2 j n) (copy_range l1 i l2 j n) /\
  same_slots (sortslice_copy s1 i s2 j) (copy_one l1 i l2 j) /\
  same_slots (sortslice_reverse s1 i n) (reverse_one (Z.to_nat n) l1 i (i + n - 1)) /\
  same_slots (sortslice_insert s1 i j) (insert_one l1 i j).
Proof.
  exact (fun K V s1 s2 l1 l2 i j n H1 H2 => conj (memmove_slots s1 s2 l1 l2 i j n H1 H2) (conj (copy_slots s1 s2 l1 l2 i j H1 H2)
    (conj (reverse_slots s1 l1 i n H1) (insert_slots s1 l1 i j H1)))).
Qed.
Print Assumptions C21_slices_in_step.

(** ... and the slot operations are the steps of the sort on its array; in the
    insertion of binarysort, for any bound on the slide that is enough. *)
Theorem C21_slot_steps : forall (A : Type) i j n fuel lo ok l (s : @st A), ok - l <= Z.of_nat fuel ->
  let done (o : option (list A)) := match o with Some l => Done tt (with_arr l s) | None => Bad (Ub OutOfBounds) end in
  move_in_arr i j n s = done (copy_range (arr s) i (arr s) j n) /\
  copy_from_tmp i j n s = done (copy_range (arr s) i (tmp s) j n) /\
  copy_arr_arr i j s = done (copy_one (arr s) i (arr s) j) /\
  copy_arr_tmp i j s = done (copy_one (arr s) i (tmp s) j) /\
  reverse_slice lo n s = done (reverse_one (Z.to_nat n) (arr s) lo (lo + n - 1)) /\
  bind (get_arr (lo + ok)) (fun pivot => bind (slide fuel lo ok l) (fun _ => set_arr (lo + l) pivot)) s = done (insert_one (arr s) (lo + ok) (lo + l)).
Proof.
  exact (fun A i j n fuel lo ok l s H => conj (move_step i j n s) (conj (from_tmp_step i j n s) (conj (copy_step i j s) (conj (copy_tmp_step i j s)
    (conj (reverse_step lo n s) (insert_step fuel lo ok l s H)))))).
Qed.
Print Assumptions C21_slot_steps.

Definition by_tens : nat -> pylong -> option Z := fun _ p => Some (pl_val p / 10).
Definition ltb_oracle : nat -> Z -> Z -> option bool := fun _ x y => Some (x <? y).
Lemma ltb_sane : sane ltb_oracle (fun _ => true) Z.ltb.
Proof. split; [split|split]; auto; intros; rewrite ?Z.ltb_ge, ?Z.ltb_lt in *; lia. Qed.
Example C21_ex :
  sort_key ex_cfg KInt by_tens ltb_oracle true (fun _ => true) (UserError 0) (Kept [35; 12; 31; 17; 5; 38]) 1 [35; 12; 31; 17; 5; 38]
  = (Ret VNone, [35; 31; 38; 12; 17; 5]) /\
  sort_key ex_cfg312 KInt by_tens ltb_oracle true (fun _ => true) (UserError 0) (Kept [35; 12; 31; 17; 5; 38]) 0 [35; 12; 31; 17; 5; 38]
  = (Ret VNone, [5; 12; 17; 35; 31; 38]).
Proof. split; vm_compute; reflexivity. Qed.
(** A list long enough for several runs, merging and galloping. *)
Example C21_ex_long :
  let l := map Z.of_nat (seq 100 80) ++ map Z.of_nat (seq 0 90) ++ rev (map Z.of_nat (seq 60 70)) in
  match CPython_sort_key (fun _ v => Some (v / 2)) ltb_oracle (fun _ => true) l false with
  | SortOk l' => (nth 0 l' 99 =? 0) && (nth 239 l' 0 =? 179) && (length l' =? 240)%nat
  | _ => false
  end = true.
Proof. vm_compute. reflexivity. Qed.

(** * C22 *)
Theorem C22_plain_any_oracle : forall (V : Type) (cmp : nat -> V -> V -> option bool) grab l (reverse : bool),
  8 * zlen l <= SSIZE_MAX ->
  exists l', Permutation l' l /\
    (CPython_sort_plain cmp grab l reverse = SortOk l' \/ CPython_sort_plain cmp grab l reverse = SortErr l').
Proof. exact @plain_sort_safe. Qed.
Print Assumptions C22_plain_any_oracle.

Theorem C22_key_any_oracle : forall (V K : Type) (keyf : nat -> V -> option K) cmp grab l (reverse : bool),
  8 * zlen l <= SSIZE_MAX ->
  exists l', Permutation l' l /\
    (CPython_sort_key keyf cmp grab l reverse = SortOk l' \/ CPython_sort_key keyf cmp grab l reverse = SortErr l').
Proof. exact @key_sort_safe. Qed.
Print Assumptions C22_key_any_oracle.
(** From 128 elements on the keys need memory of their own: without it nothing
    happens. *)
Theorem C22_key_array_refused : forall (V K : Type) (keyf : nat -> V -> option K) cmp grab l (reverse : bool),
  128 <= zlen l -> grab (zlen l) = false -> CPython_sort_key keyf cmp grab l reverse = SortErr l.
Proof. exact @key_sort_refused. Qed.
Print Assumptions C22_key_array_refused.
Example C22_key_array_refused_ex : let l := map Z.of_nat (seq 0 128) in
  CPython_sort_key (fun _ v => Some (- v)) ltb_oracle (fun _ => false) l false = SortErr l /\
  match CPython_sort_key (fun _ v => Some (- v)) ltb_oracle (fun _ => false) (tl l) false with SortOk (x :: _) => x | _ => 0 end = 127.
Proof. vm_compute. auto. Qed.

(** A comparison that answers by the parity of the call, on a list long enough
    to merge; and one that raises at the 150th call. *)
Definition liar : nat -> Z -> Z -> option bool := fun t _ _ => Some (Nat.even (t / 3)).
Definition quitter : nat -> Z -> Z -> option bool := fun t x y => if (150 <=? t)%nat then None else Some (x mod 7 <? y mod 7).
Example C22_ex :
  let l := map Z.of_nat (seq 0 100) in
  match CPython_sort_plain liar (fun _ => true) l true, CPython_sort_plain quitter (fun _ => true) l false with
  | SortOk a, SortErr b => (length a =? 100)%nat && (length b =? 100)%nat && negb (hd 0 a =? 0)
  | _, _ => false
  end = true.
Proof. vm_compute. reflexivity. Qed.

(** * C23 *)
(** Integer array lists: the method returns None; the error of the failing
    callback (or of the conversion of a stored element) stays pending.  The
    contents are a permutation of the round-tripped contents. *)
Theorem C23_array_list : forall (K : Type) cfg (keyf : nat -> pylong -> option K) cmp grab e r k s ps,
  8 * zlen s <= SSIZE_MAX -> Forall (in_sbits (elem_bits k)) s ->
  CPython_sort_key keyf cmp grab (map (from_elem cfg k) s) (negb (r =? 0)) = SortErr ps ->
  exists m, Permutation m (map (stored cfg k) s) /\
    sort_key cfg k keyf cmp true grab e (Kept s) r s =
    (RetPending VNone (if existsb (fails cfg k) s then OverflowError else e), m).
Proof.
  intros K cfg keyf cmp grab e r k s ps L F E.
  destruct (sort_key_left_alone cfg keyf cmp grab e r k s L F) as (m & ok & P & Hok & ->). exists m. split; [exact P|].
  destruct ok; [destruct (proj1 Hok eq_refl) as (? & X); unfold key_reverse in X; congruence|].
  unfold left_over. destruct (existsb _ s); reflexivity.
Qed.
Print Assumptions C23_array_list.

Theorem C23_int_linked_list : forall (K : Type) cfg (keyf : nat -> pylong -> option K) cmp grab e r s ps,
  8 * zlen s <= SSIZE_MAX -> Forall (in_sbits 32) s ->
  CPython_sort_key keyf cmp grab (map (from_elem cfg KInt) s) (negb (r =? 0)) = SortErr ps ->
  exists m, Permutation m (map (stored cfg KInt) s) /\
    linked_sort_key cfg keyf cmp true grab e s r s =
    (RetPending VNone (if existsb (fails cfg KInt) s then OverflowError else e), m).
Proof.
  intros K cfg keyf cmp grab e r s ps L F E.
  destruct (linked_sort_key_any cfg keyf cmp grab e r s s L F) as (m & ok & P & Hok & ->).
  exists (map (stored cfg KInt) m). split; [apply Permutation_map; exact P|].
  rewrite Nat.ltb_irrefl, skipn_all, app_nil_r.
  destruct ok; [destruct (proj1 Hok eq_refl) as (? & X); unfold key_reverse in X; congruence|].
  unfold left_over. destruct (existsb _ s); reflexivity.
Qed.
Print Assumptions C23_int_linked_list.

(** ObjectLinkedList: the same; ObjectArrayList raises the error itself. *)
Theorem C23_object_lists : forall (K : Type) keyf cmpo (cmpk : nat -> K -> K -> option bool) grab e r s,
  8 * zlen s <= SSIZE_MAX -> (forall l, sort_objects keyf cmpo cmpk grab r s <> SortOk l) ->
  (exists l, Permutation l s /\ object_linked_sort keyf cmpo cmpk true grab e s r s = (RetPending VNone e, l)) /\
  (exists l, Permutation l s /\ object_sort keyf cmpo cmpk grab e false r s = (Raise e, l)).
Proof.
  intros K keyf cmpo cmpk grab e r s L N.
  destruct (object_linked_sort_left_alone keyf cmpo cmpk grab e r s L) as (l & P & E).
  destruct (object_sort_any keyf cmpo cmpk grab e r s L) as (l2 & P2 & E2).
  split; [exists l|exists l2]; (split; [assumption|]); [rewrite E|rewrite E2];
    (destruct (sort_objects keyf cmpo cmpk grab r s) eqn:X; [exfalso; eapply N; reflexivity|reflexivity|reflexivity]).
Qed.
Print Assumptions C23_object_lists.

(** A key function that raises on any element makes the sort fail, before
    anything is moved. *)
Theorem C23_key_failure : forall (V K : Type) (keyf : nat -> V -> option K) cmp grab l (reverse : bool) i v,
  nth_error l i = Some v -> keyf i v = None -> CPython_sort_key keyf cmp grab l reverse = SortErr l.
Proof. exact @key_failure. Qed.
Print Assumptions C23_key_failure.

(** The allocation of the temporary array is the one failure that is raised. *)
Theorem C23_no_memory : forall (K : Type) cfg k (keyf : nat -> pylong -> option K) cmp grab e r t s,
  sort_key cfg k keyf cmp false grab e t r s = (Raise MemoryError, s).
Proof. exact @sort_key_nomem. Qed.
Print Assumptions C23_no_memory.

(** So it is false that a failing key function is reported as its own error. *)
Theorem C23_error_reported_refuted : exists cfg k (keyf : nat -> pylong -> option Z) cmp grab e s,
  (forall i p, keyf i p = None) /\ s <> [] /\
  (forall m, sort_key cfg k keyf cmp true grab e (Kept s) 0 s <> (Raise e, m)).
Proof.
  exists ex_cfg, KInt, (fun _ _ => None), ltb_oracle, (fun _ => true), (UserError 7), [1; 2].
  split; [auto|]. split; [discriminate|]. vm_compute. discriminate.
Qed.
Print Assumptions C23_error_reported_refuted.
Definition raise_on_3 : nat -> pylong -> option Z := fun _ p => if pl_val p =? 3 then None else Some (pl_val p).
Example C23_ex :
  sort_key ex_cfg KBig raise_on_3 ltb_oracle true (fun _ => true) (UserError 7) (Kept [4; 3; 1]) 0 [4; 3; 1]
  = (RetPending VNone (UserError 7), [4; 3; 1]) /\
  object_sort (Some (fun _ v => if v =? 3 then None else Some v)) ltb_oracle ltb_oracle (fun _ => true) (UserError 7) false 0 [4; 3; 1]
  = (Raise (UserError 7), [4; 3; 1]).
Proof. split; vm_compute; reflexivity. Qed.

(** * C47 *)
(** What key sorting leaves behind, whatever the callbacks answer: the old
    elements, each replaced by its round trip through a Python int. *)
Theorem C47_contents : forall (K : Type) cfg (keyf : nat -> pylong -> option K) cmp grab e r k s,
  8 * zlen s <= SSIZE_MAX -> Forall (in_sbits (elem_bits k)) s ->
  exists m o, Permutation m (map (stored cfg k) s) /\ sort_key cfg k keyf cmp true grab e (Kept s) r s = (o, m) /\
    (o = Ret VNone \/ exists x, o = RetPending VNone x).
Proof.
  intros K cfg keyf cmp grab e r k s L F.
  destruct (sort_key_left_alone cfg keyf cmp grab e r k s L F) as (m & ok & P & Hok & ->). exists m. eexists. split; [exact P|].
  split; [reflexivity|]. destruct (left_over cfg k e s ok); [right; eexists|left]; reflexivity.
Qed.
Print Assumptions C47_contents.

(** Before 3.12: the contents survive exactly when every element is below 2^30
    in absolute value. *)
Theorem C47_old_iff : forall (K : Type) cfg (keyf : nat -> pylong -> option K) cmp grab e r s,
  py312 cfg = false -> 8 * zlen s <= SSIZE_MAX -> Forall (in_sbits 32) s ->
  (Permutation (snd (sort_key cfg KInt keyf cmp true grab e (Kept s) r s)) s <-> Forall (fun v => Z.abs v < 2 ^ 30) s).
Proof.
  intros K cfg keyf cmp grab e r s V L F.
  destruct (sort_key_left_alone cfg keyf cmp grab e r KInt s L F) as (m & ok & P & Hok & ->). cbn [snd].
  pose proof (kept_old cfg s V) as X. unfold exact in X. rewrite V in X. rewrite <- X.
  split; intros Q; [rewrite <- P|rewrite P]; exact Q.
Qed.
Print Assumptions C47_old_iff.

(** From 3.12 on: an element below 0, other than -2^31, leaves an error pending
    and is stored as -1, however well-behaved the callbacks. *)
Theorem C47_new_negative : forall (K : Type) cfg (keyf : nat -> pylong -> option K) cmp grab e r s v,
  py312 cfg = true -> 8 * zlen s <= SSIZE_MAX -> Forall (in_sbits 32) s -> In v s -> v < 0 -> v <> - 2 ^ 31 ->
  exists m, sort_key cfg KInt keyf cmp true grab e (Kept s) r s = (RetPending VNone OverflowError, m) /\
    In (-1) m /\ Permutation m (map (fun v => if (v <? 0) && negb (v =? - 2 ^ 31) then -1 else v) s).
Proof.
  intros K cfg keyf cmp grab e r s v V L F I N1 N2.
  destruct (sort_key_left_alone cfg keyf cmp grab e r KInt s L F) as (m & ok & P & Hok & ->). exists m.
  assert (B : (v <? 0) && negb (v =? - 2 ^ 31) = true).
  { apply andb_true_iff. split; [apply Z.ltb_lt; exact N1|]. apply negb_true_iff, Z.eqb_neq. exact N2. }
  unfold left_over.
  assert (existsb (fails cfg KInt) s = true) as ->.
  { apply existsb_exists. exists v. split; [exact I|]. unfold fails. rewrite V. exact B. }
  split; [reflexivity|]. assert (E : map (stored cfg KInt) s = map (fun v => if (v <? 0) && negb (v =? - 2 ^ 31) then -1 else v) s).
  { unfold stored. rewrite V. reflexivity. }
  rewrite E in P. split; [|exact P].
  eapply Permutation_in; [apply Permutation_sym; exact P|]. apply in_map_iff. exists v. rewrite B. auto.
Qed.
Print Assumptions C47_new_negative.

(** BigIntArrayList keeps its values. *)
Theorem C47_big : forall (K : Type) cfg (keyf : nat -> pylong -> option K) cmp grab e r s,
  8 * zlen s <= SSIZE_MAX -> Forall (in_sbits 64) s ->
  Permutation (snd (sort_key cfg KBig keyf cmp true grab e (Kept s) r s)) s.
Proof.
  intros K cfg keyf cmp grab e r s L F.
  destruct (sort_key_left_alone cfg keyf cmp grab e r KBig s L F) as (m & ok & P & Hok & ->). cbn [snd].
  rewrite P. unfold stored. rewrite map_id. reflexivity.
Qed.
Print Assumptions C47_big.

Theorem C47_values_kept_refuted : exists cfg cfg' s,
  py312 cfg = false /\ py312 cfg' = true /\ Forall (in_sbits 32) s /\
  ~ Permutation (snd (sort_key cfg KInt by_tens ltb_oracle true (fun _ => true) (UserError 0) (Kept s) 0 s)) s /\
  ~ Permutation (snd (sort_key cfg' KInt by_tens ltb_oracle true (fun _ => true) (UserError 0) (Kept s) 0 s)) s.
Proof.
  exists ex_cfg, ex_cfg312, [-2000000000; 5]. split; [reflexivity|]. split; [reflexivity|].
  split. { repeat apply Forall_cons; try apply Forall_nil; unfold in_sbits; change (2 ^ (32 - 1)) with 2147483648; lia. }
  split; intros P; apply Permutation_sym, (Permutation_in (-2000000000)) in P; try (left; reflexivity);
    vm_compute in P; repeat (destruct P as [P|P]; [discriminate|]); exact P.
Qed.
Print Assumptions C47_values_kept_refuted.
Example C47_ex :
  sort_key ex_cfg KInt by_tens ltb_oracle true (fun _ => true) (UserError 0) (Kept [1073741829; 2]) 0 [1073741829; 2] = (Ret VNone, [2; 5]) /\
  sort_key ex_cfg312 KInt by_tens ltb_oracle true (fun _ => true) (UserError 0) (Kept [3; -7]) 0 [3; -7] = (RetPending VNone OverflowError, [-1; 3]).
Proof. split; vm_compute; reflexivity. Qed.

(** * C48 *)
(** A key function that resizes the list being sorted. *)
Theorem C48_array_moved : forall (K : Type) cfg (keyf : nat -> pylong -> option K) cmp grab e r k s,
  8 * zlen s <= SSIZE_MAX -> Forall (in_sbits (elem_bits k)) s -> s <> [] ->
  sort_key cfg k keyf cmp true grab e Moved r s = (Undef UseAfterFree, s).
Proof.
  intros K cfg keyf cmp grab e r k s L F N.
  destruct (sort_key_any cfg k keyf cmp grab e r Moved s L F) as (m & ok & P & Hok & ->).
  destruct s; [congruence|]. reflexivity.
Qed.
Print Assumptions C48_array_moved.

(** Same buffer, new contents [now]: the sorted old elements overwrite as many
    of the present ones as there are. *)
Theorem C48_array_resized : forall (K : Type) cfg (keyf : nat -> pylong -> option K) cmp grab e r k s now,
  8 * zlen s <= SSIZE_MAX -> Forall (in_sbits (elem_bits k)) s ->
  exists m o, Permutation m (map (stored cfg k) s) /\
    sort_key cfg k keyf cmp true grab e (Kept now) r s = (o, firstn (length now) m ++ skipn (length s) now).
Proof.
  intros K cfg keyf cmp grab e r k s now L F.
  destruct (sort_key_any cfg k keyf cmp grab e r (Kept now) s L F) as (m & ok & P & Hok & ->).
  do 2 eexists. split; [apply Permutation_map; exact P|]. reflexivity.
Qed.
Print Assumptions C48_array_resized.

(** Linked list: a list made shorter is walked past its end. *)
Theorem C48_linked_resized : forall (K : Type) cfg (keyf : nat -> pylong -> option K) cmp grab e r s now,
  8 * zlen s <= SSIZE_MAX -> Forall (in_sbits 32) s ->
  ((length now < length s)%nat -> linked_sort_key cfg keyf cmp true grab e now r s = (Undef IterBeforeBegin, s)) /\
  ((length s <= length now)%nat -> exists m o, Permutation m (map (stored cfg KInt) s) /\
     linked_sort_key cfg keyf cmp true grab e now r s = (o, m ++ skipn (length s) now)).
Proof.
  intros K cfg keyf cmp grab e r s now L F.
  destruct (linked_sort_key_any cfg keyf cmp grab e r now s L F) as (m & ok & P & Hok & ->). split; intros H.
  - apply Nat.ltb_lt in H. rewrite H. reflexivity.
  - apply Nat.ltb_ge in H. rewrite H. do 2 eexists. split; [apply Permutation_map; exact P|]. reflexivity.
Qed.
Print Assumptions C48_linked_resized.
Example C48_ex :
  sort_key ex_cfg KInt by_tens ltb_oracle true (fun _ => true) (UserError 0) (Kept [9]) 0 [30; 10] = (Ret VNone, [10]) /\
  sort_key ex_cfg KInt by_tens ltb_oracle true (fun _ => true) (UserError 0) (Kept [9; 9; 7]) 0 [30; 10] = (Ret VNone, [10; 30; 7]) /\
  sort_key ex_cfg KInt by_tens ltb_oracle true (fun _ => true) (UserError 0) Moved 0 [30; 10] = (Undef UseAfterFree, [30; 10]) /\
  linked_sort_key ex_cfg by_tens ltb_oracle true (fun _ => true) (UserError 0) [9] 0 [30; 10] = (Undef IterBeforeBegin, [30; 10]).
Proof. repeat split; vm_compute; reflexivity. Qed.
