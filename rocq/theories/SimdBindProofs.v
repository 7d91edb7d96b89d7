(** Proofs about the SIMD bindings. *)
From Coq Require Import ZArith List Bool Arith Lia.
From Verif Require Import Base PyLongModel PyLongProofs MemModel MemSpec MemProofs QReverseModel QReverseProofs SimdCopyModel SimdCopyProofs
  UnsafeModel UnsafeSpec UnsafeProofs SimdBindModel SimdBindSpec.
Import ListNotations.
Local Open Scope Z_scope.
Local Arguments Z.pow : simpl never.
Local Arguments Z.modulo : simpl never.
Local Arguments Z.mul : simpl never.

Lemma sval_bytes n z : (1 <= n)%nat -> le_sval (le_bytes n z) = wrap (8 * Z.of_nat n) z.
Proof.
  intros N. unfold le_sval. rewrite le_bytes_length, le_val_bytes. replace (256 ^ Z.of_nat n) with (2 ^ (8 * Z.of_nat n)) by (rewrite Z.pow_mul_r by lia; reflexivity).
  apply wrap_mod; lia.
Qed.

Lemma lane_concat k xs i : lane k (concat (map (le_bytes k) xs)) i = match nth_error xs i with Some x => le_bytes k x | None => [] end.
Proof.
  unfold lane. revert i. induction xs as [|x xs IH]; intros i; cbn [map concat].
  - rewrite skipn_nil, firstn_nil. destruct i; reflexivity.
  - destruct i as [|i].
    + cbn [Nat.mul skipn nth_error]. rewrite firstn_app, le_bytes_length, Nat.sub_diag, firstn_O, app_nil_r.
      rewrite <- (le_bytes_length k x) at 1. apply firstn_all.
    + cbn [nth_error]. rewrite <- IH. rewrite skipn_app, le_bytes_length. rewrite skipn_all2 by (rewrite le_bytes_length; lia).
      cbn [app]. replace (S i * k - k)%nat with (i * k)%nat by lia. reflexivity.
Qed.
Lemma mm_set_length k xs : length (mm_set k xs) = (length xs * k)%nat.
Proof.
  unfold mm_set. rewrite <- (rev_length xs). induction (rev xs) as [|x l IH]; [reflexivity|]. cbn [map concat length Nat.mul].
  rewrite app_length, le_bytes_length, IH. reflexivity.
Qed.
Lemma nth_error_rev {A} (l : list A) i x : nth_error l i = Some x -> nth_error (rev l) (length l - 1 - i) = Some x.
Proof.
  revert i. induction l as [|y l IH]; intros i E; [destruct i; discriminate|]. cbn [rev length].
  destruct i as [|i]; cbn [nth_error] in E.
  - injection E as ->. rewrite nth_error_app2 by (rewrite rev_length; lia). rewrite rev_length. replace (S (length l) - 1 - 0 - length l)%nat with 0%nat by lia. reflexivity.
  - assert (i < length l)%nat by (apply nth_error_Some; congruence). rewrite nth_error_app1 by (rewrite rev_length; lia).
    replace (S (length l) - 1 - S i)%nat with (length l - 1 - i)%nat by lia. apply IH. exact E.
Qed.

Lemma lane_arg_is py k z : In k [4; 2; 1]%nat ->
  lane_arg py k z = (if overflows py k [z] then RetPending (stored py k z) OverflowError else Ret (stored py k z)).
Proof.
  intros K. unfold lane_arg, stored, overflows. cbn [existsb]. destruct (Nat.eqb_spec k 4) as [->|N].
  - destruct py; cbn [andb].
    + rewrite as_int_312. unfold in_sbits_b. change (32 - 1) with 31. rewrite orb_false_r.
      destruct (- 2 ^ 31 <=? z); destruct (z <? 2 ^ 31); reflexivity.
    + rewrite as_int_old. reflexivity.
  - rewrite andb_false_r. cbn [andb]. assert (1 <= 8 * Z.of_nat k <= 30) by (cbn [In] in K; lia).
    destruct py; [rewrite as_small_312|rewrite as_small_old]; try assumption; reflexivity.
Qed.

Lemma lane_args_is py k zs : In k [4; 2; 1]%nat ->
  lane_args py k zs = (if overflows py k zs then RetPending (map (stored py k) zs) OverflowError else Ret (map (stored py k) zs)).
Proof.
  intros K. induction zs as [|z zs IH]; cbn [lane_args map]; [unfold overflows; cbn [existsb]; rewrite andb_false_r; reflexivity|].
  rewrite (lane_arg_is py k z K), IH. unfold overflows. cbn [existsb]. rewrite orb_false_r.
  destruct (py && Nat.eqb k 4); cbn [andb]; [|reflexivity].
  destruct (negb ((- 2 ^ 31 <=? z) && (z <? 2 ^ 31))); cbn [orb]; destruct (existsb _ zs); reflexivity.
Qed.

Lemma stored_fits py k z : In k [4; 2; 1]%nat -> wrap (8 * Z.of_nat k) (stored py k z) = stored py k z.
Proof.
  intros K. unfold stored. destruct (Nat.eqb_spec k 4) as [->|N].
  - apply wrap_id; [lia|]. unfold in_sbits. change (8 * Z.of_nat 4 - 1) with 31. destruct py.
    + destruct (Z.leb_spec (- 2 ^ 31) z); destruct (Z.ltb_spec z (2 ^ 31)); cbn [andb]; lia.
    + pose proof (Z.mod_pos_bound (Z.abs z) (2 ^ 30) ltac:(reflexivity)). change (2 ^ 31) with (2 * 2 ^ 30). destruct (Z.sgn_spec z) as [[_ ->]|[[_ ->]|[_ ->]]]; lia.
  - apply wrap_id; [cbn [In] in K; lia|]. apply wrap_range. cbn [In] in K. lia.
Qed.

Lemma set_places py w k a args h : In (w, k) setters -> length args = (w / k)%nat -> heap_ok h -> accessible h a (Z.of_nat w) -> 0 <= a < 2 ^ 64 -> a mod Z.of_nat w = 0 ->
  exists v h', simd_set py w k (PInt a) args h = ((if overflows py k args then RetPending UNone OverflowError else Ret UNone), h') /\
    overwritten h h' a v /\ length v = w /\
    forall i z, nth_error args i = Some z -> le_sval (lane k v (w / k - 1 - i)) = stored py k z.
Proof.
  intros Sh L H A R Al.
  assert (K : In k [4; 2; 1]%nat) by (cbn [In setters] in Sh; cbn [In]; intuition congruence).
  assert (W : (0 < w)%nat /\ (w / k * k = w)%nat) by (cbn [In setters] in Sh; intuition (match goal with E : (_, _) = (_, _) |- _ => injection E as <- <- end; try reflexivity; lia)).
  set (xs := map (stored py k) args). set (v := mm_set k xs).
  assert (Lv : length v = w) by (unfold v, xs; rewrite mm_set_length, map_length, L; apply W).
  assert (Zv : zlen v = Z.of_nat w) by (unfold zlen; rewrite Lv; reflexivity).
  destruct (hstore_ok h a v H) as (h' & E & O); [rewrite Zv; exact A|].
  exists v, h'. destruct (accessible_range h a (Z.of_nat w) H A ltac:(lia)) as (P & _).
  assert (Rs : reg_store w (PInt a) v h = Ret h').
  { unfold reg_store. rewrite (as_ptr_int a R), (proj2 (Z.eqb_neq a 0)) by lia. rewrite Al. exact E. }
  split; [|split; [exact O|split; [exact Lv|]]].
  - unfold simd_set. rewrite L, Nat.eqb_refl. cbn [negb]. rewrite (lane_args_is py k args K). fold xs. destruct (overflows py k args); fold v; rewrite Rs; reflexivity.
  - intros i z Nz. unfold v, mm_set. rewrite lane_concat. unfold xs.
    assert (Nx : nth_error (map (stored py k) args) i = Some (stored py k z)) by (apply map_nth_error; exact Nz).
    apply nth_error_rev in Nx. rewrite map_length, L in Nx. rewrite Nx, sval_bytes by (cbn [In] in K; lia). apply stored_fits. exact K.
Qed.

Lemma set_count py w k ptr args h : length args <> (w / k)%nat -> simd_set py w k ptr args h = (Raise TypeError, h).
Proof. intros N. unfold simd_set. rewrite (proj2 (Nat.eqb_neq _ _)) by exact N. reflexivity. Qed.

Lemma set_undefined py w k ptr args h : In (w, k) setters -> length args = (w / k)%nat ->
  (forall a, as_ptr ptr = Ret a -> a = 0 \/ a mod Z.of_nat w <> 0 \/ ~ accessible h a (Z.of_nat w)) ->
  exists u, simd_set py w k ptr args h = (Undef u, h).
Proof.
  intros Sh L B.
  assert (K : In k [4; 2; 1]%nat) by (cbn [In setters] in Sh; cbn [In]; intuition congruence).
  assert (W : (0 < w)%nat /\ (w / k * k = w)%nat) by (cbn [In setters] in Sh; intuition (match goal with E : (_, _) = (_, _) |- _ => injection E as <- <- end; try reflexivity; lia)).
  set (v := mm_set k (map (stored py k) args)).
  assert (Lv : length v = w) by (unfold v; rewrite mm_set_length, map_length, L; apply W).
  assert (exists u, reg_store w ptr v h = Undef u) as (u & E).
  { unfold reg_store. destruct (as_ptr ptr) as [a|e|a e|u] eqn:P; try (eexists; reflexivity).
    destruct (Z.eqb_spec a 0); [eexists; reflexivity|]. destruct (Z.eqb_spec (a mod Z.of_nat w) 0); cbn [negb]; [|eexists; reflexivity].
    apply hstore_bad; [intros X; rewrite X in Lv; cbn in Lv; lia|]. unfold zlen. rewrite Lv. destruct (B a eq_refl) as [X|[X|X]]; [congruence|congruence|exact X]. }
  exists u. unfold simd_set. rewrite L, Nat.eqb_refl. cbn [negb]. rewrite (lane_args_is py k args K). destruct (overflows py k args); fold v; rewrite E; reflexivity.
Qed.

(** When a lane is the argument reduced to the lane width. *)
Lemma wrap_eq b x y : 1 <= b -> (wrap b x = wrap b y <-> (x - y) mod 2 ^ b = 0).
Proof.
  intros B. assert (P : 0 < 2 ^ b) by (apply Z.pow_pos_nonneg; lia). split.
  - intros E. destruct (wrap_cong b x B) as [k Hk], (wrap_cong b y B) as [k' Hk'].
    replace (x - y) with ((k' - k) * 2 ^ b) by lia. apply Z.mod_mul. lia.
  - intros M. apply Z.mod_divide in M; [|lia]. destruct M as [q Hq]. replace x with (y + q * 2 ^ b) by lia. apply wrap_shift. exact B.
Qed.

Lemma stored_exact py k z : In k [4; 2; 1]%nat ->
  (stored py k z = wrap (8 * Z.of_nat k) z <->
  match py, Nat.eqb k 4 with
  | true, true => - 2 ^ 31 <= z < 2 ^ 31 \/ wrap 32 z = -1
  | false, true => Z.abs z mod 2 ^ 32 < 2 ^ 30
  | true, false => 0 <= z \/ (2 * z) mod 2 ^ (8 * Z.of_nat k) = 0
  | false, false => True
  end).
Proof.
  intros K. assert (B : 1 <= 8 * Z.of_nat k) by (cbn [In] in K; lia).
  assert (P : 0 < 2 ^ (8 * Z.of_nat k)) by (apply Z.pow_pos_nonneg; lia).
  destruct (Nat.eqb_spec k 4) as [->|N].
  - change (8 * Z.of_nat 4) with 32 in *. destruct py.
    + unfold stored. rewrite Nat.eqb_refl. destruct (Z.leb_spec (- 2 ^ 31) z); destruct (Z.ltb_spec z (2 ^ 31)); cbn [andb]; try (split; [intros <-; right; reflexivity|intros [?|?]; [lia|symmetry; assumption]]).
      rewrite wrap_id; [|lia|unfold in_sbits; change (32 - 1) with 31; lia]. split; [intros _; left; lia|reflexivity].
    + rewrite <- (stored_fits false 4 z K). change (8 * Z.of_nat 4) with 32. rewrite (wrap_eq _ _ _ B). unfold stored. rewrite Nat.eqb_refl.
      set (q := Z.abs z / 2 ^ 32). set (r := Z.abs z mod 2 ^ 32).
      assert (D : Z.abs z = 2 ^ 32 * q + r) by (apply Z.div_mod; lia). assert (Rr : 0 <= r < 2 ^ 32) by (apply Z.mod_pos_bound; lia).
      assert (M : Z.abs z mod 2 ^ 30 = r mod 2 ^ 30).
      { rewrite D. replace (2 ^ 32 * q) with ((4 * q) * 2 ^ 30) by (change (2 ^ 32) with (4 * 2 ^ 30); lia). rewrite Z.add_comm. apply Z.mod_add. lia. }
      rewrite M. assert (E : Z.sgn z * (r mod 2 ^ 30) - z = Z.sgn z * (r mod 2 ^ 30 - r) - Z.sgn z * q * 2 ^ 32).
      { rewrite <- (Z.abs_sgn z) at 2. rewrite D. ring. }
      assert (F : (Z.sgn z * (r mod 2 ^ 30) - z) mod 2 ^ 32 = (Z.sgn z * (r mod 2 ^ 30 - r)) mod 2 ^ 32).
      { rewrite E. replace (Z.sgn z * (r mod 2 ^ 30 - r) - Z.sgn z * q * 2 ^ 32) with (Z.sgn z * (r mod 2 ^ 30 - r) + (- (Z.sgn z * q)) * 2 ^ 32) by ring. apply Z.mod_add. lia. }
      rewrite F. pose proof (Z.mod_pos_bound r (2 ^ 30) ltac:(reflexivity)).
      split.
      * intros Z0. apply Z.mod_divide in Z0; [|lia]. destruct Z0 as [c Hc]. pose proof (Z.mod_le r (2 ^ 30) ltac:(lia) ltac:(reflexivity)).
        destruct (Z.sgn_spec z) as [[? Sg]|[[? Sg]|[? Sg]]]; rewrite Sg in Hc.
        -- assert (c = 0) by nia. subst c. rewrite Z.mul_0_l in Hc. lia.
        -- subst z. reflexivity.
        -- assert (c = 0) by nia. subst c. rewrite Z.mul_0_l in Hc. lia.
      * intros Lt. rewrite (Z.mod_small r (2 ^ 30)) by lia. rewrite Z.sub_diag, Z.mul_0_r. reflexivity.
  - assert (Ne : Nat.eqb k 4 = false) by (apply Nat.eqb_neq; exact N). unfold stored. rewrite Ne. destruct py; [|tauto].
    rewrite (wrap_eq _ _ _ B). destruct (Z.leb_spec 0 z) as [G|G].
    + rewrite Z.abs_eq by lia. rewrite Z.sub_diag. split; [tauto|intros _; reflexivity].
    + rewrite Z.abs_neq by lia. replace (- z - z) with (- (2 * z)) by ring.
      rewrite !Z.mod_divide by lia. rewrite Z.divide_opp_r. split; [tauto|intros [?|?]; [lia|assumption]].
Qed.

(** ** Wrappers *)
Lemma raw_ull_int z : 0 <= z < 2 ^ 64 -> raw_ull (PInt z) = (z, None).
Proof. intros R. unfold raw_ull. rewrite (proj2 (Z.leb_le 0 z)), (proj2 (Z.ltb_lt z _)) by lia. reflexivity. Qed.
Lemma raw_ptr_int z : 0 <= z < 2 ^ 64 -> raw_ptr (PInt z) = (Some z, None).
Proof. intros R. unfold raw_ptr. rewrite (proj2 (Z.leb_le _ z)), (proj2 (Z.ltb_lt z _)) by lia. cbn [andb]. rewrite Z.mod_small by lia. reflexivity. Qed.
Lemma raw_addr_int al z : 0 <= z < 2 ^ 64 -> raw_addr al (PInt z) = (Some z, None).
Proof. intros R. unfold raw_addr. destruct al; [apply raw_ptr_int; exact R|]. rewrite raw_ull_int by exact R. reflexivity. Qed.
Lemma raw_ull_bad o : not_size o -> exists e, raw_ull o = (2 ^ 64 - 1, Some e).
Proof.
  destruct o as [z|i]; cbn [not_size raw_ull]; [|eexists; reflexivity]. intros R.
  destruct (Z.leb_spec 0 z); destruct (Z.ltb_spec z (2 ^ 64)); cbn [andb]; try (eexists; reflexivity). lia.
Qed.
Lemma raw_ptr_bad o : not_address o -> exists e, raw_ptr o = (None, Some e).
Proof.
  destruct o as [z|i]; cbn [not_address raw_ptr]; [|eexists; reflexivity]. intros R.
  destruct (Z.leb_spec (- 2 ^ 63) z); destruct (Z.ltb_spec z (2 ^ 64)); cbn [andb]; try (eexists; reflexivity). lia.
Qed.

Lemma memcpy_py f es m a b c : 0 <= a -> 0 <= b -> 0 <= c -> elem_size es -> zlen m < 2 ^ 64 -> a + c * Z.of_nat es <= zlen m -> b + c * Z.of_nat es <= zlen m ->
  disj (Z.to_nat b) (Z.to_nat a) (Z.to_nat c * es) ->
  simd_memcpy_py f false es [PInt a; PInt b; PInt c] m = Ret (tt, copied m (Z.to_nat a) (Z.to_nat b) (Z.to_nat c * es)) /\
  (align_spec f (Z.to_nat c * es) (Z.to_nat a) (Z.to_nat b) ->
   simd_memcpy_py f true es [PInt a; PInt b; PInt c] m = Ret (tt, copied m (Z.to_nat a) (Z.to_nat b) (Z.to_nat c * es))) /\
  (~ align_spec f (Z.to_nat c * es) (Z.to_nat a) (Z.to_nat b) ->
   simd_memcpy_py f true es [PInt a; PInt b; PInt c] m = Undef Misaligned).
Proof.
  intros A B C E M Fa Fb D. assert (Ep : (1 <= es)%nat) by (unfold elem_size in E; lia).
  assert (c <= c * Z.of_nat es) by nia.
  assert (Ca : (Z.to_nat a + Z.to_nat c * es <= length m)%nat) by (unfold zlen in *; nia).
  assert (Cb : (Z.to_nat b + Z.to_nat c * es <= length m)%nat) by (unfold zlen in *; nia).
  unfold simd_memcpy_py. rewrite !raw_addr_int, raw_ull_int by lia. cbn [later].
  destruct (Z.eqb_spec c 0) as [->|Nc].
  - assert (copied m (Z.to_nat a) (Z.to_nat b) (Z.to_nat 0 * es) = m) as ->.
    { unfold copied. cbn [Z.to_nat Nat.mul firstn app]. rewrite Nat.add_0_r. apply firstn_skipn. }
    split; [reflexivity|]. split; [reflexivity|]. intros X. exfalso. apply X. unfold align_spec, left256, left512. cbn [Z.to_nat Nat.mul].
    destruct (avx512 f), (avx2 f); (split; [|split]); intros _ Y; exfalso; revert Y; apply Nat.nle_gt; cbn; lia.
  - unfold fits. rewrite (proj2 (Z.leb_le _ _) Fa), (proj2 (Z.leb_le _ _) Fb). cbn [andb].
    split; [rewrite simd_memcpy_ok; try assumption; [reflexivity|discriminate]|].
    destruct (simd_memcpy_aligned_iff f es (Z.to_nat a) (Z.to_nat b) (Z.to_nat c) m E Ca Cb D) as (X & Y).
    split; intros Q; [rewrite (X Q)|rewrite (Y Q)]; reflexivity.
Qed.

Lemma fits_false m es a c : zlen m < 2 ^ 64 - 1 -> (1 <= es)%nat -> 0 <= a -> 0 <= c -> c <> 0 -> (a = 2 ^ 64 - 1 \/ c = 2 ^ 64 - 1) -> fits m es a c = false.
Proof. intros M E A C Nc H. unfold fits. apply Z.leb_gt. nia. Qed.

(** A count that is no size is used as 2^64 - 1. *)
Lemma raw_addr_nonneg al o : match fst (raw_addr al o) with Some a => 0 <= a | None => True end.
Proof.
  unfold raw_addr, raw_ptr, raw_ull. destruct al; destruct o as [z|i]; cbn [fst]; try exact I; try lia.
  - destruct (_ && _); cbn [fst]; [|exact I]. apply Z.mod_pos_bound. reflexivity.
  - destruct (Z.leb_spec 0 z); cbn [andb]; [destruct (z <? 2 ^ 64)|]; cbn [fst]; lia.
Qed.
Lemma memcpy_bad_count f al es m from to n : zlen m < 2 ^ 64 - 1 -> (1 <= es)%nat -> not_size n ->
  exists u, simd_memcpy_py f al es [from; to; n] m = Undef u.
Proof.
  intros M E B. unfold simd_memcpy_py. pose proof (raw_addr_nonneg al from) as Pa. pose proof (raw_addr_nonneg al to) as Pb.
  destruct (raw_addr al from) as [a e1]. destruct (raw_addr al to) as [b e2]. cbn [fst] in Pa, Pb.
  destruct (raw_ull_bad n B) as (e & ->). rewrite (proj2 (Z.eqb_neq (2 ^ 64 - 1) 0)) by lia.
  destruct a as [a|]; [|eexists; reflexivity]. destruct b as [b|]; [|eexists; reflexivity].
  rewrite (fits_false m es a) by (try assumption; try lia; right; reflexivity). eexists; reflexivity.
Qed.
Lemma raw_addr_bad al o : bad_addr al o -> exists e, raw_addr al o = ((if al then None else Some (2 ^ 64 - 1)), Some e).
Proof.
  unfold bad_addr, raw_addr. destruct al; intros B; [apply raw_ptr_bad; exact B|]. destruct (raw_ull_bad o B) as (e & ->). eexists; reflexivity.
Qed.
Lemma memcpy_bad_addr f al es m from to c : zlen m < 2 ^ 64 - 1 -> (1 <= es)%nat -> bad_addr al from \/ bad_addr al to -> 0 <= c < 2 ^ 64 ->
  (c <> 0 -> exists u, simd_memcpy_py f al es [from; to; PInt c] m = Undef u) /\
  (c = 0 -> exists e, simd_memcpy_py f al es [from; to; PInt c] m = RetPending (tt, m) e).
Proof.
  intros M E B C. unfold simd_memcpy_py. pose proof (raw_addr_nonneg al from) as Pa. pose proof (raw_addr_nonneg al to) as Pb.
  rewrite raw_ull_int by exact C. split; intros Nc.
  - rewrite (proj2 (Z.eqb_neq c 0) Nc). destruct B as [B|B]; destruct (raw_addr_bad al _ B) as (e & X); rewrite X in *; destruct al; cbn [fst] in *.
    + destruct (raw_addr true to) as [b e2]. eexists; reflexivity.
    + destruct (raw_addr false to) as [b e2]. cbn [fst] in *. destruct b as [b|]; [|eexists; reflexivity].
      rewrite (fits_false m es (2 ^ 64 - 1)) by (try assumption; try lia; left; reflexivity). eexists; reflexivity.
    + destruct (raw_addr true from) as [b e2]. destruct b; eexists; reflexivity.
    + destruct (raw_addr false from) as [b e2]. cbn [fst] in *. destruct b as [b|]; [|eexists; reflexivity].
      rewrite (fits_false m es (2 ^ 64 - 1)) by (try assumption; try lia; left; reflexivity). rewrite andb_false_r. eexists; reflexivity.
  - subst c. rewrite Z.eqb_refl. destruct B as [B|B]; destruct (raw_addr_bad al _ B) as (e & X); rewrite X.
    + destruct (raw_addr al to) as [b e2]. destruct e2; eexists; reflexivity.
    + destruct (raw_addr al from) as [b e2]. eexists; reflexivity.
Qed.
Lemma memcpy_argc f al es args m : length args <> 3%nat -> simd_memcpy_py f al es args m = Raise TypeError.
Proof. intros L. destruct args as [|? [|? [|? [|]]]]; try reflexivity. destruct (L eq_refl). Qed.

(** ** Reverse *)
Lemma reverse_py f es pre E post m : m = pre ++ concat E ++ post -> elems_of_size es E -> (1 <= es)%nat -> zlen m < 2 ^ 64 ->
  (es <> 16%nat \/ ~ q16_bad f (length E)) ->
  simd_reverse_py f es [PInt (zlen pre); PInt (zlen E)] m = Ret (tt, pre ++ concat (rev E) ++ post).
Proof.
  intros -> S Ep M Q.
  assert (Lc : length (concat E) = (length E * es)%nat).
  { clear - S. induction S as [|x l Hx S IH]; [reflexivity|]. cbn [concat length Nat.mul]. rewrite app_length, IH, Hx. reflexivity. }
  unfold zlen in M. rewrite !app_length, Lc in M.
  unfold simd_reverse_py. rewrite raw_ptr_int, raw_ull_int by (unfold zlen; nia). cbn [later].
  unfold zlen. destruct (Z.eqb_spec (Z.of_nat (length E)) 0) as [L|L].
  - destruct E; [reflexivity|cbn [length] in L; lia].
  - unfold fits, zlen. rewrite (proj2 (Z.leb_le _ _)) by (rewrite !app_length, Lc; nia). rewrite !Nat2Z.id.
    assert (S1 : skipn (length pre) (pre ++ concat E ++ post) = concat E ++ post) by (rewrite skipn_app, Nat.sub_diag, skipn_all; reflexivity).
    assert (F1 : firstn (length E * es) (concat E ++ post) = concat E) by (rewrite firstn_app, <- Lc, Nat.sub_diag, firstn_O, app_nil_r, firstn_all; reflexivity).
    assert (F2 : firstn (length pre) (pre ++ concat E ++ post) = pre) by (rewrite firstn_app, Nat.sub_diag, firstn_O, app_nil_r, firstn_all; reflexivity).
    assert (S2 : skipn (length pre + length E * es) (pre ++ concat E ++ post) = post).
    { rewrite app_assoc, skipn_app, <- Lc, skipn_all2 by (rewrite app_length; lia). rewrite app_length, Nat.sub_diag. reflexivity. }
    rewrite S1, F1, F2, S2, (qreverse_ok f es E S Q). reflexivity.
Qed.
Lemma reverse_bad f es m a n : zlen m < 2 ^ 64 - 1 -> (1 <= es)%nat ->
  (not_size n -> exists u, simd_reverse_py f es [a; n] m = Undef u) /\
  (not_address a -> (forall c, n = PInt c -> 0 < c < 2 ^ 64 -> exists u, simd_reverse_py f es [a; n] m = Undef u) /\
                    (n = PInt 0 -> exists e, simd_reverse_py f es [a; n] m = RetPending (tt, m) e)).
Proof.
  intros M E. unfold simd_reverse_py. split.
  - intros B. pose proof (raw_addr_nonneg true a) as Pa. cbn [raw_addr] in Pa. destruct (raw_ptr a) as [b e1]. cbn [fst] in Pa.
    destruct (raw_ull_bad n B) as (e & ->). rewrite (proj2 (Z.eqb_neq (2 ^ 64 - 1) 0)) by lia.
    destruct b as [b|]; [|eexists; reflexivity]. rewrite fits_false by (try assumption; try lia; right; reflexivity). eexists; reflexivity.
  - intros B. destruct (raw_ptr_bad a B) as (e & ->). split.
    + intros c -> C. rewrite raw_ull_int by lia. rewrite (proj2 (Z.eqb_neq c 0)) by lia. eexists; reflexivity.
    + intros ->. rewrite raw_ull_int by lia. eexists; reflexivity.
Qed.
Lemma reverse_argc f es args m : length args <> 2%nat -> simd_reverse_py f es args m = Raise TypeError.
Proof. intros L. destruct args as [|? [|? [|]]]; try reflexivity. destruct (L eq_refl). Qed.

Lemma reverse16_py f pre E post x : elems_of_size 16 E -> zlen (pre ++ concat E ++ post) < 2 ^ 64 -> q16_bad f (length E) ->
  nth_error E (if avx512 f then length E / 2 / 4 * 4 else 0)%nat = Some x -> swap_halves x <> x ->
  exists r, simd_reverse_py f 16 [PInt (zlen pre); PInt (zlen E)] (pre ++ concat E ++ post) = Ret (tt, pre ++ r ++ post) /\ r <> concat (rev E).
Proof.
  intros S M Q N X. destruct (qreverse16_bad f E x S Q N X) as (r & Er & Nr). exists r. split; [|exact Nr].
  assert (Lc : length (concat E) = (length E * 16)%nat).
  { clear - S. induction S as [|y l Hx S IH]; [reflexivity|]. cbn [concat length]. rewrite app_length, IH, Hx. lia. }
  unfold zlen in M. rewrite !app_length, Lc in M.
  unfold simd_reverse_py. rewrite raw_ptr_int, raw_ull_int by (unfold zlen; lia). cbn [later].
  unfold zlen. destruct (Z.eqb_spec (Z.of_nat (length E)) 0) as [L|L].
  - destruct E; [|cbn [length] in L; lia]. destruct (if avx512 f then _ else _)%nat in N; discriminate N.
  - unfold fits, zlen. rewrite (proj2 (Z.leb_le _ _)) by (rewrite !app_length, Lc; lia). rewrite !Nat2Z.id.
    assert (S1 : skipn (length pre) (pre ++ concat E ++ post) = concat E ++ post) by (rewrite skipn_app, Nat.sub_diag, skipn_all; reflexivity).
    assert (F1 : firstn (length E * 16) (concat E ++ post) = concat E) by (rewrite firstn_app, <- Lc, Nat.sub_diag, firstn_O, app_nil_r, firstn_all; reflexivity).
    assert (F2 : firstn (length pre) (pre ++ concat E ++ post) = pre) by (rewrite firstn_app, Nat.sub_diag, firstn_O, app_nil_r, firstn_all; reflexivity).
    assert (S2 : skipn (length pre + length E * 16) (pre ++ concat E ++ post) = post).
    { rewrite app_assoc, skipn_app, <- Lc, skipn_all2 by (rewrite app_length; lia). rewrite app_length, Nat.sub_diag. reflexivity. }
    rewrite S1, F1, F2, S2, Er. reflexivity.
Qed.

(** With no elements nothing is touched, and the error of the last argument that
    cannot be read stays set. *)
Lemma raw_ull_error o : snd (raw_ull o) = refusal Size o.
Proof.
  destruct o as [z|i]; cbn [raw_ull refusal]; [|reflexivity].
  destruct (Z.ltb_spec z 0), (Z.leb_spec 0 z), (Z.leb_spec (2 ^ 64) z), (Z.ltb_spec z (2 ^ 64)); try lia; reflexivity.
Qed.
Lemma raw_ptr_error o : snd (raw_ptr o) = refusal Pointer o.
Proof.
  destruct o as [z|i]; cbn [raw_ptr refusal]; [|reflexivity].
  destruct (Z.ltb_spec z (- 2 ^ 63)), (Z.leb_spec (- 2 ^ 63) z), (Z.leb_spec (2 ^ 64) z), (Z.ltb_spec z (2 ^ 64)); try lia; reflexivity.
Qed.
Lemma memcpy_nothing f al es m from to :
  simd_memcpy_py f al es [from; to; PInt 0] m = still_set m (last_of [refusal (if al then Pointer else Size) from; refusal (if al then Pointer else Size) to]).
Proof.
  assert (E : forall o, snd (raw_addr al o) = refusal (if al then Pointer else Size) o).
  { intros o. unfold raw_addr. destruct al; [apply raw_ptr_error|]. rewrite <- raw_ull_error. destruct (raw_ull o). reflexivity. }
  unfold simd_memcpy_py. rewrite <- !E. destruct (raw_addr al from) as [a e1], (raw_addr al to) as [b e2]. cbn. destruct e2, e1; reflexivity.
Qed.
Lemma reverse_nothing f es m a : simd_reverse_py f es [a; PInt 0] m = still_set m (refusal Pointer a).
Proof. unfold simd_reverse_py. rewrite <- raw_ptr_error. destruct (raw_ptr a) as [b e]. cbn. destruct e; reflexivity. Qed.
