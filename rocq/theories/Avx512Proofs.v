(** Proofs about the AVX-512 bindings. *)
From Coq Require Import ZArith List Bool Arith Lia String Ascii.
From Verif Require Import Base PyLongModel PyLongProofs MemModel MemProofs QReverseModel UnsafeModel UnsafeSpec UnsafeProofs SimdBindModel SimdBindSpec SimdBindProofs
  Avx512Model Avx512Table Avx512Stub Avx512Spec.
Import ListNotations.
Local Open Scope Z_scope.
Local Arguments Z.pow : simpl never.
Local Arguments Z.modulo : simpl never.
Local Arguments Z.mul : simpl never.
Local Notation length := List.length.
Local Notation concat := List.concat.

(** ** Digits *)
Lemma digits_val_upper ds : Forall (fun d => 0 <= d < PyLong_BASE) ds -> 0 <= digits_val ds < 2 ^ (30 * Z.of_nat (length ds)).
Proof.
  induction ds as [|d ds IH]; intros F; cbn [digits_val length]; [cbn; lia|]. inversion F as [|? ? Hd F']; subst. specialize (IH F').
  rewrite Nat2Z.inj_succ. replace (30 * Z.succ (Z.of_nat (length ds))) with (30 + 30 * Z.of_nat (length ds)) by lia. rewrite Z.pow_add_r by lia.
  unfold PyLong_BASE in *. nia.
Qed.
Lemma digits_val_lower ds : Forall (fun d => 0 <= d < PyLong_BASE) ds -> (forall l d, ds = l ++ [d] -> d <> 0) -> ds <> [] ->
  2 ^ (30 * Z.of_nat (length ds - 1)) <= digits_val ds.
Proof.
  induction ds as [|d ds IH]; intros F L N; [congruence|]. inversion F as [|? ? Hd F']; subst.
  destruct ds as [|d' ds].
  - cbn [length Nat.sub digits_val]. change (30 * Z.of_nat 0) with 0. change (2 ^ 0) with 1. specialize (L [] d eq_refl). lia.
  - assert (X : 2 ^ (30 * Z.of_nat (length (d' :: ds) - 1)) <= digits_val (d' :: ds)).
    { apply IH; [exact F'| |congruence]. intros l x E. apply (L (d :: l) x). rewrite E. reflexivity. }
    cbn [digits_val] in *. cbn [length Nat.sub] in *. rewrite Nat.sub_0_r in X.
    rewrite Nat2Z.inj_succ. replace (30 * Z.succ (Z.of_nat (length ds))) with (30 + 30 * Z.of_nat (length ds)) by lia. rewrite Z.pow_add_r by lia.
    change (2 ^ 30) with PyLong_BASE. unfold PyLong_BASE in *. nia.
Qed.
Lemma digit_count_mk z : digit_count z (length (pl_digits (mk_pylong z))).
Proof.
  pose proof (mk_pylong_wf z) as (F & L & _). unfold digit_count.
  assert (V : digits_val (pl_digits (mk_pylong z)) = Z.abs z) by (apply digits_of_val; lia).
  pose proof (digits_val_upper _ F) as U. rewrite V in U. split; [lia|].
  destruct (pl_digits (mk_pylong z)) as [|d ds] eqn:E; [left; reflexivity|right]. rewrite <- V. apply digits_val_lower; [exact F|exact L|congruence].
Qed.
Lemma digit_count_unique z n m : digit_count z n -> digit_count z m -> n = m.
Proof.
  intros (A & B) (C & D).
  assert (G : forall n m, Z.abs z < 2 ^ (30 * Z.of_nat n) -> (m = 0%nat \/ 2 ^ (30 * Z.of_nat (m - 1)) <= Z.abs z) -> (m <= n)%nat).
  { intros i j X [->|Y]; [lia|]. destruct (le_lt_dec j i) as [L|L]; [exact L|exfalso].
    assert (2 ^ (30 * Z.of_nat i) <= 2 ^ (30 * Z.of_nat (j - 1))) by (apply Z.pow_le_mono_r; lia). lia. }
  pose proof (G n m A D). pose proof (G m n C B). lia.
Qed.
Lemma size_field_is py z n : digit_count z n -> size_field py z = int_word py z n.
Proof.
  intros D. pose proof (digit_count_unique z _ _ D (digit_count_mk z)) as E. subst n. unfold size_field, int_word. destruct py; [reflexivity|].
  f_equal. unfold pl_size. assert (N : pl_neg (mk_pylong z) = (z <? 0)) by reflexivity. rewrite N.
  destruct (Z.ltb_spec z 0) as [L|L]; [rewrite Z.sgn_neg by exact L; lia|]. destruct (Z.eq_dec z 0) as [->|Nz]; [reflexivity|]. rewrite Z.sgn_pos by lia. lia.
Qed.

(** ** Conversions *)
Lemma map_some_inj {A} (l l' : list A) : map Some l = map Some l' -> l = l'.
Proof. revert l'. induction l as [|x l IH]; intros [|y l'] E; cbn in E; try discriminate; [reflexivity|]. injection E as -> E. f_equal. apply IH. exact E. Qed.
Lemma deref_ok h a w v : heap_ok h -> (0 < w)%nat -> addressable h a w -> map Some v = cells h a (Z.of_nat w) -> deref w (GInt a) h = Ret v.
Proof.
  intros H W (R & M & A) V. unfold deref, as_py. rewrite as_ptr_int by lia. rewrite (proj2 (Z.eqb_neq a 0)) by lia. rewrite M, Z.eqb_refl. cbn [negb].
  destruct (hload_ok h a (Z.of_nat w) H A ltac:(lia)) as (bs & E & _ & C). rewrite E. f_equal. apply map_some_inj. congruence.
Qed.
Lemma conv_means py d2f h k a o e : heap_ok h -> (forall w, k = KReg w -> (0 < w)%nat) -> means py d2f h k a o e ->
  conv py d2f k a h = match e with Some x => RetPending o x | None => Ret o end.
Proof.
  intros H W M. destruct M; cbn [conv].
  - rewrite (deref_ok h a w v H (W w eq_refl)) by assumption. reflexivity.
  - rewrite (deref_ok h a 8 v H) by (try assumption; lia). reflexivity.
  - pose proof (lane_arg_is py 4 z ltac:(cbn; auto)) as L. unfold lane_arg in L. rewrite Nat.eqb_refl in L. rewrite L. destruct (overflows py 4 [z]); reflexivity.
  - subst py. destruct a as [z|b|]; [destruct (H1 z eq_refl)| |]; reflexivity.
  - pose proof (lane_arg_is py 2 z ltac:(cbn; auto)) as L. unfold lane_arg in L. cbn [Nat.eqb] in L. unfold overflows in L. cbn [Nat.eqb] in L.
    rewrite andb_false_r in L. cbn [andb] in L. change (8 * Z.of_nat 2) with 16 in L. cbn [small]. injection L as L. rewrite L. reflexivity.
  - pose proof (lane_arg_is py 1 z ltac:(cbn; auto)) as L. unfold lane_arg in L. cbn [Nat.eqb] in L. unfold overflows in L. cbn [Nat.eqb] in L.
    rewrite andb_false_r in L. cbn [andb] in L. change (8 * Z.of_nat 1) with 8 in L. cbn [small]. injection L as L. rewrite L. reflexivity.
  - rewrite (proj2 (Z.leb_le _ _)), (proj2 (Z.ltb_lt _ _)) by lia. reflexivity.
  - destruct (Z.leb_spec (- 2 ^ 63) z); destruct (Z.ltb_spec z (2 ^ 63)); cbn [andb]; try reflexivity. lia.
  - destruct a as [z|b|]; [destruct (H0 z eq_refl)| |]; reflexivity.
  - unfold ull, as_py. rewrite raw_ull_int by assumption. reflexivity.
  - unfold ull, as_py, raw_ull. destruct (Z.leb_spec 0 z); destruct (Z.ltb_spec z (2 ^ 64)); cbn [andb]; try reflexivity. lia.
  - destruct a as [z|b|]; [destruct (H0 z eq_refl)| |]; reflexivity.
  - unfold ull, as_py. rewrite raw_ull_int by assumption. reflexivity.
  - unfold ull, as_py, raw_ull. destruct (Z.leb_spec 0 z); destruct (Z.ltb_spec z (2 ^ 64)); cbn [andb]; try reflexivity. lia.
  - destruct a as [z|b|]; [destruct (H0 z eq_refl)| |]; reflexivity.
  - reflexivity.
  - reflexivity.
  - cbn [as_double omap obind]. rewrite (size_field_is py z n) by assumption. reflexivity.
  - cbn [as_double omap obind]. rewrite (size_field_is py z n) by assumption. reflexivity.
Qed.
Definition regs_ok (ks : list opkind) : Prop := forall w, In (KReg w) ks -> (0 < w)%nat.
Lemma convs_mean py d2f h ks args ops es : heap_ok h -> regs_ok ks -> all_mean py d2f h ks args ops es ->
  convs py d2f ks args h = match last_error es with Some x => RetPending ops x | None => Ret ops end.
Proof.
  intros H W M. induction M as [|k a o e ks args ops es M MM IH]; [reflexivity|]. cbn [convs last_error].
  rewrite (conv_means py d2f h k a o e H) by (try assumption; intros w ->; apply W; left; reflexivity).
  rewrite IH by (intros w I; apply W; right; exact I). destruct e; cbn [obind]; destruct (last_error es); reflexivity.
Qed.
Lemma all_mean_len py d2f h ks args ops es : all_mean py d2f h ks args ops es -> length args = length ks.
Proof. intros M. induction M; cbn; congruence. Qed.

(** ** The table *)
Definition row_ok (b : binding) : bool :=
  let pos k := match k with KReg w => (0 <? w)%nat | _ => true end in
  match g_body b with BReg ks w => (0 <? w)%nat && forallb pos ks | BMem ks => forallb pos ks | _ => true end.
Lemma table_ok : forallb row_ok avx512_table = true.
Proof. vm_compute. reflexivity. Qed.
Lemma row b : In b avx512_table -> row_ok b = true.
Proof. intros I. pose proof table_ok as T. rewrite forallb_forall in T. apply T. exact I. Qed.
Lemma row_reg b ks w : In b avx512_table -> g_body b = BReg ks w -> (0 < w)%nat /\ regs_ok ks.
Proof.
  intros I E. apply row in I. unfold row_ok in I. rewrite E in I. apply andb_prop in I. destruct I as (A & B). split; [apply Nat.ltb_lt; exact A|].
  intros x J. rewrite forallb_forall in B. specialize (B _ J). apply Nat.ltb_lt. exact B.
Qed.
Lemma row_mem b ks : In b avx512_table -> g_body b = BMem ks -> regs_ok ks.
Proof.
  intros I E. apply row in I. unfold row_ok in I. rewrite E in I. intros x J. rewrite forallb_forall in I. specialize (I _ J). apply Nat.ltb_lt. exact I.
Qed.

Lemma reg_store_ok h a v : heap_ok h -> (0 < length v)%nat -> addressable h a (length v) -> exists h', reg_store (length v) (PInt a) v h = Ret h' /\ overwritten h h' a v.
Proof.
  intros H L (R & M & A). unfold reg_store. rewrite as_ptr_int by lia. rewrite (proj2 (Z.eqb_neq a 0)) by lia. rewrite M, Z.eqb_refl. cbn [negb].
  apply hstore_ok; assumption.
Qed.

Lemma reg_call py d2f sem b ks w dst args ops es v h : In b avx512_table -> g_body b = BReg ks w -> heap_ok h -> all_mean py d2f h ks args ops es ->
  sem ops h = Ret (v, h) -> length v = w -> addressable h dst w ->
  exists h', avx_call py d2f sem b (GInt dst :: args) h = (returns_none es, h') /\ overwritten h h' dst v.
Proof.
  intros I E H M S L D. destruct (row_reg b ks w I E) as (W & Rk). subst w. destruct (reg_store_ok h dst v H W D) as (h' & St & O). exists h'. split; [|exact O].
  unfold avx_call. rewrite E, (all_mean_len _ _ _ _ _ _ _ M), Nat.eqb_refl, (convs_mean py d2f h ks args ops es H Rk M). unfold returns_none.
  destruct (last_error es); cbn [obind]; rewrite S; cbn [obind fst snd as_py]; rewrite St; reflexivity.
Qed.
Lemma mem_call py d2f sem b ks args ops es v h h' : In b avx512_table -> g_body b = BMem ks -> heap_ok h -> all_mean py d2f h ks args ops es ->
  sem ops h = Ret (v, h') -> avx_call py d2f sem b args h = (returns_none es, h').
Proof.
  intros I E H M S. unfold avx_call. rewrite E, (all_mean_len _ _ _ _ _ _ _ M), Nat.eqb_refl, (convs_mean py d2f h ks args ops es H (row_mem b ks I E) M). unfold returns_none.
  destruct (last_error es); cbn [obind]; rewrite S; reflexivity.
Qed.
Lemma call_count py d2f sem b args h n : arity b = Some n -> length args <> n -> avx_call py d2f sem b args h = (Raise TypeError, h).
Proof.
  unfold arity, avx_call. intros A N. destruct (g_body b) as [ks w|ks|k|]; injection A as <- || discriminate A.
  - destruct args as [|a r]; [reflexivity|]. cbn [List.length] in N. rewrite (proj2 (Nat.eqb_neq _ _)) by lia. reflexivity.
  - rewrite (proj2 (Nat.eqb_neq _ _)) by exact N. reflexivity.
  - rewrite (proj2 (Nat.eqb_neq _ _)) by exact N. reflexivity.
Qed.

(** ** Undefined operands *)
Lemma conv_cases py d2f k a h : (exists o, conv py d2f k a h = Ret o) \/ (exists o e, conv py d2f k a h = RetPending o e) \/ exists u, conv py d2f k a h = Undef u.
Proof.
  assert (D : forall w, (exists v, deref w a h = Ret v) \/ exists u, deref w a h = Undef u).
  { intros w. unfold deref. destruct (as_ptr (as_py a)); try (right; eexists; reflexivity). destruct (a0 =? 0); [right; eexists; reflexivity|].
    destruct (negb _); [right; eexists; reflexivity|]. destruct (hload_cases h a0 (Z.of_nat w)) as [(v & ->)|(u & ->)]; eauto. }
  destruct k; cbn [conv].
  - destruct (D w) as [(v & ->)|(u & ->)]; [left|right; right]; eexists; reflexivity.
  - destruct (D 8%nat) as [(v & ->)|(u & ->)]; [left|right; right]; eexists; reflexivity.
  - destruct a as [z|b|]; [|destruct py; [right; left; do 2 eexists; reflexivity|right; right; eexists; reflexivity]..].
    pose proof (lane_arg_is py 4 z ltac:(cbn; auto)) as L. unfold lane_arg in L. rewrite Nat.eqb_refl in L. rewrite L.
    destruct (overflows py 4 [z]); [right; left; do 2 eexists; reflexivity|left; eexists; reflexivity].
  - destruct a; [left; eexists; reflexivity|right; right; eexists; reflexivity..].
  - destruct a; [left; eexists; reflexivity|right; right; eexists; reflexivity..].
  - destruct a; [|right; left; do 2 eexists; reflexivity..]. destruct (_ && _); [left; eexists; reflexivity|right; left; do 2 eexists; reflexivity].
  - unfold ull. destruct (raw_ull (as_py a)) as [v [e|]]; [right; left; do 2 eexists; reflexivity|left; eexists; reflexivity].
  - unfold ull. destruct (raw_ull (as_py a)) as [v [e|]]; [right; left; do 2 eexists; reflexivity|left; eexists; reflexivity].
  - destruct a; [left; eexists; reflexivity|left; eexists; reflexivity|right; right; eexists; reflexivity].
  - destruct a; [left; eexists; reflexivity|left; eexists; reflexivity|right; right; eexists; reflexivity].
Qed.
Lemma convs_undef py d2f ks args h i k a u : nth_error ks i = Some k -> nth_error args i = Some a -> conv py d2f k a h = Undef u ->
  exists u', convs py d2f ks args h = Undef u'.
Proof.
  revert args i. induction ks as [|k0 ks IH]; intros args i Nk Na U; [destruct i; discriminate|]. destruct args as [|a0 args]; [destruct i; discriminate|].
  cbn [convs]. destruct i as [|i]; cbn [nth_error] in *.
  - injection Nk as ->. injection Na as ->. rewrite U. eexists; reflexivity.
  - destruct (IH args i Nk Na U) as (u' & E). rewrite E. destruct (conv_cases py d2f k0 a0 h) as [(o & ->)|[(o & e & ->)|(v & ->)]]; eexists; reflexivity.
Qed.
Lemma conv_bad py d2f k a h w : operand_width k = Some w -> (0 < w)%nat -> (forall p, as_ptr (as_py a) = Ret p -> p = 0 \/ p mod Z.of_nat w <> 0 \/ ~ accessible h p (Z.of_nat w)) ->
  exists u, conv py d2f k a h = Undef u.
Proof.
  intros K W B. assert (exists u, deref w a h = Undef u) as (u & E).
  { unfold deref. destruct (as_ptr (as_py a)) as [p|e|p e|u] eqn:P; try (eexists; reflexivity). destruct (Z.eqb_spec p 0); [eexists; reflexivity|].
    destruct (Z.eqb_spec (p mod Z.of_nat w) 0); cbn [negb]; [|eexists; reflexivity]. apply hload_bad; [lia|]. destruct (B p eq_refl) as [X|[X|X]]; [congruence|congruence|exact X]. }
  destruct k; cbn [operand_width] in K; try discriminate; injection K as K; subst w; cbn [conv]; rewrite E; eexists; reflexivity.
Qed.
Lemma call_bad py d2f sem b args h ks r i k a w : In b avx512_table -> arity b = Some (length args) -> operands b args = Some (ks, r) ->
  nth_error ks i = Some k -> nth_error r i = Some a -> operand_width k = Some w ->
  (forall p, as_ptr (as_py a) = Ret p -> p = 0 \/ p mod Z.of_nat w <> 0 \/ ~ accessible h p (Z.of_nat w)) ->
  exists u, avx_call py d2f sem b args h = (Undef u, h).
Proof.
  intros I A O Nk Na K B. unfold arity, operands in *.
  assert (W : (0 < w)%nat).
  { destruct k; cbn [operand_width] in K; try discriminate; injection K as K; subst w; [|lia]. apply nth_error_In in Nk.
    destruct (g_body b) as [ks0 wr|ks0| |] eqn:E; try discriminate; injection O as <- <-; [apply (row_reg b ks0 wr I E)|apply (row_mem b ks0 I E)]; exact Nk. }
  destruct (conv_bad py d2f k a h w K W B) as (u & U). destruct (convs_undef py d2f ks r h i k a u Nk Na U) as (u' & C). exists u'. unfold avx_call.
  destruct (g_body b) as [ks0 wr|ks0| |]; try discriminate; injection O as <- <-; injection A as A.
  - destruct args as [|d args]; [discriminate|]. injection A as A. cbn [tl] in C. rewrite <- A, Nat.eqb_refl, C. reflexivity.
  - rewrite <- A, Nat.eqb_refl, C. reflexivity.
Qed.

(** ** Agreement with the setters of SIMD.cpp *)
Lemma convs_lanes py d2f k zs h : In k [4; 2; 1]%nat -> convs py d2f (repeat (lane_kind k) (length zs)) (map GInt zs) h = omap (map OInt) (lane_args py k zs).
Proof.
  intros K. induction zs as [|z zs IH]; [reflexivity|]. cbn [List.length repeat map convs lane_args]. rewrite IH.
  assert (E : conv py d2f (lane_kind k) (GInt z) h = omap OInt (lane_arg py k z)).
  { cbn [In] in K. destruct K as [<-|[<-|[<-|[]]]]; reflexivity. }
  rewrite E. destruct (lane_arg py k z); cbn [omap obind]; try reflexivity; destruct (lane_args py k zs); reflexivity.
Qed.
Lemma set_agrees py d2f b k a zs h : In k [4; 2; 1]%nat -> g_body b = BReg (repeat (lane_kind k) (64 / k)) 64 ->
  avx_call py d2f (set_sem k) b (GInt a :: map GInt zs) h = simd_set py 64 k (PInt a) zs h.
Proof.
  intros K E. unfold avx_call, simd_set. rewrite E, map_length, repeat_length. destruct (Nat.eqb_spec (length zs) (64 / k)) as [L|L]; cbn [negb]; [|reflexivity].
  rewrite <- L, (convs_lanes py d2f k zs h K), (lane_args_is py k zs K).
  assert (M : forall xs, map (fun o => match o with OInt z => z | _ => 0 end) (map OInt xs) = xs) by (intros xs; rewrite map_map; apply map_id).
  destruct (overflows py k zs); cbn [omap obind set_sem as_py fst snd]; unfold set_sem; cbn [obind fst snd]; rewrite M; [|reflexivity].
  destruct (reg_store 64 (PInt a) (mm_set k (map (stored py k) zs)) h) eqn:R; try reflexivity.
  all: unfold reg_store in R; destruct (as_ptr (PInt a)); try discriminate R; destruct (_ =? 0) in R; try discriminate R; destruct (negb _) in R; try discriminate R; unfold hstore in R;
    repeat (destruct (_ =? 0) in R; try discriminate R); destruct (find _ h) in R; discriminate R.
Qed.

(** ** Facts read off the table *)
Lemma masks_ok : forallb (fun b => match g_body b with
    | BReg ks _ | BMem ks => forallb (fun k => match k with KReg w => if (w <=? 2)%nat then Nat.eqb w (mask_bytes (g_name b)) else true | _ => true end) ks
    | _ => true end) avx512_table = true.
Proof. vm_compute. reflexivity. Qed.
Lemma mask_width b ks w : In b avx512_table -> (exists n, g_body b = BReg ks n) \/ g_body b = BMem ks -> In (KReg w) ks -> (w <= 2)%nat -> w = mask_bytes (g_name b).
Proof.
  intros I E J L. pose proof masks_ok as T. rewrite forallb_forall in T. specialize (T b I). destruct E as [(n & E)|E]; rewrite E in T; rewrite forallb_forall in T; specialize (T _ J); cbn in T;
  rewrite (proj2 (Nat.leb_le _ _) L) in T; apply Nat.eqb_eq; exact T.
Qed.
Lemma results_ok : forallb (fun b => match g_body b, result_bytes (g_name b) with BReg _ w, Some n => Nat.eqb w n | _, _ => true end) avx512_table = true.
Proof. vm_compute. reflexivity. Qed.
Lemma result_width b ks w n : In b avx512_table -> g_body b = BReg ks w -> result_bytes (g_name b) = Some n -> w = n.
Proof. intros I E R. pose proof results_ok as T. rewrite forallb_forall in T. specialize (T b I). rewrite E, R in T. apply Nat.eqb_eq. exact T. Qed.
Lemma reg_widths_ok : forallb (fun b => match g_body b with
    | BReg ks w => existsb (Nat.eqb w) [64; 32; 16; 8; 4; 2; 1]%nat && forallb (fun k => match k with KReg v => existsb (Nat.eqb v) [64; 32; 16; 2; 1]%nat | _ => true end) ks
    | BMem ks => forallb (fun k => match k with KReg v => existsb (Nat.eqb v) [64; 32; 16; 2; 1]%nat | _ => true end) ks
    | _ => true end) avx512_table = true.
Proof. vm_compute. reflexivity. Qed.

Definition stub_matches (b : binding) (s : string * string * bool) : bool :=
  String.eqb (g_name b) (fst (fst s)) &&
  match g_body b with
  | BReg ks _ => String.eqb (snd (fst s)) (String "P"%char (letters ks)) && negb (snd s)
  | BMem ks => String.eqb (snd (fst s)) (letters ks) && negb (snd s)
  | BGated n => Nat.eqb (String.length (snd (fst s))) n && negb (snd s)
  | BNone => snd s
  end.
Fixpoint all2 {A B} (f : A -> B -> bool) (l : list A) (r : list B) : bool :=
  match l, r with [], [] => true | x :: l', y :: r' => f x y && all2 f l' r' | _, _ => false end.
Lemma stub_ok : all2 stub_matches avx512_table avx512_stub = true.
Proof. vm_compute. reflexivity. Qed.
Lemma all2_nth {A B} (f : A -> B -> bool) l r i x : all2 f l r = true -> nth_error l i = Some x -> exists y, nth_error r i = Some y /\ f x y = true.
Proof.
  revert r i. induction l as [|a l IH]; intros r i T N; [destruct i; discriminate|]. destruct r as [|y r]; [discriminate|]. cbn [all2] in T. apply andb_prop in T. destruct T as (T1 & T2).
  destruct i as [|i]; cbn [nth_error] in *; [injection N as ->; eauto|]. apply (IH r i T2 N).
Qed.
Lemma stub_row b : In b avx512_table -> exists s, In s avx512_stub /\ stub_matches b s = true.
Proof.
  intros I. apply In_nth_error in I. destruct I as (i & N). destruct (all2_nth _ _ _ _ _ stub_ok N) as (s & M & E). exists s. split; [eapply nth_error_In; exact M|exact E].
Qed.
Lemma stub_agrees b : In b avx512_table -> exists sig raises, In (g_name b, sig, raises) avx512_stub /\
  match g_body b with
  | BReg ks _ => sig = String "P"%char (letters ks) /\ raises = false
  | BMem ks => sig = letters ks /\ raises = false
  | BGated n => String.length sig = n /\ raises = false
  | BNone => raises = true
  end.
Proof.
  intros I. destruct (stub_row b I) as ([[n sig] raises] & J & M). unfold stub_matches in M. cbn [fst snd] in M. apply andb_prop in M. destruct M as (M1 & M).
  apply String.eqb_eq in M1. subst n. exists sig, raises. split; [exact J|]. destruct (g_body b).
  - apply andb_prop in M. destruct M as (M1 & M2). apply String.eqb_eq in M1. apply negb_true_iff in M2. auto.
  - apply andb_prop in M. destruct M as (M1 & M2). apply String.eqb_eq in M1. apply negb_true_iff in M2. auto.
  - apply andb_prop in M. destruct M as (M1 & M2). apply Nat.eqb_eq in M1. apply negb_true_iff in M2. auto.
  - exact M.
Qed.
Fixpoint nodup_b (l : list string) : bool := match l with [] => true | x :: r => negb (existsb (String.eqb x) r) && nodup_b r end.
Lemma nodup_b_ok l : nodup_b l = true -> NoDup l.
Proof.
  induction l as [|x l IH]; cbn [nodup_b]; intros T; constructor; apply andb_prop in T; destruct T as (A & B); [|apply IH; exact B].
  intros I. apply negb_true_iff in A. assert (existsb (String.eqb x) l = true) by (apply existsb_exists; exists x; split; [exact I|apply String.eqb_refl]). congruence.
Qed.
Lemma names_nodup : NoDup (map g_name avx512_table).
Proof. apply nodup_b_ok. vm_compute. reflexivity. Qed.

(** ** Ints for floats *)
Lemma same_word_field py z z' : same_word z z' -> size_field py z = size_field py z'.
Proof.
  intros (S & n & A & B). rewrite (size_field_is py z n A), (size_field_is py z' n B). unfold int_word. rewrite S.
  destruct py; [|reflexivity]. f_equal. destruct (Z.ltb_spec z 0); destruct (Z.ltb_spec z' 0); destruct (Z.eqb_spec z 0); destruct (Z.eqb_spec z' 0); try reflexivity; exfalso; revert S; unfold Z.sgn; destruct z, z'; lia.
Qed.
Lemma alike_convs py d2f ks r r' h : alike ks r r' -> convs py d2f ks r h = convs py d2f ks r' h.
Proof.
  induction 1 as [ks|k ks a r r' _ IH|k ks z z' r r' K W _ IH]; cbn [convs]; [reflexivity|rewrite IH; reflexivity|]. rewrite IH.
  assert (conv py d2f k (GInt z) h = conv py d2f k (GInt z') h) as ->; [|reflexivity].
  destruct K as [->| ->]; cbn [conv as_double]; rewrite (same_word_field py z z' W); reflexivity.
Qed.
Lemma alike_len ks r r' : alike ks r r' -> length r = length r'.
Proof. induction 1; cbn; congruence. Qed.
Lemma alike_reg py d2f sem b ks w dst r r' h : g_body b = BReg ks w -> alike ks r r' ->
  avx_call py d2f sem b (dst :: r) h = avx_call py d2f sem b (dst :: r') h.
Proof. intros E A. unfold avx_call. rewrite E, (alike_len _ _ _ A), (alike_convs py d2f ks r r' h A). reflexivity. Qed.
Lemma float_bindings : forallb (fun b => match g_body b with BMem ks => forallb (fun k => match k with KDouble | KFloat => false | _ => true end) ks | _ => true end) avx512_table = true.
Proof. vm_compute. reflexivity. Qed.

(** ** Plain loads and stores *)
Definition named (l : list (string * bool)) (b : binding) : bool := existsb (fun p => String.eqb (fst p) (g_name b)) l.
Lemma loads_ok : forallb (fun b => if named plain_loads b then match g_body b with BReg [KPtr] 64 => true | _ => false end else true) avx512_table = true.
Proof. vm_compute. reflexivity. Qed.
Lemma stores_ok : forallb (fun b => if named plain_stores b then match g_body b with BMem [KPtr; KReg 64] => true | _ => false end else true) avx512_table = true.
Proof. vm_compute. reflexivity. Qed.
Lemma in_named l b al : In (g_name b, al) l -> named l b = true.
Proof. intros I. apply existsb_exists. exists (g_name b, al). split; [exact I|apply String.eqb_refl]. Qed.
Lemma load_body b al : In b avx512_table -> In (g_name b, al) plain_loads -> g_body b = BReg [KPtr] 64.
Proof.
  intros I J. pose proof loads_ok as T. rewrite forallb_forall in T. specialize (T b I). rewrite (in_named _ b al J) in T.
  destruct (g_body b) as [ks w|ks| |]; try discriminate. destruct ks as [|k ks]; [discriminate|]. destruct k; try discriminate. destruct ks; [|discriminate].
  do 64 (destruct w as [|w]; [discriminate|]). destruct w; [reflexivity|discriminate].
Qed.
Lemma store_body b al : In b avx512_table -> In (g_name b, al) plain_stores -> g_body b = BMem [KPtr; KReg 64].
Proof.
  intros I J. pose proof stores_ok as T. rewrite forallb_forall in T. specialize (T b I). rewrite (in_named _ b al J) in T.
  destruct (g_body b) as [ks w|ks| |]; try discriminate. destruct ks as [|k ks]; [discriminate|]. destruct k; try discriminate. destruct ks as [|k ks]; [discriminate|].
  destruct k as [w| | | | | | | | |]; try discriminate. 
  do 64 (destruct w as [|w]; [discriminate|]). destruct w; [|discriminate]. destruct ks; [reflexivity|discriminate].
Qed.

Lemma usable_aligned h al q : usable64 h al q -> al && negb (q mod 64 =? 0) = false.
Proof. intros (_ & A). destruct al; [|reflexivity]. rewrite (A eq_refl). reflexivity. Qed.
Lemma load_call py d2f b al dst p a8 v h : In b avx512_table -> In (g_name b, al) plain_loads -> heap_ok h -> addressable h dst 64 -> addressable h p 8 ->
  map Some a8 = cells h p 8 -> usable64 h al (le_val a8) -> map Some v = cells h (le_val a8) 64 ->
  exists h', avx_call py d2f (load_sem al) b [GInt dst; GInt p] h = (Ret UNone, h') /\ overwritten h h' dst v.
Proof.
  intros I J H D P A U V. pose proof (load_body b al I J) as E.
  assert (S : load_sem al [OAddr (le_val a8)] h = Ret (v, h)).
  { cbn [load_sem]. rewrite (usable_aligned h al _ U). destruct U as (U & _). destruct (hload_ok h (le_val a8) 64 H U ltac:(lia)) as (bs & L & _ & C). rewrite L.
    assert (bs = v) as -> by (apply map_some_inj; congruence). reflexivity. }
  assert (Lv : length v = 64%nat) by (rewrite <- (map_length Some v), V; apply cells_len).
  apply (reg_call py d2f (load_sem al) b [KPtr] 64 dst [GInt p] [OAddr (le_val a8)] [None] v h I E H); try assumption.
  constructor; [apply M_ptr; assumption|constructor].
Qed.
Lemma load_bad py d2f b al dst p a8 h : In b avx512_table -> In (g_name b, al) plain_loads -> heap_ok h -> addressable h p 8 ->
  map Some a8 = cells h p 8 -> ~ usable64 h al (le_val a8) -> exists u, avx_call py d2f (load_sem al) b [dst; GInt p] h = (Undef u, h).
Proof.
  intros I J H P A U. pose proof (load_body b al I J) as E.
  unfold avx_call. rewrite E. cbn [List.length Nat.eqb]. rewrite (convs_mean py d2f h [KPtr] [GInt p] [OAddr (le_val a8)] [None] H).
  2:{ intros w [X|[]]. discriminate. } 2:{ constructor; [apply M_ptr; assumption|constructor]. }
  cbn [last_error obind load_sem]. destruct (al && negb (le_val a8 mod 64 =? 0)) eqn:M; [eexists; reflexivity|].
  destruct (hload_bad h (le_val a8) 64 ltac:(lia)) as (u & ->); [|eexists; reflexivity].
  intros X. apply U. split; [exact X|]. intros ->. cbn [andb] in M. apply negb_false_iff, Z.eqb_eq in M. exact M.
Qed.
Lemma store_call py d2f b al p src a8 v h : In b avx512_table -> In (g_name b, al) plain_stores -> heap_ok h -> addressable h p 8 -> addressable h src 64 ->
  map Some a8 = cells h p 8 -> map Some v = cells h src 64 -> usable64 h al (le_val a8) ->
  exists h', avx_call py d2f (store_sem al) b [GInt p; GInt src] h = (Ret UNone, h') /\ overwritten h h' (le_val a8) v.
Proof.
  intros I J H P R A V U. pose proof (store_body b al I J) as E.
  assert (Lv : length v = 64%nat) by (rewrite <- (map_length Some v), V; apply cells_len).
  destruct (hstore_ok h (le_val a8) v H) as (h' & St & O); [unfold zlen; rewrite Lv; apply U|]. exists h'. split; [|exact O].
  change (Ret UNone) with (returns_none [None; None]).
  apply (mem_call py d2f (store_sem al) b [KPtr; KReg 64] [GInt p; GInt src] [OAddr (le_val a8); OBytes v] [None; None] [] h h' I E H).
  - constructor; [apply M_ptr; assumption|]. constructor; [apply M_reg; assumption|constructor].
  - cbn [store_sem]. rewrite (usable_aligned h al _ U), St. reflexivity.
Qed.
Lemma store_bad py d2f b al p src a8 v h : In b avx512_table -> In (g_name b, al) plain_stores -> heap_ok h -> addressable h p 8 -> addressable h src 64 ->
  map Some a8 = cells h p 8 -> map Some v = cells h src 64 -> ~ usable64 h al (le_val a8) ->
  exists u, avx_call py d2f (store_sem al) b [GInt p; GInt src] h = (Undef u, h).
Proof.
  intros I J H P R A V U. pose proof (store_body b al I J) as E.
  assert (Lv : length v = 64%nat) by (rewrite <- (map_length Some v), V; apply cells_len).
  unfold avx_call. rewrite E. cbn [List.length Nat.eqb]. rewrite (convs_mean py d2f h [KPtr; KReg 64] [GInt p; GInt src] [OAddr (le_val a8); OBytes v] [None; None] H).
  2:{ intros w [X|[X|[]]]; [discriminate|]. injection X as <-. lia. } 2:{ constructor; [apply M_ptr; assumption|]. constructor; [apply M_reg; assumption|constructor]. }
  cbn [last_error obind store_sem]. destruct (al && negb (le_val a8 mod 64 =? 0)) eqn:M; [eexists; reflexivity|].
  destruct (hstore_bad h (le_val a8) v) as (u & ->); [intros ->; discriminate| |eexists; reflexivity].
  unfold zlen. rewrite Lv. intros X. apply U. split; [exact X|]. intros ->. cbn [andb] in M. apply negb_false_iff, Z.eqb_eq in M. exact M.
Qed.
(** A buffer of zeros. *)
Lemma le_val_zeros n : le_val (repeat 0 n) = 0.
Proof. induction n as [|n IH]; [reflexivity|]. cbn [repeat le_val]. rewrite IH. reflexivity. Qed.
Lemma zero_not_usable h al : heap_ok h -> ~ usable64 h al 0.
Proof. intros H (A & _). destruct (accessible_range h 0 64 H A ltac:(lia)). lia. Qed.

Lemma float_read_convs py d2f ks r r' h : float_read py ks r r' -> convs py d2f ks r h = convs py d2f ks r' h.
Proof.
  induction 1 as [ks|k ks a r r' _ IH|k ks z n r r' K W _ IH]; cbn [convs]; [reflexivity|rewrite IH; reflexivity|]. rewrite IH.
  assert (conv py d2f k (GInt z) h = conv py d2f k (GFloat (int_word py z n)) h) as ->; [|reflexivity].
  destruct K as [->| ->]; cbn [conv as_double]; rewrite (size_field_is py z n W); reflexivity.
Qed.
Lemma float_read_len py ks r r' : float_read py ks r r' -> length r = length r'.
Proof. induction 1; cbn; congruence. Qed.
Lemma float_read_call py d2f sem b ks w dst r r' h : g_body b = BReg ks w -> float_read py ks r r' ->
  avx_call py d2f sem b (dst :: r) h = avx_call py d2f sem b (dst :: r') h.
Proof. intros E A. unfold avx_call. rewrite E, (float_read_len _ _ _ _ A), (float_read_convs py d2f ks r r' h A). reflexivity. Qed.
(** No int of fewer than 2^49 digits is read as a float of magnitude 2^-1022 or more, unless negative before 3.12. *)
Lemma word_tiny py z n : digit_count z n -> Z.of_nat n < 2 ^ 49 -> 0 <= z \/ py = true -> 0 <= int_word py z n < 2 ^ 52.
Proof.
  intros _ N P. unfold int_word. destruct py.
  - change (2 ^ 52) with (8 * 2 ^ 49). destruct (z <? 0), (z =? 0); lia.
  - destruct P as [P|P]; [|discriminate]. pose proof (Z.sgn_nonneg z). assert (0 <= Z.sgn z <= 1) by (destruct z; cbn; lia).
    rewrite Z.mod_small; [|assert (2 ^ 49 < 2 ^ 64) by reflexivity; nia]. assert (2 ^ 49 < 2 ^ 52) by reflexivity. nia.
Qed.
Lemma word_nan z n : digit_count z n -> Z.of_nat n < 2 ^ 49 -> z < 0 -> 2 ^ 64 - 2 ^ 52 < int_word false z n < 2 ^ 64.
Proof.
  intros (D & _) N P. unfold int_word. rewrite Z.sgn_neg by exact P.
  assert (0 < Z.of_nat n). { destruct n; [|lia]. cbn [Z.of_nat] in D. change (2 ^ (30 * 0)) with 1 in D. lia. }
  assert (E : (-1 * Z.of_nat n) mod 2 ^ 64 = 2 ^ 64 - Z.of_nat n).
  { symmetry. apply Z.mod_unique with (-1); [|lia]. assert (2 ^ 49 < 2 ^ 64) by reflexivity. lia. }
  rewrite E. assert (2 ^ 49 < 2 ^ 52) by reflexivity. lia.
Qed.

Lemma names_match : NoDup (map g_name avx512_table) /\ map g_name avx512_table = map (fun s => fst (fst s)) avx512_stub.
Proof.
  split; [exact names_nodup|]. pose proof stub_ok as T. revert T. generalize avx512_stub. generalize avx512_table.
  intros l. induction l as [|b l IH]; intros [|s r] T; cbn [all2] in T; try discriminate; [reflexivity|]. apply andb_prop in T. destruct T as (T1 & T2).
  unfold stub_matches in T1. apply andb_prop in T1. destruct T1 as (N & _). apply String.eqb_eq in N. cbn [map]. rewrite N, (IH r T2). reflexivity.
Qed.
Lemma unimplemented py d2f sem b args h : g_body b = BNone -> avx_call py d2f sem b args h = (Raise NotImplementedError, h).
Proof. intros E. unfold avx_call. rewrite E. reflexivity. Qed.
Lemma gated_raise : length (filter (fun b => match g_body b with BGated _ => true | _ => false end) avx512_table) = 25%nat /\
  forall b n, In b avx512_table -> g_body b = BGated n ->
    (exists sig, In (g_name b, sig, false) avx512_stub /\ String.length sig = n) /\
    forall py d2f sem args h, length args = n -> avx_call py d2f sem b args h = (Raise NotImplementedError, h).
Proof.
  split; [vm_compute; reflexivity|]. intros b n I E. split.
  - destruct (stub_agrees b I) as (sig & raises & J & M). rewrite E in M. destruct M as (M & ->). eauto.
  - intros py d2f sem args h L. unfold avx_call. rewrite E, L, Nat.eqb_refl. reflexivity.
Qed.
Definition find_row (n : string) : option binding := find (fun b => String.eqb n (g_name b)) avx512_table.
Lemma find_row_in n b : find_row n = Some b -> In b avx512_table /\ g_name b = n.
Proof. intros F. apply find_some in F. destruct F as (I & E). apply String.eqb_eq in E. auto. Qed.
Lemma in_by_row b : find_row (g_name b) = Some b -> In b avx512_table.
Proof. intros F. apply (find_row_in _ _ F). Qed.
Lemma setters_agree py d2f name k : In (name, k) [("_mm512_set_epi32", 4%nat); ("_mm512_set_epi16", 2%nat); ("_mm512_set_epi8", 1%nat)]%string ->
  exists b, In b avx512_table /\ g_name b = name /\
    forall a zs h, avx_call py d2f (set_sem k) b (GInt a :: map GInt zs) h = simd_set py 64 k (PInt a) zs h.
Proof.
  intros I. assert (K : In k [4; 2; 1]%nat) by (cbn [In] in *; intuition congruence).
  assert (F : option_map g_body (find_row name) = Some (BReg (repeat (lane_kind k) (64 / k)) 64)).
  { cbn [In] in I. destruct I as [I|[I|[I|[]]]]; injection I as <- <-; vm_compute; reflexivity. }
  destruct (find_row name) as [b|] eqn:E; [|discriminate]. destruct (find_row_in _ _ E) as (B & N). exists b. split; [exact B|]. split; [exact N|].
  intros a zs h. apply set_agrees; [exact K|]. cbn [option_map] in F. congruence.
Qed.
Lemma word_range py z n : digit_count z n -> Z.of_nat n < 2 ^ 49 ->
  (0 <= z \/ py = true -> 0 <= int_word py z n < 2 ^ 52) /\
  (z < 0 -> py = false -> 2 ^ 64 - 2 ^ 52 < int_word py z n < 2 ^ 64).
Proof. intros D N. split; [apply word_tiny; assumption|]. intros P ->. apply word_nan; assumption. Qed.
Lemma letters_get ks i : String.get i (letters ks) = option_map stub_letter (nth_error ks i).
Proof. revert i. induction ks as [|k ks IH]; intros [|i]; cbn [letters String.get nth_error]; try reflexivity. apply IH. Qed.
Lemma declared_int b ks : In b avx512_table -> In KDouble ks \/ In KFloat ks -> (exists w, g_body b = BReg ks w) \/ g_body b = BMem ks ->
  exists w, g_body b = BReg ks w /\ In (g_name b, String "P" (letters ks), false) avx512_stub /\
    forall i k, nth_error ks i = Some k -> k = KDouble \/ k = KFloat -> String.get (S i) (String "P" (letters ks)) = Some "i"%char.
Proof.
  intros I F [(w & E)|E].
  - exists w. split; [exact E|]. destruct (stub_agrees b I) as (sig & raises & J & M). rewrite E in M. destruct M as (-> & ->). split; [exact J|].
    intros i k N K. cbn [String.get]. rewrite letters_get, N. destruct K as [->| ->]; reflexivity.
  - exfalso. pose proof float_bindings as T. rewrite forallb_forall in T. specialize (T b I). rewrite E in T. rewrite forallb_forall in T. destruct F as [F|F]; specialize (T _ F); discriminate.
Qed.
Lemma plain_bound n al : In (n, al) (plain_loads ++ plain_stores) -> exists b, In b avx512_table /\ g_name b = n.
Proof.
  assert (T : forallb (fun p => match find_row (fst p) with Some _ => true | None => false end) (plain_loads ++ plain_stores) = true) by (vm_compute; reflexivity).
  intros I. rewrite forallb_forall in T. specialize (T _ I). cbn [fst] in T. destruct (find_row n) as [b|] eqn:E; [|discriminate]. exists b. apply find_row_in. exact E.
Qed.
Lemma addressable_less h p : heap_ok h -> addressable h p 64 -> addressable h p 8.
Proof.
  intros H (R & M & A). split; [exact R|]. split.
  - apply Z.mod_divide in M; [|lia]. apply Z.mod_divide; [lia|]. destruct M as (c & ->). exists (c * 8). change (Z.of_nat 64) with 64. change (Z.of_nat 8) with 8. lia.
  - destruct A as (b & I & L). exists b. split; [exact I|]. change (Z.of_nat 64) with 64 in *. change (Z.of_nat 8) with 8. lia.
Qed.
Lemma direct_undefined py d2f b al p q h : In b avx512_table -> heap_ok h -> addressable h p 64 -> addressable h q 64 ->
  cells h p 64 = map Some (repeat 0 64) ->
  (In (g_name b, al) plain_loads -> exists u, avx_call py d2f (load_sem al) b [GInt q; GInt p] h = (Undef u, h)) /\
  (In (g_name b, al) plain_stores -> exists u, avx_call py d2f (store_sem al) b [GInt p; GInt q] h = (Undef u, h)).
Proof.
  intros I H P Q C. pose proof (addressable_less h p H P) as P8.
  assert (C8 : map Some (repeat 0 8) = cells h p 8).
  { change (cells h p 8) with (firstn 8 (cells h p 64)). rewrite C. reflexivity. }
  assert (N : ~ usable64 h al (le_val (repeat 0 8))) by (rewrite le_val_zeros; apply zero_not_usable; exact H).
  split; intros J; [eapply load_bad; eassumption|].
  destruct (hload_ok h q 64 H) as (bs & _ & _ & V); [apply Q|lia|]. eapply store_bad; eassumption.
Qed.
