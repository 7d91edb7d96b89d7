(** Property theorems C59-C61: the AVX-512 bindings of unsafe/SIMDLowAVX512.cpp. *)
From Coq Require Import ZArith List Bool Arith Lia String Ascii.
From Verif Require Import Base MemModel QReverseModel UnsafeModel UnsafeSpec SimdBindModel SimdBindSpec Avx512Model Avx512Table Avx512Stub Avx512Spec Avx512Proofs.
Import ListNotations.
Local Open Scope Z_scope.

(** * C59 *)
(** A binding that returns a value: the intrinsic gets what the arguments mean,
    in order, and its result is all that is written. *)
Theorem C59_register : forall py d2f sem b ks w dst args ops es v h, In b avx512_table -> g_body b = BReg ks w -> heap_ok h ->
  all_mean py d2f h ks args ops es -> sem ops h = Ret (v, h) -> List.length v = w -> addressable h dst w ->
  exists h', avx_call py d2f sem b (GInt dst :: args) h = (returns_none es, h') /\ overwritten h h' dst v.
Proof. exact reg_call. Qed.
Print Assumptions C59_register.

(** One that does not: the memory is what the intrinsic leaves. *)
Theorem C59_memory : forall py d2f sem b ks args ops es v h h', In b avx512_table -> g_body b = BMem ks -> heap_ok h ->
  all_mean py d2f h ks args ops es -> sem ops h = Ret (v, h') -> avx_call py d2f sem b args h = (returns_none es, h').
Proof. exact mem_call. Qed.
Print Assumptions C59_memory.

Theorem C59_count : forall py d2f sem b args h n, arity b = Some n -> List.length args <> n -> avx_call py d2f sem b args h = (Raise TypeError, h).
Proof. exact call_count. Qed.
Print Assumptions C59_count.

(** An operand read from memory that is no number, null, misaligned or out of
    bounds: undefined. *)
Theorem C59_bad_operand : forall py d2f sem b args h ks r i k a w, In b avx512_table -> arity b = Some (List.length args) -> operands b args = Some (ks, r) ->
  nth_error ks i = Some k -> nth_error r i = Some a -> operand_width k = Some w ->
  (forall p, as_ptr (as_py a) = Ret p -> p = 0 \/ p mod Z.of_nat w <> 0 \/ ~ accessible h p (Z.of_nat w)) ->
  exists u, avx_call py d2f sem b args h = (Undef u, h).
Proof. exact call_bad. Qed.
Print Assumptions C59_bad_operand.

(** Masks have one bit per lane; results the width the name says. *)
Theorem C59_masks : forall b ks w, In b avx512_table -> (exists n, g_body b = BReg ks n) \/ g_body b = BMem ks ->
  In (KReg w) ks -> (w <= 2)%nat -> w = mask_bytes (g_name b).
Proof. exact mask_width. Qed.
Print Assumptions C59_masks.
Theorem C59_results : forall b ks w n, In b avx512_table -> g_body b = BReg ks w -> result_bytes (g_name b) = Some n -> w = n.
Proof. exact result_width. Qed.
Print Assumptions C59_results.

(** Every name is bound once and the stub declares it with the binding's
    parameters. *)
Theorem C59_names : NoDup (map g_name avx512_table) /\ map g_name avx512_table = map (fun s => fst (fst s)) avx512_stub.
Proof. exact names_match. Qed.
Print Assumptions C59_names.
Theorem C59_stub : forall b, In b avx512_table -> exists sig raises, In (g_name b, sig, raises) avx512_stub /\
  match g_body b with
  | BReg ks _ => sig = String "P" (letters ks) /\ raises = false
  | BMem ks => sig = letters ks /\ raises = false
  | BGated n => String.length sig = n /\ raises = false
  | BNone => raises = true
  end.
Proof. exact stub_agrees. Qed.
Print Assumptions C59_stub.

(** What never works; the second kind the stub declares to work. *)
Theorem C59_unimplemented : forall py d2f sem b args h, g_body b = BNone -> avx_call py d2f sem b args h = (Raise NotImplementedError, h).
Proof. exact unimplemented. Qed.
Print Assumptions C59_unimplemented.
Theorem C59_gated_refuted : List.length (filter (fun b => match g_body b with BGated _ => true | _ => false end) avx512_table) = 25%nat /\
  forall b n, In b avx512_table -> g_body b = BGated n ->
    (exists sig, In (g_name b, sig, false) avx512_stub /\ String.length sig = n) /\
    forall py d2f sem args h, List.length args = n -> avx_call py d2f sem b args h = (Raise NotImplementedError, h).
Proof. exact gated_raise. Qed.
Print Assumptions C59_gated_refuted.

(** The setters here and those of unsafe/SIMD.cpp (C45) are the same functions. *)
Theorem C59_setters : forall py d2f name k, In (name, k) [("_mm512_set_epi32", 4%nat); ("_mm512_set_epi16", 2%nat); ("_mm512_set_epi8", 1%nat)]%string ->
  exists b, In b avx512_table /\ g_name b = name /\
    forall a zs h, avx_call py d2f (set_sem k) b (GInt a :: map GInt zs) h = simd_set py 64 k (PInt a) zs h.
Proof. exact setters_agree. Qed.
Print Assumptions C59_setters.

Definition ex_avx : heap := [{| b_al := true; b_base := 4096; b_data := repeat 7 256 |}; {| b_al := true; b_base := 8192; b_data := [3; 0] |}].
(** A stand-in for the intrinsic whose result depends on the mask. *)
Definition first_sem (ops : list operand) (h : heap) : outcome (list Z * heap) :=
  match ops with [OBytes s; OBytes m; OBytes a; OBytes b] => Ret (if le_val m =? 3 then repeat 9 64 else s, h) | _ => Undef NullDeref end.
Definition ex_add : binding := toreg "_mm512_mask_add_epi32" 1750 [R64; M16; R64; R64] 64.
Example C59_ex_in : In ex_add avx512_table /\ mask_bytes "_mm512_mask_add_epi32" = 2%nat /\ mask_bytes "_mm512_mask_add_epi64" = 1%nat /\ result_bytes "_mm512_cmpeq_epi64_mask" = Some 1%nat.
Proof. split; [apply in_by_row; vm_compute; reflexivity|]. vm_compute. auto. Qed.
Example C59_ex_hyps : heap_ok ex_avx /\ addressable ex_avx 4224 64 /\
  all_mean false (fun z => z) ex_avx [R64; M16; R64; R64] [GInt 4096; GInt 8192; GInt 4160; GInt 4224]
    [OBytes (repeat 7 64); OBytes [3; 0]; OBytes (repeat 7 64); OBytes (repeat 7 64)] [None; None; None; None].
Proof.
  assert (A : forall a, In a [4096; 4160; 4224; 4288] -> addressable ex_avx a 64).
  { intros a [<-|[<-|[<-|[<-|[]]]]]; (split; [lia|split; [reflexivity|]]; eexists; (split; [left; reflexivity|]); vm_compute; intuition discriminate). }
  split; [split; repeat constructor; vm_compute; intuition discriminate|]. split; [apply A; cbn; auto|].
  constructor; [apply M_reg; [apply A; cbn; auto|reflexivity]|]. constructor.
  { apply M_reg; [|reflexivity]. split; [lia|split; [reflexivity|]]. eexists. split; [right; left; reflexivity|]. vm_compute. intuition discriminate. }
  constructor; [apply M_reg; [apply A; cbn; auto|reflexivity]|]. constructor; [apply M_reg; [apply A; cbn; auto|reflexivity]|constructor].
Qed.
Example C59_ex : avx_call false (fun z => z) first_sem ex_add [GInt 4224; GInt 4096; GInt 8192; GInt 4160; GInt 4224] ex_avx =
    (Ret UNone, [{| b_al := true; b_base := 4096; b_data := repeat 7 128 ++ repeat 9 64 ++ repeat 7 64 |}; {| b_al := true; b_base := 8192; b_data := [3; 0] |}]) /\
  fst (avx_call false (fun z => z) first_sem ex_add [GInt 4224; GInt 4096; GInt 8192; GInt 4160] ex_avx) = Raise TypeError /\
  fst (avx_call false (fun z => z) first_sem ex_add [GInt 4224; GInt 4096; GInt 3; GInt 4160; GInt 4224] ex_avx) = Undef Misaligned.
Proof. vm_compute. auto. Qed.

(** * C60 *)
(** An int given for a double or float is read as if it were the float whose bits
    are the int's size word. *)
Theorem C60_read : forall py d2f sem b ks w dst r r' h, g_body b = BReg ks w -> float_read py ks r r' ->
  avx_call py d2f sem b (dst :: r) h = avx_call py d2f sem b (dst :: r') h.
Proof. exact float_read_call. Qed.
Print Assumptions C60_read.

(** So ints of one sign and digit count cannot be told apart. *)
Theorem C60_same : forall py d2f sem b ks w dst r r' h, g_body b = BReg ks w -> alike ks r r' ->
  avx_call py d2f sem b (dst :: r) h = avx_call py d2f sem b (dst :: r') h.
Proof. exact alike_reg. Qed.
Print Assumptions C60_same.

(** And the value read has magnitude below 2^-1022 (exponent bits 0) or is a NaN
    (exponent bits 1, fraction not 0). *)
Theorem C60_not_the_value : forall py z n, digit_count z n -> Z.of_nat n < 2 ^ 49 ->
  (0 <= z \/ py = true -> 0 <= int_word py z n < 2 ^ 52) /\
  (z < 0 -> py = false -> 2 ^ 64 - 2 ^ 52 < int_word py z n < 2 ^ 64).
Proof. exact word_range. Qed.
Print Assumptions C60_not_the_value.

(** No binding without a result has such a parameter. The stub declares each of
    them int. *)
Theorem C60_declared_int : forall b ks, In b avx512_table -> In KDouble ks \/ In KFloat ks -> (exists w, g_body b = BReg ks w) \/ g_body b = BMem ks ->
  exists w, g_body b = BReg ks w /\ In (g_name b, String "P" (letters ks), false) avx512_stub /\
    forall i k, nth_error ks i = Some k -> k = KDouble \/ k = KFloat -> String.get (S i) (String "P" (letters ks)) = Some "i"%char.
Proof. exact declared_int. Qed.
Print Assumptions C60_declared_int.

Definition set1_sem (ops : list operand) (h : heap) : outcome (list Z * heap) :=
  match ops with [OBytes d] => Ret (List.concat (repeat d (64 / List.length d)), h) | _ => Undef NullDeref end.
Definition ex_set1 : binding := toreg "_mm512_set1_pd" 380 [KDouble] 64.
Example C60_ex_in : In ex_set1 avx512_table /\ digit_count 5 1 /\ digit_count (-7) 1 /\ same_word 5 1000000 /\
  float_read true [KDouble] [GInt 5] [GFloat 8] /\ alike [KDouble] [GInt 5] [GInt 1000000].
Proof.
  assert (D : forall z, 0 < Z.abs z < 1000001 -> digit_count z 1). { intros z Hz. split; [|right]; change (2 ^ (30 * Z.of_nat 1)) with 1073741824; [lia|]. change (2 ^ (30 * Z.of_nat (1 - 1))) with 1. lia. }
  assert (W : same_word 5 1000000) by (split; [reflexivity|exists 1%nat; split; apply D; lia]).
  split; [apply in_by_row; vm_compute; reflexivity|]. split; [apply D; lia|]. split; [apply D; lia|]. split; [exact W|]. split.
  - apply (F_int true KDouble [] 5 1); [auto|apply D; lia|constructor].
  - apply L_word; [auto|exact W|constructor].
Qed.
Example C60_ex : avx_call true (fun z => z) set1_sem ex_set1 [GInt 4096; GInt 5] ex_avx = avx_call true (fun z => z) set1_sem ex_set1 [GInt 4096; GInt 1000000] ex_avx /\
  avx_call true (fun z => z) set1_sem ex_set1 [GInt 4096; GInt 5] ex_avx <> avx_call true (fun z => z) set1_sem ex_set1 [GInt 4096; GFloat 4617315517961601024] ex_avx /\
  int_word false (-7) 1 = 18446744073709551615.
Proof. split; [vm_compute; reflexivity|]. split; [vm_compute; discriminate|reflexivity]. Qed.

(** * C61 *)
(** The loads and stores act at the address held at the pointer argument. *)
Theorem C61_load : forall py d2f b al dst p a8 v h, In b avx512_table -> In (g_name b, al) plain_loads -> heap_ok h -> addressable h dst 64 -> addressable h p 8 ->
  map Some a8 = cells h p 8 -> usable64 h al (le_val a8) -> map Some v = cells h (le_val a8) 64 ->
  exists h', avx_call py d2f (load_sem al) b [GInt dst; GInt p] h = (Ret UNone, h') /\ overwritten h h' dst v.
Proof. exact load_call. Qed.
Print Assumptions C61_load.
Theorem C61_load_undefined : forall py d2f b al dst p a8 h, In b avx512_table -> In (g_name b, al) plain_loads -> heap_ok h -> addressable h p 8 ->
  map Some a8 = cells h p 8 -> ~ usable64 h al (le_val a8) -> exists u, avx_call py d2f (load_sem al) b [dst; GInt p] h = (Undef u, h).
Proof. exact load_bad. Qed.
Print Assumptions C61_load_undefined.
Theorem C61_store : forall py d2f b al p src a8 v h, In b avx512_table -> In (g_name b, al) plain_stores -> heap_ok h -> addressable h p 8 -> addressable h src 64 ->
  map Some a8 = cells h p 8 -> map Some v = cells h src 64 -> usable64 h al (le_val a8) ->
  exists h', avx_call py d2f (store_sem al) b [GInt p; GInt src] h = (Ret UNone, h') /\ overwritten h h' (le_val a8) v.
Proof. exact store_call. Qed.
Print Assumptions C61_store.
Theorem C61_store_undefined : forall py d2f b al p src a8 v h, In b avx512_table -> In (g_name b, al) plain_stores -> heap_ok h -> addressable h p 8 -> addressable h src 64 ->
  map Some a8 = cells h p 8 -> map Some v = cells h src 64 -> ~ usable64 h al (le_val a8) ->
  exists u, avx_call py d2f (store_sem al) b [GInt p; GInt src] h = (Undef u, h).
Proof. exact store_bad. Qed.
Print Assumptions C61_store_undefined.

(** All of them are bound. *)
Theorem C61_bound : forall n al, In (n, al) (plain_loads ++ plain_stores) -> exists b, In b avx512_table /\ g_name b = n.
Proof. exact plain_bound. Qed.
Print Assumptions C61_bound.

(** As declared ("pointer to the vector") they do not work: given a buffer of
    zeros, every load and every store is undefined. *)
Theorem C61_direct_refuted : forall py d2f b al p q h, In b avx512_table -> heap_ok h -> addressable h p 64 -> addressable h q 64 ->
  cells h p 64 = map Some (repeat 0 64) ->
  (In (g_name b, al) plain_loads -> exists u, avx_call py d2f (load_sem al) b [GInt q; GInt p] h = (Undef u, h)) /\
  (In (g_name b, al) plain_stores -> exists u, avx_call py d2f (store_sem al) b [GInt p; GInt q] h = (Undef u, h)).
Proof. exact direct_undefined. Qed.
Print Assumptions C61_direct_refuted.

Definition ex_ld : binding := toreg "_mm512_load_pd" 652 [KPtr] 64.
Definition ex_st : binding := tomem "_mm512_store_pd" 709 [KPtr; R64].
Definition ex_ptr : heap := [{| b_al := true; b_base := 4096; b_data := repeat 0 64 ++ repeat 7 64 |}; {| b_al := true; b_base := 8192; b_data := [64; 16; 0; 0; 0; 0; 0; 0] |}].
Example C61_ex_hyps : In ex_ld avx512_table /\ In ex_st avx512_table /\ heap_ok ex_ptr /\ addressable ex_ptr 4096 64 /\ addressable ex_ptr 4160 64 /\ addressable ex_ptr 8192 8 /\
  map Some [64; 16; 0; 0; 0; 0; 0; 0] = cells ex_ptr 8192 8 /\ usable64 ex_ptr true (le_val [64; 16; 0; 0; 0; 0; 0; 0]) /\ cells ex_ptr 4096 64 = map Some (repeat 0 64).
Proof.
  split; [apply in_by_row; vm_compute; reflexivity|]. split; [apply in_by_row; vm_compute; reflexivity|].
  split; [split; repeat constructor; vm_compute; intuition discriminate|].
  assert (A : forall a, In a [4096; 4160] -> addressable ex_ptr a 64).
  { intros a [<-|[<-|[]]]; (split; [lia|split; [reflexivity|]]; eexists; (split; [left; reflexivity|]); vm_compute; intuition discriminate). }
  split; [apply A; cbn; auto|]. split; [apply A; cbn; auto|]. split; [split; [lia|split; [reflexivity|]]; eexists; (split; [right; left; reflexivity|]); vm_compute; intuition discriminate|].
  split; [reflexivity|]. split; [|reflexivity]. split; [|intros _; reflexivity]. apply (A 4160). cbn. auto.
Qed.
Example C61_ex : fst (avx_call true (fun z => z) (load_sem true) ex_ld [GInt 4096; GInt 8192] ex_ptr) = Ret UNone /\
  snd (avx_call true (fun z => z) (load_sem true) ex_ld [GInt 4096; GInt 8192] ex_ptr) = [{| b_al := true; b_base := 4096; b_data := repeat 7 128 |}; {| b_al := true; b_base := 8192; b_data := [64; 16; 0; 0; 0; 0; 0; 0] |}] /\
  snd (avx_call true (fun z => z) (store_sem true) ex_st [GInt 8192; GInt 4096] ex_ptr) = [{| b_al := true; b_base := 4096; b_data := repeat 0 128 |}; {| b_al := true; b_base := 8192; b_data := [64; 16; 0; 0; 0; 0; 0; 0] |}] /\
  exists u, fst (avx_call true (fun z => z) (load_sem true) ex_ld [GInt 4096; GInt 4160] ex_ptr) = Undef u.
Proof. split; [vm_compute; reflexivity|]. split; [vm_compute; reflexivity|]. split; [vm_compute; reflexivity|]. eexists. vm_compute. reflexivity. Qed.
