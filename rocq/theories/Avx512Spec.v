(** Specification vocabulary for the AVX-512 bindings: what an argument means to
    the intrinsic, and what the intrinsics' names say about widths. *)
From Coq Require Import ZArith List Bool Arith String Ascii.
From Verif Require Import Base MemModel UnsafeModel UnsafeSpec QReverseModel SimdBindModel SimdBindSpec Avx512Model.
Import ListNotations.
Local Open Scope Z_scope.

(** [n] bytes at [a] may be accessed through an aligned pointer. *)
Definition addressable (h : heap) (a : Z) (n : nat) : Prop := 0 < a < 2 ^ 64 /\ a mod Z.of_nat n = 0 /\ accessible h a (Z.of_nat n).

(** Number of 30-bit digits of [z]. *)
Definition digit_count (z : Z) (n : nat) : Prop := Z.abs z < 2 ^ (30 * Z.of_nat n) /\ (n = 0%nat \/ 2 ^ (30 * Z.of_nat (n - 1)) <= Z.abs z).
(** The word an int object has where a float object has its value. *)
Definition int_word (py312 : bool) (z : Z) (n : nat) : Z :=
  if py312 then 8 * Z.of_nat n + (if z <? 0 then 2 else if z =? 0 then 1 else 0) else (Z.sgn z * Z.of_nat n) mod 2 ^ 64.

(** [means k a o e]: argument [a] for an operand of kind [k] reaches the
    intrinsic as [o], leaving the error [e]. *)
Inductive means (py : bool) (d2f : Z -> Z) (h : heap) : opkind -> parg -> operand -> option exn -> Prop :=
| M_reg w a v : addressable h a w -> map Some v = cells h a (Z.of_nat w) -> means py d2f h (KReg w) (GInt a) (OBytes v) None
| M_ptr a v : addressable h a 8 -> map Some v = cells h a 8 -> means py d2f h KPtr (GInt a) (OAddr (le_val v)) None
| M_int z : means py d2f h KInt (GInt z) (OInt (stored py 4 z)) (if overflows py 4 [z] then Some OverflowError else None)
| M_int_other a : py = true -> (forall z, a <> GInt z) -> means py d2f h KInt a (OInt (-1)) (Some TypeError)
| M_short z : means py d2f h KShort (GInt z) (OInt (stored py 2 z)) None
| M_char z : means py d2f h KChar (GInt z) (OInt (stored py 1 z)) None
| M_long z : - 2 ^ 63 <= z < 2 ^ 63 -> means py d2f h KLong (GInt z) (OInt z) None
| M_long_out z : ~ - 2 ^ 63 <= z < 2 ^ 63 -> means py d2f h KLong (GInt z) (OInt (-1)) (Some OverflowError)
| M_long_other a : (forall z, a <> GInt z) -> means py d2f h KLong a (OInt (-1)) (Some TypeError)
| M_uint z : 0 <= z < 2 ^ 64 -> means py d2f h KUint (GInt z) (OInt (z mod 2 ^ 32)) None
| M_uint_out z : ~ 0 <= z < 2 ^ 64 -> means py d2f h KUint (GInt z) (OInt (2 ^ 32 - 1)) (Some OverflowError)
| M_uint_other a : (forall z, a <> GInt z) -> means py d2f h KUint a (OInt (2 ^ 32 - 1)) (Some TypeError)
| M_ull z : 0 <= z < 2 ^ 64 -> means py d2f h KUll (GInt z) (OInt z) None
| M_ull_out z : ~ 0 <= z < 2 ^ 64 -> means py d2f h KUll (GInt z) (OInt (2 ^ 64 - 1)) (Some OverflowError)
| M_ull_other a : (forall z, a <> GInt z) -> means py d2f h KUll a (OInt (2 ^ 64 - 1)) (Some TypeError)
| M_double b : means py d2f h KDouble (GFloat b) (OBytes (le_bytes 8 b)) None
| M_float b : means py d2f h KFloat (GFloat b) (OBytes (le_bytes 4 (d2f b))) None
| M_double_int z n : digit_count z n -> means py d2f h KDouble (GInt z) (OBytes (le_bytes 8 (int_word py z n))) None
| M_float_int z n : digit_count z n -> means py d2f h KFloat (GInt z) (OBytes (le_bytes 4 (d2f (int_word py z n)))) None.

Inductive all_mean (py : bool) (d2f : Z -> Z) (h : heap) : list opkind -> list parg -> list operand -> list (option exn) -> Prop :=
| A_nil : all_mean py d2f h [] [] [] []
| A_cons k a o e ks args ops es : means py d2f h k a o e -> all_mean py d2f h ks args ops es -> all_mean py d2f h (k :: ks) (a :: args) (o :: ops) (e :: es).

(** None is returned; the last error left behind stays set. *)
Fixpoint last_error (es : list (option exn)) : option exn :=
  match es with [] => None | e :: r => match last_error r with Some x => Some x | None => e end end.
Definition returns_none (es : list (option exn)) : outcome uval :=
  match last_error es with Some x => RetPending UNone x | None => Ret UNone end.

(** Number of arguments. *)
Definition arity (b : binding) : option nat :=
  match g_body b with BReg ks _ => Some (S (List.length ks)) | BMem ks => Some (List.length ks) | BGated n => Some n | BNone => None end.

(** * Names *)
Definition contains (p s : string) : bool := match index 0 p s with Some _ => true | None => false end.
Definition starts (p s : string) : bool := prefix p s.
Definition ends (p s : string) : bool :=
  let n := String.length s in let k := String.length p in (k <=? n)%nat && String.eqb (substring (n - k) k s) p.
(** Bytes of a mask: one bit per lane, 8 lanes of 64 bits or 16 of 32; the
    scalar operations use a byte. _mul_epi32 and _mul_epu32 give 64-bit lanes. *)
Definition mask_bytes (s : string) : nat :=
  if starts "_mm_" s then 1%nat
  else if negb (starts "_mm512" s) then 2%nat
  else if contains "64" s || contains "pd" s || (contains "mul_ep" s && negb (contains "reduce" s)) then 1%nat
  else 2%nat.
(** Bytes of the result, for the names that say it. *)
Definition result_bytes (s : string) : option nat :=
  if ends "_mask" s then Some (mask_bytes s)
  else if contains "reduce" s then Some (if contains "64" s || contains "pd" s then 8%nat else 4%nat)
  else if starts "_mm_" s && (ends "_ss" s || ends "_sd" s) then Some 16%nat
  else if negb (starts "_mm512" s) || contains "cvt" s || contains "cast" s || contains "zext" s || contains "mask2int" s || contains "int2mask" s || contains "_k" s then None
  else Some 64%nat.

(** * Plain loads and stores of 64 bytes: name, and whether the address has to be
    aligned; what the intrinsics do. *)
Definition plain_loads : list (string * bool) :=
  [("_mm512_load_pd", true); ("_mm512_load_ps", true); ("_mm512_load_epi64", true); ("_mm512_load_epi32", true); ("_mm512_load_si512", true);
   ("_mm512_stream_load_si512", true); ("_mm512_loadu_pd", false); ("_mm512_loadu_ps", false); ("_mm512_loadu_epi64", false);
   ("_mm512_loadu_epi32", false); ("_mm512_loadu_si512", false)]%string.
Definition plain_stores : list (string * bool) :=
  [("_mm512_store_pd", true); ("_mm512_store_ps", true); ("_mm512_store_epi64", true); ("_mm512_store_epi32", true); ("_mm512_store_si512", true);
   ("_mm512_stream_si512", true); ("_mm512_stream_ps", true); ("_mm512_stream_pd", true); ("_mm512_storeu_pd", false); ("_mm512_storeu_ps", false);
   ("_mm512_storeu_epi64", false); ("_mm512_storeu_epi32", false); ("_mm512_storeu_si512", false)]%string.
Definition load_sem (al : bool) (ops : list operand) (h : heap) : outcome (list Z * heap) :=
  match ops with
  | [OAddr p] => if al && negb (p mod 64 =? 0) then Undef Misaligned else omap (fun v => (v, h)) (hload h p 64)
  | _ => Undef NullDeref
  end.
Definition store_sem (al : bool) (ops : list operand) (h : heap) : outcome (list Z * heap) :=
  match ops with
  | [OAddr p; OBytes v] => if al && negb (p mod 64 =? 0) then Undef Misaligned else omap (fun h' => ([], h')) (hstore h p v)
  | _ => Undef NullDeref
  end.
(** [q] can be accessed for 64 bytes by such an intrinsic. *)
Definition usable64 (h : heap) (al : bool) (q : Z) : Prop := accessible h q 64 /\ (al = true -> q mod 64 = 0).

(** The stub's letter for an operand. *)
Definition stub_letter (k : opkind) : Ascii.ascii := match k with KReg _ | KPtr => "P" | _ => "i" end%char.
Fixpoint letters (ks : list opkind) : string := match ks with [] => EmptyString | k :: r => String (stub_letter k) (letters r) end.

(** Ints that have the same word where a float has its value. *)
Definition same_word (z z' : Z) : Prop := Z.sgn z = Z.sgn z' /\ exists n, digit_count z n /\ digit_count z' n.
(** Argument lists that differ only there. *)
Inductive alike : list opkind -> list parg -> list parg -> Prop :=
| L_nil ks : alike ks [] []
| L_same k ks a r r' : alike ks r r' -> alike (k :: ks) (a :: r) (a :: r')
| L_word k ks z z' r r' : k = KDouble \/ k = KFloat -> same_word z z' -> alike ks r r' -> alike (k :: ks) (GInt z :: r) (GInt z' :: r').

(** The operands of the intrinsic; the bytes an operand is read from. *)
Definition operands (b : binding) (args : list parg) : option (list opkind * list parg) :=
  match g_body b with
  | BReg ks _ => Some (ks, tl args)
  | BMem ks => Some (ks, args)
  | _ => None
  end.
Definition operand_width (k : opkind) : option nat := match k with KReg w => Some w | KPtr => Some 8%nat | _ => None end.

(** The setters: last argument in lane 0. *)
Definition set_sem (k : nat) (ops : list operand) (h : heap) : outcome (list Z * heap) :=
  Ret (mm_set k (map (fun o => match o with OInt z => z | _ => 0 end) ops), h).
Definition lane_kind (k : nat) : opkind := if Nat.eqb k 4 then KInt else if Nat.eqb k 2 then KShort else KChar.

(** [r'] is [r] with ints given for floats replaced by the floats read. *)
Inductive float_read (py : bool) : list opkind -> list parg -> list parg -> Prop :=
| F_nil ks : float_read py ks [] []
| F_same k ks a r r' : float_read py ks r r' -> float_read py (k :: ks) (a :: r) (a :: r')
| F_int k ks z n r r' : k = KDouble \/ k = KFloat -> digit_count z n -> float_read py ks r r' ->
    float_read py (k :: ks) (GInt z :: r) (GFloat (int_word py z n) :: r').
