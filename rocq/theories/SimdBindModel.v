(** The Python-visible functions of unsafe/SIMD.cpp: vector setters over the C
    heap of UnsafeModel.v, and the copy and reverse wrappers.

    x86 branch (the #else branches for ARM only raise NotImplementedError).
    [__m512i*] and [__m256i*] are dereferenced directly, so the compiler may use
    aligned instructions: an address that is not a multiple of the register
    width is undefined. Simplification: the value arguments are ints
    (PyFast_AsShort and PyFast_AsChar read the size field of any object without
    a check). *)
From Coq Require Import ZArith List Bool Arith.
From Verif Require Import Base PyLongModel MemModel QReverseModel SimdCopyModel UnsafeModel.
Import ListNotations.
Local Open Scope Z_scope.

(** PyFast_AsInt, PyFast_AsShort, PyFast_AsChar by lane width in bytes. *)
Definition lane_arg (py312 : bool) (lane : nat) (z : Z) : outcome Z :=
  if Nat.eqb lane 4 then PyFast_AsInt py312 (mk_pylong z)
  else Ret (PyFast_AsSmall (8 * Z.of_nat lane) py312 (mk_pylong z)).

(** All of them, no result looked at. *)
Fixpoint lane_args (py312 : bool) (lane : nat) (zs : list Z) : outcome (list Z) :=
  match zs with
  | [] => Ret []
  | z :: r => obind (lane_arg py312 lane z) (fun x => omap (cons x) (lane_args py312 lane r))
  end.

(** *((__m512i * ) p) = v: [w] bytes. A failed PyLong_AsVoidPtr gives null. *)
Definition reg_store (w : nat) (ptr : pyobj) (v : bytes) (h : heap) : outcome heap :=
  match as_ptr ptr with
  | Ret a => if a =? 0 then Undef NullDeref
             else if negb (a mod Z.of_nat w =? 0) then Undef Misaligned
             else hstore h a v
  | _ => Undef NullDeref
  end.

(** setAVX512Vector32/16/8, 138-222 ([w] = 64), setAVX2Vector32/16/8, 224-286
    ([w] = 32); [args] without the leading pointer. *)
Definition simd_set (py312 : bool) (w lane : nat) (ptr : pyobj) (args : list Z) (h : heap) : outcome uval * heap :=
  if negb (Nat.eqb (length args) (w / lane)) then (Raise TypeError, h)
  else match lane_args py312 lane args with
       | Ret xs => done (reg_store w ptr (mm_set lane xs) h) h
       | RetPending xs e =>
           match reg_store w ptr (mm_set lane xs) h with
           | Ret h' => (RetPending UNone e, h')                  (* Py_RETURN_NONE with the error set *)
           | Undef u => (Undef u, h)
           | _ => (Raise SystemError, h)
           end
       | Raise e => (Raise e, h)
       | Undef u => (Undef u, h)
       end.

(** * The copy and reverse wrappers, on flat memory *)
(** PyLong_AsUnsignedLongLong and PyLong_AsSize_t, PyLong_AsVoidPtr, whose
    error is not looked at: the value they return on failure ([None]: null), and
    the error they leave. *)
Definition raw_ull (o : pyobj) : Z * option exn :=
  match o with PInt z => if (0 <=? z) && (z <? 2 ^ 64) then (z, None) else (2 ^ 64 - 1, Some OverflowError) | PObj _ => (2 ^ 64 - 1, Some TypeError) end.
Definition raw_ptr (o : pyobj) : option Z * option exn :=
  match o with PInt z => if (- 2 ^ 63 <=? z) && (z <? 2 ^ 64) then (Some (z mod 2 ^ 64), None) else (None, Some OverflowError) | PObj _ => (None, Some TypeError) end.
Definition raw_addr (ptr : bool) (o : pyobj) : option Z * option exn :=
  if ptr then raw_ptr o else let '(a, e) := raw_ull o in (Some a, e).
Definition later (a b : option exn) : option exn := match b with Some e => Some e | None => a end.
(** Py_RETURN_NONE, with or without an error set. *)
Definition none_or (e : option exn) (r : outcome bytes) : outcome (unit * bytes) :=
  match r, e with
  | Ret m, None => Ret (tt, m)
  | Ret m, Some x => RetPending (tt, m) x
  | RetPending m x, _ => RetPending (tt, m) x
  | Raise x, _ => Raise x
  | Undef u, _ => Undef u
  end.

(** [count] elements at [a] lie in the memory. *)
Definition fits (m : bytes) (es : nat) (a count : Z) : bool := a + count * Z.of_nat es <=? zlen m.

(** SIMD_memcpy, 35-53 ([al] = false), SIMD_memcpyAligned, 55-72. *)
Definition simd_memcpy_py (f : cpu) (al : bool) (es : nat) (args : list pyobj) (m : bytes) : outcome (unit * bytes) :=
  match args with
  | [from; to; n] =>
      let '(a, e1) := raw_addr al from in
      let '(b, e2) := raw_addr al to in
      let '(c, e3) := raw_ull n in
      none_or (later (later e1 e2) e3)
        (if c =? 0 then Ret m
         else match a, b with
              | Some a, Some b =>
                  if fits m es a c && fits m es b c then simd_memcpy f al es (Z.to_nat a) (Z.to_nat b) (Z.to_nat c) m
                  else Undef OutOfBounds
              | _, _ => Undef NullDeref
              end)
  | _ => Raise TypeError
  end.

(** SIMD_reverse, 74-91. *)
Definition simd_reverse_py (f : cpu) (es : nat) (args : list pyobj) (m : bytes) : outcome (unit * bytes) :=
  match args with
  | [addr; n] =>
      let '(a, e1) := raw_ptr addr in
      let '(c, e2) := raw_ull n in
      none_or (later e1 e2)
        (if c =? 0 then Ret m
         else match a with
              | Some a =>
                  if fits m es a c
                  then omap (fun r => firstn (Z.to_nat a) m ++ r ++ skipn (Z.to_nat a + Z.to_nat c * es) m)
                            (qreverse f es (Z.to_nat c) (firstn (Z.to_nat c * es) (skipn (Z.to_nat a) m)))
                  else Undef OutOfBounds
              | None => Undef NullDeref
              end)
  | _ => Raise TypeError
  end.
