(** unsafe/SIMDLowAVX512.cpp: the generated bindings of the AVX-512 intrinsics,
    x86 branch compiled with GCC or Clang. All bindings with a body have one of
    two shapes (for example 11-27 and 709-727):

      if (nargs != n) { TypeError }
      T1 arg1 = (T1) convert(args[1]); ...          T0 arg0 = (T0) convert(args[0]); ...
      *((T * ) PyLong_AsVoidPtr(args[0])) = f(arg1, ...);   f(arg0, ...);
      Py_RETURN_NONE;

    so the model is one function over a table row (Avx512Table.v). What the
    intrinsic computes is a parameter. Simplifications: an object that is neither
    int nor float has no __index__; reading the digits of a non-int is undefined. *)
From Coq Require Import ZArith List Bool Arith String.
From Verif Require Import Base PyLongModel MemModel UnsafeModel SimdBindModel.
Import ListNotations.
Local Open Scope Z_scope.

(** How an argument is converted. *)
Inductive opkind :=
| KReg (w : nat)   (* *((T * ) PyLong_AsVoidPtr(arg)), T of w bytes *)
| KPtr             (* *((void ** ) PyLong_AsVoidPtr(arg)) *)
| KInt             (* PyFast_AsInt(arg) *)
| KShort           (* PyFast_AsShort(arg) *)
| KChar            (* PyFast_AsChar(arg) *)
| KLong            (* PyLong_AsLongLong(arg) *)
| KUint            (* (unsigned int) PyLong_AsUnsignedLong(arg) *)
| KUll             (* PyLong_AsUnsignedLongLong(arg) *)
| KDouble          (* PyFloat_AS_DOUBLE(arg) *)
| KFloat.          (* (float) PyFloat_AS_DOUBLE(arg) *)
Definition R64 := KReg 64.   (* __m512, __m512d, __m512i *)
Definition R32 := KReg 32.   (* __m256, __m256d, __m256i *)
Definition R16 := KReg 16.   (* __m128, __m128d, __m128i *)
Definition M16 := KReg 2.    (* __mmask16 *)
Definition M8 := KReg 1.     (* __mmask8 *)

Inductive body :=
| BReg (ks : list opkind) (w : nat)   (* result of w bytes stored through args[0] *)
| BMem (ks : list opkind)             (* void *)
| BGated (n : nat)                    (* argument count checked, then NotImplementedError *)
| BNone.                              (* NotImplementedError *)
Record binding := { g_name : string; g_line : Z; g_body : body }.
Definition toreg (n : string) (l : Z) (ks : list opkind) (w : nat) : binding := {| g_name := n; g_line := l; g_body := BReg ks w |}.
Definition tomem (n : string) (l : Z) (ks : list opkind) : binding := {| g_name := n; g_line := l; g_body := BMem ks |}.
Definition gated (n : string) (l : Z) (k : nat) : binding := {| g_name := n; g_line := l; g_body := BGated k |}.
Definition unimpl (n : string) (l : Z) : binding := {| g_name := n; g_line := l; g_body := BNone |}.

(** Arguments: an int, a float (its 64 bits), something else. *)
Inductive parg := GInt (z : Z) | GFloat (bits : Z) | GOther.
Definition as_py (a : parg) : pyobj := match a with GInt z => PInt z | _ => PObj 0 end.

(** What the intrinsic receives: bytes, an address, a number. *)
Inductive operand := OBytes (b : bytes) | OAddr (a : Z) | OInt (z : Z).

Definition deref (w : nat) (a : parg) (h : heap) : outcome bytes :=
  match as_ptr (as_py a) with
  | Ret p => if p =? 0 then Undef NullDeref
             else if negb (p mod Z.of_nat w =? 0) then Undef Misaligned
             else hload h p (Z.of_nat w)
  | _ => Undef NullDeref
  end.

(** The 8 bytes after the object header of an int, where a float has its value:
    ob_size before 3.12, lv_tag from 3.12 on. *)
Definition size_field (py312 : bool) (z : Z) : Z :=
  let p := mk_pylong z in
  if py312 then 8 * Z.of_nat (List.length (pl_digits p)) + (if z <? 0 then 2 else if z =? 0 then 1 else 0)
  else pl_size p mod 2 ^ 64.
Definition as_double (py312 : bool) (a : parg) : outcome Z :=
  match a with GFloat b => Ret b | GInt z => Ret (size_field py312 z) | GOther => Undef OutOfBounds end.

Definition small (bits : Z) (py312 : bool) (a : parg) : outcome operand :=
  match a with GInt z => Ret (OInt (PyFast_AsSmall bits py312 (mk_pylong z))) | _ => Undef OutOfBounds end.
Definition ull (a : parg) : outcome Z :=
  match raw_ull (as_py a) with (v, None) => Ret v | (v, Some e) => RetPending v e end.

(** [d2f]: conversion of the bits of a double to the bits of a float. *)
Definition conv (py312 : bool) (d2f : Z -> Z) (k : opkind) (a : parg) (h : heap) : outcome operand :=
  match k with
  | KReg w => omap OBytes (deref w a h)
  | KPtr => omap (fun b => OAddr (le_val b)) (deref 8 a h)
  | KInt => match a with
            | GInt z => omap OInt (PyFast_AsInt py312 (mk_pylong z))
            | _ => if py312 then RetPending (OInt (-1)) TypeError else Undef OutOfBounds
            end
  | KShort => small 16 py312 a
  | KChar => small 8 py312 a
  | KLong => match a with
             | GInt z => if (- 2 ^ 63 <=? z) && (z <? 2 ^ 63) then Ret (OInt z) else RetPending (OInt (-1)) OverflowError
             | _ => RetPending (OInt (-1)) TypeError
             end
  | KUint => omap (fun v => OInt (v mod 2 ^ 32)) (ull a)
  | KUll => omap OInt (ull a)
  | KDouble => omap (fun b => OBytes (le_bytes 8 b)) (as_double py312 a)
  | KFloat => omap (fun b => OBytes (le_bytes 4 (d2f b))) (as_double py312 a)
  end.

Fixpoint convs (py312 : bool) (d2f : Z -> Z) (ks : list opkind) (args : list parg) (h : heap) : outcome (list operand) :=
  match ks, args with
  | k :: ks', a :: args' => obind (conv py312 d2f k a h) (fun o => omap (cons o) (convs py312 d2f ks' args' h))
  | _, _ => Ret []
  end.

(** SIMDLowAVX512_<name>; [sem]: the intrinsic, from its operands and the memory
    to its result and the new memory. *)
Definition avx_call (py312 : bool) (d2f : Z -> Z) (sem : list operand -> heap -> outcome (bytes * heap)) (b : binding) (args : list parg) (h : heap) : outcome uval * heap :=
  match g_body b with
  | BNone => (Raise NotImplementedError, h)
  | BGated n => (Raise (if Nat.eqb (List.length args) n then NotImplementedError else TypeError), h)
  | BReg ks w =>
      match args with
      | dst :: rest =>
          if Nat.eqb (List.length rest) (List.length ks)
          then done (obind (convs py312 d2f ks rest h) (fun ops => obind (sem ops h) (fun r => reg_store w (as_py dst) (fst r) (snd r)))) h
          else (Raise TypeError, h)
      | [] => (Raise TypeError, h)
      end
  | BMem ks =>
      if Nat.eqb (List.length args) (List.length ks)
      then done (obind (convs py312 d2f ks args h) (fun ops => omap snd (sem ops h))) h
      else (Raise TypeError, h)
  end.
