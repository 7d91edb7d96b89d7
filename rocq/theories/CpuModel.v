(** utils/simd/SIMDHelper.cpp: how the extension decides which vector
    instructions it may use, and the blocks of instructions guarded by these
    decisions. Of the CPU the model has CPUID and the register XCR0; executing
    XGETBV without operating system support is a fault. *)
From Coq Require Import ZArith List Bool String.
Import ListNotations.
Local Open Scope string_scope.
Local Open Scope Z_scope.

Record regs := { eax : Z; ebx : Z; ecx : Z; edx : Z }.
(** [cpuid leaf subleaf] for leaves up to [max_leaf], at least 1 on a processor
    that has the instruction as used here. *)
Record machine := { max_leaf : Z; cpuid : Z -> Z -> regs; xcr0 : Z }.

(** Result of a check: an answer, or a read of an uninitialised variable or a
    faulting instruction. *)
Inductive check := Answer (b : bool) | Fault.
Definition then_check (c : check) (f : bool -> check) : check := match c with Answer b => f b | Fault => Fault end.

(** GCC and Clang: __get_cpuid and __get_cpuid_count of cpuid.h return 0 for
    leaves the processor does not have. *)
Definition get_cpuid (m : machine) (leaf sub : Z) : option regs := if leaf <=? max_leaf m then Some (cpuid m leaf sub) else None.
(** MSVC: __cpuid and __cpuidex execute the instruction, which answers for the
    highest leaf when it does not have the one asked for. *)
Definition raw_cpuid (m : machine) (leaf sub : Z) : regs := cpuid m (Z.min leaf (max_leaf m)) sub.
(** XGETBV faults unless CPUID.1:ECX.OSXSAVE. *)
Definition xgetbv (m : machine) : option Z := if Z.testbit (ecx (cpuid m 1 0)) 27 then Some (xcr0 m) else None.

Inductive toolchain := GnuLinux | GnuApple | Msvc.

(** osSupportsAVX: MSVC 30-44, GCC and Clang 120-148 (on Apple it answers false). *)
Definition osSupportsAVX (tc : toolchain) (m : machine) : check :=
  let by_xgetbv := match xgetbv m with Some x => Answer (Z.land x 6 =? 6) | None => Fault end in
  match tc with
  | Msvc => if negb (Z.testbit (ecx (raw_cpuid m 1 0)) 27) then Answer false else by_xgetbv
  | _ => match get_cpuid m 1 0 with
         | None => Fault
         | Some r => if negb (Z.testbit (ecx r) 27) then Answer false
                     else match tc with GnuApple => Answer false | _ => by_xgetbv end
         end
  end.

(** The common text of isAVX2Supported (MSVC 46-64, GCC and Clang 150-175) and
    isAVX512Supported (66-87, 177-202); [bit] is 5 or 16. *)
Definition leaf7_check (bit : Z) (tc : toolchain) (m : machine) : check :=
  match (match tc with Msvc => Some (raw_cpuid m 1 0) | _ => get_cpuid m 1 0 end) with
  | None => Answer false
  | Some r =>
      if negb (Z.testbit (ecx r) 28) || negb (Z.testbit (ecx r) 27) then Answer false
      else then_check (osSupportsAVX tc m) (fun os =>
           if negb os then Answer false
           else match (match tc with Msvc => Some (raw_cpuid m 7 0) | _ => get_cpuid m 7 0 end) with
                | None => Answer false
                | Some r7 => Answer (Z.testbit (ebx r7) bit)
                end)
  end.
Definition isAVX2Supported := leaf7_check 5.
Definition isAVX512Supported := leaf7_check 16.

(** isSSE41Supported (MSVC 89-99, GCC and Clang 204-213) and isSSSE3Supported
    (101-111, 215-224); [bit] is 19 or 9. *)
Definition leaf1_check (bit : Z) (tc : toolchain) (m : machine) : check :=
  match tc with
  | Msvc => Answer (Z.testbit (ecx (raw_cpuid m 1 0)) bit)
  | _ => match get_cpuid m 1 0 with Some r => Answer (Z.testbit (ecx r) bit) | None => Answer false end
  end.
Definition isSSE41Supported := leaf1_check 19.
Definition isSSSE3Supported := leaf1_check 9.

(** The constants, 301-307. *)
Inductive cpu_flag := FAvx2 | FAvx512 | FSse41 | FSsse3.
Definition supported (f : cpu_flag) : toolchain -> machine -> check :=
  match f with FAvx2 => isAVX2Supported | FAvx512 => isAVX512Supported | FSse41 => isSSE41Supported | FSsse3 => isSSSE3Supported end.

(** The blocks guarded by the constants: file, line, constant, intrinsics of the
    block and of the functions it calls. Generated by a script from
    utils/simd/BitonicSort.cpp, utils/include/qreverse.hpp and
    utils/simd/SIMDUtils.h. *)
Definition guarded : list (string * Z * cpu_flag * list string) := [
  ("BitonicSort.cpp", 46, FAvx2, ["_mm256_set_epi32"]);
  ("BitonicSort.cpp", 49, FAvx512, ["_mm512_set_epi32"]);
  ("BitonicSort.cpp", 131, FAvx512, ["_mm512_load_si512"; "_mm512_min_epi32"; "_mm512_store_si512"]);
  ("BitonicSort.cpp", 145, FAvx2, ["_mm256_load_si256"; "_mm256_min_epi32"; "_mm256_store_si256"]);
  ("BitonicSort.cpp", 159, FSse41, ["_mm_load_si128"; "_mm_min_epi32"; "_mm_store_si128"]);
  ("BitonicSort.cpp", 196, FAvx512, ["_mm512_load_si512"; "_mm512_min_epi32"; "_mm512_store_si512"]);
  ("BitonicSort.cpp", 210, FAvx2, ["_mm256_load_si256"; "_mm256_min_epi32"; "_mm256_store_si256"]);
  ("BitonicSort.cpp", 224, FSse41, ["_mm_load_si128"; "_mm_min_epi32"; "_mm_store_si128"]);
  ("BitonicSort.cpp", 262, FAvx512, ["_mm512_load_si512"; "_mm512_max_epi32"; "_mm512_store_si512"]);
  ("BitonicSort.cpp", 274, FAvx2, ["_mm256_load_si256"; "_mm256_max_epi32"; "_mm256_store_si256"]);
  ("BitonicSort.cpp", 286, FSse41, ["_mm_load_si128"; "_mm_max_epi32"; "_mm_store_si128"]);
  ("BitonicSort.cpp", 322, FAvx512, ["_mm512_load_si512"; "_mm512_max_epi32"; "_mm512_store_si512"]);
  ("BitonicSort.cpp", 334, FAvx2, ["_mm256_load_si256"; "_mm256_max_epi32"; "_mm256_store_si256"]);
  ("BitonicSort.cpp", 346, FSse41, ["_mm_load_si128"; "_mm_max_epi32"; "_mm_store_si128"]);
  ("BitonicSort.cpp", 507, FAvx512, ["_mm512_load_si512"; "_mm512_max_epi32"; "_mm512_min_epi32"; "_mm512_permutexvar_epi32"; "_mm512_store_si512"]);
  ("BitonicSort.cpp", 525, FAvx2, ["_mm256_load_si256"; "_mm256_max_epi32"; "_mm256_min_epi32"; "_mm256_permutevar8x32_epi32"; "_mm256_store_si256"]);
  ("BitonicSort.cpp", 620, FAvx512, ["_mm512_load_si512"; "_mm512_max_epi32"; "_mm512_min_epi32"; "_mm512_permutexvar_epi32"; "_mm512_store_si512"]);
  ("BitonicSort.cpp", 638, FAvx2, ["_mm256_load_si256"; "_mm256_max_epi32"; "_mm256_min_epi32"; "_mm256_permutevar8x32_epi32"; "_mm256_store_si256"]);
  ("qreverse.hpp", 184, FAvx512, ["_mm512_loadu_si512"; "_mm512_permutexvar_epi64"; "_mm512_set_epi32"; "_mm512_set_epi64"; "_mm512_shuffle_epi8"; "_mm512_storeu_si512"]);
  ("qreverse.hpp", 230, FAvx2, ["_mm256_loadu_si256"; "_mm256_permute2x128_si256"; "_mm256_set_epi8"; "_mm256_shuffle_epi8"; "_mm256_storeu_si256"]);
  ("qreverse.hpp", 266, FSsse3, ["_mm_loadu_si128"; "_mm_set_epi8"; "_mm_shuffle_epi8"; "_mm_storeu_si128"]);
  ("qreverse.hpp", 403, FAvx512, ["_mm512_loadu_si512"; "_mm512_permutexvar_epi16"; "_mm512_set_epi64"; "_mm512_storeu_si512"]);
  ("qreverse.hpp", 443, FAvx2, ["_mm256_loadu_si256"; "_mm256_permute2x128_si256"; "_mm256_set_epi8"; "_mm256_shuffle_epi8"; "_mm256_storeu_si256"]);
  ("qreverse.hpp", 478, FSsse3, ["_mm_loadu_si128"; "_mm_set_epi8"; "_mm_shuffle_epi8"; "_mm_storeu_si128"]);
  ("qreverse.hpp", 562, FAvx512, ["_mm512_loadu_si512"; "_mm512_permutexvar_epi32"; "_mm512_set_epi32"; "_mm512_storeu_si512"]);
  ("qreverse.hpp", 595, FAvx2, ["_mm256_loadu_si256"; "_mm256_permute2x128_si256"; "_mm256_shuffle_epi32"; "_mm256_storeu_si256"]);
  ("qreverse.hpp", 626, FSsse3, ["_mm_loadu_si128"; "_mm_shuffle_epi32"; "_mm_storeu_si128"]);
  ("qreverse.hpp", 705, FAvx512, ["_mm512_loadu_si512"; "_mm512_permutexvar_epi64"; "_mm512_set_epi64"; "_mm512_storeu_si512"]);
  ("qreverse.hpp", 738, FAvx2, ["_mm256_alignr_epi8"; "_mm256_loadu_si256"; "_mm256_permute2x128_si256"; "_mm256_storeu_si256"]);
  ("qreverse.hpp", 769, FSsse3, ["_mm_alignr_epi8"; "_mm_loadu_si128"; "_mm_storeu_si128"]);
  ("qreverse.hpp", 848, FAvx512, ["_mm512_loadu_si512"; "_mm512_permutexvar_epi64"; "_mm512_set_epi64"; "_mm512_storeu_si512"]);
  ("qreverse.hpp", 881, FAvx2, ["_mm256_loadu_si256"; "_mm256_permute4x64_epi64"; "_mm256_storeu_si256"]);
  ("SIMDUtils.h", 52, FAvx512, ["_mm512_loadu_si512"; "_mm512_storeu_si512"]);
  ("SIMDUtils.h", 64, FAvx2, ["_mm256_loadu_si256"; "_mm256_storeu_si256"]);
  ("SIMDUtils.h", 76, FSse41, ["_mm_loadu_si128"; "_mm_storeu_si128"]);
  ("SIMDUtils.h", 123, FAvx512, ["_mm512_load_si512"; "_mm512_store_si512"]);
  ("SIMDUtils.h", 135, FAvx2, ["_mm256_load_si256"; "_mm256_store_si256"]);
  ("SIMDUtils.h", 147, FSse41, ["_mm_load_si128"; "_mm_store_si128"])
].
