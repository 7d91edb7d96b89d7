(** What a processor needs to execute vector instructions, after the Intel
    manual (volume 1, chapters 12 to 15): a feature bit, and for the wide
    registers that the operating system saves them. *)
From Coq Require Import ZArith List Bool String.
From Verif Require Import CpuModel.
Import ListNotations.
Local Open Scope string_scope.
Local Open Scope Z_scope.

Inductive ext := SSE2 | SSSE3 | SSE41 | AVX | AVX2 | AVX512F | AVX512BW.

Definition has1 (m : machine) (bit : Z) : Prop := 1 <= max_leaf m /\ Z.testbit (ecx (cpuid m 1 0)) bit = true.
Definition has7 (m : machine) (bit : Z) : Prop := 7 <= max_leaf m /\ Z.testbit (ebx (cpuid m 7 0)) bit = true.
(** The operating system saves these parts of the state: 1 XMM, 2 YMM, 5 opmask,
    6 and 7 ZMM. *)
Definition saves (m : machine) (parts : list Z) : Prop := has1 m 27 /\ forall i, In i parts -> Z.testbit (xcr0 m) i = true.

Definition executes (m : machine) (e : ext) : Prop :=
  match e with
  | SSE2 => True
  | SSSE3 => has1 m 9
  | SSE41 => has1 m 19
  | AVX => has1 m 28 /\ saves m [1; 2]
  | AVX2 => has1 m 28 /\ has7 m 5 /\ saves m [1; 2]
  | AVX512F => has1 m 28 /\ has7 m 16 /\ saves m [1; 2; 5; 6; 7]
  | AVX512BW => has1 m 28 /\ has7 m 16 /\ has7 m 30 /\ saves m [1; 2; 5; 6; 7]
  end.

(** The extension an intrinsic belongs to, after Intel's intrinsics guide. *)
Definition extension (i : string) : option ext :=
  let is l := existsb (String.eqb i) l in
  if is ["_mm_load_si128"; "_mm_store_si128"; "_mm_loadu_si128"; "_mm_storeu_si128"; "_mm_shuffle_epi32"; "_mm_set_epi8"] then Some SSE2
  else if is ["_mm_shuffle_epi8"; "_mm_alignr_epi8"] then Some SSSE3
  else if is ["_mm_min_epi32"; "_mm_max_epi32"] then Some SSE41
  else if is ["_mm256_load_si256"; "_mm256_store_si256"; "_mm256_loadu_si256"; "_mm256_storeu_si256"; "_mm256_set_epi8"; "_mm256_set_epi32"] then Some AVX
  else if is ["_mm256_min_epi32"; "_mm256_max_epi32"; "_mm256_permutevar8x32_epi32"; "_mm256_shuffle_epi8"; "_mm256_shuffle_epi32"; "_mm256_alignr_epi8"; "_mm256_permute2x128_si256"; "_mm256_permute4x64_epi64"] then Some AVX2
  else if is ["_mm512_load_si512"; "_mm512_store_si512"; "_mm512_loadu_si512"; "_mm512_storeu_si512"; "_mm512_set_epi32"; "_mm512_set_epi64"; "_mm512_min_epi32"; "_mm512_max_epi32"; "_mm512_permutexvar_epi32"; "_mm512_permutexvar_epi64"] then Some AVX512F
  else if is ["_mm512_shuffle_epi8"; "_mm512_permutexvar_epi16"] then Some AVX512BW
  else None.
(** Every instruction of a block can be executed. *)
Definition executable (m : machine) (block : string * Z * cpu_flag * list string) : Prop :=
  forall i, In i (snd block) -> exists e, extension i = Some e /\ executes m e.
Definition flag_of (block : string * Z * cpu_flag * list string) : cpu_flag := snd (fst block).

(** MSVC builds read leaf 7 without asking whether the processor has it. *)
Definition good_leaves (tc : toolchain) (m : machine) : Prop := match tc with Msvc => 7 <= max_leaf m | _ => True end.
