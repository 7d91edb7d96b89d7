(** Property theorems C63: the processor checks. MSVC reads leaf 7 without asking
    whether the processor has it, so [good_leaves] demands it there. *)
From Coq Require Import ZArith List Bool String Lia.
From Verif Require Import CpuModel CpuSpec CpuProofs.
Import ListNotations.
Local Open Scope string_scope.
Local Open Scope Z_scope.

(** The checks always answer: XGETBV is executed only where it exists. *)
Theorem C63_answers : forall f tc m, (tc = Msvc -> 1 <= max_leaf m) -> exists b, supported f tc m = Answer b.
Proof. exact never_faults. Qed.
Print Assumptions C63_answers.

(** The exported helper osSupportsAVX by itself: never faults, and is exact but
    for Apple builds. *)
Theorem C63_system : forall tc m, 1 <= max_leaf m ->
  exists b, osSupportsAVX tc m = Answer b /\ (b = true <-> tc <> GnuApple /\ saves m [1; 2]).
Proof. exact os_spec. Qed.
Print Assumptions C63_system.

(** The SSSE3, SSE4.1 and AVX2 constants are exact, except that Apple builds
    never use AVX2. *)
Theorem C63_exact : forall tc m, good_leaves tc m ->
  (supported FSsse3 tc m = Answer true <-> executes m SSSE3) /\
  (supported FSse41 tc m = Answer true <-> executes m SSE41) /\
  (supported FAvx2 tc m = Answer true <-> tc <> GnuApple /\ executes m AVX2).
Proof.
  intros tc m G. cbn [supported]. unfold isSSSE3Supported, isSSE41Supported, isAVX2Supported.
  destruct (leaf1_spec 9 tc m G) as (a & -> & A). destruct (leaf1_spec 19 tc m G) as (b & -> & B). destruct (leaf7_spec 5 tc m G) as (c & -> & C). cbn [executes].
  split; [|split]; (split; [intros [= ->]; tauto|intros H; f_equal; tauto]).
Qed.
Print Assumptions C63_exact.

(** The AVX-512 constant only asks for the foundation bit and for the registers
    AVX needs. It is true wherever AVX-512 can be used ... *)
Theorem C63_avx512 : forall tc m, good_leaves tc m ->
  (supported FAvx512 tc m = Answer true <-> tc <> GnuApple /\ has1 m 28 /\ has7 m 16 /\ saves m [1; 2]) /\
  (tc <> GnuApple -> executes m AVX512F -> supported FAvx512 tc m = Answer true).
Proof.
  intros tc m G. cbn [supported]. unfold isAVX512Supported. destruct (leaf7_spec 16 tc m G) as (c & -> & C). cbn [executes]. split.
  - split; [intros [= ->]; tauto|intros H; f_equal; tauto].
  - intros T (A & B & (O & D)). f_equal. apply C. repeat split; try assumption; try apply A; try apply B; try apply O. intros i I. apply D. cbn in *. tauto.
Qed.
Print Assumptions C63_avx512.

(** Every block guarded by a constant that is true can be executed, if for the
    AVX-512 blocks the system besides saves the wide registers and the processor
    has the byte and word instructions. *)
Theorem C63_blocks : forall tc m b, good_leaves tc m -> In b guarded -> supported (flag_of b) tc m = Answer true ->
  (flag_of b = FAvx512 -> saves m [5; 6; 7] /\ has7 m 30) -> executable m b.
Proof. exact blocks_execute. Qed.
Print Assumptions C63_blocks.

(** ... without the first no AVX-512 block can be executed, without the second
    not those that reverse 1- and 2-byte elements. *)
Theorem C63_unsaved : forall m b, In b guarded -> flag_of b = FAvx512 -> ~ saves m [5; 6; 7] -> ~ executable m b.
Proof. exact unsaved_not_executable. Qed.
Print Assumptions C63_unsaved.
Theorem C63_bytes_words : forall m b, In b guarded -> In (fst (fst b)) [("qreverse.hpp", 184); ("qreverse.hpp", 403)] -> ~ has7 m 30 -> ~ executable m b.
Proof. exact bw_not_executable. Qed.
Print Assumptions C63_bytes_words.

(** ** Machines *)
Definition mk (e1 e7 x : Z) : machine :=
  {| max_leaf := 13; cpuid := fun l _ => {| eax := 0; ebx := if l =? 7 then e7 else 0; ecx := if l =? 1 then e1 else 0; edx := 0 |}; xcr0 := x |}.
Definition bits (l : list Z) : Z := fold_right (fun i a => Z.lor (2 ^ i) a) 0 l.
(** Server with everything; the same with a system that saves no wide registers;
    one without byte and word instructions (Xeon Phi). *)
Definition server := mk (bits [9; 19; 27; 28]) (bits [5; 16; 30]) (bits [0; 1; 2; 5; 6; 7]).
Definition old_system := mk (bits [9; 19; 27; 28]) (bits [5; 16; 30]) (bits [0; 1; 2]).
Definition phi := mk (bits [9; 19; 27; 28]) (bits [5; 16]) (bits [0; 1; 2; 5; 6; 7]).
Definition no_xsave := mk (bits [9; 28]) (bits [5; 16; 30]) (bits [0; 1; 2]).
Example C63_ex : map (fun m => map (fun f => supported f GnuLinux m) [FSsse3; FSse41; FAvx2; FAvx512]) [server; old_system; phi; no_xsave] =
  [[Answer true; Answer true; Answer true; Answer true]; [Answer true; Answer true; Answer true; Answer true];
   [Answer true; Answer true; Answer true; Answer true]; [Answer true; Answer false; Answer false; Answer false]]
  /\ supported FAvx2 GnuApple server = Answer false /\ supported FAvx512 Msvc phi = Answer true.
Proof. vm_compute. repeat split; reflexivity. Qed.
Example C63_ex_server : executes server AVX512BW /\ good_leaves Msvc server /\ Forall (executable server) guarded.
Proof.
  assert (S : saves server [1; 2; 5; 6; 7]).
  { split; [split; [vm_compute; discriminate|reflexivity]|]. intros i I. cbn in I. destruct I as [<-|[<-|[<-|[<-|[<-|[]]]]]]; reflexivity. }
  assert (H : has1 server 28 /\ has7 server 16 /\ has7 server 30) by (repeat split; vm_compute; congruence).
  split; [split; [apply H|split; [apply H|split; [apply H|exact S]]]|]. split; [vm_compute; discriminate|]. apply Forall_forall. intros b B.
  apply (C63_blocks GnuLinux server b Logic.I B); [destruct (flag_of b); vm_compute; reflexivity|]. intros _. split; [|apply H]. destruct S as (O & S). split; [exact O|]. intros i I. apply S. cbn in *. tauto.
Qed.

(** So the constant does not mean that the blocks can be executed. *)
Theorem C63_avx512_refuted :
  ~ (forall tc m b, good_leaves tc m -> In b guarded -> supported (flag_of b) tc m = Answer true -> executable m b) /\
  ~ (forall tc m b, good_leaves tc m -> In b guarded -> supported (flag_of b) tc m = Answer true -> executes m AVX512F -> executable m b).
Proof.
  split; intros H.
  - refine (C63_unsaved old_system (nth 2 guarded ("", 0, FAvx2, [])) _ eq_refl _ (H GnuLinux old_system _ Logic.I _ _)).
    + vm_compute. tauto.
    + intros (_ & S). specialize (S 5 (or_introl eq_refl)). vm_compute in S. discriminate.
    + vm_compute. tauto.
    + vm_compute. reflexivity.
  - refine (C63_bytes_words phi (nth 18 guarded ("", 0, FAvx2, [])) _ _ _ (H GnuLinux phi _ Logic.I _ _ _)).
    + vm_compute. tauto.
    + left. reflexivity.
    + intros (_ & S). vm_compute in S. discriminate.
    + vm_compute. tauto.
    + vm_compute. reflexivity.
    + cbn. repeat split; try (vm_compute; congruence). intros i I. destruct I as [<-|[<-|[<-|[<-|[<-|[]]]]]]; reflexivity.
Qed.
Print Assumptions C63_avx512_refuted.

(** With MSVC a processor whose highest leaf is below 7 has that leaf's register
    tested instead. *)
Theorem C63_msvc_refuted : ~ (forall m, 1 <= max_leaf m -> supported FAvx2 Msvc m = Answer true -> executes m AVX2).
Proof.
  intros H. pose (m := {| max_leaf := 4; cpuid := fun l _ => {| eax := 0; ebx := 32; ecx := bits [27; 28]; edx := 0 |}; xcr0 := 7 |}).
  destruct (H m) as (_ & (A & _) & _); [vm_compute; discriminate|vm_compute; reflexivity|]. vm_compute in A. apply A. reflexivity.
Qed.
Print Assumptions C63_msvc_refuted.
