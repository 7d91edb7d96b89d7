(** Proofs about the processor checks. *)
From Coq Require Import ZArith List Bool String Lia.
From Verif Require Import CpuModel CpuSpec.
Import ListNotations.
Local Open Scope string_scope.
Local Open Scope Z_scope.

Lemma land6 x : Z.land x 6 =? 6 = Z.testbit x 1 && Z.testbit x 2.
Proof.
  destruct (Z.testbit x 1) eqn:A, (Z.testbit x 2) eqn:B; cbn [andb].
  - apply Z.eqb_eq. apply Z.bits_inj'. intros n N. rewrite Z.land_spec. destruct (Z.eq_dec n 0) as [->|]; [apply andb_false_r|].
    destruct (Z.eq_dec n 1) as [->|]; [rewrite A; reflexivity|]. destruct (Z.eq_dec n 2) as [->|]; [rewrite B; reflexivity|].
    rewrite (Z.bits_above_log2 6 n) by (try lia; change (Z.log2 6) with 2; lia). apply andb_false_r.
  - apply Z.eqb_neq. intros E. assert (X : Z.testbit (Z.land x 6) 2 = true) by (rewrite E; reflexivity). rewrite Z.land_spec, B in X. discriminate.
  - apply Z.eqb_neq. intros E. assert (X : Z.testbit (Z.land x 6) 1 = true) by (rewrite E; reflexivity). rewrite Z.land_spec, A in X. discriminate.
  - apply Z.eqb_neq. intros E. assert (X : Z.testbit (Z.land x 6) 1 = true) by (rewrite E; reflexivity). rewrite Z.land_spec, A in X. discriminate.
Qed.


(** What a check of leaf 7 answers. *)
Lemma leaf7_spec bit tc m : good_leaves tc m -> exists b, leaf7_check bit tc m = Answer b /\
  (b = true <-> tc <> GnuApple /\ has1 m 28 /\ has7 m bit /\ saves m [1; 2]).
Proof.
  intros G. unfold leaf7_check, osSupportsAVX, xgetbv, get_cpuid, raw_cpuid, saves, has1, has7.
  assert (SV : forall x, (Z.land x 6 =? 6) = true <-> (forall i, In i [1; 2] -> Z.testbit x i = true)).
  { intros x. rewrite land6, andb_true_iff. split; [intros (A & B) i [<-|[<-|[]]]; assumption|]. intros H. split; apply H; cbn; auto. }
  destruct tc; cbn [good_leaves] in G.
  - destruct (Z.leb_spec 1 (max_leaf m)); [|eexists; split; [reflexivity|]; split; [discriminate|intros (_ & (A & _) & _); lia]].
    destruct (Z.testbit (ecx (cpuid m 1 0)) 28) eqn:B28; cbn [negb orb]; [|eexists; split; [reflexivity|]; split; [discriminate|intros (_ & (_ & A) & _); discriminate]].
    destruct (Z.testbit (ecx (cpuid m 1 0)) 27) eqn:B27; cbn [negb orb then_check]; [|eexists; split; [reflexivity|]; split; [discriminate|intros (_ & _ & _ & (_ & A) & _); discriminate]].
    destruct (Z.land (xcr0 m) 6 =? 6) eqn:L; cbn [negb].
    + destruct (Z.leb_spec 7 (max_leaf m)); eexists; (split; [reflexivity|]).
      * split; [intros X|intros (_ & _ & (_ & X) & _); exact X]. repeat split; auto; try discriminate. apply SV. exact L.
      * split; [discriminate|]. intros (_ & _ & (A & _) & _). lia.
    + eexists; split; [reflexivity|]. split; [discriminate|]. intros (_ & _ & _ & _ & A). apply SV in A. congruence.
  - destruct (Z.leb_spec 1 (max_leaf m)); [|eexists; split; [reflexivity|]; split; [discriminate|tauto]].
    destruct (negb _ || negb _); [eexists; split; [reflexivity|]; split; [discriminate|tauto]|].
    destruct (negb (Z.testbit (ecx (cpuid m 1 0)) 27)); eexists; (split; [reflexivity|]); (split; [discriminate|tauto]).
  - replace (Z.min 1 (max_leaf m)) with 1 by lia. replace (Z.min 7 (max_leaf m)) with 7 by lia.
    destruct (Z.testbit (ecx (cpuid m 1 0)) 28) eqn:B28; cbn [negb orb]; [|eexists; split; [reflexivity|]; split; [discriminate|intros (_ & (_ & A) & _); discriminate]].
    destruct (Z.testbit (ecx (cpuid m 1 0)) 27) eqn:B27; cbn [negb orb then_check]; [|eexists; split; [reflexivity|]; split; [discriminate|intros (_ & _ & _ & (_ & A) & _); discriminate]].
    destruct (Z.land (xcr0 m) 6 =? 6) eqn:L; cbn [negb]; eexists; (split; [reflexivity|]).
    + split; [intros X|intros (_ & _ & (_ & X) & _); exact X]. repeat split; auto; try discriminate; try lia. apply SV. exact L.
    + split; [discriminate|]. intros (_ & _ & _ & _ & A). apply SV in A. congruence.
Qed.
Lemma os_spec tc m : 1 <= max_leaf m -> exists b, osSupportsAVX tc m = Answer b /\ (b = true <-> tc <> GnuApple /\ saves m [1; 2]).
Proof.
  intros G. unfold osSupportsAVX, xgetbv, get_cpuid, raw_cpuid, saves, has1. rewrite (proj2 (Z.leb_le 1 (max_leaf m)) G).
  replace (Z.min 1 (max_leaf m)) with 1 by lia.
  assert (SV : forall x, (Z.land x 6 =? 6) = true <-> (forall i, In i [1; 2] -> Z.testbit x i = true)).
  { intros x. rewrite land6, andb_true_iff. split; [intros (A & B) i [<-|[<-|[]]]; assumption|]. intros H. split; apply H; cbn; auto. }
  destruct (Z.testbit (ecx (cpuid m 1 0)) 27) eqn:B; cbn [negb].
  - specialize (SV (xcr0 m)). destruct tc; eexists; (split; [reflexivity|]).
    + rewrite SV. split; [intros H; split; [discriminate|auto]|tauto].
    + split; [discriminate|tauto].
    + rewrite SV. split; [intros H; split; [discriminate|auto]|tauto].
  - destruct tc; eexists; (split; [reflexivity|]); (split; [discriminate|intros (_ & (_ & X) & _); discriminate]).
Qed.
Lemma leaf1_spec bit tc m : good_leaves tc m -> exists b, leaf1_check bit tc m = Answer b /\ (b = true <-> has1 m bit).
Proof.
  intros G. unfold leaf1_check, get_cpuid, raw_cpuid, has1. destruct tc; cbn [good_leaves] in G.
  3:{ replace (Z.min 1 (max_leaf m)) with 1 by lia. eexists; split; [reflexivity|]. split; [intros; split; [lia|assumption]|tauto]. }
  all: destruct (Z.leb_spec 1 (max_leaf m)); eexists; (split; [reflexivity|]); (split; [intros X; try discriminate; split; auto|intros (A & B); try exact B; lia]).
Qed.

(** No check faults, on any machine. *)
Lemma never_faults f tc m : (tc = Msvc -> 1 <= max_leaf m) -> exists b, supported f tc m = Answer b.
Proof.
  intros M. assert (L7 : forall bit, exists b, leaf7_check bit tc m = Answer b).
  { intros bit. unfold leaf7_check, osSupportsAVX, xgetbv, get_cpuid, raw_cpuid. destruct tc.
    - destruct (1 <=? max_leaf m); [|eauto]. destruct (Z.testbit (ecx (cpuid m 1 0)) 28), (Z.testbit (ecx (cpuid m 1 0)) 27); cbn; eauto. destruct (_ =? 6); cbn; eauto. destruct (7 <=? max_leaf m); eauto.
    - destruct (1 <=? max_leaf m); [|eauto]. destruct (Z.testbit (ecx (cpuid m 1 0)) 28), (Z.testbit (ecx (cpuid m 1 0)) 27); cbn; eauto.
    - replace (Z.min 1 (max_leaf m)) with 1 by (specialize (M eq_refl); lia). destruct (Z.testbit (ecx (cpuid m 1 0)) 28), (Z.testbit (ecx (cpuid m 1 0)) 27); cbn; eauto. destruct (_ =? 6); cbn; eauto. }
  assert (L1 : forall bit, exists b, leaf1_check bit tc m = Answer b).
  { intros bit. unfold leaf1_check. destruct tc; [| |eauto]; destruct (get_cpuid m 1 0); eauto. }
  destruct f; [apply L7|apply L7|apply L1|apply L1].
Qed.

(** The blocks. *)
Definition ext_in (l : list ext) (e : ext) : bool :=
  existsb (fun x => match x, e with SSE2, SSE2 | SSSE3, SSSE3 | SSE41, SSE41 | AVX, AVX | AVX2, AVX2 | AVX512F, AVX512F | AVX512BW, AVX512BW => true | _, _ => false end) l.
Definition allowed (f : cpu_flag) : list ext := match f with FAvx512 => [AVX512F; AVX512BW] | FAvx2 => [AVX; AVX2] | FSse41 => [SSE2; SSE41] | FSsse3 => [SSE2; SSSE3] end.
Lemma ext_in_ok l e : ext_in l e = true -> In e l.
Proof. unfold ext_in. rewrite existsb_exists. intros (x & I & H). destruct x, e; try discriminate; exact I. Qed.
Lemma blocks_checked : forallb (fun b => forallb (fun i => match extension i with Some e => ext_in (allowed (flag_of b)) e | None => false end) (snd b)) guarded = true.
Proof. vm_compute. reflexivity. Qed.
Lemma block_exts b i : In b guarded -> In i (snd b) -> exists e, extension i = Some e /\ In e (allowed (flag_of b)).
Proof.
  intros B I. pose proof blocks_checked as C. rewrite forallb_forall in C. specialize (C b B). rewrite forallb_forall in C. specialize (C i I). destruct (extension i) as [e|]; [|discriminate]. exists e. split; [reflexivity|apply ext_in_ok, C].
Qed.

(** A block whose constant is true can be executed; blocks of the AVX-512
    constant if besides the system saves the registers and the processor has
    the byte and word instructions. *)
Theorem blocks_execute tc m b : good_leaves tc m -> In b guarded -> supported (flag_of b) tc m = Answer true ->
  (flag_of b = FAvx512 -> saves m [5; 6; 7] /\ has7 m 30) -> executable m b.
Proof.
  intros G B S Z5 i I. destruct (block_exts b i B I) as (e & E & A). exists e. split; [exact E|]. destruct (flag_of b) eqn:F; cbn [supported allowed] in *.
  - destruct (leaf7_spec 5 tc m G) as (r & R & T). unfold isAVX2Supported in S. rewrite S in R. injection R as <-. destruct (proj1 T eq_refl) as (_ & H28 & H5 & SV).
    destruct A as [<-|[<-|[]]]; cbn; auto.
  - destruct (leaf7_spec 16 tc m G) as (r & R & T). unfold isAVX512Supported in S. rewrite S in R. injection R as <-. destruct (proj1 T eq_refl) as (_ & H28 & H16 & SV).
    destruct (Z5 eq_refl) as (S5 & H30). assert (SA : saves m [1; 2; 5; 6; 7]).
    { destruct SV as (O & X). destruct S5 as (_ & Y). split; [exact O|]. intros j J. cbn [In] in J. destruct J as [<-|[<-|[<-|[<-|[<-|[]]]]]]; [apply X|apply X|apply Y|apply Y|apply Y]; cbn; auto. }
    destruct A as [<-|[<-|[]]]; cbn; auto.
  - destruct (leaf1_spec 19 tc m G) as (r & R & T). unfold isSSE41Supported in S. rewrite S in R. injection R as <-. destruct A as [<-|[<-|[]]]; cbn; [exact Logic.I|apply T; reflexivity].
  - destruct (leaf1_spec 9 tc m G) as (r & R & T). unfold isSSSE3Supported in S. rewrite S in R. injection R as <-. destruct A as [<-|[<-|[]]]; cbn; [exact Logic.I|apply T; reflexivity].
Qed.

(** A machine with the AVX-512 constant where the system does not save the wide
    registers executes none of the AVX-512 blocks. *)
Lemma avx512_blocks_nonempty : forallb (fun b => match flag_of b with FAvx512 => match snd b with [] => false | _ => true end | _ => true end) guarded = true.
Proof. vm_compute. reflexivity. Qed.
Theorem unsaved_not_executable m b : In b guarded -> flag_of b = FAvx512 -> ~ saves m [5; 6; 7] -> ~ executable m b.
Proof.
  intros B F N X. pose proof avx512_blocks_nonempty as C. rewrite forallb_forall in C. specialize (C b B). rewrite F in C.
  destruct (snd b) as [|i r] eqn:E; [discriminate|]. destruct (X i) as (e & Ee & Ex); [rewrite E; left; reflexivity|].
  destruct (block_exts b i B) as (e' & Ee' & A); [rewrite E; left; reflexivity|]. rewrite Ee in Ee'. injection Ee' as <-. rewrite F in A. cbn in A.
  apply N. destruct A as [<-|[<-|[]]]; cbn in Ex; destruct Ex as (_ & _ & Ex); [|destruct Ex as (_ & Ex)]; destruct Ex as (O & Y); (split; [exact O|]); intros j J; apply Y; cbn in *; tauto.
Qed.
(** The blocks that need the byte and word instructions. *)
Lemma bw_blocks : forall b, In b guarded -> ((exists i, In i (snd b) /\ extension i = Some AVX512BW) <-> In (fst (fst b)) [("qreverse.hpp", 184); ("qreverse.hpp", 403)]).
Proof.
  assert (C : forallb (fun b => Bool.eqb (existsb (fun i => match extension i with Some AVX512BW => true | _ => false end) (snd b))
     (existsb (fun p => String.eqb (fst p) (fst (fst (fst b))) && (snd p =? snd (fst (fst b)))) [("qreverse.hpp", 184); ("qreverse.hpp", 403)])) guarded = true) by (vm_compute; reflexivity).
  intros b B. rewrite forallb_forall in C. specialize (C b B). apply Bool.eqb_prop in C.
  split.
  - intros (i & I & E). assert (T : existsb (fun i => match extension i with Some AVX512BW => true | _ => false end) (snd b) = true) by (apply existsb_exists; exists i; split; [exact I|rewrite E; reflexivity]).
    rewrite C in T. apply existsb_exists in T. destruct T as ((f & l) & I2 & E2). cbn [fst snd] in E2. apply andb_prop in E2. destruct E2 as (E3 & E4). apply String.eqb_eq in E3. apply Z.eqb_eq in E4. subst. destruct (fst (fst b)). exact I2.
  - intros I. assert (T : existsb (fun p => String.eqb (fst p) (fst (fst (fst b))) && (snd p =? snd (fst (fst b)))) [("qreverse.hpp", 184); ("qreverse.hpp", 403)] = true).
    { apply existsb_exists. exists (fst (fst b)). split; [exact I|]. rewrite String.eqb_refl, Z.eqb_refl. reflexivity. }
    rewrite <- C in T. apply existsb_exists in T. destruct T as (i & I2 & E). exists i. split; [exact I2|]. destruct (extension i) as [[]|]; try discriminate. reflexivity.
Qed.
Theorem bw_not_executable m b : In b guarded -> In (fst (fst b)) [("qreverse.hpp", 184); ("qreverse.hpp", 403)] -> ~ has7 m 30 -> ~ executable m b.
Proof.
  intros B P N X. apply (bw_blocks b B) in P. destruct P as (i & I & E). destruct (X i I) as (e & Ee & Ex). rewrite E in Ee. injection Ee as <-. cbn in Ex. tauto.
Qed.
