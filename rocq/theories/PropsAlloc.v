(** C69: running out of memory in the integer array lists. *)
From Coq Require Import ZArith List Bool Arith Lia.
From Verif Require Import Base PyLongProofs PyListSpec MemModel ArrayListModel ArrayListProofs ArrayListMoreModel ArrayListMulProofs SimdSortModel
  AllocModel AllocSpec AllocProofs AllocMore PropsArrayList.
Import ListNotations.
Local Open Scope Z_scope.

(** A library as in libstdc++: doubling, capped; it refuses the requests in
    [no]. *)
Definition ex_max (k : kind) : Z := match k with KInt => 2 ^ 61 - 1 | KBig => 2 ^ 60 - 1 end.
Definition ex_mem (no : list nat) : memory :=
  {| granted := fun n => negb (existsb (Nat.eqb n) no);
     max_size := ex_max;
     max_str := 2 ^ 62 - 1;
     grown := fun k size need => Z.min (ex_max k) (Z.max (2 * size) need);
     str_grown := fun size need => Z.max (2 * size) need |}.
Definition ex_list (s : list Z) (c : Z) : world := {| vec := s; cap := c; asked := 0 |}.
Example ex_mem_sound : forall no, sound_memory (ex_mem no).
Proof.
  intros no. split; [intros []; split; vm_compute; discriminate|]. split; [vm_compute; discriminate|].
  split; cbn [ex_mem max_size grown max_str str_grown]; intros; lia.
Qed.
Example ex_mem_generous : generous (ex_mem []).
Proof. intros n. reflexivity. Qed.

(** With nothing refused and room for the result, every call does what Python's
    list does. *)
Theorem C69_enough_memory : forall M cfg k o w,
  sound_memory M -> vector_ok M k w -> generous M -> op_ok k (vec w) o ->
  zlen (snd (py_step o (vec w))) <= max_size M k ->
  fst (xstep M cfg k o w) = XDone (expected cfg k (fst (py_step o (vec w)))) /\
  vec (snd (xstep M cfg k o w)) = snd (py_step o (vec w)) /\ vector_ok M k (snd (xstep M cfg k o w)).
Proof. exact enough. Qed.
Print Assumptions C69_enough_memory.

(** Whatever is refused, a history without extend runs to its end, every call
    either being Python's or reporting the refusal ([short_step]), and the list
    stays in order. *)
Theorem C69_refusals_are_reported : forall M cfg k ops w,
  sound_memory M -> vector_ok M k w -> Forall (op_fits k) ops -> Forall not_extend ops ->
  exists qs, short_run (vec w) ops qs (vec (snd (xrun M cfg k ops w))) /\
    fst (xrun M cfg k ops w) = map (fun q => XDone (expected cfg k q)) qs /\ vector_ok M k (snd (xrun M cfg k ops w)).
Proof. exact xrun_short. Qed.
Print Assumptions C69_refusals_are_reported.

(** A history with extend does so too, or ends with the process at an extend. *)
Theorem C69_only_extend_kills : forall M cfg k ops w,
  sound_memory M -> vector_ok M k w -> Forall (op_fits k) ops ->
  exists qs done rest s', ops = done ++ rest /\ short_run (vec w) done qs s' /\
   ((rest = [] /\ xrun M cfg k ops w = (map (fun q => XDone (expected cfg k q)) qs, snd (xrun M cfg k ops w)) /\
     vec (snd (xrun M cfg k ops w)) = s') \/
    (exists how vs r, rest = OExtend how vs :: r /\
     fst (xrun M cfg k ops w) = map (fun q => XDone (expected cfg k q)) qs ++ [XKilled])).
Proof. exact xrun_any. Qed.
Print Assumptions C69_only_extend_kills.

Definition ex_short : list op := [OAppend 7; OAppend 8; OPop None; OSetSlice (mk_slice (Some 0) (Some 1) None) [1; 2; 3; 4]; OToList].
Example C69_history_ex :
  vector_ok (ex_mem [0; 2; 3]%nat) KInt (ex_list [5; 6] 2) /\ Forall not_extend ex_short /\ Forall (op_fits KInt) ex_short /\
  (* append refused, append grows to 4, pop's object refused, the slice stops
     after three items *)
  fst (xrun (ex_mem [0; 2; 3]%nat) ex_cfg KInt ex_short (ex_list [5; 6] 2)) =
    [XDone (Raise RuntimeError); XDone (Ret VNone); XDone (Raise MemoryError); XDone (Raise RuntimeError);
     XDone (Ret (VPyList (map (from_elem ex_cfg KInt) [1; 2; 3; 6])))] /\
  vec (snd (xrun (ex_mem [0; 2; 3]%nat) ex_cfg KInt ex_short (ex_list [5; 6] 2))) = [1; 2; 3; 6].
Proof.
  split; [split; [repeat (apply Forall_cons; [split; vm_compute; congruence|]); apply Forall_nil|split; vm_compute; discriminate]|].
  split; [repeat constructor|]. split; [|split; vm_compute; reflexivity].
  assert (R : forall l, forallb (in_sbits_b 32) l = true -> Forall (in_range KInt) l).
  { intros l H. rewrite forallb_forall in H. apply Forall_forall. intros x I. apply in_sbits_b_spec. apply H. exact I. }
  unfold ex_short.
  apply Forall_cons; [intros s; split; vm_compute; congruence|].
  apply Forall_cons; [intros s; split; vm_compute; congruence|].
  apply Forall_cons; [intros s _; exact I|].
  apply Forall_cons; [intros s; split; [apply R; reflexivity|reflexivity]|].
  apply Forall_cons; [intros s; exact I|]. apply Forall_nil.
Qed.

(** Which objects a read or pop has to make, and what happens when one of them
    cannot be made. *)
Theorem C69_objects_exact : forall M cfg k o w, sound_memory M -> vector_ok M k w -> op_ok k (vec w) o -> reads o ->
  let q := fst (py_step o (vec w)) in
  ((forall i, (i < new_objects q)%nat -> granted M (asked w + i) = true) -> fst (xstep M cfg k o w) = XDone (expected cfg k q)) /\
  (forall i, (i < new_objects q)%nat -> granted M (asked w + i) = false -> fst (xstep M cfg k o w) = XDone (Raise MemoryError)).
Proof. exact objects_exact. Qed.
Print Assumptions C69_objects_exact.
(** x[1:] of three elements needs three objects; the third is refused. *)
Example C69_objects_ex : let o := OGetSlice (mk_slice (Some 1) None None) in
  reads o /\ new_objects (fst (py_step o [5; 6; 7])) = 3%nat /\
  fst (xstep (ex_mem [2%nat]) ex_cfg KInt o (ex_list [5; 6; 7] 4)) = XDone (Raise MemoryError) /\
  exists r, fst (xstep (ex_mem [3%nat]) ex_cfg KInt o (ex_list [5; 6; 7] 4)) = XDone (Ret r).
Proof. split; [exact I|]. split; [vm_compute; reflexivity|]. split; [vm_compute; reflexivity|]. eexists. vm_compute. reflexivity. Qed.

(** append, insert and resize report RuntimeError exactly when the size exceeds
    the maximum, or the capacity does not suffice and the request is refused. *)
Theorem C69_growth_exact : forall M cfg k o w,
  vector_ok M k w -> sound_memory M -> op_ok k (vec w) o ->
  In RuntimeError (refusals o) -> o <> OCopy -> fst (py_step o (vec w)) = SRet SNone ->
  let need := zlen (snd (py_step o (vec w))) in
  (max_size M k < need \/ (cap w < need /\ granted M (asked w) = false) ->
     fst (xstep M cfg k o w) = XDone (Raise RuntimeError) /\ vec (snd (xstep M cfg k o w)) = vec w) /\
  (need <= max_size M k -> (cap w < need -> granted M (asked w) = true) ->
     fst (xstep M cfg k o w) = XDone (Ret VNone) /\ vec (snd (xstep M cfg k o w)) = snd (py_step o (vec w))).
Proof. exact refused_exact. Qed.
Print Assumptions C69_growth_exact.

Example C69_growth_ex :
  fst (xstep (ex_mem [0]%nat) ex_cfg KInt (OInsert 1 9) (ex_list [5; 6] 2)) = XDone (Raise RuntimeError) /\
  xstep (ex_mem [0]%nat) ex_cfg KInt (OInsert 1 9) (ex_list [5; 6] 3) = (XDone (Ret VNone), ex_list [5; 9; 6] 3) /\
  fst (xstep (ex_mem []) ex_cfg KInt (OAppend 9) {| vec := [5; 6]; cap := 2; asked := 3 |}) = XDone (Ret VNone).
Proof. repeat match goal with |- _ /\ _ => split end; vm_compute; reflexivity. Qed.

(** extend with a list: MemoryError when the iterator is refused, the end of
    the process exactly when the vector cannot grow, else Python's result. *)
Theorem C69_extend_list_exact : forall M cfg k vs w,
  vector_ok M k w -> Forall (in_range k) vs -> vs <> [] ->
  let need := zlen (vec w) + zlen vs in
  let r := xstep M cfg k (OExtend FromList vs) w in
  let short := max_size M k < need \/ (cap w < need /\ granted M (S (asked w)) = false) in
  (granted M (asked w) = false -> fst r = XDone (Raise MemoryError) /\ vec (snd r) = vec w) /\
  (granted M (asked w) = true -> short -> fst r = XKilled) /\
  (granted M (asked w) = true -> ~ short -> fst r = XDone (Ret VNone) /\ vec (snd r) = vec w ++ vs).
Proof. exact extend_list_exact. Qed.
Print Assumptions C69_extend_list_exact.

(** ... with another list of the class (no iterator) ... *)
Theorem C69_extend_same_exact : forall M cfg k vs w,
  let need := zlen (vec w) + zlen vs in
  let r := xstep M cfg k (OExtend FromSameType vs) w in
  let short := max_size M k < need \/ (cap w < need /\ granted M (asked w) = false) in
  (short -> fst r = XKilled) /\
  (~ short -> fst r = XDone (Ret VNone) /\ vec (snd r) = vec w ++ vs).
Proof. exact extend_same_exact. Qed.
Print Assumptions C69_extend_same_exact.

(** ... with an iterator, at the first item for which there is no room ... *)
Theorem C69_extend_iter_killed : forall M cfg k vs z rest w, Forall (in_range k) vs -> in_range k z ->
  granted M (asked w) = true -> zlen (vec w) + zlen vs = cap w -> cap w <= max_size M k ->
  granted M (S (asked w)) = false \/ cap w = max_size M k ->
  fst (xstep M cfg k (OExtend FromIterator (vs ++ z :: rest)) w) = XKilled.
Proof. exact extend_iter_killed. Qed.
Print Assumptions C69_extend_iter_killed.

(** ... and, however much memory there is and whatever the items, with an
    object whose length hint takes the size past the maximum: [x.extend(it)]
    and [x += it] where it.__length_hint__() is 2**62. *)
Theorem C69_length_hint_refuted : forall M k fast slow hint items fin w,
  granted M (asked w) = true -> 0 < hint -> max_size M k < zlen (vec w) + hint ->
  fst (xextend M k fast slow hint (AIter items fin) w) = XKilled.
Proof. exact extend_hint. Qed.
Print Assumptions C69_length_hint_refuted.

Example C69_extend_ex :
  fst (xstep (ex_mem [1]%nat) ex_cfg KInt (OExtend FromList [1; 2]) (ex_list [5; 6] 3)) = XKilled /\
  fst (xstep (ex_mem [1]%nat) ex_cfg KInt (OExtend FromList [1; 2]) (ex_list [5; 6] 4)) = XDone (Ret VNone) /\
  fst (xstep (ex_mem [1]%nat) ex_cfg KInt (OExtend FromIterator [1; 2]) (ex_list [5; 6] 3)) = XKilled /\
  fst (xstep (ex_mem [0]%nat) ex_cfg KInt (OExtend FromSameType [1; 2]) (ex_list [5; 6] 3)) = XKilled /\
  fst (xextend (ex_mem []) KInt VNone VNone (2 ^ 62) (AIter [] None) (ex_list [5; 6] 3)) = XKilled /\
  fst (xextend (ex_mem []) KInt VNone VNone 100 (AIter [] None) (ex_list [5; 6] 3)) = XDone (Ret VNone).
Proof. repeat match goal with |- _ /\ _ => split end; vm_compute; reflexivity. Qed.

(** x * n, complete: the outcome is C14's when the result fits and is granted;
    an exception thrown while the thread state is released is undefined. *)
Theorem C69_mul_exact : forall M cfg k n w, sound_memory M -> in_sbits 64 n ->
  let r := fst (xmul M cfg k n w) in
  let total := zlen (vec w) * n in
  vec (snd (xmul M cfg k n w)) = vec w /\
  (granted M (asked w) = false -> r = XDone (Raise MemoryError)) /\
  (granted M (asked w) = true ->
    (n <= 0 -> r = XDone (Ret (VNewList []))) /\
    (0 < n -> total <= max_size M k -> total = 0 \/ granted M (S (asked w)) = true ->
       r = XDone (fst (mul cfg k n (vec w)))) /\
    (0 < n -> total <= max_size M k -> total <> 0 -> granted M (S (asked w)) = false -> r = XDone (Undef NullDeref)) /\
    (0 < n -> max_size M k < total < 2 ^ 64 -> r = XDone (Undef NullDeref)) /\
    (0 < n -> 2 ^ 64 <= total -> exists u, r = XDone (Undef u))).
Proof. exact mul_exact. Qed.
Print Assumptions C69_mul_exact.

(** So [1] * 2**62 is undefined on every machine, where Python has MemoryError. *)
Theorem C69_mul_huge_refuted : forall M cfg k z w, sound_memory M -> vec w = [z] ->
  granted M (asked w) = true -> max_size M k < 2 ^ 62 ->
  fst (xmul M cfg k (2 ^ 62) w) = XDone (Undef NullDeref).
Proof.
  intros M cfg k z w S E G H.
  destruct (mul_exact M cfg k (2 ^ 62) w S) as (_ & _ & X); [split; vm_compute; congruence|].
  destruct (X G) as (_ & _ & _ & X4 & _). rewrite E in X4. change (zlen [z] * 2 ^ 62) with (2 ^ 62) in X4.
  apply X4; [reflexivity|split; [exact H|reflexivity]].
Qed.
Print Assumptions C69_mul_huge_refuted.

Theorem C69_imul_exact : forall M cfg k n spare w, sound_memory M -> vector_ok M k w -> in_sbits 64 n ->
  let r := fst (ximul M cfg k n spare w) in
  let total := zlen (vec w) * n in
  (n <= 0 -> r = XDone (Ret VSelf) /\ vec (snd (ximul M cfg k n spare w)) = []) /\
  (0 < n -> total <= max_size M k -> total <= cap w \/ granted M (asked w) = true ->
     r = XDone (fst (imul cfg k n spare (vec w))) /\ vec (snd (ximul M cfg k n spare w)) = snd (imul cfg k n spare (vec w))) /\
  (0 < n -> cap w < total <= max_size M k -> granted M (asked w) = false -> r = XDone (Undef NullDeref)) /\
  (0 < n -> max_size M k < total < 2 ^ 64 -> r = XDone (Undef NullDeref)) /\
  (0 < n -> 2 ^ 64 <= total -> exists u, r = XDone (Undef u)).
Proof. exact imul_exact. Qed.
Print Assumptions C69_imul_exact.


Example C69_mul_ex :
  fst (xmul (ex_mem []) ex_cfg KInt (2 ^ 62) (ex_list [5] 1)) = XDone (Undef NullDeref) /\
  fst (xmul (ex_mem [1]%nat) ex_cfg KInt 3 (ex_list [5] 1)) = XDone (Undef NullDeref) /\
  fst (xmul (ex_mem []) ex_cfg KBig 2 (ex_list [5; 6; 7; 8] 4)) = XDone (Ret (VNewList [5; 6; 7; 8; 5; 6; 7; 8])) /\
  fst (xmul (ex_mem []) ex_cfg KInt (2 ^ 62) (ex_list [5; 6; 7; 8] 4)) = XDone (Undef OutOfBounds) /\
  fst (ximul (ex_mem [0]%nat) ex_cfg KInt 2 [] (ex_list [5] 1)) = XDone (Undef NullDeref).
Proof. repeat match goal with |- _ /\ _ => split end; vm_compute; reflexivity. Qed.

(** sort() without key: from 8 elements on with AVX2 or AVX-512 the merge needs
    a second vector; a refusal is undefined. Otherwise the result is C20's. *)
Theorem C69_sort_exact : forall M cfg k r tim w, vector_ok M k w ->
  let x := xsort M cfg k r tim w in
  let simd := (avx2 (feat cfg) || avx512 (feat cfg))%bool in
  (8 <= zlen (vec w) -> simd = true -> granted M (asked w) = false -> fst x = XDone (Undef NullDeref)) /\
  (zlen (vec w) < 8 \/ (simd = true /\ granted M (asked w) = true) \/ (simd = false /\ (zlen (vec w) <= 5000 \/ generous M)) ->
     fst x = XDone (fst (sort_nokey cfg k r (vec w))) /\ vec (snd x) = snd (sort_nokey cfg k r (vec w))) /\
  (5000 < zlen (vec w) -> simd = false -> (0 < tim)%nat -> granted M (asked w) = false -> fst x = XDone (Undef NullDeref)).
Proof. exact sort_exact. Qed.
Print Assumptions C69_sort_exact.

(** sort(key=...): the array of objects is checked, the objects are not. *)
Theorem C69_sort_key_exact : forall M after w,
  (granted M (asked w) = false -> fst (xsort_key M after w) = XDone (Raise MemoryError) /\ vec (snd (xsort_key M after w)) = vec w) /\
  (granted M (asked w) = true -> (exists j, (j < length (vec w))%nat /\ granted M (S (asked w) + j) = false) ->
     fst (xsort_key M after w) = XDone (Undef NullDeref)) /\
  (granted M (asked w) = true -> (forall j, (j < length (vec w))%nat -> granted M (S (asked w) + j) = true) ->
     fst (xsort_key M after w) = XDone (fst after) /\ vec (snd (xsort_key M after w)) = snd after).
Proof. exact sort_key_exact. Qed.
Print Assumptions C69_sort_key_exact.

Example C69_sort_ex :
  fst (xsort (ex_mem [0]%nat) ex_cfg KInt 0 1 (ex_list [8; 7; 6; 5; 4; 3; 2; 1] 8)) = XDone (Undef NullDeref) /\
  xsort (ex_mem [0]%nat) ex_cfg KInt 0 1 (ex_list [7; 6; 5; 4; 3; 2; 1] 8) = (XDone (Ret VNone), ex_list [1; 2; 3; 4; 5; 6; 7] 8) /\
  fst (xsort_key (ex_mem [2]%nat) (Ret VNone, [1; 2]) (ex_list [2; 1] 2)) = XDone (Undef NullDeref).
Proof. repeat match goal with |- _ /\ _ => split end; vm_compute; reflexivity. Qed.

(** repr: the text with enough memory; the end of the process when the string
    buffer of a list of four or more elements is refused. *)
Theorem C69_repr : forall M w, sound_memory M ->
  (forall t, generous M -> repr_ (vec w) = Ret t -> zlen t <= max_str M -> zlen (vec w) * 4 <= max_str M ->
     fst (xrepr M w) = TDone (Ret t)) /\
  (4 <= zlen (vec w) -> granted M (asked w) = false \/ max_str M < zlen (vec w) * 4 -> fst (xrepr M w) = TKilled) /\
  (fst (xrepr M w) = TDone (repr_ (vec w)) \/ fst (xrepr M w) = TDone (Raise MemoryError) \/ fst (xrepr M w) = TKilled) /\
  vec (snd (xrepr M w)) = vec w.
Proof. exact repr_short. Qed.
Print Assumptions C69_repr.

Example C69_repr_ex :
  fst (xrepr (ex_mem [0]%nat) (ex_list [1; 2; 3; 4] 4)) = TKilled /\
  fst (xrepr (ex_mem [0]%nat) (ex_list [1; 2; 3] 4)) = TDone (Raise MemoryError) /\
  fst (xrepr (ex_mem []) (ex_list [1; 2; 3] 4)) = TDone (Ret [91; 49; 44; 32; 50; 44; 32; 51; 93]) /\
  (* a long text outgrows the reservation of 4 characters per element *)
  fst (xrepr (ex_mem [1]%nat) (ex_list [1000; 2000; 3000; 4000] 4)) = TKilled.
Proof. repeat match goal with |- _ /\ _ => split end; vm_compute; reflexivity. Qed.

(** Construction never ends the process and is never undefined: a list as
    without a shortage, RuntimeError, TypeError (a refused iterator), or the
    iterator's own exception. *)
Theorem C69_init_safe : forall M k e a n,
  match fst (xinit M k e a n) with
  | XDone (Ret v) => init k (IArg a) = Ret v
  | XDone (Raise x) => x = RuntimeError \/ x = TypeError \/ (exists items, a = AIter items (Some x))
  | _ => False
  end.
Proof. exact init_safe. Qed.
Print Assumptions C69_init_safe.

Theorem C69_init_enough : forall M k e a n vs, generous M -> e <= max_size M k -> zlen vs <= max_size M k ->
  init k (IArg a) = Ret (VNewList vs) -> fst (xinit M k e a n) = XDone (Ret (VNewList vs)).
Proof. exact init_enough. Qed.
Print Assumptions C69_init_enough.

(** A size hint above the maximum fails whatever the argument. *)
Theorem C69_init_huge_hint : forall M k e a n, 0 < e -> max_size M k < e -> fst (xinit M k e a n) = XDone (Raise RuntimeError).
Proof. exact init_huge. Qed.
Print Assumptions C69_init_huge_hint.

Theorem C69_from_range : forall M k a1 a2 a3 n l, from_range k a1 a2 a3 = Ret (VNewList l) ->
  let r := fst (xfrom_range M k a1 a2 a3 n) in
  (granted M n = false -> r = XDone (Raise MemoryError)) /\
  (granted M n = true -> max_size M k < zlen l \/ (0 < zlen l /\ granted M (S n) = false) -> r = XDone (Raise RuntimeError)) /\
  (granted M n = true -> zlen l <= max_size M k -> zlen l = 0 \/ granted M (S n) = true -> r = XDone (Ret (VNewList l))).
Proof. exact from_range_short. Qed.
Print Assumptions C69_from_range.

Theorem C69_add : forall M cfg k a w,
  vec (snd (xadd M cfg k a w)) = vec w /\
  (fst (xadd M cfg k a w) = XDone (fst (add cfg k a (vec w))) \/ fst (xadd M cfg k a w) = XDone (Raise MemoryError)) /\
  (generous M -> fst (xadd M cfg k a w) = XDone (fst (add cfg k a (vec w)))).
Proof. exact add_short. Qed.
Print Assumptions C69_add.
(** Which requests: one for each element, one for the list of them, and with a
    Python list one for the sum. *)
Theorem C69_add_exact : forall M cfg k a w, (forall ys, a <> AddSame ys) ->
  let need := match a with AddList _ => (length (vec w) + 2)%nat | _ => (length (vec w) + 1)%nat end in
  ((forall i, (i < need)%nat -> granted M (asked w + i) = true) -> fst (xadd M cfg k a w) = XDone (fst (add cfg k a (vec w)))) /\
  (forall i, (i < need)%nat -> granted M (asked w + i) = false -> fst (xadd M cfg k a w) = XDone (Raise MemoryError)).
Proof. exact add_exact. Qed.
Print Assumptions C69_add_exact.
(** [5; 6] + [an object]: the fourth request is the sum, the fifth is not made. *)
Example C69_add_exact_ex :
  fst (xadd (ex_mem [3%nat]) ex_cfg KInt (AddList [PObj 1]) (ex_list [5; 6] 4)) = XDone (Raise MemoryError) /\
  (exists r, fst (xadd (ex_mem [4%nat]) ex_cfg KInt (AddList [PObj 1]) (ex_list [5; 6] 4)) = XDone (Ret r)) /\
  fst (xadd (ex_mem [3%nat]) ex_cfg KInt AddOther (ex_list [5; 6] 4)) = XDone (Raise TypeError).
Proof. split; [vm_compute; reflexivity|]. split; [eexists; vm_compute; reflexivity|vm_compute; reflexivity]. Qed.

Example C69_construct_ex :
  fst (xinit (ex_mem [1]%nat) KInt 0 (AIter [PInt 1; PInt 2] None) 0) = XDone (Raise RuntimeError) /\
  fst (xinit (ex_mem [0]%nat) KInt 0 (AIter [PInt 1; PInt 2] None) 0) = XDone (Raise TypeError) /\
  fst (xinit (ex_mem [1]%nat) KInt 2 (AList [PInt 1; PInt 2]) 0) = XDone (Ret (VNewList [1; 2])) /\
  fst (xfrom_range (ex_mem [1]%nat) KInt (PInt 3) None None 0) = XDone (Raise RuntimeError) /\
  fst (xfrom_range (ex_mem []) KInt (PInt 3) None None 0) = XDone (Ret (VNewList [0; 1; 2])).
Proof. repeat match goal with |- _ /\ _ => split end; vm_compute; reflexivity. Qed.
