(** Property theorems C41, C42, C57: raw memory and references through Unsafe.
    [cell h x] is the byte at address [x] of the C heap; what the C allocator
    answers is an input of each allocating call. *)
From Coq Require Import ZArith List Bool Lia.
From Verif Require Import Base MemModel UnsafeModel UnsafeSpec UnsafeProofs RefCountModel RefCountSpec RefCountProofs.
Import ListNotations.
Local Open Scope Z_scope.

(** * C41 *)
(** Every history keeps the live blocks apart, whatever the allocator answers. *)
Theorem C41_blocks_apart : forall win ops vs h, urun win ops [] = Ret (vs, h) -> heap_ok h.
Proof. intros win ops vs h. apply run_ok. split; constructor. Qed.
Print Assumptions C41_blocks_apart.

(** get returns the bytes that are there and changes nothing ([fresh]: memory
    for the result object, which 2 bytes or more need). *)
Theorem C41_get : forall h a n fresh, heap_ok h -> accessible h a n -> 0 <= a < 2 ^ 64 -> 0 <= n <= BYTES_MAX -> (2 <= n -> fresh <> None) ->
  exists bs, u_get (PInt a) (PInt n) fresh h = (Ret (UBytes bs), h) /\ map Some bs = cells h a n.
Proof. exact get_ok. Qed.
Print Assumptions C41_get.
Theorem C41_set : forall h a v, heap_ok h -> accessible h a (zlen v) -> 0 <= a < 2 ^ 64 ->
  exists h', u_set (PInt a) (Some v) h = (Ret UNone, h') /\ overwritten h h' a v.
Proof. exact set_ok. Qed.
Print Assumptions C41_set.
Theorem C41_memset : forall h a v n, heap_ok h -> accessible h a n -> 0 <= a < 2 ^ 64 -> 0 <= n < 2 ^ 64 -> - 2 ^ 63 <= v < 2 ^ 63 ->
  exists h', u_memset (PInt a) (PInt v) (PInt n) h = (Ret UNone, h') /\ overwritten h h' a (repeat (v mod 256) (Z.to_nat n)).
Proof. exact memset_ok. Qed.
Print Assumptions C41_memset.
Theorem C41_memcpy : forall h s d n, heap_ok h -> accessible h s n -> accessible h d n -> 0 <= s < 2 ^ 64 -> 0 <= d < 2 ^ 64 -> 0 <= n < 2 ^ 64 ->
  s + n <= d \/ d + n <= s ->
  exists v h', u_memcpy (PInt s) (PInt d) (PInt n) h = (Ret UNone, h') /\ map Some v = cells h s n /\ overwritten h h' d v.
Proof. exact memcpy_ok. Qed.
Print Assumptions C41_memcpy.
(** call stores the low bytes of what the function returned, or copies more
    than 8 bytes from the address it returned. *)
Theorem C41_call : forall h r a n, heap_ok h -> accessible h a n -> 0 <= a < 2 ^ 64 -> 0 <= n <= 8 ->
  exists h', u_call r (PInt a) (PInt n) h = (Ret UNone, h') /\ overwritten h h' a (le_bytes (Z.to_nat n) r).
Proof. exact call_ok. Qed.
Print Assumptions C41_call.
Theorem C41_call_large : forall h r a n, heap_ok h -> accessible h r n -> accessible h a n -> 0 <= r < 2 ^ 64 -> 0 <= a < 2 ^ 64 -> 8 < n < 2 ^ 64 ->
  r + n <= a \/ a + n <= r ->
  exists v h', u_call r (PInt a) (PInt n) h = (Ret UNone, h') /\ map Some v = cells h r n /\ overwritten h h' a v.
Proof. exact call_large. Qed.
Print Assumptions C41_call_large.

(** Allocation: when the allocator finds memory, and when it does not. *)
Theorem C41_malloc : forall h n a init, heap_ok h -> 0 <= n < 2 ^ 64 -> usable h n a init ->
  exists h', u_malloc (PInt n) (Some (a, init)) h = (Ret (UAddr a), h') /\ heap_ok h' /\ added h h' false a n /\ cells h' a n = map Some init.
Proof. exact malloc_ok. Qed.
Print Assumptions C41_malloc.
Theorem C41_malloc_fails : forall h n o, 0 <= n < 2 ^ 64 -> (forall a init, o = Some (a, init) -> ~ usable h n a init) ->
  u_malloc (PInt n) o h = (Raise MemoryError, h).
Proof. exact malloc_fails. Qed.
Print Assumptions C41_malloc_fails.
Theorem C41_calloc : forall h x y a init, heap_ok h -> 0 <= x < 2 ^ 64 -> 0 <= y < 2 ^ 64 -> x * y < 2 ^ 64 -> usable h (x * y) a init ->
  exists h', u_calloc (PInt x) (PInt y) (Some (a, init)) h = (Ret (UAddr a), h') /\ heap_ok h' /\ added h h' false a (x * y) /\
    cells h' a (x * y) = repeat (Some 0) (Z.to_nat (x * y)).
Proof. exact calloc_ok. Qed.
Print Assumptions C41_calloc.
Theorem C41_calloc_overflow : forall h x y o, 0 <= x < 2 ^ 64 -> 0 <= y < 2 ^ 64 -> 2 ^ 64 <= x * y ->
  u_calloc (PInt x) (PInt y) o h = (Raise MemoryError, h).
Proof. exact calloc_overflow. Qed.
Print Assumptions C41_calloc_overflow.
Theorem C41_aligned_malloc : forall h n al a init, heap_ok h -> 0 <= n < 2 ^ 64 -> 0 <= al < 2 ^ 64 -> usable h n a init -> a mod al = 0 ->
  exists h', u_aligned_malloc (PInt n) (PInt al) (Some (a, init)) h = (Ret (UAddr a), h') /\ heap_ok h' /\ added h h' true a n /\
    cells h' a n = map Some init.
Proof. exact aligned_ok. Qed.
Print Assumptions C41_aligned_malloc.
Theorem C41_aligned_address : forall h n k o a h', 0 <= k < 64 -> u_aligned_malloc (PInt n) (PInt (2 ^ k)) o h = (Ret (UAddr a), h') -> a mod 2 ^ k = 0.
Proof. exact aligned_multiple. Qed.
Print Assumptions C41_aligned_address.

(** realloc: the common prefix moves, the rest is what the allocator left
    there, every other block is untouched. *)
Theorem C41_realloc : forall win h b n a init, heap_ok h -> In b h -> (win = true -> b_al b = false) -> 0 < n < 2 ^ 64 ->
  usable (without (b_base b) h) n a init ->
  exists h1 h', removed h h1 (b_base b) (b_size b) /\ u_realloc win (PInt (b_base b)) (PInt n) (Some (a, init)) h = (Ret (UAddr a), h') /\
    heap_ok h' /\ added h1 h' (b_al b) a n /\
    forall i, 0 <= i < n -> cell h' (a + i) = if i <? b_size b then cell h (b_base b + i) else nth_error init (Z.to_nat i).
Proof. exact realloc_ok. Qed.
Print Assumptions C41_realloc.
Theorem C41_realloc_fails : forall win h b n o, heap_ok h -> In b h -> (win = true -> b_al b = false) -> 0 < n < 2 ^ 64 ->
  (forall a init, o = Some (a, init) -> ~ usable (without (b_base b) h) n a init) ->
  u_realloc win (PInt (b_base b)) (PInt n) o h = (Raise MemoryError, h).
Proof. exact realloc_fails. Qed.
Print Assumptions C41_realloc_fails.
(** realloc(p, 0) reports MemoryError although the block is gone, so the
    natural clean-up after the error is a double free. *)
Theorem C41_realloc_zero_refuted : forall win h b o, heap_ok h -> In b h -> (win = true -> b_al b = false) ->
  exists h', u_realloc win (PInt (b_base b)) (PInt 0) o h = (Raise MemoryError, h') /\ removed h h' (b_base b) (b_size b) /\
    u_free win false (PInt (b_base b)) h' = (Undef BadFree, h').
Proof. exact realloc_zero. Qed.
Print Assumptions C41_realloc_zero_refuted.

(** free and aligned_free: [fn] tells which. Afterwards no byte of the block
    can be accessed. *)
Theorem C41_free : forall win fn h b, heap_ok h -> In b h -> (win = true -> b_al b = fn) ->
  exists h', u_free win fn (PInt (b_base b)) h = (Ret UNone, h') /\ heap_ok h' /\ removed h h' (b_base b) (b_size b) /\
    forall x m, b_base b <= x < b_base b + b_size b -> 0 < m -> ~ accessible h' x m.
Proof.
  intros win fn h b H I W. destruct (free_ok win fn h b H I W) as (h' & E & K & R). exists h'. split; [exact E|]. split; [exact K|]. split; [exact R|].
  intros x m X M. exact (removed_gone h h' _ _ x K R X m M).
Qed.
Print Assumptions C41_free.

(** What is undefined: access to a range that is not inside one live block
    (out of bounds, use after free), overlapping memcpy, releasing an address
    where no live block begins (double free), and on Windows releasing with
    the wrong function. *)
Theorem C41_bad_access : forall h a n, heap_ok h -> 0 < a < 2 ^ 64 -> 0 < n <= BYTES_MAX -> ~ accessible h a n ->
  (forall m, exists u, fst (u_get (PInt a) (PInt n) (Some m) h) = Undef u) /\
  (forall v, zlen v = n -> exists u, fst (u_set (PInt a) (Some v) h) = Undef u) /\
  (forall v, - 2 ^ 63 <= v < 2 ^ 63 -> exists u, fst (u_memset (PInt a) (PInt v) (PInt n) h) = Undef u) /\
  (forall c, 0 <= c < 2 ^ 64 -> exists u, fst (u_memcpy (PInt a) (PInt c) (PInt n) h) = Undef u) /\
  (forall c, 0 <= c < 2 ^ 64 -> exists u, fst (u_memcpy (PInt c) (PInt a) (PInt n) h) = Undef u) /\
  (forall c, 0 <= c < 2 ^ 64 -> 8 < n -> exists u, fst (u_call a (PInt c) (PInt n) h) = Undef u).
Proof.
  intros h a n H R N A. assert (n < 2 ^ 64) by (unfold BYTES_MAX, SSIZE_MAX in N; lia).
  split; [intros m; apply get_bad; assumption|]. split; [intros v L; apply set_bad; [lia| |rewrite L; exact A]; intros ->; unfold zlen in L; cbn [length] in L; lia|].
  split; [intros v V; apply memset_bad; auto; lia|]. split; [intros c C; apply memcpy_bad; auto; lia|]. split; [intros c C; apply memcpy_bad; auto; lia|].
  intros c C G. apply call_large_bad; auto; lia.
Qed.
Print Assumptions C41_bad_access.
Theorem C41_overlap : forall h s d n, heap_ok h -> 0 <= s < 2 ^ 64 -> 0 <= d < 2 ^ 64 -> 0 < n < 2 ^ 64 -> s < d + n -> d < s + n ->
  exists u, fst (u_memcpy (PInt s) (PInt d) (PInt n) h) = Undef u.
Proof. intros h s d n H A B N X Y. apply memcpy_bad; auto. Qed.
Print Assumptions C41_overlap.
Theorem C41_bad_release : forall win h a, 0 < a < 2 ^ 64 -> ~ In a (map b_base h) ->
  (forall fn, u_free win fn (PInt a) h = (Undef BadFree, h)) /\
  forall n o, 0 <= n < 2 ^ 64 -> u_realloc win (PInt a) (PInt n) o h = (Undef BadFree, h).
Proof. intros win h a R N. split; [intros fn; apply free_bad; assumption|intros n o M; apply realloc_bad; assumption]. Qed.
Print Assumptions C41_bad_release.

(** An argument that cannot be read is an error and changes nothing; otherwise
    only memory can be missing, or the bytes object of get too long. *)
Theorem C41_arguments : forall win op h,
  (forall e, argument_error op = Some e -> ustep win op h = (Raise e, h)) /\
  (argument_error op = None -> forall e h', ustep win op h = (Raise e, h') -> other_error op e).
Proof. exact arguments. Qed.
Print Assumptions C41_arguments.
Example C41_arguments_ex : argument_error (UMemcpy (PObj 3) (PInt (2 ^ 64)) (PInt 4)) = Some OverflowError /\
  argument_error (UMemcpy (PInt (2 ^ 64)) (PObj 3) (PInt 4)) = Some TypeError /\ argument_error (UMalloc (PInt (-1)) None) = Some OverflowError /\
  argument_error (UCalloc (PInt (2 ^ 64)) (PInt (-1)) None) = None /\ argument_error (UMemset (PInt (-1)) (PInt 5) (PInt 3)) = None.
Proof. vm_compute. split; [|split; [|split; [|split]]]; reflexivity. Qed.
Theorem C41_wrong_release : forall h b fn, heap_ok h -> In b h -> b_al b <> fn -> u_free true fn (PInt (b_base b)) h = (Undef BadFree, h).
Proof. exact free_wrong. Qed.
Print Assumptions C41_wrong_release.
(** get(0, n) does not fail: it returns whatever was in the memory of the
    result object. *)
Theorem C41_get_null_refuted : forall h n m, 0 < n <= BYTES_MAX -> u_get (PInt 0) (PInt n) (Some m) h = (Ret (UBytes m), h).
Proof. exact get_null. Qed.
Print Assumptions C41_get_null_refuted.

(** Histories: what was written stays until somebody writes there or releases
    the block ([leaves]), through any calls on other memory. *)
Theorem C41_persists : forall win b a v ops h h1 vs h', heap_ok h -> In b h -> b_base b <= a -> a + zlen v <= b_base b + b_size b -> 0 <= a < 2 ^ 64 ->
  zlen v <= BYTES_MAX ->
  u_set (PInt a) (Some v) h = (Ret UNone, h1) -> Forall (leaves (b_base b) a (zlen v)) ops -> urun win ops h1 = Ret (vs, h') ->
  forall fresh, fresh <> None -> u_get (PInt a) (PInt (zlen v)) fresh h' = (Ret (UBytes v), h').
Proof. exact persists. Qed.
Print Assumptions C41_persists.

Definition ex_heap : heap :=
  [{| b_al := false; b_base := 4096; b_data := [1; 2; 3; 4; 5; 6; 7; 8; 9; 10; 11; 12] |};
   {| b_al := true; b_base := 4160; b_data := [0; 0; 0; 0; 0; 0; 0; 0; 0; 0] |}].
Example C41_ex_hyps : heap_ok ex_heap /\ accessible ex_heap 4098 5 /\ accessible ex_heap 4160 10 /\ usable ex_heap 3 4108 [7; 7; 7] /\
  usable (without 4096 ex_heap) 4 4100 [7; 7; 7; 7] /\ ~ accessible ex_heap 4106 3.
Proof.
  split; [|split; [|split; [|split; [|split]]]].
  - split; repeat constructor; vm_compute; intuition discriminate.
  - exists (nth 0 ex_heap {| b_al := false; b_base := 0; b_data := [] |}). split; [left; reflexivity|]. vm_compute. intuition discriminate.
  - exists (nth 1 ex_heap {| b_al := false; b_base := 0; b_data := [] |}). split; [right; left; reflexivity|]. vm_compute. intuition discriminate.
  - vm_compute. repeat split; try discriminate. constructor; [right; discriminate|constructor; [left; discriminate|constructor]].
  - vm_compute. repeat split; try discriminate. constructor; [left; discriminate|constructor].
  - intros (b & [<-|[<-|[]]] & A & B); vm_compute in A, B; intuition congruence.
Qed.
Definition ex_ops : list uop :=
  [UMalloc (PInt 4) (Some (5000, [9; 9; 9; 9])); USet (PInt 4098) (Some [70; 71; 72]); UMemcpy (PInt 4098) (PInt 5000) (PInt 3);
   UMemset (PInt 4160) (PInt (-1)) (PInt 2); UCall (256 * 5 + 6) (PInt 4165) (PInt 3); URealloc (PInt 5000) (PInt 6) (Some (6000, [0; 0; 0; 0; 42; 43]));
   UFree (PInt 4096); UGet (PInt 6000) (PInt 6) (Some []); UGet (PInt 4160) (PInt 10) (Some []); UMalloc (PInt (2 ^ 40)) None; UGet (PInt 0) (PInt 2) (Some [13; 14])].
Example C41_ex_run : urun true ex_ops ex_heap =
  Ret ([Ret (UAddr 5000); Ret UNone; Ret UNone; Ret UNone; Ret UNone; Ret (UAddr 6000); Ret UNone; Ret (UBytes [70; 71; 72; 9; 42; 43]);
        Ret (UBytes [255; 255; 0; 0; 0; 6; 5; 0; 0; 0]); Raise MemoryError; Ret (UBytes [13; 14])],
       [{| b_al := false; b_base := 6000; b_data := [70; 71; 72; 9; 42; 43] |};
        {| b_al := true; b_base := 4160; b_data := [255; 255; 0; 0; 0; 6; 5; 0; 0; 0] |}]) /\
  urun true (ex_ops ++ [UGet (PInt 4098) (PInt 1) None]) ex_heap = Undef OutOfBounds /\
  urun true (ex_ops ++ [UFree (PInt 4096)]) ex_heap = Undef BadFree /\
  urun true (ex_ops ++ [UFree (PInt 4160)]) ex_heap = Undef BadFree /\
  urun false (ex_ops ++ [UFree (PInt 4160); UFree (PInt 6000)]) ex_heap = urun false (ex_ops ++ [UAlignedFree (PInt 4160); UFree (PInt 6000)]) ex_heap.
Proof. vm_compute. auto. Qed.
Example C41_ex_leaves : Forall (leaves 4160 4163 2) (firstn 7 ex_ops).
Proof. repeat constructor; vm_compute; try discriminate; intuition discriminate. Qed.

(** * C42 *)
Theorem C42_same_object : forall o, 0 < o < 2 ^ 64 -> as_object (get_address o) = Ret o.
Proof. exact as_object_address. Qed.
Print Assumptions C42_same_object.
(** In every history the count of an object falls behind the references to it
    by one for each as_object (and decref), and gains one for each incref; [py]
    is 3.12 and later, where counts stay below 2^31 for mortal objects. *)
Theorem C42_counts : forall py ops s vs s', (forall x, py = true -> r_rc s x + zlen ops < 2 ^ 31) -> rrun py ops s = Ret (vs, s') ->
  forall o, r_rc s' o - r_own s' o = r_rc s o - r_own s o - debt o ops vs.
Proof. exact rrun_counts. Qed.
Print Assumptions C42_counts.
(** [k] calls with dropped results: the count is [k] too low ... *)
Theorem C42_dropped : forall py o k s, 0 < o < 2 ^ 64 -> 0 < r_own s o -> Z.of_nat k <= r_rc s o -> (py = true -> r_rc s o < 2 ^ 31) ->
  exists vs s', rrun py (rounds k [RAsObject (get_address o); RDrop o]) s = Ret (vs, s') /\
    r_rc s' o = r_rc s o - Z.of_nat k /\ r_own s' o = r_own s o /\ (forall x, x <> o -> r_rc s' x = r_rc s x /\ r_own s' x = r_own s x).
Proof. exact dropped. Qed.
Print Assumptions C42_dropped.
(** ... the object is dead while the program still holds it when [k] reaches the
    count, any use of it being undefined, and one call more is undefined. *)
Theorem C42_freed_refuted : forall py o s, 0 < o < 2 ^ 64 -> 0 < r_own s o -> 0 < r_rc s o -> (py = true -> r_rc s o < 2 ^ 31) ->
  (exists vs s', rrun py (rounds (Z.to_nat (r_rc s o)) [RAsObject (get_address o); RDrop o]) s = Ret (vs, s') /\
     r_rc s' o = 0 /\ r_own s' o = r_own s o /\
     forall op, In op [RCopy o; RDrop o; RIncref o; RDecref o; RRefcnt o] -> rrun py [op] s' = Undef UseAfterFree) /\
  forall k, r_rc s o < Z.of_nat k -> rrun py (rounds k [RAsObject (get_address o); RDrop o]) s = Undef UseAfterFree.
Proof.
  intros py o s O W R M. split.
  - destruct (dropped py o (Z.to_nat (r_rc s o)) s O W ltac:(lia) M) as (vs & s' & E & C & D & _). exists vs, s'. split; [exact E|]. split; [lia|]. split; [exact D|].
    intros op I. apply (held_after_free py o); [lia|lia|exact I].
  - intros k K. apply dropped_too_often; auto. lia.
Qed.
Print Assumptions C42_freed_refuted.
(** With an incref before each call nothing is lost. *)
Theorem C42_with_incref : forall py o k s, 0 < o < 2 ^ 64 -> 0 < r_own s o -> 0 < r_rc s o -> (py = true -> r_rc s o + 1 < 2 ^ 31) ->
  exists vs s', rrun py (rounds k [RIncref o; RAsObject (get_address o); RDrop o]) s = Ret (vs, s') /\
    forall x, r_rc s' x = r_rc s x /\ r_own s' x = r_own s x.
Proof. exact with_incref. Qed.
Print Assumptions C42_with_incref.
(** Immortal objects (3.12) are not affected by any history. *)
Theorem C42_immortal : forall ops s vs s' o, r_rc s o = 2 ^ 32 - 1 -> rrun true ops s = Ret (vs, s') -> r_rc s' o = 2 ^ 32 - 1.
Proof. exact immortal_run. Qed.
Print Assumptions C42_immortal.
Definition ex_refs : rstate := {| r_rc := fun x => if x =? 4096 then 3 else if x =? 8192 then 2 ^ 32 - 1 else 0; r_own := fun x => if x =? 4096 then 1 else if x =? 8192 then 1 else 0 |}.
Example C42_ex : (let r := rrun true [RAsObject (PInt 4096); RDrop 4096; RRefcnt 4096; RIncref 4096; RAsObject (PInt 4096); RRefcnt 4096; RAsObject (PInt 8192); RDrop 8192; RAsObject (PInt 0); RAsObject (PObj 7)] ex_refs in
    (omap fst r, omap (fun p => (r_rc (snd p) 4096, r_own (snd p) 4096, r_rc (snd p) 8192)) r)) =
    (Ret [Ret (RObj 4096); Ret RNone; Ret (RNum 2); Ret RNone; Ret (RObj 4096); Ret (RNum 3); Ret (RObj 8192); Ret RNone; Raise SystemError; Raise TypeError],
     Ret (3, 2, 2 ^ 32 - 1)) /\
  rrun false (rounds 4 [RAsObject (get_address 4096); RDrop 4096]) ex_refs = Undef UseAfterFree.
Proof. vm_compute. auto. Qed.

(** * C57 *)
(** Python 3.12: lists take a reference to an immortal object with Py_INCREF,
    which leaves its count alone, and release it with PyFast_DECREF, which does
    not. The count never rises above the immortal one and never falls more than
    the largest number of references held at once below it; under 2^31 of them
    the object stays immortal for the interpreter. *)
Theorem C57_bounded : forall es m, releases_held es 0 -> held_max es 0 <= m -> m <= 2 ^ 31 - 1 ->
  2 ^ 32 - 1 - m <= lrun true es (2 ^ 32 - 1) <= 2 ^ 32 - 1.
Proof. intros es m H X M. apply (drift_bounds es _ 0 m H X M). pose proof (held_max_le es 0). lia. Qed.
Print Assumptions C57_bounded.
(** The bound is reached: [k] references taken and released leave the count [k]
    too low, taking them again repairs it. *)
Theorem C57_drift_refuted : forall k, Z.of_nat k <= 2 ^ 31 - 1 ->
  lrun true (repeat LTake k ++ repeat LRelease k) (2 ^ 32 - 1) = 2 ^ 32 - 1 - Z.of_nat k /\
  lrun true (repeat LTake k ++ repeat LRelease k ++ repeat LTake k) (2 ^ 32 - 1) = 2 ^ 32 - 1.
Proof.
  intros k K. split; [apply drift_exact; lia|]. rewrite app_assoc, lrun_app, drift_exact by lia. rewrite drift_heals by lia. lia.
Qed.
Print Assumptions C57_drift_refuted.
(** Beyond that the object becomes mortal and unbalanced: after more than 2^31
    references have been held and released at once, Py_DECREF counts down again. *)
Theorem C57_mortal_refuted : forall k j, 2 ^ 31 <= Z.of_nat k <= 2 ^ 32 - 1 -> Z.of_nat j <= 2 ^ 32 - 1 - Z.of_nat k ->
  lrun true (repeat LTake k ++ repeat LRelease k ++ repeat LProgDecref j) (2 ^ 32 - 1) = 2 ^ 32 - 1 - Z.of_nat k - Z.of_nat j.
Proof. intros k j K J. rewrite app_assoc, lrun_app, drift_exact by lia. apply mortal_again; lia. Qed.
Print Assumptions C57_mortal_refuted.
(** Before 3.12 there is no drift. *)
Theorem C57_before_312 : forall es c, (forall n, 0 <= lrun false (firstn n es) c) ->
  lrun false es c = c + zlen (filter (fun e => match e with LTake | LProgIncref => true | _ => false end) es)
                      - zlen (filter (fun e => match e with LRelease | LProgDecref => true | _ => false end) es).
Proof. exact no_drift. Qed.
Print Assumptions C57_before_312.
Example C57_ex : releases_held [LTake; LProgIncref; LTake; LRelease; LProgDecref; LTake; LRelease; LRelease] 0 /\
  held_max [LTake; LProgIncref; LTake; LRelease; LProgDecref; LTake; LRelease; LRelease] 0 = 2 /\
  lrun true [LTake; LProgIncref; LTake; LRelease; LProgDecref; LTake; LRelease; LRelease] (2 ^ 32 - 1) = 2 ^ 32 - 3 /\
  lrun false [LTake; LProgIncref; LTake; LRelease; LProgDecref; LTake; LRelease; LRelease] 10 = 10.
Proof. vm_compute. intuition discriminate. Qed.
