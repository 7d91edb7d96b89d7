(** Property theorems C10-C12, C14, C16, C17, C46: comparison, text, range
    construction, repetition, iteration and buffer view of array lists. *)
From Coq Require Import ZArith List Bool Lia.
From Verif Require Import Base PyLongModel PyLongProofs MemModel MemSpec QReverseModel PyListSpec
  ListLemmas ArrayListModel ArrayListProofs ArrayListSpec ArrayListFacts ArrayListMoreModel
  ArrayListCmpProofs ArrayListMoreProofs ArrayListMulProofs RangeSpec RangeProofs StdListModel StdListProofs LinkedListModel PropsArrayList.
Import ListNotations.
Local Open Scope Z_scope.

(** * C10 *)
(** [cmp_sem]: the relation named by the operator on the lexicographic order
    [lex_lt] of ArrayListSpec. *)
Theorem C10_same_class : forall k c s ys, Forall (in_range k) s -> Forall (in_range k) ys ->
  exists b, compare_ k c (CSame ys) s = Ret b /\ (b = true <-> cmp_sem c s ys).
Proof. exact compare_same. Qed.
Print Assumptions C10_same_class.

(** A list or tuple operand whose items all convert compares by the values the
    items convert to. *)
Theorem C10_list_operand : forall k c s items vs, zlen items < 2 ^ 64 -> Forall2 (stores (bits k)) items vs ->
  exists b, compare_ k c (cmp_items items) s = Ret b /\ (b = true <-> cmp_sem c s vs).
Proof. exact compare_items. Qed.
Print Assumptions C10_list_operand.

Theorem C10_order_laws : forall k a b c,
  Forall (in_range k) a -> Forall (in_range k) b -> Forall (in_range k) c ->
  let lt x y := compare_ k Lt_ (CSame y) x = Ret true in
  let eqv x y := compare_ k Eq_ (CSame y) x = Ret true in
  ((lt a b /\ ~ eqv a b /\ ~ lt b a) \/ (~ lt a b /\ eqv a b /\ ~ lt b a) \/ (~ lt a b /\ ~ eqv a b /\ lt b a)) /\
  (lt a b -> lt b c -> lt a c) /\
  (compare_ k Le_ (CSame b) a = Ret true <-> ~ lt b a) /\
  (compare_ k Ge_ (CSame b) a = Ret true <-> ~ lt a b) /\
  (compare_ k Gt_ (CSame b) a = Ret true <-> lt b a) /\
  (compare_ k Ne_ (CSame b) a = Ret true <-> ~ eqv a b).
Proof. exact order_laws. Qed.
Print Assumptions C10_order_laws.

(** Outside the domain: an item that does not convert leaves the error pending
    behind a returned False. *)
Theorem C10_unconvertible_refuted : forall k items vs o e rest x ys,
  Forall2 (stores (bits k)) items vs -> rejected o e -> length rest = length ys ->
  compare_ k Eq_ (cmp_items (items ++ o :: rest)) (vs ++ x :: ys) = RetPending false e.
Proof. intros. eapply eq_pending; eauto. Qed.
Print Assumptions C10_unconvertible_refuted.

(** A sequence whose item cannot be had, behind an equal prefix: the orderings
    and == pass the error on; != follows a null pointer. *)
Theorem C10_item_fails : forall k items vs e get len y ys, Forall2 (stores (bits k)) items vs ->
  (forall j o, nth_error items j = Some o -> get (Z.of_nat j) = Ret o) -> get (zlen vs) = Raise e -> zlen vs < len ->
  (forall c, c <> Eq_ -> c <> Ne_ -> compare_ k c (CSeq (Ret len) get) (vs ++ y :: ys) = Raise e) /\
  (len = zlen (vs ++ y :: ys) -> compare_ k Eq_ (CSeq (Ret len) get) (vs ++ y :: ys) = Raise e /\
                                 compare_ k Ne_ (CSeq (Ret len) get) (vs ++ y :: ys) = Undef NullDeref).
Proof. exact item_fails. Qed.
Print Assumptions C10_item_fails.
Example C10_item_ex : let get := fun i => if i =? 0 then Ret (PInt 7) else Raise ValueError in
  compare_ KBig Le_ (CSeq (Ret 9) get) ([7] ++ 8 :: [6]) = Raise ValueError /\ compare_ KBig Ne_ (CSeq (Ret 3) get) ([7] ++ 8 :: [6]) = Undef NullDeref.
Proof. vm_compute. auto. Qed.
(** A size that cannot be had counts as -1, or as 2^64 - 1, with the error left
    pending. *)
Theorem C10_size_refuted : forall k s e get, zlen s < 2 ^ 64 - 1 ->
  compare_ k Eq_ (CSeq (Raise e) get) s = RetPending false e /\ compare_ k Ne_ (CSeq (Raise e) get) s = RetPending true e /\
  compare_ k Lt_ (CSeq (Raise e) get) s = RetPending true e /\ compare_ k Le_ (CSeq (Raise e) get) s = RetPending true e /\
  compare_ k Gt_ (CSeq (Raise e) get) s = RetPending false e /\ compare_ k Ge_ (CSeq (Raise e) get) s = RetPending false e.
Proof. exact size_fails. Qed.
Print Assumptions C10_size_refuted.

(** And an integer outside 32 bits equals its reduction. *)
Theorem C10_wrapped_equal_refuted :
  compare_ KInt Eq_ (cmp_items [PInt (2 ^ 32 + 5)]) [5] = Ret true /\ [2 ^ 32 + 5] <> [5].
Proof. split; [reflexivity|discriminate]. Qed.
Print Assumptions C10_wrapped_equal_refuted.

Example C10_ex : compare_ KInt Lt_ (CSame [1; -2; 9]) [1; -3; 10; 11] = Ret true /\
  compare_ KInt Le_ (cmp_items [PInt 1; PInt (-3)]) [1; -3; 0] = Ret false /\
  compare_ KBig Ge_ (cmp_items [PInt 1; PInt (-3)]) [1; -3; 0] = Ret true /\
  lex_lt [1; -3; 10; 11] [1; -2; 9] /\
  compare_ KInt Eq_ (cmp_items [PInt 1; PObj 3]) [1; 2] = RetPending false TypeError.
Proof. repeat split. apply lex_tail, lex_head. lia. Qed.

(** * C11 *)
Theorem C11_repr_is_list_repr : forall k s, Forall (in_range k) s ->
  exists t, repr_ s = Ret t /\ list_text s t /\ (forall t', list_text s t' -> t' = t) /\ parse_list t = Some s.
Proof. exact repr_full. Qed.
Print Assumptions C11_repr_is_list_repr.

Theorem C11_repr_injective : forall k s s',
  Forall (in_range k) s -> Forall (in_range k) s' -> repr_ s = repr_ s' -> s = s'.
Proof. exact repr_injective. Qed.
Print Assumptions C11_repr_injective.

Example C11_ex : repr_ [0; -2147483648; 10] =
  Ret [91; 48; 44; 32; 45; 50; 49; 52; 55; 52; 56; 51; 54; 52; 56; 44; 32; 49; 48; 93] /\
  parse_list [91; 48; 44; 32; 45; 50; 49; 52; 55; 52; 56; 51; 54; 52; 56; 44; 32; 49; 48; 93]
    = Some [0; -2147483648; 10] /\ Forall (in_range KInt) [0; -2147483648; 10].
Proof. split; [vm_compute; reflexivity|]. split; [vm_compute; reflexivity|]. repeat constructor; vm_compute; congruence. Qed.

(** * C12 *)
(** [ssize z] is the range of Py_ssize_t; elements are reduced to the element
    width, the identity on values that fit. *)
Theorem C12_positive_step : forall k start stop step, ssize start -> ssize stop -> ssize step -> stop <> SSIZE_MAX -> step <> SSIZE_MAX ->
  0 < step -> ~ overflows start stop step ->
  exists R L, from_range k (PInt start) (Some (PInt stop)) (Some (PInt step)) = Ret (VNewList L) /\
    is_range start stop step R /\ Forall2 (reduced (bits k)) R L.
Proof. intros k start stop step H1 H2 H3 N2 N3 P. apply up_exact; try assumption. intros ->. discriminate P. Qed.
Print Assumptions C12_positive_step.

Theorem C12_negative_step : forall k start stop step, ssize start -> ssize stop -> ssize step -> stop <> SSIZE_MAX -> step <> SSIZE_MAX ->
  step < 0 -> ~ overflows start stop step ->
  exists R L, from_range k (PInt start) (Some (PInt stop)) (Some (PInt step)) = Ret (VNewList L) /\
    is_range start stop step R /\
    (start <= stop \/ (start - stop) mod (- step) = 0 -> Forall2 (reduced (bits k)) R L) /\
    (stop < start -> (start - stop) mod (- step) <> 0 -> R <> [] /\ Forall2 (reduced (bits k)) (removelast R) L).
Proof. intros k start stop step H1 H2 H3 N2 N3 P. apply down_exact; try assumption. intros ->. discriminate P. Qed.
Print Assumptions C12_negative_step.

(** Undefined exactly when an intermediate value leaves Py_ssize_t. *)
Theorem C12_overflow : forall k start stop step, ssize start -> ssize stop -> ssize step -> stop <> SSIZE_MAX -> step <> SSIZE_MAX -> step <> 0 ->
  (exists u, from_range k (PInt start) (Some (PInt stop)) (Some (PInt step)) = Undef u) <-> overflows start stop step.
Proof. exact undef_exact. Qed.
Print Assumptions C12_overflow.

(** One element just below the largest value: Python's range has it, the loop
    then adds the step to it. *)
Theorem C12_overflow_refuted : exists start stop step R, ssize start /\ ssize stop /\ ssize step /\ stop <> SSIZE_MAX /\ step <> SSIZE_MAX /\
  is_range start stop step R /\ length R = 1%nat /\ forall k, from_range k (PInt start) (Some (PInt stop)) (Some (PInt step)) = Undef SignedOverflow.
Proof.
  assert (SSIZE_MAX = 9223372036854775807) as EA by reflexivity. assert (SSIZE_MIN = -9223372036854775808) as EB by reflexivity.
  exists (SSIZE_MAX - 10), (SSIZE_MAX - 1), 20, [SSIZE_MAX - 10]. unfold ssize. do 5 (split; [rewrite ?EA, ?EB; lia|]).
  split. { change [SSIZE_MAX - 10] with (map (fun i => SSIZE_MAX - 10 + 20 * Z.of_nat i) (seq 0 1)). apply range_list. intros i Hi. change (0 <? 20) with true. cbv iota. lia. }
  split; [reflexivity|]. intros k. destruct k; vm_compute; reflexivity.
Qed.
Print Assumptions C12_overflow_refuted.

(** Integer arguments outside Py_ssize_t. *)
Theorem C12_arguments : forall k a1 a2 a3,
  let args := a1 :: match a2 with Some y => [y] | None => [] end ++ match a3 with Some y => [y] | None => [] end in
  (forall x, In x args -> exists z, x = PInt z) -> Exists (fun x => exists z, x = PInt z /\ ~ ssize z) args ->
  from_range k a1 a2 a3 = Raise OverflowError.
Proof. exact refused. Qed.
Print Assumptions C12_arguments.

(** IntLinkedList.from_range holds the same values. *)
Theorem C12_linked : forall a1 a2 a3, match from_range KInt a1 a2 a3 with
  | Ret (VNewList s) => exists l, lfrom_range a1 a2 a3 = Ret l /\ wf (lst l) /\ values (lst l) = s
  | Ret _ => False
  | Raise e => lfrom_range a1 a2 a3 = Raise e
  | RetPending _ _ => False
  | Undef u => lfrom_range a1 a2 a3 = Undef u
  end.
Proof. exact linked_range. Qed.
Print Assumptions C12_linked.

Theorem C12_range_unique : forall start stop step L L',
  is_range start stop step L -> is_range start stop step L' -> L = L'.
Proof. exact is_range_unique. Qed.
Print Assumptions C12_range_unique.

Theorem C12_zero_step : forall k start stop, ssize start -> ssize stop -> stop <> SSIZE_MAX ->
  from_range k (PInt start) (Some (PInt stop)) (Some (PInt 0)) = Raise ValueError.
Proof. exact zero_exact. Qed.
Print Assumptions C12_zero_step.

Theorem C12_short_forms : forall k start stop, ssize start -> ssize stop -> stop <> SSIZE_MAX ->
  from_range k (PInt start) (Some (PInt stop)) None = from_range k (PInt start) (Some (PInt stop)) (Some (PInt 1)) /\
  from_range k (PInt stop) None None = from_range k (PInt 0) (Some (PInt stop)) (Some (PInt 1)).
Proof. exact short_exact. Qed.
Print Assumptions C12_short_forms.

Theorem C12_sentinel_refuted : forall k a b,
  from_range k a (Some (PInt SSIZE_MAX)) None = from_range k a None None /\
  from_range k a (Some b) (Some (PInt SSIZE_MAX)) = from_range k a (Some b) None.
Proof. exact from_range_sentinel. Qed.
Print Assumptions C12_sentinel_refuted.

Example C12_ex :
  from_range KInt (PInt 2) (Some (PInt 11)) (Some (PInt 3)) = Ret (VNewList [2; 5; 8]) /\
  from_range KInt (PInt 9) (Some (PInt 1)) (Some (PInt (-4))) = Ret (VNewList [9; 5]) /\
  from_range KInt (PInt 10) (Some (PInt 0)) (Some (PInt (-3))) = Ret (VNewList [10; 7; 4]) /\
  (10 - 0) mod 3 <> 0 /\ ssize 10 /\ ssize (-3) /\ ~ overflows 2 11 3 /\ ~ overflows 9 1 (-4) /\
  overflows (-1) (SSIZE_MAX - 1) 1 /\ overflows 0 (SSIZE_MAX - 1) 2 /\ overflows 3 2 SSIZE_MIN.
Proof.
  assert (SSIZE_MAX = 9223372036854775807) as EA by reflexivity. assert (SSIZE_MIN = -9223372036854775808) as EB by reflexivity.
  do 3 (split; [reflexivity|]). split; [discriminate|]. unfold ssize, overflows. rewrite EA, EB. do 2 (split; [lia|]).
  split; [intros [(_ & _ & [H|(n & H & H0)])|H]; lia|]. split; [intros [H|(_ & _ & H)]; lia|]. split; [left; lia|]. split; [left; lia|]. right. lia.
Qed.

(** * C14 *)
Theorem C14_mul_copies : forall cfg k n s, Forall (in_range k) s -> (1 <= n)%Z ->
  (n = 1%Z \/ rep_align (feat cfg) (length s * esize k)) ->
  mul cfg k n s = (Ret (VNewList (concat (repeat s (Z.to_nat n)))), s).
Proof. exact mul_ok. Qed.
Print Assumptions C14_mul_copies.

Theorem C14_mul_misaligned : forall cfg k n s, Forall (in_range k) s -> (2 <= n)%Z ->
  ~ rep_align (feat cfg) (length s * esize k) -> mul cfg k n s = (Undef Misaligned, s).
Proof. exact mul_misaligned. Qed.
Print Assumptions C14_mul_misaligned.

Theorem C14_mul_nonpositive : forall cfg k n s, (n <= 0)%Z -> mul cfg k n s = (Ret (VNewList []), s).
Proof. exact mul_nonpos. Qed.
Print Assumptions C14_mul_nonpositive.

(** In place: whatever bytes follow the vector, the call is undefined, or it
    returns with zeros where the second copy belongs; it is undefined whenever
    fewer spare bytes follow than the last copy needs. *)
Theorem C14_imul_refuted : forall cfg k n spare s, Forall (in_range k) s -> s <> [] -> (2 <= n)%Z ->
  match imul cfg k n spare s with
  | (Ret r, s') => r = VSelf /\ length s' = (length s * Z.to_nat n)%nat /\
      firstn (2 * length s) s' = s ++ repeat 0%Z (length s) /\
      (length s * esize k * (Z.to_nat n - 1) * esize k + length s * esize k
        <= length s * Z.to_nat n * esize k + length spare)%nat
  | (Undef _, _) => True
  | _ => False
  end.
Proof. exact imul_many. Qed.
Print Assumptions C14_imul_refuted.

Theorem C14_imul_small : forall cfg k n spare s, Forall (in_range k) s -> (n <= 1)%Z ->
  imul cfg k n spare s = (Ret VSelf, if n =? 1 then s else []).
Proof.
  intros cfg k n spare s F H. destruct (Z.eqb_spec n 1) as [->|].
  - exact (imul_one cfg k spare s F).
  - apply imul_nonpos. lia.
Qed.
Print Assumptions C14_imul_small.

Example C14_ex :
  mul ex_cfg KInt 3 [1; -2] = (Ret (VNewList [1; -2; 1; -2; 1; -2]), [1; -2]) /\
  fst (mul ex_cfg KInt 2 [1; 2; 3; 4; 5]) = Undef Misaligned /\
  rep_align (feat ex_cfg) (2 * esize KInt) /\ ~ rep_align (feat ex_cfg) (5 * esize KInt) /\
  fst (imul ex_cfg KInt 2 [] [7]) = Undef OutOfBounds /\
  imul ex_cfg KInt 2 (repeat 0 12) [7] = (Ret VSelf, [7; 0]).
Proof.
  split; [vm_compute; reflexivity|]. split; [vm_compute; reflexivity|].
  split; [unfold rep_align; cbn; repeat split; intros; lia|].
  split; [unfold rep_align; cbn; intros (_ & _ & H); specialize (H eq_refl ltac:(lia)); discriminate|].
  split; vm_compute; reflexivity.
Qed.

(** * C16 *)
(** Each call to next sees the contents of the list at that moment. *)
Theorem C16_forward_trace : forall vs s0, iter_run (iter_create false s0) vs = resuming_run 0 vs.
Proof. intros vs s0. exact (fwd_run vs 0). Qed.
Print Assumptions C16_forward_trace.

(** A for loop sees what CPython's list iterator gives. *)
Theorem C16_for_loop_is_python : forall vs s0,
  for_loop (iter_run (iter_create false s0) vs) = for_loop (map shown (py_iter_run (Some 0%nat) vs)).
Proof. intros vs s0. exact (fwd_for_loop vs 0). Qed.
Print Assumptions C16_for_loop_is_python.

Theorem C16_unmodified : forall s n,
  iter_run (iter_create false s) (repeat s (length s + n)) = map Ret s ++ repeat (Raise StopIteration) n.
Proof. intros s n. exact (fwd_const s (length s) 0 eq_refl n). Qed.
Print Assumptions C16_unmodified.

(** Unlike CPython's, an exhausted iterator resumes when the list grows. *)
Theorem C16_resumes_refuted : exists vs,
  iter_run (iter_create false [1]) vs <> map shown (py_iter_run (Some 0%nat) vs).
Proof. exists [[1]; [1]; [1; 2]]. discriminate. Qed.
Print Assumptions C16_resumes_refuted.

Example C16_ex : iter_run (iter_create false [1; 2]) [[1; 2]; [1; 7; 8]; [5]; [1; 2; 3; 4]] =
  [Ret 1; Ret 7; Raise StopIteration; Ret 3].
Proof. reflexivity. Qed.

(** * C17 *)
Theorem C17_unmodified : forall s n, s <> [] -> zlen s <= SSIZE_MAX ->
  iter_run (iter_create true s) (repeat s (length s + n)) = map Ret (rev s) ++ repeat (Raise StopIteration) n.
Proof. exact rev_unmodified. Qed.
Print Assumptions C17_unmodified.

(** The j-th call (from 0), none before having seen an empty list. *)
Theorem C17_trace : forall s0 vs j s, s0 <> [] -> zlen s0 <= SSIZE_MAX -> nth_error vs j = Some s ->
  (forall p t, (p < j)%nat -> nth_error vs p = Some t -> t <> []) ->
  nth_error (iter_run (iter_create true s0) vs) j =
  Some (match s with
        | [] => Raise StopIteration
        | _ => if zlen s0 - 1 <? Z.of_nat j then Raise StopIteration
               else match nth_error s (length s0 - 1 - j) with Some x => Ret x | None => Undef OutOfBounds end
        end).
Proof. exact rev_trace. Qed.
Print Assumptions C17_trace.

(** If the list never becomes shorter than it was, a for loop sees what
    CPython's reverse iterator gives. *)
Theorem C17_for_loop_is_python : forall s0 vs, s0 <> [] -> zlen s0 <= SSIZE_MAX ->
  Forall (fun s => (length s0 <= length s)%nat) vs ->
  for_loop (iter_run (iter_create true s0) vs) = for_loop (map shown (py_rev_run (Some (length s0 - 1)%nat) vs)).
Proof. exact rev_for_loop. Qed.
Print Assumptions C17_for_loop_is_python.

Theorem C17_shrunk_refuted : forall s0 s, s <> [] -> (length s < length s0)%nat -> zlen s0 <= SSIZE_MAX ->
  iter_run (iter_create true s0) [s] = [Undef OutOfBounds] /\
  map shown (py_rev_run (Some (length s0 - 1)%nat) [s]) = [Raise StopIteration].
Proof. exact rev_shrunk. Qed.
Print Assumptions C17_shrunk_refuted.

(** A reverse iterator created on an empty list that then grows yields its
    first element, where CPython's stops. *)
Theorem C17_empty_grown_refuted : forall x s,
  iter_run (iter_create true []) [x :: s] = [Ret x] /\ map shown (py_rev_run None [x :: s]) = [Raise StopIteration].
Proof. intros. split; reflexivity. Qed.
Print Assumptions C17_empty_grown_refuted.

Example C17_ex :
  iter_run (iter_create true [1; 2; 3]) [[1; 2; 3]; [4; 5; 6; 7]; [9]; [1]; [1]] =
    [Ret 3; Ret 5; Ret 9; Raise StopIteration; Raise StopIteration] /\
  iter_run (iter_create true [1; 2; 3]) [[1; 2; 3]; [4]] = [Ret 3; Undef OutOfBounds].
Proof. split; reflexivity. Qed.

(** * C46 *)
(** The buffer view describes the contents: reading [v_shape] signed
    little-endian items of [v_itemsize] bytes gives the list. *)
Theorem C46_buffer_describes_list : forall k s, Forall (in_range k) s ->
  let v := get_buffer k s in
  v_len v = Z.of_nat (length (v_buf v)) /\ v_len v = v_shape v * v_itemsize v /\
  v_itemsize v = match k with KInt => 4 | KBig => 8 end /\
  map le_sval (chunk_n (Z.to_nat (v_itemsize v)) (Z.to_nat (v_shape v)) (v_buf v)) = s.
Proof. exact buffer_ok. Qed.
Print Assumptions C46_buffer_describes_list.

Example C46_ex : v_buf (get_buffer KInt [-2; 258]) = [254; 255; 255; 255; 2; 1; 0; 0] /\
  v_shape (get_buffer KInt [-2; 258]) = 2.
Proof. split; reflexivity. Qed.
