(** Corollaries about sort() without key, and the integer given as reverse. *)
From Coq Require Import ZArith List Bool Lia Sorting.Sorted Sorting.Permutation.
From Verif Require Import Base PyLongModel PyListSpec ListLemmas ArrayListModel ArrayListSpec CPythonSortModel
  SortSpec SortMachineProofs SortMethodModel SortMethodProofs LinkedListModel SimdSortModel SimdSortSpec SimdSortProofs.
Import ListNotations.
Local Open Scope Z_scope.

Lemma sort_nokey_scalar cfg k r s : zlen s * ez k <= SSIZE_MAX ->
  avx2 (feat cfg) = false -> avx512 (feat cfg) = false ->
  exists s', sort_nokey cfg k r s = (Ret VNone, s') /\ Permutation s' s /\ ordered (r =? 1) s'.
Proof.
  intros HM E2 E5. apply sort_nokey_sorts; auto. intros (_ & H). rewrite E2, E5 in H.
  destruct k; destruct H as [[H _]|[H _]]; discriminate.
Qed.

Lemma sort_nokey_short cfg k r s : zlen s < match k with KInt => 9 | KBig => 8 end ->
  exists s', sort_nokey cfg k r s = (Ret VNone, s') /\ Permutation s' s /\ ordered (r =? 1) s'.
Proof.
  intros H. apply sort_nokey_sorts.
  - change SSIZE_MAX with 9223372036854775807. rewrite ez_val. destruct k; lia.
  - intros (H8 & X). destruct k; [destruct X as [[_ X]|[_ X]]; lia|lia].
Qed.

Lemma sort_nokey_reverse cfg k r s : r <> 1 -> sort_nokey cfg k r s = sort_nokey cfg k 0 s.
Proof. intros H. unfold sort_nokey. destruct (Z.eqb_spec r 1); [congruence|]. reflexivity. Qed.

Lemma lsort_reverse r l : r <> 1 -> lsort r l = lsort 0 l.
Proof. intros H. unfold lsort. destruct (Z.eqb_spec r 1); [congruence|]. reflexivity. Qed.

Lemma sort_key_nonzero {K} cfg (keyf : nat -> pylong -> option K) cmp grab e r k (key : Z -> K) lt s :
  8 * zlen s <= SSIZE_MAX -> Forall (in_sbits (elem_bits k)) s -> Forall (exact cfg k) s ->
  (forall i p, keyf i p = Some (key (pl_val p))) -> sane cmp grab lt -> r <> 0 ->
  exists m, sort_key cfg k keyf cmp true grab e (Kept s) r s = (Ret VNone, m) /\
    Permutation m s /\ descending (fun x y => lt (key x) (key y)) m.
Proof.
  intros H1 H2 H3 H4 H5 Hr. destruct (sort_key_exact cfg keyf cmp grab e r k key lt s H1 H2 H3 H4 H5) as (m & E & P & D & _).
  exists m. split; [auto|]. split; [auto|]. unfold key_reverse in D. destruct (Z.eqb_spec r 0); [congruence|]. exact D.
Qed.

Lemma both_orders x y s : ordered false s -> ordered true s -> In x s -> In y s -> x = y.
Proof.
  unfold ordered. intros A. induction A as [|a s A IH F]; intros B Hx Hy; [destruct Hx|].
  inversion B as [|? ? B' G]; subst. rewrite Forall_forall in F, G.
  assert (U : forall z, In z (a :: s) -> z = a).
  { intros z [<-|Hz]; [auto|]. specialize (F z Hz). specialize (G z Hz). lia. }
  rewrite (U x Hx), (U y Hy). auto.
Qed.

Lemma sort_nokey_not_reversed cfg k r s x y : zlen s * ez k <= SSIZE_MAX -> ~ vector_path (feat cfg) k (zlen s) ->
  r <> 0 -> r <> 1 -> In x s -> In y s -> x <> y ->
  exists s', sort_nokey cfg k r s = (Ret VNone, s') /\ Permutation s' s /\ ~ ordered true s'.
Proof.
  intros HM NV _ R1 Hx Hy N. destruct (sort_nokey_sorts cfg k r s HM NV) as (s' & E & P & O).
  exists s'. split; [auto|]. split; [auto|]. intros T. apply N.
  destruct (Z.eqb_spec r 1); [congruence|]. apply Permutation_sym in P.
  apply (both_orders x y s'); auto; eapply Permutation_in; eauto.
Qed.
