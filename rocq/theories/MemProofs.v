From Coq Require Import ZArith List Bool Arith Lia.
From Verif Require Import Base MemModel.
Import ListNotations.

Definition all_len {A} (es : nat) (L : list (list A)) : Prop := Forall (fun x => length x = es) L.

Lemma concat_length {A} (es : nat) (L : list (list A)) : all_len es L -> length (concat L) = length L * es.
Proof. induction 1; cbn; [reflexivity|]. rewrite app_length. lia. Qed.

Lemma all_len_app {A} es (a b : list (list A)) : all_len es (a ++ b) <-> all_len es a /\ all_len es b.
Proof. apply Forall_app. Qed.

Lemma all_len_rev {A} es (a : list (list A)) : all_len es a -> all_len es (rev a).
Proof. apply Forall_rev. Qed.

Lemma mload_mid (p v s : bytes) a n :
  a = length p -> n = length v -> mload (p ++ v ++ s) a n = Ret v.
Proof.
  intros -> ->. unfold mload. rewrite !app_length.
  destruct (Nat.leb_spec (length p + length v) (length p + (length v + length s))); [|lia].
  rewrite skipn_app, skipn_all, Nat.sub_diag. cbn.
  rewrite firstn_app, firstn_all, Nat.sub_diag. cbn. rewrite app_nil_r. reflexivity.
Qed.

Lemma mstore_mid (p v s w : bytes) a :
  a = length p -> length w = length v -> mstore (p ++ v ++ s) a w = Ret (p ++ w ++ s).
Proof.
  intros -> E. unfold mstore. rewrite !app_length, E.
  destruct (Nat.leb_spec (length p + length v) (length p + (length v + length s))); [|lia].
  rewrite firstn_app, firstn_all, Nat.sub_diag. cbn. rewrite app_nil_r.
  rewrite skipn_app. rewrite (skipn_all2 p) by lia. cbn.
  replace (length p + length v - length p) with (length v) by lia.
  rewrite skipn_app, skipn_all, Nat.sub_diag. cbn. reflexivity.
Qed.

Lemma list_split_len {A} (l : list A) a b : length l = a + b ->
  exists x y, l = x ++ y /\ length x = a /\ length y = b.
Proof.
  intros H. exists (firstn a l), (skipn a l). split; [symmetry; apply firstn_skipn|].
  rewrite firstn_length, skipn_length. lia.
Qed.

Lemma list_split3 {A} (l : list A) a b c : length l = a + (b + c) ->
  exists x y z, l = x ++ y ++ z /\ length x = a /\ length y = b /\ length z = c.
Proof.
  intros H. destruct (list_split_len l a (b + c) H) as (x & r & -> & Hx & Hr).
  destruct (list_split_len r b c Hr) as (y & z & -> & Hy & Hz).
  exists x, y, z. auto.
Qed.

Lemma chunk_n_concat es n L : all_len es L -> length L = n -> chunk_n es n (concat L) = L.
Proof.
  revert L; induction n as [|n IH]; intros [|x L] F H; cbn in *; try lia; try reflexivity.
  inversion F; subst.
  rewrite firstn_app, firstn_all, Nat.sub_diag. cbn. rewrite app_nil_r.
  rewrite skipn_app, skipn_all, Nat.sub_diag. cbn. rewrite IH; auto.
Qed.

Lemma chunks_concat es L : 0 < es -> all_len es L -> chunks es (concat L) = L.
Proof.
  intros H F. unfold chunks. apply chunk_n_concat; [assumption|].
  rewrite (concat_length es) by assumption. rewrite Nat.div_mul by lia. reflexivity.
Qed.

Lemma chunk_n_all es n b : length b = n * es -> all_len es (chunk_n es n b) /\ concat (chunk_n es n b) = b /\ length (chunk_n es n b) = n.
Proof.
  revert b; induction n as [|n IH]; intros b H; cbn [chunk_n].
  - destruct b; [|discriminate]. repeat split; constructor.
  - destruct (IH (skipn es b)) as (A & B & C).
    { rewrite skipn_length. lia. }
    split; [|split].
    + constructor; [rewrite firstn_length; lia|exact A].
    + cbn. rewrite B. apply firstn_skipn.
    + cbn. lia.
Qed.

Lemma chunks_spec es n b : 0 < es -> length b = n * es ->
  all_len es (chunks es b) /\ concat (chunks es b) = b /\ length (chunks es b) = n.
Proof.
  intros H E. unfold chunks. rewrite E, Nat.div_mul by lia. apply chunk_n_all; assumption.
Qed.

(** Encoding *)
Lemma le_bytes_length n z : length (le_bytes n z) = n.
Proof. revert z; induction n; intros; cbn; auto. Qed.

Lemma le_val_bytes n z : le_val (le_bytes n z) = (z mod 256 ^ Z.of_nat n)%Z.
Proof.
  revert z; induction n as [|n IH]; intros z.
  - cbn. rewrite Z.mod_1_r. reflexivity.
  - cbn [le_bytes le_val]. rewrite IH. rewrite Nat2Z.inj_succ, Z.pow_succ_r by lia.
    rewrite Z.rem_mul_r; [reflexivity|lia|]. apply Z.pow_pos_nonneg; lia.
Qed.

Lemma mload_cases m a n : (exists v, mload m a n = Ret v) \/ mload m a n = Undef OutOfBounds.
Proof. unfold mload. destruct (_ <=? _); eauto. Qed.

Lemma mstore_cases m a v : (exists m', mstore m a v = Ret m') \/ mstore m a v = Undef OutOfBounds.
Proof. unfold mstore. destruct (_ <=? _); eauto. Qed.
