(** Each sortslice helper on two arrays is the slot operation on their zip. *)
From Coq Require Import ZArith List Bool Lia Arith.
From Verif Require Import Base ListLemmas CPythonSortModel SortSliceModel.
Import ListNotations.
Local Open Scope Z_scope.
Local Arguments Z.sub : simpl never.
Local Arguments Z.add : simpl never.

Section P.
Context {K V : Type}.
Implicit Types (a : list K) (b : list V).

Lemma combine_firstn a : forall n b, firstn n (combine a b) = combine (firstn n a) (firstn n b).
Proof. induction a; destruct n, b; simpl; auto. f_equal; auto. Qed.
Lemma combine_skipn a : forall n b, length a = length b -> skipn n (combine a b) = combine (skipn n a) (skipn n b).
Proof. induction a; destruct n, b; simpl; intros; auto; discriminate. Qed.
Lemma combine_app2 a : forall a' b b', length a = length b -> combine (a ++ a') (b ++ b') = combine a b ++ combine a' b'.
Proof. induction a; destruct b; simpl; intros; auto; try discriminate. f_equal; auto. Qed.
Lemma combine_nth_error a : forall b n, length a = length b ->
  nth_error (combine a b) n = match nth_error a n, nth_error b n with Some x, Some y => Some (x, y) | _, _ => None end.
Proof.
  induction a; destruct b; destruct n; simpl; intros; auto; try discriminate.
Qed.
Lemma zlen_comb a b : length a = length b -> zlen (combine a b) = zlen a.
Proof. intros H. unfold zlen. rewrite combine_length, <- H, Nat.min_id. reflexivity. Qed.
Lemma zlen_same a b : length a = length b -> zlen b = zlen a.
Proof. unfold zlen. intros ->. reflexivity. Qed.

(** One computation on slots and its two images on keys and on values. *)
Definition together {X Y Z} (R : X -> Y -> Z -> Prop) (o : option X) (p : option Y) (q : option Z) : Prop :=
  match p, q with
  | Some y, Some z => exists x, o = Some x /\ R x y z
  | None, None => o = None
  | _, _ => False
  end.
Definition lists l a b := length a = length b /\ l = combine a b.
Definition elems (e : K * V) x y := e = (x, y).

Lemma together_bind {X Y Z X' Y' Z'} (R : X -> Y -> Z -> Prop) (R' : X' -> Y' -> Z' -> Prop) o p q f g h :
  together R o p q -> (forall x y z, R x y z -> together R' (f x) (g y) (h z)) ->
  together R' (obnd o f) (obnd p g) (obnd q h).
Proof.
  unfold together. destruct p, q; try tauto.
  - intros (x & -> & H) F. simpl. apply F. exact H.
  - intros -> _. reflexivity.
Qed.

Lemma znth_together l a b i : lists l a b -> together elems (znth l i) (znth a i) (znth b i).
Proof.
  intros (H & ->). unfold znth. destruct (i <? 0); [reflexivity|]. rewrite combine_nth_error by exact H.
  set (n := Z.to_nat i). clearbody n.
  destruct (nth_error a n) eqn:E1, (nth_error b n) eqn:E2; simpl; auto.
  - eexists; split; reflexivity.
  - apply nth_error_None in E2. rewrite <- H in E2. apply nth_error_None in E2. congruence.
  - apply nth_error_None in E1. rewrite H in E1. apply nth_error_None in E1. congruence.
Qed.

Lemma nset_together : forall a b n x y, length a = length b ->
  together lists (nset (combine a b) n (x, y)) (nset a n x) (nset b n y).
Proof.
  induction a; destruct b; simpl; intros n x y H; try discriminate; [reflexivity|].
  injection H as H. destruct n; simpl.
  - eexists; split; [reflexivity|]. split; simpl; auto.
  - specialize (IHa b n x y H). unfold together in *.
    destruct (nset a0 n x), (nset b n y); simpl; try tauto.
    + destruct IHa as (r & -> & H1 & ->). eexists; split; [reflexivity|]. split; simpl; auto.
    + rewrite IHa. reflexivity.
Qed.
Lemma zset_together l a b i e x y : lists l a b -> elems e x y -> together lists (zset l i e) (zset a i x) (zset b i y).
Proof. intros (H & ->) ->. unfold zset. destruct (i <? 0); [reflexivity|]. apply nset_together. exact H. Qed.

Lemma sub_together l a b i n : lists l a b -> together lists (sub l i n) (sub a i n) (sub b i n).
Proof.
  intros (H & ->). unfold sub. rewrite zlen_comb, (zlen_same a b) by exact H.
  destruct (_ && _); [|reflexivity]. eexists; split; [reflexivity|]. split.
  - rewrite !firstn_length, !skipn_length, H. reflexivity.
  - rewrite combine_skipn, combine_firstn by exact H. reflexivity.
Qed.
Lemma put_together l a b i l' a' b' : lists l a b -> lists l' a' b' -> together lists (put l i l') (put a i a') (put b i b').
Proof.
  intros (H & ->) (H' & ->). unfold put. rewrite !zlen_comb, (zlen_same a b), (zlen_same a' b') by assumption.
  destruct (_ && _); [|reflexivity]. eexists; split; [reflexivity|]. split.
  - rewrite !app_length, !firstn_length, !skipn_length, H, H'. reflexivity.
  - rewrite combine_skipn, combine_firstn, combine_length by exact H. rewrite <- H', Nat.min_id.
    rewrite !combine_app2; auto. rewrite !firstn_length, H. reflexivity.
Qed.

Lemma copy_one_together l a b i l' a' b' j : lists l a b -> lists l' a' b' ->
  together lists (copy_one l i l' j) (copy_one a i a' j) (copy_one b i b' j).
Proof.
  intros H H'. unfold copy_one. eapply together_bind; [apply znth_together; exact H'|].
  intros. apply zset_together; assumption.
Qed.

Lemma reverse_together : forall fuel l a b lo hi, lists l a b ->
  together lists (reverse_one fuel l lo hi) (reverse_one fuel a lo hi) (reverse_one fuel b lo hi).
Proof.
  induction fuel; intros l a b lo hi H; cbn [reverse_one]; [eexists; split; [reflexivity|exact H]|].
  destruct (lo <? hi); [|eexists; split; [reflexivity|exact H]].
  eapply together_bind; [apply znth_together; exact H|]. intros e x y E.
  eapply together_bind; [apply znth_together; exact H|]. intros e' x' y' E'.
  eapply together_bind; [apply zset_together; eassumption|]. intros.
  eapply together_bind; [apply zset_together; eassumption|]. intros. apply IHfuel. assumption.
Qed.

Lemma slide_together : forall fuel l a b m lo, lists l a b ->
  together lists (slide_one fuel l m lo) (slide_one fuel a m lo) (slide_one fuel b m lo).
Proof.
  induction fuel; intros l a b m lo H; cbn [slide_one]; [eexists; split; [reflexivity|exact H]|].
  destruct (lo <? m); [|eexists; split; [reflexivity|exact H]].
  eapply together_bind; [apply copy_one_together; exact H|]. intros. apply IHfuel. assumption.
Qed.
Lemma insert_together l a b ok lo : lists l a b ->
  together lists (insert_one l ok lo) (insert_one a ok lo) (insert_one b ok lo).
Proof.
  intros H. unfold insert_one. eapply together_bind; [apply znth_together; exact H|]. intros.
  eapply together_bind; [apply slide_together; exact H|]. intros. apply zset_together; assumption.
Qed.

(** ** The helpers *)
(** The slots of a slice with values. *)
Definition slots (s : slice K V) (l : list (K * V)) : Prop :=
  exists a b, s = mkslice a (Some b) /\ lists l a b.
Definition same_slots (o : option (slice K V)) (p : option (list (K * V))) : Prop :=
  match p with Some l => exists s, o = Some s /\ slots s l | None => o = None end.

Lemma same_slots_intro o p q : together lists o p q ->
  same_slots (obnd p (fun ks => obnd q (fun vs => Some (mkslice ks (Some vs))))) o.
Proof.
  unfold together, same_slots. destruct p, q; try tauto.
  - intros (x & -> & H). simpl. eexists; split; [reflexivity|]. do 2 eexists. split; [reflexivity|exact H].
  - intros ->. reflexivity.
Qed.

Theorem memmove_slots s1 s2 l1 l2 i j n : slots s1 l1 -> slots s2 l2 ->
  same_slots (sortslice_memmove s1 i s2 j n) (copy_range l1 i l2 j n).
Proof.
  intros (a1 & b1 & -> & H1) (a2 & b2 & -> & H2). unfold sortslice_memmove. cbn [keys values].
  apply same_slots_intro. unfold copy_range. eapply together_bind; [apply sub_together; exact H2|].
  intros. apply put_together; assumption.
Qed.
Theorem copy_slots s1 s2 l1 l2 i j : slots s1 l1 -> slots s2 l2 ->
  same_slots (sortslice_copy s1 i s2 j) (copy_one l1 i l2 j).
Proof.
  intros (a1 & b1 & -> & H1) (a2 & b2 & -> & H2). unfold sortslice_copy. cbn [keys values].
  apply same_slots_intro. apply copy_one_together; assumption.
Qed.
Theorem reverse_slots s l lo n : slots s l ->
  same_slots (sortslice_reverse s lo n) (reverse_one (Z.to_nat n) l lo (lo + n - 1)).
Proof.
  intros (a1 & b1 & -> & H1). unfold sortslice_reverse. cbn [keys values].
  apply same_slots_intro. apply reverse_together; assumption.
Qed.
Theorem insert_slots s l ok lo : slots s l -> same_slots (sortslice_insert s ok lo) (insert_one l ok lo).
Proof.
  intros (a1 & b1 & -> & H1). unfold sortslice_insert. cbn [keys values].
  apply same_slots_intro. apply insert_together; assumption.
Qed.
End P.

(** ** The steps of the sort are these operations on its array *)
Section Steps.
Context {A : Type}.
Definition done_with (o : option (list A)) (s : st) : mres unit :=
  match o with Some l => Done tt (with_arr l s) | None => Bad (Ub OutOfBounds) end.
Lemma with_arr_same (s : @st A) : with_arr (arr s) s = s.
Proof. destruct s; reflexivity. Qed.
Lemma with_arr_twice l l' (s : @st A) : with_arr l' (with_arr l s) = with_arr l' s.
Proof. reflexivity. Qed.
Lemma move_step i j n (s : @st A) : move_in_arr i j n s = done_with (copy_range (arr s) i (arr s) j n) s.
Proof. unfold move_in_arr, copy_range, done_with. destruct (sub (arr s) j n); simpl; auto. Qed.
Lemma from_tmp_step i j n (s : @st A) : copy_from_tmp i j n s = done_with (copy_range (arr s) i (tmp s) j n) s.
Proof. unfold copy_from_tmp, copy_range, done_with. destruct (sub (tmp s) j n); simpl; auto. Qed.
Lemma copy_step i j (s : @st A) : copy_arr_arr i j s = done_with (copy_one (arr s) i (arr s) j) s.
Proof. unfold copy_arr_arr, copy_one, done_with, bind, get_arr, set_arr. destruct (znth (arr s) j); simpl; auto. Qed.
Lemma copy_tmp_step i j (s : @st A) : copy_arr_tmp i j s = done_with (copy_one (arr s) i (tmp s) j) s.
Proof. unfold copy_arr_tmp, copy_one, done_with, bind, get_tmp, set_arr. destruct (znth (tmp s) j); simpl; auto. Qed.
Lemma reverse_step_loop fuel : forall lo hi (s : @st A), hi - lo < Z.of_nat fuel ->
  reverse_loop fuel lo hi s = done_with (reverse_one fuel (arr s) lo hi) s.
Proof.
  induction fuel as [|f IH]; intros lo hi s H.
  - cbn [reverse_loop reverse_one]. destruct (Z.ltb_spec lo hi); [lia|]. simpl. rewrite with_arr_same. reflexivity.
  - cbn [reverse_loop reverse_one]. destruct (Z.ltb_spec lo hi); [|simpl; rewrite with_arr_same; reflexivity].
    unfold bind at 1, get_arr at 1. destruct (znth (arr s) lo) as [x|]; [|reflexivity]. cbn [obnd].
    unfold bind at 1, get_arr at 1. destruct (znth (arr s) hi) as [y|]; [|reflexivity]. cbn [obnd].
    unfold bind at 1, set_arr at 1. destruct (zset (arr s) lo y) as [l1|]; [|reflexivity]. cbn [obnd].
    unfold bind at 1, set_arr at 1. cbn [arr with_arr]. destruct (zset l1 hi x) as [l2|]; [|reflexivity]. cbn [obnd].
    rewrite with_arr_twice, IH by lia. cbn [arr with_arr]. unfold done_with. destruct (reverse_one f l2 (lo + 1) (hi - 1)); auto.
Qed.
Lemma reverse_step lo n (s : @st A) : reverse_slice lo n s = done_with (reverse_one (Z.to_nat n) (arr s) lo (lo + n - 1)) s.
Proof. apply reverse_step_loop. lia. Qed.
Lemma slide_step fuel : forall fuel' lo m l (s : @st A), m - l <= Z.of_nat fuel -> m - l <= Z.of_nat fuel' ->
  slide fuel lo m l s = done_with (slide_one fuel' (arr s) (lo + m) (lo + l)) s.
Proof.
  induction fuel as [|f IH]; intros fuel' lo m l s H H'.
  - cbn [slide]. destruct (Z.ltb_spec l m); [lia|]. destruct fuel'; cbn [slide_one]; [|destruct (Z.ltb_spec (lo + l) (lo + m)); [lia|]];
      simpl; rewrite with_arr_same; reflexivity.
  - cbn [slide]. destruct (Z.ltb_spec l m) as [L|L].
    + destruct fuel' as [|f']; [lia|]. cbn [slide_one]. destruct (Z.ltb_spec (lo + l) (lo + m)); [|lia].
      unfold bind. rewrite copy_step. destruct (copy_one (arr s) (lo + m) (arr s) (lo + m - 1)) as [l1|]; [|reflexivity]. cbn [done_with obnd].
      rewrite (IH f') by lia. cbn [arr with_arr]. replace (lo + (m - 1)) with (lo + m - 1) by lia.
      unfold done_with. destruct (slide_one f' l1 (lo + m - 1) (lo + l)); auto.
    + destruct fuel'; cbn [slide_one]; [|destruct (Z.ltb_spec (lo + l) (lo + m)); [lia|]]; simpl; rewrite with_arr_same; reflexivity.
Qed.
(** The insertion of binarysort, for any number of steps the slide may take. *)
Definition insertion (fuel : nat) (lo ok l : Z) : M unit :=
  bind (get_arr (A := A) (lo + ok)) (fun pivot => bind (slide fuel lo ok l) (fun _ => set_arr (lo + l) pivot)).
Lemma insert_step fuel lo ok l (s : @st A) : ok - l <= Z.of_nat fuel -> insertion fuel lo ok l s = done_with (insert_one (arr s) (lo + ok) (lo + l)) s.
Proof.
  intros H. unfold insertion, insert_one, bind, get_arr. destruct (znth (arr s) (lo + ok)) as [p|]; [|reflexivity]. cbn [obnd].
  rewrite (slide_step fuel (Z.to_nat (lo + ok - (lo + l)))) by lia.
  destruct (slide_one (Z.to_nat (lo + ok - (lo + l))) (arr s) (lo + ok) (lo + l)) as [l1|]; [|reflexivity]. cbn [done_with obnd].
  unfold set_arr. cbn [arr with_arr]. destruct (zset l1 (lo + l) p); reflexivity.
Qed.
End Steps.

Lemma key_sort_refused {V K} (keyf : nat -> V -> option K) cmp grab l reverse :
  128 <= zlen l -> grab (zlen l) = false -> CPython_sort_key keyf cmp grab l reverse = SortErr l.
Proof.
  intros H G. unfold CPython_sort_key. rewrite G. destruct (Z.leb_spec (MERGESTATE_TEMP_SIZE / 2) (zlen l)) as [_|C]; [reflexivity|].
  change (MERGESTATE_TEMP_SIZE / 2) with 128 in C. lia.
Qed.
