(** Proofs about the pre-sort check. *)
From Coq Require Import ZArith List Bool Arith Lia Permutation.
From Verif Require Import Base PyLongModel PyLongProofs MemModel MemProofs PreSortModel PreSortSpec SortSpec CPythonSortModel SortMachineProofs SortMainProofs.
Import ListNotations.
Local Open Scope Z_scope.
Local Arguments Z.pow : simpl never.

Lemma is_type_eq v t : is_type v t = true <-> type_of v = t.
Proof. unfold is_type. destruct (type_of v), t; split; intros H; try discriminate; try reflexivity; try congruence; [f_equal; apply Z.eqb_eq; exact H|injection H as ->; apply Z.eqb_refl]. Qed.

Definition key_of (tup : bool) (k : pv) : option pv := if tup then match k with VTup (x :: _) => Some x | _ => None end else Some k.

Lemma key_item (b : bool) k : (exists key, (if b then first_item k else Ret k) = Ret key) \/ (exists u, (if b then first_item k else Ret k) = Undef u).
Proof. destruct b; [|left; eauto]. destruct k as [| | |[|x l]|]; cbn; eauto. Qed.

Section Scan.
Variable py : bool.
Definition good_key (t : ptype) (g : flags) (x : pv) : Prop :=
  type_of x = t /\
  (latin g = true -> forall c, x = VStr c -> kind_of c = 1%nat) /\
  (bounded g = true -> forall p, x = VInt p -> py = true /\ pl_compact p = true).
Lemma scan_total t keys f : exists g, scan py t keys f = Ret g.
Proof.
  revert f. induction keys as [|k r IH]; intros f; cbn [scan]; [eauto|].
  destruct (in_tuples f && negb (is_full_tuple k)) eqn:E; [eauto|].
  assert (K : exists key, (if in_tuples f then first_item k else Ret k) = Ret key).
  { destruct (in_tuples f); [|eauto]. cbn [andb] in E. apply negb_false_iff in E. destruct k as [| | |[|x l]|]; try discriminate. cbn. eauto. }
  destruct K as (key & ->). cbn [obind]. 
  destruct (negb (is_type key t) && negb (in_tuples f)); [eauto|]. destruct (same_type f && is_type key t); [|apply IH].
  match goal with |- context [if ?c then _ else _] => destruct c end; [apply IH|].
  match goal with |- context [if ?c then _ else _] => destruct c end; apply IH.
Qed.
Lemma scan_mono t keys f g : scan py t keys f = Ret g ->
  (same_type g = true -> same_type f = true) /\ (latin g = true -> latin f = true) /\ (bounded g = true -> bounded f = true) /\ (in_tuples g = true -> in_tuples f = true).
Proof.
  revert f. induction keys as [|k r IH]; intros f; cbn [scan]; [intros [= <-]; auto|].
  destruct (in_tuples f && negb (is_full_tuple k)) eqn:E; [intros [= <-]; cbn; repeat split; auto; discriminate|].
  destruct (key_item (in_tuples f) k) as [(key & K)|(u & K)]; rewrite K; cbn [obind]; [|discriminate].
  destruct (negb (is_type key t) && negb (in_tuples f)); [intros [= <-]; cbn; repeat split; auto; intros A; apply andb_prop in A; tauto|].
  destruct (same_type f && is_type key t) eqn:S; [apply andb_prop in S; destruct S as (S & _)|].
  - match goal with |- context [if ?c then _ else _] => destruct c eqn:C1 end; [|match goal with |- context [if ?c then _ else _] => destruct c eqn:C2 end];
    intros X; destruct (IH _ X) as (I1 & I2 & I3 & I4); cbn in *; repeat split; auto; try (intros A; specialize (I2 A); discriminate); try (intros A; specialize (I3 A); discriminate).
  - intros X. destruct (IH _ X) as (I1 & I2 & I3 & I4); cbn in *. repeat split; auto. intros A. specialize (I1 A). discriminate.
Qed.
Lemma scan_keys t keys f g : scan py t keys f = Ret g ->
  (in_tuples g = true -> forall k, In k keys -> is_full_tuple k = true) /\
  (same_type g = true -> in_tuples g = in_tuples f /\ forall k, In k keys -> exists x, key_of (in_tuples f) k = Some x /\ good_key t g x).
Proof.
  revert f. induction keys as [|k r IH]; intros f; cbn [scan].
  { intros [= <-]. split; [intros _ k []|]. intros _. split; [reflexivity|]. intros k []. }
  destruct (in_tuples f && negb (is_full_tuple k)) eqn:E; [intros [= <-]; cbn; split; intros X; discriminate X|].
  destruct (key_item (in_tuples f) k) as [(key & K)|(u & K)]; rewrite K; cbn [obind]; [|discriminate].
  assert (KO : key_of (in_tuples f) k = Some key).
  { unfold key_of. destruct (in_tuples f); [|injection K as ->; reflexivity]. destruct k as [| | |[|x l]|]; try discriminate. injection K as ->. reflexivity. }
  assert (FT : in_tuples f = true -> is_full_tuple k = true) by (intros T; rewrite T in E; cbn [andb] in E; apply negb_false_iff in E; exact E).
  destruct (negb (is_type key t) && negb (in_tuples f)) eqn:B.
  { apply andb_prop in B. destruct B as (B1 & B2). apply negb_true_iff in B1, B2. intros [= <-]. cbn. rewrite B1, B2, andb_false_r. split; intros X; discriminate X. }
  destruct (same_type f && is_type key t) eqn:S.
  2:{ intros X. pose proof (scan_mono _ _ _ _ X) as (M1 & M2 & M3 & M4). destruct (IH _ X) as (I1 & I2). cbn in *. split.
      - intros T k' [<-|J]; [apply FT; apply M4; exact T|apply I1; assumption].
      - intros Sg. specialize (M1 Sg). discriminate. }
  apply andb_prop in S. destruct S as (S1 & S2).
  assert (TY : type_of key = t) by (apply is_type_eq; exact S2).
  assert (FIN : forall f', in_tuples f' = in_tuples f -> scan py t r f' = Ret g -> (latin g = true -> forall c, key = VStr c -> kind_of c = 1%nat) ->
    (bounded g = true -> forall p, key = VInt p -> py = true /\ pl_compact p = true) ->
    (in_tuples g = true -> forall k0, In k0 (k :: r) -> is_full_tuple k0 = true) /\
    (same_type g = true -> in_tuples g = in_tuples f /\ forall k0, In k0 (k :: r) -> exists x, key_of (in_tuples f) k0 = Some x /\ good_key t g x)).
  { intros f' Hf X HL HB. pose proof (scan_mono _ _ _ _ X) as (M1 & M2 & M3 & M4). destruct (IH _ X) as (I1 & I2). rewrite Hf in *. split.
    - intros T k' [<-|J]; [apply FT; apply M4; exact T|apply I1; assumption].
    - intros Sg. destruct (I2 Sg) as (A & Bk). split; [exact A|]. intros k0 [<-|J]; [|apply Bk; exact J]. exists key. split; [exact KO|]. split; [exact TY|]. split; assumption. }
  match goal with |- context [if ?c then _ else _] => destruct c eqn:C1 end; [|match goal with |- context [if ?c then _ else _] => destruct c eqn:C2 end]; intros X.
  - pose proof (scan_mono _ _ _ _ X) as (M1 & M2 & M3 & M4). cbn in M3. refine (FIN _ _ X _ _); [reflexivity| |].
    + intros _ c ->. rewrite <- TY in C1. cbn in C1. discriminate.
    + intros A. specialize (M3 A). discriminate.
  - pose proof (scan_mono _ _ _ _ X) as (M1 & M2 & M3 & M4). cbn in M2. refine (FIN _ _ X _ _); [reflexivity| |].
    + intros A. specialize (M2 A). discriminate.
    + intros _ p ->. rewrite <- TY in C2. cbn in C2. discriminate.
  - pose proof (scan_mono _ _ _ _ X) as (M1 & M2 & M3 & M4). cbn in M2, M3. refine (FIN _ _ X _ _); [reflexivity| |].
    + intros A c ->. specialize (M2 A). rewrite <- TY, M2 in C2. cbn in C2. apply negb_false_iff, Nat.eqb_eq in C2. exact C2.
    + intros A p ->. specialize (M3 A). rewrite <- TY, M3 in C1. cbn in C1. destruct py; [|discriminate]. apply negb_false_iff in C1. auto.
Qed.
End Scan.

(** ** The special comparisons *)
Lemma compact_is p : Forall (fun d => 0 <= d) (pl_digits p) -> (pl_digits p = [] -> pl_neg p = false) -> pl_compact p = true -> compact_value p = pl_val p.
Proof.
  intros D Z0 C. unfold compact_value, Py_SIZE, pl_val, first_digit, pl_compact in *. destruct (pl_digits p) as [|d [|e r]] eqn:E; [|cbn in *|discriminate].
  - rewrite (Z0 eq_refl). reflexivity.
  - destruct (pl_neg p).
    + change (10 mod 4) with 2. rewrite Z.mul_0_r, Z.add_0_r. destruct d; reflexivity.
    + change (8 mod 4) with 0. rewrite Z.mul_0_r, Z.add_0_r. destruct d; reflexivity.
Qed.

Lemma kind_one c : kind_of c = 1%nat -> Forall (fun x => 0 <= x) c -> Forall (fun x => 0 <= x < 256) c.
Proof.
  unfold kind_of. destruct (forallb (fun c0 => c0 <? 256) c) eqn:E; [|destruct (forallb (fun c0 => c0 <? 65536) c); intros X; discriminate X]. intros _ P. rewrite forallb_forall in E. rewrite Forall_forall in *.
  intros x I. specialize (E x I). specialize (P x I). apply Z.ltb_lt in E. lia.
Qed.
Lemma data_one c : kind_of c = 1%nat -> Forall (fun x => 0 <= x) c -> data_of c = c.
Proof.
  intros K P. pose proof (kind_one c K P) as R. unfold data_of. rewrite K. clear K P. induction R as [|x r B _ IH]; [reflexivity|]. change (flat_map (le_bytes 1) (x :: r)) with (le_bytes 1 x ++ flat_map (le_bytes 1) r). rewrite IH. cbn [le_bytes app]. rewrite Z.mod_small by lia. reflexivity.
Qed.
Lemma str_less_irrefl a : ~ str_less a a.
Proof. induction a as [|x a IH]; intros H; inversion H; subst; [lia|auto]. Qed.
Definition latin_answer (a b : list Z) : bool :=
  let len := Nat.min (length a) (length b) in
  let res := memcmp (firstn len a) (firstn len b) in
  if negb (res =? 0) then res <? 0 else (length a <? length b)%nat.
Lemma latin_answer_spec a b : latin_answer a b = true <-> str_less a b.
Proof.
  revert b. induction a as [|x a IH]; intros b.
  - unfold latin_answer. cbn. destruct b; cbn; split; intros H; try discriminate; try constructor. inversion H.
  - destruct b as [|y b]; [unfold latin_answer; cbn; split; intros H; [discriminate|inversion H]|].
    assert (E : latin_answer (x :: a) (y :: b) = if x =? y then latin_answer a b else x <? y).
    { unfold latin_answer. cbn [length Nat.min firstn memcmp]. destruct (Z.eqb_spec x y) as [->|N]; [reflexivity|]. destruct (Z.ltb_spec x y); reflexivity. }
    rewrite E. destruct (Z.eqb_spec x y) as [->|N].
    + rewrite IH. split; intros H; [constructor; exact H|]. inversion H; subst; [lia|assumption].
    + rewrite Z.ltb_lt. split; intros H; [constructor; exact H|]. inversion H; subst; [assumption|congruence].
Qed.
Lemma bool_iff (a b : bool) : (a = true <-> b = true) -> a = b.
Proof. destruct a, b; intuition congruence. Qed.

Section Agree.
Variables (py : bool) (rcb : cop -> pv -> pv -> outcome bool) (slot : ptype -> option Z) (fn : Z -> pv -> pv -> answer) (flt : Z -> Z -> bool).
Hypothesis I : interpreter rcb slot fn flt.
Notation elem := (elem_compare py rcb slot fn flt).

Lemma latin_agrees a b : kind_of a = 1%nat -> kind_of b = 1%nat -> sound (VStr a) -> sound (VStr b) -> unsafe_latin_compare (VStr a) (VStr b) = rcb CLt (VStr a) (VStr b).
Proof.
  intros Ka Kb Sa Sb. inversion Sa as [| |? Pa| |]; subst. inversion Sb as [| |? Pb| |]; subst. cbn [unsafe_latin_compare]. rewrite (data_one a Ka Pa), (data_one b Kb Pb).
  destruct (i_str _ _ _ _ I a b) as (r & -> & R); [apply Forall_app; split; assumption|]. f_equal. apply bool_iff. rewrite R. apply (latin_answer_spec a b).
Qed.
Lemma object_agrees k v w : type_of v = type_of w -> slot (type_of v) = Some k -> unsafe_object_compare rcb slot fn k v w = rcb CLt v w.
Proof.
  intros T S. unfold unsafe_object_compare. rewrite S, Z.eqb_refl. cbn [negb]. pose proof (i_slot _ _ _ _ I v w k T S) as A. destruct (fn k v w); congruence.
Qed.
(** The comparison selected for keys, or first items, that are all good. *)
Lemma choose_agrees t f v w : good_key py t f v -> good_key py t f w -> sound v -> sound w ->
  elem (if same_type f then
      match t with
      | TStr => if latin f then FLatin else match slot t with Some k => FObject k | None => FSafe end
      | TInt => if bounded f then FLong else match slot t with Some k => FObject k | None => FSafe end
      | TFloat => FFloat
      | _ => match slot t with Some k => FObject k | None => FSafe end
      end else FSafe) v w = rcb CLt v w.
Proof.
  intros (Tv & Lv & Bv) (Tw & Lw & Bw) Sv Sw. destruct (same_type f); [|reflexivity].
  assert (O : elem (match slot t with Some k => FObject k | None => FSafe end) v w = rcb CLt v w).
  { destruct (slot t) as [k|] eqn:E; [|reflexivity]. apply object_agrees; congruence. }
  destruct t; try exact O.
  - destruct (bounded f) eqn:B; [|exact O]. destruct v as [p| | | |]; try discriminate. destruct w as [q| | | |]; try discriminate.
    destruct (Bv eq_refl p eq_refl) as (-> & Cp). destruct (Bw eq_refl q eq_refl) as (_ & Cq). cbn [elem_compare unsafe_long_compare].
    inversion Sv as [? Dp Zp| | | |]; subst. inversion Sw as [? Dq Zq| | | |]; subst. rewrite (compact_is p Dp Zp Cp), (compact_is q Dq Zq Cq). symmetry. apply (i_int _ _ _ _ I); assumption.
  - destruct v; try discriminate. destruct w; try discriminate. cbn. symmetry. apply (i_float _ _ _ _ I).
  - destruct (latin f) eqn:L; [|exact O]. destruct v as [| |a| |]; try discriminate. destruct w as [| |b| |]; try discriminate. cbn [elem_compare]. apply latin_agrees; auto.
Qed.

Lemma tuple_less_model inner a b : (forall x y ra rb, a = x :: ra -> b = y :: rb -> inner x y = rcb CLt x y) ->
  forall first, exists o, tup_less rcb a b o /\ tuple_loop rcb inner first a b = o.
Proof.
  revert b. induction a as [|x a IH]; intros b H first.
  - destruct b as [|y b]; eexists; (split; [constructor|reflexivity]).
  - destruct b as [|y b]; [eexists; split; [constructor|reflexivity]|]. cbn [tuple_loop].
    destruct (i_answers _ _ _ _ I CEq x y) as [([|] & E)|(e & E)]; rewrite E.
    + assert (X : exists o, tup_less rcb a b o /\ tuple_loop rcb inner false a b = o).
      { clear IH H E. revert b. induction a as [|z a IHa]; intros b; [destruct b; eexists; (split; [constructor|reflexivity])|].
        destruct b as [|u b]; [eexists; split; [constructor|reflexivity]|]. cbn [tuple_loop].
        destruct (i_answers _ _ _ _ I CEq z u) as [([|] & F)|(e & F)]; rewrite F.
        - destruct (IHa b) as (o & A & B). exists o. split; [apply TL_same; assumption|exact B].
        - eexists. split; [apply TL_differ; exact F|reflexivity].
        - eexists. split; [apply TL_error; exact F|reflexivity]. }
      destruct X as (o & A & B). exists o. split; [apply TL_same; assumption|exact B].
    + exists (rcb CLt x y). split; [apply TL_differ; exact E|]. destruct first; [apply (H x y a b); reflexivity|reflexivity].
    + eexists. split; [apply TL_error; exact E|reflexivity].
Qed.

Theorem check_agrees keys : Forall sound keys -> exists c, pre_sort_check py slot keys = Ret c /\
  ((2 <= length keys)%nat -> forall v w, In v keys -> In w keys -> compare py rcb slot fn flt c v w = rcb CLt v w).
Proof.
  intros S. rewrite Forall_forall in S. destruct keys as [|k1 [|k2 r]]; [eexists; split; [reflexivity|]; cbn; lia|eexists; split; [reflexivity|]; cbn; lia|].
  unfold pre_sort_check. set (keys := k1 :: k2 :: r) in *. 
  assert (K : exists key, (if is_full_tuple k1 then first_item k1 else Ret k1) = Ret key).
  { destruct k1 as [| | |[|x l]|]; cbn; eauto. }
  destruct K as (key & K). rewrite K. cbn [obind].
  destruct (scan_total py (type_of key) keys {| in_tuples := is_full_tuple k1; same_type := true; latin := true; bounded := true |}) as (g & G). rewrite G. cbn [omap].
  eexists. split; [reflexivity|]. intros _ v w Iv Iw. destruct (scan_keys py _ _ _ _ G) as (T & Sm). cbn [in_tuples] in Sm.
  unfold choose. destruct (in_tuples g) eqn:TG.
  - cbn [compare]. pose proof (T eq_refl v Iv) as Fv. pose proof (T eq_refl w Iw) as Fw.
    destruct v as [| | |[|x a]|]; try discriminate. destruct w as [| | |[|y b]|]; try discriminate. cbn [unsafe_tuple_compare].
    match goal with |- tuple_loop _ (elem ?c) _ _ _ = _ => assert (IN : elem c x y = rcb CLt x y) end.
    { destruct (same_type g) eqn:SG.
      - destruct (Sm eq_refl) as (TT & All). destruct (All _ Iv) as (x' & Kx & Gx). destruct (All _ Iw) as (y' & Ky & Gy). rewrite <- TT in Kx, Ky. cbn [key_of] in Kx, Ky. injection Kx as <-. injection Ky as <-.
        pose proof (S _ Iv) as Sv. pose proof (S _ Iw) as Sw. inversion Sv as [| | |? Fx|]; subst. inversion Sw as [| | |? Fy|]; subst. inversion Fx; subst. inversion Fy; subst.
        pose proof (choose_agrees (type_of key) g x y Gx Gy ltac:(assumption) ltac:(assumption)) as C. rewrite SG in C. destruct (type_of key); try exact C. reflexivity.
      - destruct (type_of key); reflexivity. }
    destruct (tuple_less_model (elem (match type_of key with TTup => FSafe | _ => if same_type g then
      match type_of key with
      | TStr => if latin g then FLatin else match slot (type_of key) with Some k => FObject k | None => FSafe end
      | TInt => if bounded g then FLong else match slot (type_of key) with Some k => FObject k | None => FSafe end
      | TFloat => FFloat
      | _ => match slot (type_of key) with Some k => FObject k | None => FSafe end
      end else FSafe end)) (x :: a) (y :: b)) with (first := true) as (o & A & B).
    { intros x0 y0 ra rb E1 E2. injection E1 as <- <-. injection E2 as <- <-. exact IN. }
    rewrite (i_tuple _ _ _ _ I _ _ _ A). exact B.
  - cbn [compare]. destruct (same_type g) eqn:SG; [|reflexivity]. destruct (Sm eq_refl) as (TT & All).
    destruct (All _ Iv) as (x' & Kx & Gx). destruct (All _ Iw) as (y' & Ky & Gy). rewrite <- TT in Kx, Ky. cbn [key_of] in Kx, Ky. injection Kx as <-. injection Ky as <-.
    pose proof (choose_agrees (type_of key) g v w Gx Gy (S _ Iv) (S _ Iw)) as C. rewrite SG in C. exact C.
Qed.

(** With the selected comparison the sort sorts. *)
Definition told (o : outcome bool) : option bool := match o with Ret b => Some b | _ => None end.
Theorem selected_sorts keys (less : {v | In v keys} -> {v | In v keys} -> bool) grab reverse (l : list {v | In v keys}) : Forall sound keys -> (2 <= length keys)%nat -> map (@proj1_sig _ _) l = keys ->
  weak_order less -> (forall v w, rcb CLt (proj1_sig v) (proj1_sig w) = Ret (less v w)) -> (forall n, grab n = true) -> 8 * zlen l <= SSIZE_MAX ->
  exists c l', pre_sort_check py slot keys = Ret c /\
    CPython_sort_plain (fun _ v w => told (compare py rcb slot fn flt c (proj1_sig v) (proj1_sig w))) grab l reverse = SortOk l' /\
    Permutation l' l /\ (if reverse then descending less l' else ascending less l') /\ stable less l' l.
Proof.
  intros S L _ W R G B. destruct (check_agrees keys S) as (c & C & A). exists c.
  destruct (plain_sort_correct (fun (_ : nat) v w => told (compare py rcb slot fn flt c (proj1_sig v) (proj1_sig w))) less grab l reverse B) as (l' & X); [|exists l'; split; [exact C|exact X]].
  split; [exact W|]. split; [|exact G]. intros _ v w. rewrite (A L _ _ (proj2_sig v) (proj2_sig w)), R. reflexivity.
Qed.
End Agree.

(** Before 3.12 the comparison of small ints is never selected. *)
Theorem never_long slot keys c : pre_sort_check false slot keys = Ret c -> c <> KOne FLong /\ c <> KTuples FLong.
Proof.
  unfold pre_sort_check. destruct keys as [|k1 [|k2 r]]; [intros [= <-]; split; discriminate|intros [= <-]; split; discriminate|].
  set (keys := k1 :: k2 :: r) in *. destruct (key_item (is_full_tuple k1) k1) as [(key & K)|(u & K)]; rewrite K; cbn [obind]; [|discriminate].
  destruct (scan false (type_of key) keys _) as [g| | |] eqn:G; cbn [omap]; try discriminate. intros [= <-].
  destruct (scan_keys false _ _ _ _ G) as (_ & Sm). cbn [in_tuples] in Sm.
  assert (B : same_type g = true -> type_of key = TInt -> bounded g = true -> False).
  { intros Sg Tk Bg. destruct (Sm Sg) as (TT & All). destruct (All k1 (or_introl eq_refl)) as (x & _ & Tx & _ & Bx). rewrite Tk in Tx. destruct x as [p| | | |]; try discriminate. destruct (Bx Bg p eq_refl). discriminate. }
  unfold choose. assert (N : (if same_type g then
      match type_of key with
      | TStr => if latin g then FLatin else match slot (type_of key) with Some k => FObject k | None => FSafe end
      | TInt => if bounded g then FLong else match slot (type_of key) with Some k => FObject k | None => FSafe end
      | TFloat => FFloat
      | _ => match slot (type_of key) with Some k => FObject k | None => FSafe end
      end else FSafe) <> FLong).
  { destruct (same_type g); [|discriminate]. destruct (type_of key) eqn:Tk; [destruct (bounded g) eqn:Bg; [exfalso; auto|]| |destruct (latin g)| |]; try discriminate; destruct (slot _); discriminate. }
  destruct (in_tuples g); split; try discriminate; intros X; injection X as X; [|apply N; exact X]. destruct (type_of key); try (apply N; exact X). discriminate.
Qed.
