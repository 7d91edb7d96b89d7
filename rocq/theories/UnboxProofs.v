(** Proofs about UnboxModel. *)
From Coq Require Import ZArith List Bool Arith Lia.
From Verif Require Import Base PyListSpec ListLemmas ArrayListModel ArrayListProofs ArrayListSpec ArrayListFacts ArrayListMoreModel ArrayListCmpProofs StdListModel StdListProofs LinkedListModel LinkedListProofs LinkedListFacts
  ObjModel ObjArrayModel ObjLinkedModel ObjMoreModel ObjSpec ObjLemmas MixModel MixSpec MixProofs MixObjModel MixObjSpec MixObjProofs UnboxModel.
Import ListNotations.
Local Open Scope Z_scope.
Local Arguments Z.pow : simpl never.
Local Arguments Z.of_nat : simpl never.
Local Arguments Z.to_nat : simpl never.

(** An iterator that hands out [os] and then stops. *)
Fixpoint yields {I} (next : I -> counts -> outcome Z * (I * counts)) (os : list Z) (it : I) : Prop :=
  match os with
  | [] => forall rc, exists it', next it rc = (Raise StopIteration, (it', rc))
  | o :: r => exists it', (forall rc, is_obj o = true -> 0 < rc o -> exists rc', next it rc = (Ret o, (it', rc')) /\ forall x, rc' x = rc x + occ [o] x) /\ yields next r it'
  end.
Lemma yields_arr s : forall suf pre, s = pre ++ suf -> yields (fun it => oa_next it s) suf {| it_index := zlen pre; it_rev := false |}.
Proof.
  induction suf as [|v suf IH]; intros pre E; cbn [yields]; unfold oa_next.
  - rewrite app_nil_r in E. subst pre. intros rc. rewrite arr_end. cbn [handed]. eauto.
  - exists {| it_index := zlen pre + 1; it_rev := false |}. rewrite (arr_next s pre v suf E). split.
    + intros rc Ov Rv. exact (handed_ok v _ rc Ov Rv).
    + specialize (IH (pre ++ [v])). rewrite zlen_app in IH. apply IH. rewrite <- app_assoc. exact E.
Qed.
Lemma yields_lnk l : lwf l -> zlen (vals l) < 2 ^ 64 -> forall suf pre, vals l = pre ++ suf -> yields (fun it => ol_next it l) suf (at_pos l (length pre)).
Proof.
  intros W L. induction suf as [|v suf IH]; intros pre E; cbn [yields]; unfold ol_next.
  - rewrite app_nil_r in E. intros rc. rewrite <- E, lnext_end. cbn [handed]. eauto.
  - exists (at_pos l (S (length pre))). rewrite (lnext_at l (length pre) v W L) by (rewrite E, nth_error_app2, Nat.sub_diag by lia; reflexivity). split.
    + intros rc Ov Rv. exact (handed_ok v _ rc Ov Rv).
    + specialize (IH (pre ++ [v])). rewrite app_length in IH. cbn [length] in IH. rewrite Nat.add_1_r in IH. apply IH. rewrite <- app_assoc. exact E.
Qed.

Definition same (rc rc' : counts) : Prop := forall o, rc' o = rc o.
Lemma alive_same rc rc' os : same rc rc' -> alive rc os -> alive rc' os.
Proof. intros E. apply alive_more. intros o. rewrite E. lia. Qed.
(** An item taken and given back. *)
Lemma taken_back {T} o rc rc1 (t : T) f : is_obj o = true -> 0 < rc o -> (forall x, rc1 x = rc x + occ [o] x) ->
  exists rc2, release_then o t rc1 f = f rc2 /\ same rc rc2.
Proof.
  intros O R E. destruct (decref_ok o rc1 O) as (rc2 & D & C).
  { rewrite E. pose proof (occ_nonneg [o] o). lia. }
  exists rc2. unfold release_then. rewrite D. split; [reflexivity|]. intros x. rewrite C, E. lia.
Qed.

Section U.
Variable ival : Z -> pyobj.
Definition store (k : kind) (o v : Z) : Prop := stores (bits k) (ival o) v.

Lemma checked_step {I T} err k (push : T -> Z -> T) (next : I -> counts -> outcome Z * (I * counts)) n it t rc it' rc1 o :
  next it rc = (Ret o, (it', rc1)) -> is_obj o = true -> 0 < rc o -> (forall x, rc1 x = rc x + occ [o] x) ->
  exists rc2, same rc rc2 /\ checked ival err k push next (S n) it t rc =
    match as_elem k (ival o) with
    | Ret v => checked ival err k push next n it' (push t v) rc2
    | Raise e | RetPending _ e => (Raise (err e), (t, rc2))
    | Undef u => (Undef u, (t, rc2))
    end.
Proof.
  intros E O R C. cbn [checked]. rewrite E. cbv zeta.
  match goal with |- exists rc2, _ /\ release_then _ _ _ ?f = _ => destruct (taken_back o rc rc1 t f O R C) as (rc2 & D & S2) end.
  exists rc2. split; [exact S2|]. rewrite D. reflexivity.
Qed.
Lemma checked_good {I T} err k (push : T -> Z -> T) (next : I -> counts -> outcome Z * (I * counts)) : forall os vs it t rc,
  yields next os it -> alive rc os -> Forall2 (store k) os vs ->
  exists rc', checked ival err k push next (S (length os)) it t rc = (Ret tt, (fold_left push vs t, rc')) /\ same rc rc'.
Proof.
  induction os as [|o os IH]; intros vs it t rc Y A F; inversion F as [|? v ? vs' Fo Fs]; subst; cbn [yields length] in *.
  - destruct (Y rc) as (it' & N). cbn [checked]. rewrite N. exists rc. split; [reflexivity|]. intros x. reflexivity.
  - destruct Y as (it' & N & Y). inversion A as [|? ? [Oo Ro] As]; subst. destruct (N rc Oo Ro) as (rc1 & E & C1).
    destruct (checked_step err k push next (S (length os)) it t rc it' rc1 o E Oo Ro C1) as (rc2 & S2 & D).
    destruct (IH vs' it' (push t v) rc2 Y (alive_same _ _ _ S2 As) Fs) as (rc' & B & S').
    exists rc'. split; [|intros x; rewrite S', S2; reflexivity]. rewrite D. apply stores_elem in Fo. rewrite Fo. exact B.
Qed.
Lemma checked_bad {I T} err k (push : T -> Z -> T) (next : I -> counts -> outcome Z * (I * counts)) o e os2 : rejected (ival o) e -> forall os vs it t rc,
  yields next (os ++ o :: os2) it -> alive rc (os ++ o :: os2) -> Forall2 (store k) os vs ->
  exists rc', checked ival err k push next (S (length (os ++ o :: os2))) it t rc = (Raise (err e), (fold_left push vs t, rc')) /\ same rc rc'.
Proof.
  intros R. induction os as [|a os IH]; intros vs it t rc Y A F; inversion F as [|? v ? vs' Fo Fs]; subst; cbn [yields length app] in *;
    destruct Y as (it' & N & Y); inversion A as [|? ? [Oo Ro] As]; subst; destruct (N rc Oo Ro) as (rc1 & E & C1).
  - destruct (checked_step err k push next (S (length os2)) it t rc it' rc1 o E Oo Ro C1) as (rc2 & S2 & D).
    exists rc2. split; [|exact S2]. rewrite D. apply (rejected_elem k) in R. rewrite R. reflexivity.
  - destruct (checked_step err k push next (S (length (os ++ o :: os2))) it t rc it' rc1 a E Oo Ro C1) as (rc2 & S2 & D).
    destruct (IH vs' it' (push t v) rc2 Y (alive_same _ _ _ S2 As) Fs) as (rc' & B & S').
    exists rc'. split; [|intros x; rewrite S', S2; reflexivity]. rewrite D. apply stores_elem in Fo. rewrite Fo. exact B.
Qed.

Lemma unchecked_step {I} (next : I -> counts -> outcome Z * (I * counts)) n it l rc it' rc1 o v err :
  next it rc = (Ret o, (it', rc1)) -> is_obj o = true -> 0 < rc o -> (forall x, rc1 x = rc x + occ [o] x) -> conv_pending KInt (ival o) = (v, err) ->
  exists rc2, same rc rc2 /\ unchecked ival next (S n) it None l rc = unchecked ival next n it' err (lpush l v) rc2.
Proof.
  intros E O R C V. cbn [unchecked]. rewrite E, V.
  match goal with |- exists rc2, _ /\ release_then _ _ _ ?f = _ => destruct (taken_back o rc rc1 (lpush l v) f O R C) as (rc2 & D & S2) end.
  exists rc2. split; [exact S2|]. rewrite D. reflexivity.
Qed.
Lemma unchecked_good {I} (next : I -> counts -> outcome Z * (I * counts)) : forall os vs it l rc,
  yields next os it -> alive rc os -> Forall2 (store KInt) os vs ->
  exists rc', unchecked ival next (S (length os)) it None l rc = (Ret tt, (fold_left lpush vs l, rc')) /\ same rc rc'.
Proof.
  induction os as [|o os IH]; intros vs it l rc Y A F; inversion F as [|? v ? vs' Fo Fs]; subst; cbn [yields length] in *.
  - destruct (Y rc) as (it' & N). cbn [unchecked]. rewrite N. exists rc. split; [reflexivity|]. intros x. reflexivity.
  - destruct Y as (it' & N & Y). inversion A as [|? ? [Oo Ro] As]; subst. destruct (N rc Oo Ro) as (rc1 & E & C1).
    destruct (unchecked_step next (S (length os)) it l rc it' rc1 o v None E Oo Ro C1 (conv_stores KInt _ _ Fo)) as (rc2 & S2 & D).
    destruct (IH vs' it' (lpush l v) rc2 Y (alive_same _ _ _ S2 As) Fs) as (rc' & B & S').
    exists rc'. split; [|intros x; rewrite S', S2; reflexivity]. rewrite D. exact B.
Qed.
Lemma unchecked_bad {I} (next : I -> counts -> outcome Z * (I * counts)) o e os2 : rejected (ival o) e -> forall os vs it l rc,
  yields next (os ++ o :: os2) it -> alive rc (os ++ o :: os2) -> Forall2 (store KInt) os vs ->
  exists rc', unchecked ival next (S (length (os ++ o :: os2))) it None l rc =
    (match os2 with [] => Ret tt | _ => Raise e end, (fold_left lpush (vs ++ [-1]) l, rc')) /\ same rc rc'.
Proof.
  intros R. induction os as [|a os IH]; intros vs it l rc Y A F; inversion F as [|? v ? vs' Fo Fs]; subst; cbn [yields length app] in *;
    destruct Y as (it' & N & Y); inversion A as [|? ? [Oo Ro] As]; subst; destruct (N rc Oo Ro) as (rc1 & E & C1).
  - destruct (unchecked_step next (S (length os2)) it l rc it' rc1 o _ _ E Oo Ro C1 (conv_rejected KInt _ _ R)) as (rc2 & S2 & D).
    rewrite D. cbn [fold_left]. destruct os2 as [|b os2]; cbn [yields length] in *.
    + destruct (Y rc2) as (it2 & N2). cbn [unchecked]. rewrite N2. exists rc2. split; [reflexivity|exact S2].
    + destruct Y as (it2 & N2 & _). pose proof (alive_same _ _ _ S2 As) as A2. inversion A2 as [|? ? [Ob Rb] _]; subst. destruct (N2 rc2 Ob Rb) as (rc3 & E3 & C3).
      destruct (taken_back b rc2 rc3 (lpush l (-1)) (fun rc2 => (Raise e : outcome unit, (lpush l (-1), rc2))) Ob Rb C3) as (rc4 & D4 & S4).
      exists rc4. split; [|intros x; rewrite S4, S2; reflexivity].
      remember (S (length os2)) as m. cbn [unchecked]. rewrite E3. exact D4.
  - destruct (unchecked_step next (S (length (os ++ o :: os2))) it l rc it' rc1 a v None E Oo Ro C1 (conv_stores KInt _ _ Fo)) as (rc2 & S2 & D).
    destruct (IH vs' it' (lpush l v) rc2 Y (alive_same _ _ _ S2 As) Fs) as (rc' & B & S').
    exists rc'. split; [|intros x; rewrite S', S2; reflexivity]. rewrite D. exact B.
Qed.

(** Every list of objects converts, or has a first object that does not. *)
Lemma split_store k os : (exists vs, Forall2 (store k) os vs) \/ exists os1 o os2 vs e, os = os1 ++ o :: os2 /\ Forall2 (store k) os1 vs /\ rejected (ival o) e.
Proof.
  induction os as [|o os IH]; [left; exists []; constructor|].
  destruct (elem_total k (ival o)) as [(v & V)|(e & R)].
  - destruct IH as [(vs & F)|(os1 & b & os2 & vs & e & -> & F & R)].
    + left. exists (v :: vs). constructor; assumption.
    + right. exists (o :: os1), b, os2, (v :: vs), e. split; [reflexivity|]. split; [constructor; assumption|exact R].
  - right. exists [], o, os, [], e. split; [reflexivity|]. split; [constructor|exact R].
Qed.

Lemma over_ok {T} x (loop : forall I, (I -> counts -> outcome Z * (I * counts)) -> nat -> I -> T -> counts -> outcome unit * (T * counts)) t rc (P : outcome unit * (T * counts) -> Prop) :
  sound x -> (forall I next it, yields next (oheld x) it -> P (loop I next (S (length (oheld x))) it t rc)) -> P (over x loop t rc).
Proof.
  intros [L W] H. destruct x as [s|l]; cbn [over oheld] in *.
  - apply H. exact (yields_arr s s [] eq_refl).
  - unfold liter_create. rewrite size_vals. apply H. apply (yields_lnk l W) with (pre := []); [|reflexivity]. pose proof ssize_64. unfold vals. lia.
Qed.

Definition welt (c : cls) : kind := match c with CArr k => k | CLnk => KInt end.
Lemma held_lpush vs l : lwf l -> lwf (fold_left lpush vs l) /\ held (Lnk (fold_left lpush vs l)) = held (Lnk l) ++ vs.
Proof. intros W. destruct (fold_lpush vs l W) as (A & B & _). split; [exact A|exact B]. Qed.

Lemma extend_good inplace t x rc vs : (match t with Lnk l => lwf l | _ => True end) -> sound x -> alive rc (oheld x) -> Forall2 (store (welt (class_of t))) (oheld x) vs ->
  exists t' rc', unbox_extend ival inplace t x rc = (Ret (if inplace : bool then VSelf else VNone), (t', rc')) /\ class_of t' = class_of t /\ held t' = held t ++ vs /\
    (match t' with Lnk l => lwf l | _ => True end) /\ same rc rc'.
Proof.
  intros W Sx A F. unfold unbox_extend. destruct t as [k s|l]; cbn [class_of welt] in *.
  - apply over_ok with (1 := Sx) (P := fun r => exists t' rc', (let '(r, (s', rc')) := r in (obind r (fun _ => Ret (if inplace then VSelf else VNone)), (Arr k s', rc'))) =
      (Ret (if inplace then VSelf else VNone), (t', rc')) /\ class_of t' = CArr k /\ held t' = held (Arr k s) ++ vs /\ (match t' with Lnk l => lwf l | _ => True end) /\ same rc rc').
    intros I next it Y. destruct (checked_good (fun e => e) k vpush next (oheld x) vs it s rc Y A F) as (rc' & E & S'). rewrite E, fold_vpush.
    exists (Arr k (s ++ vs)), rc'. cbn [obind class_of held]. auto.
  - destruct (held_lpush vs l W) as (W' & V'). set (l' := fold_left lpush vs l) in *.
    apply over_ok with (1 := Sx) (P := fun r => exists t' rc', (let '(r, (l', rc')) := r in
      (obind r (fun _ => Ret (if inplace then VSelf else VNone)), (Lnk (match r with Ret _ => if inplace then l' else bump l' (lst l') | _ => l' end), rc'))) =
      (Ret (if inplace then VSelf else VNone), (t', rc')) /\ class_of t' = CLnk /\ held t' = held (Lnk l) ++ vs /\ (match t' with Lnk l => lwf l | _ => True end) /\ same rc rc').
    intros I next it Y. destruct (unchecked_good next (oheld x) vs it l rc Y A F) as (rc' & E & S'). rewrite E. fold l'.
    eexists _, rc'. cbn [obind]. split; [reflexivity|]. destruct inplace; auto 6.
Qed.
Lemma extend_bad inplace t x rc os1 o os2 vs e : (match t with Lnk l => lwf l | _ => True end) -> sound x -> alive rc (oheld x) ->
  oheld x = os1 ++ o :: os2 -> Forall2 (store (welt (class_of t))) os1 vs -> rejected (ival o) e ->
  exists r t' rc', unbox_extend ival inplace t x rc = (r, (t', rc')) /\ class_of t' = class_of t /\ (match t' with Lnk l => lwf l | _ => True end) /\ same rc rc' /\
    match class_of t with
    | CArr _ => r = Raise e /\ held t' = held t ++ vs
    | CLnk => held t' = held t ++ vs ++ [-1] /\ r = match os2 with [] => Ret (if inplace : bool then VSelf else VNone) | _ => Raise e end
    end.
Proof.
  intros W Sx A Ex F R. unfold unbox_extend. destruct t as [k s|l]; cbn [class_of welt] in *.
  - apply over_ok with (1 := Sx) (P := fun r => exists r' t' rc', (let '(r, (s', rc')) := r in (obind r (fun _ => Ret (if inplace then VSelf else VNone)), (Arr k s', rc'))) =
      (r', (t', rc')) /\ class_of t' = CArr k /\ (match t' with Lnk l => lwf l | _ => True end) /\ same rc rc' /\ r' = Raise e /\ held t' = held (Arr k s) ++ vs).
    rewrite Ex in *. intros I next it Y. destruct (checked_bad (fun e => e) k vpush next o e os2 R os1 vs it s rc Y A F) as (rc' & E & S'). rewrite E, fold_vpush.
    exists (Raise e), (Arr k (s ++ vs)), rc'. cbn [obind class_of held]. auto 10.
  - destruct (held_lpush (vs ++ [-1]) l W) as (W' & V'). set (l' := fold_left lpush (vs ++ [-1]) l) in *.
    apply over_ok with (1 := Sx) (P := fun r => exists r' t' rc', (let '(r, (l', rc')) := r in
      (obind r (fun _ => Ret (if inplace then VSelf else VNone)), (Lnk (match r with Ret _ => if inplace then l' else bump l' (lst l') | _ => l' end), rc'))) =
      (r', (t', rc')) /\ class_of t' = CLnk /\ (match t' with Lnk l => lwf l | _ => True end) /\ same rc rc' /\
      held t' = held (Lnk l) ++ vs ++ [-1] /\ r' = match os2 with [] => Ret (if inplace : bool then VSelf else VNone) | _ => Raise e end).
    rewrite Ex in *. intros I next it Y. destruct (unchecked_bad next o e os2 R os1 vs it l rc Y A F) as (rc' & E & S'). rewrite E. fold l'.
    destruct os2; eexists _, _, rc'; cbn [obind]; (split; [reflexivity|]); [destruct inplace|]; auto 8.
Qed.

Lemma make_good c x rc vs : sound x -> alive rc (oheld x) -> Forall2 (store (welt c)) (oheld x) vs ->
  exists t rc', unbox_make ival c x rc = (Ret t, rc') /\ class_of t = c /\ held t = vs /\ (match t with Lnk l => lwf l | _ => True end) /\ same rc rc'.
Proof.
  intros Sx A F. unfold unbox_make. destruct c as [k|]; cbn [welt] in *.
  - apply over_ok with (1 := Sx) (P := fun r => exists t rc', (let '(r, (s, rc')) := r in (obind r (fun _ => Ret (Arr k s)), rc')) = (Ret t, rc') /\
      class_of t = CArr k /\ held t = vs /\ (match t with Lnk l => lwf l | _ => True end) /\ same rc rc').
    intros I next it Y. destruct (checked_good (fun _ => RuntimeError) k vpush next (oheld x) vs it [] rc Y A F) as (rc' & E & S'). rewrite E, fold_vpush.
    exists (Arr k vs), rc'. cbn [obind class_of held app]. auto.
  - destruct (held_lpush vs (new_list empty) (@wf_empty Z)) as (W' & V'). set (l' := fold_left lpush vs (new_list empty)) in *.
    apply over_ok with (1 := Sx) (P := fun r => exists t rc', (let '(r, (s, rc')) := r in (obind r (fun _ => Ret (Lnk s)), rc')) = (Ret t, rc') /\
      class_of t = CLnk /\ held t = vs /\ (match t with Lnk l => lwf l | _ => True end) /\ same rc rc').
    intros I next it Y. destruct (checked_good (fun _ => RuntimeError) KInt lpush next (oheld x) vs it (new_list empty) rc Y A F) as (rc' & E & S'). rewrite E. fold l'.
    exists (Lnk l'), rc'. cbn [obind class_of]. auto.
Qed.
Lemma make_bad c x rc os1 o os2 vs e : sound x -> alive rc (oheld x) -> oheld x = os1 ++ o :: os2 -> Forall2 (store (welt c)) os1 vs -> rejected (ival o) e ->
  exists rc', unbox_make ival c x rc = (Raise RuntimeError, rc') /\ same rc rc'.
Proof.
  intros Sx A Ex F R. unfold unbox_make. destruct c as [k|]; cbn [welt] in *.
  - apply over_ok with (1 := Sx) (P := fun r => exists rc', (let '(r, (s, rc')) := r in (obind r (fun _ => Ret (Arr k s)), rc')) = (Raise RuntimeError, rc') /\ same rc rc').
    rewrite Ex in *. intros I next it Y. destruct (checked_bad (fun _ => RuntimeError) k vpush next o e os2 R os1 vs it [] rc Y A F) as (rc' & E & S'). rewrite E.
    exists rc'. auto.
  - apply over_ok with (1 := Sx) (P := fun r => exists rc', (let '(r, (s, rc')) := r in (obind r (fun _ => Ret (Lnk s)), rc')) = (Raise RuntimeError, rc') /\ same rc rc').
    rewrite Ex in *. intros I next it Y. destruct (checked_bad (fun _ => RuntimeError) KInt lpush next o e os2 R os1 vs it (new_list empty) rc Y A F) as (rc' & E & S'). rewrite E.
    exists rc'. auto.
Qed.
End U.
