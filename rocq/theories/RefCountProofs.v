(** Proofs about reference counts, as_object and immortal objects. *)
From Coq Require Import ZArith List Bool Lia.
From Verif Require Import Base UnsafeModel UnsafeProofs RefCountModel RefCountSpec.
Import ListNotations.
Local Open Scope Z_scope.
Local Arguments Z.pow : simpl never.
Local Arguments Z.of_nat : simpl never.
Local Arguments Z.modulo : simpl never.

(** ** as_object *)
Lemma incref_mortal py c : 0 <= c -> (py = true -> c < 2 ^ 31) -> py_incref py c = c + 1.
Proof.
  intros P M. unfold py_incref. destruct py; [|reflexivity]. specialize (M eq_refl). rewrite Z.mod_small by lia.
  cbn [andb]. destruct (Z.eqb_spec c (2 ^ 32 - 1)); [lia|reflexivity].
Qed.
Lemma decref_mortal py c : 0 <= c -> (py = true -> c < 2 ^ 31) -> py_decref py c = c - 1.
Proof.
  intros P M. unfold py_decref. destruct py; [|reflexivity]. specialize (M eq_refl). rewrite Z.mod_small by lia.
  cbn [andb]. destruct (Z.leb_spec (2 ^ 31) c); [lia|reflexivity].
Qed.

Lemma as_object_address o : 0 < o < 2 ^ 64 -> as_object (get_address o) = Ret o.
Proof. intros R. unfold as_object, get_address. rewrite as_ptr_int by lia. rewrite (proj2 (Z.eqb_neq o 0)) by lia. reflexivity. Qed.

Lemma rstep_counts py op s v s' : (forall x, py = true -> r_rc s x + 1 < 2 ^ 31) -> rstep py op s = (v, s') -> (forall u, v <> Undef u) ->
  forall o, r_rc s' o - r_own s' o = r_rc s o - r_own s o - debt1 o op v /\ r_rc s' o <= Z.max (r_rc s o) (r_rc s o + 1).
Proof.
  intros M E U o. destruct op as [x|x|a|x|x|x]; cbn [rstep] in E.
  3: { destruct (as_object a) as [x|e|x e|u]; try (injection E as <- <-; cbn [debt1]; split; lia).
       destruct (r_rc s x <=? 0); injection E as <- <-; [congruence|]. cbn [debt1 r_rc r_own]. unfold set_at. rewrite (Z.eqb_sym x o). destruct (Z.eqb_spec o x); subst; lia. }
  all: destruct (Z.leb_spec (r_own s x) 0); [injection E as <- <-; cbn [debt1]; split; lia|].
  all: destruct (Z.leb_spec (r_rc s x) 0); injection E as <- <-; [exfalso; eapply U; reflexivity|].
  all: cbn [debt1 r_rc r_own]; unfold set_at; rewrite ?(Z.eqb_sym x o);
    rewrite ?incref_mortal, ?decref_mortal by (try lia; intros Y; specialize (M x Y); lia);
    destruct (Z.eqb_spec o x); subst; lia.
Qed.

Lemma rrun_counts py ops : forall s vs s', (forall x, py = true -> r_rc s x + zlen ops < 2 ^ 31) -> rrun py ops s = Ret (vs, s') ->
  forall o, r_rc s' o - r_own s' o = r_rc s o - r_own s o - debt o ops vs.
Proof.
  induction ops as [|op r IH]; intros s vs s' M E o; cbn [rrun] in E.
  { injection E as <- <-. cbn. lia. }
  destruct (rstep py op s) as (v, s1) eqn:S1.
  assert (L : zlen (op :: r) = 1 + zlen r) by (unfold zlen; cbn [length]; lia).
  assert (P0 : 0 <= zlen r) by (unfold zlen; lia).
  assert (X : exists vr, vs = v :: vr /\ rrun py r s1 = Ret (vr, s') /\ forall u, v <> Undef u).
  { destruct v; try discriminate; destruct (rrun py r s1) as [[vr s2]|?|?|?]; cbn [omap obind fst snd] in E; try discriminate; injection E as <- <-; exists vr; repeat split; congruence. }
  destruct X as (vr & -> & E1 & U).
  pose proof (rstep_counts py op s v s1 ltac:(intros x Y; specialize (M x Y); lia) S1 U) as C.
  cbn [debt]. rewrite (IH s1 vr s' ltac:(intros x Y; specialize (M x Y); destruct (C x); lia) E1 o). destruct (C o). lia.
Qed.

Lemma round_step py o r s : 0 < o < 2 ^ 64 -> 0 < r_own s o -> 0 < r_rc s o -> (py = true -> r_rc s o < 2 ^ 31) ->
  exists s', r_rc s' o = r_rc s o - 1 /\ r_own s' o = r_own s o /\ (forall x, x <> o -> r_rc s' x = r_rc s x /\ r_own s' x = r_own s x) /\
    rrun py (RAsObject (get_address o) :: RDrop o :: r) s = omap (fun p => (Ret (RObj o) :: Ret RNone :: fst p, snd p)) (rrun py r s').
Proof.
  intros O W P M. cbn [rrun rstep]. rewrite as_object_address by exact O. rewrite (proj2 (Z.leb_gt (r_rc s o) 0)) by lia.
  cbn [r_own r_rc]. unfold set_at at 1. rewrite Z.eqb_refl. rewrite (proj2 (Z.leb_gt (r_own s o + 1) 0)) by lia. rewrite (proj2 (Z.leb_gt (r_rc s o) 0)) by lia. cbn [rrun].
  rewrite decref_mortal by (lia || exact M). match goal with |- context [omap _ (omap _ (rrun py r ?t))] => exists t end. split; [|split; [|split]].
  4: { match goal with |- context [rrun py r ?t] => destruct (rrun py r t) as [[vr s2]|?|[? ?] ?|?] end; reflexivity. }
  - cbn [r_rc]. unfold set_at. rewrite Z.eqb_refl. reflexivity.
  - cbn [r_own]. unfold set_at. rewrite !Z.eqb_refl. lia.
  - intros x N. cbn [r_rc r_own]. unfold set_at. rewrite (proj2 (Z.eqb_neq x o)) by exact N. auto.
Qed.

Lemma dropped py o k : forall s, 0 < o < 2 ^ 64 -> 0 < r_own s o -> Z.of_nat k <= r_rc s o -> (py = true -> r_rc s o < 2 ^ 31) ->
  exists vs s', rrun py (rounds k [RAsObject (get_address o); RDrop o]) s = Ret (vs, s') /\
    r_rc s' o = r_rc s o - Z.of_nat k /\ r_own s' o = r_own s o /\ (forall x, x <> o -> r_rc s' x = r_rc s x /\ r_own s' x = r_own s x).
Proof.
  induction k as [|k IH]; intros s O W R M.
  { exists [], s. split; [reflexivity|]. split; [lia|]. auto. }
  destruct (round_step py o (rounds k [RAsObject (get_address o); RDrop o]) s O W ltac:(lia) M) as (s1 & C & D & X & E).
  destruct (IH s1 O ltac:(lia) ltac:(lia) ltac:(intros Y; specialize (M Y); lia)) as (vs & s' & E' & C' & D' & X').
  eexists _, s'. cbn [rounds app]. rewrite E, E'. split; [reflexivity|]. split; [lia|]. split; [lia|].
  intros x N. destruct (X x N) as (A & B), (X' x N) as (A' & B'). rewrite A', B'. auto.
Qed.

Lemma rrun_app py a : forall b s, rrun py (a ++ b) s =
  obind (rrun py a s) (fun p => omap (fun q => (fst p ++ fst q, snd q)) (rrun py b (snd p))).
Proof.
  induction a as [|op a IH]; intros b s; cbn [app rrun].
  { cbn [obind fst snd app]. destruct (rrun py b s) as [[v t]|e|[v t] e|u]; reflexivity. }
  destruct (rstep py op s) as (v, s1). destruct v; try reflexivity;
    rewrite IH; destruct (rrun py a s1) as [[va t]|?|[va t] ?|?]; cbn [omap obind fst snd]; try reflexivity;
    destruct (rrun py b t) as [[vb t']|?|[vb t'] ?|?]; reflexivity.
Qed.

Lemma rounds_app j k ops : rounds (j + k) ops = rounds j ops ++ rounds k ops.
Proof. induction j as [|j IH]; [reflexivity|]. cbn [Nat.add rounds]. rewrite IH. apply app_assoc. Qed.

Lemma dropped_too_often py o k s : 0 < o < 2 ^ 64 -> 0 < r_own s o -> 0 <= r_rc s o < Z.of_nat k -> (py = true -> r_rc s o < 2 ^ 31) ->
  rrun py (rounds k [RAsObject (get_address o); RDrop o]) s = Undef UseAfterFree.
Proof.
  intros O W R M. replace k with (Z.to_nat (r_rc s o) + (k - Z.to_nat (r_rc s o)))%nat by lia. rewrite rounds_app, rrun_app.
  destruct (dropped py o (Z.to_nat (r_rc s o)) s O W ltac:(lia) M) as (vs & s' & E & C & D & _). rewrite E. cbn [obind snd fst].
  destruct (k - Z.to_nat (r_rc s o))%nat as [|j] eqn:K; [lia|]. cbn [rounds app rrun rstep]. rewrite as_object_address by exact O.
  rewrite (proj2 (Z.leb_le (r_rc s' o) 0)) by lia. reflexivity.
Qed.

Lemma held_after_free py o s op : 0 < r_own s o -> r_rc s o <= 0 -> In op [RCopy o; RDrop o; RIncref o; RDecref o; RRefcnt o] ->
  rrun py [op] s = Undef UseAfterFree.
Proof.
  intros W R I. assert (fst (rstep py op s) = Undef UseAfterFree) as E.
  { cbn [In] in I. destruct I as [<-|[<-|[<-|[<-|[<-|[]]]]]]; cbn [rstep]; rewrite (proj2 (Z.leb_gt (r_own s o) 0)), (proj2 (Z.leb_le (r_rc s o) 0)) by lia; reflexivity. }
  cbn [rrun]. destruct (rstep py op s) as (v, t). cbn [fst] in E. rewrite E. reflexivity.
Qed.

Lemma with_incref py o k : forall s, 0 < o < 2 ^ 64 -> 0 < r_own s o -> 0 < r_rc s o -> (py = true -> r_rc s o + 1 < 2 ^ 31) ->
  exists vs s', rrun py (rounds k [RIncref o; RAsObject (get_address o); RDrop o]) s = Ret (vs, s') /\
    forall x, r_rc s' x = r_rc s x /\ r_own s' x = r_own s x.
Proof.
  induction k as [|k IH]; intros s O W R M.
  { exists [], s. split; [reflexivity|]. auto. }
  cbn [rounds app].
  assert (E0 : rstep py (RIncref o) s = (Ret RNone, {| r_rc := set_at (r_rc s) o (r_rc s o + 1); r_own := r_own s |})).
  { cbn [rstep]. rewrite (proj2 (Z.leb_gt (r_own s o) 0)), (proj2 (Z.leb_gt (r_rc s o) 0)) by lia. rewrite incref_mortal by (lia || (intros Y; specialize (M Y); lia)). reflexivity. }
  set (s0 := {| r_rc := set_at (r_rc s) o (r_rc s o + 1); r_own := r_own s |}) in *.
  assert (C0 : r_rc s0 o = r_rc s o + 1) by (unfold s0, set_at; cbn [r_rc]; rewrite Z.eqb_refl; reflexivity).
  destruct (round_step py o (rounds k [RIncref o; RAsObject (get_address o); RDrop o]) s0 O W ltac:(lia) ltac:(intros Y; specialize (M Y); lia)) as (s1 & C & D & X & E).
  assert (S1 : forall x, r_rc s1 x = r_rc s x /\ r_own s1 x = r_own s x).
  { intros x. destruct (Z.eqb_spec x o) as [->|N]; [split; [lia|exact D]|]. destruct (X x N) as (A & B). rewrite A, B. unfold s0, set_at. cbn [r_rc r_own].
    rewrite (proj2 (Z.eqb_neq x o)) by exact N. auto. }
  destruct (S1 o) as (S1a & S1b).
  destruct (IH s1 O ltac:(lia) ltac:(lia) ltac:(intros Y; specialize (M Y); lia)) as (vs & s' & E' & X').
  eexists _, s'. change (rrun py (RIncref o :: ?r) s) with (rrun py (RIncref o :: r) s). 
  assert (forall r, rrun py (RIncref o :: r) s = omap (fun p => (Ret RNone :: fst p, snd p)) (rrun py r s0)) as -> by (intros r; cbn [rrun]; rewrite E0; reflexivity).
  rewrite E, E'. split; [reflexivity|]. intros x. destruct (S1 x), (X' x). split; congruence.
Qed.

(** ** Immortal objects *)
Lemma immortal_step op s v s' o : r_rc s o = 2 ^ 32 - 1 -> rstep true op s = (v, s') -> r_rc s' o = 2 ^ 32 - 1.
Proof.
  intros R E. assert (I : py_incref true (2 ^ 32 - 1) = 2 ^ 32 - 1) by reflexivity. assert (D : py_decref true (2 ^ 32 - 1) = 2 ^ 32 - 1) by reflexivity.
  destruct op as [x|x|a|x|x|x]; cbn [rstep] in E.
  3: { destruct (as_object a) as [x|e|x e|u]; try (injection E as <- <-; exact R). destruct (r_rc s x <=? 0); injection E as <- <-; exact R. }
  all: destruct (r_own s x <=? 0); [injection E as <- <-; exact R|].
  all: destruct (r_rc s x <=? 0); injection E as <- <-; try exact R.
  all: cbn [r_rc]; unfold set_at; destruct (Z.eqb_spec o x) as [->|]; [rewrite R; assumption|exact R].
Qed.

Lemma immortal_run ops : forall s vs s' o, r_rc s o = 2 ^ 32 - 1 -> rrun true ops s = Ret (vs, s') -> r_rc s' o = 2 ^ 32 - 1.
Proof.
  induction ops as [|op r IH]; intros s vs s' o R E; cbn [rrun] in E; [injection E as <- <-; exact R|].
  destruct (rstep true op s) as (v, s1) eqn:S1. pose proof (immortal_step op s v s1 o R S1) as R1.
  destruct v; try discriminate; destruct (rrun true r s1) as [[vr s2]|?|[? ?] ?|?] eqn:E1; cbn [omap obind fst snd] in E; try discriminate; injection E as _ <-; exact (IH s1 vr s2 o R1 E1).
Qed.

Lemma high_incref c : 2 ^ 31 <= c <= 2 ^ 32 - 1 -> py_incref true c = Z.min (2 ^ 32 - 1) (c + 1).
Proof.
  intros R. unfold py_incref. rewrite Z.mod_small by lia. cbn [andb]. destruct (Z.eqb_spec c (2 ^ 32 - 1)); lia.
Qed.
Lemma high_decref c : 2 ^ 31 <= c <= 2 ^ 32 - 1 -> py_decref true c = c.
Proof.
  intros R. unfold py_decref. rewrite Z.mod_small by lia. cbn [andb]. rewrite (proj2 (Z.leb_le _ _)) by lia. reflexivity.
Qed.

Lemma held_max_le es : forall held, held <= held_max es held.
Proof. destruct es as [|e r]; intros held; cbn [held_max]; lia. Qed.

Lemma drift_bounds es : forall c held m, releases_held es held -> held_max es held <= m -> m <= 2 ^ 31 - 1 ->
  2 ^ 32 - 1 - m + held <= c <= 2 ^ 32 - 1 -> 
  2 ^ 32 - 1 - m <= lrun true es c <= 2 ^ 32 - 1.
Proof.
  induction es as [|e r IH]; intros c held m H X M R; unfold lrun in *; cbn [fold_left].
  { cbn [releases_held] in H. lia. }
  cbn [releases_held held_max] in H, X. destruct H as (H0 & H).
  assert (held <= m) by lia.
  destruct e; cbn [lstep].
  - pose proof (held_max_le r (held + 1)). rewrite high_incref by lia. apply (IH _ (held + 1) m H); lia.
  - assert (0 <= held - 1) by (destruct r; cbn [releases_held] in H; lia). unfold fast_decref. rewrite (proj2 (Z.ltb_ge c 0)) by lia. apply (IH _ (held - 1) m H); lia.
  - rewrite high_incref by lia. apply (IH _ held m H); lia.
  - rewrite high_decref by lia. apply (IH _ held m H); lia.
Qed.

Lemma takes_immortal k c : c = 2 ^ 32 - 1 -> lrun true (repeat LTake k) c = 2 ^ 32 - 1.
Proof.
  intros ->. induction k as [|k IH]; [reflexivity|]. unfold lrun in *. cbn [repeat fold_left lstep].
  assert (py_incref true (2 ^ 32 - 1) = 2 ^ 32 - 1) as -> by reflexivity. exact IH.
Qed.
Lemma releases_count k : forall c, Z.of_nat k <= c -> lrun true (repeat LRelease k) c = c - Z.of_nat k.
Proof.
  induction k as [|k IH]; intros c R; [unfold lrun; cbn; lia|]. unfold lrun in *. cbn [repeat fold_left lstep]. unfold fast_decref.
  rewrite (proj2 (Z.ltb_ge c 0)) by lia. rewrite IH by lia. lia.
Qed.
Lemma lrun_app py a b c : lrun py (a ++ b) c = lrun py b (lrun py a c).
Proof. unfold lrun. apply fold_left_app. Qed.

Lemma drift_exact k : Z.of_nat k <= 2 ^ 32 - 1 -> lrun true (repeat LTake k ++ repeat LRelease k) (2 ^ 32 - 1) = 2 ^ 32 - 1 - Z.of_nat k.
Proof. intros R. rewrite lrun_app, takes_immortal by reflexivity. apply releases_count. exact R. Qed.
Lemma drift_heals k : forall j, (j <= k)%nat -> Z.of_nat k <= 2 ^ 31 - 1 ->
  lrun true (repeat LTake j) (2 ^ 32 - 1 - Z.of_nat k) = 2 ^ 32 - 1 - Z.of_nat k + Z.of_nat j.
Proof.
  intros j J K. assert (G : forall j c, c + Z.of_nat j <= 2 ^ 32 - 1 -> 2 ^ 31 <= c -> lrun true (repeat LTake j) c = c + Z.of_nat j).
  { clear. induction j as [|j IH]; intros c A B; [unfold lrun; cbn; lia|]. unfold lrun in *. cbn [repeat fold_left lstep]. rewrite high_incref by lia.
    rewrite Z.min_r by lia. rewrite IH by lia. lia. }
  apply G; lia.
Qed.
(** Interpreter decrements count again once the low half is below 2^31. *)
Lemma mortal_again c k : 0 <= c < 2 ^ 31 -> Z.of_nat k <= c -> lrun true (repeat LProgDecref k) c = c - Z.of_nat k.
Proof.
  intros R. revert c R. induction k as [|k IH]; intros c R K; [unfold lrun; cbn; lia|]. unfold lrun in *. cbn [repeat fold_left lstep].
  rewrite decref_mortal by lia. rewrite IH by lia. lia.
Qed.

Lemma no_drift es : forall c, (forall n, 0 <= lrun false (firstn n es) c) ->
  lrun false es c = c + zlen (filter (fun e => match e with LTake | LProgIncref => true | _ => false end) es)
                      - zlen (filter (fun e => match e with LRelease | LProgDecref => true | _ => false end) es).
Proof.
  induction es as [|e r IH]; intros c P; [unfold lrun, zlen; cbn; lia|].
  pose proof (P 0%nat) as P0. change (0 <= c) in P0.
  assert (X : forall c', c' = lstep false e c -> lrun false (e :: r) c = lrun false r c' /\ forall n, 0 <= lrun false (firstn n r) c').
  { intros c' ->. split; [reflexivity|]. intros n. exact (P (S n)). }
  destruct e; cbn [lstep] in X; [specialize (X (c + 1) eq_refl)|specialize (X (c - 1))|specialize (X (c + 1) eq_refl)|specialize (X (c - 1) eq_refl)];
    [|assert (Y : c - 1 = fast_decref c) by (unfold fast_decref; rewrite (proj2 (Z.ltb_ge c 0)) by lia; reflexivity); specialize (X Y)| |];
    destruct X as (-> & X); rewrite (IH _ X); unfold zlen; cbn [filter length]; lia.
Qed.
