(** Proofs about MapLifeModel. *)
From Coq Require Import ZArith List Bool Lia Permutation.
From Verif Require Import Base MapLifeModel MapLifeSpec.
Import ListNotations.
Local Open Scope Z_scope.

(** The blocks [B] are exactly those allocated. *)
Definition has (m : mem) (B : list Z) : Prop := Permutation (heap m) B /\ NoDup (heap m) /\ Forall (fun b => b < next m) (heap m).
Lemma has_perm m A B : Permutation A B -> has m A -> has m B.
Proof. intros P (H1 & H2 & H3). split; [etransitivity; eassumption|split; assumption]. Qed.
Lemma malloc_ok m B b m1 : has m B -> malloc m = (b, m1) -> has m1 (b :: B).
Proof.
  intros (H1 & H2 & H3) E. unfold malloc in E. injection E as <- <-. unfold has. cbn [heap next]. split; [constructor; exact H1|]. split.
  - constructor; [|exact H2]. intros I. rewrite Forall_forall in H3. specialize (H3 _ I). lia.
  - constructor; [lia|]. eapply Forall_impl; [|exact H3]. cbn. intros; lia.
Qed.
Lemma remove_perm b (l : list Z) : NoDup l -> In b l -> Permutation l (b :: remove Z.eq_dec b l).
Proof.
  induction l as [|a l IH]; intros N I; [destruct I|]. inversion N; subst. cbn [remove]. destruct (Z.eq_dec b a) as [->|D].
  - rewrite notin_remove by assumption. reflexivity.
  - destruct I as [->|I]; [congruence|]. rewrite (IH H2 I) at 1. apply perm_swap.
Qed.
Lemma release_ok p m B : has m (opt p ++ B) -> exists m1, release p m = Some m1 /\ has m1 B.
Proof.
  destruct p as [b|]; cbn [opt app release]; [|intros H; exists m; auto]. intros (H1 & H2 & H3).
  assert (I : In b (heap m)) by (eapply Permutation_in; [apply Permutation_sym; exact H1|left; reflexivity]).
  assert (E : existsb (Z.eqb b) (heap m) = true) by (apply existsb_exists; exists b; split; [exact I|apply Z.eqb_refl]). rewrite E.
  eexists; split; [reflexivity|]. unfold has. cbn [heap next]. pose proof (remove_perm b _ H2 I) as P. split; [|split].
  - eapply Permutation_cons_inv. etransitivity; [apply Permutation_sym; exact P|exact H1].
  - eapply Permutation_NoDup in H2; [|exact P]. inversion H2; assumption.
  - eapply Permutation_Forall in H3; [|exact P]. inversion H3; assumption.
Qed.

Definition fits (r : done * cell * mem) (bad : bool) (R : list Z) : Prop :=
  fst (fst r) = (if bad then Refused else Fine) /\ has (snd r) (blocks (snd (fst r)) ++ R).
Lemma grow_values_ok g c m R : has m (blocks c ++ R) -> fits (grow_values g c m) (negb g) R.
Proof.
  intros H. unfold grow_values, fits. destruct g; cbn [negb]; [|split; [reflexivity|exact H]].
  destruct (malloc m) as [b m1] eqn:E. pose proof (malloc_ok _ _ _ _ H E) as H1.
  destruct (release_ok (values c) m1 (b :: opt (buckets c) ++ R)) as (m2 & -> & H2).
  - eapply has_perm; [|exact H1]. unfold blocks. rewrite <- app_assoc. apply Permutation_middle.
  - split; [reflexivity|exact H2].
Qed.
Lemma drop_buckets_ok c m R : has m (blocks c ++ R) -> exists m1, drop_buckets c m = Some ({| values := values c; buckets := None |}, m1) /\ has m1 (opt (values c) ++ R).
Proof.
  intros H. unfold drop_buckets. destruct (release_ok (buckets c) m (opt (values c) ++ R)) as (m1 & -> & H1).
  - eapply has_perm; [|exact H]. unfold blocks. rewrite !app_assoc. apply Permutation_app_tail, Permutation_app_comm.
  - eauto.
Qed.
Lemma new_buckets_ok g c m R : buckets c = None -> has m (blocks c ++ R) -> fits (new_buckets g c m) (negb g) R.
Proof.
  intros N H. unfold new_buckets, fits. destruct g; cbn [negb]; [|split; [reflexivity|exact H]].
  destruct (malloc m) as [b m1] eqn:E. pose proof (malloc_ok _ _ _ _ H E) as H1. split; [reflexivity|]. cbn [fst snd].
  eapply has_perm; [|exact H1]. unfold blocks. rewrite N. cbn [values buckets opt app]. rewrite app_nil_r, <- app_assoc. cbn [app]. apply Permutation_middle.
Qed.
Lemma tdo_ok s c m R : has m (blocks c ++ R) -> fits (tdo s c m) (refusal s) R.
Proof.
  intros H. destruct s as [g|g|needs gv gb]; cbn [tdo refusal].
  - apply grow_values_ok; exact H.
  - destruct (drop_buckets_ok c m R H) as (m1 & -> & H1). apply new_buckets_ok; [reflexivity|]. unfold blocks. cbn [values buckets opt]. rewrite app_nil_r. exact H1.
  - destruct (drop_buckets_ok c m R H) as (m1 & -> & H1). set (c1 := {| values := values c; buckets := None |}).
    assert (H1' : has m1 (blocks c1 ++ R)) by (unfold blocks; cbn [c1 values buckets opt]; rewrite app_nil_r; exact H1).
    destruct needs; cbn [andb orb]; [|apply new_buckets_ok; [reflexivity|exact H1']].
    pose proof (grow_values_ok gv c1 m1 R H1') as G.
    assert (B : buckets (snd (fst (grow_values gv c1 m1))) = None).
    { unfold grow_values. destruct gv; cbn [negb]; [|reflexivity]. destruct (malloc m1). destruct (release _ _); reflexivity. }
    destruct (grow_values gv c1 m1) as [[d c2] m2]. destruct G as (G1 & G2). cbn [fst snd] in *. subst d. destruct gv; cbn [negb orb].
    + apply new_buckets_ok; assumption.
    + split; [reflexivity|exact G2].
Qed.
Lemma fill_ok ss : forall c m R, has m (blocks c ++ R) -> fits (fill ss c m) (existsb refusal ss) R.
Proof.
  induction ss as [|s ss IH]; intros c m R H; cbn [fill existsb]; [split; [reflexivity|exact H]|].
  pose proof (tdo_ok s c m R H) as T. destruct (tdo s c m) as [[d c1] m1]. destruct T as (T1 & T2). cbn [fst snd] in *. subst d.
  destruct (refusal s); cbn [orb]; [split; [reflexivity|exact T2]|apply IH; exact T2].
Qed.

Lemma get_perm x l c : get x l = Some c -> Permutation l ((x, c) :: del x l).
Proof.
  induction l as [|[y d] l IH]; cbn [get del]; [discriminate|]. destruct (x =? y) eqn:E; intros H.
  - apply Z.eqb_eq in E. injection H as ->. subst. reflexivity.
  - rewrite (IH H) at 1. apply perm_swap.
Qed.
Lemma get_in x l : get x l = None <-> ~ In x (map fst l).
Proof.
  induction l as [|[y d] l IH]; cbn [get map fst In]; [tauto|]. destruct (x =? y) eqn:E.
  - apply Z.eqb_eq in E. split; [discriminate|]. intros H. destruct H. left. congruence.
  - apply Z.eqb_neq in E. rewrite IH. intuition congruence.
Qed.
Lemma del_get x y l : NoDup (map fst l) -> get y (del x l) = if y =? x then None else get y l.
Proof.
  induction l as [|[z d] l IH]; cbn [get del map fst]; intros N; [destruct (y =? x); reflexivity|]. inversion N; subst. destruct (x =? z) eqn:E.
  - apply Z.eqb_eq in E. subst z. destruct (y =? x) eqn:F; [apply Z.eqb_eq in F; subst; apply get_in; assumption|reflexivity].
  - cbn [get]. rewrite IH by assumption. destruct (y =? z) eqn:F; [|reflexivity]. apply Z.eqb_eq in F. subst. rewrite Z.eqb_sym, E. reflexivity.
Qed.
Lemma del_nodup x l : NoDup (map fst l) -> NoDup (map fst (del x l)).
Proof.
  intros N. destruct (get x l) as [c|] eqn:E.
  - pose proof (Permutation_map fst (get_perm _ _ _ E)) as P. eapply Permutation_NoDup in N; [|exact P]. inversion N; assumption.
  - replace (del x l) with l; [exact N|]. clear N. induction l as [|[y d] l IH]; cbn [get del] in *; [reflexivity|]. destruct (x =? y); [discriminate|]. f_equal. auto.
Qed.
Lemma get_owned x w c : get x (objs w) = Some c -> Permutation (owned w) (blocks c ++ flat_map (fun e => blocks (snd e)) (del x (objs w))).
Proof. intros H. unfold owned. rewrite (Permutation_flat_map _ (get_perm _ _ _ H)). reflexivity. Qed.

(** The invariant; [n]: second initialisations so far. *)
Definition inv (w : world) (k : known) (n : nat) : Prop :=
  NoDup (map fst (objs w)) /\
  (forall x, match get x (objs w) with None => k x = None | Some c => exists b, k x = Some b /\ (b = false -> blocks c = []) end) /\
  exists lost, has (wmem w) (owned w ++ lost) /\ (length lost <= 2 * n)%nat.
Lemma blocks_le c : (length (blocks c) <= 2)%nat.
Proof. unfold blocks. destruct (values c), (buckets c); cbn; lia. Qed.

Lemma mstep_ok o w k n : inv w k n ->
  fst (mstep o w) = answer o k /\
  inv (snd (mstep o w)) (knows o k) ((match o with MInit x _ _ => match k x with Some true => 1 | _ => 0 end | _ => 0 end) + n).
Proof.
  intros (N & K & lost & H & L). pose proof (conj N (conj K (ex_intro (fun lost => has (wmem w) (owned w ++ lost) /\ (length lost <= 2 * n)%nat) lost (conj H L)))) as I0. fold (inv w k n) in I0.
  destruct o as [x|x g ss|x]; cbn [mstep answer knows]; pose proof (K x) as Kx.
  - destruct (get x (objs w)) as [c|] eqn:E.
    + destruct Kx as (b & -> & _). split; [reflexivity|exact I0].
    + rewrite Kx. split; [reflexivity|]. split; [|split].
      * cbn [snd objs map fst]. constructor; [apply get_in; exact E|exact N].
      * intros y. cbn [snd objs get]. unfold set. destruct (y =? x); [exists false; split; reflexivity|apply K].
      * exists lost. split; [exact H|cbn [plus]; exact L].
  - destruct (get x (objs w)) as [c|] eqn:E.
    2: { rewrite Kx. split; [reflexivity|exact I0]. }
    destruct Kx as (b & Kb & Z0). rewrite Kb. set (rest := flat_map (fun e => blocks (snd e)) (del x (objs w))).
    assert (H' : has (wmem w) (blocks none ++ rest ++ blocks c ++ lost)).
    { eapply has_perm; [|exact H]. cbn [blocks none values buckets opt app]. rewrite (get_owned _ _ _ E). fold rest. rewrite <- app_assoc. apply Permutation_app_swap_app. }
    assert (LL : (length (blocks c ++ lost) <= 2 * ((if b then 1 else 0) + n))%nat).
    { rewrite app_length. destruct b; [pose proof (blocks_le c); lia|rewrite Z0 by reflexivity; cbn [length]; lia]. }
    assert (DONE : forall c1 m1, has m1 (blocks c1 ++ rest ++ blocks c ++ lost) ->
      inv {| objs := (x, c1) :: del x (objs w); wmem := m1 |} (set k x (Some true)) ((if b then 1 else 0) + n)).
    { intros c1 m1 HH. split; [|split].
      - cbn [objs map fst]. constructor; [apply get_in; rewrite del_get by exact N; rewrite Z.eqb_refl; reflexivity|apply del_nodup; exact N].
      - intros y. cbn [objs get]. unfold set. destruct (y =? x) eqn:F; [exists true; split; [reflexivity|discriminate]|]. rewrite del_get, F by exact N. apply K.
      - exists (blocks c ++ lost). split; [|exact LL]. unfold owned. cbn [objs wmem flat_map snd]. fold rest. rewrite <- app_assoc. exact HH. }
    pose proof (new_buckets_ok g none (wmem w) _ eq_refl H') as B. destruct (new_buckets g none (wmem w)) as [[d c0] m0]. destruct B as (B1 & B2). cbn [fst snd] in B1, B2. subst d.
    destruct g; cbn [negb].
    + pose proof (fill_ok ss c0 m0 _ B2) as F. destruct (fill ss c0 m0) as [[d c1] m1]. destruct F as (F1 & F2). cbn [fst snd] in F1, F2. subst d.
      split; [destruct (existsb refusal ss); reflexivity|]. cbn [snd]. destruct b; apply DONE; exact F2.
    + split; [reflexivity|]. cbn [snd]. destruct b; apply DONE; exact B2.
  - destruct (get x (objs w)) as [c|] eqn:E.
    2: { rewrite Kx. split; [reflexivity|]. cbn [snd]. split; [exact N|]. split; [|exists lost; split; [exact H|cbn [plus]; exact L]].
         intros y. pose proof (K y) as Ky. unfold set. destruct (y =? x) eqn:F; [|exact Ky]. apply Z.eqb_eq in F. subst y. rewrite E. reflexivity. }
    destruct Kx as (b & Kb & Z0). rewrite Kb. set (rest := flat_map (fun e => blocks (snd e)) (del x (objs w))).
    destruct (release_ok (buckets c) (wmem w) (opt (values c) ++ rest ++ lost)) as (m1 & -> & H1).
    { eapply has_perm; [|exact H]. rewrite (get_owned _ _ _ E). fold rest. unfold blocks. rewrite <- !app_assoc. apply Permutation_app_swap_app. }
    destruct (release_ok (values c) m1 (rest ++ lost) H1) as (m2 & -> & H2). split; [reflexivity|]. cbn [snd]. split; [|split].
    + apply del_nodup; exact N.
    + intros y. cbn [objs]. rewrite del_get by exact N. unfold set. destruct (y =? x); [reflexivity|apply K].
    + exists lost. split; [exact H2|cbn [plus]; exact L].
Qed.
Lemma mrun_ok h : forall w k n, inv w k n -> fst (mrun h w) = answers h k /\ inv (snd (mrun h w)) (after h k) (again h k + n).
Proof.
  induction h as [|o h IH]; intros w k n I; [split; [reflexivity|exact I]|]. cbn [mrun answers after again].
  destruct (mstep_ok o w k n I) as (A & I1). destruct (mstep o w) as [a w1]. cbn [fst snd] in *.
  destruct (IH _ _ _ I1) as (B & I2). destruct (mrun h w1) as [b w2]. cbn [fst snd] in *. subst. split; [reflexivity|].
  match goal with |- inv _ _ ?x => match type of I2 with inv _ _ ?y => replace x with y by lia end end. exact I2.
Qed.
Lemma start_ok : inv start nobody 0.
Proof.
  split; [constructor|]. split; [intros x; reflexivity|]. exists []. split; [|cbn; lia]. split; [reflexivity|]. split; [constructor|constructor].
Qed.
Lemma history_thm h : let r := mrun h start in
  fst r = answers h nobody /\
  (forall x, (exists c, get x (objs (snd r)) = Some c) <-> after h nobody x <> None) /\
  exists lost, Permutation (heap (wmem (snd r))) (owned (snd r) ++ lost) /\ NoDup (heap (wmem (snd r))) /\ (length lost <= 2 * again h nobody)%nat.
Proof.
  cbv zeta. destruct (mrun_ok h start nobody 0 start_ok) as (A & N & K & lost & (H1 & H2 & _) & L). split; [exact A|]. split.
  - intros x. specialize (K x). destruct (get x (objs (snd (mrun h start)))) as [c|].
    + destruct K as (b & -> & _). split; [discriminate|eauto].
    + rewrite K. split; [intros (c & D); discriminate|congruence].
  - exists lost. split; [exact H1|]. split; [exact H2|lia].
Qed.
Lemma clean_thm h : again h nobody = O -> (forall x, after h nobody x = None) -> heap (wmem (snd (mrun h start))) = [].
Proof.
  intros A G. destruct (history_thm h) as (_ & K & lost & P & _ & L). rewrite A in L. destruct lost; [|cbn in L; lia].
  assert (E : objs (snd (mrun h start)) = []).
  { destruct (objs (snd (mrun h start))) as [|[x c] l] eqn:E; [reflexivity|]. exfalso. apply (proj1 (K x)); [|apply G].
    exists c. cbn [get]. rewrite Z.eqb_refl. reflexivity. }
  unfold owned in P. rewrite E in P. cbn in P. apply Permutation_sym, Permutation_nil in P. exact P.
Qed.
Lemma no_undefined h : ~ In MUndefined (fst (mrun h start)).
Proof.
  rewrite (proj1 (history_thm h)). generalize nobody. induction h as [|o h IH]; intros k; cbn [answers In]; [tauto|]. intros [E|I]; [|exact (IH _ I)].
  destruct o as [x|x g ss|x]; cbn [answer] in E; destruct (k x); try discriminate. destruct g; [destruct (existsb _ _)|]; discriminate.
Qed.

Lemma fill_buckets ss : forall c m c1 m1, fill ss c m = (Fine, c1, m1) -> buckets c <> None -> buckets c1 <> None.
Proof.
  induction ss as [|s ss IH]; intros c m c1 m1; cbn [fill]; [intros H; injection H as <- _; auto|].
  assert (NB : forall g c m d c' m', new_buckets g c m = (d, c', m') -> d = Fine -> buckets c' <> None).
  { intros g c0 m0 d c' m'. unfold new_buckets. destruct g; cbn [negb]; [|congruence]. destruct (malloc m0). intros H _. injection H as _ <- _. discriminate. }
  destruct (tdo s c m) as [[d c2] m2] eqn:T. destruct d; try discriminate. intros F B. apply (IH _ _ _ _ F). clear F IH.
  destruct s as [g|g|needs gv gb]; cbn [tdo] in T.
  - unfold grow_values in T. destruct g; cbn [negb] in T; [|discriminate]. destruct (malloc m). destruct (release _ _); [|discriminate]. injection T as <- _. exact B.
  - destruct (drop_buckets c m) as [[c3 m3]|]; [|discriminate]. eapply NB; [exact T|reflexivity].
  - destruct (drop_buckets c m) as [[c3 m3]|]; [|discriminate]. destruct (if needs then _ else _) as [[d c4] m4]. destruct d; try discriminate. eapply NB; [exact T|reflexivity].
Qed.
Lemma mrun_cons o h w : snd (mrun (o :: h) w) = snd (mrun h (snd (mstep o w))).
Proof. cbn [mrun]. destruct (mstep o w) as [a w1]. cbn [snd]. destruct (mrun h w1). reflexivity. Qed.
Lemma init_one x c m g ss L : has m (blocks c ++ L) -> exists c1 m1,
  snd (mstep (MInit x g ss) {| objs := [(x, c)]; wmem := m |}) = {| objs := [(x, c1)]; wmem := m1 |} /\ has m1 (blocks c1 ++ blocks c ++ L) /\
  (g = true -> existsb refusal ss = false -> buckets c1 <> None).
Proof.
  intros H. cbn [mstep objs get wmem del]. rewrite !Z.eqb_refl.
  pose proof (new_buckets_ok g none m (blocks c ++ L) eq_refl H) as (D0 & B0).
  assert (N0 : g = true -> buckets (snd (fst (new_buckets g none m))) <> None) by (intros ->; discriminate).
  destruct (new_buckets g none m) as [[d c0] m0]. cbn [fst snd] in D0, B0, N0. subst d. destruct g; cbn [negb].
  - pose proof (fill_ok ss c0 m0 _ B0) as (D1 & B1). destruct (fill ss c0 m0) as [[d c1] m1] eqn:E1. cbn [fst snd] in D1, B1. subst d.
    exists c1, m1. cbn [snd]. split; [reflexivity|]. split; [exact B1|]. intros _ R. rewrite R in E1. eapply fill_buckets; [exact E1|apply N0; reflexivity].
  - exists c0, m0. cbn [snd]. split; [reflexivity|]. split; [exact B0|discriminate].
Qed.
Lemma second_refuted x ss g ss' : existsb refusal ss = false ->
  heap (wmem (snd (mrun [MNew x; MInit x true ss; MInit x g ss'; MDrop x] start))) <> [].
Proof.
  intros NR. rewrite !mrun_cons. change (snd (mstep (MNew x) start)) with {| objs := [(x, none)]; wmem := {| heap := []; next := 1 |} |}.
  assert (H0 : has {| heap := []; next := 1 |} (blocks none ++ [])) by (split; [reflexivity|split; constructor]).
  destruct (init_one x none _ true ss [] H0) as (c1 & m1 & -> & H1 & N1). specialize (N1 eq_refl NR). cbn [blocks none values buckets opt app] in H1.
  destruct (init_one x c1 m1 g ss' [] H1) as (c2 & m2 & -> & H2 & _). rewrite app_nil_r in H2.
  cbn [mstep objs get wmem mrun snd]. rewrite Z.eqb_refl.
  destruct (release_ok (buckets c2) m2 (opt (values c2) ++ blocks c1)) as (m3 & -> & H3).
  { eapply has_perm; [|exact H2]. unfold blocks at 1. rewrite <- app_assoc. apply Permutation_app_swap_app. }
  destruct (release_ok (values c2) m3 (blocks c1) H3) as (m4 & -> & (P & _)). cbn [snd wmem]. intros E. rewrite E in P.
  apply Permutation_nil in P. unfold blocks in P. destruct (buckets c1); [|congruence]. destruct (values c1); discriminate.
Qed.
