(** Proofs about HashMemModel, on top of the table's refinement. *)
From Coq Require Import ZArith List Bool Lia Permutation.
From Verif Require Import Base HashModel HashSpec HashRun HashCoreProofs HashInvProofs HashStepProofs HashProofs HashMemModel HashMemSpec.
Import ListNotations.
Local Open Scope Z_scope.
Local Arguments Z.pow : simpl never.
Local Arguments Z.mul : simpl never.
Local Arguments Z.div : simpl never.

Section Mem.
Context {V : Type}.
Variable hash : Z -> Z.
Hypothesis hash_range : forall k, 0 <= hash k < 2 ^ 64.
Variable dflt : V.
Notation TInv := (@TInv V hash).
Notation R := (@R V hash).

Definition rel (s : mtab V) (st : mspec V) : Prop :=
  match s, st with
  | Live t, Working l k => R t l /\ m_shifts t = 64 - k
  | Null vs _, Broken l => Permutation vs l
  | _, _ => False
  end.

Lemma cap_room t k : TInv t -> m_shifts t = 64 - k -> m_cap t = room k.
Proof.
  intros T S. destruct (t_lt hash t T) as (_ & _ & N & B). rewrite (t_cap hash t T), N, cap_eq by exact B. unfold room.
  replace (64 - m_shifts t) with k by lia. reflexivity.
Qed.
Lemma cap_not_max t : TInv t -> (m_cap t =? max_bucket_count) = false.
Proof.
  intros T. destruct (t_lt hash t T) as (A & _ & N & B). apply Z.eqb_neq. unfold max_bucket_count.
  assert (2 ^ (64 - m_shifts t) <= 2 ^ 25) by (apply Z.pow_le_mono_r; lia). assert (2 ^ 25 < 2 ^ 32) by reflexivity. lia.
Qed.

(** With buckets granted the code is that of HashModel. *)
Lemma place_true (t : table V) d i : place_last_m hash true t d i = rbind (place_last hash t d i) (fun t' => Ok (Live t', true)).
Proof.
  unfold place_last_m, place_last. destruct (m_cap t <? _).
  - unfold increase_size. destruct (m_cap t =? max_bucket_count); reflexivity.
  - destruct (place _ _ _ _); reflexivity.
Qed.
Lemma place_room gb (t : table V) d i : (m_cap t <? Z.of_nat (length (m_values t))) = false ->
  place_last_m hash gb t d i = rbind (place_last hash t d i) (fun t' => Ok (Live t', true)).
Proof. intros H. unfold place_last_m, place_last. rewrite H. destruct (place _ _ _ _); reflexivity. Qed.
Lemma place_shifts (t : table V) d i t' : place_last hash t d i = Ok t' ->
  m_shifts t' = if m_cap t <? Z.of_nat (length (m_values t)) then (m_shifts t - 1) mod 256 else m_shifts t.
Proof.
  unfold place_last. destruct (m_cap t <? _).
  - unfold increase_size. destruct (m_cap t =? max_bucket_count); [discriminate|].
    destruct (fill _ _ _ _ _); cbn [rbind]; try discriminate. intros H. injection H as <-. reflexivity.
  - destruct (place _ _ _ _); cbn [rbind]; try discriminate. intros H. injection H as <-. reflexivity.
Qed.

Definition put (t : table V) (key : Z) (v : V) : table V := mk_table (m_values t ++ [(key, v)]) (m_buckets t) (m_shifts t) (m_cap t).
Lemma put_len t key v : Z.of_nat (length (m_values (put t key v))) = len (m_values t) + 1.
Proof. unfold put, len. cbn [m_values]. rewrite app_length. cbn [length]. lia. Qed.
Lemma place_m_ok gb t key v e : TInv t -> missing t key -> 1 <= e <= len (m_values t) + 1 ->
  daf (bk (m_buckets t) (home hash (m_shifts t) key + e - 1)) <= 256 * e + fp hash key ->
  (e >= 2 -> daf (bk (m_buckets t) (home hash (m_shifts t) key + e - 2)) >= 256 * (e - 1) + fp hash key) ->
  let r := place_last_m hash gb (put t key v) (256 * e + fp hash key) (pos hash (m_buckets t) (m_shifts t) key e) in
  let fine := fun s => len (m_values t) + 1 <= limit ->
    exists t', r = Ok (Live t', true) /\ TInv t' /\ m_values t' = m_values t ++ [(key, v)] /\ m_shifts t' = s in
  if len (m_values t) <? m_cap t then fine (m_shifts t)
  else if gb then fine (m_shifts t - 1)
  else exists s, r = Ok (Null (m_values t ++ [(key, v)]) s, false).
Proof.
  intros T M He Hl Hp r fine.
  assert (P : len (m_values t) + 1 <= limit -> exists t', place_last hash (put t key v) (256 * e + fp hash key) (pos hash (m_buckets t) (m_shifts t) key e) = Ok t' /\
    TInv t' /\ m_values t' = m_values t ++ [(key, v)] /\ m_shifts t' = if m_cap t <? len (m_values t) + 1 then (m_shifts t - 1) mod 256 else m_shifts t).
  { intros L. destruct (place_last_ok hash hash_range t key v e T M L He Hl Hp) as (t' & E & T' & V'). exists t'.
    split; [exact E|]. split; [exact T'|]. split; [exact V'|]. rewrite (place_shifts _ _ _ _ E). 
    change (mk_table (m_values t ++ [(key, v)]) (m_buckets t) (m_shifts t) (m_cap t)) with (put t key v).
    rewrite put_len. reflexivity. }
  destruct (Z.ltb_spec (len (m_values t)) (m_cap t)) as [A|A].
  - assert (Q : (m_cap t <? len (m_values t) + 1) = false) by (apply Z.ltb_ge; lia). rewrite Q in P. intros L.
    destruct (P L) as (t' & E & X). exists t'. split; [|exact X]. unfold r.
    rewrite place_room by (rewrite put_len; exact Q). rewrite E. reflexivity.
  - assert (Q : (m_cap t <? len (m_values t) + 1) = true) by (apply Z.ltb_lt; lia). rewrite Q in P.
    destruct (t_lt hash t T) as (_ & _ & _ & B). destruct gb.
    + intros L. destruct (P L) as (t' & E & X1 & X2 & X3). exists t'. unfold r. rewrite place_true, E. split; [reflexivity|].
      split; [exact X1|]. split; [exact X2|]. rewrite X3. apply Z.mod_small. lia.
    + unfold r, place_last_m. rewrite put_len. change (m_cap (put t key v)) with (m_cap t). rewrite Q, (cap_not_max t T). eexists. reflexivity.
Qed.

(** Insertion of a key that is there, or not. *)
Lemma try_present gv gb t key v i w : TInv t -> nthv (m_values t) i = Some (key, w) ->
  try_emplace_m hash gv gb t key v = Ok (Live t, Some (i, false)).
Proof.
  intros T N. unfold try_emplace_m. destruct (search_ok hash hash_range t key T) as [(j & u & Nj & E)|(M & _)].
  - rewrite E. cbn [rbind]. assert (j = i) by (eapply (i_keys _ _ _ _ _ _ (t_inv _ _ T)); eassumption). subst j. reflexivity.
  - destruct (M i w N).
Qed.
Lemma emplace_present gb t key v i w : TInv t -> nthv (m_values t) i = Some (key, w) ->
  emplace_m hash true gb t key v = Ok (Live t, Some (i, false)).
Proof.
  intros T N. unfold emplace_m. rewrite emplace_try. destruct (search_ok hash hash_range t key T) as [(j & u & Nj & E)|(M & _)].
  - rewrite (try_more _ _ [(key, v)] _ _ _ _ _ E). cbn [rbind]. rewrite removelast_last.
    assert (j = i) by (eapply (i_keys _ _ _ _ _ _ (t_inv _ _ T)); eassumption). subst j. destruct t; reflexivity.
  - destruct (M i w N).
Qed.
(** The common part of both insertions of a new key. *)
Definition inserted (gb : bool) (t : table V) (key : Z) (v : V) (r : run (mtab V * option (Z * bool))) : Prop :=
  let fine := fun s => len (m_values t) + 1 <= limit ->
    exists t', r = Ok (Live t', Some (len (m_values t), true)) /\ TInv t' /\ m_values t' = m_values t ++ [(key, v)] /\ m_shifts t' = s in
  if len (m_values t) <? m_cap t then fine (m_shifts t)
  else if gb then fine (m_shifts t - 1)
  else exists s, r = Ok (Null (m_values t ++ [(key, v)]) s, None).
Lemma try_new gb t key v : TInv t -> missing t key -> inserted gb t key v (try_emplace_m hash true gb t key v) /\
  try_emplace_m hash false gb t key v = Ok (Live t, None).
Proof.
  intros T M. unfold inserted, try_emplace_m. destruct (search_ok hash hash_range t key T) as [(i & w & N & _)|(_ & e & E & He & Hl & Hp)]; [destruct (M i w N)|].
  rewrite E. cbn [rbind]. split; [|reflexivity]. pose proof (place_m_ok gb t key v e T M He Hl Hp) as P. cbv zeta in P. unfold put in P.
  destruct (len (m_values t) <? m_cap t); [|destruct gb].
  - intros L. destruct (P L) as (t' & Q & X). exists t'. rewrite Q. split; [reflexivity|exact X].
  - intros L. destruct (P L) as (t' & Q & X). exists t'. rewrite Q. split; [reflexivity|exact X].
  - destruct P as (s & Q). exists s. rewrite Q. reflexivity.
Qed.
Lemma emplace_new gb t key v : TInv t -> missing t key -> inserted gb t key v (emplace_m hash true gb t key v).
Proof.
  intros T M. unfold inserted, emplace_m. rewrite emplace_try.
  destruct (search_ok hash hash_range t key T) as [(i & w & N & _)|(_ & e & E & He & Hl & Hp)]; [destruct (M i w N)|].
  rewrite (try_more _ _ [(key, v)] _ _ _ _ _ E). cbn [rbind]. pose proof (place_m_ok gb t key v e T M He Hl Hp) as P. cbv zeta in P. unfold put in P.
  assert (Q0 : Z.of_nat (length (m_values t ++ [(key, v)])) - 1 = len (m_values t)) by (unfold len; rewrite app_length; cbn [length]; lia).
  rewrite Q0. destruct (len (m_values t) <? m_cap t); [|destruct gb].
  - intros L. destruct (P L) as (t' & Q & X). exists t'. rewrite Q. split; [reflexivity|exact X].
  - intros L. destruct (P L) as (t' & Q & X). exists t'. rewrite Q. split; [reflexivity|exact X].
  - destruct P as (s & Q). exists s. rewrite Q. reflexivity.
Qed.

Lemma erase_shifts (t t' : table V) key n : erase hash t key = Ok (t', n) -> m_shifts t' = m_shifts t.
Proof.
  unfold erase. destruct (m_values t) eqn:E; [intros H; injection H as <- _; reflexivity|].
  destruct (next_while_less _ _ _ _) as [[d i]| | |]; cbn [rbind]; try discriminate.
  destruct (erase_loop _ _ _ _ _ _) as [[d' i']| | |]; cbn [rbind]; try discriminate.
  destruct (at_ _ i') as [b| | |]; cbn [rbind]; try discriminate.
  destruct (d' =? daf b); [|intros H; injection H as <- _; reflexivity].
  unfold do_erase. destruct (at_ _ i') as [b'| | |]; cbn [rbind]; try discriminate.
  destruct (shift_down _ _ _ _) as [bs| | |]; cbn [rbind]; try discriminate.
  destruct (_ || _); [discriminate|]. destruct (_ =? _); [intros H; injection H as <- _; reflexivity|].
  destruct (nth_error _ _); [|discriminate].
  destruct (seek _ _ _ _); cbn [rbind]; try discriminate.
  match goal with |- context [at_ ?x ?y] => destruct (at_ x y) end; cbn [rbind]; try discriminate.
  destruct (set_ _ _ _); cbn [rbind]; try discriminate. intros H; injection H as <- _. reflexivity.
Qed.
Lemma lookup_nthv t (l : list (Z * V)) x : R t l -> match lookup l x with Some v => exists i, nthv (m_values t) i = Some (x, v) | None => missing t x end.
Proof.
  intros HR. destruct (lookup l x) as [v|] eqn:E.
  - apply lookup_in in E. apply (r_in _ _ _ HR) in E. exact E.
  - intros i w N. rewrite (R_lookup hash _ _ _ _ _ HR N) in E. discriminate.
Qed.
Lemma bind_len (l : list (Z * V)) x v : lookup l x = None -> count (bind l x v) = count l + 1.
Proof. intros H. unfold bind, count. rewrite without_none by exact H. cbn [length]. lia. Qed.
Lemma last_nthv (vs : list (Z * V)) e : nthv (vs ++ [e]) (len vs) = Some e.
Proof.
  unfold nthv, len. rewrite (proj2 (Z.ltb_ge _ 0)) by lia. rewrite Nat2Z.id, nth_error_app2, Nat.sub_diag by lia. reflexivity.
Qed.

(** A new key: [f] is what is done with the entry. *)
Lemma add_ok (gv gb : bool) t l k x v w a r f : R t l -> m_shifts t = 64 - k -> lookup l x = None ->
  (if gv then inserted gb t x v r else r = Ok (Live t, None)) ->
  (forall t', R t' (bind l x v) -> m_values t' = m_values t ++ [(x, v)] -> exists t2, f t' (len (m_values t)) true = Ok (t2, a) /\ R t2 (bind l x w) /\ m_shifts t2 = m_shifts t') ->
  count (entries (fst (add gv gb l k x v w a))) <= limit ->
  exists s', entered r f = Ok (s', snd (add gv gb l k x v w a)) /\ rel s' (fst (add gv gb l k x v w a)).
Proof.
  intros HR HS LN HI HF. pose proof (r_t _ _ _ HR) as T. pose proof (lookup_nthv t l x HR) as M. rewrite LN in M.
  pose proof (cap_room t k T HS) as C. assert (LE : len (m_values t) = count l) by (unfold len, count; rewrite (r_len _ _ _ HR); reflexivity).
  unfold add. destruct gv; cbn [negb].
  2:{ intros _. rewrite HI. exists (Live t). split; [reflexivity|split; assumption]. }
  unfold inserted in HI. rewrite C, LE in HI.
  assert (G : forall k', (count l + 1 <= limit -> exists t', r = Ok (Live t', Some (count l, true)) /\ TInv t' /\ m_values t' = m_values t ++ [(x, v)] /\ m_shifts t' = 64 - k') ->
    count (bind l x w) <= limit -> exists s', entered r f = Ok (s', Some a) /\ rel s' (Working (bind l x w) k')).
  { intros k' H L. rewrite bind_len in L by exact LN. destruct (H L) as (t' & E & T' & V' & S').
    destruct (HF t') as (t2 & E2 & R2 & S2); [eapply R_add; eassumption|exact V'|]. rewrite LE in E2.
    rewrite E. unfold entered. cbn [rbind]. rewrite E2. cbn [rbind]. exists (Live t2). split; [reflexivity|]. split; [exact R2|lia]. }
  destruct (count l <? room k); [|destruct gb]; cbn [fst snd entries].
  - apply G. intros L. destruct (HI L) as (t' & E & T' & V' & S'). exists t'. rewrite S'. auto.
  - apply G. intros L. destruct (HI L) as (t' & E & T' & V' & S'). exists t'. split; [exact E|]. split; [exact T'|]. split; [exact V'|lia].
  - intros _. destruct HI as (s & E). rewrite E. exists (Null (m_values t ++ [(x, v)]) s). split; [reflexivity|]. cbn [rel].
    unfold bind. rewrite without_none by exact LN. rewrite (Permutation_app_comm (m_values t)). cbn [app]. constructor. eapply R_perm; eassumption.
Qed.

Lemma step_mem_live gv gb t l k o : R t l -> m_shifts t = 64 - k -> count l <= limit ->
  match spec_mem dflt gv gb (Working l k) o with
  | None => False
  | Some (st', a) => count (entries st') <= limit -> exists s', live_step hash dflt gv gb t o = Ok (s', a) /\ rel s' st'
  end.
Proof.
  intros HR HS HL. pose proof (r_t _ _ _ HR) as T. pose proof (fun x => lookup_nthv t l x HR) as LK.
  assert (PLAIN : forall o', (forall t' a, step hash dflt t o' = Ok (t', a) -> m_shifts t' = m_shifts t) -> count (fst (spec_step dflt l o')) <= limit ->
    exists s', rbind (step hash dflt t o') (fun '(t', a) => Ok (Live t', Some a)) = Ok (s', Some (snd (spec_step dflt l o'))) /\ rel s' (Working (fst (spec_step dflt l o')) k)).
  { intros o' SH L. destruct (step_ok hash hash_range dflt t l o' HR HL L) as (t' & E & R'). rewrite E. cbn [rbind].
    exists (Live t'). split; [reflexivity|]. split; [exact R'|]. rewrite (SH _ _ E). exact HS. }
  destruct o as [x|x|x|x v|x v|x| | |]; cbn [spec_mem live_step].
  - cbn [entries]. intros L. apply PLAIN; [|exact L]. cbn [step]. intros t' a. destruct (find hash t x); cbn [rbind]; try discriminate.
    destruct (result_of t a0); cbn [rbind]; try discriminate. intros H; injection H as <- _; reflexivity.
  - cbn [entries]. intros L. apply PLAIN; [|exact L]. cbn [step]. intros t' a. destruct (at_key hash t x); try discriminate; intros H; injection H as <- _; reflexivity.
  - specialize (LK x). destruct (lookup l x) as [v|] eqn:E.
    + destruct LK as (i & N). intros _. rewrite (try_present gv gb t x dflt i v T N). unfold entered. cbn [rbind].
      rewrite (value_at_nthv _ _ _ _ N). cbn [rbind]. exists (Live t). split; [reflexivity|split; assumption].
    + destruct (add gv gb l k x dflt dflt (AVal (Some dflt))) as [st' a] eqn:EA. intros L.
      pose proof (add_ok gv gb t l k x dflt dflt (AVal (Some dflt)) (try_emplace_m hash gv gb t x dflt) (fun t' i _ => rbind (value_at t' i) (fun v => Ok (t', AVal (Some v)))) HR HS E) as H.
      rewrite EA in H. apply H; [|intros t' R' V'|exact L].
      * destruct (try_new gb t x dflt T LK). destruct gv; assumption.
      * exists t'. assert (N : nthv (m_values t') (len (m_values t)) = Some (x, dflt)) by (rewrite V'; apply last_nthv).
        rewrite (value_at_nthv _ _ _ _ N). split; [reflexivity|]. split; [exact R'|reflexivity].
  - specialize (LK x). destruct (lookup l x) as [u|] eqn:E.
    + destruct LK as (i & N). intros _. rewrite (try_present gv gb t x dflt i u T N). unfold entered. cbn [rbind].
      pose proof (nthv_range _ _ _ N) as Ri. rewrite (proj2 (Z.ltb_ge i 0)) by lia. rewrite (proj2 (Z.leb_gt _ i)) by lia. cbn [orb rbind].
      eexists. split; [reflexivity|]. split; [eapply R_set; eassumption|exact HS].
    + destruct (add gv gb l k x dflt v ANone) as [st' a] eqn:EA. intros L.
      pose proof (add_ok gv gb t l k x dflt v ANone (try_emplace_m hash gv gb t x dflt) (fun t' i _ =>
        if (i <? 0) || (Z.of_nat (length (m_values t')) <=? i) then Bad OutOfBounds
        else Ok (mk_table (set_nth (m_values t') (Z.to_nat i) (x, v)) (m_buckets t') (m_shifts t') (m_cap t'), ANone)) HR HS E) as H.
      rewrite EA in H. apply H; [|intros t' R' V'|exact L].
      * destruct (try_new gb t x dflt T LK). destruct gv; assumption.
      * assert (N : nthv (m_values t') (len (m_values t)) = Some (x, dflt)) by (rewrite V'; apply last_nthv).
        pose proof (nthv_range _ _ _ N) as Ri. rewrite (proj2 (Z.ltb_ge (len (m_values t)) 0)) by lia. rewrite (proj2 (Z.leb_gt _ (len (m_values t)))) by lia. cbn [orb].
        eexists. split; [reflexivity|]. split; [|reflexivity]. pose proof (R_set hash _ _ _ _ _ v R' N) as HR2.
        assert (EQ : bind (bind l x dflt) x v = bind l x v).
        { unfold bind, without. cbn [filter fst]. rewrite Z.eqb_refl. cbn [negb]. f_equal.
          fold (without l x). rewrite (without_none l x) by exact E. apply without_none. exact E. }
        rewrite EQ in HR2. exact HR2.
  - specialize (LK x). destruct (lookup l x) as [u|] eqn:E.
    + destruct LK as (i & N). destruct gv; intros _.
      * rewrite (emplace_present gb t x v i u T N). unfold entered. cbn [rbind]. rewrite (value_at_nthv _ _ _ _ N). cbn [rbind].
        exists (Live t). split; [reflexivity|split; assumption].
      * exists (Live t). split; [reflexivity|split; assumption].
    + destruct (add gv gb l k x v v (AFlag true (Some v))) as [st' a] eqn:EA. intros L.
      pose proof (add_ok gv gb t l k x v v (AFlag true (Some v)) (emplace_m hash gv gb t x v) (fun t' i b => rbind (value_at t' i) (fun w => Ok (t', AFlag b (Some w)))) HR HS E) as H.
      rewrite EA in H. apply H; [|intros t' R' V'|exact L].
      * destruct gv; [apply emplace_new; assumption|reflexivity].
      * exists t'. assert (N : nthv (m_values t') (len (m_values t)) = Some (x, v)) by (rewrite V'; apply last_nthv).
        rewrite (value_at_nthv _ _ _ _ N). split; [reflexivity|]. split; [exact R'|reflexivity].
  - cbv zeta. cbn [entries]. intros L. apply PLAIN; [|exact L]. cbn [step]. intros t' a.
    destruct (erase hash t x) as [[t1 n]| | |] eqn:E; cbn [rbind]; try discriminate. intros H; injection H as <- _. eapply erase_shifts; exact E.
  - cbv zeta. cbn [entries]. intros L. apply PLAIN; [|exact L]. cbn [step]. intros t' a H; injection H as <- _; reflexivity.
  - pose proof (R_perm _ _ _ HR) as P. destruct l as [|e l].
    + apply Permutation_sym, Permutation_nil in P. unfold copy_m. rewrite P. destruct gb; intros _; cbn [rbind].
      * exists (Live empty_table). split; [reflexivity|]. split; [apply R_empty|reflexivity].
      * eexists. split; [reflexivity|]. constructor.
    + unfold copy_m. destruct (m_values t) as [|e' vs] eqn:EV; [apply Permutation_nil in P; discriminate|].
      destruct gv; cbn [negb rbind]; [|intros _; eexists; split; [reflexivity|constructor]].
      destruct gb; cbn [negb rbind]; intros _.
      * eexists. split; [reflexivity|]. split; [|exact HS].
        destruct (copy_ok hash t T) as (T' & EV'). unfold copy in T', EV'. rewrite EV in T', EV'.
        constructor; [exact T'|apply HR|cbn [m_values]; rewrite <- EV; apply HR|]. intros k' v'. cbn [m_values]. rewrite <- EV. apply HR.
      * eexists. split; [reflexivity|]. exact P.
  - cbv zeta. cbn [entries]. intros L. apply PLAIN; [|exact L]. cbn [step]. intros t' a H; injection H as <- _; reflexivity.
Qed.

Lemma step_mem_null gv gb vs sh l o : Permutation vs l ->
  match spec_mem dflt gv gb (Broken l) o with
  | None => null_step gv gb vs sh o = Bad NullDeref
  | Some (st', a) => exists s', null_step gv gb vs sh o = Ok (s', a) /\ rel s' st'
  end.
Proof.
  intros P. assert (CV : match l with [] => vs = [] | _ => vs <> [] end).
  { destruct l; [apply Permutation_nil, Permutation_sym; exact P|]. intros ->. apply Permutation_nil in P. discriminate. }
  assert (LE : Z.of_nat (length vs) = count l) by (unfold count; rewrite (Permutation_length P); reflexivity).
  destruct o as [x|x|x|x v|x v|x| | |]; cbn [spec_mem null_step].
  1,2,6: destruct l; [subst vs; eexists; split; [reflexivity|constructor]|destruct vs; [congruence|reflexivity]].
  - reflexivity.
  - reflexivity.
  - destruct gv; [reflexivity|]. eexists. split; [reflexivity|exact P].
  - eexists. split; [reflexivity|constructor].
  - unfold copy_m. destruct l.
    + subst vs. destruct gb; cbn [rbind].
      * exists (Live empty_table). split; [reflexivity|]. split; [apply R_empty|reflexivity].
      * eexists. split; [reflexivity|constructor].
    + destruct vs; [congruence|]. destruct gv; cbn [negb rbind]; [|eexists; split; [reflexivity|constructor]].
      destruct gb; cbn [negb rbind]; [reflexivity|]. eexists. split; [reflexivity|exact P].
  - rewrite LE. eexists. split; [reflexivity|exact P].
Qed.

Lemma small_now n st (os : list (bool * bool * op V)) : stays_small n dflt st os -> count (entries st) <= n.
Proof. destruct os; intros H; apply H. Qed.
Lemma mems_ok os : forall s st, rel s st -> stays_small limit dflt st os ->
  match spec_mems dflt st os with
  | None => mem_steps hash dflt s os = Bad NullDeref
  | Some (st', a) => exists s', mem_steps hash dflt s os = Ok (s', a) /\ rel s' st'
  end.
Proof.
  induction os as [|[[gv gb] o] os IH]; intros s st HR SM; cbn [spec_mems mem_steps]; [exists s; split; [reflexivity|exact HR]|].
  cbn [stays_small] in SM. destruct SM as (S1 & S2).
  assert (ST : match spec_mem dflt gv gb st o with None => mem_step hash dflt gv gb s o = Bad NullDeref
    | Some (st', a) => count (entries st') <= limit -> exists s', mem_step hash dflt gv gb s o = Ok (s', a) /\ rel s' st' end).
  { destruct s as [t|vs sh], st as [l k|l]; try contradiction.
    - destruct HR as (HR & HS). pose proof (step_mem_live gv gb t l k o HR HS S1) as X. destruct (spec_mem _ _ _ _ _) as [[st' a]|]; [exact X|contradiction].
    - pose proof (step_mem_null gv gb vs sh l o HR) as X. destruct (spec_mem _ _ _ _ _) as [[st' a]|]; [intros _; exact X|exact X]. }
  destruct (spec_mem dflt gv gb st o) as [[st1 a]|].
  - destruct (ST (small_now _ _ _ S2)) as (s1 & E1 & R1). rewrite E1. cbn [rbind]. specialize (IH s1 st1 R1 S2).
    destruct (spec_mems dflt st1 os) as [[st2 b]|].
    + destruct IH as (s2 & E2 & R2). rewrite E2. exists s2. split; [reflexivity|exact R2].
    + rewrite IH. reflexivity.
  - rewrite ST. reflexivity.
Qed.
Lemma rel_holds s st : rel s st -> holds s st.
Proof.
  destruct s as [t|vs sh], st as [l k|l]; cbn [rel holds]; auto. intros (HR & HS). split; [eapply R_perm; exact HR|]. split; [apply (r_nd _ _ _ HR)|].
  destruct (t_lt hash t (r_t _ _ _ HR)) as (_ & _ & N & _). unfold size_of in N. rewrite N, HS. f_equal. lia.
Qed.
End Mem.

Lemma start (V : Type) hash : @rel V hash (Live empty_table) (Working [] 2).
Proof. split; [apply R_empty|reflexivity]. Qed.
Lemma history_thm (V : Type) (hash : Z -> Z) (dflt : V) os : (forall k, 0 <= hash k < 2 ^ 64) -> stays_small (2 ^ 24 - 2) dflt (Working [] 2) os ->
  match spec_mems dflt (Working [] 2) os with
  | None => mem_steps hash dflt (Live empty_table) os = Bad NullDeref
  | Some (st, a) => exists s, mem_steps hash dflt (Live empty_table) os = Ok (s, a) /\ holds s st
  end.
Proof.
  intros H S. pose proof (mems_ok hash H dflt os _ _ (start V hash) S) as X. destruct (spec_mems dflt (Working [] 2) os) as [[st a]|]; [|exact X].
  destruct X as (s & E & R0). exists s. split; [exact E|]. eapply rel_holds; exact R0.
Qed.

(** With memory granted the answers are those of a finite map. *)
Lemma spec_granted (V : Type) (dflt : V) os : forall l k,
  exists k', spec_mems dflt (Working l k) (map (fun o => (true, true, o)) os) = Some (Working (fst (spec_run dflt l os)) k', map Some (snd (spec_run dflt l os))).
Proof.
  induction os as [|o os IH]; intros l k; cbn [map spec_mems spec_run]; [exists k; reflexivity|].
  assert (X : exists k1, spec_mem dflt true true (Working l k) o = Some (Working (fst (spec_step dflt l o)) k1, Some (snd (spec_step dflt l o)))).
  { destruct o as [x|x|x|x v|x v|x| | |]; cbn [spec_mem spec_step]; unfold add; cbn [negb].
    all: try (eexists; reflexivity).
    - destruct (lookup l x); [eexists; reflexivity|]. destruct (_ <? _); eexists; reflexivity.
    - destruct (lookup l x); [eexists; reflexivity|]. destruct (_ <? _); eexists; reflexivity.
    - destruct (lookup l x); [eexists; reflexivity|]. destruct (_ <? _); eexists; reflexivity.
    - destruct l; eexists; reflexivity. }
  destruct X as (k1 & ->). destruct (spec_step dflt l o) as [l1 a]. cbn [fst snd]. destruct (IH l1 k1) as (k2 & ->).
  destruct (spec_run dflt l1 os) as [l2 b]. exists k2. reflexivity.
Qed.
Lemma small_granted (V : Type) (dflt : V) n os : forall l k, stays_below n dflt l os -> stays_small n dflt (Working l k) (map (fun o => (true, true, o)) os).
Proof.
  induction os as [|o os IH]; intros l k; cbn [map stays_small stays_below]; intros (A & B); split; auto.
  assert (X : exists k1, spec_mem dflt true true (Working l k) o = Some (Working (fst (spec_step dflt l o)) k1, Some (snd (spec_step dflt l o)))).
  { destruct (spec_granted V dflt [o] l k) as (k1 & E). cbn [map spec_mems spec_run] in E.
    destruct (spec_mem dflt true true (Working l k) o) as [[st a]|]; [|discriminate]. destruct (spec_step dflt l o) as [l1 b]. cbn [fst snd map] in *.
    injection E as -> ->. exists k1. reflexivity. }
  destruct X as (k1 & ->). apply IH. exact B.
Qed.
Lemma granted_thm (V : Type) (hash : Z -> Z) (dflt : V) os : (forall k, 0 <= hash k < 2 ^ 64) -> stays_below (2 ^ 24 - 2) dflt [] os ->
  exists t, mem_steps hash dflt (Live empty_table) (map (fun o => (true, true, o)) os) = Ok (Live t, map Some (snd (spec_run dflt [] os))) /\
    Permutation (m_values t) (fst (spec_run dflt [] os)).
Proof.
  intros H S. pose proof (history_thm V hash dflt _ H (small_granted V dflt _ os [] 2 S)) as X. destruct (spec_granted V dflt os [] 2) as (k & E).
  rewrite E in X. destruct X as (s & E2 & HS). destruct s as [t|vs sh]; [|destruct HS]. exists t. split; [exact E2|apply HS].
Qed.

(** Refused growth. *)
Lemma mem_steps_app (V : Type) (hash : Z -> Z) (dflt : V) os : forall s s' a r, mem_steps hash dflt s os = Ok (s', a) ->
  mem_steps hash dflt s (os ++ r) = rbind (mem_steps hash dflt s' r) (fun '(s2, b) => Ok (s2, a ++ b)).
Proof.
  induction os as [|[[gv gb] x] os IH]; intros s s' a r H.
  - injection H as <- <-. cbn [app]. destruct (mem_steps hash dflt s r) as [[s2 b]| | |]; reflexivity.
  - cbn [app mem_steps] in *. destruct (mem_step hash dflt gv gb s x) as [[s1 b]| | |]; cbn [rbind] in *; try discriminate.
    destruct (mem_steps hash dflt s1 os) as [[s3 c]| | |] eqn:E; cbn [rbind] in *; try discriminate. injection H as <- <-.
    rewrite (IH _ _ _ r E). destruct (mem_steps hash dflt s3 r) as [[s4 d]| | |]; reflexivity.
Qed.

Lemma refused_growth_thm (V : Type) (hash : Z -> Z) (dflt : V) os l k a x v : (forall k, 0 <= hash k < 2 ^ 64) ->
  stays_small (2 ^ 24 - 2) dflt (Working [] 2) os -> spec_mems dflt (Working [] 2) os = Some (Working l k, a) ->
  lookup l x = None -> count l = room k ->
  exists vs sh, mem_steps hash dflt (Live empty_table) (os ++ [(true, false, OEmplace x v)]) = Ok (Null vs sh, a ++ [None]) /\ Permutation vs ((x, v) :: l) /\
    forall gv gb y w, mem_step hash dflt gv gb (Null vs sh) (OFind y) = Bad NullDeref /\ mem_step hash dflt gv gb (Null vs sh) (OAt y) = Bad NullDeref /\
      mem_step hash dflt gv gb (Null vs sh) (OErase y) = Bad NullDeref /\ mem_step hash dflt gv gb (Null vs sh) (OGet y) = Bad NullDeref /\
      mem_step hash dflt gv gb (Null vs sh) (OSet y w) = Bad NullDeref /\ mem_step hash dflt true gb (Null vs sh) (OEmplace y w) = Bad NullDeref /\
      mem_step hash dflt true true (Null vs sh) OCopy = Bad NullDeref /\
      mem_step hash dflt gv gb (Null vs sh) OSize = Ok (Null vs sh, Some (ACount (count l + 1))).
Proof.
  intros H S E LN F. pose proof (mems_ok hash H dflt os _ _ (start V hash) S) as X. rewrite E in X. destruct X as (s & E1 & R1).
  destruct s as [t|vs0 sh0]; [|destruct R1]. destruct R1 as (HR & HS).
  pose proof (lookup_nthv hash t l x HR) as M. rewrite LN in M. pose proof (r_t _ _ _ HR) as T.
  pose proof (emplace_new hash H false t x v T M) as I. unfold inserted in I. rewrite (cap_room hash t k T HS) in I.
  assert (LE : len (m_values t) = count l) by (unfold len, count; rewrite (r_len _ _ _ HR); reflexivity).
  rewrite LE, F, Z.ltb_irrefl in I. destruct I as (sh & I). exists (m_values t ++ [(x, v)]), sh.
  assert (P : Permutation (m_values t ++ [(x, v)]) ((x, v) :: l)).
  { rewrite (Permutation_app_comm (m_values t)). cbn [app]. constructor. eapply R_perm; exact HR. }
  split; [|split; [exact P|]].
  - rewrite (mem_steps_app V hash dflt os _ _ _ _ E1). cbn [mem_steps mem_step live_step]. rewrite I. reflexivity.
  - intros gv gb y w. destruct (m_values t ++ [(x, v)]) as [|e vs] eqn:EV; [destruct (m_values t); discriminate|].
    assert (L : Z.of_nat (length (e :: vs)) = count l + 1) by (rewrite (Permutation_length P); unfold count; cbn [length]; lia).
    cbn [mem_step null_step]. rewrite L. repeat split; reflexivity.
Qed.

(** Construction of the int map from a dict. *)
Lemma lookup_fresh (V : Type) (l : list (Z * V)) pre k v : Permutation l pre -> ~ In k (map fst pre) -> lookup l k = None /\ Permutation (bind l k v) (pre ++ [(k, v)]).
Proof.
  intros P N. assert (E : lookup l k = None).
  { apply lookup_none. intros w H. apply N. apply in_map_iff. exists (k, w). split; [reflexivity|]. eapply Permutation_in; eassumption. }
  split; [exact E|]. unfold bind. rewrite without_none by exact E. rewrite (Permutation_app_comm pre). cbn [app]. constructor. exact P.
Qed.
Lemma room_mono a b : 0 <= a <= b -> room a <= room b.
Proof.
  intros H. unfold room. apply Z.div_le_mono; [lia|]. apply Z.mul_le_mono_nonneg_r; [lia|]. apply Z.pow_le_mono_r; lia.
Qed.
Lemma put_all_ok (V : Type) (hash : Z -> Z) (dflt : V) grants es : (forall k, 0 <= hash k < 2 ^ 64) -> forall pre t l k, rel hash (Live t) (Working l k) -> Permutation l pre ->
  2 <= k -> (2 < k -> room (k - 1) < count pre) -> let_in grants (length pre) ->
  NoDup (map fst (pre ++ es)) -> count (pre ++ es) <= limit ->
  exists r, put_all hash dflt (Live t) es grants (length pre) = Ok r /\ init_ok (pre ++ es) grants r.
Proof.
  intros H. induction es as [|[x v] es IH]; intros pre t l k RL P K2 KL LI ND L.
  - exists (IMade (Live t)). split; [reflexivity|]. rewrite app_nil_r. split; [exact LI|]. exists t. split; [reflexivity|]. destruct RL as (HR & _).
    rewrite (R_perm _ _ _ HR). exact P.
  - cbn [put_all mem_step]. set (n := length pre) in *.
    assert (Nx : ~ In x (map fst pre)).
    { rewrite map_app in ND. cbn [map fst] in ND. apply NoDup_remove_2 in ND. intros Q. apply ND. apply in_or_app. left. exact Q. }
    destruct (lookup_fresh V l pre x v P Nx) as (LN & PB).
    assert (CP : count l = count pre) by (unfold count; rewrite (Permutation_length P); reflexivity).
    assert (CL : count l + 1 <= limit).
    { rewrite CP. unfold count in *. rewrite app_length in L. cbn [length] in L. lia. }
    destruct RL as (HR & HS).
    assert (FULL : count l <= room k).
    { pose proof (t_full _ _ (r_t _ _ _ HR)) as F. rewrite (cap_room hash t k (r_t _ _ _ HR) HS) in F.
      unfold len in F. rewrite (r_len _ _ _ HR) in F. exact F. }
    pose proof (step_mem_live hash H dflt (fst (grants n)) (snd (grants n)) t l k (OEmplace x v) HR HS ltac:(lia)) as ST. cbn [spec_mem] in ST. rewrite LN in ST.
    unfold add in ST. destruct (fst (grants n)) eqn:G1; cbn [negb] in ST.
    + assert (GOOD : forall k', 2 <= k' -> (2 < k' -> room (k' - 1) < count pre + 1) -> (grows (Z.of_nat n) -> snd (grants n) = true) ->
        (exists s', live_step hash dflt true (snd (grants n)) t (OEmplace x v) = Ok (s', Some (AFlag true (Some v))) /\ rel hash s' (Working (bind l x v) k')) ->
        exists r, rbind (live_step hash dflt true (snd (grants n)) t (OEmplace x v)) (fun '(s', a) => match a with None => Ok (IRaises s') | Some _ => put_all hash dflt s' es grants (S n) end) = Ok r /\
        init_ok (pre ++ (x, v) :: es) grants r).
      { intros k' K2' KL' GR (s' & E & R1). rewrite E. cbn [rbind]. destruct s' as [t'|vs sh]; [|destruct R1].
        assert (A : (pre ++ [(x, v)]) ++ es = pre ++ (x, v) :: es) by (rewrite <- app_assoc; reflexivity).
        assert (LN' : length (pre ++ [(x, v)]) = S n) by (rewrite app_length; cbn [length]; unfold n; lia).
        destruct (IH (pre ++ [(x, v)]) t' _ k' R1 PB K2') as (r & E2 & Q).
        - intros Q. specialize (KL' Q). unfold count in *. rewrite LN'. unfold n. lia.
        - rewrite LN'. intros i Hi. destruct (Nat.eq_dec i n) as [->|N]; [split; [exact G1|exact GR]|]. apply LI. lia.
        - rewrite A. exact ND.
        - rewrite A. exact L.
        - rewrite LN' in E2. rewrite A in Q. exists r. split; [exact E2|exact Q]. }
      destruct (Z.ltb_spec (count l) (room k)) as [B|B]; [|destruct (snd (grants n)) eqn:G2]; cbn [entries] in ST; rewrite ?bind_len in ST by exact LN.
      * apply (GOOD k); [exact K2|intros Q; specialize (KL Q); lia| |apply ST; exact CL].
        intros (k' & Hk & E). exfalso. unfold n in E. fold (count pre) in E. destruct (Z.le_gt_cases k k') as [D|D].
        -- pose proof (room_mono k k' ltac:(lia)). lia.
        -- pose proof (room_mono k' (k - 1) ltac:(lia)). specialize (KL ltac:(lia)). lia.
      * apply (GOOD (k + 1)); [lia| |reflexivity|apply ST; exact CL]. intros _. replace (k + 1 - 1) with k by lia. lia.
      * destruct (ST CL) as (s' & E & R1). rewrite E. cbn [rbind]. exists (IRaises s'). split; [reflexivity|]. exists pre, (x, v), es. split; [reflexivity|]. split; [exact LI|].
        right. destruct s' as [t'|vs sh]; [destruct R1|]. exists vs, sh. split; [reflexivity|]. fold n. split; [cbn [rel] in R1; rewrite R1; exact PB|].
        split; [exact G1|]. split; [|exact G2]. exists k. split; [exact K2|]. unfold n. fold (count pre). lia.
    + destruct ST as (s' & E & R1); [cbn [entries]; lia|]. rewrite E. cbn [rbind]. exists (IRaises s'). split; [reflexivity|]. exists pre, (x, v), es. split; [reflexivity|].
      split; [exact LI|]. left. destruct s' as [t'|vs sh]; [|destruct R1]. destruct R1 as (R1 & _). exists t'. split; [reflexivity|].
      split; [|exact G1]. rewrite (R_perm _ _ _ R1). exact P.
Qed.
Lemma init_thm (V : Type) (hash : Z -> Z) (dflt : V) grants es : (forall k, 0 <= hash k < 2 ^ 64) -> NoDup (map fst es) -> count es <= 2 ^ 24 - 2 ->
  exists r, init_dict hash dflt true es grants = Ok r /\ init_ok es grants r.
Proof.
  intros H ND L. apply (put_all_ok V hash dflt grants es H [] empty_table [] 2 (start V hash) (perm_nil _)); [lia|lia| |exact ND|exact L].
  intros i Hi. inversion Hi.
Qed.
Lemma refused_value_thm (V : Type) (hash : Z -> Z) (dflt : V) os l k a x v gb : (forall k, 0 <= hash k < 2 ^ 64) ->
  stays_small (2 ^ 24 - 2) dflt (Working [] 2) os -> spec_mems dflt (Working [] 2) os = Some (Working l k, a) ->
  exists t, mem_steps hash dflt (Live empty_table) os = Ok (Live t, a) /\
    mem_step hash dflt false gb (Live t) (OEmplace x v) = Ok (Live t, None) /\
    mem_step hash dflt false gb (Live t) (OGet x) = Ok (Live t, option_map (fun w => AVal (Some w)) (lookup l x)) /\
    (lookup l x = None -> mem_step hash dflt false gb (Live t) (OSet x v) = Ok (Live t, None)).
Proof.
  intros H S E. pose proof (mems_ok hash H dflt os _ _ (start V hash) S) as X. rewrite E in X. destruct X as (s & E1 & R1).
  destruct s as [t|vs0 sh0]; [|destruct R1]. destruct R1 as (HR & HS). pose proof (r_t _ _ _ HR) as T. pose proof (lookup_nthv hash t l x HR) as LK.
  exists t. split; [exact E1|]. split; [reflexivity|]. split.
  - cbn [mem_step live_step]. destruct (lookup l x) as [w|]; cbn [option_map].
    + destruct LK as (i & N). rewrite (try_present hash H false gb t x dflt i w T N). unfold entered. cbn [rbind].
      rewrite (value_at_nthv _ _ _ _ N). reflexivity.
    + rewrite (proj2 (try_new hash H gb t x dflt T LK)). reflexivity.
  - intros LN. rewrite LN in LK. cbn [mem_step live_step]. rewrite (proj2 (try_new hash H gb t x dflt T LK)). reflexivity.
Qed.
