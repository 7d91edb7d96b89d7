(** Proofs about AsmMapModel. *)
From Coq Require Import ZArith List Bool Lia Permutation.
From Verif Require Import Base HashModel HashSpec HashRun HashCoreProofs HashInvProofs HashStepProofs HashProofs HashMemModel HashMemSpec HashMemProofs AsmMapModel AsmMapSpec.
Import ListNotations.
Local Open Scope Z_scope.
Local Arguments Z.pow : simpl never.
Local Arguments Z.mul : simpl never.
Local Arguments Z.div : simpl never.

Section Jit.
Variable hash : Z -> Z.
Hypothesis hash_range : forall k, 0 <= hash k < 2 ^ 64.
Variable dbg : bool.

Definition same (s : jst) (p : jspec) : Prop :=
  rel hash (jmap s) (Working (jent p) (jk p)) /\ jlive s = jblk p /\ jlocked s = jheld p.

Lemma without_le (l : list (Z * (Z * Z))) a : count (without l a) <= count l.
Proof.
  unfold count, without. induction l as [|x l IH]; cbn [filter length]; [lia|]. destruct (negb _); cbn [length]; lia.
Qed.
Lemma bind_le (l : list (Z * (Z * Z))) a v : count (bind l a v) <= count l + 1.
Proof. unfold bind. pose proof (without_le l a). unfold count in *. cbn [length]. lia. Qed.

Lemma mem_working gv gb m l k o : rel hash m (Working l k) -> count l <= limit ->
  match spec_mem (0, 0) gv gb (Working l k) o with
  | None => False
  | Some (st', a) => count (entries st') <= limit -> exists m', mem_step hash (0, 0) gv gb m o = Ok (m', a) /\ rel hash m' st'
  end.
Proof.
  intros HR L. destruct m as [t|]; [|destruct HR]. destruct HR as (R1 & R2). exact (step_mem_live hash hash_range (0, 0) gv gb t l k o R1 R2 L).
Qed.

Lemma acc_find gv gb m l k a f : rel hash m (Working l k) -> count l <= limit ->
  exists m', access hash gv gb m (OFind a) f = f m' (AVal (lookup l a)) /\ rel hash m' (Working l k).
Proof.
  intros HR L. pose proof (mem_working gv gb m l k (OFind a) HR L) as H. cbn [spec_mem spec_step fst snd entries] in H.
  destruct (H L) as (m' & E & R'). exists m'. unfold access. rewrite E. split; [reflexivity|exact R'].
Qed.
Lemma acc_at gv gb m l k a f : rel hash m (Working l k) -> count l <= limit ->
  exists m', access hash gv gb m (OAt a) f = f m' (match lookup l a with Some v => AVal (Some v) | None => AThrow end) /\ rel hash m' (Working l k).
Proof.
  intros HR L. pose proof (mem_working gv gb m l k (OAt a) HR L) as H. cbn [spec_mem spec_step fst snd entries] in H.
  destruct (H L) as (m' & E & R'). exists m'. unfold access. rewrite E. split; [reflexivity|exact R'].
Qed.
Lemma acc_erase gv gb m l k a f : rel hash m (Working l k) -> count l <= limit ->
  exists m' r, access hash gv gb m (OErase a) f = f m' r /\ rel hash m' (Working (without l a) k).
Proof.
  intros HR L. pose proof (mem_working gv gb m l k (OErase a) HR L) as H. cbn [spec_mem spec_step] in H.
  assert (W : lookup l a = None -> without l a = l) by apply without_none.
  destruct (lookup l a) eqn:E; cbn [fst snd entries] in H.
  - pose proof (without_le l a). destruct H as (m' & E' & R'); [lia|]. exists m', (ACount 1). unfold access. rewrite E'. split; [reflexivity|exact R'].
  - destruct (H L) as (m' & E' & R'). exists m', (ACount 0). unfold access. rewrite E', W by reflexivity. split; [reflexivity|exact R'].
Qed.
Lemma acc_set gv gb m p a v f : rel hash m (Working (jent p) (jk p)) -> count (jent p) + 1 <= limit ->
  match space gv gb p a with
  | None => access hash gv gb m (OSet a v) f = Stops OTerminate
  | Some k => exists m', access hash gv gb m (OSet a v) f = f m' ANone /\ rel hash m' (Working (bind (jent p) a v) k)
  end.
Proof.
  intros HR L. assert (L0 : count (jent p) <= limit) by lia. pose proof (mem_working gv gb m _ _ (OSet a v) HR L0) as H. cbn [spec_mem] in H. unfold space.
  pose proof (fun w => bind_le (jent p) a w) as B.
  destruct (lookup (jent p) a) as [w|]; [|unfold add in H; destruct gv; cbn [negb] in *; [destruct (count (jent p) <? room (jk p)); [|destruct gb]|]];
    cbn [fst snd entries] in H; (destruct H as (m' & E & R'); [first [apply (Z.le_trans _ _ _ (B _) L)|exact L0]|]); unfold access; rewrite E;
    first [reflexivity | exists m'; split; [reflexivity|exact R']].
Qed.
Definition gotten (l : list (Z * (Z * Z))) (a : Z) : list (Z * (Z * Z)) := match lookup l a with Some _ => l | None => bind l a (0, 0) end.
Lemma acc_get gv gb m p a f : rel hash m (Working (jent p) (jk p)) -> count (jent p) + 1 <= limit ->
  match space gv gb p a with
  | None => access hash gv gb m (OGet a) f = Stops OTerminate
  | Some k => exists m', access hash gv gb m (OGet a) f = f m' (AVal (Some (match lookup (jent p) a with Some v => v | None => (0, 0) end))) /\ rel hash m' (Working (gotten (jent p) a) k)
  end.
Proof.
  intros HR L. assert (L0 : count (jent p) <= limit) by lia. pose proof (mem_working gv gb m _ _ (OGet a) HR L0) as H. cbn [spec_mem] in H. unfold space, gotten.
  pose proof (fun w => bind_le (jent p) a w) as B.
  destruct (lookup (jent p) a) as [w|]; [|unfold add in H; destruct gv; cbn [negb] in *; [destruct (count (jent p) <? room (jk p)); [|destruct gb]|]];
    cbn [fst snd entries] in H; (destruct H as (m' & E & R'); [first [apply (Z.le_trans _ _ _ (B _) L)|exact L0]|]); unfold access; rewrite E;
    first [reflexivity | exists m'; split; [reflexivity|exact R']].
Qed.
Lemma gotten_without l a : without (gotten l a) a = without l a.
Proof.
  unfold gotten. destruct (lookup l a) eqn:E; [reflexivity|]. unfold bind, without at 1. cbn [filter fst]. rewrite Z.eqb_refl. cbn [negb].
  fold (without (without l a) a). rewrite !without_none; auto. rewrite without_none; auto.
Qed.
Lemma gotten_le l a : count (gotten l a) <= count l + 1.
Proof. unfold gotten. destruct (lookup l a); [lia|apply bind_le]. Qed.

Definition agrees (r : jres) (q : option jspec * jout) : Prop :=
  match r, q with
  | Goes s o, (Some p, o') => o = o' /\ same s p
  | Stops o, (None, o') => o = o'
  | _, _ => False
  end.
Lemma unmake_ok gv gb s p m k a v ok fail : same s p -> rel hash m (Working (gotten (jent p) a) k) -> count (jent p) + 1 <= limit ->
  agrees (unmake hash gv gb s m a v ok fail)
    (if ok then spec_free p k a v else (Some {| jent := gotten (jent p) a; jk := k; jblk := jblk p; jheld := fail |}, OKept v)).
Proof.
  intros (S1 & S2 & S3) HR L. unfold unmake, spec_free, known. rewrite S2. destruct ok; cbn [negb].
  - destruct (existsb (Z.eqb a) (jblk p)); cbn [negb]; [|reflexivity].
    pose proof (gotten_le (jent p) a).
    destruct (acc_erase gv gb m _ k a (fun m' _ => Goes {| jmap := m'; jlive := filter (fun x => negb (x =? a)) (jblk p); jlocked := jlocked s |} (ODone v)) HR) as (m' & r & E & R'); [lia|].
    rewrite E. rewrite gotten_without in R'. cbn [agrees]. split; [reflexivity|]. split; [exact R'|]. split; [reflexivity|exact S3].
  - cbn [agrees]. split; [reflexivity|]. split; [exact HR|]. split; reflexivity.
Qed.

Lemma jstep_ok gv gb s p c : same s p -> count (jent p) + 1 <= limit -> agrees (jstep hash dbg gv gb s c) (spec_call dbg gv gb p c).
Proof.
  intros SM L. pose proof SM as (S1 & S2 & S3). assert (L0 : count (jent p) <= limit) by lia.
  assert (SAME : forall o, agrees (Goes s o) (Some p, o)) by (intros o; cbn [agrees]; auto).
  assert (PUT : forall m a v h, rel hash m (Working (jent p) (jk p)) -> h = jheld p ->
    agrees (access hash gv gb m (OSet a v) (fun m' _ => Goes {| jmap := m'; jlive := a :: jlive s; jlocked := h |} (OPtr a))) (spec_make gv gb p a v)).
  { intros m a v h HR ->. unfold spec_make.
    pose proof (acc_set gv gb m p a v (fun m' _ => Goes {| jmap := m'; jlive := a :: jlive s; jlocked := jheld p |} (OPtr a)) HR L) as P.
    destruct (space gv gb p a) as [k|]; [|rewrite P; reflexivity]. destruct P as (m' & -> & R'). cbn [agrees]. split; [reflexivity|].
    split; [exact R'|]. split; [cbn [jlive jblk]; rewrite S2; reflexivity|reflexivity]. }
  destruct c as [size alloc prot|size alloc prot|a ok|a ok]; cbn [jstep spec_call].
  - destruct (size =? 0); [destruct alloc; apply SAME|]. unfold block, new_block, known. destruct alloc as [a|]; [|apply SAME].
    unfold usable. rewrite S2. destruct ((0 <? a) && negb (existsb (Z.eqb a) (jblk p))); cbn [negb]; [|apply SAME].
    destruct prot as [q|]; [|apply SAME]. rewrite S3. destruct (jheld p) eqn:HH; [reflexivity|]. rewrite <- S2. destruct dbg.
    + match goal with |- agrees (access _ _ _ _ _ ?f) _ => destruct (acc_find gv gb (jmap s) (jent p) (jk p) a f S1 L0) as (m' & -> & R') end.
      destruct (lookup (jent p) a); [reflexivity|]. apply PUT; [exact R'|reflexivity].
    + destruct (lookup (jent p) a); (apply PUT; [exact S1|reflexivity]).
  - unfold block, new_block, known. destruct alloc as [a|]; [|apply SAME].
    unfold usable. rewrite S2. destruct ((0 <? a) && negb (existsb (Z.eqb a) (jblk p))); cbn [negb]; [|apply SAME].
    destruct prot as [q|]; [|apply SAME]. rewrite <- S2. apply PUT; [exact S1|exact S3].
  - rewrite S3. destruct (jheld p) eqn:HH; [reflexivity|].
    match goal with |- agrees (access _ _ _ _ _ ?f) _ => destruct (acc_at gv gb (jmap s) (jent p) (jk p) a f S1 L0) as (m' & -> & R') end.
    pose proof (fun v => unmake_ok gv gb s p m' (jk p) a v ok true SM) as U. unfold gotten in U. destruct (lookup (jent p) a) as [v|].
    + exact (U v R' L).
    + cbn [agrees]. split; [reflexivity|]. split; [exact R'|]. split; [exact S2|reflexivity].
  - pose proof (acc_get gv gb (jmap s) p a (fun m r => match r with AVal (Some v) => unmake hash gv gb s m a v ok (jlocked s) | _ => Stops OBad end) S1 L) as G.
    destruct (space gv gb p a) as [k|]; [|rewrite G; reflexivity]. destruct G as (m' & -> & R').
    pose proof (unmake_ok gv gb s p m' k a (match lookup (jent p) a with Some v => v | None => (0, 0) end) ok (jlocked s) SM R' L) as U. rewrite S3 in *. exact U.
Qed.

Lemma jrun_ok cs : forall s p, same s p -> few (2 ^ 24 - 3) dbg p cs -> jrun hash dbg s cs = spec_calls dbg p cs.
Proof.
  induction cs as [|[[gv gb] c] cs IH]; intros s p SM F; [reflexivity|]. cbn [few] in F. destruct F as (L & F). cbn [jrun spec_calls].
  assert (L' : count (jent p) + 1 <= limit) by (unfold limit; lia).
  pose proof (jstep_ok gv gb s p c SM L') as A. destruct (jstep hash dbg gv gb s c) as [s' o|o], (spec_call dbg gv gb p c) as [[p'|] o']; cbn [agrees] in A; try contradiction.
  - destruct A as (-> & SM'). f_equal. apply IH; assumption.
  - subst. reflexivity.
Qed.
End Jit.

Lemma calls_thm hash dbg cs : (forall k, 0 <= hash k < 2 ^ 64) -> few (2 ^ 24 - 3) dbg jspec0 cs -> jrun hash dbg jstart cs = spec_calls dbg jspec0 cs.
Proof. intros H F. apply jrun_ok; [exact H| |exact F]. split; [apply start|split; reflexivity]. Qed.

Lemma spec_call_out dbg gv gb p c : snd (spec_call dbg gv gb p c) <> OBad /\ snd (spec_call dbg gv gb p c) <> OLoops /\
  (gv = true -> gb = true -> snd (spec_call dbg gv gb p c) <> OTerminate).
Proof.
  destruct gv, gb, c as [size [a|] pr|size [a|] pr|a ok|a ok]; cbn [spec_call]; unfold spec_make, spec_free, space; cbn [negb];
  repeat match goal with |- context [match ?x with _ => _ end] => lazymatch x with context [match _ with _ => _ end] => fail | _ => destruct x end end; cbn [snd]; (split; [|split]); intros; try discriminate; congruence.
Qed.
Lemma outs_spec dbg cs : forall p, ~ In OBad (spec_calls dbg p cs) /\ ~ In OLoops (spec_calls dbg p cs) /\
  (Forall (fun x => fst x = (true, true)) cs -> ~ In OTerminate (spec_calls dbg p cs)).
Proof.
  induction cs as [|[[gv gb] c] cs IH]; intros p; [cbn; tauto|]. cbn [spec_calls]. destruct (spec_call_out dbg gv gb p c) as (A & B & D).
  destruct (spec_call dbg gv gb p c) as [[p'|] o]; cbn [snd] in *.
  - destruct (IH p') as (I1 & I2 & I3). (split; [|split]); cbn [In]; [tauto|tauto|]. intros F. inversion F as [|? ? F1 F2]; subst. cbn [fst] in F1. injection F1 as -> ->.
    specialize (I3 F2). specialize (D eq_refl eq_refl). tauto.
  - (split; [|split]); cbn [In]; [tauto|tauto|]. intros F. inversion F as [|? ? F1 F2]; subst. cbn [fst] in F1. injection F1 as -> ->. specialize (D eq_refl eq_refl). tauto.
Qed.
Lemma sound_thm hash dbg cs : (forall k, 0 <= hash k < 2 ^ 64) -> few (2 ^ 24 - 3) dbg jspec0 cs ->
  ~ In OBad (jrun hash dbg jstart cs) /\ ~ In OLoops (jrun hash dbg jstart cs).
Proof. intros H F. rewrite (calls_thm hash dbg cs H F). destruct (outs_spec dbg cs jspec0) as (A & B & _). split; assumption. Qed.
Lemma granted_thm hash dbg cs : (forall k, 0 <= hash k < 2 ^ 64) -> few (2 ^ 24 - 3) dbg jspec0 cs -> Forall (fun x => fst x = (true, true)) cs ->
  ~ In OTerminate (jrun hash dbg jstart cs).
Proof. intros H F G. rewrite (calls_thm hash dbg cs H F). destruct (outs_spec dbg cs jspec0) as (_ & _ & D). exact (D G). Qed.
Lemma memory_error_refuted : ~ (forall (hash : Z -> Z) (dbg : bool) cs,
  (forall k, 0 <= hash k < 2 ^ 64) -> few (2 ^ 24 - 3) dbg jspec0 cs -> ~ In OTerminate (jrun hash dbg jstart cs)).
Proof.
  intros H. apply (H (fun _ => 0) true
    [(true, false, JMake 5 (Some 4096) (Some 4)); (true, false, JMake 7 (Some 8192) (Some 4)); (true, false, JMake 9 (Some 12288) (Some 4)); (true, false, JMake 3 (Some 16384) (Some 4))]).
  - intros _. split; [lia|reflexivity].
  - cbn [few]. repeat (split; [vm_compute; discriminate|]). exact I.
  - vm_compute. tauto.
Qed.
