(** Histories of the two object list classes. *)
From Coq Require Import ZArith List Bool Lia.
From Verif Require Import Base PyListSpec ArrayListModel StdListModel StdListProofs LinkedListModel LinkedListProofs
  ObjModel ObjArrayModel ObjLinkedModel ObjWorldModel ObjSpec ObjLemmas ObjArrayProofs ObjWorldProofs ObjLinkedProofs.
Import ListNotations.
Local Open Scope Z_scope.
Local Arguments Z.pow : simpl never.
Local Arguments Z.add : simpl never.
Local Arguments Z.sub : simpl never.
Local Arguments Z.of_nat : simpl never.

Lemma observe_id (v : outcome (oval (list Z))) : observe (fun s => s) v = v.
Proof. destruct v as [[]| |[]|]; reflexivity. Qed.

(** ** Construction and destruction *)
Lemma iter_fail items rc : (forall x, 0 <= rc x) -> Forall obj items ->
  exists rc', decref_all items (new_refs items rc) = Ret rc' /\ forall x, rc' x = rc x.
Proof.
  intros P F. destruct (decref_all_ok items (new_refs items rc) F) as (rc' & E & R).
  { intros x _. rewrite new_refs_ok. specialize (P x). lia. }
  exists rc'. split; [exact E|]. intros x. rewrite R, new_refs_ok. lia.
Qed.

Section Array.
Variable f : cpu.
Let K := ArrayClass f.
Let inv := fun _ : k_list K => True.

Lemma a_call_good c s rc d : inv s -> (forall x, 0 <= d x) -> (forall x, rc x = occ (k_items K s) x + d x) ->
  Forall obj (k_items K s) -> pre d c -> a_counted c (k_items K s) = true -> good (k_items K) inv d (k_call K c s rc).
Proof.
  intros _ D R F P C. cbn in *. assert (Hl : zlen s <= SSIZE_MAX).
  { unfold a_counted in C. apply andb_true_iff in C. destruct C as [C _]. apply Z.leb_le in C. exact C. }
  apply (a_call_ok f s rc d D R F Hl c P C).
Qed.
Lemma a_init_good a rc : (forall x, 0 <= rc x) -> init_pre rc a ->
  exists rc', match py_init a with
  | Ret ys => exists s, k_init K a rc = (Ret s, rc') /\ k_items K s = ys /\ inv s /\ forall x, rc' x = rc x + occ ys x
  | Raise e => k_init K a rc = (Raise e, rc') /\ forall x, rc' x = rc x
  | _ => False
  end.
Proof.
  intros P I. destruct a as [[ys| |items|items [e|]|]|]; cbn [k_init K ArrayClass a_init py_init items_of k_items] in *.
  - cbn in I. subst. exists rc. exists (@nil Z). split; [reflexivity|]. split; [reflexivity|]. split; [exact Logic.I|]. intros x. cbn [occ]. lia.
  - destruct I.
  - cbn in I. destruct (incref_all_ok items rc I) as (rc' & E & R). rewrite E. exists rc', items. split; [reflexivity|]. split; [reflexivity|]. split; [exact Logic.I|exact R].
  - cbn in I. destruct (iter_fail items rc P I) as (rc' & E & R). rewrite E. exists rc'. split; [reflexivity|exact R].
  - exists (new_refs items rc), items. split; [reflexivity|]. split; [reflexivity|]. split; [exact Logic.I|]. intros x. apply new_refs_ok.
  - exists rc. split; [reflexivity|]. reflexivity.
  - exists rc, (@nil Z). split; [reflexivity|]. split; [reflexivity|]. split; [exact Logic.I|]. intros x. cbn [occ]. lia.
Qed.
Lemma a_free_good s rc : inv s -> Forall obj (k_items K s) -> (forall x, occ (k_items K s) x <= rc x) ->
  exists rc', k_free K s rc = Ret rc' /\ forall x, rc' x = rc x - occ (k_items K s) x.
Proof. intros _ F H. cbn in *. apply decref_all_ok; [exact F|]. intros x _. apply H. Qed.
Lemma a_call_agrees c s rc d : inv s -> (forall x, 0 <= d x) -> (forall x, rc x = occ (k_items K s) x + d x) ->
  Forall obj (k_items K s) -> pre d c -> a_agrees c (k_items K s) = true ->
  (observe (k_items K) (fst (k_call K c s rc)), k_items K (fst (snd (k_call K c s rc)))) = py_obj c (k_items K s).
Proof.
  intros _ D R F P A. cbn in *. assert (C : a_counted c s = true) by (unfold a_agrees in A; apply andb_true_iff in A; tauto).
  assert (Hl : zlen s <= SSIZE_MAX).
  { unfold a_counted in C. apply andb_true_iff in C. destruct C as [C _]. apply Z.leb_le in C. exact C. }
  destruct (a_call_ok f s rc d D R F Hl c P C) as [_ Q]. rewrite observe_id. apply Q, A.
Qed.

Theorem a_history es : counted_run a_counted es (empty_world K) = true ->
  exists w, wrun es (empty_world K) = Ret w /\ winv K inv w.
Proof.
  intros C. apply (wrun_ok K inv a_counted a_call_good a_init_good a_free_good es); [apply winv_empty|exact C].
Qed.
End Array.

Section Linked.
Let K := LinkedClass.
Let inv : k_list K -> Prop := lwf.

Lemma new_list_wf (s : slist Z) : wf s -> lwf (new_list s).
Proof. intros H. exact H. Qed.
Lemma l_call_good c s rc d : inv s -> (forall x, 0 <= d x) -> (forall x, rc x = occ (k_items K s) x + d x) ->
  Forall obj (k_items K s) -> pre d c -> l_counted c (k_items K s) = true -> good (k_items K) inv d (k_call K c s rc).
Proof.
  intros W D R F P C. cbn in *. assert (Hl : zlen (vals s) <= SSIZE_MAX).
  { unfold l_counted in C. apply andb_true_iff in C. destruct C as [C _]. apply Z.leb_le in C. exact C. }
  apply (l_call_ok s rc d W D R F Hl c P C).
Qed.
Lemma l_init_good a rc : (forall x, 0 <= rc x) -> init_pre rc a ->
  exists rc', match py_init a with
  | Ret ys => exists s, k_init K a rc = (Ret s, rc') /\ k_items K s = ys /\ inv s /\ forall x, rc' x = rc x + occ ys x
  | Raise e => k_init K a rc = (Raise e, rc') /\ forall x, rc' x = rc x
  | _ => False
  end.
Proof.
  intros P I. assert (CP : forall ys : list Z, wf (copy_of ys) /\ values (copy_of ys) = ys) by (intros ys; apply copy_of_ok).
  destruct a as [[ys| |items|items [e|]|]|]; cbn [k_init K LinkedClass l_init py_init items_of k_items] in *.
  - cbn in I. subst. exists rc. exists (new_list (copy_of [])). split; [reflexivity|]. split; [reflexivity|]. split; [apply (CP [])|]. intros x. cbn [occ]. lia.
  - destruct I.
  - cbn in I. destruct (incref_all_ok items rc I) as (rc' & E & R). rewrite E. exists rc', (new_list (copy_of items)). split; [reflexivity|].
    split; [apply CP|]. split; [apply CP|exact R].
  - cbn in I. destruct (iter_fail items rc P I) as (rc' & E & R). rewrite E. exists rc'. split; [reflexivity|exact R].
  - exists (new_refs items rc), (new_list (copy_of items)). split; [reflexivity|]. split; [apply CP|]. split; [apply CP|]. intros x. apply new_refs_ok.
  - exists rc. split; [reflexivity|]. reflexivity.
  - exists rc, (new_list empty). split; [reflexivity|]. split; [reflexivity|]. split; [apply (@wf_empty Z)|]. intros x. cbn [occ]. lia.
Qed.
Lemma l_free_good s rc : inv s -> Forall obj (k_items K s) -> (forall x, occ (k_items K s) x <= rc x) ->
  exists rc', k_free K s rc = Ret rc' /\ forall x, rc' x = rc x - occ (k_items K s) x.
Proof. intros _ F H. cbn in *. apply decref_all_ok; [exact F|]. intros x _. apply H. Qed.
Lemma l_call_agrees c s rc d : inv s -> (forall x, 0 <= d x) -> (forall x, rc x = occ (k_items K s) x + d x) ->
  Forall obj (k_items K s) -> pre d c -> l_agrees c (k_items K s) = true ->
  (observe (k_items K) (fst (k_call K c s rc)), k_items K (fst (snd (k_call K c s rc)))) = py_obj c (k_items K s).
Proof.
  intros W D R F P A. cbn in *. assert (C : l_counted c (vals s) = true) by (unfold l_agrees in A; apply andb_true_iff in A; tauto).
  assert (Hl : zlen (vals s) <= SSIZE_MAX).
  { unfold l_counted in C. apply andb_true_iff in C. destruct C as [C _]. apply Z.leb_le in C. exact C. }
  destruct (l_call_ok s rc d W D R F Hl c P C) as [_ Q]. apply Q, A.
Qed.
End Linked.

(** ** The theorems on histories *)
Lemma live_counts {K} inv (w : world K) : winv K inv w -> forall j s, contents w j = Some s -> Forall (fun o => 0 < w_rc w o) s.
Proof.
  intros W j s E. destruct (contents_nth K w j s E) as (t & N & <-). rewrite Forall_forall. intros x X.
  rewrite (wi_bal K inv w W). pose proof (total_ge K _ j t x N). pose proof (occ_in _ _ X). pose proof (wi_ext K inv w W x). lia.
Qed.
Lemma history_balanced K inv counted es :
  (counted_run counted es (empty_world K) = true -> exists w, wrun es (empty_world K) = Ret w /\ winv K inv w) ->
  counted_run counted es (empty_world K) = true ->
  exists w, wrun es (empty_world K) = Ret w /\ balanced w /\ forall j s, contents w j = Some s -> Forall (fun o => 0 < w_rc w o) s.
Proof.
  intros H C. destruct (H C) as (w & E & W). exists w. split; [exact E|]. split; [exact (winv_balanced K inv w W)|exact (live_counts inv w W)].
Qed.

Theorem a_balanced f es : counted_run a_counted es (empty_world (ArrayClass f)) = true ->
  exists w, wrun es (empty_world (ArrayClass f)) = Ret w /\ balanced w /\
    forall j s, contents w j = Some s -> Forall (fun o => 0 < w_rc w o) s.
Proof. apply (history_balanced _ (fun _ => True)). apply a_history. Qed.
Theorem l_balanced es : counted_run l_counted es (empty_world LinkedClass) = true ->
  exists w, wrun es (empty_world LinkedClass) = Ret w /\ balanced w /\
    forall j s, contents w j = Some s -> Forall (fun o => 0 < w_rc w o) s.
Proof.
  apply (history_balanced LinkedClass lwf). intros C.
  apply (wrun_ok LinkedClass lwf l_counted l_call_good l_init_good l_free_good es); [apply winv_empty|exact C].
Qed.

Lemma like_same_run {K} (w : world K) p : like K w p -> same_run w p.
Proof.
  intros L. split; [|split].
  - symmetry. apply L.
  - intros j. symmetry. apply like_contents. exact L.
  - intros o. symmetry. apply L.
Qed.
Theorem a_like_python f es : counted_run a_agrees es (empty_world (ArrayClass f)) = true ->
  exists w p, wrun es (empty_world (ArrayClass f)) = Ret w /\ wrun es (empty_world PythonClass) = Ret p /\ same_run w p.
Proof.
  intros C. destruct (wrun_like (ArrayClass f) (fun _ => True) a_counted (a_call_good f) (a_init_good f) (a_free_good f) a_agrees) with (es := es)
    (w := empty_world (ArrayClass f)) (p := empty_world PythonClass) as (w & p & E1 & E2 & _ & L); auto.
  - intros c s A. unfold a_agrees in A. apply andb_true_iff in A. tauto.
  - exact (a_call_agrees f).
  - apply winv_empty.
  - apply like_empty.
  - exists w, p. split; [exact E1|]. split; [exact E2|]. apply like_same_run, L.
Qed.
Theorem l_like_python es : counted_run l_agrees es (empty_world LinkedClass) = true ->
  exists w p, wrun es (empty_world LinkedClass) = Ret w /\ wrun es (empty_world PythonClass) = Ret p /\ same_run w p.
Proof.
  intros C. destruct (wrun_like LinkedClass lwf l_counted l_call_good l_init_good l_free_good l_agrees) with (es := es)
    (w := empty_world LinkedClass) (p := empty_world PythonClass) as (w & p & E1 & E2 & _ & L); auto.
  - intros c s A. unfold l_agrees in A. apply andb_true_iff in A. tauto.
  - exact l_call_agrees.
  - apply winv_empty.
  - apply like_empty.
  - exists w, p. split; [exact E1|]. split; [exact E2|]. apply like_same_run, L.
Qed.
