(** Histories over several object lists, for any class whose calls keep counts
    and contents as stated. *)
From Coq Require Import ZArith List Bool Lia.
From Verif Require Import Base PyListSpec ObjModel ObjWorldModel ObjSpec ObjLemmas.
Import ListNotations.
Local Open Scope Z_scope.
Local Arguments Z.of_nat : simpl never.
Local Arguments Z.add : simpl never.
Local Arguments Z.sub : simpl never.

Section Klass.
Variable K : klass.
Variable inv : k_list K -> Prop.

Definition total (ls : list (option (k_list K))) (o : Z) : Z :=
  fold_right (fun s n => match s with Some s => occ (k_items K s) o + n | None => n end) 0 ls.

Lemma total_nonneg ls o : 0 <= total ls o.
Proof. induction ls as [|[s|] ls IH]; cbn [total fold_right]; [lia| |exact IH]. fold (total ls o). pose proof (occ_nonneg (k_items K s) o). lia. Qed.
Lemma total_app a b o : total (a ++ b) o = total a o + total b o.
Proof.
  induction a as [|[s|] a IH]; cbn [app total fold_right]; fold (total b o); [lia| |exact IH].
  fold (total (a ++ b) o). fold (total a o). lia.
Qed.
Lemma total_ge ls : forall l s o, nth_error ls l = Some (Some s) -> occ (k_items K s) o <= total ls o.
Proof.
  induction ls as [|y ls IH]; intros l s o H; [destruct l; discriminate|].
  destruct l as [|l]; cbn [nth_error] in H.
  - injection H as ->. cbn [total fold_right]. fold (total ls o). pose proof (total_nonneg ls o). lia.
  - specialize (IH l s o H). cbn [total fold_right]. fold (total ls o). destruct y as [t|]; [pose proof (occ_nonneg (k_items K t) o)|]; lia.
Qed.
Lemma total_ge2 ls : forall l j s t o, l <> j -> nth_error ls l = Some (Some s) -> nth_error ls j = Some (Some t) ->
  occ (k_items K s) o + occ (k_items K t) o <= total ls o.
Proof.
  induction ls as [|y ls IH]; intros l j s t o N H1 H2; [destruct l; discriminate|].
  destruct l as [|l], j as [|j]; cbn [nth_error] in *.
  - congruence.
  - injection H1 as ->. cbn [total fold_right]. fold (total ls o). pose proof (total_ge ls j t o H2). lia.
  - injection H2 as ->. cbn [total fold_right]. fold (total ls o). pose proof (total_ge ls l s o H1). lia.
  - specialize (IH l j s t o ltac:(congruence) H1 H2). cbn [total fold_right]. fold (total ls o).
    destruct y as [u|]; [pose proof (occ_nonneg (k_items K u) o)|]; lia.
Qed.
Lemma total_set ls : forall l s x o, nth_error ls l = Some (Some s) ->
  total (set_list ls l x) o = total ls o - occ (k_items K s) o + match x with Some t => occ (k_items K t) o | None => 0 end.
Proof.
  induction ls as [|y ls IH]; intros l s x o H; [destruct l; discriminate|].
  destruct l as [|l]; cbn [nth_error set_list] in *.
  - injection H as ->. cbn [total fold_right]. fold (total ls o). destruct x; lia.
  - cbn [total fold_right]. fold (total ls o). fold (total (set_list ls l x) o). rewrite (IH l s x o H). destruct y; lia.
Qed.

(** Every live list satisfies its invariant and holds objects. *)
Definition held_ok (s : option (k_list K)) : Prop := match s with Some s => inv s /\ Forall obj (k_items K s) | None => True end.
Lemma held_set ls : forall l x, Forall held_ok ls -> held_ok x -> Forall held_ok (set_list ls l x).
Proof.
  induction ls as [|y ls IH]; intros l x F X; [constructor|]. inversion F; subst. destruct l; cbn [set_list]; constructor; auto.
Qed.
Lemma held_nth ls : forall l s, Forall held_ok ls -> nth_error ls l = Some (Some s) -> inv s /\ Forall obj (k_items K s).
Proof. intros l s F H. apply nth_error_In in H. rewrite Forall_forall in F. apply (F _ H). Qed.

Record winv (w : world K) : Prop := {
  wi_bal : forall o, w_rc w o = w_ext w o + total (w_lists w) o;
  wi_ext : forall o, 0 <= w_ext w o;
  wi_obj : forall o, 0 < w_ext w o -> obj o;
  wi_held : Forall held_ok (w_lists w) }.

Lemma winv_balanced w : winv w -> balanced w.
Proof. intros W. exact (wi_bal w W). Qed.
Lemma winv_empty : winv (empty_world K).
Proof. constructor; cbn [w_rc w_ext w_lists w_log empty_world]; cbn [total fold_right]; intros; try lia; constructor. Qed.

Variable counted : ocall oarg -> list Z -> bool.
Hypothesis call_ok : forall c s rc d, inv s -> (forall x, 0 <= d x) -> (forall x, rc x = occ (k_items K s) x + d x) ->
  Forall obj (k_items K s) -> pre d c -> counted c (k_items K s) = true -> good (k_items K) inv d (k_call K c s rc).
Definition init_pre (rc : counts) (a : option oarg) : Prop :=
  match a with
  | None => True
  | Some (OSame ys) => ys = []
  | Some OSelfArg => False
  | Some (OList items) => Forall (fun o => obj o /\ 0 < rc o) items
  | Some (OIter items _) => Forall obj items
  | Some OOther => True
  end.
Hypothesis init_ok : forall a rc, (forall x, 0 <= rc x) -> init_pre rc a ->
  exists rc', match py_init a with
  | Ret ys => exists s, k_init K a rc = (Ret s, rc') /\ k_items K s = ys /\ inv s /\ forall x, rc' x = rc x + occ ys x
  | Raise e => k_init K a rc = (Raise e, rc') /\ forall x, rc' x = rc x
  | _ => False
  end.
Hypothesis free_ok : forall s rc, inv s -> Forall obj (k_items K s) -> (forall x, occ (k_items K s) x <= rc x) ->
  exists rc', k_free K s rc = Ret rc' /\ forall x, rc' x = rc x - occ (k_items K s) x.

Lemma possible_held w held made : winv w -> possible w held made = true -> Forall (fun o => obj o /\ 0 < w_ext w o) held /\ Forall obj made.
Proof.
  intros W P. unfold possible in P. apply andb_true_iff in P. destruct P as [A B]. rewrite forallb_forall in A, B. rewrite !Forall_forall.
  split; intros x X.
  - specialize (A x X). cbv beta in A. apply Z.ltb_lt in A. split; [apply (wi_obj w W); exact A|exact A].
  - apply B. exact X.
Qed.

Lemma contents_nth (w : world K) j ys : contents w j = Some ys -> exists t, nth_error (w_lists w) j = Some (Some t) /\ k_items K t = ys.
Proof. unfold contents. destruct (nth_error (w_lists w) j) as [[t|]|]; try discriminate. intros H; injection H as <-. eauto. Qed.

Lemma py_init_items a ys : init_pre (fun _ => 0) a \/ True -> py_init a = Ret ys -> forall rc, init_pre rc a -> Forall obj ys.
Proof.
  intros _ H rc P. destruct a as [a|]; cbn in H; [|injection H as <-; constructor].
  destruct a as [zs| |zs|zs [e|]|]; cbn in *; try discriminate; try injection H as <-; subst; auto; try contradiction; try constructor.
  eapply Forall_impl; [|exact P]. cbn beta; tauto.
Qed.

Lemma resolve_new w a b : winv w -> resolve w None a = Some b -> possible w (arg_held b) (arg_made b) = true ->
  (forall j, a = SObj j -> forall s, contents w j = Some s -> emptyb s = true) -> init_pre (w_rc w) (Some b).
Proof.
  intros W R P C. destruct (possible_held w _ _ W P) as [H M]. destruct a as [j|items|items fin|]; cbn [resolve] in R.
  - destruct (contents w j) as [ys|] eqn:E; [|discriminate]. injection R as <-. cbn. specialize (C j eq_refl ys E). destruct ys; [reflexivity|discriminate].
  - injection R as <-. cbn in *. eapply Forall_impl; [|exact H]. cbn beta. intros x [O X]. split; [exact O|].
    rewrite (wi_bal w W). pose proof (total_nonneg (w_lists w) x). lia.
  - injection R as <-. exact M.
  - injection R as <-. exact I.
Qed.

(** The references besides those of list [l]. *)
Definition others (w : world K) (s : k_list K) : counts := fun o => w_ext w o + (total (w_lists w) o - occ (k_items K s) o).

Lemma call_pre w l s c c' : winv w -> nth_error (w_lists w) l = Some (Some s) -> call_map (resolve w (Some l)) c = Some c' ->
  possible w (call_held c') (call_made c') = true -> pre (others w s) c'.
Proof.
  intros W N M P. destruct (possible_held w _ _ W P) as [H Mk].
  assert (EX : forall ys, Forall (fun o => obj o /\ 0 < w_ext w o) ys -> Forall (fun o => obj o /\ 0 < others w s o) ys).
  { intros ys HH. eapply Forall_impl; [|exact HH]. cbn beta. intros x [O X]. split; [exact O|]. unfold others. pose proof (total_ge _ l s x N). lia. }
  split; [apply EX; exact H|].
  assert (A : forall a b, resolve w (Some l) a = Some b -> Forall (fun o => obj o /\ 0 < w_ext w o) (arg_held b) -> Forall obj (arg_made b) -> pre_arg (others w s) b).
  { intros a b R HH HM. destruct a as [j|items|items fin|]; cbn [resolve] in R.
    - destruct (Nat.eqb_spec j l) as [->|NE]; [injection R as <-; exact I|].
      destruct (contents w j) as [ys|] eqn:E; [|discriminate]. injection R as <-. cbn.
      destruct (contents_nth w j ys E) as (t & Nt & <-). destruct (held_nth _ j t (wi_held w W) Nt) as [_ Ft].
      rewrite Forall_forall in *. intros x X. split; [apply Ft; exact X|]. unfold others.
      pose proof (total_ge2 _ l j s t x ltac:(congruence) N Nt). pose proof (occ_in _ _ X). pose proof (wi_ext w W x). lia.
    - injection R as <-. cbn in *. apply EX. exact HH.
    - injection R as <-. exact HM.
    - injection R as <-. exact I. }
  destruct c; cbn [call_map] in M; try (injection M as <-; exact I);
    try (destruct (resolve w (Some l) a) as [b|] eqn:R; [|discriminate]; cbn [option_map] in M; injection M as <-; cbn [call_arg call_held call_made] in *; exact (A _ _ R H Mk)).
  destruct v as [|e|a]; [injection M as <-; exact I|injection M as <-; exact I|].
  destruct (resolve w (Some l) a) as [b|] eqn:R; [|discriminate]. cbn [option_map] in M. injection M as <-. cbn [call_arg call_held call_made] in *. exact (A _ _ R H Mk).
Qed.

(** A call in a world. *)
Lemma world_call w l s c c' : winv w -> nth_error (w_lists w) l = Some (Some s) -> call_map (resolve w (Some l)) c = Some c' ->
  possible w (call_held c') (call_made c') = true -> counted c' (k_items K s) = true ->
  good (k_items K) inv (others w s) (k_call K c' s (w_rc w)).
Proof.
  intros W N M P C. destruct (held_nth _ l s (wi_held w W) N) as [Is Fs]. apply call_ok; auto.
  - intros x. unfold others. pose proof (total_ge _ l s x N). pose proof (wi_ext w W x). lia.
  - intros x. unfold others. rewrite (wi_bal w W). lia.
  - eapply call_pre; eauto.
Qed.

Lemma new_total v o : total (@result_new (k_list K) v) o = occ (new_items (k_items K) v) o.
Proof. destruct v as [[| | | | |c|]|e|[| | | | |c|] e|u]; cbn; lia. Qed.

Lemma owned_new {C} items (v : outcome (oval C)) (o : Z) : result_owned (observe items v) = result_owned v.
Proof. destruct v as [[| | | | |c|]|e|[| | | | |c|] e|u]; reflexivity. Qed.

Lemma wstep_ok e w : winv w -> counted_event counted w e = true -> exists w', wstep e w = Ret w' /\ winv w'.
Proof.
  intros W CE. destruct e as [o|o|a|l c|l]; cbn [wstep].
  - destruct (is_obj o) eqn:E; cbn [negb]; [|eauto]. eexists. split; [reflexivity|]. constructor; cbn [w_rc w_ext w_lists w_log].
    + intros x. unfold new_ref. rewrite !upd_plus, (wi_bal w W). lia.
    + intros x. unfold new_ref. rewrite upd_plus. pose proof (wi_ext w W x). pose proof (occ_nonneg [o] x). lia.
    + intros x X. unfold new_ref, upd in X. destruct (Z.eqb_spec x o) as [Eo|]; [rewrite Eo; exact E|]. apply (wi_obj w W). exact X.
    + apply (wi_held w W).
  - destruct (Z.leb_spec (w_ext w o) 0); [eauto|]. pose proof (wi_obj w W o ltac:(lia)) as O.
    destruct (decref_ok o (w_rc w) O) as (rc & E & R). { rewrite (wi_bal w W). pose proof (total_nonneg (w_lists w) o). lia. }
    rewrite E. cbn [omap obind]. eexists. split; [reflexivity|]. constructor; cbn [w_rc w_ext w_lists w_log].
    + intros x. rewrite R, upd_minus, (wi_bal w W). lia.
    + intros x. unfold upd. destruct (Z.eqb_spec x o) as [Eo|]; [lia|]. apply (wi_ext w W).
    + intros x X. unfold upd in X. destruct (Z.eqb_spec x o) as [Eo|]; [rewrite Eo; exact O|]. apply (wi_obj w W). exact X.
    + apply (wi_held w W).
  - assert (PRE : forall b, match a with None => Some None | Some a => option_map Some (resolve w None a) end = Some b ->
        possible w match b with Some a => arg_held a | None => [] end match b with Some a => arg_made a | None => [] end = true -> init_pre (w_rc w) b).
    { intros b HB HP. destruct a as [a|]; [|injection HB as <-; exact I].
      destruct (resolve w None a) as [b'|] eqn:RS; [|discriminate]. injection HB as <-. eapply resolve_new; eauto.
      intros j -> s Es. cbn [counted_event] in CE. rewrite Es in CE. exact CE. }
    destruct (match a with None => Some None | Some a => option_map Some (resolve w None a) end) as [b|]; [|eauto].
    specialize (PRE b eq_refl). destruct (possible w _ _); [|eauto]. specialize (PRE eq_refl).
    destruct (init_ok b (w_rc w)) as (rc' & H); [|exact PRE|].
    { intros x. rewrite (wi_bal w W). pose proof (wi_ext w W x). pose proof (total_nonneg (w_lists w) x). lia. }
    pose proof (py_init_items b) as PI. destruct (py_init b) as [ys|e|? ?|u]; try contradiction.
    + destruct H as (s & E & Es & Is & R). rewrite E. eexists. split; [reflexivity|]. constructor; cbn [w_rc w_ext w_lists w_log].
      * intros x. rewrite R, (wi_bal w W), total_app. cbn [total fold_right]. rewrite Es. lia.
      * apply (wi_ext w W).
      * apply (wi_obj w W).
      * apply Forall_app_2; [apply (wi_held w W)|]. constructor; [|constructor]. split; [exact Is|]. rewrite Es. eapply PI; eauto.
    + destruct H as (E & R). rewrite E. eexists. split; [reflexivity|]. constructor; cbn [w_rc w_ext w_lists w_log]; try apply W. intros x. rewrite R. apply W.
  - destruct (nth_error (w_lists w) l) as [[s|]|] eqn:N; [|eauto|eauto]. destruct (call_map (resolve w (Some l)) c) as [c'|] eqn:M; [|eauto].
    destruct (possible w (call_held c') (call_made c')) eqn:P; [|eauto].
    assert (C : counted c' (k_items K s) = true). { cbn [counted_event] in CE. unfold contents in CE at 1. rewrite N, M in CE. exact CE. }
    pose proof (world_call w l s c c' W N M P C) as G. destruct (k_call K c' s (w_rc w)) as [v [s' rc']].
    destruct G as (Dv & Is & Fs & Fn & Fo & Iw & R).
    assert (V : exists w', match v with Undef u => Undef u | _ => Ret {| w_lists := set_list (w_lists w) l (Some s') ++ result_new v; w_rc := rc';
              w_ext := new_refs (result_owned v) (w_ext w); w_log := w_log w ++ [observe (k_items K) v] |} end = Ret w' /\
              w' = {| w_lists := set_list (w_lists w) l (Some s') ++ result_new v; w_rc := rc';
              w_ext := new_refs (result_owned v) (w_ext w); w_log := w_log w ++ [observe (k_items K) v] |}) by (destruct v; try contradiction; eauto).
    destruct V as (w' & E & ->). exists {| w_lists := set_list (w_lists w) l (Some s') ++ result_new v; w_rc := rc';
              w_ext := new_refs (result_owned v) (w_ext w); w_log := w_log w ++ [observe (k_items K) v] |}.
    split; [destruct v; exact E|]. constructor; cbn [w_rc w_ext w_lists w_log].
    + intros x. rewrite new_refs_ok, total_app, (total_set _ l s (Some s') x N), new_total, R. unfold others. lia.
    + intros x. rewrite new_refs_ok. pose proof (wi_ext w W x). pose proof (occ_nonneg (result_owned v) x). lia.
    + intros x X. rewrite new_refs_ok in X. destruct (Z.lt_total 0 (w_ext w x)) as [L|L]; [apply (wi_obj w W); exact L|].
      assert (I0 : In x (result_owned v)) by (apply occ_pos; pose proof (wi_ext w W x); lia). rewrite Forall_forall in Fo. apply Fo. exact I0.
    + apply Forall_app_2; [apply held_set; [apply (wi_held w W)|split; assumption]|].
      destruct v as [[| | | | |n|]|e|[| | | | |n|] e|u]; cbn in *; try constructor; try constructor; try (apply Iw; reflexivity); assumption.
  - destruct (nth_error (w_lists w) l) as [[s|]|] eqn:N; [|eauto|eauto]. destruct (held_nth _ l s (wi_held w W) N) as [Is Fs].
    destruct (free_ok s (w_rc w) Is Fs) as (rc' & E & R).
    { intros x. rewrite (wi_bal w W). pose proof (total_ge _ l s x N). pose proof (wi_ext w W x). lia. }
    rewrite E. cbn [omap obind]. eexists. split; [reflexivity|]. constructor; cbn [w_rc w_ext w_lists w_log].
    + intros x. rewrite R, (wi_bal w W), (total_set _ l s None x N). lia.
    + apply (wi_ext w W).
    + apply (wi_obj w W).
    + apply held_set; [apply (wi_held w W)|exact I].
Qed.

Theorem wrun_ok es : forall w, winv w -> counted_run counted es w = true -> exists w', wrun es w = Ret w' /\ winv w'.
Proof.
  induction es as [|e es IH]; intros w W C; cbn [wrun counted_run] in *; [eauto|].
  apply andb_true_iff in C. destruct C as [CE C]. destruct (wstep_ok e w W CE) as (w1 & E & W1). rewrite E in *. cbn [obind]. apply IH; assumption.
Qed.

(** ** Agreement with Python's lists *)
Variable agrees : ocall oarg -> list Z -> bool.
Hypothesis agrees_counted : forall c s, agrees c s = true -> counted c s = true.
Hypothesis call_agrees : forall c s rc d, inv s -> (forall x, 0 <= d x) -> (forall x, rc x = occ (k_items K s) x + d x) ->
  Forall obj (k_items K s) -> pre d c -> agrees c (k_items K s) = true ->
  (observe (k_items K) (fst (k_call K c s rc)), k_items K (fst (snd (k_call K c s rc)))) = py_obj c (k_items K s).

Record like (w : world K) (p : world PythonClass) : Prop := {
  lk_lists : w_lists p = map (option_map (k_items K)) (w_lists w);
  lk_rc : forall o, w_rc p o = w_rc w o;
  lk_ext : forall o, w_ext p o = w_ext w o;
  lk_log : w_log p = w_log w }.

Lemma like_nth w p l : like w p -> nth_error (w_lists p) l = option_map (option_map (k_items K)) (nth_error (w_lists w) l).
Proof. intros L. rewrite (lk_lists w p L). apply nth_error_map. Qed.
Lemma like_contents w p l : like w p -> contents p l = contents w l.
Proof.
  intros L. unfold contents. rewrite (like_nth w p l L). cbn [k_list PythonClass]. destruct (nth_error (w_lists w) l) as [[s|]|]; reflexivity.
Qed.
Lemma like_resolve w p me a : like w p -> resolve p me a = resolve w me a.
Proof. intros L. destruct a; cbn [resolve]; auto. rewrite (like_contents w p j L). reflexivity. Qed.
Lemma like_call_map w p l (c : ocall sarg) : like w p -> call_map (resolve p (Some l)) c = call_map (resolve w (Some l)) c.
Proof. intros L. destruct c; cbn [call_map]; rewrite ?(like_resolve w p _ _ L); auto. destruct v; auto. rewrite (like_resolve w p _ _ L). reflexivity. Qed.
Lemma like_possible w p held made : like w p -> possible p held made = possible w held made.
Proof.
  intros L. unfold possible. f_equal. induction held as [|o r IH]; cbn [forallb]; [reflexivity|]. rewrite IH, (lk_ext w p L). reflexivity.
Qed.
Lemma map_set {B} (g : option (k_list K) -> option B) ls : forall l x, map g (set_list ls l x) = set_list (map g ls) l (g x).
Proof. induction ls as [|y ls IH]; intros l x; [reflexivity|]. destruct l; cbn [set_list map]; [reflexivity|]. rewrite IH. reflexivity. Qed.
Lemma set_same {C} (ls : list (option C)) : forall l x, nth_error ls l = None -> set_list ls l x = ls.
Proof. induction ls as [|y ls IH]; intros l x H; [reflexivity|]. destruct l; cbn [set_list nth_error] in *; [discriminate|]. rewrite IH; auto. Qed.

Lemma wstep_like e w p : winv w -> like w p -> counted_event agrees w e = true ->
  exists w' p', wstep e w = Ret w' /\ wstep e p = Ret p' /\ winv w' /\ like w' p'.
Proof.
  intros W L CE.
  assert (CC : counted_event counted w e = true).
  { destruct e as [o|o|a|l c|l]; auto. cbn [counted_event] in *. destruct (contents w l); auto. destruct (call_map (resolve w (Some l)) c); auto. }
  destruct (wstep_ok e w W CC) as (w' & E & W'). exists w'.
  assert (GOAL : exists p', wstep e p = Ret p' /\ like w' p'); [|destruct GOAL as (p' & ? & ?); exists p'; auto].
  destruct e as [o|o|a|l c|l]; cbn [wstep] in *.
  - destruct (is_obj o); cbn [negb] in *; injection E as <-; eexists; (split; [reflexivity|]); [|exact L].
    constructor; cbn [w_rc w_ext w_lists w_log]; try apply L; intros x; unfold new_ref; rewrite !upd_plus; f_equal; apply L.
  - rewrite (lk_ext w p L). destruct (Z.leb_spec (w_ext w o) 0); [injection E as <-; eauto|]. pose proof (wi_obj w W o ltac:(lia)) as O.
    assert (PO : 0 < w_rc w o) by (rewrite (wi_bal w W); pose proof (total_nonneg (w_lists w) o); lia).
    destruct (decref_ok o (w_rc w) O PO) as (rc & E1 & R1). destruct (decref_ok o (w_rc p) O) as (rc2 & E2 & R2); [rewrite (lk_rc w p L); exact PO|].
    rewrite E1 in E. rewrite E2. cbn [omap obind] in *. injection E as <-. eexists. split; [reflexivity|]. constructor; cbn [w_rc w_ext w_lists w_log]; try apply L.
    + intros x. rewrite R1, R2, (lk_rc w p L). reflexivity.
    + intros x. unfold upd. destruct (x =? o); [reflexivity|]. apply (lk_ext w p L).
  - assert (EA : match a with None => Some None | Some a => option_map Some (resolve p None a) end = match a with None => Some None | Some a => option_map Some (resolve w None a) end).
    { destruct a; [|reflexivity]. rewrite (like_resolve w p _ _ L). reflexivity. }
    rewrite EA. clear EA.
    assert (PRE : forall b, match a with None => Some None | Some a => option_map Some (resolve w None a) end = Some b ->
        possible w match b with Some a => arg_held a | None => [] end match b with Some a => arg_made a | None => [] end = true -> init_pre (w_rc w) b).
    { intros b HB HP. destruct a as [a|]; [|injection HB as <-; exact I].
      destruct (resolve w None a) as [b'|] eqn:RS; [|discriminate]. injection HB as <-. eapply resolve_new; eauto.
      intros j -> s Es. cbn [counted_event] in CC. rewrite Es in CC. exact CC. }
    destruct (match a with None => Some None | Some a => option_map Some (resolve w None a) end) as [b|]; [|injection E as <-; eauto].
    specialize (PRE b eq_refl). rewrite (like_possible w p _ _ L). destruct (possible w _ _); [|injection E as <-; eauto]. specialize (PRE eq_refl).
    destruct (init_ok b (w_rc w)) as (rc' & H); [|exact PRE|].
    { intros x. rewrite (wi_bal w W). pose proof (wi_ext w W x). pose proof (total_nonneg (w_lists w) x). lia. }
    cbn [k_init PythonClass k_list k_items]. destruct (py_init b) as [ys|e|? ?|u]; try contradiction.
    + destruct H as (s & E' & Es & Is & R). rewrite E' in E. injection E as <-. eexists. split; [reflexivity|]. constructor; cbn [w_rc w_ext w_lists w_log].
      * rewrite map_app, (lk_lists w p L). cbn [map option_map]. rewrite Es. reflexivity.
      * intros x. rewrite R, (lk_rc w p L). reflexivity.
      * apply L.
      * rewrite (lk_log w p L), Es. reflexivity.
    + destruct H as (E' & R). rewrite E' in E. injection E as <-. eexists. split; [reflexivity|]. constructor; cbn [w_rc w_ext w_lists w_log]; try apply L.
      * intros x. rewrite R. apply L.
      * rewrite (lk_log w p L). reflexivity.
  - rewrite (like_nth w p l L), (like_call_map w p l c L).
    destruct (nth_error (w_lists w) l) as [[s|]|] eqn:N; cbn [option_map]; [|injection E as <-; eauto|injection E as <-; eauto].
    destruct (call_map (resolve w (Some l)) c) as [c'|] eqn:M; [|injection E as <-; eauto].
    rewrite (like_possible w p _ _ L). destruct (possible w (call_held c') (call_made c')) eqn:P; [|injection E as <-; eauto].
    assert (A : agrees c' (k_items K s) = true). { cbn [counted_event] in CE. unfold contents in CE at 1. rewrite N, M in CE. exact CE. }
    pose proof (world_call w l s c c' W N M P (agrees_counted _ _ A)) as G.
    assert (EQ : (observe (k_items K) (fst (k_call K c' s (w_rc w))), k_items K (fst (snd (k_call K c' s (w_rc w))))) = py_obj c' (k_items K s)).
    { destruct (held_nth _ l s (wi_held w W) N) as [Is Fs]. apply call_agrees with (d := others w s); auto.
      - intros x. unfold others. pose proof (total_ge _ l s x N). pose proof (wi_ext w W x). lia.
      - intros x. unfold others. rewrite (wi_bal w W). lia.
      - eapply call_pre; eauto. }
    destruct (k_call K c' s (w_rc w)) as [v [s' rc']]. cbn [fst snd] in EQ. cbn [k_call PythonClass k_list k_items]. rewrite <- EQ.
    destruct G as (Dv & Is & Fs & Fn & Fo & Iw & R).
    assert (V : w' = {| w_lists := set_list (w_lists w) l (Some s') ++ result_new v; w_rc := rc';
              w_ext := new_refs (result_owned v) (w_ext w); w_log := w_log w ++ [observe (k_items K) v] |}) by (destruct v; congruence).
    subst w'. clear E. eexists. split.
    { destruct v as [x|e|x e|u]; [reflexivity|reflexivity|reflexivity|contradiction]. }
    constructor; cbn [w_rc w_ext w_lists w_log].
    + rewrite map_app, map_set, (lk_lists w p L). destruct v as [[| | | | |n|]|e|[| | | | |n|] e|u]; reflexivity.
    + intros x. rewrite R, (lk_rc w p L), (wi_bal w W). unfold others.
      destruct v as [[| | | | |n|]|e|[| | | | |n|] e|u]; cbn [observe observe_val omap obind result_owned owned new_items occ]; lia.
    + intros x. rewrite !new_refs_ok, (lk_ext w p L). destruct v as [[| | | | |n|]|e|[| | | | |n|] e|u]; reflexivity.
    + rewrite (lk_log w p L). destruct v as [[| | | | |n|]|e|[| | | | |n|] e|u]; reflexivity.
  - rewrite (like_nth w p l L). destruct (nth_error (w_lists w) l) as [[s|]|] eqn:N; cbn [option_map]; [|injection E as <-; eauto|injection E as <-; eauto].
    destruct (held_nth _ l s (wi_held w W) N) as [Is Fs].
    destruct (free_ok s (w_rc w) Is Fs) as (rc' & E' & R).
    { intros x. rewrite (wi_bal w W). pose proof (total_ge _ l s x N). pose proof (wi_ext w W x). lia. }
    rewrite E' in E. cbn [omap obind k_free PythonClass] in *. injection E as <-. eexists. split; [reflexivity|]. constructor; cbn [w_rc w_ext w_lists w_log]; try apply L.
    + rewrite map_set, (lk_lists w p L). reflexivity.
    + intros x. rewrite R, (lk_rc w p L). reflexivity.
Qed.

Theorem wrun_like es : forall w p, winv w -> like w p -> counted_run agrees es w = true ->
  exists w' p', wrun es w = Ret w' /\ wrun es p = Ret p' /\ winv w' /\ like w' p'.
Proof.
  induction es as [|e es IH]; intros w p W L C; cbn [wrun counted_run] in *; [eauto 6|].
  apply andb_true_iff in C. destruct C as [CE C]. destruct (wstep_like e w p W L CE) as (w1 & p1 & E & E' & W1 & L1).
  rewrite E in *. rewrite E'. cbn [obind]. apply IH; assumption.
Qed.
Lemma like_empty : like (empty_world K) (empty_world PythonClass).
Proof. constructor; cbn; auto. Qed.
End Klass.
