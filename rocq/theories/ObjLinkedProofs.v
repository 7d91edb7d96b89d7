(** ObjectLinkedList: contents and counts of each call. *)
From Coq Require Import ZArith List Bool Arith Lia.
From Verif Require Import Base PyListSpec ListLemmas ArrayListModel ArrayListProofs StdListModel StdListProofs
  LinkedListModel LinkedListProofs ObjModel ObjArrayModel ObjLinkedModel ObjWorldModel ObjSpec ObjLemmas ObjArrayProofs.
Import ListNotations.
Local Open Scope Z_scope.
Local Arguments Z.pow : simpl never.
Local Arguments Z.of_nat : simpl never.
Local Arguments Z.to_nat : simpl never.
Local Arguments Z.add : simpl never.
Local Arguments Z.sub : simpl never.
Local Arguments Z.mul : simpl never.

Definition lgood := good vals lwf.

(** The result of a linked list call seen as one of an array list call. *)
Definition osim (r : nres) (a : ares) : Prop :=
  observe vals (fst r) = fst a /\ vals (fst (snd r)) = fst (snd a) /\ snd (snd r) = snd (snd a) /\
  lwf (fst (snd r)) /\ (forall c, result_new (fst r) = [Some c] -> lwf c).

Lemma osim_same (v : outcome (oval ll)) l rc : lwf l -> (forall c, v <> Ret (ONew c)) -> (forall c e, v <> RetPending (ONew c) e) ->
  osim (v, (l, rc)) (observe vals v, (vals l, rc)).
Proof.
  intros W N M. split; [reflexivity|]. split; [reflexivity|]. split; [reflexivity|]. split; [exact W|].
  intros c H. destruct v as [[| | | | |n|]|e|[| | | | |n|] e|u]; cbn in H; try discriminate; exfalso; [eapply N|eapply M]; reflexivity.
Qed.
Lemma osim_err e l rc : lwf l -> osim (Raise e, (l, rc)) (Raise e, (vals l, rc)).
Proof. intros W. apply (osim_same (Raise e)); [exact W| |]; discriminate. Qed.
Lemma osim_ub u l rc : lwf l -> osim (Undef u, (l, rc)) (Undef u, (vals l, rc)).
Proof. intros W. apply (osim_same (Undef u)); [exact W| |]; discriminate. Qed.
Lemma osim_put v l' vs rc : lwf l' -> vals l' = vs -> (forall c, v <> ONew c) -> osim (Ret v, (l', rc)) (Ret (observe_val vals v), (vs, rc)).
Proof.
  intros W V N. subst vs. pose proof (osim_same (Ret v) l' rc W) as H. apply H; [|discriminate]. intros c E. injection E as E. apply (N c E).
Qed.
Lemma osim_with {A} (o : outcome A) l rc f g : lwf l -> (forall a, o = Ret a -> osim (f a) (g a)) ->
  osim (owith o l rc f) (owith o (vals l) rc g).
Proof.
  intros W H. destruct o; cbn [owith]; [apply H; reflexivity| | |]; first [apply osim_err|apply osim_ub]; exact W.
Qed.

Lemma osim_good d r a : osim r a -> agood d a -> lgood d r.
Proof.
  destruct r as [v [l rc]], a as [v' [s rc']]. unfold osim. cbn [fst snd]. intros (E1 & <- & <- & W & N) (A1 & _ & A3 & A4 & A5 & _ & A7).
  assert (EO : result_owned v' = result_owned v) by (subst v'; destruct v as [[| | | | |n|]|e|[| | | | |n|] e|u]; reflexivity).
  assert (EN : new_items (fun s : vec => s) v' = new_items vals v) by (subst v'; destruct v as [[| | | | |n|]|e|[| | | | |n|] e|u]; reflexivity).
  rewrite EO, EN in *. split; [subst v'; destruct v; exact A1|]. split; [exact W|]. split; [exact A3|]. split; [exact A4|]. split; [exact A5|].
  split; [exact N|exact A7].
Qed.

Section Sim.
Variables (l : ll) (rc : counts).
Hypothesis W : lwf l.

Lemma read_self : read_all (lst l) (size (lst l)) (begin_ (lst l)) = Ret (vals l).
Proof. rewrite begin_pos, read_all_ok by (auto; lia). cbn [skipn]. rewrite firstn_all2 by (rewrite size_values; lia). reflexivity. Qed.

Lemma to_list_osim : osim (l_to_list l rc) (a_to_list (vals l) rc).
Proof.
  unfold l_to_list, a_to_list. rewrite read_self. cbn [owith]. apply osim_with; auto. intros rc' _. apply (osim_put (OPyList (vals l))); auto. discriminate.
Qed.
Lemma copy_osim : osim (l_copy l rc) (a_copy (vals l) rc).
Proof.
  unfold l_copy, a_copy. fold (vals l). apply osim_with; auto. intros rc' _. destruct (copy_of_ok (A := Z) (vals l)) as (WC & VC).
  split; [cbn; unfold vals at 1; cbn; rewrite VC; reflexivity|]. split; [reflexivity|]. split; [reflexivity|]. split; [exact W|].
  intros c H. injection H as <-. exact WC.
Qed.
Lemma append_osim o : osim (l_append o l rc) (a_append o (vals l) rc).
Proof.
  unfold l_append, a_append. apply osim_with; auto. intros rc' _. destruct (push_back_ok (lst l) o W) as (W1 & V1 & _).
  apply (osim_put ONone); [exact W1|exact V1|discriminate].
Qed.
Lemma add_osim a : osim (l_add a l rc) (a_add a (vals l) rc).
Proof.
  destruct a; cbn [l_add a_add]; try (apply osim_err; exact W).
  all: rewrite read_self; cbn [owith]; apply osim_with; auto; intros rc1 _.
  1: apply osim_with; auto; intros rc2 _.
  all: apply osim_with; auto; intros rc3 _.
  1: apply (osim_put (OPyList (vals l ++ items))); auto; discriminate.
  all: apply osim_err; exact W.
Qed.
Lemma count_osim o : osim (l_count o l rc) (a_count o (vals l) rc).
Proof.
  unfold l_count, a_count. rewrite begin_pos. rewrite (count_ok (lst l) _ W _ 0 (size (lst l))) by lia. cbn [owith skipn]. rewrite std_count_filter.
  apply (osim_put (ONum _)); auto. discriminate.
Qed.
Lemma contains_osim b o : osim (l_contains b o l rc) (a_contains b o (vals l) rc).
Proof.
  unfold l_contains, a_contains. destruct (negb b); [apply (osim_put (OBool false)); auto; discriminate|].
  rewrite find_all, find_all_arr by exact W. cbn [owith]. rewrite (end_pos l).
  rewrite itpos_eqb by (auto; rewrite ?size_vals; try apply find_from_le; lia). unfold zlen. rewrite eqb_of_nat.
  apply (osim_put (OBool _)); auto. discriminate.
Qed.
Lemma insert_osim i o : osim (l_insert i o l rc) (a_insert i o (vals l) rc).
Proof.
  unfold l_insert, a_insert. rewrite lsize_vals. apply osim_with; auto. intros z _. cbv zeta. set (p := if z <? 0 then _ else _).
  assert (Hp : 0 <= p <= zlen (vals l)).
  { unfold p. pose proof (zlen_nonneg (vals l)). destruct (Z.ltb_spec z 0); [lia|]. destruct (Z.ltb_spec (zlen (vals l)) z); lia. }
  clearbody p. rewrite at_pos by exact W. cbn [owith]. unfold zlen in Hp.
  destruct (insert_pos (lst l) (Z.to_nat p) o W) as (s' & E & W' & V' & _); [rewrite size_vals; lia|]. rewrite E. cbn [owith].
  replace (zinsert (vals l) p o) with (zinsert (vals l) (Z.of_nat (Z.to_nat p)) o) by (f_equal; lia). rewrite zinsert_n by lia.
  apply osim_with; auto. intros rc' _. apply (osim_put ONone); [exact W'|exact V'|discriminate].
Qed.
Lemma remove_osim o : osim (l_remove o l rc) (a_remove o (vals l) rc).
Proof.
  unfold l_remove, a_remove. rewrite find_all, find_all_arr by exact W. cbn [owith]. pose proof (find_from_le (fun x => x =? o) (vals l)) as F.
  rewrite (end_pos l). rewrite itpos_eqb by (auto; rewrite ?size_vals; lia). unfold zlen. rewrite eqb_of_nat. cbn [Nat.add].
  destruct (Nat.eqb_spec (find_from (fun x => x =? o) (vals l)) (length (vals l))) as [E|E]; [apply osim_err; exact W|].
  set (p := find_from _ _) in *. destruct (erase_pos (lst l) p W) as (s' & E' & W' & V' & _); [rewrite size_vals; lia|].
  rewrite E'. cbn [owith]. rewrite zerase_n by lia. apply osim_with; auto. intros rc' _. apply (osim_put ONone); [exact W'|exact V'|discriminate].
Qed.
Lemma index_osim o a b : osim (l_index o a b l rc) (a_index o a b (vals l) rc).
Proof.
  unfold l_index, a_index. rewrite lsize_vals. apply osim_with; auto. intros start _. apply osim_with; auto. intros stop _.
  cbv zeta. set (st := if (if start <? 0 then start + zlen (vals l) else start) <? 0 then 0 else _).
  set (en := if zlen (vals l) <? _ then _ else _).
  assert (Hs : 0 <= st). { unfold st. destruct (Z.ltb_spec (if start <? 0 then start + zlen (vals l) else start) 0); lia. }
  assert (He : en <= zlen (vals l)). { unfold en. destruct (Z.ltb_spec (zlen (vals l)) (if stop <? 0 then stop + zlen (vals l) else stop)); lia. }
  clearbody st en. destruct (Z.ltb_spec en st) as [C|C]; [apply osim_err; auto|].
  rewrite !at_pos by exact W. cbn [owith].
  set (p := Z.to_nat st). set (k := Z.to_nat (en - st)). assert (Ep : st = Z.of_nat p) by (unfold p; lia).
  replace (Z.to_nat en) with (p + k)%nat by (unfold p, k; lia). unfold zlen in He.
  assert (Hk : (p + k <= length (vals l))%nat) by (unfold p, k; lia).
  rewrite find_ok by (auto; rewrite ?size_vals; lia). rewrite Ep, std_find_from by lia. cbn [owith].
  fold (vals l). set (f := find_from _ _). assert (Hf : (f <= k)%nat).
  { unfold f. etransitivity; [apply find_from_le|]. rewrite firstn_length. lia. }
  rewrite itpos_eqb by (auto; rewrite size_vals; lia).
  replace (Z.of_nat (p + f) =? en) with (p + f =? p + k)%nat.
  2:{ rewrite <- eqb_of_nat. f_equal. unfold p, k. lia. }
  destruct (Nat.eqb_spec (p + f) (p + k)); [apply osim_err; auto|].
  rewrite begin_pos. pose proof (distance_ok (lst l) W (size (lst l)) 0 (p + f)) as D. cbn [Nat.add] in D.
  rewrite D by (rewrite ?size_vals; lia). cbn [owith]. apply (osim_put (ONum _)); auto; discriminate.
Qed.
Lemma deref_at p : 0 <= p < zlen (vals l) -> deref (lst l) (itpos (lst l) (Z.to_nat p)) = Ret (get_default (vals l) p).
Proof.
  intros B. apply deref_pos; [exact W|]. unfold get_default. fold (vals l). apply nth_error_nth'. unfold zlen in B. lia.
Qed.
Lemma subscript_osim i : osim (l_subscript i l rc) (a_subscript i (vals l) rc).
Proof.
  unfold l_subscript, a_subscript. apply osim_with; auto. intros z _. unfold l_getitem, a_getitem. rewrite lsize_vals. cbv zeta.
  set (p := if z <? 0 then _ else _). rewrite idx_test. destruct (_ && _) eqn:B; cbn [negb]; [|apply osim_err; auto]. apply rel_bounds_dec in B.
  rewrite at_pos by exact W. cbn [obind]. rewrite znth_default, deref_at by exact B. cbn [owith]. apply osim_with; auto. intros rc' _.
  apply (osim_put (OElem _)); auto; discriminate.
Qed.
Lemma slice_read_osim step start n : forall i rc0,
  (forall j, i <= j < i + Z.of_nat n -> 0 <= start + j * step < zlen (vals l)) ->
  l_slice_read (lst l) n i start step rc0 = a_slice_read (vals l) n i start step rc0.
Proof.
  induction n as [|n IH]; intros i rc0 B; cbn [l_slice_read a_slice_read]; [reflexivity|].
  unfold ssz at 1 3. destruct (in_sbits_b 64 (i * step)); cbn [obind]; [|reflexivity].
  unfold ssz. destruct (in_sbits_b 64 (start + i * step)); cbn [obind]; [|reflexivity].
  pose proof (B i ltac:(lia)) as Bi. unfold at_z. destruct (Z.ltb_spec (start + i * step) 0); [lia|].
  rewrite at_pos by exact W. cbn [obind]. rewrite znth_default, deref_at by exact Bi. cbn [or_ub obind].
  destruct (incref (get_default (vals l) (start + i * step)) rc0); cbn [obind]; auto; rewrite IH; auto; intros j Hj; apply B; lia.
Qed.
Lemma getitem_slice_osim sl : zlen (vals l) <= SSIZE_MAX -> osim (l_getitem_slice sl l rc) (a_getitem_slice sl (vals l) rc).
Proof.
  intros Hl. unfold l_getitem_slice, a_getitem_slice. rewrite lsize_vals.
  destruct (unpack_cases sl) as [[E U]|[E (start & stop & step & U)]]; rewrite U; cbn [owith]; [apply osim_err; auto|].
  pose proof (slice_positions_eq (length (vals l)) sl start stop step Hl U) as P. fold (zlen (vals l)) in P.
  destruct (PySlice_AdjustIndices (zlen (vals l)) start stop step) as [[a b] c]. destruct P as (P1 & P2 & P3).
  rewrite slice_read_osim by (intros j Hj; apply P2; lia). apply osim_with; auto. intros [r rc'] _. apply (osim_put (OPyList _)); auto; discriminate.
Qed.
Lemma del_osim i : osim (l_ass_subscript i None l rc) (a_ass_subscript i None (vals l) rc).
Proof.
  unfold l_ass_subscript, a_ass_subscript. apply osim_with; auto. intros z _. unfold l_setitem, a_setitem. rewrite lsize_vals. cbv zeta.
  set (p := if z <? 0 then _ else _). rewrite idx_test. destruct (_ && _) eqn:B; cbn [negb]; [|apply osim_err; auto]. apply rel_bounds_dec in B.
  rewrite at_pos by exact W. cbn [owith]. rewrite deref_at, znth_default by exact B. cbn [obind].
  assert (Hp : (Z.to_nat p < size (lst l))%nat) by (rewrite size_vals; unfold zlen in B; lia).
  destruct (erase_pos (lst l) (Z.to_nat p) W Hp) as (s' & A & W' & V' & _). rewrite A. unfold zlen in B.
  replace (zerase (vals l) p) with (zerase (vals l) (Z.of_nat (Z.to_nat p))) by (f_equal; lia). rewrite zerase_n by lia.
  apply osim_with; auto. intros rc' _. cbn [owith]. apply (osim_put ONone); [exact W'|exact V'|discriminate].
Qed.
Lemma set_osim i o : valid_index (vals l) i = false -> osim (l_ass_subscript i (Some o) l rc) (a_ass_subscript i (Some o) (vals l) rc).
Proof.
  intros V. unfold l_ass_subscript, a_ass_subscript. apply osim_with; auto. intros z Ez. destruct i as [z'|]; [|discriminate].
  cbn [as_index] in Ez. destruct (in_sbits_b 64 z'); [|discriminate]. injection Ez as <-. cbn [valid_index] in V.
  unfold l_setitem, a_setitem. rewrite lsize_vals. cbv zeta. rewrite idx_test.
  replace (if z' <? 0 then zlen (vals l) + z' else z') with (rel (zlen (vals l)) z') by (unfold rel; destruct (z' <? 0); lia).
  rewrite V. cbn [negb]. apply osim_err; auto.
Qed.
Lemma pop_osim a : match a with Some i => valid_index (vals l) i = false | None => True end -> osim (l_pop a l rc) (a_pop a (vals l) rc).
Proof.
  intros HV. unfold l_pop, a_pop. pose proof (nodes_vals l) as NV. destruct (nodes (lst l)) as [|n ns] eqn:E.
  - rewrite (proj1 NV eq_refl) at 1. apply osim_err; auto.
  - assert (NE : vals l <> []) by (intros X; apply NV in X; discriminate). clear NV.
    destruct (vals l) as [|x0 s0] eqn:Es; [contradiction|]. rewrite <- Es in *. clear Es x0 s0.
    destruct a as [[z|id]|].
    + apply osim_with; auto. intros z' Ez. cbn [as_long] in Ez. destruct (in_sbits_b 64 z); [|discriminate]. injection Ez as <-.
      cbv zeta. rewrite lsize_vals. fold (rel (zlen (vals l)) z). rewrite idx_test. cbn [valid_index] in HV. rewrite HV. cbn [negb]. apply osim_err; auto.
    + cbn [as_long owith]. apply osim_err; auto.
    + destruct (exists_last NE) as (s & v & EV). rewrite (back_ok (lst l) v s W EV). cbn [owith].
      destruct (pop_back_ok (lst l) W) as (l' & P & W' & V' & _); [congruence|]. rewrite P. cbn [owith].
      assert (ZN : znth (vals l) (zlen (vals l) - 1) = Some v).
      { rewrite EV. apply znth_mid. rewrite zlen_app. change (zlen [v]) with 1. lia. }
      rewrite ZN. apply (osim_put (OElem v)); [exact W'|exact V'|discriminate].
Qed.
Lemma reverse_osim f : Forall obj (vals l) -> osim (l_reverse l rc) (a_reverse f (vals l) rc).
Proof.
  intros F. rewrite a_reverse_ok by exact F. unfold l_reverse. rewrite begin_pos, (end_pos l).
  destruct (StdListProofs.reverse_ok (size (lst l)) (lst l) [] (vals l) [] W) as (s & E & W' & I & V & _).
  - cbn. rewrite app_nil_r. reflexivity.
  - rewrite size_vals. lia.
  - cbn [length] in E. rewrite E. cbn [owith]. cbn [app] in V. rewrite app_nil_r in V. apply (osim_put ONone); [exact W'|exact V|discriminate].
Qed.
Lemma clear_osim : osim (l_clear l rc) (a_clear (vals l) rc).
Proof.
  unfold l_clear, a_clear. fold (vals l). apply osim_with; auto. intros rc' _. destruct (clear_ok (lst l)) as (W1 & V1 & _).
  apply (osim_put ONone); [exact W1|exact V1|discriminate].
Qed.
End Sim.

(** ** Loops *)
Section Loops.
Variable d : counts.
Hypothesis D : forall x, 0 <= d x.
(** Nodes, objects and counts are in order. *)
Definition okst (s : slist Z) (rc : counts) : Prop :=
  wf s /\ Forall obj (values s) /\ forall x, rc x = occ (values s) x + d x.

Lemma nth_mid {A} (a : list A) x b : nth_error (a ++ x :: b) (length a) = Some x.
Proof. rewrite nth_error_app2, Nat.sub_diag by lia. reflexivity. Qed.
Lemma deref_mid (s : slist Z) a x b : wf s -> values s = a ++ x :: b -> deref s (itpos s (length a)) = Ret x.
Proof. intros W V. apply deref_pos; [exact W|]. rewrite V. apply nth_mid. Qed.

Lemma l_drop_ok b : forall a c s rc, okst s rc -> values s = a ++ b ++ c ->
  exists s' rc', l_drop (length b) (itpos s (length a)) s rc = Ret (s', rc') /\ okst s' rc' /\ values s' = a ++ c.
Proof.
  induction b as [|x b IH]; intros a c s rc (W & F & R) V; cbn [length l_drop].
  - exists s, rc. split; [reflexivity|]. split; [split; auto|]. exact V.
  - rewrite (deref_mid s a x (b ++ c) W V). cbn [obind].
    assert (Ox : obj x). { rewrite V in F. apply Forall_app in F. destruct F as [_ F]. inversion F; assumption. }
    destruct (decref_ok x rc Ox) as (rc1 & E1 & R1). { rewrite R, V, occ_app. cbn [app occ]. rewrite Z.eqb_refl. pose proof (occ_nonneg a x). pose proof (occ_nonneg (b ++ c) x). specialize (D x). lia. }
    rewrite E1. cbn [obind]. assert (Hs : (length a < size s)%nat) by (rewrite size_values, V, !app_length; cbn; lia).
    rewrite next_pos by auto. cbn [obind]. destruct (erase_pos s (length a) W Hs) as (s1 & E2 & W1 & V1 & I1 & _). rewrite E2. cbn [obind].
    assert (IP : itpos s (S (length a)) = itpos s1 (length a)).
    { rewrite !itpos_nth, I1. rewrite size_ids in Hs. pose proof (nth_error_skip (ids s) (length a) 0 Hs) as N. rewrite Nat.add_0_r in N. rewrite N. reflexivity. }
    rewrite IP. rewrite V in V1. cbn [app] in V1. rewrite firstn_app_len, skipn_app_S in V1.
    destruct (IH a c s1 rc1) as (s' & rc' & E & K & V').
    + split; [exact W1|]. split.
      * rewrite V in F. rewrite V1. apply Forall_app in F. destruct F as [F1 F2]. inversion F2; subst. apply Forall_app_2; auto.
      * intros y. rewrite R1, R, V, V1, !occ_app. cbn [app occ]. rewrite ?occ_app. lia.
    + exact V1.
    + exists s', rc'. auto.
Qed.

(** What an element source delivers at position [i] of a list with values [vs]. *)
Definition source (get : getter) (pick : list Z -> Z -> option Z) : Prop := forall s i rc, okst s rc ->
  match pick (values s) i with
  | Some o => exists rc', get s i rc = Ret (o, rc') /\ obj o /\ forall x, rc' x = rc x + occ [o] x
  | None => exists e, get s i rc = Raise e
  end.

Variables (get : getter) (pick : list Z -> Z -> option Z).
Hypothesis G : source get pick.

Lemma l_grow_ok n : forall i a c s rc, okst s rc -> values s = a ++ c ->
  exists r s' rc' new, l_grow get n i (itpos s (length a)) s rc = (r, (s', rc')) /\ okst s' rc' /\ values s' = a ++ new ++ c /\
    (r = Ret tt /\ length new = n \/ exists e, r = Raise e) /\
    (forall ys, (forall vs j, pick vs j = znth ys j) -> 0 <= i -> i + Z.of_nat n <= zlen ys -> r = Ret tt /\ new = firstn n (skipn (Z.to_nat i) ys)).
Proof.
  induction n as [|n IH]; intros i a c s rc K V; cbn [l_grow].
  - exists (Ret tt), s, rc, []. split; [reflexivity|]. split; [exact K|]. split; [exact V|]. split; [left; auto|]. auto.
  - pose proof (G s i rc K) as GG. destruct (pick (values s) i) as [o|] eqn:PK.
    + destruct GG as (rc1 & E1 & Oo & R1). rewrite E1. destruct K as (W & F & R).
      assert (Hs : (length a <= size s)%nat) by (rewrite size_values, V, !app_length; lia).
      destruct (insert_pos s (length a) o W Hs) as (s1 & E2 & W1 & V1 & I1 & _). rewrite E2.
      rewrite V in V1. rewrite firstn_app_len, skipn_app_len in V1.
      assert (IP : itpos s (length a) = itpos s1 (length (a ++ [o]))).
      { rewrite app_length. cbn [length]. rewrite Nat.add_1_r. rewrite !itpos_nth, I1. rewrite nth_error_app2 by (rewrite firstn_length; lia).
        rewrite firstn_length, <- size_ids, Nat.min_l by lia.
        replace (S (length a) - length a)%nat with 1%nat by lia. cbn [nth_error].
        rewrite <- (firstn_skipn (length a) (ids s)) at 1.
        rewrite nth_error_app2 by (rewrite firstn_length; lia). rewrite firstn_length, <- size_ids, Nat.min_l, Nat.sub_diag by lia. reflexivity. }
      rewrite IP. destruct (IH (i + 1) (a ++ [o]) c s1 rc1) as (r & s' & rc' & new & E & K' & V' & P & Q).
      * split; [exact W1|]. split.
        -- rewrite V1. rewrite V in F. apply Forall_app in F. destruct F. apply Forall_app_2; auto.
        -- intros x. rewrite R1, R, V, V1, !occ_app. cbn [occ]. lia.
      * rewrite V1, <- app_assoc. reflexivity.
      * exists r, s', rc', (o :: new). split; [exact E|]. split; [exact K'|]. split; [rewrite V', <- app_assoc; reflexivity|].
        split; [destruct P as [[-> L]|P]; [left; cbn [length]; auto|right; exact P]|].
        intros ys HY Hi Hn. destruct (Q ys HY ltac:(lia) ltac:(lia)) as (Q1 & Q2). split; [exact Q1|].
        rewrite HY in PK. unfold znth in PK. destruct (Z.ltb_spec i 0); [lia|]. rewrite (skipn_nth _ _ _ PK). cbn [firstn]. f_equal. rewrite Q2. do 2 f_equal. lia.
    + destruct GG as (e & E). rewrite E. exists (Raise e), s, rc, []. split; [reflexivity|]. split; [exact K|]. split; [exact V|]. split; [right; eauto|].
      intros ys HY Hi Hn. exfalso. rewrite HY in PK. rewrite znth_default in PK by lia. discriminate.
Qed.

Lemma l_overwrite_ok n : forall i start a b c s rc, okst s rc -> values s = a ++ b ++ c -> length b = n -> 0 <= i -> 0 <= start ->
  start + i = zlen a -> zlen (values s) <= SSIZE_MAX ->
  exists r s' rc' b', l_overwrite get n i start 1 s rc = (r, (s', rc')) /\ okst s' rc' /\ values s' = a ++ b' ++ c /\
    (r = Ret tt \/ exists e, r = Raise e) /\
    (forall ys, (forall vs j, pick vs j = znth ys j) -> i + Z.of_nat n <= zlen ys -> r = Ret tt /\ b' = firstn n (skipn (Z.to_nat i) ys)).
Proof.
  induction n as [|n IH]; intros i start a b c s rc K V Lb Hi Hst Ha Hsz; cbn [l_overwrite].
  - destruct b; [|discriminate]. exists (Ret tt), s, rc, []. split; [reflexivity|]. split; [exact K|]. split; [exact V|]. split; [left; auto|]. auto.
  - destruct b as [|y b]; [discriminate|]. cbn [length] in Lb. destruct ssize_consts as [EA EB].
    assert (SZ : zlen (values s) = zlen a + zlen (y :: b) + zlen c) by (rewrite V, !zlen_app; lia). rewrite zlen_cons in SZ.
    pose proof (zlen_nonneg b). pose proof (zlen_nonneg c).
    rewrite Z.mul_1_r. rewrite ssz_ok by (rewrite EA, EB in *; lia). cbn [obind]. rewrite ssz_ok by (rewrite EA, EB in *; lia). cbn [obind].
    unfold at_z. destruct (Z.ltb_spec (start + i) 0); [lia|]. destruct K as (W & F & R). rewrite at_pos by exact W.
    replace (Z.to_nat (start + i)) with (length a) by (unfold zlen in Ha; lia).
    pose proof (G s i rc (conj W (conj F R))) as GG. destruct (pick (values s) i) as [o|] eqn:PK.
    + destruct GG as (rc1 & E1 & Oo & R1). rewrite E1. rewrite (deref_mid s a y (b ++ c) W V). cbn [obind].
      assert (Oy : obj y). { rewrite V in F. apply Forall_app in F. destruct F as [_ F]. inversion F; assumption. }
      destruct (decref_ok y rc1 Oy) as (rc2 & E2 & R2).
      { rewrite R1, R, V, occ_app. cbn [app occ]. rewrite Z.eqb_refl. pose proof (occ_nonneg a y). pose proof (occ_nonneg (b ++ c) y). pose proof (occ_nonneg [o] y) as HX. cbn [occ] in HX. specialize (D y). lia. }
      rewrite E2. assert (Hs : (length a < size s)%nat) by (rewrite size_values, V, !app_length; cbn; lia).
      destruct (assign_pos s (length a) o W Hs) as (s1 & E3 & W1 & I1 & V1 & _). rewrite E3.
      rewrite V in V1. cbn [app] in V1. rewrite firstn_app_len, skipn_app_S in V1.
      destruct (IH (i + 1) start (a ++ [o]) b c s1 rc2) as (r & s' & rc' & b' & E & K' & V' & P & Q).
      * split; [exact W1|]. split.
        -- rewrite V1. rewrite V in F. apply Forall_app in F. destruct F as [F1 F2]. inversion F2; subst. apply Forall_app_2; auto.
        -- intros x. rewrite R2, R1, R, V, V1, !occ_app. cbn [app occ]. rewrite ?occ_app. lia.
      * rewrite V1, <- app_assoc. reflexivity.
      * lia.
      * lia.
      * exact Hst.
      * rewrite zlen_app. change (zlen [o]) with 1. lia.
      * rewrite V1. rewrite V in Hsz. rewrite zlen_app in *. cbn [app] in Hsz. rewrite !zlen_cons in *. exact Hsz.
      * exists r, s', rc', (o :: b'). split; [exact E|]. split; [exact K'|]. split; [rewrite V', <- app_assoc; reflexivity|]. split; [exact P|].
        intros ys HY Hn. destruct (Q ys HY ltac:(lia)) as (Q1 & Q2). split; [exact Q1|].
        rewrite HY in PK. unfold znth in PK. destruct (Z.ltb_spec i 0); [lia|]. rewrite (skipn_nth _ _ _ PK). cbn [firstn]. f_equal. rewrite Q2. do 2 f_equal. lia.
    + destruct GG as (e & E). rewrite E. exists (Raise e), s, rc, (y :: b). split; [reflexivity|]. split; [split; [exact W|split; assumption]|].
      split; [exact V|]. split; [right; eauto|]. intros ys HY Hn. exfalso. rewrite HY in PK. rewrite znth_default in PK by lia. discriminate.
Qed.
End Loops.

(** ** All calls *)
Section LCalls.
Variables (l : ll) (rc d : counts).
Hypothesis (W : lwf l) (D : forall x, 0 <= d x) (R : forall x, rc x = occ (vals l) x + d x) (F : Forall obj (vals l)).
Hypothesis Hl : zlen (vals l) <= SSIZE_MAX.

Definition lresult (r : nres) : outcome (oval (list Z)) * list Z := (observe vals (fst r), vals (fst (snd r))).
Definition lok (c : ocall oarg) (r : nres) : Prop := lgood d r /\ (l_agrees c (vals l) = true -> lresult r = py_obj c (vals l)).

Lemma lok_sim f c r : osim r (a_call f c (vals l) rc) -> pre d c -> a_counted c (vals l) = true ->
  (l_agrees c (vals l) = true -> a_agrees c (vals l) = true) -> lok c r.
Proof.
  intros S P C A. destruct (a_call_ok f (vals l) rc d D R F Hl c P C) as (OK & AG). split; [eapply osim_good; eauto|].
  intros LA. rewrite <- (AG (A LA)). destruct S as (S1 & S2 & _). unfold lresult, result. rewrite S1, S2. reflexivity.
Qed.

Lemma lkeep v s' rc' : defined v -> lwf s' -> Forall obj (vals s') -> Forall obj (new_items vals v) -> Forall obj (result_owned v) ->
  (forall c, result_new v = [Some c] -> lwf c) ->
  (forall x, rc' x = occ (vals s') x + d x + occ (result_owned v) x + occ (new_items vals v) x) -> lgood d (v, (s', rc')).
Proof. intros. unfold lgood, good. auto 10. Qed.
Lemma lsame v : defined v -> result_owned v = [] -> new_items vals v = [] -> (forall c, result_new v = [Some c] -> lwf c) -> lgood d (v, (l, rc)).
Proof. intros A B C N. apply lkeep; auto; rewrite ?B, ?C; auto. intros x. rewrite R. cbn [occ]. lia. Qed.

Lemma live_v : Forall (fun o => obj o /\ 0 < rc o) (vals l).
Proof. apply (live_s (vals l) rc d D R F). Qed.

Lemma append_vals (s : slist Z) vs : wf s -> wf (append_range s vs) /\ values (append_range s vs) = values s ++ vs.
Proof. intros H. destruct (append_range_ok vs s H) as (A & B & _). auto. Qed.

Lemma l_grown v s' ys rc' : defined (Ret v) -> owned v = [] -> (forall c, v <> ONew c) -> lwf s' -> vals s' = vals l ++ ys -> Forall obj ys ->
  (forall x, rc' x = rc x + occ ys x) -> forall fin, lgood d (match fin with None => Ret v | Some e => Raise e end, (s', rc')).
Proof.
  intros _ O N W' V FO R' fin.
  assert (NI : new_items vals (match fin with None => Ret v | Some e => Raise e end) = []) by (destruct fin; [reflexivity|]; destruct v; try reflexivity; exfalso; eapply N; reflexivity).
  assert (RO : result_owned (match fin with None => Ret v | Some e => Raise e end) = []) by (destruct fin; [reflexivity|]; exact O).
  apply lkeep; rewrite ?NI, ?RO, ?V; auto.
  - destruct fin; exact I.
  - apply Forall_app_2; auto.
  - intros c H. destruct fin; [discriminate|]. destruct v; try discriminate. exfalso. eapply N; reflexivity.
  - intros x. rewrite R', R, occ_app. cbn [occ]. lia.
Qed.

Lemma crossing_lo_hi sl : crossing (vals l) sl = (hi_of (vals l) sl <? lo_of (vals l) sl).
Proof. reflexivity. Qed.

Definition l_store (start stop sliceLength step : Z) (get : getter) (newLength : Z) : nres :=
  let overwrite s rc :=
    l_after l (l_overwrite get (Z.to_nat newLength) 0 start step s rc) (fun s rc => (Ret ONone, (put l s, rc))) in
  if newLength <? sliceLength then
    owith (obind (obind (ssz (newLength * step)) (fun x => obind (ssz (start + x)) (at_z (lst l)))) (fun it =>
           l_drop (Z.to_nat (sliceLength - newLength)) it (lst l) rc)) l rc (fun '(s, rc) => overwrite s rc)
  else if sliceLength <? newLength then
    owith (at_z (lst l) stop) l rc (fun it =>
    l_after l (l_grow get (Z.to_nat (newLength - sliceLength)) sliceLength it (lst l) rc) overwrite)
  else overwrite (lst l) rc.

Lemma l_store_ok sl get pick n : source d get pick -> 0 <= n <= SSIZE_MAX -> zlen (vals l) + n <= SSIZE_MAX ->
  let r := l_store (lo_of (vals l) sl) (hi_of (vals l) sl) (Z.max 0 (hi_of (vals l) sl - lo_of (vals l) sl)) 1 get n in
  lgood d r /\ forall ys, (forall vs j, pick vs j = znth ys j) -> n = zlen ys -> crossing (vals l) sl = false \/ ys = [] ->
    lresult r = (Ret ONone, py_setslice (vals l) sl ys).
Proof.
  intros SRC Hn Hz. cbv zeta. rewrite crossing_lo_hi. unfold l_store. destruct (slice_split (vals l) sl) as (a & b & c & E & La & Lb & P).
  pose proof (lo_hi_bounds (vals l) sl) as [B1 B2]. destruct ssize_consts as [EA EB].
  set (lo := lo_of (vals l) sl) in *. set (hi := hi_of (vals l) sl) in *. clearbody lo hi. set (L := Z.max 0 (hi - lo)) in *.
  assert (ST : okst d (lst l) rc) by (split; [exact W|split; assumption]).
  assert (SZ : zlen (vals l) = zlen a + zlen b + zlen c) by (rewrite E, !zlen_app; lia).
  pose proof (zlen_nonneg a). pose proof (zlen_nonneg b). pose proof (zlen_nonneg c).
  (* the overwrite at the end *)
  assert (FIN : forall a' b' c' s1 rc1, okst d s1 rc1 -> values s1 = a' ++ b' ++ c' -> zlen a' = lo -> zlen b' = n -> zlen (values s1) <= SSIZE_MAX ->
    let r := l_after l (l_overwrite get (Z.to_nat n) 0 lo 1 s1 rc1) (fun s rc => (Ret ONone, (put l s, rc))) in
    lgood d r /\ forall ys, (forall vs j, pick vs j = znth ys j) -> n = zlen ys -> lresult r = (Ret ONone, a' ++ ys ++ c')).
  { intros a' b' c' s1 rc1 K1 V1 La' Lb' Z1. cbv zeta.
    destruct (l_overwrite_ok d D get pick SRC (Z.to_nat n) 0 lo a' b' c' s1 rc1 K1 V1) as (r & s2 & rc2 & b2 & E2 & (W2 & F2 & R2) & V2 & P2 & Q2); try lia.
    { unfold zlen in Lb'. lia. }
    rewrite E2. unfold l_after. cbn [fst snd].
    assert (GD : forall v : outcome (oval ll), defined v -> result_owned v = [] -> new_items vals v = [] -> result_new v = [] -> lgood d (v, (put l s2, rc2))).
    { intros v DV O N M. apply lkeep; rewrite ?O, ?N, ?M; auto. { discriminate. } intros x. rewrite R2. unfold vals. cbn [put lst occ]. lia. }
    split.
    - destruct P2 as [->|(e & ->)]; apply GD; first [exact I|reflexivity].
    - intros ys HY Hy. destruct (Q2 ys HY ltac:(lia)) as (-> & ->). unfold lresult. cbn [fst snd observe omap obind observe_val].
      f_equal. unfold vals. cbn [put lst]. rewrite V2. f_equal. f_equal. change (Z.to_nat 0) with 0%nat. cbn [skipn]. apply firstn_all2. unfold zlen in Hy. lia. }
  destruct (Z.ltb_spec n L) as [LT|GE]; [|destruct (Z.ltb_spec L n) as [GT|EQ]].
  - rewrite Z.mul_1_r. rewrite ssz_ok by (rewrite EA, EB in *; lia). cbn [obind]. rewrite ssz_ok by (rewrite EA, EB in *; lia). cbn [obind].
    unfold at_z. destruct (Z.ltb_spec (lo + n) 0); [lia|]. rewrite at_pos by exact W. cbn [obind].
    destruct (zsplit_le b n) as (b1 & b2 & Eb & Lb1); [lia|].
    assert (V0 : values (lst l) = (a ++ b1) ++ b2 ++ c) by (fold (vals l); rewrite E, Eb, <- !app_assoc; reflexivity).
    assert (Lb2 : Z.to_nat (L - n) = length b2) by (rewrite Eb, zlen_app in Lb; unfold zlen in *; lia).
    destruct (l_drop_ok d D b2 (a ++ b1) c (lst l) rc ST V0) as (s1 & rc1 & E1 & K1 & V1).
    rewrite Lb2. replace (Z.to_nat (lo + n)) with (length (a ++ b1)) by (rewrite app_length; unfold zlen in *; lia).
    rewrite E1. cbn [owith]. rewrite <- app_assoc in V1.
    destruct (FIN a b1 c s1 rc1 K1 V1 La Lb1) as (G1 & G2). { rewrite V1, !zlen_app. rewrite Eb, zlen_app in SZ. pose proof (zlen_nonneg b2). lia. }
    split; [exact G1|]. intros ys HY Hy _. rewrite (G2 ys HY Hy), P. reflexivity.
  - unfold at_z. destruct (Z.ltb_spec hi 0); [lia|]. rewrite at_pos by exact W. cbn [owith].
    (* insertion point *)
    destruct (zsplit_le (vals l) hi) as (p & q & Epq & Lp); [lia|].
    destruct (l_grow_ok d get pick SRC (Z.to_nat (n - L)) L p q (lst l) rc ST Epq) as (r & s1 & rc1 & new & E1 & (W1 & F1 & R1) & V1 & P1 & Q1).
    replace (Z.to_nat hi) with (length p) by (unfold zlen in Lp; lia). rewrite E1. unfold l_after at 1 3. cbn [fst snd].
    destruct P1 as [[-> LN]|(e & ->)].
    + assert (SZ1 : zlen (values s1) = zlen (vals l) + (n - L)).
      { rewrite V1, Epq, !zlen_app. unfold zlen in *. lia. }
      destruct (zsplit_le (values s1) lo) as (a' & r' & Ea & La'); [lia|].
      destruct (zsplit_le r' n) as (b' & c' & Eb' & Lb'). { rewrite Ea, zlen_app in SZ1. lia. }
      rewrite Eb' in Ea. destruct (FIN a' b' c' s1 rc1 (conj W1 (conj F1 R1)) Ea La' Lb') as (G1 & G2); [lia|].
      split; [exact G1|]. intros ys HY Hy CR. rewrite (G2 ys HY Hy), P.
      assert (NC : lo <= hi).
      { destruct CR as [CR|CR]; [apply Z.ltb_ge in CR; exact CR|]. subst ys. change (zlen (@nil Z)) with 0 in Hy. lia. }
      assert (EP : p = a ++ b /\ q = c).
      { assert (zlen (a ++ b) = zlen p) by (rewrite zlen_app; lia).
        assert (EE : p ++ q = (a ++ b) ++ c) by (rewrite <- Epq, E, <- app_assoc; reflexivity).
        assert (LL : length p = length (a ++ b)) by (unfold zlen in *; lia).
        split; [rewrite <- (firstn_app_len p q), EE, LL; apply firstn_app_len|rewrite <- (skipn_app_len p q), EE, LL; apply skipn_app_len]. }
      destruct EP as [-> ->]. 
      assert (EE : a' ++ b' ++ c' = a ++ (b ++ new) ++ c) by (rewrite <- Ea, V1, <- !app_assoc; reflexivity).
      assert (L1 : length a' = length a) by (unfold zlen in *; lia).
      assert (EA' : a' = a /\ b' ++ c' = (b ++ new) ++ c).
      { split; [rewrite <- (firstn_app_len a' (b' ++ c')), EE, L1; apply firstn_app_len|rewrite <- (skipn_app_len a' (b' ++ c')), EE, L1; apply skipn_app_len]. }
      destruct EA' as [-> EE2].
      assert (L2 : length b' = length (b ++ new)) by (rewrite app_length; unfold zlen in *; lia).
      assert (EC : c' = c) by (rewrite <- (skipn_app_len b' c'), EE2, L2; apply skipn_app_len).
      rewrite EC. reflexivity.
    + split.
      * apply lkeep; try exact I; auto; try discriminate; try constructor. intros x. rewrite R1. unfold vals. cbn [put lst occ result_owned new_items]. lia.
      * intros ys HY Hy CR. exfalso. destruct (Q1 ys HY ltac:(lia) ltac:(lia)) as (X & _). discriminate.
  - assert (n = L) by lia. destruct (FIN a b c (lst l) rc ST E La) as (G1 & G2); [lia|fold (vals l); lia|].
    split; [exact G1|]. intros ys HY Hy _. rewrite (G2 ys HY Hy), P. reflexivity.
Qed.

Lemma own_ref_ok o rc0 : obj o -> 0 < rc0 o -> exists rc', own_ref o rc0 = Ret (o, rc') /\ forall x, rc' x = rc0 x + occ [o] x.
Proof. intros O P. destruct (incref_ok o rc0 O P) as (rc' & E & R'). unfold own_ref. rewrite E. cbn. eauto. Qed.
Lemma get_list_source ys : Forall (fun o => obj o /\ 0 < d o) ys -> source d (get_list ys) (fun _ j => znth ys j).
Proof.
  intros H s i rc0 (W0 & F0 & R0). unfold get_list. destruct (znth ys i) as [o|] eqn:E; [|eauto].
  assert (I0 : In o ys). { unfold znth in E. destruct (i <? 0); [discriminate|]. eapply nth_error_In; eauto. }
  rewrite Forall_forall in H. destruct (H o I0) as [O P]. destruct (own_ref_ok o rc0 O) as (rc' & E' & R'); [rewrite R0; pose proof (occ_nonneg (values s) o); lia|]. eauto.
Qed.
Lemma get_self_source : source d get_self (fun vs j => znth vs j).
Proof.
  intros s i rc0 (W0 & F0 & R0). unfold get_self. rewrite size_values. fold (zlen (values s)).
  destruct (znth (values s) i) as [o|] eqn:E.
  - assert (B : 0 <= i < zlen (values s)) by (unfold znth in E; destruct (Z.ltb_spec i 0); [discriminate|]; assert (nth_error (values s) (Z.to_nat i) <> None) by congruence; apply nth_error_Some in H0; unfold zlen; lia).
    destruct (Z.leb_spec 0 i); [|lia]. destruct (Z.ltb_spec i (zlen (values s))); [|lia]. cbn [andb].
    rewrite at_pos by exact W0. cbn [obind]. unfold znth in E. destruct (Z.ltb_spec i 0); [lia|]. rewrite (deref_pos s (Z.to_nat i) o W0 E). cbn [obind].
    assert (I0 : In o (values s)) by (eapply nth_error_In; eauto). rewrite Forall_forall in F0.
    destruct (own_ref_ok o rc0 (F0 o I0)) as (rc' & E' & R'); [rewrite R0; pose proof (occ_in _ _ I0); specialize (D o); lia|]. eauto.
  - destruct (Z.leb_spec 0 i); [|cbn; eauto]. destruct (Z.ltb_spec i (zlen (values s))); [|cbn; eauto]. exfalso. rewrite znth_default in E by lia. discriminate.
Qed.
Lemma get_seq_source items fin : Forall obj items -> source d (get_seq items fin) (fun _ j => znth items j).
Proof.
  intros H s i rc0 _. unfold get_seq, seq_get. destruct (znth items i) as [o|] eqn:E.
  - assert (I0 : In o items). { unfold znth in E. destruct (i <? 0); [discriminate|]. eapply nth_error_In; eauto. }
    rewrite Forall_forall in H. cbn. eexists. split; [reflexivity|]. split; [apply H; exact I0|]. intros x. unfold new_ref. apply upd_plus.
  - destruct fin as [e|]; cbn [omap obind]; eauto.
Qed.

Lemma l_mul_loop_ok vs n : Forall obj vs -> forall s rc0, wf s -> (forall x, In x vs -> 0 < rc0 x) ->
  exists s' rc', l_mul_loop n vs s rc0 = Ret (s', rc') /\ wf s' /\ values s' = values s ++ concat (repeat vs n) /\
    forall x, rc' x = rc0 x + occ (concat (repeat vs n)) x.
Proof.
  intros FV. induction n as [|n IH]; intros s rc0 W0 H; cbn [l_mul_loop repeat concat].
  - exists s, rc0. rewrite app_nil_r. split; [reflexivity|]. split; [exact W0|]. split; [reflexivity|]. intros x. cbn [occ]. lia.
  - destruct (incref_all_ok vs rc0) as (rc1 & E1 & R1).
    { rewrite Forall_forall in *. intros x X. split; [apply FV; exact X|apply H; exact X]. }
    rewrite E1. cbn [obind]. destruct (append_vals s vs W0) as (W1 & V1). destruct (IH (append_range s vs) rc1 W1) as (s2 & rc2 & E2 & W2 & V2 & R2).
    { intros x X. rewrite R1. specialize (H x X). pose proof (occ_nonneg vs x). lia. }
    rewrite E2. exists s2, rc2. split; [reflexivity|]. split; [exact W2|]. split; [rewrite V2, V1, <- app_assoc; reflexivity|]. intros x. rewrite R2, R1, occ_app. lia.
Qed.

Lemma l_imul_inner_ok mid : forall pr post s rc0, wf s -> values s = pr ++ mid ++ post -> Forall obj mid -> (forall x, In x mid -> 0 < rc0 x) ->
  exists s' rc', l_imul_inner (length mid) (itpos s (length pr)) s rc0 = Ret (s', rc') /\ wf s' /\ values s' = values s ++ mid /\
    forall x, rc' x = rc0 x + occ mid x.
Proof.
  induction mid as [|o mid IH]; intros pr post s rc0 W0 V FM H; cbn [length l_imul_inner].
  - exists s, rc0. rewrite app_nil_r. split; [reflexivity|]. split; [exact W0|]. split; [reflexivity|]. intros x. cbn [occ]. lia.
  - rewrite (deref_mid s pr o (mid ++ post) W0 V). cbn [obind]. destruct (push_back_ok s o W0) as (W1 & V1 & I1 & _).
    inversion FM as [|? ? Oo FM']; subst. destruct (incref_ok o rc0 Oo) as (rc1 & E1 & R1); [apply H; left; reflexivity|]. rewrite E1. cbn [obind].
    assert (Hs : (length pr < size s)%nat) by (rewrite size_values, V, !app_length; cbn; lia).
    assert (IP : itpos s (length pr) = itpos (push_back s o) (length pr)).
    { rewrite !itpos_nth, I1, nth_error_app1; [reflexivity|]. rewrite <- size_ids. exact Hs. }
    rewrite IP. rewrite next_pos; [|exact W1|rewrite size_values, V1, app_length, <- size_values; lia]. cbn [obind].
    destruct (IH (pr ++ [o]) (post ++ [o]) (push_back s o) rc1 W1) as (s' & rc' & E & W' & V' & R').
    + rewrite V1, V, <- !app_assoc. reflexivity.
    + exact FM'.
    + intros x X. rewrite R1. specialize (H x (or_intror X)). pose proof (occ_nonneg [o] x). lia.
    + rewrite app_length in E. cbn [length] in E. rewrite Nat.add_1_r in E. rewrite E. exists s', rc'. split; [reflexivity|]. split; [exact W'|].
      split; [rewrite V', V1, <- app_assoc; reflexivity|]. intros x. rewrite R', R1. cbn [occ]. lia.
Qed.
Lemma l_imul_rounds_ok vs n : Forall obj vs -> forall post s rc0, wf s -> values s = vs ++ post -> (forall x, In x vs -> 0 < rc0 x) ->
  exists s' rc', l_imul_rounds n (length vs) s rc0 = Ret (s', rc') /\ wf s' /\ values s' = values s ++ concat (repeat vs n) /\
    forall x, rc' x = rc0 x + occ (concat (repeat vs n)) x.
Proof.
  intros FV. induction n as [|n IH]; intros post s rc0 W0 V H; cbn [l_imul_rounds repeat concat].
  - exists s, rc0. rewrite app_nil_r. split; [reflexivity|]. split; [exact W0|]. split; [reflexivity|]. intros x. cbn [occ]. lia.
  - destruct (l_imul_inner_ok vs [] post s rc0 W0 V FV H) as (s1 & rc1 & E1 & W1 & V1 & R1). cbn [length] in E1.
    change (begin_ s) with (itpos s 0). rewrite E1. cbn [obind].
    destruct (IH (post ++ vs) s1 rc1 W1) as (s2 & rc2 & E2 & W2 & V2 & R2).
    { rewrite V1, V, <- app_assoc. reflexivity. }
    { intros x X. rewrite R1. specialize (H x X). pose proof (occ_nonneg vs x). lia. }
    rewrite E2. exists s2, rc2. split; [reflexivity|]. split; [exact W2|]. split; [rewrite V2, V1, <- app_assoc; reflexivity|]. intros x. rewrite R2, R1, occ_app. lia.
Qed.
Lemma concat_obj n : Forall obj (concat (repeat (vals l) n)).
Proof. apply concat_repeat_obj. exact F. Qed.

Definition nocpu : cpu := {| avx512 := false; avx2 := false; sse41 := false; ssse3 := false |}.

Lemma l_call_ok c : pre d c -> l_counted c (vals l) = true -> lok c (l_call c l rc).
Proof.
  intros PR CT. pose proof PR as [PH PA]. pose proof CT as CT0. unfold l_counted in CT. apply andb_true_iff in CT. destruct CT as [CS CT].
  assert (AC : forall c', a_counted c' (vals l) = true <-> match c' with
      | CExtend OSelfArg | CIadd OSelfArg => false
      | CSet i _ => negb (valid_index (vals l) i)
      | CSetSlice _ SetDel | CSetSlice _ (SetNoLen _) => false
      | CSetSlice _ (SetTo OSelfArg) => emptyb (vals l)
      | CSetSlice sl (SetTo (OSame ys)) | CSetSlice sl (SetTo (OList ys)) =>
          negb (step_of sl =? 1) || (zlen ys <=? slice_len (vals l) sl)
      | CResize n => match n with PInt z => (z =? zlen (vals l)) || negb ((0 <=? z) && in_ssize z) | PObj _ => true end
      | CImul n => (n =? 1) || emptyb (vals l)
      | _ => true end = true).
  { intros c'. unfold a_counted. rewrite CS. cbn [andb]. reflexivity. }
  assert (AA : forall c', (l_agrees c' (vals l) = true -> a_counted c' (vals l) = true /\ match c' with
      | CIadd (OSame _) | CAdd (OSame _) | CAdd OSelfArg => false
      | CPop (Some i) => negb (emptyb (vals l)) || match i with PInt z => in_ssize z | PObj _ => false end
      | CIndex _ a b => opt_fits a && opt_fits b
      | CSetSlice sl (SetTo (OIter _ (Some _))) => false
      | CSetSlice sl (SetTo _) => step_of sl =? 1
      | CMul n | CImul n => zlen (vals l) * n <=? MAXVEC
      | CContains isint o => isint || (occ (vals l) o =? 0)
      | _ => true
      end = true) -> l_agrees c' (vals l) = true -> a_agrees c' (vals l) = true).
  { intros c' H A. unfold a_agrees. apply andb_true_iff. apply H. exact A. }
  assert (LA : forall c', l_agrees c' (vals l) = true -> match c' with
      | CIadd (OSame _) | CIadd OSelfArg | CAdd (OSame _) | CAdd OSelfArg | CResize _ => false
      | CPop (Some i) => negb (emptyb (vals l)) || match i with PInt z => in_ssize z | PObj _ => false end
      | CIndex _ a b => opt_fits a && opt_fits b
      | CSetSlice sl (SetNoLen _) => negb (step_of sl =? 0)
      | CSetSlice sl (SetTo OSelfArg) => emptyb (vals l)
      | CSetSlice sl (SetTo (OIter _ (Some _))) => false
      | CSetSlice sl (SetTo a) => negb (crossing (vals l) sl) || match items_of (vals l) a with Some (ys, _) => emptyb ys | None => true end
      | CContains isint o => isint || (occ (vals l) o =? 0)
      | _ => true
      end = true).
  { intros c' A. unfold l_agrees in A. apply andb_true_iff in A. apply A. }
  destruct c; cbn [l_call].
  - eapply (lok_sim nocpu); [apply append_osim; exact W|exact PR|apply AC; reflexivity|]. apply AA. intros _. split; [apply AC; reflexivity|reflexivity].
  - (* extend *) destruct a; cbn [l_extend]; cbn [pre_arg call_arg] in PA.
    + destruct (incref_all_ok ys rc (live_d (vals l) rc d R ys PA)) as (rc' & E & R'). rewrite E. cbn [owith]. destruct (append_vals (lst l) ys W) as (W1 & V1).
      split; [|intros _; unfold lresult; cbn; unfold vals; cbn; rewrite V1; reflexivity].
      apply (l_grown ONone (bump l (append_range (lst l) ys)) ys rc' I eq_refl) with (fin := None); auto; [discriminate|].
      eapply Forall_impl; [|exact PA]. cbn beta; tauto.
    + assert (EN : vals l = []) by (destruct (vals l); [reflexivity|discriminate]). fold (vals l). rewrite EN. cbn [append_range fold_left]. cbv zeta.
      fold (vals l). rewrite EN. cbn [incref_all owith]. split.
      * apply lkeep; try exact I; auto; try discriminate; try constructor. intros x. rewrite R. unfold vals. cbn [bump lst result_owned new_items owned occ]. lia.
      * intros _. unfold lresult. cbn. rewrite EN. unfold vals in EN. unfold vals. cbn. rewrite EN. reflexivity.
    + unfold l_push_items. destruct (append_vals (lst l) items W) as (W1 & V1).
      split; [|intros _; unfold lresult; cbn; unfold vals; cbn; rewrite V1; reflexivity].
      apply (l_grown ONone (bump l (append_range (lst l) items)) items _ I eq_refl) with (fin := None); auto; [discriminate| |intros x; apply new_refs_ok].
      eapply Forall_impl; [|exact PA]. cbn beta; tauto.
    + unfold l_push_items. destruct (append_vals (lst l) items W) as (W1 & V1).
      split; [|intros _; unfold lresult; destruct fin; cbn; unfold vals; cbn; rewrite V1; reflexivity].
      apply (l_grown ONone (bump l (append_range (lst l) items)) items _ I eq_refl); auto; [discriminate|intros x; apply new_refs_ok].
    + split; [apply lsame; try exact I; try reflexivity; discriminate|reflexivity].
  - (* iadd *) destruct a; cbn [l_iadd]; cbn [pre_arg call_arg] in PA.
    + destruct (incref_all_ok ys rc (live_d (vals l) rc d R ys PA)) as (rc' & E & R'). rewrite E. cbn [owith]. destruct (append_vals (lst l) ys W) as (W1 & V1).
      split; [|intros A; specialize (LA _ A); discriminate].
      apply (l_grown ONone (put l (append_range (lst l) ys)) ys rc' I eq_refl) with (fin := None); auto; [discriminate|].
      eapply Forall_impl; [|exact PA]. cbn beta; tauto.
    + fold (vals l). destruct (incref_all_ok (vals l) rc live_v) as (rc' & E & R'). rewrite E. cbn [owith]. destruct (append_vals (lst l) (vals l) W) as (W1 & V1).
      split; [|intros A; specialize (LA _ A); discriminate].
      apply (l_grown ONone (put l (append_range (lst l) (vals l))) (vals l) rc' I eq_refl) with (fin := None); auto; discriminate.
    + unfold l_push_items. destruct (append_vals (lst l) items W) as (W1 & V1).
      split; [|intros _; unfold lresult; cbn; unfold vals; cbn; rewrite V1; reflexivity].
      apply (l_grown OSelf (put l (append_range (lst l) items)) items _ I eq_refl) with (fin := None); auto; [discriminate| |intros x; apply new_refs_ok].
      eapply Forall_impl; [|exact PA]. cbn beta; tauto.
    + unfold l_push_items. destruct (append_vals (lst l) items W) as (W1 & V1).
      split; [|intros _; unfold lresult; destruct fin; cbn; unfold vals; cbn; rewrite V1; reflexivity].
      apply (l_grown OSelf (put l (append_range (lst l) items)) items _ I eq_refl); auto; [discriminate|intros x; apply new_refs_ok].
    + split; [apply lsame; try exact I; try reflexivity; discriminate|reflexivity].
  - (* add *) eapply (lok_sim nocpu); [apply add_osim; exact W|exact PR|apply AC; reflexivity|]. apply AA. intros A. specialize (LA _ A).
    split; [apply AC; reflexivity|]. destruct a; first [discriminate|reflexivity].
  - (* pop *) eapply (lok_sim nocpu); [apply pop_osim; auto|exact PR|apply AC; reflexivity|].
    { destruct i; [|exact I]. apply negb_true_iff. exact CT. }
    apply AA. intros A. specialize (LA _ A). split; [apply AC; reflexivity|]. exact LA.
  - eapply (lok_sim nocpu); [apply index_osim; exact W|exact PR|apply AC; reflexivity|]. apply AA. intros A. split; [apply AC; reflexivity|exact (LA _ A)].
  - eapply (lok_sim nocpu); [apply count_osim; exact W|exact PR|apply AC; reflexivity|]. apply AA. intros A. split; [apply AC; reflexivity|reflexivity].
  - eapply (lok_sim nocpu); [apply insert_osim; exact W|exact PR|apply AC; reflexivity|]. apply AA. intros A. split; [apply AC; reflexivity|reflexivity].
  - eapply (lok_sim nocpu); [apply remove_osim; exact W|exact PR|apply AC; reflexivity|]. apply AA. intros A. split; [apply AC; reflexivity|reflexivity].
  - (* len *) split; [apply lsame; try exact I; try reflexivity; discriminate|]. intros _. unfold lresult. cbn [fst snd observe omap obind observe_val]. rewrite lsize_vals. reflexivity.
  - eapply (lok_sim nocpu); [apply subscript_osim; exact W|exact PR|apply AC; reflexivity|]. apply AA. intros A. split; [apply AC; reflexivity|reflexivity].
  - eapply (lok_sim nocpu); [apply getitem_slice_osim; auto|exact PR|apply AC; reflexivity|]. apply AA. intros A. split; [apply AC; reflexivity|reflexivity].
  - eapply (lok_sim nocpu); [apply set_osim; [exact W|apply negb_true_iff; exact CT]|exact PR|apply AC; exact CT|]. apply AA. intros A. split; [apply AC; exact CT|reflexivity].
  - eapply (lok_sim nocpu); [apply del_osim; exact W|exact PR|apply AC; reflexivity|]. apply AA. intros A. split; [apply AC; reflexivity|reflexivity].
  - (* slice assignment *) destruct v as [|e|a]; [discriminate| |].
    + unfold l_setitem_slice. rewrite lsize_vals. destruct (unpack_cases sl) as [[E U]|[E (start & stop & step & U)]]; rewrite U; cbn [owith].
      * split; [apply lsame; try exact I; try reflexivity; discriminate|]. intros A. specialize (LA _ A). cbn in LA. rewrite E in LA. discriminate.
      * destruct (PySlice_AdjustIndices (zlen (vals l)) start stop step) as [[a1 b1] c1].
        split; [apply lsame; try exact I; try reflexivity; discriminate|reflexivity].
    + apply andb_true_iff in CT. destruct CT as [S1 CT]. apply Z.eqb_eq in S1. apply Z.leb_le in CT.
      destruct (unpack_step1 (vals l) sl Hl S1) as (start & stop & U & Adj).
      assert (ES : l_setitem_slice sl (SetTo a) l rc = match a with
        | OSame ys => l_store (lo_of (vals l) sl) (hi_of (vals l) sl) (Z.max 0 (hi_of (vals l) sl - lo_of (vals l) sl)) 1 (get_list ys) (zlen ys)
        | OSelfArg => l_store (lo_of (vals l) sl) (hi_of (vals l) sl) (Z.max 0 (hi_of (vals l) sl - lo_of (vals l) sl)) 1 get_self (zlen (vals l))
        | OList ys => l_store (lo_of (vals l) sl) (hi_of (vals l) sl) (Z.max 0 (hi_of (vals l) sl - lo_of (vals l) sl)) 1 (get_list ys) (zlen ys)
        | OIter items fin => l_store (lo_of (vals l) sl) (hi_of (vals l) sl) (Z.max 0 (hi_of (vals l) sl - lo_of (vals l) sl)) 1 (get_seq items fin) (seq_len items fin)
        | OOther => (Raise TypeError, (l, rc)) end).
      { unfold l_setitem_slice. rewrite lsize_vals, U. cbn [owith]. rewrite Adj. destruct a; reflexivity. }
      rewrite ES. clear ES U Adj. assert (SL : SLOTS = SSIZE_MAX) by reflexivity. rewrite SL in CT. pose proof (zlen_nonneg (vals l)).
      assert (CR : forall ys, negb (crossing (vals l) sl) || emptyb ys = true -> crossing (vals l) sl = false \/ ys = []).
      { intros ys X. apply orb_true_iff in X. destruct X as [X|X]; [left; apply negb_true_iff; exact X|right; destruct ys; [reflexivity|discriminate]]. }
      destruct a; cbn [items_of pre_arg call_arg] in *.
      * pose proof (zlen_nonneg ys). destruct (l_store_ok sl _ _ (zlen ys) (get_list_source ys PA)) as (G1 & G2); [lia|lia|].
        split; [exact G1|]. intros A. rewrite (G2 ys) by (auto; apply CR; exact (LA _ A)). reflexivity.
      * destruct (l_store_ok sl _ _ (zlen (vals l)) get_self_source) as (G1 & G2); [lia|lia|].
        split; [exact G1|]. intros A. specialize (LA _ A). cbn in LA. assert (EN : vals l = []) by (destruct (vals l); [reflexivity|discriminate]).
        unfold l_store. rewrite EN. replace (lo_of [] sl) with 0 by (pose proof (lo_hi_bounds [] sl) as B; change (zlen (@nil Z)) with 0 in B; lia).
        replace (hi_of [] sl) with 0 by (pose proof (lo_hi_bounds [] sl) as B; change (zlen (@nil Z)) with 0 in B; lia).
        change (zlen (@nil Z)) with 0. change (Z.max 0 (0 - 0)) with 0. change (0 <? 0) with false. cbv iota zeta. change (Z.to_nat 0) with 0%nat.
        cbn [l_overwrite l_after fst snd]. unfold l_after. cbn [fst snd]. unfold lresult. cbn [fst snd py_obj items_of py_step lift observe omap obind observe_val].
        change (vals (put l (lst l))) with (vals l). rewrite EN. unfold py_setslice. rewrite firstn_nil, skipn_nil. reflexivity.
      * pose proof (zlen_nonneg items). destruct (l_store_ok sl _ _ (zlen items) (get_list_source items PA)) as (G1 & G2); [lia|lia|].
        split; [exact G1|]. intros A. rewrite (G2 items) by (auto; apply CR; exact (LA _ A)). reflexivity.
      * pose proof (zlen_nonneg items). destruct (l_store_ok sl _ _ (seq_len items fin) (get_seq_source items fin PA)) as (G1 & G2); [destruct fin; cbn; lia|destruct fin; cbn; lia|].
        split; [exact G1|]. intros A. specialize (LA _ A). destruct fin as [e|]; [discriminate|]. rewrite (G2 items) by (auto; apply CR; exact LA). reflexivity.
      * split; [apply lsame; try exact I; try reflexivity; discriminate|reflexivity].
  - (* resize *) split; [apply lsame; try exact I; try reflexivity; discriminate|]. intros A. specialize (LA _ A). discriminate.
  - eapply (lok_sim nocpu); [apply to_list_osim; exact W|exact PR|apply AC; reflexivity|]. apply AA. intros A. split; [apply AC; reflexivity|reflexivity].
  - eapply (lok_sim nocpu); [apply copy_osim; exact W|exact PR|apply AC; reflexivity|]. apply AA. intros A. split; [apply AC; reflexivity|reflexivity].
  - (* mul *) unfold l_mul. cbv zeta. unfold lok. cbn [py_obj]. unfold repeated.
    assert (Z0 : forall n0, Z.to_nat n0 = 0%nat -> lgood d (Ret (ONew (new_list empty)), (l, rc)) /\
      (l_agrees (CMul n) (vals l) = true -> lresult (Ret (ONew (new_list empty)), (l, rc)) = (Ret (ONew (concat (repeat (vals l) (Z.to_nat n0)))), vals l))).
    { intros n0 E0. rewrite E0. split; [|reflexivity]. apply lkeep; try exact I; auto; try apply Forall_nil.
      - intros c H. injection H as <-. apply (@wf_empty Z).
      - intros x. rewrite R. cbn. lia. }
    destruct (Z.ltb_spec n 0) as [N0|N0].
    { change (0 =? 0) with true. cbv iota. apply Z0. lia. }
    destruct (Z.eqb_spec n 0) as [->|NZ]; [apply Z0; reflexivity|]. clear Z0.
    fold (vals l). destruct (l_mul_loop_ok (vals l) (Z.to_nat n) F empty rc (@wf_empty Z)) as (s' & rc' & E & W' & V' & R').
    { pose proof live_v as L. rewrite Forall_forall in L. intros x X. apply L. exact X. }
    rewrite E. cbn [owith]. cbn [values empty nodes map app] in V'. split.
    + apply lkeep; cbn [defined result_owned owned new_items]; try exact I; auto.
      * change (vals (new_list s')) with (values s'). rewrite V'. apply concat_obj; exact F.
      * intros c H. injection H as <-. exact W'.
      * change (vals (new_list s')) with (values s'). rewrite V'. intros x. rewrite R', R. cbn [occ]. lia.
    + intros _. unfold lresult. cbn [fst snd observe omap obind observe_val]. change (vals (new_list s')) with (values s'). rewrite V'. reflexivity.
  - (* imul *) unfold l_imul. cbv zeta.
    destruct (list_eq_dec Z.eq_dec (vals l) []) as [EN|NE].
    + assert (GZ : forall s', wf s' -> values s' = [] -> lok (CImul n) (Ret OSelf, (put l s', rc))).
      { intros s' W' V'. split.
        - apply lkeep; try exact I; try constructor; try discriminate; try apply W'; [unfold vals; cbn; rewrite V'; constructor|].
          intros x. rewrite R, EN. unfold vals. cbn [put lst result_owned owned new_items]. rewrite V'. cbn [occ]. lia.
        - intros _. unfold lresult. cbn [fst snd py_obj]. unfold vals at 2. cbn [put lst]. rewrite V', EN. unfold repeated. cbn.
          f_equal. induction (Z.to_nat n); cbn; auto. }
      assert (ER : forall k, l_imul_rounds k (size (lst l)) (lst l) rc = Ret (lst l, rc)).
      { rewrite size_vals, EN. cbn [length]. induction k; cbn; auto. }
      destruct (if n <? 0 then 0 else n) as [|p|p] eqn:En; cbn [Z.eqb].
      * apply GZ; [apply clear_ok|reflexivity].
      * rewrite ER. cbn [owith]. apply GZ; [exact W|exact EN].
      * rewrite ER. cbn [owith]. apply GZ; [exact W|exact EN].
    + assert (1 <= n). { apply orb_true_iff in CT. destruct CT as [CT|CT]; [apply Z.leb_le; exact CT|]. destruct (vals l); [contradiction|discriminate]. }
      destruct (Z.ltb_spec n 0); [lia|]. destruct (Z.eqb_spec n 0); [lia|]. rewrite size_vals.
      destruct (l_imul_rounds_ok (vals l) (Z.to_nat n - 1) F [] (lst l) rc W) as (s' & rc' & E & W' & V' & R').
      { rewrite app_nil_r. reflexivity. }
      { pose proof live_v as L. rewrite Forall_forall in L. intros x X. apply L. exact X. }
      rewrite E. cbn [owith]. fold (vals l) in V'.
      assert (CC : vals l ++ concat (repeat (vals l) (Z.to_nat n - 1)) = concat (repeat (vals l) (Z.to_nat n))).
      { replace (Z.to_nat n) with (S (Z.to_nat n - 1)) at 2 by lia. reflexivity. }
      split.
      * apply lkeep; try exact I; try constructor; try discriminate; try apply W'.
        -- unfold vals. cbn [put lst]. rewrite V'. apply Forall_app_2; [exact F|apply concat_obj; exact F].
        -- intros x. rewrite R', R. unfold vals at 3. cbn [put lst result_owned owned new_items]. rewrite V', occ_app. cbn [occ]. lia.
      * intros _. unfold lresult. cbn [fst snd py_obj observe omap obind observe_val]. unfold vals at 1. cbn [put lst]. rewrite V', CC. reflexivity.
  - eapply (lok_sim nocpu); [apply contains_osim; exact W|exact PR|apply AC; reflexivity|]. apply AA. intros A. split; [apply AC; reflexivity|exact (LA _ A)].
  - eapply (lok_sim nocpu); [apply reverse_osim; auto|exact PR|apply AC; reflexivity|]. apply AA. intros A. split; [apply AC; reflexivity|reflexivity].
  - eapply (lok_sim nocpu); [apply clear_osim; exact W|exact PR|apply AC; reflexivity|]. apply AA. intros A. split; [apply AC; reflexivity|reflexivity].
Qed.
End LCalls.
