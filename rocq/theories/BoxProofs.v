(** Proofs about BoxModel. *)
From Coq Require Import ZArith List Bool Arith Lia.
From Verif Require Import Base PyLongModel PyListSpec ListLemmas ArrayListModel ArrayListProofs ArrayListSpec ArrayListMoreModel StdListModel StdListProofs LinkedListModel LinkedListProofs LinkedListFacts
  ObjModel ObjArrayModel ObjLinkedModel ObjMoreModel ObjSpec ObjLemmas MixModel MixSpec MixProofs MixObjModel MixObjSpec MixObjProofs BoxModel BoxSpec.
Import ListNotations.
Local Open Scope Z_scope.
Local Arguments Z.pow : simpl never.
Local Arguments Z.of_nat : simpl never.
Local Arguments Z.to_nat : simpl never.
Local Arguments Z.add : simpl never.

Section B.
Variable small : Z -> option Z.
Variable mem : Z -> bool.
Variable cfg : config.

(** The loop without the iterator. *)
Fixpoint boxes {T} (k : kind) (push : T -> Z -> T) (vs : list Z) (t : T) (h : heap) : outcome unit * (T * heap) :=
  match vs with
  | [] => (Ret tt, (t, h))
  | v :: r => match make_int small mem cfg k v h with
              | (Ret o, h') => boxes k push r (push t o) h'
              | (Raise e, h') => (Raise e, (t, h'))
              | (RetPending _ e, h') => (Raise e, (t, h'))
              | (Undef u, h') => (Undef u, (t, h'))
              end
  end.
Lemma box_step {I T} (next : I -> outcome Z * I) mk (push : T -> Z -> T) m it t h : box next mk push (S m) it t h =
  match next it with
  | (Ret v, it') => match mk v h with
                    | (Ret o, h') => box next mk push m it' (push t o) h'
                    | (Raise e, h') => (Raise e, (t, h'))
                    | (RetPending _ e, h') => (Raise e, (t, h'))
                    | (Undef u, h') => (Undef u, (t, h'))
                    end
  | (Raise StopIteration, _) => (Ret tt, (t, h))
  | (Raise e, _) => (Raise e, (t, h))
  | (RetPending _ e, _) => (Raise e, (t, h))
  | (Undef u, _) => (Undef u, (t, h))
  end.
Proof. reflexivity. Qed.

Lemma box_arr {T} k (push : T -> Z -> T) s : forall suf pre t h, s = pre ++ suf ->
  box (fun it => iter_next it s) (make_int small mem cfg k) push (S (length suf)) {| it_index := zlen pre; it_rev := false |} t h = boxes k push suf t h.
Proof.
  induction suf as [|v suf IH]; intros pre t h E; cbn [length boxes]; rewrite box_step.
  - rewrite app_nil_r in E. subst pre. rewrite arr_end. reflexivity.
  - rewrite (arr_next s pre v suf E). destruct (make_int small mem cfg k v h) as [[] h']; try reflexivity.
    specialize (IH (pre ++ [v])). rewrite zlen_app in IH. change (zlen [v]) with 1 in IH. rewrite IH by (rewrite <- app_assoc; exact E). reflexivity.
Qed.
Lemma box_lnk {T} (push : T -> Z -> T) l : lwf l -> zlen (vals l) < 2 ^ 64 -> forall suf pre t h, vals l = pre ++ suf ->
  box (fun it => liter_next it l) (make_int small mem cfg KInt) push (S (length suf)) (at_pos l (length pre)) t h = boxes KInt push suf t h.
Proof.
  intros W L. induction suf as [|v suf IH]; intros pre t h E; cbn [length boxes]; rewrite box_step.
  - rewrite app_nil_r in E. rewrite <- E, lnext_end. reflexivity.
  - rewrite (lnext_at l (length pre) v W L) by (rewrite E, nth_error_app2, Nat.sub_diag by lia; reflexivity).
    destruct (make_int small mem cfg KInt v h) as [[] h']; try reflexivity.
    specialize (IH (pre ++ [v])). rewrite app_length in IH. cbn [length] in IH. rewrite Nat.add_1_r in IH. rewrite IH by (rewrite <- app_assoc; exact E). reflexivity.
Qed.
Lemma box_from_boxes {T} x (push : T -> Z -> T) t h : valid x -> box_from small mem cfg x push t h = boxes (elem_kind x) push (held x) t h.
Proof.
  intros (L & _ & W). destruct x as [k s|l]; cbn [box_from held elem_kind] in *.
  - exact (box_arr k push s s [] t h eq_refl).
  - unfold liter_create. rewrite size_vals. apply (box_lnk push l W) with (pre := []); [|reflexivity]. pose proof ssize_64. unfold vals. lia.
Qed.

Lemma occ_one_ge (os : list Z) o : In o os -> 1 <= occ os o.
Proof.
  induction os as [|a os IH]; [intros []|]. intros [->|H]; cbn [occ]; [rewrite Z.eqb_refl; pose proof (occ_nonneg os o); lia|].
  specialize (IH H). destruct (a =? o); lia.
Qed.
Lemma occ_zero (os : list Z) o : ~ In o os -> occ os o = 0.
Proof.
  induction os as [|a os IH]; [reflexivity|]. intros H. cbn [occ]. destruct (Z.eqb_spec a o) as [->|]; [exfalso; apply H; left; reflexivity|].
  rewrite IH; [lia|]. intros K. apply H. right. exact K.
Qed.

(** One object. *)
Lemma make_int_ok x v h n : in_range (elem_kind x) v -> cache_ok small h -> heap_ok h (n + 1) -> 0 <= n ->
  (exists o h', make_int small mem cfg (elem_kind x) v h = (Ret o, h') /\ objects_for small (py312 cfg) x h h' [v] [o] /\ 0 < o < 2 ^ 63 /\
     cache_ok small h' /\ heap_ok h' n /\ hn h <= hn h' <= hn h + 1) \/
  make_int small mem cfg (elem_kind x) v h = (Raise MemoryError, h) /\ mem (hn h) = false.
Proof.
  intros R C (P & M & F) N. unfold make_int. rewrite (item_seen cfg x v R). set (z := seen (py312 cfg) x v).
  destruct (if uses_cache cfg (elem_kind x) then small z else None) as [o|] eqn:E.
  - left. destruct (uses_cache cfg (elem_kind x)) eqn:U; [|discriminate]. destruct (C z o E) as (Po & Ro & Vo).
    destruct (incref_ok o (hc h)) as (rc & I & K); [unfold ObjLemmas.obj, is_obj; apply andb_true_iff; split; apply Z.ltb_lt; lia|exact Ro|].
    rewrite I. exists o, (with_hc rc h). split; [reflexivity|]. split; [|split; [lia|split; [|split; [|cbn [with_hc hn]; lia]]]].
    + split; [constructor; [split; [exact Vo|intros c Ec _; fold z in Ec; congruence]|constructor]|]. split; [exact K|]. split; [reflexivity|].
      intros y [<-|[]]. left. split; [lia|]. split; [rewrite Vo; exact E|].
      destruct x as [[]|]; cbn [elem_kind uses_cache class_of] in *; [|right; reflexivity|]; left; destruct (py312 cfg); (discriminate || reflexivity).
    + intros z' o' E'. destruct (C z' o' E') as (A & B & D). cbn [with_hc hn hc hv]. split; [exact A|]. split; [|exact D].
      rewrite K. pose proof (occ_nonneg [o] o'). lia.
    + split; [exact P|]. split; [cbn [with_hc hn]; lia|]. intros y Y. cbn [with_hc hn hc] in *. rewrite K, F by lia. cbn [occ]. destruct (Z.eqb_spec o y); lia.
  - destruct (mem (hn h)) eqn:G; [left|right; auto].
    eexists _, _. split; [reflexivity|]. split; [|split; [lia|split; [|split; [|cbn [hn]; lia]]]].
    + split; [constructor; [split|constructor]; [cbn [hv]; unfold upd; rewrite Z.eqb_refl; reflexivity|]|].
      { intros c Ec Q. exfalso. fold z in Ec. rewrite Ec in E. destruct x as [[]|]; cbn [elem_kind uses_cache class_of] in *; try discriminate E;
          (destruct Q as [Q|Q]; [rewrite Q in E; discriminate E|discriminate Q]). }
      split; [intros y; cbn [hc occ]; unfold upd; rewrite (Z.eqb_sym y); destruct (Z.eqb_spec (hn h) y) as [<-|]; [rewrite F by lia|]; lia|].
      split; [intros y Y; cbn [hv]; unfold upd; destruct (Z.eqb_spec y (hn h)); [lia|reflexivity]|].
      intros y [<-|[]]. right. cbn [hn occ]. rewrite Z.eqb_refl. lia.
    + intros z' o' E'. destruct (C z' o' E') as (A & B & D). cbn [hn hc hv]. unfold upd. destruct (Z.eqb_spec o' (hn h)); [lia|]. split; [lia|]. split; assumption.
    + split; [cbn [hn]; lia|]. split; [cbn [hn]; lia|]. intros y Y. cbn [hn hc] in *. unfold upd. destruct (Z.eqb_spec y (hn h)); [lia|]. apply F. lia.
Qed.

Lemma objects_nil x h : objects_for small (py312 cfg) x h h [] [].
Proof. split; [constructor|]. split; [intros; cbn [occ]; lia|]. split; [reflexivity|]. intros o []. Qed.
Lemma objects_cons x h h1 h' v vs o os : cache_ok small h -> objects_for small (py312 cfg) x h h1 [v] [o] -> objects_for small (py312 cfg) x h1 h' vs os ->
  hn h <= hn h1 <= hn h' -> objects_for small (py312 cfg) x h h' (v :: vs) (o :: os).
Proof.
  intros C (A1 & A2 & A3 & A4) (B1 & B2 & B3 & B4) N.
  assert (V : hv h1 o = seen (py312 cfg) x v /\ forall c, small (seen (py312 cfg) x v) = Some c -> py312 cfg = false \/ class_of x = CArr KBig -> o = c) by (inversion A1; subst; assumption).
  assert (L : o < hn h1) by (destruct (A4 o (or_introl eq_refl)) as [(Q & _)|(Q & _)]; lia).
  split; [constructor; [rewrite B3 by exact L; exact V|exact B1]|].
  split; [intros y; rewrite B2, A2, (occ_cons o os); lia|].
  split; [intros y Y; rewrite B3 by lia; apply A3; exact Y|].
  intros y [<-|K].
  - destruct (A4 o (or_introl eq_refl)) as [Q|(Q & _)]; [left; exact Q|right]. split; [lia|].
    rewrite occ_cons, (occ_zero os); [cbn [occ]; rewrite Z.eqb_refl; lia|].
    intros K. destruct (B4 o K) as [(K1 & K2 & K3)|(K1 & _)]; [|lia]. destruct (C _ _ K2). lia.
  - destruct (B4 y K) as [(K1 & K2 & K3)|(K1 & K2)].
    + destruct (C _ _ K2) as (K4 & _). left. split; [lia|]. rewrite <- A3 by lia. auto.
    + right. split; [lia|]. rewrite occ_cons, K2. cbn [occ]. destruct (Z.eqb_spec o y); lia.
Qed.

Definition addresses (os : list Z) : Prop := Forall (fun o => 0 < o < 2 ^ 63) os.
Lemma boxes_ok {T} x (push : T -> Z -> T) : forall vs t h, Forall (in_range (elem_kind x)) vs -> cache_ok small h -> heap_ok h (zlen vs) ->
  (exists os h', boxes (elem_kind x) push vs t h = (Ret tt, (fold_left push os t, h')) /\ objects_for small (py312 cfg) x h h' vs os /\ addresses os /\
     hn h <= hn h' <= hn h + zlen vs) \/
  (exists v1 w v2 os h', vs = v1 ++ w :: v2 /\ boxes (elem_kind x) push vs t h = (Raise MemoryError, (fold_left push os t, h')) /\
     objects_for small (py312 cfg) x h h' v1 os /\ addresses os /\ hn h <= hn h' < hn h + zlen vs /\ mem (hn h') = false).
Proof.
  induction vs as [|v vs IH]; intros t h R C H.
  - left. exists [], h. split; [reflexivity|]. split; [apply objects_nil|]. split; [constructor|]. change (zlen (@nil Z)) with 0. lia.
  - inversion R as [|? ? Rv Rs]; subst. rewrite zlen_cons in *. pose proof (zlen_nonneg vs) as NN.
    replace (1 + zlen vs) with (zlen vs + 1) in * by lia. cbn [boxes].
    destruct (make_int_ok x v h (zlen vs) Rv C H NN) as [(o & h1 & E & O & Po & C1 & H1 & N1)|(E & G)]; rewrite E.
    + destruct (IH (push t o) h1 Rs C1 H1) as [(os & h' & B & Os & Ad & N)|(v1 & w & v2 & os & h' & Ev & B & Os & Ad & N & G)].
      * left. exists (o :: os), h'. split; [exact B|]. split; [eapply objects_cons; eauto; lia|]. split; [constructor; assumption|lia].
      * right. exists (v :: v1), w, v2, (o :: os), h'. split; [rewrite Ev; reflexivity|]. split; [exact B|].
        split; [eapply objects_cons; eauto; lia|]. split; [constructor; assumption|]. split; [lia|exact G].
    + right. exists [], v, vs, [], h. split; [reflexivity|]. split; [reflexivity|]. split; [apply objects_nil|]. split; [constructor|]. split; [lia|exact G].
Qed.

Lemma extend_int_ok inplace t x h : sound t -> valid x -> cache_ok small h -> heap_ok h (zlen (held x)) ->
  exists r t' h' vs os, extend_int small mem cfg inplace t x h = (r, (t', h')) /\ ocls_of t' = ocls_of t /\ oheld t' = oheld t ++ os /\
    match t' with OArr _ => True | OLnk l => lwf l end /\ objects_for small (py312 cfg) x h h' vs os /\
    (r = Ret (if inplace : bool then OSelf else ONone) /\ vs = held x \/
     r = Raise MemoryError /\ (exists w v2, held x = vs ++ w :: v2) /\ hn h <= hn h' < hn h + zlen (held x) /\ mem (hn h') = false).
Proof.
  intros [_ Wt] V C H. pose proof V as (_ & R & _). unfold extend_int. destruct t as [s|l]; rewrite box_from_boxes by exact V.
  - destruct (boxes_ok x vpush (held x) s h R C H) as [(os & h' & B & Os & Ad & N)|(v1 & w & v2 & os & h' & Ev & B & Os & Ad & N & G)];
      rewrite B, fold_vpush; unfold box_answer; cbn [fst snd].
    + eexists _, _, _, (held x), os. split; [reflexivity|]. cbn [oheld ocls_of]. auto 10.
    + eexists _, _, _, v1, os. split; [reflexivity|]. cbn [oheld ocls_of]. do 4 (split; [auto|]). right. split; [reflexivity|]. split; [eauto|]. split; assumption.
  - destruct (boxes_ok x lpush (held x) l h R C H) as [(os & h' & B & Os & Ad & N)|(v1 & w & v2 & os & h' & Ev & B & Os & Ad & N & G)];
      rewrite B; unfold box_answer; cbn [fst snd]; destruct (fold_lpush os l Wt) as (W' & V' & _); set (l' := fold_left lpush os l) in *.
    + eexists _, _, _, (held x), os. split; [reflexivity|]. destruct inplace; cbn [oheld ocls_of bump lst]; auto 10.
    + eexists _, _, _, v1, os. split; [reflexivity|]. split; [destruct inplace; reflexivity|].
      split; [destruct inplace; exact V'|]. split; [destruct inplace; exact W'|]. split; [exact Os|]. right. split; [reflexivity|]. split; [eauto|]. split; assumption.
Qed.

Lemma dealloc_ok os (h h' : heap) : addresses os -> (forall o, hc h' o = hc h o + occ os o) -> (forall o, 0 <= hc h o) ->
  exists rc, decref_all os (hc h') = Ret rc /\ forall o, rc o = hc h o.
Proof.
  intros A K Po. destruct (decref_all_ok os (hc h')) as (rc & E & D).
  - eapply Forall_impl; [|exact A]. intros o [B1 B2]. unfold ObjLemmas.obj, is_obj. apply andb_true_iff; split; apply Z.ltb_lt; assumption.
  - intros o _. rewrite K. specialize (Po o). lia.
  - exists rc. split; [exact E|]. intros o. rewrite D, K. lia.
Qed.
Lemma make_from_int_ok c x h : valid x -> cache_ok small h -> heap_ok h (zlen (held x)) -> (forall o, 0 <= hc h o) ->
  (exists t h', make_from_int small mem cfg c x h = (Ret t, h') /\ ocls_of t = c /\ match t with OArr _ => True | OLnk l => lwf l end /\
     objects_for small (py312 cfg) x h h' (held x) (oheld t)) \/
  (exists h', make_from_int small mem cfg c x h = (Raise MemoryError, h') /\ (forall o, hc h' o = hc h o) /\
     hn h <= hn h' < hn h + zlen (held x) /\ mem (hn h') = false).
Proof.
  intros V C H Po. pose proof V as (_ & R & _). unfold make_from_int. destruct c; rewrite box_from_boxes by exact V.
  - destruct (boxes_ok x vpush (held x) [] h R C H) as [(os & h' & B & Os & Ad & N)|(v1 & w & v2 & os & h' & Ev & B & Os & Ad & N & G)];
      rewrite B, fold_vpush; cbn [finish app].
    + left. eexists _, _. split; [reflexivity|]. cbn [oheld ocls_of]. auto.
    + right. destruct (dealloc_ok os h h' Ad (proj1 (proj2 Os)) Po) as (rc & D & K). unfold a_dealloc. rewrite D.
      eexists. split; [reflexivity|]. split; [exact K|]. split; assumption.
  - destruct (boxes_ok x lpush (held x) (new_list empty) h R C H) as [(os & h' & B & Os & Ad & N)|(v1 & w & v2 & os & h' & Ev & B & Os & Ad & N & G)];
      rewrite B; cbn [finish]; destruct (fold_lpush os (new_list empty) (@wf_empty Z)) as (W' & V' & _); set (l' := fold_left lpush os (new_list empty)) in *.
    + left. eexists _, _. split; [reflexivity|]. cbn [oheld ocls_of]. split; [reflexivity|]. split; [exact W'|].
      unfold vals in V'. rewrite V'. exact Os.
    + right. unfold l_dealloc. unfold vals in V'. rewrite V'. destruct (dealloc_ok os h h' Ad (proj1 (proj2 Os)) Po) as (rc & D & K).
      change (values (lst (new_list empty)) ++ os) with os. rewrite D.
      eexists. split; [reflexivity|]. split; [exact K|]. split; assumption.
Qed.
End B.

Lemma seen_exact py312 x v : in_range (elem_kind x) v -> seen py312 x v = v <-> py312 = false \/ class_of x = CArr KBig \/ 0 <= v \/ v = - 2 ^ 31.
Proof.
  intros R. change (2 ^ 31) with 2147483648. unfold seen.
  assert (D : class_of x = CArr KBig \/ class_of x <> CArr KBig) by (destruct x as [[]|]; cbn [class_of]; auto; right; discriminate).
  destruct D as [D|D]; [rewrite D; split; auto|].
  assert (E : match class_of x with CArr KBig => v | _ => if py312 && (v <? 0) then - (2 ^ 32 + v) else v end = if py312 && (v <? 0) then - (2 ^ 32 + v) else v)
    by (destruct (class_of x) as [[]|]; congruence).
  rewrite E. change (2 ^ 32) with 4294967296. destruct py312; cbn [andb]; [|split; auto].
  destruct (Z.ltb_spec v 0) as [L|L]; split; auto.
  - intros Q. right; right; right. lia.
  - intros [Q|[Q|[Q|Q]]]; [discriminate|contradiction|lia|lia].
Qed.
