(** Comparison, repr and iterators of the object lists. *)
From Coq Require Import ZArith List Bool Lia Arith.
From Verif Require Import Base PyListSpec ListLemmas ArrayListModel ArrayListProofs ArrayListMoreModel StdListModel StdListProofs LinkedListModel
  LinkedListProofs ObjModel ObjSpec ObjLemmas ObjMoreModel ObjMoreSpec.
Import ListNotations.
Local Open Scope Z_scope.
Local Arguments Z.add : simpl never.
Local Arguments Z.sub : simpl never.
Local Arguments Z.of_nat : simpl never.
Local Arguments Z.to_nat : simpl never.

Definition getter_of (ys : list Z) : Z -> outcome Z := fun i => match znth ys i with Some o => Ret o | None => Raise IndexError end.
Lemma getter_mid pre y ys i : i = zlen pre -> getter_of (pre ++ y :: ys) i = Ret y.
Proof. intros ->. unfold getter_of. rewrite znth_mid by reflexivity. reflexivity. Qed.
Lemma zlen_snoc {A} (a : list A) x : Z.of_nat (S (length a)) = zlen (a ++ [x]).
Proof. unfold zlen. rewrite app_length. cbn. lia. Qed.

Lemma obind_ret {A} (o : outcome A) : obind o Ret = o.
Proof. destruct o; reflexivity. Qed.
Lemma obind_assoc {A B C} (o : outcome A) (f : A -> outcome B) (g : B -> outcome C) :
  obind (obind o f) g = obind o (fun a => obind (f a) g).
Proof. destruct o as [a| |a e|]; cbn; try reflexivity. destruct (f a) as [b| |b e'|]; cbn; try reflexivity; destruct (g b); reflexivity. Qed.
Lemma obind_ext {A B} (o : outcome A) (f g : A -> outcome B) : (forall a, f a = g a) -> obind o f = obind o g.
Proof. intros H. destruct o; cbn; rewrite ?H; reflexivity. Qed.

(** ** == and != *)
Section Eq.
Variable ask : asker.
Let cmp : oracle := fun _ => ask.

Lemma rich_eq t x y : rich_bool cmp t Eq_ x y = py_same ask x y.
Proof. reflexivity. Qed.

Definition eq_rest (s ys : list Z) : outcome bool := omap (fun d => match d with None => true | Some _ => false end) (py_differ ask s ys).
Lemma a_eq_loop_ok ys : forall s pre pres, length s = length ys -> length pre = length pres ->
  a_eq_loop cmp (fun _ => pres ++ s) (getter_of (pre ++ ys)) (length ys) (length pre) (pres ++ s) = eq_rest s ys.
Proof.
  induction ys as [|y ys IH]; intros s pre pres L P; destruct s as [|x s]; try discriminate; cbn [length a_eq_loop]; [reflexivity|].
  rewrite getter_mid by reflexivity. cbn [obind]. rewrite znth_mid by (unfold zlen; lia). cbn [or_ub obind]. rewrite rich_eq.
  unfold eq_rest. cbn [py_differ]. unfold omap. rewrite obind_assoc. apply obind_ext. intros [|]; [|reflexivity].
  specialize (IH s (pre ++ [y]) (pres ++ [x])). rewrite <- !app_assoc in IH. cbn [app] in IH. rewrite app_length in IH. cbn [length] in IH.
  replace (length pre + 1)%nat with (S (length pre)) in IH by lia. rewrite IH; [reflexivity|cbn in L; lia|rewrite app_length; cbn; lia].
Qed.
Lemma py_eq_same s ys : length s = length ys -> py_compare ask Eq_ s ys = eq_rest s ys.
Proof.
  intros L. unfold py_compare. rewrite (proj2 (Nat.eqb_eq _ _) L). unfold eq_rest, omap. apply obind_ext. intros [[x y]|]; [reflexivity|].
  cbn [cmp_len]. rewrite (proj2 (Nat.eqb_eq _ _) L). reflexivity.
Qed.
Lemma zlen_eqb (s ys : list Z) : (zlen ys =? zlen s) = (length s =? length ys)%nat.
Proof. unfold zlen. destruct (Z.eqb_spec (Z.of_nat (length ys)) (Z.of_nat (length s))), (Nat.eqb_spec (length s) (length ys)); lia. Qed.
Lemma a_eq_python s ys : a_compare cmp (fun _ => s) Eq_ (oseq ys) s = py_compare ask Eq_ s ys.
Proof.
  cbn [a_compare a_eq oseq seq_size]. rewrite zlen_eqb. destruct (Nat.eqb_spec (length s) (length ys)) as [L|L]; cbn [negb].
  - replace (Z.to_nat (zlen ys)) with (length ys) by (unfold zlen; lia). rewrite py_eq_same by exact L.
    exact (a_eq_loop_ok ys s [] [] L eq_refl).
  - unfold py_compare. rewrite (proj2 (Nat.eqb_neq _ _) L). reflexivity.
Qed.

Lemma l_eq_loop_ok (sl : slist Z) ys : wf sl -> forall s pre pres, values sl = pres ++ s -> length s = length ys -> length pre = length pres ->
  l_eq_loop cmp (fun _ => sl) (getter_of (pre ++ ys)) (length ys) (length pre) (itpos sl (length pres)) sl = eq_rest s ys.
Proof.
  intros W. induction ys as [|y ys IH]; intros s pre pres V L P; destruct s as [|x s]; try discriminate; cbn [length l_eq_loop]; [reflexivity|].
  rewrite getter_mid by reflexivity. cbn [obind].
  rewrite (deref_pos sl (length pres) x W) by (rewrite V, nth_error_app2, Nat.sub_diag by lia; reflexivity). cbn [obind]. rewrite rich_eq.
  unfold eq_rest. cbn [py_differ]. unfold omap. rewrite obind_assoc. apply obind_ext. intros [|]; [|reflexivity].
  rewrite (next_pos sl (length pres) W) by (rewrite size_values, V, app_length; cbn; lia). cbn [obind].
  specialize (IH s (pre ++ [y]) (pres ++ [x])). rewrite <- !app_assoc in IH. cbn [app] in IH. rewrite !app_length in IH. cbn [length] in IH.
  replace (length pre + 1)%nat with (S (length pre)) in IH by lia. replace (length pres + 1)%nat with (S (length pres)) in IH by lia.
  rewrite IH; [reflexivity|exact V|cbn in L; lia|lia].
Qed.
Lemma l_eq_python l ys : lwf l -> l_compare cmp (fun _ => lst l) Eq_ (oseq ys) l = py_compare ask Eq_ (vals l) ys.
Proof.
  intros W. cbn [l_compare oseq seq_size]. replace (lsize l) with (zlen (vals l)) by (unfold zlen, vals, lsize; rewrite size_values; reflexivity).
  rewrite zlen_eqb. destruct (Nat.eqb_spec (length (vals l)) (length ys)) as [L|L]; cbn [negb].
  - replace (Z.to_nat (zlen ys)) with (length ys) by (unfold zlen; lia). rewrite py_eq_same by exact L.
    exact (l_eq_loop_ok (lst l) ys W (vals l) [] [] eq_refl L eq_refl).
  - unfold py_compare. rewrite (proj2 (Nat.eqb_neq _ _) L). reflexivity.
Qed.

(** != asks the items for != where Python asks for ==. *)
Hypothesis coherent : forall x y, ask Ne_ x y = omap negb (ask Eq_ x y).
Lemma rich_ne t x y : rich_bool cmp t Ne_ x y = omap negb (py_same ask x y).
Proof. unfold rich_bool, py_same. destruct (x =? y); [reflexivity|]. apply coherent. Qed.
Definition ne_rest (s ys : list Z) : outcome bool := omap (fun d => match d with None => false | Some _ => true end) (py_differ ask s ys).
Lemma a_ne_loop_ok ys : forall s pre pres, length s = length ys -> length pre = length pres ->
  a_ne_loop cmp (fun _ => pres ++ s) (getter_of (pre ++ ys)) (length ys) (length pre) (pres ++ s) = ne_rest s ys.
Proof.
  induction ys as [|y ys IH]; intros s pre pres L P; destruct s as [|x s]; try discriminate; cbn [length a_ne_loop]; [reflexivity|].
  rewrite getter_mid by reflexivity. cbn [obind]. rewrite znth_mid by (unfold zlen; lia). cbn [or_ub obind]. rewrite rich_ne.
  unfold ne_rest. cbn [py_differ]. unfold omap. rewrite !obind_assoc. apply obind_ext. intros [|]; cbn [negb obind]; [|reflexivity].
  specialize (IH s (pre ++ [y]) (pres ++ [x])). rewrite <- !app_assoc in IH. cbn [app] in IH. rewrite app_length in IH. cbn [length] in IH.
  replace (length pre + 1)%nat with (S (length pre)) in IH by lia. rewrite IH; [reflexivity|cbn in L; lia|rewrite app_length; cbn; lia].
Qed.
Lemma py_ne_same s ys : length s = length ys -> py_compare ask Ne_ s ys = ne_rest s ys.
Proof.
  intros L. unfold py_compare. rewrite (proj2 (Nat.eqb_eq _ _) L). unfold ne_rest, omap. apply obind_ext. intros [[x y]|]; [reflexivity|].
  cbn [cmp_len]. rewrite (proj2 (Nat.eqb_eq _ _) L). reflexivity.
Qed.
Lemma a_ne_python s ys : a_compare cmp (fun _ => s) Ne_ (oseq ys) s = py_compare ask Ne_ s ys.
Proof.
  cbn [a_compare a_ne oseq seq_size]. rewrite zlen_eqb. destruct (Nat.eqb_spec (length s) (length ys)) as [L|L]; cbn [negb].
  - replace (Z.to_nat (zlen ys)) with (length ys) by (unfold zlen; lia). rewrite py_ne_same by exact L.
    exact (a_ne_loop_ok ys s [] [] L eq_refl).
  - unfold py_compare. rewrite (proj2 (Nat.eqb_neq _ _) L). reflexivity.
Qed.
Lemma l_ne_loop_ok (sl : slist Z) ys : wf sl -> forall s pre pres, values sl = pres ++ s -> length s = length ys -> length pre = length pres ->
  l_ne_loop cmp (fun _ => sl) (getter_of (pre ++ ys)) (length ys) (length pre) (itpos sl (length pres)) sl = ne_rest s ys.
Proof.
  intros W. induction ys as [|y ys IH]; intros s pre pres V L P; destruct s as [|x s]; try discriminate; cbn [length l_ne_loop]; [reflexivity|].
  rewrite getter_mid by reflexivity. cbn [obind].
  rewrite (deref_pos sl (length pres) x W) by (rewrite V, nth_error_app2, Nat.sub_diag by lia; reflexivity). cbn [obind]. rewrite rich_ne.
  unfold ne_rest. cbn [py_differ]. unfold omap. rewrite !obind_assoc. apply obind_ext. intros [|]; cbn [negb obind]; [|reflexivity].
  rewrite (next_pos sl (length pres) W) by (rewrite size_values, V, app_length; cbn; lia). cbn [obind].
  specialize (IH s (pre ++ [y]) (pres ++ [x])). rewrite <- !app_assoc in IH. cbn [app] in IH. rewrite !app_length in IH. cbn [length] in IH.
  replace (length pre + 1)%nat with (S (length pre)) in IH by lia. replace (length pres + 1)%nat with (S (length pres)) in IH by lia.
  rewrite IH; [reflexivity|exact V|cbn in L; lia|lia].
Qed.
Lemma l_ne_python l ys : lwf l -> l_compare cmp (fun _ => lst l) Ne_ (oseq ys) l = py_compare ask Ne_ (vals l) ys.
Proof.
  intros W. cbn [l_compare oseq seq_size]. replace (lsize l) with (zlen (vals l)) by (unfold zlen, vals, lsize; rewrite size_values; reflexivity).
  rewrite zlen_eqb. destruct (Nat.eqb_spec (length (vals l)) (length ys)) as [L|L]; cbn [negb].
  - replace (Z.to_nat (zlen ys)) with (length ys) by (unfold zlen; lia). rewrite py_ne_same by exact L.
    exact (l_ne_loop_ok (lst l) ys W (vals l) [] [] eq_refl L eq_refl).
  - unfold py_compare. rewrite (proj2 (Nat.eqb_neq _ _) L). reflexivity.
Qed.
End Eq.

(** ** Ordering *)
Lemma zlen_ltb (s ys : list Z) : (zlen s <? zlen ys) = (length s <? length ys)%nat.
Proof. unfold zlen. destruct (Z.ltb_spec (Z.of_nat (length s)) (Z.of_nat (length ys))), (Nat.ltb_spec (length s) (length ys)); lia. Qed.
Lemma a_order cmp now c s ys : order_op c = true -> a_compare cmp now c (oseq ys) s = first_pair (cmp 0%nat) c s ys.
Proof.
  intros O. assert (E : a_compare cmp now c (oseq ys) s = a_ord cmp c (oseq ys) s) by (destruct c; try discriminate; reflexivity). rewrite E.
  unfold a_ord, oseq. cbn [obind]. rewrite (Z.eqb_sym (zlen s)), zlen_eqb, zlen_ltb. unfold first_pair.
  destruct (Nat.eqb_spec (length s) (length ys)) as [L|L]; cbn [negb]; [|reflexivity].
  destruct s as [|x s], ys as [|y ys]; try discriminate; [reflexivity|].
  destruct (Z.ltb_spec 0 (zlen (y :: ys))) as [P|P]; [|unfold zlen in P; cbn in P; lia].
  change (znth (y :: ys) 0) with (Some y). change (znth (x :: s) 0) with (Some x). cbn [obind or_ub]. destruct c; try discriminate; reflexivity.
Qed.
Lemma l_order cmp now c l ys : lwf l -> order_op c = true -> l_compare cmp now c (oseq ys) l = first_pair (cmp 0%nat) c (vals l) ys.
Proof.
  intros W O. assert (SZ : lsize l = zlen (vals l)) by (unfold zlen, vals, lsize; rewrite size_values; reflexivity).
  assert (E : l_compare cmp now c (oseq ys) l = (if negb (zlen (vals l) =? zlen ys) then Ret (zlen (vals l) <? zlen ys)
     else if 0 <? zlen ys then obind (getter_of ys 0) (fun item => obind (deref (lst l) (begin_ (lst l))) (fun x => cmp 0%nat c x item)) else Ret false)).
  { rewrite <- SZ. destruct c; try discriminate; reflexivity. }
  rewrite E, (Z.eqb_sym (zlen _)), zlen_eqb, zlen_ltb. unfold first_pair.
  destruct (Nat.eqb_spec (length (vals l)) (length ys)) as [L|L]; cbn [negb]; [|reflexivity].
  destruct ys as [|y ys]; [destruct (vals l); [reflexivity|discriminate]|].
  destruct (vals l) as [|x s] eqn:V; [discriminate|].
  destruct (Z.ltb_spec 0 (zlen (y :: ys))) as [P|P]; [|unfold zlen in P; cbn in P; lia].
  change (getter_of (y :: ys) 0) with (Ret y). cbn [obind].
  change (begin_ (lst l)) with (itpos (lst l) 0). rewrite (deref_pos (lst l) 0 x W) by (change (values (lst l)) with (vals l); rewrite V; reflexivity). reflexivity.
Qed.
(** Right when the first pair decides. *)
Lemma first_pair_python ask c x s y ys : order_op c = true -> length s = length ys -> x <> y -> ask Eq_ x y = Ret false ->
  first_pair ask c (x :: s) (y :: ys) = py_compare ask c (x :: s) (y :: ys).
Proof.
  intros O L N E. unfold first_pair, py_compare. cbn [length py_differ]. rewrite L, Nat.eqb_refl. unfold py_same.
  destruct (Z.eqb_spec x y); [contradiction|]. rewrite E. cbn [obind]. destruct c; try discriminate; reflexivity.
Qed.
(** Lists of different length: one of two opposite comparisons is wrong. *)
Lemma py_opposites ask s ys b : (forall x y, x <> y -> exists r, ask Eq_ x y = Ret r) ->
  (forall x y, ask Ge_ x y = omap negb (ask Lt_ x y)) -> py_compare ask Lt_ s ys = Ret b -> py_compare ask Ge_ s ys = Ret (negb b).
Proof.
  intros T C. unfold py_compare. destruct (length s =? length ys)%nat.
  all: destruct (py_differ ask s ys) as [[[x y]|]|e|d e|u]; cbn [obind cmp_len]; try discriminate.
  all: try (intros H; rewrite C, H; reflexivity).
  all: try (intros H; injection H as <-; rewrite Nat.ltb_antisym, negb_involutive; reflexivity).
  all: destruct d as [[x y]|]; cbn; try discriminate; try (destruct (ask Lt_ x y); discriminate).
Qed.

(** ** repr *)
Lemma repr_init_ok text s : forall pre last acc, repr_init text (length s) (zlen pre) (pre ++ s ++ [last]) acc =
  omap (fun ts => acc ++ concat (map (fun t => t ++ [44; 32]) ts)) (py_texts text s).
Proof.
  induction s as [|o s IH]; intros pre last acc; cbn [length repr_init].
  - cbn [py_texts omap obind map concat]. rewrite app_nil_r. reflexivity.
  - cbn [app]. rewrite znth_mid by reflexivity. cbn [or_ub obind py_texts]. unfold omap. rewrite !obind_assoc. apply obind_ext. intros t.
    specialize (IH (pre ++ [o]) last ((acc ++ t) ++ [44; 32])). rewrite <- !app_assoc in IH. cbn [app] in IH.
    rewrite zlen_app in IH. change (zlen [o]) with 1 in IH. rewrite <- app_assoc. cbn [app]. rewrite IH. unfold omap. rewrite obind_assoc. apply obind_ext. intros ts.
    cbn [obind map concat]. rewrite <- !app_assoc. reflexivity.
Qed.
Lemma commas_snoc ts t : commas (ts ++ [t]) = concat (map (fun t => t ++ [44; 32]) ts) ++ t.
Proof.
  induction ts as [|u ts IH]; [cbn; rewrite ?app_nil_r; reflexivity|]. cbn [app map concat]. rewrite <- !app_assoc, <- IH.
  destruct ts; reflexivity.
Qed.
Lemma py_texts_snoc text s o : py_texts text (s ++ [o]) = obind (py_texts text s) (fun ts => omap (fun t => ts ++ [t]) (text o)).
Proof.
  induction s as [|x s IH]; cbn [app py_texts obind].
  - unfold omap. apply obind_ext. reflexivity.
  - rewrite IH. unfold omap. rewrite !obind_assoc. apply obind_ext. intros t. rewrite !obind_assoc. apply obind_ext. intros ts. cbn [obind].
    rewrite !obind_assoc. apply obind_ext. reflexivity.
Qed.
Definition no_pending (text : Z -> outcome (list Z)) : Prop := forall o t e, text o <> RetPending t e.
Lemma py_repr_snoc text s o : no_pending text ->
  obind (omap (fun ts => [91] ++ concat (map (fun t => t ++ [44; 32]) ts)) (py_texts text s)) (fun acc => repr_last acc (text o))
  = py_repr text (s ++ [o]).
Proof.
  intros NP. unfold py_repr. rewrite py_texts_snoc. unfold omap. rewrite !obind_assoc. apply obind_ext. intros ts. cbn [obind].
  destruct (text o) as [t|e|t e|u] eqn:E; cbn; try reflexivity.
  - rewrite commas_snoc, <- !app_assoc. reflexivity.
  - exfalso. exact (NP o t e E).
Qed.
Lemma exists_last_or {A} (s : list A) : s = [] \/ exists r o, s = r ++ [o].
Proof. destruct s as [|x s]; [left; reflexivity|right]. destruct (exists_last (l := x :: s)) as (r & o & E); [discriminate|]. exists r, o. exact E. Qed.
Lemma a_repr_ok text s : no_pending text -> a_repr text s = py_repr text s.
Proof.
  intros NP. destruct (exists_last_or s) as [->|(r & o & ->)]; [reflexivity|]. unfold a_repr.
  destruct (r ++ [o]) as [|z zs] eqn:E; [destruct r; discriminate|]. rewrite <- E. clear E z zs.
  replace (length (r ++ [o]) - 1)%nat with (length r) by (rewrite app_length; cbn; lia).
  pose proof (repr_init_ok text r [] o [91]) as Q. cbn [app] in Q. change (zlen (@nil Z)) with 0 in Q. rewrite Q.
  rewrite <- (py_repr_snoc text r o NP). apply obind_ext. intros acc.
  rewrite (znth_mid r o []) by (rewrite zlen_app; change (zlen [o]) with 1; lia). reflexivity.
Qed.
Lemma l_repr_init_ok text (sl : slist Z) last s : wf sl -> forall pre acc, values sl = pre ++ s ++ [last] ->
  l_repr_init text (length s) (itpos sl (length pre)) sl acc =
  omap (fun ts => acc ++ concat (map (fun t => t ++ [44; 32]) ts)) (py_texts text s).
Proof.
  intros W. induction s as [|o s IH]; intros pre acc V; cbn [length l_repr_init].
  - cbn [py_texts omap obind map concat]. rewrite app_nil_r. reflexivity.
  - rewrite (deref_pos sl (length pre) o W) by (rewrite V, nth_error_app2, Nat.sub_diag by lia; reflexivity). cbn [obind py_texts].
    unfold omap. rewrite !obind_assoc. apply obind_ext. intros t.
    rewrite (next_pos sl (length pre) W) by (rewrite size_values, V, app_length; cbn; lia). cbn [obind].
    specialize (IH (pre ++ [o]) ((acc ++ t) ++ [44; 32])). rewrite app_length in IH. cbn [length] in IH.
    replace (length pre + 1)%nat with (S (length pre)) in IH by lia. rewrite IH by (rewrite <- app_assoc; exact V).
    unfold omap. rewrite obind_assoc. apply obind_ext. intros ts. cbn [obind map concat]. rewrite <- !app_assoc. reflexivity.
Qed.
Lemma l_repr_ok text l : lwf l -> no_pending text -> l_repr text l = py_repr text (vals l).
Proof.
  intros W NP. unfold l_repr. destruct (exists_last_or (vals l)) as [V|(r & o & V)].
  - assert (N : nodes (lst l) = []) by (apply map_eq_nil in V; exact V). rewrite N, V. reflexivity.
  - destruct (nodes (lst l)) as [|nd ns] eqn:N; [unfold vals, values in V; rewrite N in V; destruct r; discriminate|].
    replace (size (lst l) - 1)%nat with (length r) by (rewrite size_values; change (values (lst l)) with (vals l); rewrite V, app_length; cbn; lia).
    change (begin_ (lst l)) with (itpos (lst l) 0). pose proof (l_repr_init_ok text (lst l) o r W [] [91] V) as Q. cbn [length] in Q. rewrite Q.
    rewrite V. rewrite <- (py_repr_snoc text r o NP). apply obind_ext. intros acc. rewrite (back_ok (lst l) o r W V). reflexivity.
Qed.

(** ** Iterators: the integer iterators' answers, each handed-out object with
    one reference of its own *)
Definition kept (rc : counts) (s : list Z) : Prop := Forall (fun o => obj o /\ 0 < rc o) s.
Lemma kept_mono (rc rc' : counts) s : (forall x, rc x <= rc' x) -> kept rc s -> kept rc' s.
Proof. intros L. apply Forall_impl. intros o [O H]. specialize (L o). split; [exact O|lia]. Qed.
Lemma handed_ok {I} (x : outcome Z) (it : I) rc : (forall o, x = Ret o -> obj o /\ 0 < rc o) -> (forall o e, x <> RetPending o e) ->
  exists rc', handed (x, it) rc = (x, (it, rc')) /\ forall y, rc' y = rc y + occ (handed_out [x]) y.
Proof.
  intros H NP. destruct x as [o|e|o e|u]; unfold handed.
  - destruct (H o eq_refl) as [O P]. destruct (incref_ok o rc O P) as (rc' & -> & C). exists rc'. split; [reflexivity|]. exact C.
  - exists rc. split; [reflexivity|]. intros y. cbn. lia.
  - destruct (NP o e eq_refl).
  - exists rc. split; [reflexivity|]. intros y. cbn. lia.
Qed.
Lemma handed_out_cons x xs : handed_out (x :: xs) = handed_out [x] ++ handed_out xs.
Proof. unfold handed_out. cbn [flat_map]. rewrite app_nil_r. reflexivity. Qed.

Lemma or_ub_in u (s : list Z) i o : or_ub u (znth s i) = Ret o -> In o s.
Proof. destruct (znth s i) as [v|] eqn:Z0; cbn; [|discriminate]. intros E. injection E as <-. unfold znth in Z0. destruct (i <? 0); [discriminate|]. exact (nth_error_In _ _ Z0). Qed.
Lemma iter_next_in it s o : fst (iter_next it s) = Ret o -> In o s.
Proof.
  unfold iter_next. destruct s as [|x s]; [discriminate|].
  repeat match goal with |- context [if ?b then _ else _] => destruct b end; cbn [fst]; intros H; try discriminate; apply or_ub_in in H; exact H.
Qed.
Lemma iter_next_plain it s o e : fst (iter_next it s) <> RetPending o e.
Proof.
  unfold iter_next. destruct s as [|x s]; [discriminate|].
  repeat match goal with |- context [if ?b then _ else _] => destruct b end; cbn [fst]; try discriminate; destruct (znth _ _); discriminate.
Qed.
Lemma oa_run_ok vs : forall it rc, Forall (kept rc) vs ->
  exists rc', oa_run it vs rc = (iter_run it vs, rc') /\ forall x, rc' x = rc x + occ (handed_out (iter_run it vs)) x.
Proof.
  induction vs as [|s vs IH]; intros it rc K; cbn [oa_run iter_run].
  - exists rc. split; [reflexivity|]. intros x. cbn. lia.
  - inversion K as [|? ? K1 K2]; subst. unfold oa_next. destruct (iter_next it s) as [x it'] eqn:N.
    destruct (handed_ok x it' rc) as (rc1 & -> & C1).
    { intros o ->. apply (proj1 (Forall_forall _ _) K1). apply (iter_next_in it s o). rewrite N. reflexivity. }
    { intros o e ->. apply (iter_next_plain it s o e). rewrite N. reflexivity. }
    destruct (IH it' rc1) as (rc2 & -> & C2).
    { eapply Forall_impl; [|exact K2]. intros t. apply kept_mono. intros y. rewrite C1. pose proof (occ_nonneg (handed_out [x]) y). lia. }
    exists rc2. split; [reflexivity|]. intros y. rewrite C2, C1, (handed_out_cons x (iter_run it' vs)), occ_app. lia.
Qed.

Lemma deref_in (s : slist Z) it o : deref s it = Ret o -> In o (values s).
Proof.
  unfold deref. destruct it as [i|]; try discriminate. destruct (pos_of (nodes s) i) as [p|]; [|discriminate].
  destruct (nth_error (nodes s) p) as [[j v]|] eqn:E; [|discriminate]. intros H. injection H as <-. apply nth_error_In in E.
  unfold values. apply in_map_iff. exists (j, v). split; [reflexivity|exact E].
Qed.
Lemma obind_ret_inv {A B} (o : outcome A) (f : A -> outcome B) b : obind o f = Ret b -> exists a, o = Ret a /\ f a = Ret b.
Proof. destruct o as [a|e|a e|u]; cbn; try discriminate; [eauto|]. destruct (f a); discriminate. Qed.
Lemma liter_next_in it l o : fst (liter_next it l) = Ret o -> In o (vals l).
Proof.
  unfold liter_next. destruct (nodes (lst l)); [discriminate|].
  destruct (li_rev it); [destruct (li_index it =? 0); [|destruct (li_index it =? SIZE_MAX)]|destruct (lsize l <=? li_index it)]; cbn [fst]; try discriminate.
  - intros H. apply obind_ret_inv in H. destruct H as (a & _ & D). exact (deref_in _ _ _ D).
  - match goal with |- context [obind (update_cache it l) ?g] => destruct (obind (update_cache it l) g) as [[x it']|e|[x it'] e|u] eqn:Q end;
      cbn [fst]; try discriminate. intros E. injection E as <-.
    apply obind_ret_inv in Q. destruct Q as (it1 & _ & Q). apply obind_ret_inv in Q. destruct Q as (y & D & Q).
    apply obind_ret_inv in Q. destruct Q as (c & _ & Q). injection Q as <- _. exact (deref_in _ _ _ D).
  - match goal with |- context [obind (update_cache it l) ?g] => destruct (obind (update_cache it l) g) as [[x it']|e|[x it'] e|u] eqn:Q end;
      cbn [fst]; try discriminate. intros E. injection E as <-.
    apply obind_ret_inv in Q. destruct Q as (it1 & _ & Q). apply obind_ret_inv in Q. destruct Q as (y & D & Q).
    apply obind_ret_inv in Q. destruct Q as (c & _ & Q). injection Q as <- _. exact (deref_in _ _ _ D).
Qed.
Lemma deref_plain (s : slist Z) it o e : deref s it <> RetPending o e.
Proof.
  unfold deref. destruct it as [i|]; try discriminate. destruct (pos_of (nodes s) i) as [p|]; [|discriminate].
  destruct (nth_error (nodes s) p) as [[j v]|]; discriminate.
Qed.
Lemma it_prev_plain (s : slist Z) it o e : it_prev s it <> RetPending o e.
Proof. unfold it_prev. repeat match goal with |- context [match ?b with _ => _ end] => destruct b end; discriminate. Qed.
Lemma liter_next_plain it l o e : fst (liter_next it l) <> RetPending o e.
Proof.
  unfold liter_next. destruct (nodes (lst l)); [discriminate|].
  destruct (li_rev it); [destruct (li_index it =? 0); [|destruct (li_index it =? SIZE_MAX)]|destruct (lsize l <=? li_index it)]; cbn [fst]; try discriminate.
  - destruct (it_prev (lst l) end_) as [a|a|a b|a] eqn:P; cbn [obind]; try discriminate; [apply deref_plain|destruct (it_prev_plain _ _ _ _ P)].
  - match goal with |- context [obind (update_cache it l) ?g] => destruct (obind (update_cache it l) g) as [[x it']|?|[x it'] ?|?] end; discriminate.
  - match goal with |- context [obind (update_cache it l) ?g] => destruct (obind (update_cache it l) g) as [[x it']|?|[x it'] ?|?] end; discriminate.
Qed.
Lemma ol_run_ok ls : forall it rc, Forall (fun l => kept rc (vals l)) ls ->
  exists rc', ol_run it ls rc = (liter_run it ls, rc') /\ forall x, rc' x = rc x + occ (handed_out (liter_run it ls)) x.
Proof.
  induction ls as [|s ls IH]; intros it rc K; cbn [ol_run liter_run].
  - exists rc. split; [reflexivity|]. intros x. cbn. lia.
  - inversion K as [|? ? K1 K2]; subst. unfold ol_next. destruct (liter_next it s) as [x it'] eqn:N.
    destruct (handed_ok x it' rc) as (rc1 & -> & C1).
    { intros o ->. apply (proj1 (Forall_forall _ _) K1). apply (liter_next_in it s o). rewrite N. reflexivity. }
    { intros o e ->. apply (liter_next_plain it s o e). rewrite N. reflexivity. }
    destruct (IH it' rc1) as (rc2 & -> & C2).
    { eapply Forall_impl; [|exact K2]. intros t. apply kept_mono. intros y. rewrite C1. pose proof (occ_nonneg (handed_out [x]) y). lia. }
    exists rc2. split; [reflexivity|]. intros y. rewrite C2, C1, (handed_out_cons x (liter_run it' ls)), occ_app. lia.
Qed.
