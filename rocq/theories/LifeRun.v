(** Proofs for C74, continued: whole histories, careless ones, and iterators. *)
From Coq Require Import ZArith List Bool String Lia Permutation.
From Verif Require Import Base PyListSpec PyLongModel PyLongProofs ListLemmas ArrayListModel LifeModel LifeSpec LifeProofs LifeWorld.
Import ListNotations.
Local Open Scope Z_scope.
Local Arguments Z.pow : simpl never.
Local Arguments Z.add : simpl never.
Local Arguments Z.mul : simpl never.
Local Arguments Z.sub : simpl never.

Lemma lose_len : forall c o w st lost, inv c w st lost ->
  (linked c = true -> zlen (lose c o w) = dropped o st) /\
  (linked c = false -> zlen (lose c o w) <= again o st).
Proof.
  intros c o w st lost V. split; intros L; destruct o as [|x pos kw| | | | | |]; cbn [lose dropped again]; try reflexivity; try (cbn; lia).
  - assert (A := inv_agree _ _ _ _ V x). destruct (find_obj (objs w) x) as [d|]; destruct (st x) as [[u l]|]; cbn [agree] in A; try tauto; try reflexivity.
    destruct A as (I & S & N). destruct u.
    + specialize (S eq_refl). unfold shape in S. rewrite L in S. unfold zlen. rewrite <- I. lia.
    + destruct (N eq_refl) as (_ & -> & ->). reflexivity.
  - assert (A := inv_agree _ _ _ _ V x). destruct (find_obj (objs w) x) as [d|]; destruct (st x) as [[u l]|]; cbn [agree] in A; try tauto; try (cbn; lia).
    destruct A as (I & S & N). destruct u.
    + specialize (S eq_refl). unfold shape in S. rewrite L in S. unfold zlen. lia.
    + destruct (N eq_refl) as (_ & -> & _). cbn. lia.
Qed.

Lemma run_ok : forall room c ok h w st lost, decides c ok -> Forall (sound room c) h -> inv c w st lost ->
  linked c = false \/ careful c ok h st = true ->
  exists more, let r := lrun room c h w in let p := prun c ok h st in
  map seen (fst r) = map Some (fst p) /\ inv c (snd r) (snd p) (more ++ lost) /\
  (linked c = true -> zlen more = sum_over c ok dropped h st) /\
  (linked c = false -> zlen more <= sum_over c ok again h st).
Proof.
  intros room c ok h. induction h as [|o h IH]; intros w st lost D F V H; cbn [lrun prun sum_over].
  - exists []. split; [reflexivity|]. split; [exact V|]. split; [reflexivity|cbn; lia].
  - inversion F as [|? ? Fo F']; subst.
    assert (Ho : linked c = false \/ reckless c ok o st = false).
    { destruct H as [L|H]; [left; exact L|right]. cbn [careful] in H. apply andb_prop in H. destruct H as [H _]. destruct (reckless c ok o st); [discriminate|reflexivity]. }
    destruct (lstep_ok room c ok o w st lost D Fo V Ho) as (r & w1 & E & Q & V1).
    destruct (lose_len c o w st lost V) as (N1 & N2).
    destruct (IH w1 (snd (pstep c ok o st)) _ D F' V1) as (more & I1 & I2 & I3 & I4).
    { destruct H as [L|H]; [left; exact L|right]. cbn [careful] in H. apply andb_prop in H. tauto. }
    rewrite E. destruct (pstep c ok o st) as [a st1]. cbn [fst snd] in *.
    exists (more ++ lose c o w). destruct (prun c ok h st1) as [as_ st2]. cbn [fst snd] in *. rewrite <- app_assoc.
    assert (R : match r with Undef _ => False | _ => True end) by (destruct r; try exact I; discriminate Q).
    destruct (lrun room c h w1) as [xs w2]. cbn [fst snd] in *.
    assert (G : (match r with Undef _ => ([r], w1) | _ => (r :: xs, w2) end) = (r :: xs, w2)) by (destruct r; try reflexivity; elim R).
    rewrite G. cbn [fst snd map]. rewrite Q, I1. split; [reflexivity|]. split; [exact I2|]. unfold zlen in *. rewrite app_length.
    split; intros L; [specialize (N1 L); specialize (I3 L)|specialize (N2 L); specialize (I4 L)]; lia.
Qed.

Lemma life_answers : forall room c ok h, decides c ok -> Forall (sound room c) h ->
  linked c = false \/ careful c ok h nothing = true ->
  let r := lrun room c h start in let p := prun c ok h nothing in
  map seen (fst r) = map Some (fst p) /\
  forall x, option_map items (find_obj (objs (snd r)) x) = option_map snd (snd p x).
Proof.
  intros room c ok h D F H. destruct (run_ok room c ok h start nothing [] D F (inv_start c) H) as (more & A & V & _).
  split; [exact A|]. intros x. assert (G := inv_agree _ _ _ _ V x).
  destruct (find_obj _ x) as [d|]; destruct (snd (prun c ok h nothing) x) as [[u l]|]; cbn [agree option_map snd] in *; try tauto.
  destruct G as (-> & _). reflexivity.
Qed.

Lemma life_memory : forall room c ok h, decides c ok -> Forall (sound room c) h ->
  linked c = false \/ careful c ok h nothing = true ->
  let w := snd (lrun room c h start) in
  exists lost, Permutation (heap (wmem w)) (owned w ++ lost) /\ NoDup (heap (wmem w)) /\
    (linked c = true -> zlen (owned w) = fold_right Z.add 0 (map (fun p => zlen (items (snd p))) (objs w)) /\
                        zlen lost = sum_over c ok dropped h nothing) /\
    (linked c = false -> zlen (owned w) <= zlen (objs w) /\ zlen lost <= sum_over c ok again h nothing).
Proof.
  intros room c ok h D F H. destruct (run_ok room c ok h start nothing [] D F (inv_start c) H) as (more & A & V & N1 & N2).
  rewrite app_nil_r in V. exists more. split; [exact (inv_heap _ _ _ _ V)|]. split; [apply (inv_well _ _ _ _ V)|].
  assert (G : Forall (fun p => agree c (Some (snd p)) (snd (prun c ok h nothing) (fst p))) (objs (snd (lrun room c h start)))).
  { apply Forall_forall. intros [x d] I. cbn [fst snd]. assert (Ax := inv_agree _ _ _ _ V x).
    destruct (in_split _ _ I) as (a & b & E). assert (Nx := inv_names _ _ _ _ V). rewrite E in *. rewrite map_app in Nx. cbn [map fst] in Nx.
    apply NoDup_remove_2 in Nx. rewrite find_mid in Ax by (intros K; apply Nx; apply in_or_app; left; exact K). rewrite Z.eqb_refl in Ax. exact Ax. }
  set (w := snd (lrun room c h start)) in *. unfold owned. split; intros L; (split; [|auto]).
  - clear - G L. induction G as [|[x d] os A G IH]; [reflexivity|]. cbn [map List.concat snd fold_right]. unfold zlen in *. rewrite app_length.
    cbn [snd fst] in A. destruct (snd (prun c ok h nothing) x) as [[u l]|]; [|elim A]. destruct A as (I & S & Nn).
    destruct u; [specialize (S eq_refl); unfold shape in S; rewrite L in S; lia|]. destruct (Nn eq_refl) as (_ & -> & El).
    rewrite I, El. cbn [List.length]. lia.
  - clear - G L. induction G as [|[x d] os A G IH]; [cbn; lia|]. cbn [map List.concat snd]. unfold zlen in *. rewrite app_length. cbn [List.length].
    cbn [snd fst] in A. destruct (snd (prun c ok h nothing) x) as [[u l]|]; [|elim A]. assert (S := shape_vec c d u l L A).
    unfold shape in S. rewrite L in S. lia.
Qed.

Lemma once_dropped : forall c ok h st, (forall x l, st x = Some (false, l) -> l = []) -> careful c ok h st = true ->
  0 <= sum_over c ok again h st /\ (sum_over c ok again h st = 0 -> sum_over c ok dropped h st = 0).
Proof.
  intros c ok. induction h as [|o h IH]; intros st B H; cbn [sum_over]; [lia|].
  cbn [careful] in H. apply andb_prop in H. destruct H as [H1 H2].
  destruct (IH (snd (pstep c ok o st))) as [I1 I2]; [|exact H2|].
  { intros x l. destruct o as [y|y pos kw|y pos kw|y|y i|y v|y|y]; cbn [pstep snd].
    - destruct (st y) eqn:Ey; cbn [snd]; [apply B|]. unfold set_. destruct (x =? y); [congruence|apply B].
    - destruct (st y) eqn:Ey; cbn [snd]; [|apply B]. destruct (initial c ok st y pos kw). cbn [snd]. unfold set_. destruct (x =? y); [congruence|apply B].
    - destruct (st y) eqn:Ey; cbn [snd]; [apply B|]. destruct (initial c ok st y pos kw) as [[v|e] q]; cbn [snd]; [|apply B]. unfold set_. destruct (x =? y); [congruence|apply B].
    - apply B.
    - apply B.
    - destruct (st y) as [[u q]|] eqn:Ey; cbn [snd]; [|apply B]. unfold set_. destruct (x =? y); [congruence|apply B].
    - destruct (st y) as [[u q]|] eqn:Ey; cbn [snd]; [|apply B]. unfold set_. destruct (x =? y); [congruence|apply B].
    - destruct (st y) as [[u q]|] eqn:Ey; cbn [snd]; [|apply B]. unfold set_. destruct (x =? y); [congruence|apply B]. }
  assert (S : 0 <= again o st /\ (again o st = 0 -> dropped o st = 0)).
  { destruct o as [y|y pos kw|y pos kw|y|y i|y v|y|y]; cbn [again dropped]; try lia. specialize (B y). destruct (st y) as [[[|] q]|]; try lia.
    rewrite (B q eq_refl). cbn. lia. }
  lia.
Qed.

(** Objects initialised once, all gone. *)
Lemma life_clean : forall room c ok h, decides c ok -> Forall (sound room c) h ->
  linked c = false \/ careful c ok h nothing = true ->
  (forall x, snd (prun c ok h nothing) x = None) -> sum_over c ok again h nothing = 0 ->
  heap (wmem (snd (lrun room c h start))) = [].
Proof.
  intros room c ok h D F H Gone Once. destruct (run_ok room c ok h start nothing [] D F (inv_start c) H) as (more & A & V & N1 & N2).
  rewrite app_nil_r in V. assert (P := inv_heap _ _ _ _ V).
  assert (E : objs (snd (lrun room c h start)) = []).
  { destruct (objs (snd (lrun room c h start))) as [|[x d] os] eqn:E; [reflexivity|]. assert (Ax := inv_agree _ _ _ _ V x).
    rewrite Gone, E in Ax. cbn [find_obj] in Ax. rewrite Z.eqb_refl in Ax. elim Ax. }
  rewrite E in P. cbn in P.
  assert (E0 : more = []).
  { destruct (linked c) eqn:L; [|specialize (N2 eq_refl); rewrite Once in N2; destruct more; [reflexivity|rewrite zlen_S in N2; assert (Q := zlen_pos _ more); lia]].
    destruct H as [H|H]; [discriminate|]. specialize (N1 eq_refl). destruct (once_dropped c ok h nothing) as [_ B]; [discriminate|exact H|].
    rewrite (B Once) in N1. destruct more; [reflexivity|rewrite zlen_S in N1; assert (Q := zlen_pos _ more); lia]. }
  rewrite E0 in P. apply Permutation_sym, Permutation_nil in P. exact P.
Qed.

(** ** Careless use of a linked list *)
Lemma reckless_undef : forall room c ok o w st lost, linked c = true ->
  decides c ok -> sound room c o -> inv c w st lost -> reckless c ok o st = true ->
  fst (lstep room c o w) = Undef NullDeref.
Proof.
  intros room c ok o w st lost L D G V H.
  assert (U : forall x, uninit st x = true -> exists d, find_obj (objs w) x = Some d /\ built d = false).
  { intros x Ux. unfold uninit in Ux. assert (A := inv_agree _ _ _ _ V x). destruct (find_obj (objs w) x) as [d|]; destruct (st x) as [[[|] l]|]; cbn [agree] in A; try tauto; try discriminate.
    exists d. split; [reflexivity|]. apply A. reflexivity. }
  assert (Init : forall w1 x pos kw, sound_call room c pos kw -> (exists d, find_obj (objs w1) x = Some d) ->
    ok pos kw && match given c pos kw 0 with Some (COf y) => negb (y =? x) && uninit st y | _ => false end = true ->
    (forall y d, y <> x -> find_obj (objs w) y = Some d -> find_obj (objs w1) y = Some d) ->
    exists w2, init_obj room c w1 x pos kw = (Undef NullDeref, w2)).
  { intros w1 x pos kw [N _] [d F] K Same. apply andb_prop in K. destruct K as [O K]. apply (D pos kw N) in O. destruct O as [W _].
    unfold init_obj, on_obj. rewrite F. unfold init_call. rewrite L. rewrite (parse_o_ok c pos kw L N W). cbn [fst snd].
    destruct (given c pos kw 0) as [[|y| | |]|]; try discriminate. apply andb_prop in K. destruct K as [K1 K2].
    destruct (U y K2) as (e & Fe & Be). cbn [from_arg]. unfold copy_from. rewrite (Z.eqb_sym x y).
    destruct (Z.eqb_spec y x) as [|Ny]; [discriminate|]. rewrite (Same y e Ny Fe), L, Be. cbn [andb negb]. eexists. reflexivity. }
  destruct o as [x|x pos kw|x pos kw|x|x i|x v|x|x]; cbn [reckless lstep] in *; try discriminate.
  - assert (A := inv_agree _ _ _ _ V x). destruct (st x) as [[u l]|] eqn:Ex; [|discriminate]. destruct (find_obj (objs w) x) as [d|] eqn:F; [|elim A].
    destruct (Init w x pos kw G (ex_intro _ d F) H) as [w2 E]; [auto|]. rewrite E. reflexivity.
  - assert (A := inv_agree _ _ _ _ V x). destruct (st x) as [[u l]|] eqn:Ex; [discriminate|]. destruct (find_obj (objs w) x) as [d|] eqn:F; [elim A|].
    destruct (Init (add_obj w x) x pos kw G) as [w2 E]; [|exact H| |rewrite E; reflexivity].
    + exists raw. cbn [add_obj objs]. rewrite (find_snoc _ _ _ _ F), Z.eqb_refl. reflexivity.
    + intros y d K Fy. cbn [add_obj objs]. rewrite (find_snoc _ _ _ _ F). destruct (Z.eqb_spec y x); [contradiction|exact Fy].
  - destruct (U x H) as (d & F & B). unfold on_obj. rewrite F. unfold append_call, push. cbn [fst snd]. rewrite L, B. reflexivity.
  - destruct (U x H) as (d & F & B). unfold on_obj. rewrite F. unfold clear_call. cbn [fst snd]. rewrite L, B. reflexivity.
  - destruct (U x H) as (d & F & B). unfold drop_obj, on_obj. rewrite F. unfold dealloc. cbn [fst snd]. rewrite L, B. reflexivity.
Qed.

Lemma lrun_app : forall room c h1 h2 w, Forall (fun x => match x with Undef _ => False | _ => True end) (fst (lrun room c h1 w)) ->
  lrun room c (h1 ++ h2) w =
  (fst (lrun room c h1 w) ++ fst (lrun room c h2 (snd (lrun room c h1 w))), snd (lrun room c h2 (snd (lrun room c h1 w)))).
Proof.
  intros room c. induction h1 as [|o h IH]; intros h2 w F; cbn [app lrun fst snd] in *; [destruct (lrun room c h2 w); reflexivity|].
  destruct (lstep room c o w) as [x w1]. specialize (IH h2 w1).
  destruct (lrun room c h w1) as [xs w2]. cbn [fst snd] in IH.
  destruct x; cbn [fst snd] in *; inversion F; subst; try tauto; (rewrite IH by assumption; destruct (lrun room c h2 w2); reflexivity).
Qed.
Lemma seen_defined : forall xs (ans : list answer), map seen xs = map Some ans ->
  Forall (fun x => match x with Undef _ => False | _ => True end) xs.
Proof.
  induction xs as [|x xs IH]; intros [|a ans] H; try discriminate; constructor.
  - injection H as H _. destruct x; try exact I. discriminate H.
  - injection H as _ H. exact (IH ans H).
Qed.

Lemma life_careless : forall room c ok pre o post, linked c = true -> decides c ok ->
  Forall (sound room c) (pre ++ [o]) -> careful c ok pre nothing = true ->
  reckless c ok o (snd (prun c ok pre nothing)) = true ->
  exists xs, fst (lrun room c (pre ++ o :: post) start) = xs ++ [Undef NullDeref] /\ map seen xs = map Some (fst (prun c ok pre nothing)).
Proof.
  intros room c ok pre o post L D F C R. apply Forall_app in F. destruct F as [F1 F2]. inversion F2 as [|? ? Fo _]; subst.
  destruct (run_ok room c ok pre start nothing [] D F1 (inv_start c) (or_intror C)) as (more & A & V & _).
  exists (fst (lrun room c pre start)). split; [|exact A]. rewrite lrun_app by exact (seen_defined _ _ A). cbn [fst]. f_equal.
  assert (E := reckless_undef room c ok o _ _ _ L D Fo V R). cbn [lrun].
  destruct (lstep room c o (snd (lrun room c pre start))) as [x w1]. cbn [fst] in E. subst x. reflexivity.
Qed.

(** ** A reservation that is refused *)
Lemma refused : forall room c os x pos kw s n, linked c = false -> NoDup (map fst kw) ->
  well_called c pos kw -> good_size c pos kw -> 0 < n -> room n = false ->
  (given c pos kw 0 = Some (CInt n) /\ in_sbits 64 n) \/
  ((forall z, given c pos kw 0 <> Some (CInt z)) /\ given c pos kw 1 = Some (CInt n)) ->
  let r := init_call room c os x pos kw s in fst r = Raise RuntimeError /\ items (fst (snd r)) = [].
Proof.
  intros room c os x pos kw s n L N W V Hn Hr H. unfold init_call. rewrite L. unfold parse_args. rewrite (parse_on_ok c pos kw L N W V).
  assert (Hb : (0 <? n) && negb (room n) = true) by (rewrite Hr; destruct (Z.ltb_spec 0 n); [reflexivity|lia]).
  destruct H as [[H1 H2]|[H1 H2]].
  - rewrite H1. apply in_sbits_b_spec in H2. rewrite H2, Hb. auto.
  - rewrite H2. cbn [size_of_arg]. destruct (given c pos kw 0) as [[z|y|its|its fin|]|]; try (rewrite Hb; auto; fail). elim (H1 z). reflexivity.
Qed.

(** ** Iterators across init *)
Lemma fill_keeps : forall c its d m, linked c = true ->
  modc (fst (snd (fill c its (d, m)))) = modc d /\ old (fst (snd (fill c its (d, m)))) = old d.
Proof.
  intros c its. induction its as [|o its IH]; intros d m L; cbn [fill]; [auto|].
  destruct (conv c o) as [v| | |]; cbn [fst snd]; auto. unfold push. cbn [fst snd]. rewrite L.
  destruct (built d); [|cbn; auto]. unfold alloc.
  match goal with |- context [fill c its (?d', ?m')] => destruct (IH d' m' L) as [A B]; rewrite A, B end. auto.
Qed.

Lemma in_chain_at : forall ch j b v, NoDup (map fst ch) -> nth_error ch j = Some (b, v) ->
  in_chain ch b = Some (v, match nth_error ch (S j) with Some (m, _) => m | None => 0 end).
Proof.
  induction ch as [|[n w] ch IH]; intros j b v N H; [destruct j; discriminate|]. cbn [map fst] in N. inversion N as [|? ? Nn N']; subst.
  destruct j as [|j]; cbn [nth_error in_chain] in *.
  - injection H as -> ->. rewrite Z.eqb_refl. destruct ch as [|[k u] ch]; reflexivity.
  - destruct (Z.eqb_spec n b) as [Eb|].
    + elim Nn. apply in_map_iff. exists (b, v). split; [symmetry; exact Eb|exact (nth_error_In _ _ H)].
    + apply (IH j b v N' H).
Qed.
Lemma in_chain_none : forall ch b, ~ In b (map fst ch) -> in_chain ch b = None.
Proof.
  induction ch as [|[n w] ch IH]; intros b H; [reflexivity|]. cbn [in_chain map fst] in *.
  destruct (Z.eqb_spec n b) as [E|]; [elim H; left; exact E|]. apply IH. intros K. apply H. right. exact K.
Qed.
Lemma combine_fst : forall (a : list Z) (b : list pyobj), List.length a = List.length b -> map fst (List.combine a b) = a.
Proof. induction a as [|x a IH]; intros [|y b] H; try discriminate; [reflexivity|]. cbn. f_equal. apply IH. cbn in H. lia. Qed.
Lemma combine_nth : forall (a : list Z) (b : list pyobj) j, List.length a = List.length b ->
  nth_error (List.combine a b) j = match nth_error a j, nth_error b j with Some x, Some y => Some (x, y) | _, _ => None end.
Proof.
  induction a as [|x a IH]; intros [|y b] j H; try discriminate; [destruct j; reflexivity|]. destruct j; [reflexivity|]. cbn [List.combine nth_error].
  apply IH. cbn in H. lia.
Qed.
Lemma node_at_nth : forall d j, node_at d (Z.of_nat j) = match nth_error (own d) j with Some b => b | None => 0 end.
Proof. intros d j. unfold node_at, znth. destruct (Z.ltb_spec (Z.of_nat j) 0); [lia|]. rewrite Nat2Z.id. reflexivity. Qed.
Lemma leftovers_stop : forall n b, leftovers n b 0 = repeat (Raise StopIteration) n.
Proof. induction n as [|n IH]; intros b; [reflexivity|]. cbn [leftovers repeat]. rewrite IH. reflexivity. Qed.

Lemma iter_stale : forall d1 d2 more,
  List.length (own d1) = List.length (items d1) -> NoDup (own d1) -> Forall (fun b => 0 < b) (own d1) ->
  List.length (own d2) = List.length (items d2) -> (forall b, In b (own d1) -> ~ In b (own d2)) ->
  modc d1 = modc d2 -> old d2 = List.combine (own d1) (items d1) :: more ->
  forall n j, iter_run n {| it_index := Z.of_nat j; it_node := node_at d1 (Z.of_nat j); it_mod := modc d1 |} d2
    = leftovers n (skipn j (items d1)) (List.length (items d2) - j).
Proof.
  intros d1 d2 more L1 N1 P1 L2 Dj M Eo. induction n as [|n IH]; intros j; cbn [iter_run]; [reflexivity|].
  assert (Z0 : zlen (items d2) = Z.of_nat (List.length (items d2))) by reflexivity.
  destruct (Nat.le_gt_cases (List.length (items d2)) j) as [Hj|Hj].
  - replace (List.length (items d2) - j)%nat with O in * by lia. cbn [leftovers].
    assert (E : iter_next {| it_index := Z.of_nat j; it_node := node_at d1 (Z.of_nat j); it_mod := modc d1 |} d2
      = (Raise StopIteration, {| it_index := Z.of_nat j; it_node := node_at d1 (Z.of_nat j); it_mod := modc d1 |})).
    { unfold iter_next. cbn [it_index]. destruct (zlen (items d2) =? 0); [reflexivity|].
      destruct (Z.leb_spec (zlen (items d2)) (Z.of_nat j)); [reflexivity|lia]. }
    rewrite E. f_equal. specialize (IH j). replace (List.length (items d2) - j)%nat with O in IH by lia. exact IH.
  - replace (List.length (items d2) - j)%nat with (S (List.length (items d2) - S j)) by lia.
    unfold iter_next. cbn [it_index it_mod]. destruct (Z.eqb_spec (zlen (items d2)) 0); [lia|].
    destruct (Z.leb_spec (zlen (items d2)) (Z.of_nat j)); [lia|]. rewrite <- M, Z.eqb_refl. cbn [it_node it_index it_mod].
    rewrite node_at_nth. destruct (nth_error (own d1) j) as [b|] eqn:Eb.
    + assert (Hb := nth_error_In _ _ Eb). assert (Pb := P1). rewrite Forall_forall in Pb. specialize (Pb b Hb).
      destruct (Z.eqb_spec b 0); [lia|]. cbn [in_chains]. rewrite in_chain_none by (rewrite combine_fst by exact L2; apply Dj; exact Hb).
      rewrite Eo. cbn [in_chains].
      destruct (nth_error (items d1) j) as [v|] eqn:Ev;
        [|apply nth_error_None in Ev; assert (Hl : (j < List.length (own d1))%nat) by (apply nth_error_Some; congruence); lia].
      rewrite (in_chain_at _ j b v); [|rewrite combine_fst by exact L1; exact N1|rewrite combine_nth by exact L1; rewrite Eb, Ev; reflexivity].
      assert (Sk : skipn j (items d1) = v :: skipn (S j) (items d1)).
      { clear - Ev. revert j Ev. induction (items d1) as [|x l IH]; intros [|j] H; try discriminate; [injection H as ->; reflexivity|].
        cbn [skipn nth_error] in *. apply IH. exact H. }
      rewrite Sk. cbn [leftovers]. f_equal. rewrite <- IH. f_equal. f_equal; [lia|].
      rewrite node_at_nth, combine_nth by exact L1.
      destruct (nth_error (own d1) (S j)) as [b'|] eqn:Eb'; [|reflexivity].
      destruct (nth_error (items d1) (S j)) as [v'|] eqn:Ev'; [reflexivity|]. apply nth_error_None in Ev'.
      assert (Hl : (S j < List.length (own d1))%nat) by (apply nth_error_Some; congruence). lia.
    + apply nth_error_None in Eb. rewrite skipn_all2 by lia. cbn. reflexivity.
Qed.

(** The cell an object has after being made from a sequence. *)
Lemma init_seq : forall room c os x its d m, linked c = true ->
  exists r s, init_call room c os x [CSeq its] [] (d, m) = (r, s) /\ modc (fst s) = 0 /\
    old (fst s) = List.combine (own d) (items d) :: old d.
Proof.
  intros room c os x its d m L. unfold init_call. rewrite L. unfold parse_o.
  change (1 <? zlen [CSeq its] + zlen (@nil (string * carg))) with false. cbv iota. cbn [fst snd kw_get].
  replace (found (@None carg) <? zlen (@nil (string * carg))) with false by reflexivity. cbv iota. cbn [from_arg].
  destruct (fill_keeps c its (construct d) m L) as [A B].
  assert (E : fill_seq c its (construct d, m) = fill c its (construct d, m)) by (destruct c; reflexivity || discriminate). rewrite E.
  destruct (fill c its (construct d, m)) as [r s]. exists r, s. cbn [fst snd] in *. rewrite A, B. auto.
Qed.

Lemma well_one : forall c a, well_called c [a] [].
Proof. intros c a. split; [unfold names; destruct (linked c); cbn; lia|intros k v []]. Qed.

Lemma nodup_parts : forall (a b : list Z), NoDup (a ++ b) -> NoDup a /\ NoDup b /\ forall x, In x a -> ~ In x b.
Proof.
  induction a as [|x a IH]; intros b N; cbn [app] in *; [split; [constructor|]; split; [exact N|intros x []]|].
  inversion N as [|? ? Nx N']; subst. destruct (IH b N') as (A & B & C). split; [|split; [exact B|]].
  - constructor; [|exact A]. intros K. apply Nx. apply in_or_app. left. exact K.
  - intros y [<-|Hy]; [|apply C; exact Hy]. intros K. apply Nx. apply in_or_app. right. exact K.
Qed.
Lemma life_iterator : forall room c ok h x xs ys n, linked c = true -> decides c ok ->
  Forall (sound room c) h -> careful c ok h nothing = true ->
  snd (prun c ok h nothing) x = None -> forallb (holds c) xs = true ->
  exists d1 d2,
    find_obj (objs (snd (lrun room c (h ++ [LMake x [CSeq xs] []]) start))) x = Some d1 /\
    find_obj (objs (snd (lrun room c (h ++ [LMake x [CSeq xs] []; LInit x [CSeq ys] []]) start))) x = Some d2 /\
    items d1 = taken c xs /\ items d2 = taken c ys /\
    iter_run n (iter_new d1) d2 = leftovers n (taken c xs) (List.length (taken c ys)).
Proof.
  intros room c ok h x xs ys n L D F C Fresh Hx.
  destruct (run_ok room c ok h start nothing [] D F (inv_start c) (or_intror C)) as (more & A & V & _).
  rewrite !lrun_app by exact (seen_defined _ _ A). cbn [snd].
  set (w := snd (lrun room c h start)) in *. set (st := snd (prun c ok h nothing)) in *.
  assert (Fx : find_obj (objs w) x = None).
  { assert (Ax := inv_agree _ _ _ _ V x). rewrite Fresh in Ax. destruct (find_obj (objs w) x); [elim Ax|reflexivity]. }
  assert (Sd : forall its, sound_call room c [CSeq its] []).
  { intros its. split; [constructor|]. intros k z. unfold given. destruct k as [|[|k]]; cbn; discriminate. }
  assert (Ok1 : forall its, ok [CSeq its] [] = true).
  { intros its. apply D; [constructor|]. split; [apply well_one|left; exact L]. }
  assert (V1 := inv_add c w st _ x V Fresh).
  assert (F1 : find_obj (objs (add_obj w x)) x = Some raw) by (cbn [add_obj objs]; rewrite (find_snoc _ _ _ _ Fx), Z.eqb_refl; reflexivity).
  destruct (init_obj_ok room c ok (add_obj w x) _ _ x [CSeq xs] [] raw D (Sd xs) V1 F1) as (r1 & w1 & E1 & Q1 & V2).
  { intros _ y e _ K. discriminate K. }
  unfold initial in Q1, V2. rewrite Ok1 in Q1, V2. change (given c [CSeq xs] [] 0) with (Some (CSeq xs)) in Q1, V2. cbn [contents fst snd] in Q1, V2.
  rewrite Hx in Q1. assert (M1 : lstep room c (LMake x [CSeq xs] []) w = (r1, w1)).
  { cbn [lstep]. rewrite Fx, E1. destruct r1; cbn [seen] in Q1; try discriminate. reflexivity. }
  assert (X1 := inv_agree _ _ _ _ V2 x). rewrite set_same in X1. destruct (find_obj (objs w1) x) as [d1|] eqn:G1; [|elim X1].
  destruct X1 as (I1 & S1 & _). specialize (S1 eq_refl).
  destruct (init_obj_ok room c ok w1 _ _ x [CSeq ys] [] d1 D (Sd ys) V2 G1) as (r2 & w2 & E2 & Q2 & V3).
  { intros _ y e _ K. discriminate K. }
  unfold initial in Q2, V3. rewrite Ok1 in Q2, V3. change (given c [CSeq ys] [] 0) with (Some (CSeq ys)) in Q2, V3. cbn [contents fst snd] in Q2, V3.
  assert (X2 := inv_agree _ _ _ _ V3 x). rewrite set_same in X2. destruct (find_obj (objs w2) x) as [d2|] eqn:G2; [|elim X2].
  destruct X2 as (I2 & S2 & _). specialize (S2 eq_refl).
  exists d1, d2. cbn [lrun]. rewrite M1.
  assert (R1 : exists v, r1 = Ret v) by (destruct r1; cbn [seen] in Q1; try discriminate; eauto). destruct R1 as [v1 ->].
  cbn [lstep]. rewrite E2.
  assert (R2 : match r2 with Undef _ => False | _ => True end) by (destruct r2; try exact I; discriminate Q2).
  split; [cbn [snd]; exact G1|]. split; [destruct r2; try elim R2; cbn [snd]; exact G2|]. split; [exact I1|]. split; [exact I2|].
  unfold shape in S1, S2. rewrite L in S1, S2. destruct S1 as [_ S1]. destruct S2 as [_ S2].
  assert (Md : modc d1 = 0 /\ old d1 = List.combine (own raw) (items raw) :: old raw).
  { unfold init_obj, on_obj in E1. rewrite F1 in E1. destruct (init_seq room c (objs (add_obj w x)) x xs raw (wmem (add_obj w x)) L) as (r & s & Es & Ms & Os).
    rewrite Es in E1. injection E1 as _ <-. unfold put_obj in G1. cbn [objs] in G1.
    destruct (find_split _ _ _ F1 (inv_names _ _ _ _ V1)) as (a & b & Eo & Ha & _). rewrite Eo, (set_split a b x raw _ Ha), (find_mid a b x _ x Ha), Z.eqb_refl in G1.
    injection G1 as <-. auto. }
  assert (Md2 : modc d2 = 0 /\ old d2 = List.combine (own d1) (items d1) :: old d1).
  { unfold init_obj, on_obj in E2. rewrite G1 in E2. destruct (init_seq room c (objs w1) x ys d1 (wmem w1) L) as (r & s & Es & Ms & Os).
    rewrite Es in E2. injection E2 as _ <-. unfold put_obj in G2. cbn [objs] in G2.
    destruct (find_split _ _ _ G1 (inv_names _ _ _ _ V2)) as (a & b & Eo & Ha & _). rewrite Eo, (set_split a b x d1 _ Ha), (find_mid a b x _ x Ha), Z.eqb_refl in G2.
    injection G2 as <-. auto. }
  assert (Nd : NoDup (own d1) /\ Forall (fun b => 0 < b) (own d1) /\ forall b, In b (own d1) -> ~ In b (own d2)).
  { assert (P := inv_heap _ _ _ _ V3). destruct (inv_well _ _ _ _ V3) as (N3 & F3 & _). assert (N4 := NoDup_perm _ _ N3 P).
    destruct (find_split _ _ _ G2 (inv_names _ _ _ _ V3)) as (a & b & Eo & _). rewrite Eo in P, N4.
    assert (Sub : forall k, In k (own d1) -> In k (heap (wmem w2))).
    { intros k Hk. apply (Permutation_in k (Permutation_sym P)). apply in_or_app. right. apply in_or_app. left. exact Hk. }
    assert (N5 : NoDup ((own d2 ++ blocks (a ++ b)) ++ own d1 ++ (own raw ++ more ++ []))).
    { apply (NoDup_perm _ _ N4). apply Permutation_app_tail. apply blocks_mid. }
    destruct (nodup_parts _ _ N5) as (_ & N6 & N7). destruct (nodup_parts _ _ N6) as (N8 & _ & _). split; [exact N8|]. split.
    - apply Forall_forall. intros k Hk. rewrite Forall_forall in F3. specialize (F3 k (Sub k Hk)). lia.
    - intros k Hk K. apply (N7 k); apply in_or_app; left; assumption. }
  destruct Nd as (Nd1 & Nd2 & Nd3). destruct Md as [Md Mo]. destruct Md2 as [Md2 Mo2].
  unfold iter_new. assert (It := iter_stale d1 d2 (old d1) S1 Nd1 Nd2 S2 Nd3). rewrite Md, Md2 in It. specialize (It eq_refl Mo2 n O).
  rewrite Md. cbn [skipn] in It. rewrite Nat.sub_0_r, I1, I2 in It. exact It.
Qed.
