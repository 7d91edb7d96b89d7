(** Proofs for C74, continued: init, and histories of many objects. *)
From Coq Require Import ZArith List Bool String Lia Permutation.
From Verif Require Import Base PyListSpec PyLongModel PyLongProofs ListLemmas ArrayListModel LifeModel LifeSpec LifeProofs.
Import ListNotations.
Local Open Scope Z_scope.
Local Arguments Z.pow : simpl never.
Local Arguments Z.add : simpl never.
Local Arguments Z.mul : simpl never.
Local Arguments Z.sub : simpl never.

(** ** One object and its Python list *)
Definition agree (c : cls) (d : option cell) (p : option (bool * list pyobj)) : Prop :=
  match d, p with
  | None, None => True
  | Some d, Some (u, l) => items d = l /\ (u = true -> shape c d) /\ (u = false -> built d = false /\ own d = [] /\ l = [])
  | _, _ => False
  end.

Lemma agree_items : forall c d u l, agree c (Some d) (Some (u, l)) -> items d = l.
Proof. intros c d u l [H _]. exact H. Qed.
Lemma shape_vec : forall c d u l, linked c = false -> agree c (Some d) (Some (u, l)) -> shape c d.
Proof.
  intros c d u l L (_ & H1 & H2). destruct u; [exact (H1 eq_refl)|]. destruct (H2 eq_refl) as (_ & E & _). unfold shape. rewrite L, E. cbn. lia.
Qed.

Definition steady (c : cls) (os : list (Z * cell)) (x : Z) (a : option carg) : Prop :=
  forall y e, linked c = true -> a = Some (COf y) -> y <> x -> find_obj os y = Some e -> built e = true.

Lemma from_arg_ok : forall c os st x a d m R,
  (forall y, y <> x -> agree c (find_obj os y) (st y)) -> steady c os x a ->
  (linked c = true \/ forall z, a <> Some (CInt z)) ->
  tidy d m R -> shape c d -> items d = [] ->
  exists r d' m', from_arg c os x a (d, m) = (r, (d', m')) /\ tidy d' m' R /\ shape c d' /\
    seen (none_of r) = Some (fst (contents c st x a)) /\ items d' = snd (contents c st x a).
Proof.
  intros c os st x a d m R A B NI T S I. destruct a as [[z|y|its|its fin|]|]; cbn [from_arg contents].
  - destruct NI as [L|NI]; [|elim (NI z); reflexivity]. rewrite L. eexists _, d, m. split; [reflexivity|]. auto.
  - unfold copy_from. rewrite (Z.eqb_sym x y). destruct (Z.eqb_spec y x) as [->|K]; [eexists _, d, m; split; [reflexivity|]; auto|].
    specialize (A y K). specialize (B y). destruct (find_obj os y) as [e|]; destruct (st y) as [[u l]|]; cbn [agree] in A; try tauto.
    + destruct A as (Ai & _). replace (linked c && negb (built e)) with false
        by (destruct (linked c); [rewrite (B e eq_refl eq_refl K eq_refl)|]; reflexivity).
      destruct (assign_all_ok c (items e) d m R T S I) as (d1 & m1 & E & T1 & S1 & I1). rewrite E. cbn [settle].
      eexists _, d1, m1. split; [reflexivity|]. cbn [fst snd]. rewrite I1, Ai. auto.
    + eexists _, d, m. split; [reflexivity|]. auto.
  - destruct (fill_ok c its d m R T S) as (d1 & m1 & E & T1 & S1 & I1). rewrite I in I1. cbn [app] in I1. cbn [fst snd].
    destruct c; cbn [fill_seq]; try (rewrite E; eexists _, d1, m1; split; [reflexivity|]; destruct (forallb _ its); auto; fail).
    destruct (assign_all_ok ObjA its d m R T S I) as (d2 & m2 & E2 & T2 & S2 & I2). rewrite E2. cbn [settle].
    destruct (holds_obj its) as [H1 H2]. rewrite H1, H2. eexists _, d2, m2. split; [reflexivity|]. auto.
  - destruct (fill_ok c its d m R T S) as (d1 & m1 & E & T1 & S1 & I1). rewrite I in I1. cbn [app] in I1. rewrite E. cbn [fst snd].
    destruct (forallb (holds c) its); [|eexists _, d1, m1; split; [reflexivity|]; auto].
    eexists _, d1, m1. split; [reflexivity|]. destruct fin; auto.
  - eexists _, d, m. split; [reflexivity|]. auto.
  - eexists _, d, m. split; [reflexivity|]. auto.
Qed.

Lemma construct_ok : forall c d m R, tidy d m R ->
  tidy (construct d) m (own d ++ R) /\ shape c (construct d) /\ items (construct d) = [].
Proof. intros c d m R T. split; [exact T|]. split; [|reflexivity]. unfold shape. destruct (linked c); cbn; auto. Qed.

Lemma init_call_ok : forall room c ok os st x pos kw d m R,
  decides c ok -> sound_call room c pos kw ->
  (forall y, y <> x -> agree c (find_obj os y) (st y)) ->
  (ok pos kw = true -> steady c os x (given c pos kw 0)) ->
  tidy d m R ->
  exists r d' m', init_call room c os x pos kw (d, m) = (r, (d', m')) /\ tidy d' m' (own d ++ R) /\ shape c d' /\
    seen (none_of r) = Some (fst (initial c ok st x pos kw)) /\ items d' = snd (initial c ok st x pos kw).
Proof.
  intros room c ok os st x pos kw d m R D [N G] A B T. specialize (D pos kw N).
  destruct (construct_ok c d m R T) as (T1 & S1 & I1). unfold init_call, initial, misused. cbn [fst snd].
  destruct (linked c) eqn:L.
  - destruct (parse_o pos kw) as [[e|] a] eqn:P.
    + assert (E := parse_o_err _ _ _ _ P). subst e. destruct (ok pos kw) eqn:O.
      * destruct D as [D _]. destruct (D eq_refl) as [W _]. rewrite (parse_o_ok c pos kw L N W) in P. discriminate.
      * eexists _, _, m. split; [reflexivity|]. auto.
    + assert (W := parse_o_inv c pos kw a L N P). assert (O : ok pos kw = true) by (apply D; split; [exact W|left; exact L]).
      rewrite O. rewrite (parse_o_ok c pos kw L N W) in P. injection P as <-. apply from_arg_ok; auto.
  - unfold parse_args. destruct (parse_on pos kw) as [[[e|] a] n] eqn:P.
    + assert (O : ok pos kw = false).
      { destruct (ok pos kw); [|reflexivity]. destruct D as [D _]. destruct (D eq_refl) as [W V].
        rewrite (parse_on_ok c pos kw L N W V) in P. discriminate. }
      rewrite O. assert (Hr : (0 <? n) && negb (room n) = false).
      { destruct (Z.ltb_spec 0 n) as [Hn|]; [|reflexivity]. cbn [andb]. rewrite (G 1%nat n); [reflexivity| |exact Hn].
        apply (parse_on_size c pos kw e a n L P Hn). }
      rewrite Hr. destruct (0 <? n).
      * assert (S2 := S1). unfold shape in S2. rewrite L in S2.
        destruct (vec_room_ok n n _ m _ T1 S2) as (d2 & m2 & E2 & T2 & S3 & I2). rewrite E2.
        eexists _, d2, m2. split; [reflexivity|]. split; [exact T2|]. split; [unfold shape; rewrite L; exact S3|]. rewrite I2. auto.
      * eexists _, _, m. split; [reflexivity|]. auto.
    + destruct (parse_on_inv c pos kw a n L N P) as [W V]. assert (O : ok pos kw = true) by (apply D; auto). rewrite O.
      rewrite (parse_on_ok c pos kw L N W V) in P. injection P as Ea En.
      assert (Rn : forall k, (exists j z, given c pos kw j = Some (CInt z) /\ k = z) \/ k = -1 -> (0 <? k) && negb (room k) = false).
      { intros k [(j & z & Hj & ->)| -> ]; [|reflexivity]. destruct (Z.ltb_spec 0 z) as [Hn|]; [|reflexivity]. cbn [andb].
        rewrite (G j z Hj Hn). reflexivity. }
      assert (Go : forall k arg, (exists j z, given c pos kw j = Some (CInt z) /\ k = z) \/ k = -1 ->
        (forall z, arg <> Some (CInt z)) -> (forall y, arg = Some (COf y) -> given c pos kw 0 = Some (COf y)) ->
        exists r d' m',
          (if (0 <? k) && negb (room k) then (Raise RuntimeError, (construct d, m))
           else match (if 0 <? k then vec_room k k (construct d, m) else Ret (construct d, m)) with
                | Ret s => from_arg c os x arg s
                | r => settle r (construct d, m)
                end) = (r, (d', m')) /\ tidy d' m' (own d ++ R) /\ shape c d' /\
          seen (none_of r) = Some (fst (contents c st x arg)) /\ items d' = snd (contents c st x arg)).
      { intros k arg Hk Ha Hb. rewrite (Rn k Hk).
        assert (Bs : steady c os x arg) by (intros y e Ly; congruence).
        destruct (0 <? k).
        - assert (S2 := S1). unfold shape in S2. rewrite L in S2.
          destruct (vec_room_ok k k _ m _ T1 S2) as (d2 & m2 & E2 & T2 & S3 & I2). rewrite E2.
          apply from_arg_ok; auto; unfold shape; rewrite L; exact S3.
        - apply from_arg_ok; auto. }
      rewrite Ea in *. destruct a as [[z|y|its|its fin|]|].
      * cbn [contents]. rewrite L. destruct (in_sbits_b 64 z) eqn:Ez.
        -- destruct (Go z None) as (r & d' & m' & E & X); [left; exists 0%nat, z; auto|discriminate|discriminate|].
           exists r, d', m'. split; [exact E|]. exact X.
        -- change (0 <? -1) with false. cbn [andb]. eexists _, _, m. split; [reflexivity|]. auto.
      * apply Go; [|discriminate|auto]. subst n. destruct (given c pos kw 1) as [[z| | | |]|] eqn:E1; cbn [size_of_arg]; auto. left. exists 1%nat, z. auto.
      * apply Go; [|discriminate|discriminate]. subst n. destruct (given c pos kw 1) as [[z| | | |]|] eqn:E1; cbn [size_of_arg]; auto. left. exists 1%nat, z. auto.
      * apply Go; [|discriminate|discriminate]. subst n. destruct (given c pos kw 1) as [[z| | | |]|] eqn:E1; cbn [size_of_arg]; auto. left. exists 1%nat, z. auto.
      * apply Go; [|discriminate|discriminate]. subst n. destruct (given c pos kw 1) as [[z| | | |]|] eqn:E1; cbn [size_of_arg]; auto. left. exists 1%nat, z. auto.
      * apply Go; [|discriminate|discriminate]. subst n. destruct (given c pos kw 1) as [[z| | | |]|] eqn:E1; cbn [size_of_arg]; auto. left. exists 1%nat, z. auto.
Qed.

(** ** Named objects *)
Definition blocks (os : list (Z * cell)) : list Z := List.concat (map (fun p => own (snd p)) os).

Lemma find_split : forall os x d, find_obj os x = Some d -> NoDup (map fst os) ->
  exists a b, os = a ++ (x, d) :: b /\ ~ In x (map fst a) /\ ~ In x (map fst b).
Proof.
  induction os as [|[n e] os IH]; intros x d F N; [discriminate|]. cbn [find_obj] in F. cbn [map fst] in N.
  inversion N as [|? ? Nn N']; subst. destruct (Z.eqb_spec n x) as [->|K].
  - injection F as ->. exists [], os. cbn. auto.
  - destruct (IH x d F N') as (a & b & -> & Ha & Hb). exists ((n, e) :: a), b. cbn [app map fst]. split; [reflexivity|].
    split; [|exact Hb]. intros [H|H]; [congruence|exact (Ha H)].
Qed.
Lemma find_app : forall a b x, ~ In x (map fst a) -> find_obj (a ++ b) x = find_obj b x.
Proof.
  induction a as [|[n e] a IH]; intros b x H; [reflexivity|]. cbn [app find_obj map fst] in *.
  destruct (Z.eqb_spec n x) as [->|]; [elim H; left; reflexivity|]. apply IH. intros K. apply H. right. exact K.
Qed.
Lemma set_split : forall a b x d e, ~ In x (map fst a) -> set_obj (a ++ (x, d) :: b) x e = a ++ (x, e) :: b.
Proof.
  induction a as [|[n f] a IH]; intros b x d e H; cbn [app set_obj map fst] in *; [rewrite Z.eqb_refl; reflexivity|].
  destruct (Z.eqb_spec n x) as [->|]; [elim H; left; reflexivity|]. f_equal. apply IH. intros K. apply H. right. exact K.
Qed.
Lemma del_split : forall a b x d, ~ In x (map fst a) -> del_obj (a ++ (x, d) :: b) x = a ++ b.
Proof.
  induction a as [|[n f] a IH]; intros b x d H; cbn [app del_obj map fst] in *; [rewrite Z.eqb_refl; reflexivity|].
  destruct (Z.eqb_spec n x) as [->|]; [elim H; left; reflexivity|]. f_equal. apply IH. intros K. apply H. right. exact K.
Qed.
Lemma find_none : forall os x, find_obj os x = None <-> ~ In x (map fst os).
Proof.
  induction os as [|[n e] os IH]; intros x; cbn [find_obj map fst]; [split; [intros _ []|reflexivity]|].
  destruct (Z.eqb_spec n x) as [->|K]; [split; [discriminate|intros H; elim H; left; reflexivity]|].
  rewrite IH. cbn [In]. tauto.
Qed.
Lemma find_mid : forall a b x d y, ~ In x (map fst a) ->
  find_obj (a ++ (x, d) :: b) y = if y =? x then Some d else find_obj (a ++ b) y.
Proof.
  induction a as [|[n f] a IH]; intros b x d y H; cbn [app find_obj map fst] in *.
  - rewrite Z.eqb_sym. reflexivity.
  - destruct (Z.eqb_spec n y) as [->|].
    + destruct (Z.eqb_spec y x) as [->|]; [elim H; left; reflexivity|reflexivity].
    + apply IH. intros K. apply H. right. exact K.
Qed.
Lemma find_snoc : forall os x d y, find_obj os x = None ->
  find_obj (os ++ [(x, d)]) y = if y =? x then Some d else find_obj os y.
Proof. intros os x d y H. rewrite (find_mid os [] x d y) by (apply find_none; exact H). rewrite app_nil_r. reflexivity. Qed.

Lemma blocks_app : forall a b, blocks (a ++ b) = blocks a ++ blocks b.
Proof. intros a b. unfold blocks. rewrite map_app, concat_app. reflexivity. Qed.
Lemma blocks_mid : forall a b x d, Permutation (blocks (a ++ (x, d) :: b)) (own d ++ blocks (a ++ b)).
Proof.
  intros a b x d. rewrite !blocks_app. change (blocks ((x, d) :: b)) with (own d ++ blocks b). rewrite !app_assoc.
  apply Permutation_app_tail. apply Permutation_app_comm.
Qed.

(** ** The invariant of histories *)
Record inv (c : cls) (w : world) (st : pyworld) (lost : list Z) : Prop := {
  inv_agree : forall x, agree c (find_obj (objs w) x) (st x);
  inv_names : NoDup (map fst (objs w));
  inv_well : well (wmem w);
  inv_heap : Permutation (heap (wmem w)) (blocks (objs w) ++ lost) }.

Lemma inv_start : forall c, inv c start nothing [].
Proof. intros c. constructor; [intros x; exact I|constructor| |constructor]. split; [constructor|]. split; [constructor|]. cbn. lia. Qed.

(** Replacing one object. *)
Lemma inv_put : forall c a b x d d' m' st st' lost' R,
  (forall y, agree c (find_obj (a ++ (x, d) :: b) y) (st y)) ->
  NoDup (map fst (a ++ (x, d) :: b)) -> ~ In x (map fst a) ->
  tidy d' m' R -> Permutation R (blocks (a ++ b) ++ lost') ->
  agree c (Some d') (st' x) -> (forall y, y <> x -> st' y = st y) ->
  inv c {| objs := set_obj (a ++ (x, d) :: b) x d'; wmem := m' |} st' lost'.
Proof.
  intros c a b x d d' m' st st' lost' R A N Hx [W P] PR G1 G2. rewrite (set_split a b x d d' Hx). constructor; cbn [objs wmem].
  - intros y. rewrite (find_mid a b x d' y Hx). specialize (A y). rewrite (find_mid a b x d y Hx) in A.
    destruct (Z.eqb_spec y x) as [Ey|K]; [rewrite Ey; exact G1|]. rewrite (G2 y K). exact A.
  - rewrite map_app in *. exact N.
  - exact W.
  - eapply Permutation_trans; [exact P|]. eapply Permutation_trans; [apply Permutation_app_head; exact PR|].
    rewrite app_assoc. apply Permutation_app_tail. symmetry. apply blocks_mid.
Qed.
(** The rest of the heap, seen from one object. *)
Lemma inv_tidy : forall c w st lost x d, inv c w st lost -> find_obj (objs w) x = Some d ->
  exists a b, objs w = a ++ (x, d) :: b /\ ~ In x (map fst a) /\ ~ In x (map fst b) /\
    tidy d (wmem w) (blocks (a ++ b) ++ lost).
Proof.
  intros c w st lost x d V F. destruct (find_split _ x d F (inv_names _ _ _ _ V)) as (a & b & E & Ha & Hb).
  exists a, b. split; [exact E|]. split; [exact Ha|]. split; [exact Hb|]. split; [exact (inv_well _ _ _ _ V)|].
  eapply Permutation_trans; [exact (inv_heap _ _ _ _ V)|]. rewrite E, app_assoc. apply Permutation_app_tail. apply blocks_mid.
Qed.

Lemma set_same : forall (st : pyworld) x v, set_ st x v x = v.
Proof. intros. unfold set_. rewrite Z.eqb_refl. reflexivity. Qed.
Lemma set_other : forall (st : pyworld) x v y, y <> x -> set_ st x v y = st y.
Proof. intros st x v y H. unfold set_. destruct (Z.eqb_spec y x); [contradiction|reflexivity]. Qed.

(** Blocks that become unreachable in a call. *)
Definition lose (c : cls) (o : lop) (w : world) : list Z :=
  match o with LInit x _ _ => match find_obj (objs w) x with Some d => own d | None => [] end | _ => [] end.

Lemma inv_add : forall c w st lost x, inv c w st lost -> st x = None ->
  inv c (add_obj w x) (set_ st x (Some (false, []))) lost.
Proof.
  intros c w st lost x V Sx.
  assert (Fx : find_obj (objs w) x = None).
  { assert (A := inv_agree _ _ _ _ V x). rewrite Sx in A. destruct (find_obj (objs w) x); [elim A|reflexivity]. }
  constructor; cbn [add_obj objs wmem].
  - intros y. rewrite (find_snoc _ _ _ _ Fx). unfold set_. destruct (Z.eqb_spec y x) as [->|K]; [|apply (inv_agree _ _ _ _ V)].
    split; [reflexivity|]. split; [discriminate|]. auto.
  - rewrite map_app. cbn [map fst]. apply find_none in Fx. assert (N := inv_names _ _ _ _ V).
    apply (NoDup_Add (a := x) (l := map fst (objs w)) (l' := map fst (objs w) ++ [x])); [|split; assumption].
    rewrite <- (app_nil_r (map fst (objs w))) at 1. apply Add_app.
  - exact (inv_well _ _ _ _ V).
  - rewrite blocks_app. cbn. rewrite app_nil_r. exact (inv_heap _ _ _ _ V).
Qed.

Lemma init_obj_ok : forall room c ok w st lost x pos kw d,
  decides c ok -> sound_call room c pos kw -> inv c w st lost -> find_obj (objs w) x = Some d ->
  (ok pos kw = true -> steady c (objs w) x (given c pos kw 0)) ->
  exists r w', init_obj room c w x pos kw = (r, w') /\ seen r = Some (fst (initial c ok st x pos kw)) /\
    inv c w' (set_ st x (Some (true, snd (initial c ok st x pos kw)))) (own d ++ lost).
Proof.
  intros room c ok w st lost x pos kw d D G V F B. unfold init_obj, on_obj. rewrite F.
  destruct (inv_tidy _ _ _ _ _ _ V F) as (a & b & E & Ha & Hb & T).
  destruct (init_call_ok room c ok (objs w) st x pos kw d (wmem w) _ D G (fun y _ => inv_agree _ _ _ _ V y) B T)
    as (r & d' & m' & Ei & T' & S' & Q & I'). rewrite Ei. eexists _, _. split; [reflexivity|]. split; [exact Q|].
  unfold put_obj. cbn [fst snd]. rewrite E.
  eapply inv_put with (st := st); [intros y; rewrite <- E; apply (inv_agree _ _ _ _ V)|rewrite <- E; apply (inv_names _ _ _ _ V)|exact Ha|exact T'| | |].
  - rewrite app_assoc. rewrite (app_assoc (blocks (a ++ b)) (own d) lost). apply Permutation_app_tail. apply Permutation_app_comm.
  - rewrite set_same. split; [exact I'|]. split; [intros _; exact S'|discriminate].
  - intros y K. apply set_other. exact K.
Qed.

Lemma drop_ok : forall c w st lost x d, inv c w st lost -> find_obj (objs w) x = Some d ->
  (linked c = true -> built d = true) ->
  exists w', drop_obj c w x = (Ret LNone, w') /\ inv c w' (set_ st x None) lost.
Proof.
  intros c w st lost x d V F B. unfold drop_obj, on_obj. rewrite F. unfold dealloc. cbn [fst snd].
  replace (linked c && negb (built d)) with false by (destruct (linked c); [rewrite (B eq_refl)|]; reflexivity).
  destruct (inv_tidy _ _ _ _ _ _ V F) as (a & b & E & Ha & Hb & [W P]).
  destruct (free_all_ok _ _ _ W P) as (m' & E' & W' & _ & P'). rewrite E'. eexists. split; [reflexivity|].
  assert (N := inv_names _ _ _ _ V). rewrite E in *. rewrite (del_split a b x d Ha). constructor; cbn [objs wmem].
  - intros y. assert (A := inv_agree _ _ _ _ V y). rewrite E, (find_mid a b x d y Ha) in A. unfold set_.
    destruct (Z.eqb_spec y x) as [Ey|K]; [|exact A]. rewrite Ey. rewrite (find_app a b x Ha). apply find_none in Hb. rewrite Hb. exact I.
  - rewrite map_app in *. cbn [map fst] in N. apply NoDup_remove_1 in N. exact N.
  - exact W'.
  - exact P'.
Qed.

Lemma clear_ok : forall c d m R, tidy d m R -> shape c d ->
  exists d' m', clear_call c (d, m) = Ret (d', m') /\ tidy d' m' R /\ shape c d' /\ items d' = [] /\
    (linked c = false -> built d' = built d /\ own d' = own d).
Proof.
  intros c d m R T S. unfold clear_call, shape in *. cbn [fst snd]. destruct (linked c).
  - destruct S as [B S]. rewrite B. destruct T as [W P]. destruct (free_all_ok _ _ _ W P) as (m' & E & W' & _ & P'). rewrite E. cbn [obind].
    eexists _, m'. split; [reflexivity|]. split; [split; [exact W'|exact P']|]. split; [cbn; auto|]. split; [reflexivity|discriminate].
  - eexists _, m. split; [reflexivity|]. split; [exact T|]. split; [exact S|]. auto.
Qed.
Lemma append_ok : forall c v d m R, tidy d m R -> shape c d ->
  exists d' m', append_call c v (d, m) = Ret (d', m') /\ tidy d' m' R /\ shape c d' /\ items d' = items d ++ [v].
Proof.
  intros c v d m R T S. destruct (push_ok c v d m R T S) as (d1 & m1 & E & T1 & S1 & I1). unfold append_call. rewrite E. cbn [obind fst snd].
  eexists _, m1. split; [reflexivity|]. split; [exact T1|]. split; [exact S1|exact I1].
Qed.

Lemma rel_index : forall l i, 0 <= (if i <? 0 then zlen l + i else i) < zlen l ->
  exists v, @znth pyobj l (if i <? 0 then zlen l + i else i) = Some v.
Proof.
  intros l i H. set (k := if i <? 0 then zlen l + i else i) in *. unfold znth. destruct (Z.ltb_spec k 0); [lia|].
  destruct (nth_error l (Z.to_nat k)) eqn:E; [eauto|]. apply nth_error_None in E. unfold zlen in H. lia.
Qed.
Lemma off_index : forall l k, k < 0 \/ zlen l <= k -> @znth pyobj l k = None.
Proof.
  intros l k H. unfold znth. destruct (Z.ltb_spec k 0); [reflexivity|]. apply nth_error_None. unfold zlen in H. lia.
Qed.

Lemma steady_careful : forall c (st : pyworld) os x a, (forall y, agree c (find_obj os y) (st y)) ->
  match a with Some (COf y) => negb (y =? x) && uninit st y | _ => false end = false -> steady c os x a.
Proof.
  intros c st os x a A H y e L Ea K Fe. subst a. assert (Ay := A y). rewrite Fe in Ay. unfold uninit in H.
  destruct (st y) as [[u l]|]; [|elim Ay]. destruct Ay as (_ & S & _).
  destruct (Z.eqb_spec y x); [contradiction|]. cbn [negb andb] in H. destruct u; [|discriminate]. specialize (S eq_refl). unfold shape in S. rewrite L in S. tauto.
Qed.

Lemma lstep_ok : forall room c ok o w st lost,
  decides c ok -> sound room c o -> inv c w st lost -> linked c = false \/ reckless c ok o st = false ->
  exists r w', lstep room c o w = (r, w') /\ seen r = Some (fst (pstep c ok o st)) /\
    inv c w' (snd (pstep c ok o st)) (lose c o w ++ lost).
Proof.
  intros room c ok o w st lost D G V H.
  assert (Sx : forall x, match find_obj (objs w) x with None => st x = None | Some d => exists u l, st x = Some (u, l) /\ agree c (Some d) (Some (u, l)) end).
  { intros x. assert (A := inv_agree _ _ _ _ V x). destruct (find_obj (objs w) x) as [d|]; destruct (st x) as [[u l]|]; cbn [agree] in A; try tauto.
    exists u, l. auto. }
  assert (Stay : forall x, lose c (LLen x) w ++ lost = lost) by reflexivity.
  destruct o as [x|x pos kw|x pos kw|x|x i|x v|x|x]; cbn [lstep pstep lose] in *; specialize (Sx x).
  - destruct (find_obj (objs w) x) eqn:F.
    + destruct Sx as (u & l & E & _). rewrite E. eexists _, _. split; [reflexivity|]. auto.
    + rewrite Sx. eexists _, _. split; [reflexivity|]. split; [reflexivity|]. apply inv_add; assumption.
  - destruct (find_obj (objs w) x) as [d|] eqn:F.
    + destruct Sx as (u & l & E & A). rewrite E.
      destruct (init_obj_ok room c ok w st lost x pos kw d D G V F) as (r & w' & E1 & E2 & V').
      { intros O. destruct H as [L|H]; [intros y e L'; congruence|]. cbn [reckless] in H. rewrite E, O in H. cbn [andb] in H.
        apply (steady_careful c st); [exact (inv_agree _ _ _ _ V)|exact H]. }
      rewrite E1. exists r, w'. split; [reflexivity|]. destruct (initial c ok st x pos kw). auto.
    + rewrite Sx. unfold init_obj, on_obj. rewrite F. eexists _, _. split; [reflexivity|]. auto.
  - destruct (find_obj (objs w) x) as [d|] eqn:F.
    + destruct Sx as (u & l & E & A). rewrite E. eexists _, _. split; [reflexivity|]. auto.
    + rewrite Sx. assert (V1 := inv_add c w st lost x V Sx).
      assert (F1 : find_obj (objs (add_obj w x)) x = Some raw) by (cbn [add_obj objs]; rewrite (find_snoc _ _ _ _ F), Z.eqb_refl; reflexivity).
      destruct (init_obj_ok room c ok (add_obj w x) _ lost x pos kw raw D G V1 F1) as (r & w' & E1 & E2 & V').
      { intros O. destruct H as [L|H]; [intros y e L'; congruence|]. cbn [reckless] in H. rewrite Sx, O in H. cbn [andb] in H.
        apply (steady_careful c (set_ st x (Some (false, [])))); [exact (inv_agree _ _ _ _ V1)|].
        destruct (given c pos kw 0) as [[| y | | |]|]; auto. unfold uninit in *. destruct (Z.eqb_spec y x) as [Ey|K]; [reflexivity|].
        rewrite (set_other _ _ _ _ K). exact H. }
      assert (Ei : initial c ok (set_ st x (Some (false, []))) x pos kw = initial c ok st x pos kw).
      { unfold initial. destruct (ok pos kw); [|reflexivity]. unfold contents. destruct (given c pos kw 0) as [[| y | | |]|]; auto.
        destruct (Z.eqb_spec y x) as [Ey|K]; [reflexivity|]. rewrite (set_other _ _ _ _ K). reflexivity. }
      rewrite Ei in *. rewrite E1. change (own raw ++ lost) with lost in V'.
      assert (Inv2 : forall v, (forall y, set_ (set_ st x (Some (false, []))) x v y = set_ st x v y)).
      { intros v y. unfold set_. destruct (y =? x); reflexivity. }
      assert (Ext : forall st1 st2 wr, (forall y, st1 y = st2 y) -> inv c wr st1 lost -> inv c wr st2 lost).
      { intros st1 st2 wr He Hv. constructor; try apply Hv. intros y. rewrite <- He. apply (inv_agree _ _ _ _ Hv). }
      destruct (initial c ok st x pos kw) as [[v|e] l]; cbn [fst snd] in *.
      * destruct r as [v'| | |]; cbn [seen] in E2; try discriminate. eexists _, _. split; [reflexivity|]. split; [exact E2|].
        eapply Ext; [apply Inv2|exact V'].
      * assert (A' := inv_agree _ _ _ _ V' x). rewrite set_same in A'. destruct (find_obj (objs w') x) as [d'|] eqn:F'; [|elim A'].
        destruct (drop_ok c w' _ lost x d' V' F') as (w2 & E3 & V2).
        { intros L. destruct A' as (_ & S' & _). specialize (S' eq_refl). unfold shape in S'. rewrite L in S'. tauto. }
        rewrite E3. exists r, w2. destruct r as [v'|e'|v' e'|u']; cbn [seen] in E2; try discriminate; (split; [reflexivity|]; split; [exact E2|]);
          (eapply Ext; [|exact V2]; intros y; unfold set_; destruct (Z.eqb_spec y x) as [Ey|]; [rewrite Ey; symmetry; exact Sx|reflexivity]).
  - unfold on_obj. destruct (find_obj (objs w) x) as [d|] eqn:F.
    + destruct Sx as (u & l & E & A). rewrite E, (agree_items _ _ _ _ A). eexists _, _. split; [reflexivity|]. auto.
    + rewrite Sx. eexists _, _. split; [reflexivity|]. auto.
  - unfold on_obj. destruct (find_obj (objs w) x) as [d|] eqn:F.
    + destruct Sx as (u & l & E & A). rewrite E, (agree_items _ _ _ _ A). cbv zeta.
      assert (Rx := rel_index l i). assert (Ox := off_index l (if i <? 0 then zlen l + i else i)).
      set (k := if i <? 0 then zlen l + i else i) in *.
      destruct (Z.ltb_spec k 0); [|destruct (Z.leb_spec (zlen l) k)]; cbn [orb].
      * rewrite Ox by lia. eexists _, _. split; [reflexivity|]. auto.
      * rewrite Ox by lia. eexists _, _. split; [reflexivity|]. auto.
      * destruct Rx as [v Hv]; [lia|]. rewrite Hv. eexists _, _. split; [reflexivity|]. auto.
    + rewrite Sx. eexists _, _. split; [reflexivity|]. auto.
  - unfold on_obj. destruct (find_obj (objs w) x) as [d|] eqn:F.
    + destruct Sx as (u & l & E & A). rewrite E.
      assert (S : shape c d).
      { destruct H as [L|H]; [exact (shape_vec c d u l L A)|]. cbn [reckless] in H. unfold uninit in H. rewrite E in H.
        destruct u; [|discriminate]. apply A. reflexivity. }
      destruct (inv_tidy _ _ _ _ _ _ V F) as (a & b & Eo & Ha & Hb & T).
      destruct (append_ok c v d (wmem w) _ T S) as (d' & m' & E1 & T' & S' & I'). rewrite E1. cbn [done].
      eexists _, _. split; [reflexivity|]. split; [reflexivity|]. unfold put_obj. cbn [fst snd]. rewrite Eo.
      eapply inv_put with (st := st); [intros y; rewrite <- Eo; apply (inv_agree _ _ _ _ V)|rewrite <- Eo; apply (inv_names _ _ _ _ V)|exact Ha|exact T'|apply Permutation_refl| |].
      * rewrite set_same. split; [rewrite I', (agree_items _ _ _ _ A); reflexivity|]. split; [intros _; exact S'|discriminate].
      * intros y K. apply set_other. exact K.
    + rewrite Sx. eexists _, _. split; [reflexivity|]. auto.
  - unfold on_obj. destruct (find_obj (objs w) x) as [d|] eqn:F.
    + destruct Sx as (u & l & E & A). rewrite E.
      assert (S : shape c d).
      { destruct H as [L|H]; [exact (shape_vec c d u l L A)|]. cbn [reckless] in H. unfold uninit in H. rewrite E in H.
        destruct u; [|discriminate]. apply A. reflexivity. }
      destruct (inv_tidy _ _ _ _ _ _ V F) as (a & b & Eo & Ha & Hb & T).
      destruct (clear_ok c d (wmem w) _ T S) as (d' & m' & E1 & T' & S' & I' & Raw). rewrite E1. cbn [done].
      eexists _, _. split; [reflexivity|]. split; [reflexivity|]. unfold put_obj. cbn [fst snd]. rewrite Eo.
      eapply inv_put with (st := st); [intros y; rewrite <- Eo; apply (inv_agree _ _ _ _ V)|rewrite <- Eo; apply (inv_names _ _ _ _ V)|exact Ha|exact T'|apply Permutation_refl| |].
      * rewrite set_same. split; [exact I'|]. split; [intros _; exact S'|]. intros ->. destruct A as (_ & _ & A). destruct (A eq_refl) as (A1 & A2 & _).
        destruct H as [L|H]; [destruct (Raw L) as [R1 R2]; rewrite R1, R2; auto|]. cbn [reckless] in H. unfold uninit in H. rewrite E in H. discriminate.
      * intros y K. apply set_other. exact K.
    + rewrite Sx. eexists _, _. split; [reflexivity|]. auto.
  - destruct (find_obj (objs w) x) as [d|] eqn:F.
    + destruct Sx as (u & l & E & A). rewrite E. destruct (drop_ok c w st lost x d V F) as (w' & E1 & V').
      { intros L. destruct H as [L'|H]; [congruence|]. cbn [reckless] in H. unfold uninit in H. rewrite E in H.
        destruct u; [|discriminate]. destruct A as (_ & S & _). specialize (S eq_refl). unfold shape in S. rewrite L in S. tauto. }
      rewrite E1. eexists _, _. split; [reflexivity|]. auto.
    + rewrite Sx. unfold drop_obj, on_obj. rewrite F. eexists _, _. split; [reflexivity|]. auto.
Qed.
