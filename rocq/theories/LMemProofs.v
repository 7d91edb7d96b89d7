(** Proofs about the nodes of IntLinkedList when memory is refused. *)
From Coq Require Import ZArith List Bool Arith Lia Permutation.
From Verif Require Import Base LMemModel LMemSpec.
Import ListNotations.
Local Open Scope list_scope.

Lemma met_le g : forall n k, met g k n <= n.
Proof. induction n as [|n IH]; intros k; cbn [met]; [lia|]. destruct (g k); [specialize (IH (S k)); lia | lia]. Qed.
Lemma met_add g : forall a k b, met g k a = a -> met g k (a + b) = a + met g (k + a) b.
Proof.
  induction a as [|a IH]; intros k b H; cbn [met Nat.add] in *; [rewrite Nat.add_0_r; reflexivity|].
  destruct (g k) eqn:Hg; [|discriminate]. injection H as H. rewrite (IH (S k) b H). f_equal. f_equal. f_equal. lia.
Qed.
Lemma met_add_short g : forall a k b, met g k a < a -> met g k (a + b) = met g k a.
Proof.
  induction a as [|a IH]; intros k b H; cbn [met Nat.add] in *; [lia|].
  destruct (g k) eqn:Hg; [|reflexivity]. f_equal. apply IH. lia.
Qed.
Lemma enough_spec g m n : if enough g m n then met g (asked m) n = n else met g (asked m) n < n.
Proof. unfold enough. pose proof (met_le g n (asked m)). destruct (Nat.leb_spec n (met g (asked m) n)); lia. Qed.
Lemma enough_split g m a b m' : asked m' = asked m + a -> enough g m a = true -> enough g m (a + b) = enough g m' b.
Proof.
  intros Ha H. pose proof (enough_spec g m a) as E. rewrite H in E.
  unfold enough. rewrite (met_add g a _ b E), Ha. destruct (Nat.leb_spec (a + b) (a + met g (asked m + a) b)), (Nat.leb_spec b (met g (asked m + a) b)); lia.
Qed.
Lemma enough_short g m a b : enough g m a = false -> enough g m (a + b) = false.
Proof.
  intros H. pose proof (enough_spec g m a) as E. rewrite H in E. pose proof (met_le g a (asked m)).
  unfold enough. rewrite (met_add_short g a _ b E). destruct (Nat.leb_spec (a + b) (met g (asked m) a)); lia.
Qed.

(** ** Nodes *)
Lemma addrs_app a b : addrs (a ++ b) = addrs a ++ addrs b. Proof. apply map_app. Qed.
Lemma vals_app a b : vals (a ++ b) = vals a ++ vals b. Proof. apply map_app. Qed.
Lemma split_at {A} (l : list A) p : l = firstn p l ++ skipn p l. Proof. symmetry. apply firstn_skipn. Qed.

Lemma new_node_ok g m l rest : owns m l rest ->
  let '(o, m') := new_node g m in
  asked m' = S (asked m) /\
  match o with
  | Some a => g (asked m) = true /\ (forall v p, owns m' (firstn p l ++ (a, v) :: skipn p l) rest)
  | None => g (asked m) = false /\ owns m' l rest
  end.
Proof.
  intros (N & P & B). unfold new_node. destruct (g (asked m)) eqn:Hg.
  - split; [reflexivity|]. split; [reflexivity|]. intros v p. unfold owns. cbn [live asked]. split; [|split].
    + constructor; [|exact N]. intros Hin. rewrite Forall_forall in B. specialize (B _ Hin). lia.
    + rewrite addrs_app. cbn [addrs map fst]. fold (addrs (skipn p l)). rewrite <- app_assoc. cbn [app].
      apply Permutation_cons_app. rewrite app_assoc, <- addrs_app, firstn_skipn. exact P.
    + constructor; [lia|]. eapply Forall_impl; [|exact B]. cbn. intros; lia.
  - split; [reflexivity|]. split; [reflexivity|]. unfold owns. cbn [live asked]. split; [exact N|]. split; [exact P|].
    eapply Forall_impl; [|exact B]. cbn. intros; lia.
Qed.

Lemma insert_at_ok g p v l m rest : owns m l rest ->
  exists l' m', asked m' = S (asked m) /\ owns m' l' rest /\
    if enough g m 1 then insert_at g p v l m = (Fine, l', m') /\ vals l' = firstn p (vals l) ++ v :: skipn p (vals l)
    else insert_at g p v l m = (BadAlloc, l', m') /\ l' = l.
Proof.
  intros O. pose proof (new_node_ok g m l rest O) as H. unfold insert_at.
  destruct (new_node g m) as [[a|] m'].
  - destruct H as (Ha & Hg & H). exists (firstn p l ++ (a, v) :: skipn p l), m'. split; [exact Ha|]. split; [apply H|].
    unfold enough. cbn [met]. rewrite Hg. cbn. split; [reflexivity|].
    rewrite vals_app. cbn [vals map snd]. unfold vals. rewrite firstn_map, skipn_map. reflexivity.
  - destruct H as (Ha & Hg & H). exists l, m'. split; [exact Ha|]. split; [exact H|].
    unfold enough. cbn [met]. rewrite Hg. cbn. split; reflexivity.
Qed.
Lemma push_back_ok g v l m rest : owns m l rest ->
  exists l' m', asked m' = S (asked m) /\ owns m' l' rest /\
    if enough g m 1 then push_back g v l m = (Fine, l', m') /\ vals l' = vals l ++ [v]
    else push_back g v l m = (BadAlloc, l', m') /\ l' = l.
Proof.
  intros O. destruct (insert_at_ok g (length l) v l m rest O) as (l' & m' & A & O' & H).
  exists l', m'. split; [exact A|]. split; [exact O'|]. destruct (enough g m 1); [|exact H].
  destruct H as [E V]. split; [exact E|]. rewrite V. rewrite firstn_all2, skipn_all2 by (unfold vals; rewrite map_length; lia). reflexivity.
Qed.

Lemma take_out_ok a xs : In a xs -> exists r, take_out a xs = Some r /\ Permutation xs (a :: r).
Proof.
  induction xs as [|x xs IH]; [intros []|]. intros H. cbn [take_out]. destruct (Nat.eqb_spec x a) as [->|Hx].
  - exists xs. split; [reflexivity | apply Permutation_refl].
  - destruct H as [H|H]; [congruence|]. destruct (IH H) as (r & E & P). exists (x :: r). rewrite E. split; [reflexivity|].
    eapply perm_trans; [apply perm_skip, P | apply perm_swap].
Qed.
Lemma free_node_ok a v p l m rest : owns m l rest -> nth_error l p = Some (a, v) ->
  exists m', free_node a m = (Fine, m') /\ asked m' = asked m /\ owns m' (firstn p l ++ skipn (S p) l) rest.
Proof.
  intros (N & P & B) Hn. assert (Hl : l = firstn p l ++ (a, v) :: skipn (S p) l).
  { clear -Hn. revert p Hn. induction l as [|x l IH]; intros [|p] Hn; cbn in *; try discriminate; [congruence|]. f_equal. apply IH, Hn. }
  assert (P' : Permutation (live m) (a :: addrs (firstn p l ++ skipn (S p) l) ++ rest)).
  { eapply perm_trans; [exact P|]. rewrite Hl at 1. rewrite !addrs_app. cbn [addrs map fst]. fold (addrs (skipn (S p) l)).
    rewrite <- !app_assoc. cbn [app]. apply Permutation_sym, Permutation_middle. }
  destruct (take_out_ok a (live m)) as (r & E & Q).
  { eapply Permutation_in; [apply Permutation_sym, P' | left; reflexivity]. }
  exists {| live := r; asked := asked m |}. unfold free_node. rewrite E. split; [reflexivity|]. split; [reflexivity|].
  unfold owns. cbn [live asked].
  assert (N' : NoDup (a :: r)) by (eapply Permutation_NoDup; [exact Q | exact N]).
  assert (B' : Forall (fun x => x < asked m) (a :: r)) by (rewrite Forall_forall in *; intros x Hx; apply B; eapply Permutation_in; [apply Permutation_sym, Q | exact Hx]).
  split; [inversion N'; assumption|]. split; [|inversion B'; assumption].
  apply Permutation_cons_inv with (a := a). eapply perm_trans; [apply Permutation_sym, Q | exact P'].
Qed.
Lemma free_nodes_ok : forall l m rest, owns m l rest -> exists m', free_nodes l m = (Fine, m') /\ asked m' = asked m /\ owns m' [] rest.
Proof.
  induction l as [|[a v] l IH]; intros m rest O; cbn [free_nodes].
  - exists m. split; [reflexivity|]. split; [reflexivity | exact O].
  - destruct (free_node_ok a v 0 ((a, v) :: l) m rest O eq_refl) as (m1 & E & A & O1). rewrite E. cbn [firstn skipn app] in O1.
    destruct (IH m1 rest O1) as (m' & E' & A' & O'). exists m'. split; [exact E'|]. split; [congruence | exact O'].
Qed.

Lemma owns_move m l rest tmp : owns m (l ++ tmp) rest <-> owns m tmp (addrs l ++ rest).
Proof.
  unfold owns. rewrite addrs_app.
  assert (P : Permutation ((addrs l ++ addrs tmp) ++ rest) (addrs tmp ++ addrs l ++ rest)).
  { rewrite app_assoc. apply Permutation_app_tail, Permutation_app_comm. }
  split; intros (N & Q & B); (split; [exact N | split; [|exact B]]); [eapply perm_trans; [exact Q | exact P] | eapply perm_trans; [exact Q | apply Permutation_sym, P]].
Qed.

Lemma build_ok g : forall vs tmp m rest, owns m tmp rest ->
  if enough g m (length vs)
  then exists tmp' m', build g vs tmp m = (Fine, tmp', m') /\ vals tmp' = vals tmp ++ vs /\ owns m' tmp' rest /\ asked m' = asked m + length vs
  else exists m', build g vs tmp m = (BadAlloc, [], m') /\ owns m' [] rest /\ asked m < asked m'.
Proof.
  induction vs as [|v vs IH]; intros tmp m rest O.
  - cbn. exists tmp, m. rewrite app_nil_r, Nat.add_0_r. auto.
  - cbn [build length]. destruct (push_back_ok g v tmp m rest O) as (t1 & m1 & A & O1 & H).
    change (S (length vs)) with (1 + length vs). destruct (enough g m 1) eqn:E1.
    + rewrite (enough_split g m 1 (length vs) m1) by (first [lia | exact E1]). destruct H as [H V]. rewrite H.
      specialize (IH t1 m1 rest O1). destruct (enough g m1 (length vs)).
      * destruct IH as (t2 & m2 & B & V2 & O2 & A2). exists t2, m2. split; [exact B|]. split; [rewrite V2, V, <- app_assoc; reflexivity|]. split; [exact O2 | lia].
      * destruct IH as (m2 & B & O2 & A2). exists m2. split; [exact B|]. split; [exact O2 | lia].
    + rewrite (enough_short g m 1 (length vs) E1). destruct H as [H ->]. rewrite H.
      destruct (free_nodes_ok tmp m1 rest O1) as (m2 & F & A2 & O2). rewrite F. exists m2. split; [reflexivity|]. split; [exact O2 | lia].
Qed.

Lemma append_range_ok g vs l m rest : owns m l rest ->
  if enough g m (length vs)
  then exists l' m', append_range g vs l m = (Fine, l', m') /\ vals l' = vals l ++ vs /\ owns m' l' rest /\ asked m' = asked m + length vs
  else exists m', append_range g vs l m = (BadAlloc, l, m') /\ owns m' l rest /\ asked m < asked m'.
Proof.
  intros O. unfold append_range.
  assert (O0 : owns m [] (addrs l ++ rest)) by (apply (owns_move m l rest []); rewrite app_nil_r; exact O).
  pose proof (build_ok g vs [] m _ O0) as H. destruct (enough g m (length vs)).
  - destruct H as (t & m' & B & V & O' & A). rewrite B. exists (l ++ t), m'. split; [reflexivity|].
    split; [rewrite vals_app, V; reflexivity|]. split; [apply owns_move, O' | exact A].
  - destruct H as (m' & B & O' & A). rewrite B. exists m'. split; [reflexivity|]. split; [|exact A].
    apply (owns_move m' l rest []) in O'. rewrite app_nil_r in O'. exact O'.
Qed.

Lemma erase_at_ok : forall n p l m rest, owns m l rest -> p + n <= length l ->
  exists l' m', erase_at p n l m = (Fine, l', m') /\ vals l' = firstn p (vals l) ++ skipn (p + n) (vals l) /\ owns m' l' rest /\ asked m' = asked m.
Proof.
  induction n as [|n IH]; intros p l m rest O Hp; cbn [erase_at].
  - exists l, m. rewrite Nat.add_0_r, firstn_skipn. auto.
  - destruct (nth_error l p) as [[a v]|] eqn:Hn; [|apply nth_error_None in Hn; lia].
    destruct (free_node_ok a v p l m rest O Hn) as (m1 & E & A & O1). rewrite E.
    destruct (IH p (firstn p l ++ skipn (S p) l) m1 rest O1) as (l' & m' & E' & V & O' & A').
    { rewrite app_length, firstn_length, skipn_length. lia. }
    exists l', m'. split; [exact E'|]. split; [|split; [exact O' | congruence]].
    rewrite V, vals_app. unfold vals. rewrite <- firstn_map, <- skipn_map. fold (vals l).
    assert (L : length (firstn p (vals l)) = p) by (rewrite firstn_length; unfold vals; rewrite map_length; lia).
    f_equal.
    + rewrite firstn_app, L, Nat.sub_diag, firstn_O, app_nil_r, firstn_firstn. f_equal. lia.
    + rewrite skipn_app, L. rewrite (skipn_all2 (firstn p (vals l))) by lia. cbn [app].
      replace (p + n - p) with n by lia. clear. generalize (vals l) as xs. induction p as [|p IHp]; intros xs.
      * destruct xs; [rewrite !skipn_nil; reflexivity | reflexivity].
      * destruct xs; [rewrite !skipn_nil; reflexivity|]. cbn [skipn Nat.add]. apply IHp.
Qed.

Lemma assign_empty g vs m rest : owns m [] rest ->
  if enough g m (length vs)
  then exists l' m', assign_list g vs [] m = (Fine, l', m') /\ vals l' = vs /\ owns m' l' rest /\ asked m' = asked m + length vs
  else exists m', assign_list g vs [] m = (BadAlloc, [], m') /\ owns m' [] rest /\ asked m < asked m'.
Proof.
  intros O. unfold assign_list. assert (E : overwrite 0 vs [] = (0, [])) by (destruct vs; reflexivity). rewrite E.
  destruct vs as [|v vs].
  - cbn. exists [], m. rewrite Nat.add_0_r. auto.
  - change (length (v :: vs) <=? 0) with false. cbn [skipn]. exact (append_range_ok g (v :: vs) [] m rest O).
Qed.

Lemma push_all_ok g : forall vs l m rest, owns m l rest ->
  exists l' m', owns m' l' rest /\ asked m <= asked m' /\
    if enough g m (length vs) then push_all g vs l m = (Fine, l', m') /\ vals l' = vals l ++ vs
    else push_all g vs l m = (BadAlloc, l', m').
Proof.
  induction vs as [|v vs IH]; intros l m rest O; cbn [push_all length].
  - exists l, m. cbn. rewrite app_nil_r. auto.
  - destruct (push_back_ok g v l m rest O) as (l1 & m1 & A & O1 & H). change (S (length vs)) with (1 + length vs).
    destruct (enough g m 1) eqn:E1.
    + destruct H as [H V]. rewrite H, (enough_split g m 1 (length vs) m1) by (first [lia | exact E1]).
      destruct (IH l1 m1 rest O1) as (l2 & m2 & O2 & A2 & H2). exists l2, m2. split; [exact O2|]. split; [lia|].
      destruct (enough g m1 (length vs)); [|exact H2]. destruct H2 as [H2 V2]. split; [exact H2|]. rewrite V2, V, <- app_assoc. reflexivity.
    + destruct H as [H ->]. rewrite H, (enough_short g m 1 (length vs) E1). exists l, m1. split; [exact O1|]. split; [lia | reflexivity].
Qed.

Lemma times_length n xs : length (times n xs) = n * length xs.
Proof. induction n as [|n IH]; cbn [times]; [reflexivity|]. rewrite app_length, IH. reflexivity. Qed.
Lemma mul_loop_ok g xs : forall n l m rest, owns m l rest ->
  exists l' m', owns m' l' rest /\ asked m <= asked m' /\
    if enough g m (n * length xs) then mul_loop g n xs l m = (Fine, l', m') /\ vals l' = vals l ++ times n xs
    else mul_loop g n xs l m = (BadAlloc, l', m').
Proof.
  induction n as [|n IH]; intros l m rest O; cbn [mul_loop Nat.mul].
  - exists l, m. cbn. rewrite app_nil_r. auto.
  - pose proof (append_range_ok g xs l m rest O) as H. destruct (enough g m (length xs)) eqn:E1.
    + destruct H as (l1 & m1 & H & V & O1 & A). rewrite H, (enough_split g m _ _ m1 A E1).
      destruct (IH l1 m1 rest O1) as (l2 & m2 & O2 & A2 & H2). exists l2, m2. split; [exact O2|]. split; [lia|].
      destruct (enough g m1 (n * length xs)); [|exact H2]. destruct H2 as [H2 V2]. split; [exact H2|]. rewrite V2, V, <- app_assoc. reflexivity.
    + destruct H as (m1 & H & O1 & A). rewrite H, (enough_short g m _ (n * length xs) E1). exists l, m1. split; [exact O1|]. split; [lia | reflexivity].
Qed.

Lemma times_add a b xs : times (a + b) xs = times a xs ++ times b xs.
Proof. induction a as [|a IH]; cbn [times Nat.add]; [reflexivity|]. rewrite IH, app_assoc. reflexivity. Qed.
(** [r]: the rounds for which there was memory. *)
Lemma imul_loop_ok g : forall n l m rest, owns m l rest ->
  exists r l' m', r <= n /\ owns m' l' rest /\ vals l' = times (2 ^ r) (vals l) /\ asked m <= asked m' /\
    enough g m ((2 ^ r - 1) * length l) = true /\
    ((r = n /\ imul_loop g n l m = (Fine, l', m')) \/
     (r < n /\ imul_loop g n l m = (BadAlloc, l', m') /\ enough g m ((2 ^ S r - 1) * length l) = false)).
Proof.
  induction n as [|n IH]; intros l m rest O; cbn [imul_loop].
  - exists 0, l, m. cbn. rewrite app_nil_r. repeat (split; [auto; lia|]). left. auto.
  - pose proof (append_range_ok g (vals l) l m rest O) as H.
    assert (L : length (vals l) = length l) by apply map_length. rewrite L in H.
    destruct (enough g m (length l)) eqn:E1.
    + destruct H as (l1 & m1 & H & V & O1 & A). rewrite H.
      assert (L1 : length l1 = length l + length l).
      { apply (f_equal (@length Z)) in V. rewrite app_length in V. unfold vals in V. rewrite !map_length in V. exact V. }
      destruct (IH l1 m1 rest O1) as (r & l2 & m2 & Hr & O2 & V2 & A2 & En & Q).
      assert (P2 : forall k, (2 ^ S k - 1) * length l = length l + (2 ^ k - 1) * length l1).
      { intros k. rewrite L1. cbn [Nat.pow]. assert (1 <= 2 ^ k) by (pose proof (Nat.pow_nonzero 2 k ltac:(lia)); lia). nia. }
      exists (S r), l2, m2. split; [lia|]. split; [exact O2|]. split.
      { rewrite V2, V. replace (2 ^ S r) with (2 ^ r + 2 ^ r) by (cbn [Nat.pow]; lia). clear.
        generalize (2 ^ r) as k. intros k. induction k as [|k IH]; [reflexivity|].
        replace (S k + S k) with (S (S (k + k))) by lia. cbn [times]. rewrite IH, app_assoc. reflexivity. }
      split; [lia|]. split; [rewrite P2, (enough_split g m _ _ m1 A E1); exact En|].
      destruct Q as [[-> Q]|[Q1 [Q2 Q3]]]; [left; auto|]. right. split; [lia|]. split; [exact Q2|].
      rewrite P2, (enough_split g m _ _ m1 A E1). exact Q3.
    + destruct H as (m1 & H & O1 & A). rewrite H. exists 0, l, m1. split; [lia|]. split; [exact O1|]. cbn [Nat.pow times].
      rewrite app_nil_r. split; [reflexivity|]. split; [lia|]. split; [reflexivity|]. right. split; [lia|]. split; [reflexivity|].
      cbn. rewrite Nat.add_0_r. exact E1.
Qed.

(** ** Calls *)
Lemma append_ok g i l m rest : owns m l rest ->
  exists l' m', owns m' l' rest /\
    append g i l m = (if enough g m 1 then Returns (snd i) else Raises RuntimeError, l', m') /\
    vals l' = if enough g m 1 then vals l ++ [fst i] else vals l.
Proof.
  intros O. unfold append. destruct (push_back_ok g (fst i) l m rest O) as (l' & m' & A & O' & H). exists l', m'. split; [exact O'|].
  destruct (enough g m 1); destruct H as [H V]; rewrite H; cbn [caught]; split; [reflexivity | exact V | reflexivity | rewrite V; reflexivity].
Qed.
Lemma insert_ok g p v l m rest : owns m l rest ->
  exists l' m', owns m' l' rest /\
    insert g p v l m = (if enough g m 1 then Returns None else Raises RuntimeError, l', m') /\
    vals l' = if enough g m 1 then firstn p (vals l) ++ v :: skipn p (vals l) else vals l.
Proof.
  intros O. unfold insert. destruct (insert_at_ok g p v l m rest O) as (l' & m' & A & O' & H). exists l', m'. split; [exact O'|].
  destruct (enough g m 1); destruct H as [H V]; rewrite H; cbn [caught]; split; [reflexivity | exact V | reflexivity | rewrite V; reflexivity].
Qed.
Lemma extend_same_ok g ys l m rest : owns m l rest ->
  exists l' m', owns m' l' rest /\
    extend_same g ys l m = (if enough g m (length ys) then Returns None else Terminates, l', m') /\
    vals l' = if enough g m (length ys) then vals l ++ ys else vals l.
Proof.
  intros O. unfold extend_same. pose proof (append_range_ok g ys l m rest O) as H. destruct (enough g m (length ys)).
  - destruct H as (l' & m' & H & V & O' & A). exists l', m'. rewrite H. split; [exact O'|]. split; [reflexivity | exact V].
  - destruct H as (m' & H & O' & A). exists l, m'. rewrite H. split; [exact O'|]. split; reflexivity.
Qed.

(** What extend ends with when there is memory: the error of the item that does
    not convert, if another item or the end of the iterator shows it, or the
    error of the iterator. *)
Fixpoint ext_end (is_ : list item) (fin pend : option exn) : ending :=
  match is_ with
  | [] => match fin, pend with Some e, _ => Raises e | None, Some e => Raises e | None, None => Returns None end
  | (_, err) :: r => match pend with Some e => Raises e | None => ext_end r fin err end
  end.
Lemma ext_end_pend is_ fin e : ext_end is_ fin (Some e) = match is_, fin with [], Some x => Raises x | _, _ => Raises e end.
Proof. destruct is_ as [|[v err] r]; destruct fin; reflexivity. Qed.
Lemma extend_items_ok g : forall is_ fin l m rest, owns m l rest ->
  exists l' m', owns m' l' rest /\
    extend_items g is_ fin None l m = (if enough g m (length (through is_)) then ext_end is_ fin None else Terminates, l', m') /\
    (enough g m (length (through is_)) = true -> vals l' = vals l ++ through is_).
Proof.
  induction is_ as [|[v err] r IH]; intros fin l m rest O; cbn [extend_items].
  - exists l, m. cbn. rewrite app_nil_r. auto.
  - destruct (push_back_ok g v l m rest O) as (l1 & m1 & A & O1 & H).
    destruct (enough g m 1) eqn:E1.
    + destruct H as [H V]. rewrite H. cbn [ext_end through]. destruct err as [e|].
      * cbn [length]. exists l1, m1. split; [exact O1|]. rewrite E1. split; [|intros _; exact V].
        rewrite ext_end_pend. destruct r as [|[v' err'] r']; destruct fin; reflexivity.
      * cbn [length]. change (S (length (through r))) with (1 + length (through r)). rewrite (enough_split g m 1 _ m1) by (first [lia | exact E1]).
        destruct (IH fin l1 m1 rest O1) as (l2 & m2 & O2 & H2 & V2). exists l2, m2. split; [exact O2|]. split; [exact H2|].
        intros E. rewrite (V2 E), V, <- app_assoc. reflexivity.
    + destruct H as [H ->]. rewrite H. exists l, m1. split; [exact O1|].
      destruct err; cbn [through length].
      * rewrite E1. split; [reflexivity | discriminate].
      * change (S (length (through r))) with (1 + length (through r)). rewrite (enough_short g m 1 _ E1). split; [reflexivity | discriminate].
Qed.

Lemma init_items_ok g : forall is_ fin l m rest, owns m l rest ->
  exists l' m', owns m' l' rest /\
    init_items g is_ fin l m = (if enough g m (length (before is_)) then init_end is_ fin else Raises RuntimeError, l', m') /\
    vals l' = vals l ++ firstn (met g (asked m) (length (before is_))) (before is_).
Proof.
  induction is_ as [|[v err] r IH]; intros fin l m rest O; cbn [init_items].
  - exists l, m. cbn. rewrite app_nil_r. auto.
  - destruct err as [e|].
    + cbn [before length]. exists l, m. cbn. rewrite app_nil_r. auto.
    + cbn [before length]. destruct (push_back_ok g v l m rest O) as (l1 & m1 & A & O1 & H).
      change (S (length (before r))) with (1 + length (before r)).
      destruct (enough g m 1) eqn:E1.
      * destruct H as [H V]. rewrite H. rewrite (enough_split g m 1 _ m1) by (first [lia | exact E1]).
        destruct (IH fin l1 m1 rest O1) as (l2 & m2 & O2 & H2 & V2). exists l2, m2. split; [exact O2|]. split; [exact H2|].
        rewrite V2, V. pose proof (enough_spec g m 1) as E. rewrite E1 in E. rewrite (met_add g 1 _ _ E), A.
        replace (asked m + 1) with (S (asked m)) by lia. cbn [Nat.add firstn]. rewrite <- app_assoc. reflexivity.
      * destruct H as [H ->]. rewrite H. rewrite (enough_short g m 1 _ E1). exists l, m1. split; [exact O1|]. split; [reflexivity|].
        pose proof (enough_spec g m 1) as E. rewrite E1 in E. rewrite (met_add_short g 1 _ _ E).
        replace (met g (asked m) 1) with 0 by lia. cbn. rewrite app_nil_r. reflexivity.
Qed.

Lemma construct_ok g obj s m rest : owns m [] rest ->
  match construct g obj s m with
  | (Returns e, Some l, m') => owns m' l rest
  | (Raises e, None, m') => owns m' [] rest
  | _ => False
  end.
Proof.
  intros O. unfold construct. destruct obj; [|exact O].
  assert (H : exists x l' m', init g s m = (x, l', m') /\ owns m' l' rest /\ match x with Returns _ | Raises _ => True | _ => False end).
  { destruct s as [|ys|is_ fin]; cbn [init].
    - exists (Returns None), [], m. auto.
    - pose proof (assign_empty g ys m rest O) as H. destruct (enough g m (length ys)).
      + destruct H as (l' & m' & H & V & O' & A). rewrite H. exists (Returns None), l', m'. auto.
      + destruct H as (m' & H & O' & A). rewrite H. exists (Raises RuntimeError), [], m'. auto.
    - destruct (init_items_ok g is_ fin [] m rest O) as (l' & m' & O' & H & V). rewrite H. eexists _, l', m'. split; [reflexivity|]. split; [exact O'|].
      unfold init_end. destruct (enough g m (length (before is_))); [|exact I]. destruct (failed is_), fin; exact I. }
  destruct H as (x & l' & m' & E & O' & X). rewrite E. destruct x as [e|e| |u]; try contradiction; [exact O'|].
  unfold dealloc. destruct (free_nodes_ok l' m' rest O') as (m2 & F & A & O2). rewrite F. exact O2.
Qed.

(** The list a failed construction leaves when the object stays (l.__init__). *)
Lemma init_ok g s m rest : owns m [] rest ->
  exists x l' m', init g s m = (x, l', m') /\ owns m' l' rest /\ match x with Returns _ | Raises _ => True | _ => False end.
Proof.
  intros O. destruct s as [|ys|is_ fin]; cbn [init].
  - exists (Returns None), [], m. auto.
  - pose proof (assign_empty g ys m rest O) as H. destruct (enough g m (length ys)).
    + destruct H as (l' & m' & H & V & O' & A). rewrite H. exists (Returns None), l', m'. auto.
    + destruct H as (m' & H & O' & A). rewrite H. exists (Raises RuntimeError), [], m'. auto.
  - destruct (init_items_ok g is_ fin [] m rest O) as (l' & m' & O' & H & V). rewrite H. eexists _, l', m'. split; [reflexivity|]. split; [exact O'|].
    unfold init_end. destruct (enough g m (length (before is_))); [|exact I]. destruct (failed is_), fin; exact I.
Qed.

Lemma copy_ok g obj xs m rest : owns m [] rest -> makes g obj xs m rest (copy g obj xs m).
Proof.
  intros O. unfold copy, makes. destruct obj; [|auto]. pose proof (assign_empty g xs m rest O) as H. destruct (enough g m (length xs)).
  - destruct H as (l' & m' & H & V & O' & A). rewrite H. split; [reflexivity|]. exists l'. auto.
  - destruct H as (m' & H & O' & A). rewrite H. cbn [give_up]. auto.
Qed.
Lemma construct_same g obj xs m rest : owns m [] rest -> makes g obj xs m rest (construct g obj (SSame xs) m).
Proof.
  intros O. unfold construct, makes. destruct obj; [|auto]. cbn [init]. pose proof (assign_empty g xs m rest O) as H. destruct (enough g m (length xs)).
  - destruct H as (l' & m' & H & V & O' & A). rewrite H. cbn [caught]. split; [reflexivity|]. exists l'. auto.
  - destruct H as (m' & H & O' & A). rewrite H. cbn [caught dealloc free_nodes]. auto.
Qed.
Lemma construct_items g is_ m rest : owns m [] rest ->
  let '(x, o, m') := construct g true (SItems is_ None) m in
  if enough g m (length (before is_)) && (match failed is_ with None => true | Some _ => false end)
  then x = Returns None /\ exists l, o = Some l /\ vals l = values_of is_ /\ owns m' l rest
  else x = Raises RuntimeError /\ o = None /\ owns m' [] rest.
Proof.
  intros O. unfold construct. cbn [init]. destruct (init_items_ok g is_ None [] m rest O) as (l' & m' & O' & H & V). rewrite H.
  pose proof (enough_spec g m (length (before is_))) as E.
  assert (D : forall e, let '(x, o, m2) := match dealloc l' m' with (Fine, m2) => (Raises e, None, m2) | (Wrong u, m2) => (Corrupt u, @None lst, m2) | (BadAlloc, m2) => (Terminates, None, m2) end in
              x = Raises e /\ o = None /\ owns m2 [] rest).
  { intros e. unfold dealloc. destruct (free_nodes_ok l' m' rest O') as (m2 & F & A & O2). rewrite F. auto. }
  destruct (enough g m (length (before is_))); cbn [andb].
  - unfold init_end. destruct (failed is_) eqn:Hf; [apply D|]. split; [reflexivity|]. exists l'. split; [reflexivity|]. split; [|exact O'].
    rewrite V, E, firstn_all. cbn [vals map app]. clear -Hf. induction is_ as [|[v [e|]] r IH]; cbn in *; [reflexivity | discriminate |].
    f_equal. apply IH, Hf.
  - apply D.
Qed.
Lemma range_ok g obj vs m rest : owns m [] rest -> makes g obj vs m rest (from_range g obj vs m).
Proof.
  intros O. unfold from_range, makes. destruct obj; [|auto]. destruct (push_all_ok g vs [] m rest O) as (l' & m' & O' & A & H).
  destruct (enough g m (length vs)).
  - destruct H as [H V]. rewrite H. split; [reflexivity|]. exists l'. auto.
  - rewrite H. cbn [give_up]. destruct (free_nodes_ok l' m' rest O') as (m2 & F & A2 & O2). rewrite F. auto.
Qed.
Lemma mul_ok g obj n xs m rest : owns m [] rest -> makes g obj (times (Z.to_nat n) xs) m rest (mul g obj n xs m).
Proof.
  intros O. unfold mul, makes. destruct obj; [|auto]. destruct (mul_loop_ok g xs (Z.to_nat n) [] m rest O) as (l' & m' & O' & A & H).
  rewrite times_length. destruct (enough g m (Z.to_nat n * length xs)).
  - destruct H as [H V]. rewrite H. split; [reflexivity|]. exists l'. auto.
  - rewrite H. cbn [give_up]. destruct (free_nodes_ok l' m' rest O') as (m2 & F & A2 & O2). rewrite F. auto.
Qed.

Lemma imul_ok g n l m rest : owns m l rest ->
  exists r l' m', owns m' l' rest /\
    ((n <= 0)%Z /\ imul g n l m = (Returns None, l', m') /\ l' = [] \/
     (0 < n)%Z /\ r = Z.to_nat n - 1 /\ imul g n l m = (Returns None, l', m') /\ vals l' = times (2 ^ r) (vals l) /\ enough g m ((2 ^ r - 1) * length l) = true \/
     (0 < n)%Z /\ r < Z.to_nat n - 1 /\ imul g n l m = (Raises RuntimeError, l', m') /\ vals l' = times (2 ^ r) (vals l) /\
     enough g m ((2 ^ r - 1) * length l) = true /\ enough g m ((2 ^ S r - 1) * length l) = false).
Proof.
  intros O. unfold imul. destruct (Z.leb_spec n 0).
  - unfold clear_list. destruct (free_nodes_ok l m rest O) as (m' & F & A & O'). rewrite F. exists 0, [], m'. split; [exact O'|]. left. auto.
  - destruct (imul_loop_ok g (Z.to_nat n - 1) l m rest O) as (r & l' & m' & Hr & O' & V & A & E & [[-> Q]|(Q1 & Q2 & Q3)]); rewrite ?Q, ?Q2.
    + exists (Z.to_nat n - 1), l', m'. split; [exact O'|]. right. left. auto.
    + exists r, l', m'. split; [exact O'|]. right. right. cbn [caught]. auto 10.
Qed.

(** ** Slices *)
Lemma set_at_ok p v l : p < length l ->
  exists l', set_at p v l = Some l' /\ addrs l' = addrs l /\ vals l' = firstn p (vals l) ++ v :: skipn (S p) (vals l).
Proof.
  intros Hp. unfold set_at. destruct (nth_error l p) as [[a x]|] eqn:Hn; [|apply nth_error_None in Hn; lia].
  eexists. split; [reflexivity|]. rewrite addrs_app, vals_app. cbn [addrs vals map fst snd]. unfold vals, addrs. split.
  - clear v Hp. revert p Hn. induction l as [|[b y] l IH]; intros [|p] Hn; cbn [nth_error firstn skipn map fst app] in *; try discriminate; [congruence|].
    f_equal. apply IH, Hn.
  - rewrite firstn_map. f_equal. f_equal. symmetry. apply skipn_map.
Qed.
Lemma skip_skip {A} : forall b a (xs : list A), skipn a (skipn b xs) = skipn (b + a) xs.
Proof.
  induction b as [|b IH]; intros a xs; [reflexivity|]. destruct xs as [|x xs]; [rewrite !skipn_nil; reflexivity|]. cbn [skipn Nat.add]. apply IH.
Qed.
Lemma over_set (xs : list Z) p v vs : p < length xs ->
  firstn p xs ++ (v :: vs) ++ skipn (S p + length vs) xs =
  firstn (S p) (firstn p xs ++ v :: skipn (S p) xs) ++ vs ++ skipn (S p + length vs) (firstn p xs ++ v :: skipn (S p) xs).
Proof.
  intros H. assert (L : length (firstn p xs) = p) by (rewrite firstn_length; lia).
  rewrite <- skip_skip. generalize (skipn (S p) xs) as t. intros t.
  rewrite firstn_app, skipn_app, L, firstn_firstn. replace (Nat.min (S p) p) with p by lia.
  replace (S p - p) with 1 by lia. replace (S p + length vs - p) with (S (length vs)) by lia.
  rewrite (skipn_all2 (firstn p xs)) by lia. cbn [firstn skipn app]. rewrite <- app_assoc. reflexivity.
Qed.
Lemma assign_items_ok : forall is_ p l, p + length is_ <= length l ->
  exists l', assign_items p is_ l = (match failed is_ with Some e => Raises e | None => Returns None end, l') /\ addrs l' = addrs l /\
    vals l' = firstn p (vals l) ++ through is_ ++ skipn (p + length (through is_)) (vals l).
Proof.
  induction is_ as [|[v err] r IH]; intros p l Hp; cbn [assign_items].
  - exists l. cbn. rewrite Nat.add_0_r, firstn_skipn. auto.
  - cbn [length] in Hp. destruct (set_at_ok p v l ltac:(lia)) as (l1 & E & A & V). rewrite E.
    assert (LV : length (vals l) = length l) by apply map_length.
    destruct err as [e|].
    + exists l1. cbn [failed through length app]. split; [reflexivity|]. split; [exact A|]. rewrite V. replace (p + 1) with (S p) by lia. reflexivity.
    + assert (L1 : length l1 = length l) by (apply (f_equal (@length nat)) in A; unfold addrs in A; rewrite !map_length in A; exact A).
      destruct (IH (S p) l1 ltac:(lia)) as (l2 & E2 & A2 & V2). exists l2. cbn [failed through length]. split; [exact E2|]. split; [congruence|].
      rewrite V2, V. replace (p + S (length (through r))) with (S p + length (through r)) by lia. symmetry. apply over_set. lia.
Qed.
Lemma ins_one (xs : list Z) p v vs : p <= length xs ->
  firstn (S p) (firstn p xs ++ v :: skipn p xs) ++ vs ++ skipn (S p) (firstn p xs ++ v :: skipn p xs) = firstn p xs ++ (v :: vs) ++ skipn p xs.
Proof.
  intros H. assert (L : length (firstn p xs) = p) by (rewrite firstn_length; lia).
  rewrite firstn_app, skipn_app, L, firstn_firstn. replace (Nat.min (S p) p) with p by lia. replace (S p - p) with 1 by lia.
  rewrite (skipn_all2 (firstn p xs)) by lia. cbn [firstn skipn app]. rewrite <- app_assoc. reflexivity.
Qed.
Lemma insert_items_ok g : forall is_ p l m rest, owns m l rest -> p <= length l ->
  exists l' m', owns m' l' rest /\
    insert_items g p is_ l m = (if enough g m (length (through is_)) then match failed is_ with Some e => Raises e | None => Returns None end else Raises RuntimeError, l', m') /\
    vals l' = firstn p (vals l) ++ firstn (met g (asked m) (length (through is_))) (through is_) ++ skipn p (vals l).
Proof.
  induction is_ as [|[v err] r IH]; intros p l m rest O Hp; cbn [insert_items].
  - exists l, m. cbn. rewrite firstn_skipn. auto.
  - destruct (insert_at_ok g p v l m rest O) as (l1 & m1 & A & O1 & H). assert (LV : length (vals l) = length l) by apply map_length.
    destruct (enough g m 1) eqn:E1.
    + destruct H as [H V]. rewrite H. pose proof (enough_spec g m 1) as E. rewrite E1 in E. destruct err as [e|].
      * cbn [through failed length]. rewrite E1. exists l1, m1. split; [exact O1|]. split; [reflexivity|]. rewrite V, E. reflexivity.
      * cbn [through failed length]. change (S (length (through r))) with (1 + length (through r)). rewrite (enough_split g m 1 _ m1) by (first [lia | exact E1]).
        assert (L1 : length l1 = S (length l)).
        { apply (f_equal (@length Z)) in V. rewrite app_length in V. cbn [length] in V. rewrite firstn_length, skipn_length in V. unfold vals in V. rewrite !map_length in V. lia. }
        destruct (IH (S p) l1 m1 rest O1 ltac:(lia)) as (l2 & m2 & O2 & H2 & V2). exists l2, m2. split; [exact O2|]. split; [exact H2|].
        rewrite V2, V, (met_add g 1 _ _ E), A. replace (asked m + 1) with (S (asked m)) by lia. cbn [Nat.add firstn].
        pose proof (ins_one (vals l) p v (firstn (met g (S (asked m)) (length (through r))) (through r)) ltac:(lia)) as I. exact I.
    + destruct H as [H ->]. rewrite H. pose proof (enough_spec g m 1) as E. rewrite E1 in E. exists l, m1. split; [exact O1|].
      assert (F : forall k, enough g m (S k) = false /\ met g (asked m) (S k) = 0).
      { intros k. change (S k) with (1 + k). rewrite (enough_short g m 1 k E1), (met_add_short g 1 _ k E). split; [reflexivity | lia]. }
      destruct err; cbn [through length]; destruct (F 0) as [F1 F2], (F (length (through r))) as [F3 F4].
      * rewrite F1, F2. cbn [firstn app]. rewrite firstn_skipn. auto.
      * rewrite F3, F4. cbn [firstn app]. rewrite firstn_skipn. auto.
Qed.

Lemma through_split : forall n is_,
  match failed (firstn n is_) with
  | Some e => through (firstn n is_) = through is_ /\ failed is_ = Some e /\ length (through is_) <= n
  | None => through is_ = values_of (firstn n is_) ++ through (skipn n is_) /\ failed is_ = failed (skipn n is_) /\
            through (firstn n is_) = values_of (firstn n is_)
  end.
Proof.
  induction n as [|n IH]; intros [|[v [e|]] r]; cbn [firstn skipn failed through values_of map fst app length]; try (split; [|split]; (reflexivity || lia)).
  specialize (IH r). destruct (failed (firstn n r)).
  - destruct IH as (A & B & C). split; [|split]; [rewrite A; reflexivity | exact B | lia].
  - destruct IH as (A & B & C). fold (values_of (firstn n r)). split; [|split]; [rewrite A; reflexivity | exact B | rewrite C; reflexivity].
Qed.
Lemma set_slice_ok g p n is_ l m rest : owns m l rest -> p + n <= length l ->
  exists l' m', owns m' l' rest /\
    set_slice g p n is_ l m = (if enough g m (length (through is_) - n) then match failed is_ with Some e => Raises e | None => Returns None end
                               else Raises RuntimeError, l', m') /\
    vals l' = firstn p (vals l) ++ firstn (n + met g (asked m) (length (through is_) - n)) (through is_) ++
              skipn (p + match failed is_ with Some _ => Nat.min n (length (through is_)) | None => n end) (vals l).
Proof.
  intros O Hp. unfold set_slice. assert (LV : length (vals l) = length l) by apply map_length.
  destruct (assign_items_ok (firstn n is_) p l) as (l1 & E & A & V). { rewrite firstn_length. lia. }
  assert (O1 : owns m l1 rest) by (unfold owns in *; rewrite A; exact O).
  assert (L1 : length l1 = length l) by (apply (f_equal (@length nat)) in A; unfold addrs in A; rewrite !map_length in A; exact A).
  pose proof (through_split n is_) as T. rewrite E. destruct (failed (firstn n is_)) as [e|].
  - destruct T as (T1 & T2 & T3). rewrite T2. replace (length (through is_) - n) with 0 by lia. cbn [enough met Nat.leb].
    exists l1, m. split; [exact O1|]. split; [reflexivity|]. rewrite V, T1. rewrite (firstn_all2 (n := n + 0)) by lia. rewrite Nat.min_r by lia. reflexivity.
  - destruct T as (T1 & T2 & T3). rewrite T3 in V. destruct (Nat.leb_spec (length is_) n) as [Hn|Hn].
    + assert (S0 : skipn n is_ = []) by (apply skipn_all2; lia). rewrite S0 in T1, T2. cbn [through failed] in T1, T2. rewrite app_nil_r in T1.
      assert (FI : firstn n is_ = is_) by (apply firstn_all2; lia). rewrite FI in T1, V. assert (LI : length (values_of is_) = length is_) by apply map_length.
      rewrite T2, T1, LI. replace (length is_ - n) with 0 by lia. cbn [enough met Nat.leb].
      destruct (erase_at_ok (n - length is_) (p + length is_) l1 m rest O1 ltac:(lia)) as (l2 & m2 & E2 & V2 & O2 & A2). rewrite E2.
      exists l2, m2. split; [exact O2|]. split; [reflexivity|]. rewrite V2, V, LI. rewrite (firstn_all2 (n := n + 0)) by lia.
      assert (LF : length (firstn p (vals l)) = p) by (rewrite firstn_length; lia).
      rewrite firstn_app, LF. rewrite (firstn_all2 (firstn p (vals l))) by lia. replace (p + length is_ - p) with (length (values_of is_) + 0) by lia.
      rewrite firstn_app_2, firstn_O, app_nil_r. rewrite !app_assoc. f_equal.
      rewrite skipn_app. rewrite skipn_all2 by (rewrite app_length; lia). rewrite app_length, LF, LI. cbn [app].
      rewrite skip_skip. f_equal. lia.
    + assert (LF : length (firstn n is_) = n) by (rewrite firstn_length; lia).
      assert (LI : length (values_of (firstn n is_)) = n) by (unfold values_of; rewrite map_length; exact LF).
      destruct (insert_items_ok g (skipn n is_) (p + n) l1 m rest O1 ltac:(lia)) as (l2 & m2 & O2 & E2 & V2). rewrite E2.
      rewrite T1, app_length, LI. replace (n + length (through (skipn n is_)) - n) with (length (through (skipn n is_))) by lia. rewrite T2.
      exists l2, m2. split; [exact O2|]. split; [reflexivity|]. rewrite V2, V, LI.
      replace (match failed (skipn n is_) with Some _ => Nat.min n (n + length (through (skipn n is_))) | None => n end) with n by (destruct (failed (skipn n is_)); lia).
      assert (LP : length (firstn p (vals l)) = p) by (rewrite firstn_length; lia).
      rewrite (app_assoc (firstn p (vals l))). rewrite firstn_app, skipn_app, app_length, LP, LI, Nat.sub_diag.
      rewrite (firstn_all2 (firstn p (vals l) ++ _)) by (rewrite app_length; lia). rewrite (skipn_all2 (firstn p (vals l) ++ _)) by (rewrite app_length; lia).
      rewrite firstn_O, app_nil_r. cbn [app skipn].
      rewrite firstn_app, LI. rewrite (firstn_all2 (values_of (firstn n is_))) by lia.
      replace (n + met g (asked m) (length (through (skipn n is_))) - n) with (met g (asked m) (length (through (skipn n is_)))) by lia.
      rewrite <- !app_assoc. reflexivity.
Qed.
Lemma erase_one_ok p l m rest : owns m l rest -> p < length l ->
  exists l' m', owns m' l' rest /\ erase_one p l m = (Returns None, l', m') /\ vals l' = firstn p (vals l) ++ skipn (S p) (vals l).
Proof.
  intros O Hp. unfold erase_one. destruct (erase_at_ok 1 p l m rest O ltac:(lia)) as (l' & m' & E & V & O' & A). rewrite E. exists l', m'.
  split; [exact O'|]. split; [reflexivity|]. rewrite V. replace (p + 1) with (S p) by lia. reflexivity.
Qed.
Lemma clear_ok l m rest : owns m l rest -> exists m', owns m' [] rest /\ clear l m = (Returns None, [], m').
Proof. intros O. unfold clear, clear_list. destruct (free_nodes_ok l m rest O) as (m' & F & A & O'). rewrite F. exists m'. auto. Qed.

(** ** Histories *)
Lemma nodes_app a b : nodes_of (a ++ b) = nodes_of a ++ nodes_of b.
Proof. unfold nodes_of. rewrite map_app, concat_app. reflexivity. Qed.
Definition others (w : world) (i : nat) : list nat := nodes_of (firstn i (pool w) ++ skipn (S i) (pool w)).
Lemma nth_split_at {A} (l : list A) i x : nth_error l i = Some x -> l = firstn i l ++ x :: skipn (S i) l.
Proof.
  revert i. induction l as [|y l IH]; intros [|i] H; cbn in *; try discriminate; [congruence|]. f_equal. apply IH, H.
Qed.
Lemma get_owns w i l : accounted w -> get w i = Some l -> owns (heap w) l (others w i).
Proof.
  intros (N & P & B) H. unfold get in H. destruct (nth_error (pool w) i) as [o|] eqn:Hn; [|discriminate]. subst o.
  split; [exact N|]. split; [|exact B]. eapply perm_trans; [exact P|]. rewrite (nth_split_at _ _ _ Hn) at 1.
  unfold others. rewrite !nodes_app. change (nodes_of (Some l :: skipn (S i) (pool w))) with (addrs l ++ nodes_of (skipn (S i) (pool w))).
  rewrite !app_assoc. apply Permutation_app_tail, Permutation_app_comm.
Qed.
Lemma put_owns w i o m : match o with Some l => owns m l (others w i) | None => owns m [] (others w i) end -> accounted (put i o w m).
Proof.
  intros H. assert (H' : owns m (match o with Some l => l | None => [] end) (others w i)) by (destruct o; exact H). destruct H' as (N & P & B).
  split; [exact N|]. split; [|exact B]. cbn [put pool heap]. eapply perm_trans; [exact P|]. unfold others. rewrite !nodes_app.
  assert (E : nodes_of (o :: skipn (S i) (pool w)) = addrs match o with Some l => l | None => [] end ++ nodes_of (skipn (S i) (pool w))) by (destruct o; reflexivity).
  rewrite E, !app_assoc. apply Permutation_app_tail, Permutation_app_comm.
Qed.
Lemma acc_owns w : accounted w <-> owns (heap w) [] (nodes_of (pool w)).
Proof. reflexivity. Qed.
Definition good (x : ending) : Prop := match x with Corrupt _ => False | _ => True end.
Lemma on_ok w i f x w' : accounted w ->
  (forall l rest, owns (heap w) l rest -> exists x l' m', f l (heap w) = (x, l', m') /\ good x /\ owns m' l' rest) ->
  on w i f = Some (x, w') -> good x /\ accounted w'.
Proof.
  intros A F H. unfold on in H. destruct (get w i) as [l|] eqn:G; [|discriminate].
  destruct (F l _ (get_owns w i l A G)) as (y & l' & m' & E & Y & O). rewrite E in H. injection H as <- <-. split; [exact Y|].
  apply put_owns. exact O.
Qed.
Lemma making_ok w r : (let '(x, o, m) := r in good x /\ match o with Some l => owns m l (nodes_of (pool w)) | None => owns m [] (nodes_of (pool w)) end) ->
  good (fst (making w r)) /\ accounted (snd (making w r)).
Proof.
  destruct r as [[x o] m]. intros [G H]. cbn [making fst snd]. split; [exact G|]. destruct o as [l|]; [|exact H].
  destruct H as (N & P & B). split; [exact N|]. split; [|exact B]. cbn [pool heap]. eapply perm_trans; [exact P|]. rewrite nodes_app.
  unfold nodes_of at 3. cbn [map concat]. rewrite app_nil_r. apply Permutation_app_comm.
Qed.
Lemma makes_ok w g obj ys r : accounted w -> makes g obj ys (heap w) (nodes_of (pool w)) r -> good (fst (making w r)) /\ accounted (snd (making w r)).
Proof.
  intros A H. apply making_ok. destruct r as [[x o] m]. unfold makes in H. destruct obj.
  - destruct (enough g (heap w) (length ys)).
    + destruct H as (-> & l & -> & V & O). split; [exact I | exact O].
    + destruct H as (-> & -> & O). split; [exact I | exact O].
  - destruct H as (-> & -> & ->). split; [exact I|]. exact A.
Qed.

Ltac endings := repeat match goal with |- good (if ?b then _ else _) => destruct b | |- good (match ?b with _ => _ end) => destruct b end; exact I.
Lemma ext_end_good is_ : forall fin pend, good (ext_end is_ fin pend).
Proof. induction is_ as [|[v err] r IH]; intros fin pend; cbn [ext_end]; [destruct fin, pend; exact I|]. destruct pend; [exact I | apply IH]. Qed.
Lemma step_ok g e w x w' : once e = true -> accounted w -> step g e w = Some (x, w') -> good x /\ accounted w'.
Proof.
  intros Once A H. destruct e; cbn [step once] in *; try discriminate.
  - unfold option_map in H. destruct (source_of w s) as [s'|]; [|discriminate]. injection H as E.
    assert (Q : good (fst (making w (construct g obj s' (heap w)))) /\ accounted (snd (making w (construct g obj s' (heap w))))).
    { apply making_ok. pose proof (construct_ok g obj s' (heap w) _ (proj1 (acc_owns w) A)) as C.
      destruct (construct g obj s' (heap w)) as [[[e|e| |u] [l|]] m]; try contradiction; split; try exact I; exact C. }
    rewrite E in Q. exact Q.
  - eapply on_ok; [exact A | | exact H]. intros l rest O. destruct (append_ok g x0 l (heap w) rest O) as (l' & m' & O' & E & _). eexists _, l', m'. split; [exact E|]. split; [endings | exact O'].
  - eapply on_ok; [exact A | | exact H]. intros l rest O. destruct (insert_ok g p v l (heap w) rest O) as (l' & m' & O' & E & _). eexists _, l', m'. split; [exact E|]. split; [endings | exact O'].
  - destruct s as [|j|is_ fin]; [discriminate | |].
    + destruct (get w j) as [y|]; [|discriminate]. eapply on_ok; [exact A | | exact H]. intros l rest O.
      destruct (extend_same_ok g (vals y) l (heap w) rest O) as (l' & m' & O' & E & _). eexists _, l', m'. split; [exact E|]. split; [endings | exact O'].
    + eapply on_ok; [exact A | | exact H]. intros l rest O. destruct (extend_items_ok g is_ fin l (heap w) rest O) as (l' & m' & O' & E & _).
      eexists _, l', m'. split; [exact E|]. split; [|exact O']. destruct (enough g (heap w) (length (through is_))); [apply ext_end_good | exact I].
  - unfold option_map in H. destruct (get w i) as [l|]; [|discriminate]. injection H as E.
    pose proof (makes_ok w g obj _ _ A (copy_ok g obj (vals l) (heap w) _ (proj1 (acc_owns w) A))) as Q. rewrite E in Q. exact Q.
  - injection H as E. pose proof (makes_ok w g obj _ _ A (range_ok g obj vs (heap w) _ (proj1 (acc_owns w) A))) as Q. rewrite E in Q. exact Q.
  - unfold option_map in H. destruct (get w i) as [l|]; [|discriminate]. injection H as E.
    pose proof (makes_ok w g obj _ _ A (mul_ok g obj n (vals l) (heap w) _ (proj1 (acc_owns w) A))) as Q. rewrite E in Q. exact Q.
  - eapply on_ok; [exact A | | exact H]. intros l rest O. destruct (imul_ok g n l (heap w) rest O) as (r & l' & m' & O' & [(_ & E & _)|[(_ & _ & E & _)|(_ & _ & E & _)]]);
      eexists _, l', m'; (split; [exact E|]; split; [exact I | exact O']).
  - eapply on_ok; [exact A | | exact H]. intros l rest O. cbv beta. destruct (Nat.leb_spec (p + n) (length l)).
    + destruct (set_slice_ok g p n is_ l (heap w) rest O ltac:(assumption)) as (l' & m' & O' & E & _). eexists _, l', m'. split; [exact E|]. split; [endings | exact O'].
    + eexists _, l, (heap w). split; [reflexivity|]. split; [exact I | exact O].
  - eapply on_ok; [exact A | | exact H]. intros l rest O. cbv beta. destruct (Nat.ltb_spec p (length l)).
    + destruct (erase_one_ok p l (heap w) rest O ltac:(assumption)) as (l' & m' & O' & E & _). eexists _, l', m'. split; [exact E|]. split; [exact I | exact O'].
    + eexists _, l, (heap w). split; [reflexivity|]. split; [exact I | exact O].
  - eapply on_ok; [exact A | | exact H]. intros l rest O. destruct (clear_ok l (heap w) rest O) as (m' & O' & E). eexists _, [], m'. split; [exact E|]. split; [exact I | exact O'].
  - destruct (get w i) as [l|] eqn:G; [|discriminate]. unfold dealloc in H. destruct (free_nodes_ok l (heap w) _ (get_owns w i l A G)) as (m' & F & _ & O'). rewrite F in H.
    injection H as <- <-. split; [exact I|]. apply put_owns. exact O'.
Qed.
Lemma run_ok g : forall es w, forallb once es = true -> accounted w -> Forall good (fst (run g es w)) /\ accounted (snd (run g es w)).
Proof.
  induction es as [|e es IH]; intros w O A; cbn [run forallb] in *; [split; [constructor | exact A]|].
  apply andb_prop in O. destruct O as [O1 O2]. destruct (step g e w) as [[x w1]|] eqn:S1; [|apply IH; assumption].
  destruct (step_ok g e w x w1 O1 A S1) as [G A1]. specialize (IH w1 O2 A1).
  destruct x as [y|y| |u]; try contradiction.
  - destruct (run g es w1) as [xs w2]. destruct IH as [I1 I2]. split; [constructor; [exact I | exact I1] | exact I2].
  - destruct (run g es w1) as [xs w2]. destruct IH as [I1 I2]. split; [constructor; [exact I | exact I1] | exact I2].
  - split; [constructor; [exact I | constructor] | exact A1].
Qed.

Lemma run_good g es x : Forall good (fst (run g es x)) <-> Forall (fun e => forall u, e <> Corrupt u) (fst (run g es x)).
Proof.
  split; intros H; (eapply Forall_impl; [|exact H]); cbn; intros [ | | |u] G; try exact I; try discriminate; try contradiction. destruct (G u eq_refl).
Qed.
Lemma history g es : forallb once es = true ->
  Forall (fun e => forall u, e <> Corrupt u) (fst (run g es start)) /\ accounted (snd (run g es start)).
Proof.
  intros H. destruct (run_ok g es start H) as [G A].
  - split; [constructor|]. split; [apply perm_nil | constructor].
  - split; [apply run_good, G | exact A].
Qed.
Lemma drops g : forall n k w, accounted w -> length (pool w) = k + n -> Forall (fun o => o = None) (firstn k (pool w)) ->
  live (heap (snd (run g (map EDrop (seq k n)) w))) = [].
Proof.
  induction n as [|n IH]; intros k w A L F; cbn [seq map run].
  - destruct A as (_ & P & _). rewrite firstn_all2 in F by lia. assert (E : nodes_of (pool w) = []).
    { clear -F. induction F as [|o p -> F IH]; [reflexivity|]. exact IH. }
    rewrite E in P. apply Permutation_nil. apply Permutation_sym, P.
  - assert (Lk : k < length (pool w)) by lia.
    destruct (nth_error (pool w) k) as [o|] eqn:Hn; [|apply nth_error_None in Hn; lia].
    destruct (step g (EDrop k) w) as [[x w1]|] eqn:S1.
    + destruct (step_ok g (EDrop k) w x w1 eq_refl A S1) as [_ A1]. cbn [step] in S1.
      destruct (get w k) as [l|] eqn:G; [|discriminate]. unfold dealloc in S1.
      destruct (free_nodes_ok l (heap w) _ (get_owns w k l A G)) as (m' & Fr & _ & O'). rewrite Fr in S1. injection S1 as <- <-.
      pose proof (IH (S k) (put k None w m') A1) as Q. cbn [put pool] in Q.
      destruct (run g (map EDrop (seq (S k) n)) (put k None w m')) as [xs w2]. cbn [snd] in *. apply Q.
      * rewrite app_length, firstn_length. cbn [length]. rewrite skipn_length. lia.
      * rewrite firstn_app, firstn_length. replace (S k - Nat.min k (length (pool w))) with 1 by lia.
        rewrite firstn_firstn. replace (Nat.min (S k) k) with k by lia. apply Forall_app. split; [exact F | constructor; [reflexivity | constructor]].
    + apply IH; [exact A | lia|]. cbn [step] in S1. unfold get in S1. rewrite Hn in S1. destruct o as [l|].
      { destruct (dealloc l (heap w)) as [[| |] ]; discriminate. }
      assert (E : firstn (S k) (pool w) = firstn k (pool w) ++ [None]).
      { clear -Hn. revert k Hn. generalize (pool w) as p. induction p as [|y p IHp]; intros [|k] Hn; cbn [nth_error firstn app] in *; try discriminate; [injection Hn as ->; reflexivity|].
        f_equal. apply IHp, Hn. }
      rewrite E. apply Forall_app. split; [exact F | constructor; [reflexivity | constructor]].
Qed.
Lemma all_freed g es : forallb once es = true -> let w := snd (run g es start) in live (heap (snd (run g (drop_all w) w))) = [].
Proof.
  intros H w. destruct (history g es H) as [_ A]. apply drops; [exact A | lia | constructor].
Qed.
(** Constructing a list again forgets its nodes: they stay allocated. *)
Lemma again g i s w l x w' : accounted w -> get w i = Some l -> step g (EAgain i s) w = Some (x, w') ->
  Permutation (live (heap w')) (addrs l ++ nodes_of (pool w')).
Proof.
  intros A G H. cbn [step] in H. rewrite G in H.
  match type of H with match ?o with _ => _ end = _ => destruct o as [s'|]; [|discriminate] end.
  unfold on in H. rewrite G in H.
  assert (O : owns (heap w) [] (addrs l ++ others w i)) by exact (get_owns w i l A G).
  destruct (init_ok g s' (heap w) _ O) as (y & l' & m' & E & O' & _). rewrite E in H. injection H as <- <-.
  destruct O' as (N & P & B). cbn [put pool heap]. eapply perm_trans; [exact P|]. unfold others. rewrite !nodes_app.
  change (nodes_of (Some l' :: skipn (S i) (pool w))) with (addrs l' ++ nodes_of (skipn (S i) (pool w))).
  rewrite app_assoc, (app_assoc (addrs l)). eapply perm_trans; [apply Permutation_app_tail, Permutation_app_comm|].
  rewrite <- !app_assoc. apply Permutation_app_head. rewrite !app_assoc. apply Permutation_app_tail, Permutation_app_comm.
Qed.
Lemma ext_end_spec is_ fin : ext_end is_ fin None = extend_ends is_ fin.
Proof.
  unfold extend_ends. induction is_ as [|[v [e|]] r IH]; cbn [ext_end failed through length].
  - destruct fin; reflexivity.
  - rewrite ext_end_pend. destruct r; cbn [length Nat.eqb]; destruct fin; reflexivity.
  - exact IH.
Qed.
