(** Proofs about the stream functions of Unsafe. *)
From Coq Require Import ZArith List Bool Lia.
From Verif Require Import Base StdioModel StdioSpec.
Import ListNotations.
Local Open Scope Z_scope.
Local Arguments Z.pow : simpl never.
Local Arguments Z.mul : simpl never.
Local Arguments Z.add : simpl never.
Local Arguments Z.sub : simpl never.
Local Arguments Z.modulo : simpl never.
Local Arguments Z.div : simpl never.

Ltac zcase := repeat match goal with
  | |- context [?a <? ?b] => destruct (Z.ltb_spec a b)
  | |- context [?a <=? ?b] => destruct (Z.leb_spec a b)
  | |- context [?a =? ?b] => destruct (Z.eqb_spec a b)
  end.

(** ** The codec *)
Lemma enc1_uchar : forall c x, 0 <= c <= 1114111 -> (enc1 c = Some x <-> uchar c x).
Proof.
  intros c x Hc.
  pose proof (Z.div_mod c 64 ltac:(lia)) as D1. pose proof (Z.mod_pos_bound c 64 ltac:(lia)) as B1.
  pose proof (Z.div_mod (c / 64) 64 ltac:(lia)) as D2. pose proof (Z.mod_pos_bound (c / 64) 64 ltac:(lia)) as B2.
  pose proof (Z.div_mod (c / 64 / 64) 64 ltac:(lia)) as D3. pose proof (Z.mod_pos_bound (c / 64 / 64) 64 ltac:(lia)) as B3.
  assert (E1 : c / 64 / 64 = c / 4096) by (rewrite Z.div_div by lia; reflexivity).
  assert (E2 : c / 4096 / 64 = c / 262144) by (rewrite Z.div_div by lia; reflexivity).
  rewrite E1 in *. rewrite E2 in *.
  unfold enc1. split.
  - intro H. destruct (Z.ltb_spec c 128); [injection H as <-; constructor; lia|].
    destruct (Z.ltb_spec c 2048); [injection H as <-; constructor; lia|].
    destruct (Z.leb_spec 55296 c), (Z.leb_spec c 57343); cbn [andb] in H; try discriminate;
      (destruct (Z.ltb_spec c 65536); injection H as <-; constructor; lia).
  - intro H. inversion H; subst.
    + destruct (Z.ltb_spec c 128); [reflexivity|lia].
    + destruct (Z.ltb_spec (x0 * 64 + y) 128); [lia|]. destruct (Z.ltb_spec (x0 * 64 + y) 2048); [|lia].
      repeat f_equal; nia.
    + destruct (Z.ltb_spec (x0 * 4096 + y * 64 + z) 128); [lia|]. destruct (Z.ltb_spec (x0 * 4096 + y * 64 + z) 2048); [lia|].
      destruct (Z.ltb_spec (x0 * 4096 + y * 64 + z) 65536); [|lia].
      destruct (Z.leb_spec 55296 (x0 * 4096 + y * 64 + z)), (Z.leb_spec (x0 * 4096 + y * 64 + z) 57343); cbn [andb]; try lia;
        repeat f_equal; nia.
    + destruct (Z.ltb_spec (w * 262144 + x0 * 4096 + y * 64 + z) 128); [lia|]. destruct (Z.ltb_spec (w * 262144 + x0 * 4096 + y * 64 + z) 2048); [lia|].
      destruct (Z.leb_spec 55296 (w * 262144 + x0 * 4096 + y * 64 + z)), (Z.leb_spec (w * 262144 + x0 * 4096 + y * 64 + z) 57343); cbn [andb]; try lia.
      destruct (Z.ltb_spec (w * 262144 + x0 * 4096 + y * 64 + z) 65536); [lia|].
      repeat f_equal; nia.
Qed.

Lemma encode_utf8 : forall s bs, pystr s -> (encode s = Some bs <-> utf8 s bs).
Proof.
  induction s as [|c s IH]; intros bs Hs; cbn [encode].
  - split; intro H; [injection H as <-; constructor|inversion H; reflexivity].
  - inversion Hs as [|? ? Hc Hr]; subst. split.
    + destruct (enc1 c) as [x|] eqn:E; [|discriminate]. destruct (encode s) as [y|] eqn:F; [|discriminate].
      intro H; injection H as <-. constructor; [apply enc1_uchar; assumption|apply IH; [assumption|reflexivity]].
    + intro H; inversion H; subst. apply enc1_uchar in H2; [|assumption]. rewrite H2.
      apply IH in H4; [|assumption]. rewrite H4. reflexivity.
Qed.
Lemma enc1_surrogate : forall c, 0 <= c <= 1114111 -> (enc1 c = None <-> surrogate c).
Proof.
  intros c Hc. unfold enc1, surrogate.
  destruct (Z.ltb_spec c 128); [split; [discriminate|lia]|]. destruct (Z.ltb_spec c 2048); [split; [discriminate|lia]|].
  destruct (Z.leb_spec 55296 c), (Z.leb_spec c 57343); cbn [andb]; try (split; [lia|reflexivity]);
    destruct (Z.ltb_spec c 65536); (split; [discriminate|lia]).
Qed.
Lemma encode_none : forall s, pystr s -> (encode s = None <-> exists c, In c s /\ surrogate c).
Proof.
  induction s as [|c s IH]; intro Hs; cbn [encode].
  - split; [discriminate|intros (c & [] & _)].
  - inversion Hs as [|? ? Hc Hr]; subst. specialize (IH Hr). pose proof (enc1_surrogate c Hc) as S1. split.
    + destruct (enc1 c) as [x|] eqn:E.
      * destruct (encode s) as [y|]; [discriminate|]. intros _. destruct (proj1 IH eq_refl) as (d & Hd & Sd). exists d. split; [right; exact Hd|exact Sd].
      * intros _. exists c. split; [left; reflexivity|apply S1; reflexivity].
    + intros (d & [<-|Hd] & Sd).
      * rewrite (proj2 S1 Sd). reflexivity.
      * rewrite (proj2 IH (ex_intro _ d (conj Hd Sd))). destruct (enc1 c); reflexivity.
Qed.

Lemma uchar_nonempty : forall c x, uchar c x -> exists a r, x = a :: r.
Proof. intros c x H; inversion H; eauto. Qed.

Lemma cont_true : forall b, cont b = true <-> 128 <= b < 192.
Proof. intro b. unfold cont. rewrite andb_true_iff, Z.leb_le, Z.ltb_lt. tauto. Qed.

Lemma decode_char : forall c x r, uchar c x -> decode (x ++ r) = option_map (cons c) (decode r).
Proof.
  intros c x r H. inversion H; subst; cbn [app decode].
  - destruct (Z.ltb_spec c 128); [reflexivity|lia].
  - destruct (Z.ltb_spec (192 + x0) 128); [lia|]. destruct (Z.ltb_spec (192 + x0) 194); [lia|]. destruct (Z.ltb_spec (192 + x0) 224); [|lia].
    rewrite (proj2 (cont_true _)) by lia. do 2 f_equal. lia.
  - destruct (Z.ltb_spec (224 + x0) 128); [lia|]. destruct (Z.ltb_spec (224 + x0) 194); [lia|]. destruct (Z.ltb_spec (224 + x0) 224); [lia|].
    destruct (Z.ltb_spec (224 + x0) 240); [|lia].
    rewrite !(proj2 (cont_true _)) by lia.
    destruct (Z.eqb_spec (224 + x0) 224), (Z.leb_spec 160 (128 + y)), (Z.eqb_spec (224 + x0) 237), (Z.ltb_spec (128 + y) 160); cbn [andb orb negb];
      try lia; do 2 f_equal; lia.
  - destruct (Z.ltb_spec (240 + w) 128); [lia|]. destruct (Z.ltb_spec (240 + w) 194); [lia|]. destruct (Z.ltb_spec (240 + w) 224); [lia|].
    destruct (Z.ltb_spec (240 + w) 240); [lia|]. destruct (Z.ltb_spec (240 + w) 245); [|lia].
    rewrite !(proj2 (cont_true _)) by lia.
    destruct (Z.eqb_spec (240 + w) 240), (Z.leb_spec 144 (128 + x0)), (Z.eqb_spec (240 + w) 244), (Z.ltb_spec (128 + x0) 144); cbn [andb orb negb];
      try lia; do 2 f_equal; lia.
Qed.
Lemma utf8_decode : forall s bs, utf8 s bs -> decode bs = Some s.
Proof.
  intros s bs H. induction H as [|c s x y Hc _ IH]; [reflexivity|].
  rewrite (decode_char c x y Hc), IH. reflexivity.
Qed.
Lemma option_map_some : forall A B (f : A -> B) o y, option_map f o = Some y -> exists x, o = Some x /\ y = f x.
Proof. intros A B f [x|] y H; [injection H as <-; eauto|discriminate]. Qed.
Lemma decode_utf8 : forall n bs s, (length bs <= n)%nat -> Forall byte bs -> decode bs = Some s -> utf8 s bs.
Proof.
  induction n as [|n IH]; intros bs s Hn Hb H.
  - destruct bs; [|cbn in Hn; lia]. injection H as <-. constructor.
  - destruct bs as [|a r]; [injection H as <-; constructor|]. cbn [decode] in H. cbn [length] in Hn.
    inversion Hb as [|? ? Ha Hr]; subst. unfold byte in Ha.
    destruct (Z.ltb_spec a 128).
    { apply option_map_some in H as (s' & E & ->). apply (Ucons a s' [a] r); [constructor; lia|apply IH; [lia|assumption|assumption]]. }
    destruct (Z.ltb_spec a 194); [discriminate|]. destruct (Z.ltb_spec a 224).
    { destruct r as [|b r]; [discriminate|]. inversion Hr as [|? ? Hb1 Hr1]; subst. destruct (cont b) eqn:C; [|discriminate]. apply cont_true in C.
      apply option_map_some in H as (s' & E & ->). cbn [length] in Hn.
      apply (Ucons _ s' [a; b] r); [|apply IH; [lia|assumption|assumption]].
      replace a with (192 + (a - 192)) at 2 by lia. replace b with (128 + (b - 128)) at 2 by lia. apply U2; lia. }
    destruct (Z.ltb_spec a 240).
    { destruct r as [|b [|c r]]; try discriminate. inversion Hr as [|? ? Hb1 Hr1]; subst. inversion Hr1 as [|? ? Hc1 Hr2]; subst.
      match type of H with (if ?t then _ else _) = _ => destruct t eqn:C; [|discriminate] end.
      rewrite !andb_true_iff, !orb_true_iff, !negb_true_iff, !Z.eqb_neq, Z.leb_le, Z.ltb_lt, !cont_true in C.
      apply option_map_some in H as (s' & E & ->). cbn [length] in Hn.
      apply (Ucons _ s' [a; b; c] r); [|apply IH; [lia|assumption|assumption]].
      replace a with (224 + (a - 224)) at 2 by lia. replace b with (128 + (b - 128)) at 2 by lia. replace c with (128 + (c - 128)) at 2 by lia. apply U3; lia. }
    destruct (Z.ltb_spec a 245); [|discriminate].
    destruct r as [|b [|c [|d r]]]; try discriminate.
    inversion Hr as [|? ? Hb1 Hr1]; subst. inversion Hr1 as [|? ? Hc1 Hr2]; subst. inversion Hr2 as [|? ? Hd1 Hr3]; subst.
    match type of H with (if ?t then _ else _) = _ => destruct t eqn:C; [|discriminate] end.
    rewrite !andb_true_iff, !orb_true_iff, !negb_true_iff, !Z.eqb_neq, Z.leb_le, Z.ltb_lt, !cont_true in C.
    apply option_map_some in H as (s' & E & ->). cbn [length] in Hn.
    apply (Ucons _ s' [a; b; c; d] r); [|apply IH; [lia|assumption|assumption]].
    replace a with (240 + (a - 240)) at 2 by lia. replace b with (128 + (b - 128)) at 2 by lia. replace c with (128 + (c - 128)) at 2 by lia.
    replace d with (128 + (d - 128)) at 2 by lia. apply U4; lia.
Qed.
Theorem decode_thm : forall bs s, Forall byte bs -> (decode bs = Some s <-> utf8 s bs).
Proof. intros bs s H. split; [apply (decode_utf8 (length bs)); [lia|exact H]|apply utf8_decode]. Qed.

Lemma utf8_app : forall s x t y, utf8 s x -> utf8 t y -> utf8 (s ++ t) (x ++ y).
Proof. intros s x t y H K. induction H; [exact K|]. cbn. rewrite <- app_assoc. constructor; assumption. Qed.
Lemma uchar_pos : forall c x, uchar c x -> c <> 0 -> ~ In 0 x.
Proof. intros c x H N. inversion H; subst; cbn; lia. Qed.
Lemma before_app_free : forall c x y, ~ In c x -> before c (x ++ y) = x ++ before c y.
Proof.
  intros c x y H. induction x as [|a x IH]; [reflexivity|]. cbn [app before]. destruct (Z.eqb_spec a c) as [->|].
  - exfalso; apply H; left; reflexivity.
  - rewrite IH; [reflexivity|]. intro K; apply H; right; exact K.
Qed.
Lemma before_id : forall c x, ~ In c x -> before c x = x.
Proof. intros c x H. rewrite <- (app_nil_r x) at 1. rewrite before_app_free by exact H. cbn. apply app_nil_r. Qed.
Lemma before_neq : forall c x, before c x = x -> ~ In c x.
Proof.
  intros c x. induction x as [|a x IH]; intros H K; [exact K|]. cbn [before] in H. destruct (Z.eqb_spec a c); [discriminate|].
  injection H as H. destruct K as [K|K]; [exact (n K)|exact (IH H K)].
Qed.
Lemma utf8_before : forall s bs, utf8 s bs -> utf8 (before 0 s) (before 0 bs).
Proof.
  intros s bs H. induction H as [|c s x y Hc Hs IH]; [constructor|]. cbn [before]. destruct (Z.eqb_spec c 0) as [->|N].
  - inversion Hc; subst; try lia. cbn [app before]. rewrite Z.eqb_refl. constructor.
  - rewrite before_app_free by (exact (uchar_pos c x Hc N)). constructor; assumption.
Qed.
Lemma utf8_nul : forall s bs, utf8 s bs -> (In 0 bs <-> In 0 s).
Proof.
  intros s bs H. induction H as [|c s x y Hc Hs IH]; [tauto|]. rewrite in_app_iff. cbn [In]. rewrite IH.
  split; (intros [K|K]; [|right; exact K]).
  - left. destruct (Z.eq_dec c 0) as [|N]; [assumption|]. destruct (uchar_pos c x Hc N K).
  - left. subst c. inversion Hc; subst; try lia. left; reflexivity.
Qed.
Lemma cstring_before : forall x y, cstring (x ++ 0 :: y) = Some (before 0 x).
Proof. induction x as [|a x IH]; intro y; cbn [app cstring before]; [reflexivity|]. destruct (a =? 0); [reflexivity|]. rewrite IH. reflexivity. Qed.
Lemma utf8_bytes : forall s bs, utf8 s bs -> Forall byte bs.
Proof.
  intros s bs H. induction H as [|c s x y Hc Hs IH]; [constructor|]. apply Forall_app. split; [|exact IH].
  inversion Hc; subst; repeat constructor; unfold byte; lia.
Qed.
Lemma utf8_inj : forall s t bs, utf8 s bs -> utf8 t bs -> s = t.
Proof. intros s t bs H K. apply utf8_decode in H, K. congruence. Qed.


Lemma encodable_encode : forall s, pystr s -> encodable s = true -> exists bs, encode s = Some bs /\ utf8 s bs.
Proof.
  intros s Hs H. destruct (encode s) as [bs|] eqn:E.
  - exists bs. split; [reflexivity|]. apply encode_utf8; assumption.
  - apply encode_none in E; [|exact Hs]. destruct E as (c & Hc & Sc). unfold encodable in H. rewrite forallb_forall in H.
    specialize (H c Hc). unfold surrogate in Sc. apply negb_true_iff, andb_false_iff in H. rewrite !Z.leb_gt in H. lia.
Qed.
Lemma not_encodable : forall s, pystr s -> encodable s = false -> encode s = None.
Proof.
  intros s Hs H. apply encode_none; [exact Hs|]. unfold encodable in H. clear Hs. induction s as [|c s IH]; [discriminate|].
  cbn [forallb] in H. apply andb_false_iff in H as [H|H].
  - apply negb_false_iff, andb_true_iff in H. rewrite !Z.leb_le in H. exists c. split; [left; reflexivity|exact H].
  - destruct (IH H) as (d & Hd & Sd). exists d. split; [right; exact Hd|exact Sd].
Qed.
Lemma fputs_ok : forall s k t, pystr s ->
  if encodable s then exists w, utf8 (before 0 s) w /\
      fputs (Some s) k t = (RNone, Io (sent t ++ firstn k (held t ++ w)) (skipn k (held t ++ w)) (inp t) (lost t))
  else fputs (Some s) k t = (REncodeError, t).
Proof.
  intros s k t Hs. destruct (encodable s) eqn:E; cbn [fputs].
  - destruct (encodable_encode s Hs E) as (bs & -> & U). rewrite cstring_before. exists (before 0 bs).
    split; [apply utf8_before; exact U|reflexivity].
  - rewrite (not_encodable s Hs E). reflexivity.
Qed.

Lemma step_out : forall c t, good_call c ->
  exists w, utf8 (printed c) w /\ sent (snd (sstep c t)) ++ held (snd (sstep c t)) = sent t ++ held t ++ w /\
    exists m, sent (snd (sstep c t)) = sent t ++ m.
Proof.
  intros [[s|] k| |n m] t G; cbn [sstep printed good_call] in *.
  - pose proof (fputs_ok s k t G) as F. destruct (encodable s).
    + destruct F as (w & U & ->). exists w. cbn. split; [exact U|]. split; [|eauto]. rewrite <- app_assoc, firstn_skipn. reflexivity.
    + rewrite F. exists []. cbn. split; [constructor|]. split; [rewrite !app_nil_r; reflexivity|exists []; rewrite app_nil_r; reflexivity].
  - exists []. cbn. split; [constructor|]. split; [rewrite !app_nil_r; reflexivity|exists []; rewrite app_nil_r; reflexivity].
  - exists []. cbn. split; [constructor|]. split; [rewrite !app_nil_r; reflexivity|eauto].
  - exists []. split; [constructor|].
    assert (E : sent (snd (fgets n m t)) = sent t /\ held (snd (fgets n m t)) = held t).
    { unfold fgets. destruct n as [z|i]; [|split; reflexivity]. destruct (size_arg z <=? 0); [split; reflexivity|].
      destruct m as [g|]; [|split; reflexivity].
      destruct (c_fgets _ _ _) as [[b|] rest]; [|split; reflexivity]. destruct (cstring b) as [w|]; [|split; reflexivity].
      destruct (decode w); split; reflexivity. }
    destruct E as [-> ->]. split; [rewrite !app_nil_r; reflexivity|exists []; rewrite app_nil_r; reflexivity].
Qed.


Lemma srun_cons : forall c r t, srun (c :: r) t =
  match fst (sstep c t) with
  | RTerminate => ([RTerminate], snd (sstep c t))
  | x => (x :: fst (srun r (snd (sstep c t))), snd (srun r (snd (sstep c t))))
  end.
Proof. intros c r t. cbn [srun]. destruct (sstep c t) as [x t']. cbn [fst snd]. destruct (srun r t') as [xs t'']. destruct x; reflexivity. Qed.
Lemma srun_ind_state : forall (P : io -> list scall -> io -> Prop),
  (forall t, P t [] t) ->
  (forall c t, P t [c] (snd (sstep c t))) ->
  (forall t1 t2 t3 a b, P t1 a t2 -> P t2 b t3 -> P t1 (a ++ b) t3) ->
  forall cs t, P t (made cs t) (snd (srun cs t)).
Proof.
  intros P H0 H1 H2. induction cs as [|c r IH]; intro t; [apply H0|].
  unfold made. rewrite srun_cons.
  assert (G : P t (c :: made r (snd (sstep c t))) (snd (srun r (snd (sstep c t))))) by (exact (H2 t (snd (sstep c t)) _ [c] _ (H1 c t) (IH _))).
  destruct (fst (sstep c t)); cbn [fst snd length firstn]; try exact G. destruct r; exact (H1 c t).
Qed.
Theorem output_thm : forall cs t, Forall good_call cs ->
  exists w, utf8 (concat (map printed (made cs t))) w /\
    sent (snd (srun cs t)) ++ held (snd (srun cs t)) = sent t ++ held t ++ w /\ exists m, sent (snd (srun cs t)) = sent t ++ m.
Proof.
  intros cs t G.
  assert (GM : Forall good_call (made cs t)).
  { unfold made. rewrite <- (firstn_skipn (length (fst (srun cs t))) cs) in G. apply Forall_app in G. apply G. }
  revert GM. apply (srun_ind_state (fun t l t' => Forall good_call l -> exists w, utf8 (concat (map printed l)) w /\
    sent t' ++ held t' = sent t ++ held t ++ w /\ exists m, sent t' = sent t ++ m)).
  - intros t0 _. exists []. split; [constructor|]. split; [rewrite app_nil_r; reflexivity|exists []; rewrite app_nil_r; reflexivity].
  - intros c t0 H. inversion H; subst. destruct (step_out c t0) as (w & U & E & M); [assumption|]. exists w. cbn. rewrite app_nil_r. auto.
  - intros t1 t2 t3 a b Ha Hb H. apply Forall_app in H as [A B]. destruct (Ha A) as (w1 & U1 & E1 & m1 & M1). destruct (Hb B) as (w2 & U2 & E2 & m2 & M2).
    exists (w1 ++ w2). rewrite map_app, concat_app. split; [apply utf8_app; assumption|]. split.
    + rewrite E2, app_assoc, E1. rewrite <- !app_assoc. reflexivity.
    + exists (m1 ++ m2). rewrite M2, M1, app_assoc. reflexivity.
Qed.
Theorem flush_thm : forall t, fst (fflush t) = RNone /\ held (snd (fflush t)) = [] /\ sent (snd (fflush t)) = sent t ++ held t.
Proof. intro t. repeat split. Qed.
(** A string is printed completely exactly when it has no NUL. *)
Theorem complete_thm : forall s k t, pystr s -> encodable s = true -> held t = [] ->
  (utf8 s (skipn (length (sent t)) (sent (snd (fputs (Some s) k t)) ++ held (snd (fputs (Some s) k t)))) <-> ~ In 0 s).
Proof.
  intros s k t Hs E H0. pose proof (fputs_ok s k t Hs) as F. rewrite E in F. destruct F as (w & U & ->). cbn [snd sent held].
  rewrite H0. cbn [app]. rewrite <- app_assoc, firstn_skipn.
  replace (skipn (length (sent t)) (sent t ++ w)) with w by (rewrite skipn_app, skipn_all, Nat.sub_diag; reflexivity).
  split.
  - intro K. apply before_neq. symmetry. exact (utf8_inj _ _ _ K U).
  - intro N. rewrite (before_id 0 s N) in U. exact U.
Qed.

(** ** Input *)
Lemma size_arg_reserved : forall z, (size_arg z <=? 0) = (reserved z <=? 0) /\ (0 < size_arg z -> size_arg z = reserved z) /\ 0 <= reserved z.
Proof.
  intro z. unfold size_arg, reserved, in_sbits_b. change (64 - 1) with 63.
  destruct ((- 2 ^ 63 <=? z) && (z <? 2 ^ 63)); cbn [andb]; [|repeat split; lia].
  unfold wrap. change (32 - 1) with 31. pose proof (Z.mod_pos_bound z (2 ^ 32) ltac:(lia)) as B.
  destruct (Z.ltb_spec (z mod 2 ^ 32) (2 ^ 31)) as [L|L].
  - assert (E : (z + 2 ^ 31) mod 2 ^ 32 = z mod 2 ^ 32 + 2 ^ 31).
    { rewrite <- (Z.mod_small (z mod 2 ^ 32 + 2 ^ 31) (2 ^ 32)) by lia. rewrite Z.add_mod_idemp_l by lia. reflexivity. }
    rewrite E. repeat split; lia.
  - assert (E : (z + 2 ^ 31) mod 2 ^ 32 = z mod 2 ^ 32 - 2 ^ 31).
    { rewrite <- (Z.mod_small (z mod 2 ^ 32 - 2 ^ 31) (2 ^ 32)) by lia. rewrite Zminus_mod_idemp_l.
      replace (z + 2 ^ 31) with (z - 2 ^ 31 + 1 * 2 ^ 32) by lia. apply Z_mod_plus_full. }
    rewrite E. split; [|split; lia]. destruct (Z.leb_spec (z mod 2 ^ 32 - 2 ^ 31 - 2 ^ 31) 0); [symmetry; apply Z.leb_le; lia|lia].
Qed.
Lemma take_line_app : forall m s x r, take_line m s = (x, r) -> s = x ++ r /\ (length x <= m)%nat.
Proof.
  induction m as [|m IH]; intros s x r H; [injection H as <- <-; split; [reflexivity|cbn; lia]|].
  destruct s as [|b s]; cbn [take_line] in H; [injection H as <- <-; split; [reflexivity|cbn; lia]|].
  destruct (b =? 10); [injection H as <- <-; split; [reflexivity|cbn; lia]|].
  destruct (take_line m s) as [x' r'] eqn:E. injection H as <- <-. destruct (IH _ _ _ E) as [-> L]. split; [reflexivity|cbn; lia].
Qed.
Lemma take_line_nil : forall m s r, take_line (S m) s = ([], r) -> s = [] /\ r = [].
Proof.
  intros m [|b s] r H; cbn [take_line] in H; [injection H as <-; auto|]. destruct (b =? 10); [discriminate|]. destruct (take_line m s); discriminate.
Qed.
(** One call, by what the stream has. *)
Lemma fgets_step : forall z g t, 1 < reserved z ->
  fgets (PInt z) (Some g) t =
  let (x, r) := take_line (Z.to_nat (reserved z - 1)) (inp t) in
  (match x with [] => RRuntimeError | _ => match decode (before 0 x) with Some s => RStr s | None => RDecodeError end end,
   Io (sent t) (held t) r (lost t + reserved z)).
Proof.
  intros z g t H. destruct (size_arg_reserved z) as (A & B & _). unfold fgets.
  destruct (Z.leb_spec (size_arg z) 0); [symmetry in A; apply Z.leb_le in A; lia|]. rewrite B by lia. unfold c_fgets.
  destruct (take_line _ _) as [x r] eqn:E. destruct x as [|b x].
  - destruct (Z.eqb_spec (reserved z) 1); [lia|]. reflexivity.
  - rewrite cstring_before. destruct (decode _); reflexivity.
Qed.
Lemma fgets_one : forall z g t, reserved z = 1 -> fgets (PInt z) (Some g) t = (RStr [], Io (sent t) (held t) (inp t) (lost t + 1)).
Proof.
  intros z g t H. destruct (size_arg_reserved z) as (A & B & _). unfold fgets.
  destruct (Z.leb_spec (size_arg z) 0); [symmetry in A; apply Z.leb_le in A; lia|]. rewrite B, H by lia. reflexivity.
Qed.
Lemma fgets_rejected : forall z m t, reserved z = 0 -> fgets (PInt z) m t = (RValueError, t).
Proof.
  intros z m t H. destruct (size_arg_reserved z) as (A & _ & _). unfold fgets. rewrite A, H. reflexivity.
Qed.
Lemma fgets_no_memory : forall z t, 0 < reserved z -> fgets (PInt z) None t = (RTerminate, t).
Proof.
  intros z t H. destruct (size_arg_reserved z) as (A & _ & _). unfold fgets. rewrite A. destruct (Z.leb_spec (reserved z) 0); [lia|reflexivity].
Qed.


Lemma srun_step : forall c r t x t', sstep c t = (x, t') -> x <> RTerminate -> fst (srun (c :: r) t) = x :: fst (srun r t').
Proof. intros c r t x t' H N. rewrite srun_cons, H. cbn [fst snd]. destruct x; try reflexivity. exfalso; apply N; reflexivity. Qed.

Lemma eof_run : forall z cs t, 1 < reserved z -> Forall (gets z) cs -> inp t = [] -> fst (srun cs t) = repeat RRuntimeError (length cs).
Proof.
  intros z cs. induction cs as [|c cs IH]; intros t Hz H I; [reflexivity|]. inversion H as [|? ? [g ->] Hr]; subst.
  assert (E : sstep (SGets (PInt z) (Some g)) t = (RRuntimeError, Io (sent t) (held t) [] (lost t + reserved z))).
  { cbn [sstep]. rewrite fgets_step by exact Hz. rewrite I. replace (Z.to_nat (reserved z - 1)) with (S (Z.to_nat (reserved z - 2))) by lia. reflexivity. }
  rewrite (srun_step _ _ _ _ _ E) by discriminate. cbn [length repeat]. f_equal. apply IH; [exact Hz|exact Hr|reflexivity].
Qed.
Lemma take_line_free : forall m x y, ~ In 10 x -> (length x < m)%nat -> take_line m (x ++ 10 :: y) = (x ++ [10], y).
Proof.
  induction m as [|m IH]; intros x y N L; [lia|]. destruct x as [|a x]; cbn [app take_line]; [reflexivity|].
  destruct (Z.eqb_spec a 10) as [->|]; [exfalso; apply N; left; reflexivity|]. rewrite IH; [reflexivity| |cbn in L; lia]. intro K; apply N; right; exact K.
Qed.
Lemma take_line_last : forall m x, ~ In 10 x -> (length x <= m)%nat -> take_line m x = (x, []).
Proof.
  induction m as [|m IH]; intros x N L; [destruct x; [reflexivity|cbn in L; lia]|]. destruct x as [|a x]; cbn [take_line]; [reflexivity|].
  destruct (Z.eqb_spec a 10) as [->|]; [exfalso; apply N; left; reflexivity|]. rewrite IH; [reflexivity| |cbn in L; lia]. intro K; apply N; right; exact K.
Qed.
Lemma uchar_free : forall a c x, 0 <= a < 128 -> uchar c x -> c <> a -> ~ In a x.
Proof. intros a c x Ha H N. inversion H; subst; cbn; lia. Qed.
Lemma utf8_free : forall a s bs, 0 <= a < 128 -> utf8 s bs -> ~ In a s -> ~ In a bs.
Proof.
  intros a s bs Ha H. induction H as [|c s x y Hc Hs IH]; intros N; [exact N|]. rewrite in_app_iff. intros [K|K].
  - apply (uchar_free a c x Ha Hc); [|exact K]. intros ->. apply N; left; reflexivity.
  - apply IH; [|exact K]. intro L; apply N; right; exact L.
Qed.
Lemma utf8_split : forall s t bs, utf8 (s ++ t) bs -> exists x y, bs = x ++ y /\ utf8 s x /\ utf8 t y.
Proof.
  induction s as [|c s IH]; intros t bs H; [exists [], bs; repeat split; [constructor|exact H]|].
  cbn [app] in H. inversion H; subst. destruct (IH _ _ H4) as (p & q & -> & Hp & Hq). exists (x ++ p), q. rewrite app_assoc.
  split; [reflexivity|]. split; [constructor; assumption|exact Hq].
Qed.

Theorem lines_thm : forall z s ls, 1 < reserved z -> lines_of s ls -> ~ In 0 s ->
  (forall l x, In l ls -> utf8 l x -> Z.of_nat (length x) < reserved z) ->
  forall cs t, utf8 s (inp t) -> Forall (gets z) cs -> (length ls <= length cs)%nat ->
  fst (srun cs t) = map RStr ls ++ repeat RRuntimeError (length cs - length ls).
Proof.
  intros z s ls Hz L. induction L as [|l Ne Nl|l s ls Nl L IH]; intros N0 Len cs t U G C.
  - cbn. rewrite Nat.sub_0_r. apply (eof_run z); [exact Hz|exact G|]. inversion U; reflexivity.
  - destruct cs as [|c cs]; [cbn in C; lia|]. inversion G as [|? ? [g ->] Gr]; subst.
    specialize (Len l (inp t) (or_introl eq_refl) U).
    assert (NI : inp t <> []) by (intro I; rewrite I in U; inversion U as [|c' s' x' y' Hc _ E1 E2]; subst;
      [apply Ne; reflexivity|destruct (uchar_nonempty _ _ Hc) as (? & ? & ->); discriminate]).
    assert (E : sstep (SGets (PInt z) (Some g)) t = (RStr l, Io (sent t) (held t) [] (lost t + reserved z))).
    { cbn [sstep]. rewrite fgets_step by exact Hz. rewrite take_line_last; [|apply (utf8_free 10 l); [lia|exact U|exact Nl]|lia].
      rewrite before_id by (intro K; apply N0; apply (utf8_nul _ _ U); exact K). rewrite (utf8_decode _ _ U). destruct (inp t); [congruence|reflexivity]. }
    rewrite (srun_step _ _ _ _ _ E) by discriminate. cbn [map app length]. f_equal. rewrite Nat.sub_succ, Nat.sub_0_r.
    apply (eof_run z); [exact Hz|exact Gr|reflexivity].
  - destruct cs as [|c cs]; [cbn in C; lia|]. inversion G as [|? ? [g ->] Gr]; subst.
    replace (l ++ 10 :: s) with ((l ++ [10]) ++ s) in U, N0 by (rewrite <- app_assoc; reflexivity).
    destruct (utf8_split _ _ _ U) as (p & q & EI & Up & Uq).
    destruct (utf8_split _ _ _ Up) as (p1 & p2 & -> & Up1 & Up2).
    assert (p2 = [10]) as ->.
    { inversion Up2 as [|c1 s1 x1 y1 Hc1 Hy1]; subst. inversion Hy1; subst. inversion Hc1; subst; try lia. reflexivity. }
    pose proof (Len (l ++ [10]) (p1 ++ [10]) (or_introl eq_refl) Up) as Ll. rewrite app_length in Ll. cbn in Ll.
    assert (E : sstep (SGets (PInt z) (Some g)) t = (RStr (l ++ [10]), Io (sent t) (held t) q (lost t + reserved z))).
    { cbn [sstep]. rewrite fgets_step by exact Hz. rewrite EI, <- app_assoc. cbn [app].
      rewrite take_line_free; [|apply (utf8_free 10 l); [lia|exact Up1|exact Nl]|lia].
      rewrite before_id by (intro K; apply N0; apply in_or_app; left; apply (utf8_nul _ _ Up); exact K). rewrite (utf8_decode _ _ Up). destruct p1; reflexivity. }
    rewrite (srun_step _ _ _ _ _ E) by discriminate. cbn [map app length Nat.sub]. f_equal.
    apply IH; [intro K; apply N0; apply in_or_app; right; exact K|intros l' x' I; apply Len; right; exact I|exact Uq|exact Gr|cbn in C; lia].
Qed.

Lemma ascii_utf8 : forall s, Forall (fun b => 0 < b < 128) s -> utf8 s s.
Proof. induction s as [|a s IH]; intro H; [constructor|]. inversion H; subst. apply (Ucons a s [a] s); [constructor; lia|apply IH; assumption]. Qed.
Lemma take_line_nl : forall m s x r, take_line m s = (x, r) -> ~ In 10 (removelast x).
Proof.
  induction m as [|m IH]; intros s x r H; [injection H as <- <-; intros []|].
  destruct s as [|b s]; cbn [take_line] in H; [injection H as <- <-; intros []|].
  destruct (Z.eqb_spec b 10); [injection H as <- <-; intros []|].
  destruct (take_line m s) as [x' r'] eqn:E. injection H as <- <-. specialize (IH _ _ _ E). destruct x' as [|c x']; [intros []|].
  change (removelast (b :: c :: x')) with (b :: removelast (c :: x')). intros [K|K]; [exact (n K)|exact (IH K)].
Qed.
Theorem ascii_thm : forall z, 1 < reserved z ->
  forall cs t, Forall (fun b => 0 < b < 128) (inp t) -> Forall (gets z) cs -> (length (inp t) <= length cs)%nat ->
  exists ps, fst (srun cs t) = map RStr ps ++ repeat RRuntimeError (length cs - length ps) /\ concat ps = inp t /\
    Forall (fun p => p <> [] /\ Z.of_nat (length p) < reserved z /\ ~ In 10 (removelast p)) ps.
Proof.
  intros z Hz. induction cs as [|c cs IH]; intros t A G L.
  - exists []. destruct (inp t); [|cbn in L; lia]. repeat split. constructor.
  - inversion G as [|? ? [g ->] Gr]; subst. destruct (inp t) as [|b s] eqn:I.
    { exists []. split; [|split; [reflexivity|constructor]]. cbn [map app Nat.sub length]. rewrite <- I in *.
      apply (eof_run z); [exact Hz|exact G|]. assumption. }
    destruct (take_line (Z.to_nat (reserved z - 1)) (b :: s)) as [x r] eqn:T.
    destruct (take_line_app _ _ _ _ T) as [E Lx]. pose proof (take_line_nl _ _ _ _ T) as Nx.
    assert (NX : x <> []) by (intros ->; replace (Z.to_nat (reserved z - 1)) with (S (Z.to_nat (reserved z - 2))) in T by lia;
      destruct (take_line_nil _ _ _ T); discriminate).
    rewrite E in A. apply Forall_app in A as [Ax Ar].
    assert (S1 : sstep (SGets (PInt z) (Some g)) t = (RStr x, Io (sent t) (held t) r (lost t + reserved z))).
    { cbn [sstep]. rewrite fgets_step by exact Hz. rewrite I, T. rewrite before_id by (intro K; rewrite Forall_forall in Ax; specialize (Ax 0 K); lia).
      rewrite (utf8_decode _ _ (ascii_utf8 x Ax)). destruct x; [congruence|reflexivity]. }
    rewrite (srun_step _ _ _ _ _ S1) by discriminate.
    destruct (IH (Io (sent t) (held t) r (lost t + reserved z))) as (ps & R & Cc & F); cbn [inp].
    + exact Ar.
    + exact Gr.
    + apply (f_equal (@length Z)) in E. rewrite app_length in E. cbn [length] in *. destruct x; [congruence|]. cbn [length] in E. lia.
    + exists (x :: ps). cbn [inp] in Cc. split; [cbn [map app length Nat.sub]; rewrite R; reflexivity|]. split; [cbn [concat]; rewrite Cc; symmetry; exact E|].
      constructor; [|exact F]. split; [exact NX|]. split; [lia|exact Nx].
Qed.

(** A longer text without newline and NUL: the read is cut after [n - 1] bytes. *)
Lemma take_line_firstn : forall m s, ~ In 10 s -> take_line m s = (firstn m s, skipn m s).
Proof.
  induction m as [|m IH]; intros s N; [reflexivity|]. destruct s as [|a s]; [reflexivity|]. cbn [take_line firstn skipn].
  destruct (Z.eqb_spec a 10) as [->|]; [exfalso; apply N; left; reflexivity|]. rewrite IH; [reflexivity|]. intro K; apply N; right; exact K.
Qed.
Lemma in_firstn : forall A m (l : list A) x, In x (firstn m l) -> In x l.
Proof. intros A m l x H. rewrite <- (firstn_skipn m l). apply in_or_app. left; exact H. Qed.
Theorem cut_thm : forall z s g t, 1 < reserved z -> utf8 s (inp t) -> s <> [] -> ~ In 10 s -> ~ In 0 s ->
  let n := Z.to_nat (reserved z - 1) in let r := fgets (PInt z) (Some g) t in
  inp (snd r) = skipn n (inp t) /\
  (forall p, fst r = RStr p <-> utf8 p (firstn n (inp t))) /\
  (fst r = RDecodeError <-> ~ exists p, utf8 p (firstn n (inp t))).
Proof.
  intros z s g t Hz U Ne N10 N0 n r. unfold r. rewrite fgets_step by exact Hz. fold n.
  rewrite take_line_firstn by (apply (utf8_free 10 s); [lia|exact U|exact N10]). cbn [snd inp].
  assert (NI : inp t <> []) by (intro I; rewrite I in U; inversion U as [|c' s' x' y' Hc _ E1 E2]; subst;
      [apply Ne; reflexivity|destruct (uchar_nonempty _ _ Hc) as (? & ? & ->); discriminate]).
  assert (NF : firstn n (inp t) <> []) by (unfold n; replace (Z.to_nat (reserved z - 1)) with (S (Z.to_nat (reserved z - 2))) by lia; destruct (inp t); [congruence|discriminate]).
  assert (B : before 0 (firstn n (inp t)) = firstn n (inp t)).
  { apply before_id. intro K. apply in_firstn in K. apply N0. apply (utf8_nul _ _ U). exact K. }
  rewrite B. assert (F : Forall byte (firstn n (inp t))).
  { apply Forall_forall. intros b Hb. apply in_firstn in Hb. pose proof (utf8_bytes _ _ U) as FB. rewrite Forall_forall in FB. exact (FB b Hb). }
  pose proof (fun p => decode_thm (firstn n (inp t)) p F) as D.
  destruct (firstn n (inp t)) as [|b x] eqn:E; [congruence|]. cbn [fst].
  destruct (decode (b :: x)) as [p0|] eqn:DD.
  - split; [reflexivity|]. split.
    + intro p. rewrite <- D. split; intro H; congruence.
    + split; [discriminate|]. intro H. exfalso. apply H. exists p0. apply D. reflexivity.
  - split; [reflexivity|]. split.
    + intro p. rewrite <- D. split; intro H; congruence.
    + split; [|reflexivity]. intros _ (p & K). apply D in K. discriminate.
Qed.
Lemma utf8_nil_l : forall bs, utf8 [] bs -> bs = [].
Proof. intros bs H; inversion H; reflexivity. Qed.
(** A proper non-empty part of one character is not text. *)
Lemma uchar_part : forall c x k p, uchar c x -> (0 < k < length x)%nat -> ~ utf8 p (firstn k x).
Proof.
  intros c x k p H K U. apply utf8_decode in U.
  inversion H; subst; cbn [length] in K; destruct k as [|[|[|[|k]]]]; try lia; cbn [firstn decode] in U;
    repeat match goal with
    | U : context [?a <? ?b] |- _ => destruct (Z.ltb_spec a b); try lia; try discriminate
    end; discriminate.
Qed.
Theorem split_thm : forall z c x rest g t, 1 < reserved z -> uchar c x -> inp t = x ++ rest -> reserved z <= Z.of_nat (length x) ->
  fgets (PInt z) (Some g) t =
  (RDecodeError, Io (sent t) (held t) (skipn (Z.to_nat (reserved z - 1)) x ++ rest) (lost t + reserved z)).
Proof.
  intros z c x rest g t Hz U I L. rewrite fgets_step by exact Hz. rewrite I.
  assert (C1 : 128 <= c) by (inversion U; subst; cbn in L; lia).
  assert (N10 : ~ In 10 x) by (apply (uchar_free 10 c); [lia|exact U|lia]).
  assert (N0 : ~ In 0 x) by (apply (uchar_free 0 c); [lia|exact U|lia]).
  set (n := Z.to_nat (reserved z - 1)). assert (Ln : (0 < n < length x)%nat) by (unfold n; lia).
  assert (T : take_line n (x ++ rest) = (firstn n x, skipn n x ++ rest)).
  { clearbody n. clear - N10 Ln. revert x N10 Ln. induction n as [|n IH]; intros x N L; [reflexivity|]. destruct x as [|a x]; [cbn in L; lia|].
    cbn [app take_line firstn skipn]. destruct (Z.eqb_spec a 10) as [->|]; [exfalso; apply N; left; reflexivity|].
    assert (N' : ~ In 10 x) by (intro K; apply N; right; exact K). destruct n as [|n]; [reflexivity|]. rewrite IH; [reflexivity|exact N'|cbn in *; lia]. }
  rewrite T. rewrite before_id by (intro K; apply N0; apply (in_firstn _ n); exact K).
  destruct (decode (firstn n x)) as [p|] eqn:D.
  - exfalso. apply decode_thm in D; [exact (uchar_part c x n p U Ln D)|]. apply Forall_forall. intros b Hb. apply in_firstn in Hb.
    pose proof (utf8_bytes [c] (x ++ []) (Ucons c [] x [] U Unil)) as FB. rewrite app_nil_r, Forall_forall in FB. exact (FB b Hb).
  - destruct (firstn n x) as [|b y] eqn:E; [|reflexivity]. apply (f_equal (@length Z)) in E. rewrite firstn_length in E. cbn in E. lia.
Qed.
(** A line with a NUL in it: the rest of the line is consumed and dropped. *)
Theorem nul_thm : forall z s a b rest g t, 1 < reserved z -> utf8 s a -> ~ In 10 s -> ~ In 10 b -> ~ In 0 s ->
  inp t = a ++ 0 :: b ++ 10 :: rest -> Z.of_nat (length a + length b) + 2 < reserved z ->
  fgets (PInt z) (Some g) t = (RStr s, Io (sent t) (held t) rest (lost t + reserved z)).
Proof.
  intros z s a b rest g t Hz U Ns Nb Z0 I L. pose proof (utf8_free 10 s a ltac:(lia) U Ns) as Na. pose proof (utf8_free 0 s a ltac:(lia) U Z0) as N0. rewrite fgets_step by exact Hz. rewrite I.
  replace (a ++ 0 :: b ++ 10 :: rest) with ((a ++ 0 :: b) ++ 10 :: rest) by (rewrite <- app_assoc; reflexivity).
  rewrite take_line_free.
  - rewrite <- app_assoc, before_app_free by exact N0. cbn [app before]. rewrite Z.eqb_refl, app_nil_r, (utf8_decode _ _ U). destruct a; reflexivity.
  - rewrite in_app_iff. intros [K|[K|K]]; [exact (Na K)|discriminate|exact (Nb K)].
  - rewrite app_length. cbn [length]. lia.
Qed.
Theorem one_thm : forall z cs t, reserved z = 1 -> Forall (gets z) cs ->
  fst (srun cs t) = repeat (RStr []) (length cs) /\ inp (snd (srun cs t)) = inp t.
Proof.
  intros z cs. induction cs as [|c cs IH]; intros t Hz H; [split; reflexivity|]. inversion H as [|? ? [g ->] Hr]; subst.
  rewrite srun_cons. cbn [sstep]. rewrite fgets_one by exact Hz. cbn [fst snd length repeat].
  destruct (IH (Io (sent t) (held t) (inp t) (lost t + 1)) Hz Hr) as [-> ->]. split; reflexivity.
Qed.

Lemma step_lost : forall c t, lost (snd (sstep c t)) = lost t + leaks c.
Proof.
  intros [[s|] k| |[z|i] [g|]] t; cbn [sstep leaks]; try (cbn; lia).
  - unfold fputs. destruct (encode s) as [bs|]; [|cbn; lia]. destruct (cstring _); cbn; lia.
  - destruct (size_arg_reserved z) as (A & B & C). destruct (Z.eq_dec (reserved z) 0) as [E|E]; [rewrite fgets_rejected by exact E; cbn; lia|].
    destruct (Z.eq_dec (reserved z) 1) as [F|F]; [rewrite fgets_one by exact F; cbn; lia|].
    rewrite fgets_step by lia. destruct (take_line _ _); reflexivity.
  - destruct (size_arg_reserved z) as (A & B & C). destruct (Z.eq_dec (reserved z) 0) as [E|E]; [rewrite fgets_rejected by exact E; cbn; lia|].
    rewrite fgets_no_memory by lia. cbn; lia.
Qed.
Lemma total_app : forall a b, total (a ++ b) = total a + total b.
Proof. induction a as [|x a IH]; intro b; cbn [app total]; [lia|]. rewrite IH. lia. Qed.
Theorem leak_thm : forall cs t, lost (snd (srun cs t)) = lost t + total (map leaks (made cs t)).
Proof.
  intros cs t. apply (srun_ind_state (fun t l t' => lost t' = lost t + total (map leaks l))).
  - intro t0. cbn. lia.
  - intros c t0. rewrite step_lost. cbn. lia.
  - intros t1 t2 t3 a b A B. rewrite map_app, total_app. lia.
Qed.
Lemma step_safe : forall c t u, fst (sstep c t) <> RUndef u.
Proof.
  intros [[s|] k| |[z|i] [g|]] t u; cbn [sstep]; try discriminate.
  - unfold fputs. destruct (encode s) as [bs|]; [|discriminate]. rewrite cstring_before. discriminate.
  - destruct (size_arg_reserved z) as (_ & _ & C). destruct (Z.eq_dec (reserved z) 0) as [E|E]; [rewrite fgets_rejected by exact E; discriminate|].
    destruct (Z.eq_dec (reserved z) 1) as [F|F]; [rewrite fgets_one by exact F; discriminate|].
    rewrite fgets_step by lia. destruct (take_line _ _) as [[|b x] r]; [discriminate|]. cbn [fst]. destruct (decode _); discriminate.
  - destruct (size_arg_reserved z) as (_ & _ & C). destruct (Z.eq_dec (reserved z) 0) as [E|E]; [rewrite fgets_rejected by exact E; discriminate|].
    rewrite fgets_no_memory by lia. discriminate.
Qed.
Theorem safe_thm : forall cs t u, ~ In (RUndef u) (fst (srun cs t)).
Proof.
  induction cs as [|c cs IH]; intros t u; [intros []|]. rewrite srun_cons. pose proof (step_safe c t u) as S1.
  destruct (fst (sstep c t)) eqn:E; cbn [fst]; intros [K|K]; try congruence; try (exact (IH _ _ K)). destruct K.
Qed.
Theorem size_thm : forall z m t,
  (1 <= z < 2 ^ 31 -> reserved z = z) /\
  (forall k, - 2 ^ 63 <= z < 2 ^ 63 -> - 2 ^ 63 <= z + k * 2 ^ 32 < 2 ^ 63 -> fgets (PInt (z + k * 2 ^ 32)) m t = fgets (PInt z) m t) /\
  (fst (fgets (PInt z) m t) = RValueError <-> reserved z = 0) /\
  (~ - 2 ^ 63 <= z < 2 ^ 63 -> fgets (PInt z) m t = (RValueError, t)).
Proof.
  intros z m t. split; [|split; [|split]].
  - intro H. unfold reserved. rewrite Z.mod_small by lia.
    destruct (Z.leb_spec (- 2 ^ 63) z), (Z.ltb_spec z (2 ^ 63)), (Z.ltb_spec z (2 ^ 31)); cbn [andb]; lia.
  - intros k A B. assert (E : size_arg (z + k * 2 ^ 32) = size_arg z).
    { unfold size_arg, in_sbits_b. change (64 - 1) with 63.
      destruct (Z.leb_spec (- 2 ^ 63) z), (Z.ltb_spec z (2 ^ 63)); cbn [andb]; try lia.
      destruct (Z.leb_spec (- 2 ^ 63) (z + k * 2 ^ 32)), (Z.ltb_spec (z + k * 2 ^ 32) (2 ^ 63)); cbn [andb]; try lia.
      unfold wrap. f_equal. change (32 - 1) with 31. replace (z + k * 2 ^ 32 + 2 ^ 31) with (z + 2 ^ 31 + k * 2 ^ 32) by lia. apply Z_mod_plus_full. }
    unfold fgets. rewrite E. reflexivity.
  - destruct (size_arg_reserved z) as (_ & _ & C). split; [|intro E; rewrite fgets_rejected by exact E; reflexivity].
    intro H. destruct (Z.eq_dec (reserved z) 0) as [E|E]; [exact E|]. exfalso. destruct m as [g|].
    + destruct (Z.eq_dec (reserved z) 1) as [F|F]; [rewrite fgets_one in H by exact F; discriminate|].
      rewrite fgets_step in H by lia. destruct (take_line _ _) as [[|b x] r]; [discriminate|]. cbn [fst] in H. destruct (decode _); discriminate.
    + rewrite fgets_no_memory in H by lia. discriminate.
  - intro H. apply fgets_rejected. unfold reserved. destruct (Z.leb_spec (- 2 ^ 63) z), (Z.ltb_spec z (2 ^ 63)); cbn [andb]; try reflexivity. lia.
Qed.
