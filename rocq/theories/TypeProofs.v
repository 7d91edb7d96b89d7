From Coq Require Import List Bool Arith String Lia.
From Verif Require Import TypeTable TypeModel TypeSpec.
Import ListNotations.
Local Open Scope list_scope.
Local Open Scope string_scope.

Ltac classes := intros []; vm_compute; intuition (try congruence).
Lemma ready_self : forall st c, ready st c c = true.
Proof. intros st c; unfold ready; destruct (class_dec c c); congruence. Qed.
Lemma ready_other : forall st c d, d <> c -> ready st c d = st d.
Proof. intros st c d N; unfold ready; destruct (class_dec d c); congruence. Qed.
Lemma list_dec : forall c, is_list c \/ ~ is_list c.
Proof. intros []; unfold is_list; cbn [In]; (left; tauto) || (right; intuition discriminate). Qed.
Lemma hash_slot : forall c, lookup tp_hash (slots c) <> None <-> is_list c.
Proof. intros []; unfold is_list; vm_compute; (split; [tauto|]); intuition (try congruence; try discriminate). Qed.

(** ** Readiness *)
Lemma after : forall py311 st c o, snd (perform py311 st c o) =
  match o with
  | CallMethod _ _ _ | With | Reversed | Subclass | ClassItem | ClassAttr _ | Specialize => ready st c
  | Hash => match field st c tp_hash with Some _ => st | None => ready st c end
  | _ => st
  end.
Proof. intros py311 st c [| | | | |[]|[]|[]|[]|[]| | | | | | | | | | | | | | | | | | | | | |]; try reflexivity; cbn; destruct (field st c tp_hash); reflexivity. Qed.
Lemma perform_ready : forall py311 st c o d, snd (perform py311 st c o) d = true <-> st d = true \/ d = c /\ makes_ready c o.
Proof.
  intros py311 st c o d; rewrite after.
  assert (R : ready st c d = true <-> st d = true \/ d = c).
  { destruct (class_dec d c) as [->|N]; [rewrite ready_self; tauto|rewrite ready_other by exact N; tauto]. }
  destruct o; cbn [makes_ready]; try tauto.
  unfold field; destruct (lookup tp_hash (slots c)) eqn:L.
  - assert (is_list c) by (apply hash_slot; congruence); tauto.
  - assert (~ is_list c) by (intro X; apply hash_slot in X; congruence).
    destruct (st c) eqn:SC; cbn [inherited].
    + destruct (lookup tp_richcompare (slots c)); [rewrite R|]; split; try tauto; intros [X|[-> _]]; auto.
    + rewrite R; tauto.
Qed.
Lemma run_cons : forall py311 st c o r, run py311 st ((c, o) :: r) =
  (fst (perform py311 st c o) :: fst (run py311 (snd (perform py311 st c o)) r), snd (run py311 (snd (perform py311 st c o)) r)).
Proof. intros; cbn [run]; destruct (perform py311 st c o) as [a st1]; cbn [fst snd]; destruct (run py311 st1 r); reflexivity. Qed.
Lemma run_ready : forall py311 prog st d, snd (run py311 st prog) d = true <-> st d = true \/ exists o, In (d, o) prog /\ makes_ready d o.
Proof.
  intro py311; induction prog as [|[c o] r IH]; intros st d; [cbn; split; [auto|intros [H|(o & [] & _)]; exact H]|].
  rewrite run_cons; cbn [snd]; rewrite IH, perform_ready; split.
  - intros [[H|[-> M]]|(o' & I1 & M)]; [auto|right; exists o; split; [left; reflexivity|exact M]|right; exists o'; split; [right; exact I1|exact M]].
  - intros [H|(o' & [E|I1] & M)]; [auto|injection E as -> ->; auto|right; exists o'; auto].
Qed.

(** ** Answers *)
Lemma field_table : forall st c s, lookup s (slots c) <> None -> field st c s = lookup s (slots c).
Proof. intros st c s N; unfold field; destruct (lookup s (slots c)); congruence. Qed.
Definition own_slot (s : slot) : bool := match s with tp_getattro | tp_setattro | tp_repr | tp_str | tp_init | tp_richcompare | tp_hash => false | _ => true end.
Lemma field_own : forall st c s, own_slot s = true -> field st c s = lookup s (slots c).
Proof. intros st c s O; unfold field; destruct (lookup s (slots c)); [reflexivity|]; destruct (st c); [|reflexivity]; destruct s; try discriminate; reflexivity. Qed.
Ltac own := repeat match goal with |- context [field ?st ?c ?s] => rewrite (field_own st c s eq_refl) end.
Lemma same : forall py311 st st' c o, ~ attribute_access o -> fst (perform py311 st c o) = fst (perform py311 st' c o).
Proof.
  intros py311 st st' c o N; destruct o as [| | | | |[]|[]|[]|[]|[]| | | | | | | | | | | | | | | | | | | | | |]; cbn [attribute_access] in N; try (exfalso; apply N; exact I);
    cbn [perform fst]; own; try reflexivity.
  - unfold field; destruct (st c), (st' c), c; reflexivity.
  - unfold field; destruct (st c), (st' c), c; reflexivity.
  - unfold hash, field; rewrite !ready_self; destruct (st c), (st' c), c; reflexivity.
  - unfold repr, field; destruct (st c), (st' c), c; reflexivity.
  - unfold repr, field; destruct (st c), (st' c), c; reflexivity.
  - unfold field; destruct (st c), (st' c), c; reflexivity.
Qed.
Lemma field_agree : forall st st' c s, st c = st' c -> field st c s = field st' c s.
Proof. intros st st' c s E; unfold field; rewrite E; reflexivity. Qed.
Lemma access_agree : forall py311 st st' c o, st c = st' c -> attribute_access o -> fst (perform py311 st c o) = fst (perform py311 st' c o).
Proof.
  intros py311 st st' c o E A; destruct o; try contradiction; cbn [perform fst]; unfold getattr, setattr; rewrite ?(field_agree st st' c tp_getattro E), ?(field_agree st st' c tp_setattro E); reflexivity.
Qed.
Lemma unready : forall py311 st c o, st c = false -> attribute_access o -> Some (fst (perform py311 st c o)) = unready_answer o.
Proof. intros py311 st c o E A; destruct o; try contradiction; cbn [perform fst unready_answer]; unfold getattr, setattr, field; rewrite E; destruct c; reflexivity. Qed.

Lemma run_nth : forall py311 prog st k c o, nth_error prog k = Some (c, o) ->
  exists st', nth_error (fst (run py311 st prog)) k = Some (fst (perform py311 st' c o)) /\ (st' c = true <-> st c = true \/ readied prog k c).
Proof.
  intro py311; induction prog as [|[d p] r IH]; intros st k c o E; [destruct k; discriminate|].
  rewrite run_cons; cbn [fst]; destruct k as [|k].
  - injection E as -> ->; exists st; split; [reflexivity|]; split; [auto|]; intros [H|(j & o' & L & _)]; [exact H|lia].
  - destruct (IH (snd (perform py311 st d p)) k c o E) as (st' & E' & R); exists st'; split; [exact E'|].
    rewrite R, perform_ready; unfold readied; split.
    + intros [[H|[-> M]]|(j & o' & L & N & M)]; [auto|right; exists 0%nat, p; split; [lia|split; [reflexivity|exact M]]|right; exists (S j), o'; split; [lia|split; assumption]].
    + intros [H|(j & o' & L & N & M)]; [auto|]; destruct j as [|j]; [injection N as -> ->; auto|right; exists j, o'; split; [lia|split; assumption]].
Qed.
Lemma program : forall py311 prog k c o, nth_error prog k = Some (c, o) -> (attribute_access o -> readied prog k c) ->
  nth_error (fst (run py311 fresh prog)) k = nth_error (fst (run py311 all_ready prog)) k.
Proof.
  intros py311 prog k c o E A; destruct (run_nth py311 prog fresh k c o E) as (s1 & E1 & R1), (run_nth py311 prog all_ready k c o E) as (s2 & E2 & R2).
  rewrite E1, E2; f_equal; assert (D : attribute_access o \/ ~ attribute_access o) by (destruct o; cbn; tauto).
  destruct D as [D|D]; [apply access_agree; [|exact D]|apply same; exact D].
  assert (s1 c = true) as -> by (apply R1; right; apply A; exact D); symmetry; apply R2; left; reflexivity.
Qed.
Lemma program_first : forall py311 prog k c o, nth_error prog k = Some (c, o) -> attribute_access o -> ~ readied prog k c ->
  nth_error (fst (run py311 fresh prog)) k = unready_answer o.
Proof.
  intros py311 prog k c o E A N; destruct (run_nth py311 prog fresh k c o E) as (s1 & E1 & R1); rewrite E1; apply unready; [|exact A].
  destruct (s1 c) eqn:S1; [|reflexivity]; exfalso; destruct (proj1 R1 eq_refl) as [X|X]; [discriminate X|exact (N X)].
Qed.

(** ** The tables *)
Lemma find_some_iff : forall (n : string) (l : list (string * (slot * option nat))) (P : string * (slot * option nat) -> bool),
  (exists x, List.find P l = Some x) <-> exists x, In x l /\ P x = true.
Proof.
  intros n l P; split; [intros (x & E); exists x; apply find_some; exact E|]; intros (x & I1 & T).
  destruct (List.find P l) eqn:E; [eexists; reflexivity|]; pose proof (find_none P l E x I1); congruence.
Qed.
Lemma lookup_in : forall s l, lookup s l <> None <-> exists f, In (s, f) l.
Proof.
  intros s l; induction l as [|[s' f] r IH]; cbn [lookup In]; [split; [congruence|intros (f & [])]|].
  destruct (slot_dec s s') as [->|N]; [split; [intros _; exists f; auto|congruence]|]; rewrite IH; split; intros (g & H); exists g; [auto|].
  destruct H as [H|H]; [injection H as -> ->; congruence|exact H].
Qed.
Lemma find_attr_iff : forall c n, find_attr c n <> None <-> has_attribute c n.
Proof.
  intros c n; unfold find_attr, has_attribute.
  set (P := fun w : string * (slot * option nat) => String.eqb n (fst w) && match lookup (fst (snd w)) (slots c) with Some _ => true | None => false end).
  assert (W : (exists x, List.find P wrappers = Some x) <-> exists s k f, In (n, (s, k)) wrappers /\ In (s, f) (slots c)).
  { rewrite (find_some_iff n wrappers P); split.
    - intros ([m [s k]] & I1 & T); unfold P in T; cbn [fst snd] in T; apply andb_true_iff in T; destruct T as [T1 T2]; apply String.eqb_eq in T1; subst m.
      assert (lookup s (slots c) <> None) as L by (destruct (lookup s (slots c)); congruence); apply lookup_in in L; destruct L as (f & L); exists s, k, f; auto.
    - intros (s & k & f & I1 & I2); exists (n, (s, k)); split; [exact I1|]; unfold P; cbn [fst snd]; rewrite String.eqb_refl; cbn [andb].
      destruct (lookup s (slots c)) eqn:L; [reflexivity|]; exfalso; apply (proj2 (lookup_in s (slots c))); [exists f; exact I2|exact L]. }
  destruct (List.find P wrappers) as [[m [s k]]|] eqn:E.
  - assert (T : P (m, (s, k)) = true) by (apply find_some in E; apply E); unfold P in T; cbn [fst snd] in T; apply andb_true_iff in T; destruct T as [_ T].
    split; [intros _; right; right; apply W; eexists; reflexivity|intros _; destruct (lookup s (slots c)); congruence].
  - assert (NW : ~ exists s k f, In (n, (s, k)) wrappers /\ In (s, f) (slots c)) by (intro X; apply W in X; destruct X; discriminate).
    destruct (List.find (fun m => String.eqb n (m_name m)) (methods c)) as [m|] eqn:F.
    + split; [intros _; left|congruence]; apply find_some in F; destruct F as [F1 F2]; apply String.eqb_eq in F2; subst n; apply in_map; exact F1.
    + assert (NM : ~ In n (map m_name (methods c))).
      { intro X; apply in_map_iff in X; destruct X as (m & <- & I1); pose proof (find_none _ _ F m I1) as X; cbn in X; rewrite String.eqb_refl in X; discriminate. }
      assert (HN : has object_names n = true <-> In n object_names).
      { unfold has; rewrite existsb_exists; split; [intros (x & I1 & T); apply String.eqb_eq in T; subst x; exact I1|intro I1; exists n; split; [exact I1|apply String.eqb_refl]]. }
      destruct (has object_names n) eqn:HO; [split; [intros _; right; left; apply HN; reflexivity|congruence]|].
      split; [congruence|]; intros [X|[X|X]]; [contradiction|apply HN in X; discriminate|contradiction].
Qed.
Lemma attributes : forall py311 st c n, st c = true -> (fst (perform py311 st c (HasAttr n)) = Says true <-> has_attribute c n) /\
  (fst (perform py311 st c (GetAttr n)) = Got <-> has_attribute c n).
Proof.
  intros py311 st c n R; rewrite <- find_attr_iff; cbn [perform fst]; unfold getattr, field.
  replace (lookup tp_getattro (slots c)) with (@None string) by (destruct c; reflexivity); rewrite R; cbn [inherited].
  destruct (find_attr c n); split; split; congruence.
Qed.

Definition table_ok (c : class) : bool :=
  forallb (fun m => String.eqb (m_name m) "__rmul__" || match find_attr c (m_name m) with Some (Own m') => if string_dec (m_fn m') (m_fn m) then match m_conv m', m_conv m with NoArgs, NoArgs | One, One | Fast, Fast | VarArgs, VarArgs | VarKeywords, VarKeywords => true | _, _ => false end else false | _ => false end) (methods c).
Lemma tables : forall c, table_ok c = true.
Proof. intros []; vm_compute; reflexivity. Qed.
Lemma reached : forall py311 st c m a k, In m (methods c) -> m_name m <> "__rmul__" ->
  fst (perform py311 st c (CallMethod (m_name m) a k)) = if admits (m_conv m) a k then Enters (m_fn m) else Raises ErrType.
Proof.
  intros py311 st c m a k I1 N; pose proof (tables c) as T; unfold table_ok in T; rewrite forallb_forall in T; specialize (T m I1).
  cbn beta in T; apply orb_true_iff in T; destruct T as [T|T]; [apply String.eqb_eq in T; contradiction|].
  cbn [perform fst]; destruct (find_attr c (m_name m)) as [[f k'|m'|]|]; try discriminate; destruct (string_dec (m_fn m') (m_fn m)) as [E|]; [|discriminate].
  cbn [call_attr]; rewrite E; replace (m_conv m') with (m_conv m) by (destruct (m_conv m'), (m_conv m); congruence); reflexivity.
Qed.
Definition param_dec (a b : param) : {a = b} + {a <> b}. Proof. decide equality. Defined.
Definition params_ok (c : class) : bool :=
  forallb (fun m => if list_eq_dec param_dec (m_params m) (firstn (List.length (m_params m)) (passes (m_conv m))) then true else false) (methods c).
Lemma params_all : forall c, params_ok c = true.
Proof. intros []; vm_compute; reflexivity. Qed.
Lemma params : forall c m, In m (methods c) -> exists rest, passes (m_conv m) = (m_params m ++ rest)%list.
Proof.
  intros c m I1; pose proof (params_all c) as T; unfold params_ok in T; rewrite forallb_forall in T; specialize (T m I1); cbn beta in T.
  destruct (list_eq_dec param_dec (m_params m) (firstn (List.length (m_params m)) (passes (m_conv m)))) as [E|]; [|discriminate].
  exists (skipn (List.length (m_params m)) (passes (m_conv m))); rewrite E at 1; symmetry; apply firstn_skipn.
Qed.

(** ** Lists *)
Lemma ready_slots : forall st c s, is_list c -> field st c s = field all_ready c s \/ s = tp_getattro \/ s = tp_setattro.
Proof.
  intros st c s L; unfold field, all_ready; destruct (lookup s (slots c)) eqn:E; [left; reflexivity|].
  destruct L as [<-|[<-|[<-|[<-|[<-|[]]]]]]; destruct s; vm_compute in E; try discriminate; auto; left; destruct (st _); reflexivity.
Qed.
Lemma list_ops : forall py311 st c o f, is_list c -> In (o, f) list_operations -> fst (perform py311 st c o) = Enters (of_class c f).
Proof.
  intros py311 st c o f L I1; rewrite (same py311 st all_ready).
  - destruct L as [<-|[<-|[<-|[<-|[<-|[]]]]]]; repeat (destruct I1 as [E|I1]; [injection E as <- <-; vm_compute; reflexivity|]); destruct I1.
  - repeat (destruct I1 as [E|I1]; [injection E as <- <-; cbn; tauto|]); destruct I1.
Qed.
Lemma list_calls : forall py311 st c n lo hi kw f a k, is_list c -> In (n, (lo, hi, kw, f)) list_methods -> (lo <= a <= hi)%nat -> (k <= kw)%nat ->
  fst (perform py311 st c (CallMethod n a k)) = Enters (of_class c f).
Proof.
  intros py311 st c n lo hi kw f a k L I1 A K; cbn [perform fst].
  repeat (destruct I1 as [E|I1]; [injection E as <- <- <- <- <-|]); try destruct I1;
    (assert (k = 0 \/ k = 1 \/ k = 2)%nat as K' by lia); (assert (a = 0 \/ a = 1 \/ a = 2 \/ a = 3)%nat as A' by lia);
    destruct L as [<-|[<-|[<-|[<-|[<-|[]]]]]]; destruct K' as [->|[->| ->]]; try lia; destruct A' as [->|[->|[->| ->]]]; try lia; vm_compute; reflexivity.
Qed.
Lemma list_checked : forall py311 st c n r a k, is_list c -> In (n, r) checked_methods -> a <> r \/ k <> 0%nat ->
  fst (perform py311 st c (CallMethod n a k)) = Raises ErrType.
Proof.
  intros py311 st c n r a k L I1 N; cbn [perform fst].
  assert (NO : (Nat.eqb a r && Nat.eqb k 0)%bool = false) by (apply andb_false_iff; destruct N as [N|N]; [left|right]; apply Nat.eqb_neq; exact N).
  repeat (destruct I1 as [E|I1]; [injection E as <- <-|]); try destruct I1;
    destruct L as [<-|[<-|[<-|[<-|[<-|[]]]]]]; cbv [find_attr call_attr]; 
    match goal with |- context [List.find ?P ?l] => let v := eval vm_compute in (List.find P l) in change (List.find P l) with v end; cbv iota beta;
    match goal with |- context [List.find ?P ?l] => let v := eval vm_compute in (List.find P l) in change (List.find P l) with v end; cbv iota beta; cbn [m_conv admits]; rewrite NO; reflexivity.
Qed.
Lemma list_dunders : forall py311 st c n a o, is_list c -> In (n, a, o) dunders -> fst (perform py311 st c (CallMethod n a 0)) = fst (perform py311 st c o).
Proof.
  intros py311 st c n a o L I1; rewrite (same py311 st all_ready c (CallMethod n a 0)) by (cbn; tauto); rewrite (same py311 st all_ready c o).
  - destruct L as [<-|[<-|[<-|[<-|[<-|[]]]]]]; repeat (destruct I1 as [E|I1]; [injection E as <- <- <-; vm_compute; reflexivity|]); destruct I1.
  - repeat (destruct I1 as [E|I1]; [injection E as <- <- <-; cbn; tauto|]); destruct I1.
Qed.
Lemma list_hash : forall py311 st c, is_list c -> fst (perform py311 st c Hash) = Raises ErrType /\ snd (perform py311 st c Hash) = st.
Proof. intros py311 st c [<-|[<-|[<-|[<-|[<-|[]]]]]]; split; reflexivity. Qed.
Lemma list_view : forall py311 st c, fst (perform py311 st c View) =
  match c with IntArrayList | BigIntArrayList => Enters (of_class c "get_buffer") | _ => Raises ErrType end.
Proof. intros py311 st []; cbn [perform fst]; own; reflexivity. Qed.
Lemma iterators : forall py311 st c, is_iterator c ->
  fst (perform py311 st c Iter) = Enters (of_class c "iter") /\ fst (perform py311 st c Next) = Enters (of_class c "next") /\
  fst (perform py311 st c Construct) = Raises ErrType /\ fst (perform py311 st c Len) = Raises ErrType /\ fst (perform py311 st c Truth) = Says true /\
  fst (perform py311 st c Equal) = ByIdentity /\ fst (perform py311 st c Hash) = ByAddress.
Proof.
  intros py311 st c L; rewrite (same py311 st all_ready c Equal), (same py311 st all_ready c Hash) by (cbn; tauto); cbn [perform fst]; own.
  destruct L as [<-|[<-|[<-|[<-|[<-|[]]]]]]; repeat split.
Qed.
Lemma managers : forall py311 st c, fst (perform py311 st c With) =
  match c with Unsafe | ASM | SIMD => Manages (of_class c "enter") (of_class c "exit") | _ => Raises (if py311 then ErrType else ErrAttribute) end.
Proof. intros py311 st []; vm_compute; reflexivity. Qed.
Lemma next_only : forall py311 st c, fst (perform py311 st c Next) = Raises ErrType <-> ~ is_iterator c.
Proof. intros py311 st c; cbn [perform fst]; own; unfold is_iterator; destruct c; cbn; intuition (try discriminate). Qed.

(** ** The function of __rmul__ *)
Definition no_rmul (c : class) : bool :=
  forallb (fun m => negb (String.eqb (m_fn m) (of_class c "rmul")) || String.eqb (m_name m) "__rmul__") (methods c) &&
  forallb (fun x => negb (String.eqb (snd x) (of_class c "rmul"))) (slots c) &&
  match find_attr c "__rmul__" with Some (Own _) => false | _ => true end.
Lemma rmul_table : forall c, no_rmul c = true.
Proof. intros []; vm_compute; reflexivity. Qed.
Lemma slot_not : forall c s f, lookup s (slots c) = Some f -> f <> of_class c "rmul".
Proof.
  intros c s f L E; subst f; pose proof (rmul_table c) as T; unfold no_rmul in T; rewrite !andb_true_iff in T; destruct T as [[_ T] _]; rewrite forallb_forall in T.
  assert (I1 : In (s, of_class c "rmul") (slots c)).
  { revert L; generalize (slots c); induction l as [|[s' g] r IH]; cbn [lookup]; [discriminate|]; destruct (slot_dec s s') as [->|]; [intro E; injection E as ->; left; reflexivity|right; auto]. }
  specialize (T _ I1); cbn [snd] in T; rewrite String.eqb_refl in T; discriminate.
Qed.
Lemma field_not : forall st c s f, field st c s = Some f -> f <> of_class c "rmul".
Proof.
  intros st c s f H; unfold field in H; destruct (lookup s (slots c)) eqn:L; [injection H as <-; exact (slot_not c s s0 L)|].
  destruct (st c); [|discriminate]; destruct s; cbn [inherited] in H; try discriminate;
    repeat match type of H with match ?x with _ => _ end = _ => destruct x; try discriminate end; injection H as <-; destruct c; discriminate.
Qed.
Lemma find_wrapper : forall c n f k, find_attr c n = Some (Wrapper f k) -> exists s, lookup s (slots c) = Some f.
Proof.
  intros c n f k F; unfold find_attr in F; destruct (List.find _ wrappers) as [[x [s y]]|].
  - destruct (lookup s (slots c)) eqn:L; [|discriminate]; injection F as -> ->; exists s; exact L.
  - destruct (List.find _ (methods c)); [discriminate|destruct (has object_names n); discriminate].
Qed.
Lemma call_not : forall c n a k, call_attr (find_attr c n) a k <> Enters (of_class c "rmul").
Proof.
  intros c n a k E; destruct (find_attr c n) as [[f [j|]|m|]|] eqn:F; cbn [call_attr] in E; try discriminate.
  { destruct (find_wrapper c n f _ F) as (s & L); destruct (String.eqb f _) in E; [discriminate|]; destruct (Nat.eqb a j && Nat.eqb k 0)%bool in E; [|discriminate].
    injection E as ->; exact (slot_not c s _ L eq_refl). }
  { destruct (find_wrapper c n f _ F) as (s & L); injection E as ->; exact (slot_not c s _ L eq_refl). }
  destruct (admits (m_conv m) a k); [|discriminate]; injection E as E.
  assert (M : In m (methods c) /\ n = m_name m).
  { unfold find_attr in F; destruct (List.find _ wrappers) as [[? [s ?]]|]; [destruct (lookup s (slots c)); discriminate|].
    destruct (List.find _ (methods c)) as [m'|] eqn:G; [|destruct (has object_names n); discriminate]; injection F as ->; apply find_some in G; destruct G as [G1 G2].
    split; [exact G1|]; apply String.eqb_eq; exact G2. }
  destruct M as [M1 M2]; pose proof (rmul_table c) as T; unfold no_rmul in T; rewrite !andb_true_iff in T; destruct T as [[T _] T3]; rewrite forallb_forall in T; specialize (T m M1).
  cbn beta in T; rewrite E, String.eqb_refl in T; cbn [negb orb] in T; apply String.eqb_eq in T; rewrite M2, T in F; rewrite F in T3; discriminate.
Qed.
Lemma enters_not : forall c x y, (forall f, x = Some f -> f <> of_class c "rmul") -> y <> Enters (of_class c "rmul") -> enters x y <> Enters (of_class c "rmul").
Proof. intros c [f|] y H N; cbn [enters]; [|exact N]; intro E; injection E as ->; exact (H _ eq_refl eq_refl). Qed.
Lemma first_not : forall st c s t f, first (field st c s) (field st c t) = Some f -> f <> of_class c "rmul".
Proof. intros st c s t f; unfold first; destruct (field st c s) eqn:L; intro E; [injection E as <-; exact (field_not st c s _ L)|exact (field_not st c t f E)]. Qed.
Lemma repr_not : forall st c, repr st c <> Enters (of_class c "rmul").
Proof.
  intros st c; unfold repr; destruct (field st c tp_repr) eqn:L; [|discriminate]; destruct (String.eqb s "object_repr"); [discriminate|].
  intro E; injection E as ->; exact (field_not st c _ _ L eq_refl).
Qed.
Lemma hash_not : forall st c, hash st c <> Enters (of_class c "rmul").
Proof.
  intros st c; unfold hash; destruct (field st c tp_hash) eqn:L; [|discriminate]; destruct (String.eqb s _); [discriminate|]; destruct (String.eqb s _); [discriminate|].
  intro E; injection E as ->; exact (field_not st c _ _ L eq_refl).
Qed.
Lemma rmul_never : forall py311 st c o, fst (perform py311 st c o) <> Enters (of_class c "rmul").
Proof.
  intros py311 st c o.
  assert (EN : forall s y, y <> Enters (of_class c "rmul") -> enters (field st c s) y <> Enters (of_class c "rmul")) by (intros s y; apply enters_not; exact (field_not st c s)).
  assert (EF : forall s t y, y <> Enters (of_class c "rmul") -> enters (first (field st c s) (field st c t)) y <> Enters (of_class c "rmul")) by (intros s t y; apply enters_not; exact (first_not st c s t)).
  destruct o as [| | | | |[]|[]|[]|[]|[]| | | | | | | | | | | | | | | | | | | | | |]; cbn [perform fst repeats]; try discriminate;
    try (apply EN; discriminate); try (apply EF; discriminate); try apply call_not; try apply repr_not.
  - apply EN; destruct (field st c sq_item); discriminate.
  - destruct (find_attr c "__reversed__") eqn:F; [rewrite <- F; apply call_not|destruct (field st c sq_item); discriminate].
  - destruct (field st c tp_richcompare) eqn:L; [|discriminate]; destruct (String.eqb s _); [discriminate|]; intro E; injection E as ->; exact (field_not st c _ _ L eq_refl).
  - destruct (field st c tp_richcompare) eqn:L; [|discriminate]; destruct (String.eqb s _); [discriminate|]; intro E; injection E as ->; exact (field_not st c _ _ L eq_refl).
  - destruct (field st c tp_hash); cbn [fst]; apply hash_not.
  - destruct (field st c tp_str) eqn:L; [|apply repr_not]; destruct (String.eqb s _); [apply repr_not|]; intro E; injection E as ->; exact (field_not st c _ _ L eq_refl).
  - destruct (find_attr c "__enter__") as [[]|]; try discriminate; destruct (find_attr c "__exit__") as [[]|]; discriminate.
  - unfold getattr; destruct (field st c tp_getattro); [destruct (find_attr c n)|]; discriminate.
  - unfold setattr; destruct (field st c tp_setattro); [destruct (String.eqb n _)|]; discriminate.
  - unfold setattr; destruct (field st c tp_setattro); [destruct (String.eqb n _)|]; discriminate.
  - unfold getattr; destruct (field st c tp_getattro); [destruct (find_attr c _)|]; discriminate.
  - destruct (field st c tp_new); [apply EN; discriminate|discriminate].
  - destruct (find_attr c "__class_getitem__") eqn:F; [rewrite <- F; apply call_not|discriminate].
  - destruct (find_attr c n); [discriminate|]; destruct (has type_names n); discriminate.
Qed.
