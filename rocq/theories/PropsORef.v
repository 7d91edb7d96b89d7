(** C77: references and memory in the calls of the object lists. *)
From Coq Require Import ZArith List Bool Lia.
From Verif Require Import Base PyListSpec ArrayListModel ObjModel ObjSpec IRefModel IRefSpec ORefModel ORefSpec ORefProofs ORefMore PropsArrayList.
Import ListNotations.
Local Open Scope Z_scope.

(** Every call of either list, whatever memory is refused and whatever fails:
    what is returned or raised, the contents, and every reference that others
    than the list have won or lost. *)
Theorem C77_call : forall k E G c s, sound E s -> callable E s c -> ends k E G c s (run k E G c s).
Proof. exact run_ends. Qed.
Print Assumptions C77_call.

(** ** Programs *)
(** As long as no call takes elements without references, nobody's reference
    is ever released: what changes for others are references left behind. *)
Theorem C77_session : forall E k cs s, sound E s -> along k E (fun _ c s => callable E s c /\ short_of k c s = false) cs s ->
  match session k E cs s with
  | Ok s' _ => sound E s' /\ exists lost, shares E s s' [] lost []
  | Er _ _ => False
  | Bad u => k = Linked /\ (u = UseAfterFree /\ (exists i, In (OPop (Some i)) (map snd cs)) \/
                            u = OutOfBounds /\ exists sl seq src, In (OSetSlice sl seq src) (map snd cs) /\ step_of sl <> 1)
  | Killed => exists c, In c (map snd cs) /\ extends c = true
  end.
Proof.
  intros E k cs s S H. pose proof (session_ends E k cs s S H) as T. destruct (session k E cs s); auto.
  destruct T as (T & lost & A). split; auto. exists lost. apply shares_of; auto.
Qed.
Print Assumptions C77_session.
(** A program of tidy calls with enough memory, and the death of the list: all
    counts are what they were before the list had elements. *)
Theorem C77_life : forall E k cs s, sound E s -> along k E (fun G c s => callable E s c /\ tidy k E c s /\ enough G (wanted c s)) cs s ->
  exists s1 s2, session k E cs s = Ok s1 tt /\ dealloc E s1 = Ok s2 tt /\ elems s2 = [] /\ forall p, imm E p = false -> cnt s2 p = cnt (outside s) p.
Proof. exact life. Qed.
Print Assumptions C77_life.

(** ** What goes wrong *)
(** x *= n for n >= 2 on an array list that is not empty ends in an error
    however much memory there is, the list holding all that fits. *)
Theorem C77_imul_refuted : forall E G n s, sound E s -> elems s <> [] -> 2 <= n ->
  exists s' m r, run Array E G (OIMul n) s = Er s' RuntimeError /\ elems s' = firstn m (repeated r (elems s)) /\ (length (elems s) <= m)%nat /\
    (enough G (size s * n) -> grows G (size s') (size s' + 1) = false).
Proof. exact imul_full. Qed.
Print Assumptions C77_imul_refuted.
(** x[i] = o leaves the reference to the old element behind. *)
Theorem C77_set_refuted : forall E k G i o s, sound E s -> callable E s (OSet i o) -> 0 <= rel (size s) i < size s ->
  exists s' pre old post, run k E G (OSet i o) s = Ok s' VUnit /\ has_at (elems s) i pre old post /\ elems s' = pre ++ o :: post /\ shares E s s' [] [old] [].
Proof. exact set_lost. Qed.
Print Assumptions C77_set_refuted.
(** The linked list's sort leaves a reference to None behind. *)
Theorem C77_sort_refuted : forall E G keys perm s s' v, sound E s -> callable E s (OSort true keys None perm) ->
  run Linked E G (OSort true keys None perm) s = Ok s' v -> v = VObj (none E) /\ shares E s s' [none E] [none E] [].
Proof. exact sort_lost. Qed.
Print Assumptions C77_sort_refuted.
(** The array list's extend loses the first item if __length_hint__ raises. *)
Theorem C77_hint_refuted : forall E G e a o r s, sound E s -> callable E s (OExtendIter (inr e) a) -> it_iter a = None -> it_own a = true -> it_items a = o :: r ->
  exists s', run Array E G (OExtendIter (inr e) a) s = Er s' e /\ elems s' = elems s /\ shares E s s' [] [o] [].
Proof. exact hint_lost. Qed.
Print Assumptions C77_hint_refuted.
(** A constructor without memory for all items loses the sequence and, array
    lists, all the items, linked lists, one. *)
Theorem C77_init_refuted : forall E G h q items s, sound E s -> callable E s (OInitSeq h q items) ->
  (prepared Array G h = true -> grows G 0 (zlen items) = false ->
   exists s', run Array E G (OInitSeq h q items) s = Er s' RuntimeError /\ elems s' = [] /\ shares E s s' [] (elems s ++ q :: items) []) /\
  (forall j, 0 <= j < zlen items -> grows G j (j + 1) = false ->
   exists s' o rest, run Linked E G (OInitSeq h q items) s = Er s' RuntimeError /\ items = elems s' ++ o :: rest /\ shares E s s' [] (elems s ++ [q; o]) []).
Proof. intros E G h q items s S C. split; [exact (init_lost E G h q items s S C) | intros j; exact (linked_init_lost E G h q items j s S C)]. Qed.
Print Assumptions C77_init_refuted.
(** The linked list's pop with an index reads freed memory. *)
Theorem C77_pop_refuted : forall E G i s, sound E s -> 0 <= rel (size s) i < size s -> run Linked E G (OPop (Some i)) s = Bad UseAfterFree.
Proof. exact pop_freed. Qed.
Print Assumptions C77_pop_refuted.

(** ** Examples *)
(** Objects: 1 None, 2 True, 3 False, 4 the list, 5 an argument, 10..19 others,
    20..23 the integers 0..3; seven references to each. *)
Definition oex_env (late : bool) (mem : Z -> bool) : env :=
  {| conv := fun _ => inr TypeError; small := fun _ => None;
     small_size := fun z => if (0 <=? z) && (z <=? 3) then Some (20 + z) else None;
     imm := fun o => late && (o <=? 3); alloc := mem; room := fun _ => true; none := 1; tru := 2; fls := 3; self := 4 |}.
Definition oex_cnt (p : Z) : Z := if (1 <=? p) && (p <=? 30) then 7 else if p <? 1 then 1 else 0.
Definition oex_state : rst := {| elems := [10; 11; 12; 11]; cnt := oex_cnt; nxt := 100 |}.
Definition all_mem (_ : Z) := true.
Definition plain (n : Z) : memory := {| limit := n; fits := fun _ _ => true |}.
Definition oseen (r : rr value) : option (list Z) * list Z * list Z :=
  match r with
  | Ok s v => (Some (owned v), elems s, map (cnt (outside s)) [1; 2; 3; 4; 5; 10; 11; 12; 13; 14; 40; 100; 101])
  | Er s _ => (None, elems s, map (cnt (outside s)) [1; 2; 3; 4; 5; 10; 11; 12; 13; 14; 40; 100; 101])
  | _ => (None, [], [])
  end.
Definition it_of (own : bool) (items : list Z) (fin : option exn) : iterable :=
  {| it_obj := 5; it_own := own; it_iter := None; it_items := items; it_end := fin |}.
Lemma oex_sound late mem : sound (oex_env late mem) oex_state.
Proof.
  assert (P : forall p, 1 <= p <= 30 -> 0 < cnt (outside oex_state) p).
  { intros p Hp. cbn [outside cnt oex_state elems with_cnt]. unfold oex_cnt. destruct (Z.leb_spec 1 p); [|lia]. destruct (Z.leb_spec p 30); [|lia]. cbn [andb occ].
    destruct (10 =? p), (11 =? p), (12 =? p); lia. }
  assert (Q : forall p, p < 1 \/ 30 < p -> cnt (outside oex_state) p = oex_cnt p).
  { intros p Hp. cbn [outside cnt oex_state elems with_cnt occ]. destruct (Z.eqb_spec 10 p); [lia|]. destruct (Z.eqb_spec 11 p); [lia|]. destruct (Z.eqb_spec 12 p); lia. }
  split.
  - split; [|split; [|split; [|split; [|split; [|split]]]]].
    + intros p _. destruct (Z_le_gt_dec 1 p); [destruct (Z_le_gt_dec p 30); [apply Z.lt_le_incl, P; lia|]|]; rewrite Q by lia; unfold oex_cnt;
        destruct ((1 <=? p) && (p <=? 30)), (p <? 1); lia.
    + intros p Hp. change (nxt (outside oex_state)) with 100 in Hp. rewrite Q by lia. unfold oex_cnt. cbn [oex_env imm].
      destruct (Z.leb_spec p 30); [lia|]. destruct (Z.leb_spec p 3); [lia|]. destruct (Z.ltb_spec p 1); [lia|]. rewrite !andb_false_r. auto.
    + right. apply P. cbn [oex_env none]. lia.
    + right. apply P. cbn [oex_env tru]. lia.
    + right. apply P. cbn [oex_env fls]. lia.
    + right. apply P. cbn [oex_env self]. lia.
    + intros z o [H|H]; cbn [oex_env small small_size] in H; [discriminate|]. destruct (Z.leb_spec 0 z); [|discriminate]. destruct (Z.leb_spec z 3); [|discriminate].
      assert (o = 20 + z) by (cbn [andb] in H; congruence). right. apply P. lia.
  - repeat (apply Forall_cons || apply Forall_nil); reflexivity.
Qed.
(** A program that meets the hypotheses of C77_life: it grows, shrinks, copies,
    compares, sorts and fails. *)
Definition oex_program : list (memory * call) :=
  [(plain 50, OExtendIter (inl 2) (it_of false [13; 40; 13] (Some ValueError)));
   (plain 50, OSetSlice (mk_slice (Some 1) (Some 3) None) true (SItems [Some 14; Some 14; Some 40]));
   (plain 50, OMul 3); (plain 50, OPop None); (plain 50, OPop (Some 1)); (plain 50, ODel (-1)); (plain 50, ORemove 30);
   (plain 50, OSort true (Some [Some 40; Some 15; Some 40; None]) None (@rev Z)); (plain 50, OSort true None None (@rev Z));
   (plain 50, OCompare REq true false [Some (15, inl true)]); (plain 50, OAdd (Some [10; 10])); (plain 50, OIter); (plain 50, OClear); (plain 50, OAppend 15)].
Definition seen_all (r : rr unit) : list Z * list Z :=
  match r with Ok s _ => (elems s, map (cnt s) [1; 2; 3; 4; 5; 10; 11; 12; 13; 14; 15; 40; 100; 101]) | _ => ([], []) end.
Lemma enough_plain n most : most <= n -> enough (plain n) most.
Proof. intros H a b Ha Hb. unfold grows, plain. simpl. destruct (Z.leb_spec b a); [reflexivity|]. destruct (Z.leb_spec b n); [reflexivity | lia]. Qed.
Example oex_along : along Array (oex_env false all_mem) (fun G c s => callable (oex_env false all_mem) s c /\ tidy Array (oex_env false all_mem) c s /\ enough G (wanted c s)) oex_program oex_state.
Proof.
  assert (Bo : forall s os, forallb (fun o => 0 <? cnt (outside s) o) os = true -> Forall (lives (oex_env false all_mem) (outside s)) os)
    by (intros s os H; rewrite forallb_forall in H; apply Forall_forall; intros o Ho; right; apply Z.ltb_lt; auto).
  assert (Ha : forall s os, forallb (fun o => o <? nxt s) os = true -> Forall (fun o => o < nxt s) os)
    by (intros s os H; rewrite forallb_forall in H; apply Forall_forall; intros o Ho; apply Z.ltb_lt; auto).
  assert (Fw : forall c s (P : Prop), forallb (fun o => 0 <? cnt (outside s) o) (borrowed c) && forallb (fun o => o <? nxt s) (handed c) && (wanted c s <=? 50) = true ->
    match c with OSort _ _ _ perm => forall xs, Permutation.Permutation xs (perm xs) | OSetSlice _ _ _ => size s <= SSIZE_MAX | _ => True end ->
    tidy Array (oex_env false all_mem) c s -> P -> (callable (oex_env false all_mem) s c /\ tidy Array (oex_env false all_mem) c s /\ enough (plain 50) (wanted c s)) /\ P).
  { intros c s P H C T HP. apply andb_true_iff in H. destruct H as (H & H3). apply andb_true_iff in H. destruct H as (H1 & H2).
    split; auto. split; [split; [apply Bo, H1 | split; [apply Ha, H2 | exact C]]|]. split; auto. apply enough_plain. apply Z.leb_le; auto. }
  unfold oex_program.
  repeat (cbn [along]; match goal with |- _ /\ _ => apply Fw; [vm_compute; reflexivity | cbn [size]; try exact I; try (intros; apply Permutation.Permutation_rev); try (vm_compute; discriminate)
    | vm_compute; try tauto; try (intros _; eexists; reflexivity) | ] end;
    match goal with |- context [run ?k ?E ?G ?c ?s] => let r := eval vm_compute in (run k E G c s) in replace (run k E G c s) with r by (vm_compute; reflexivity); cbv iota beta end;
    try match goal with |- context [drop ?E ?v ?s] => let r := eval vm_compute in (drop E v s) in replace (drop E v s) with r by (vm_compute; reflexivity); cbv iota beta end).
  all: exact I.
Qed.
Example C77_life_ex :
  seen_all (session Array (oex_env false all_mem) oex_program oex_state) = ([15], [7; 7; 7; 7; 7; 6; 5; 6; 7; 7; 8; 0; 0; 0]) /\
  seen_all (bind (session Array (oex_env false all_mem) oex_program oex_state) (fun s _ => dealloc (oex_env false all_mem) s)) = ([], [7; 7; 7; 7; 7; 6; 5; 6; 7; 7; 7; 0; 0; 0]).
Proof. vm_compute. auto. Qed.
(** Memory for five elements: the append that fails leaves nothing; +=, with
    __length_hint__ 9, ends the process. *)
Example C77_full_ex :
  oseen (run Array (oex_env false all_mem) (plain 4) (OAppend 13) oex_state) = (None, [10; 11; 12; 11], [7; 7; 7; 7; 7; 6; 5; 6; 7; 7; 0; 0; 0]) /\
  oseen (run Linked (oex_env false all_mem) (plain 5) (OAppend 13) oex_state) = (Some [1], [10; 11; 12; 11; 13], [8; 7; 7; 7; 7; 6; 5; 6; 7; 7; 0; 0; 0]) /\
  run Array (oex_env false all_mem) (plain 5) (OIAddIter (inl 9) (it_of false [13] None)) oex_state = Killed /\
  run Linked (oex_env false all_mem) (plain 5) (OIAddIter (inl 9) (it_of false [13; 13] None)) oex_state = Killed /\
  oseen (run Linked (oex_env false all_mem) (plain 5) (OIAddIter (inl 9) (it_of false [40] None)) oex_state) = (Some [4], [10; 11; 12; 11; 40], [7; 7; 7; 8; 7; 6; 5; 6; 7; 7; 0; 0; 0]) /\
  oseen (run Array (oex_env true all_mem) (plain 5) (OExtendFast [13]) oex_state) = (Some [1], [10; 11; 12; 11; 13], [7; 7; 7; 7; 7; 6; 5; 6; 7; 7; 0; 0; 0]).
Proof. vm_compute. auto 10. Qed.
(** x *= 2 with memory for nine, ten and seven elements. *)
Example C77_imul_ex :
  oseen (run Array (oex_env false all_mem) (plain 9) (OIMul 2) oex_state) = (None, [10; 11; 12; 11; 10; 11; 12; 11; 10], [7; 7; 7; 7; 7; 6; 5; 6; 7; 7; 0; 0; 0]) /\
  oseen (run Linked (oex_env false all_mem) (plain 10) (OIMul 2) oex_state) = (Some [4], [10; 11; 12; 11; 10; 11; 12; 11], [7; 7; 7; 8; 7; 6; 5; 6; 7; 7; 0; 0; 0]) /\
  oseen (run Linked (oex_env false all_mem) (plain 7) (OIMul 2) oex_state) = (None, [10; 11; 12; 11; 10; 11; 12], [7; 7; 7; 7; 7; 6; 5; 6; 7; 7; 0; 0; 0]) /\
  oseen (run Array (oex_env false all_mem) (plain 7) (OIMul 2) oex_state) = (None, [10; 11; 12; 11], [7; 7; 7; 7; 7; 6; 5; 6; 7; 7; 0; 0; 0]).
Proof. vm_compute. auto 10. Qed.
(** Constructors that fail: the list of the arguments 5, its items, the old
    elements, the item and its iterator stay behind. *)
Example C77_init_ex :
  oseen (run Array (oex_env false all_mem) (plain 1) (OInitSeq 0 5 [13; 14]) oex_state) = (None, [], [7; 7; 7; 7; 8; 7; 7; 7; 8; 8; 0; 0; 0]) /\
  oseen (run Linked (oex_env false all_mem) (plain 1) (OInitSeq 0 5 [13; 14]) oex_state) = (None, [13], [7; 7; 7; 7; 8; 7; 7; 7; 7; 8; 0; 0; 0]) /\
  oseen (run Array (oex_env false all_mem) (plain 1) (OInitIter 0 (it_of false [13; 40] None)) oex_state) = (None, [13], [7; 7; 7; 7; 8; 7; 7; 7; 7; 7; 1; 1; 0]) /\
  oseen (run Linked (oex_env false all_mem) (plain 9) (OInitIter 0 (it_of false [13; 40] (Some ValueError))) oex_state) = (None, [13; 40], [7; 7; 7; 7; 7; 7; 7; 7; 7; 7; 0; 0; 0]) /\
  (* a list of the class: no references for the elements *)
  oseen (run Linked (oex_env false all_mem) (plain 9) (OInitSame 0 [13; 14]) oex_state) = (Some [], [13; 14], [7; 7; 7; 7; 7; 7; 7; 7; 6; 6; 0; 0; 0]).
Proof. vm_compute. auto 10. Qed.
(** Slice assignment: x[1:2] = items with memory for five; the array list keeps
    the item that did not fit, the linked list releases it; a list of the class
    is taken without references for what is inserted. *)
Example C77_slice_ex :
  let sl := mk_slice (Some 1) (Some 2) None in
  oseen (run Array (oex_env false all_mem) (plain 5) (OSetSlice sl true (SItems [Some 13; Some 40; Some 14])) oex_state) = (None, [10; 13; 40; 12; 11], [7; 7; 7; 7; 7; 6; 5; 6; 7; 8; 0; 0; 0]) /\
  oseen (run Linked (oex_env false all_mem) (plain 5) (OSetSlice sl true (SItems [Some 13; Some 40; Some 14])) oex_state) = (None, [10; 11; 40; 12; 11], [7; 7; 7; 7; 7; 6; 5; 6; 7; 7; 0; 0; 0]) /\
  oseen (run Array (oex_env false all_mem) (plain 9) (OSetSlice sl true (SItems [Some 13; None; Some 14])) oex_state) = (None, [10; 13; 12; 11], [7; 7; 7; 7; 7; 6; 5; 6; 7; 7; 0; 0; 0]) /\
  oseen (run Array (oex_env false all_mem) (plain 9) (OSetSlice sl true (SFast [13; 14; 14])) oex_state) = (Some [], [10; 13; 14; 14; 12; 11], [7; 7; 7; 7; 7; 6; 5; 6; 7; 5; 0; 0; 0]) /\
  oseen (run Linked (oex_env false all_mem) (plain 9) (OSetSlice sl true (SFast [13; 14])) oex_state) = (Some [], [10; 13; 14; 12; 11], [7; 7; 7; 7; 7; 6; 5; 6; 7; 7; 0; 0; 0]) /\
  run Linked (oex_env false all_mem) (plain 9) (OSetSlice (mk_slice (Some 1) None (Some 2)) true (SItems [Some 13; Some 14; Some 14; Some 14])) oex_state = Bad OutOfBounds.
Proof. vm_compute. auto 10. Qed.
Example C77_lost_ex :
  oseen (run Array (oex_env false all_mem) (plain 9) (OSet 1 13) oex_state) = (Some [], [10; 13; 12; 11], [7; 7; 7; 7; 7; 6; 6; 6; 7; 7; 0; 0; 0]) /\
  oseen (run Array (oex_env false all_mem) (plain 9) (OExtendIter (inr ValueError) (it_of false [40; 13] None)) oex_state) = (None, [10; 11; 12; 11], [7; 7; 7; 7; 7; 6; 5; 6; 7; 7; 1; 0; 0]) /\
  oseen (run Linked (oex_env false all_mem) (plain 9) (OSort true (Some [Some 40; Some 40; Some 13; Some 14]) None (@rev Z)) oex_state) = (Some [1], [11; 12; 11; 10], [9; 7; 7; 7; 7; 6; 5; 6; 7; 7; 0; 0; 0]) /\
  oseen (run Array (oex_env false all_mem) (plain 9) (OSort true None None (@rev Z)) oex_state) = (Some [1], [11; 12; 11; 10], [8; 7; 7; 7; 7; 6; 5; 6; 7; 7; 0; 0; 0]) /\
  oseen (run Array (oex_env false all_mem) (plain 9) (OResize 6) oex_state) = (Some [1], [10; 11; 12; 11; 1; 1], [6; 7; 7; 7; 7; 6; 5; 6; 7; 7; 0; 0; 0]) /\
  oseen (run Array (oex_env false all_mem) (plain 9) (OResize 1) oex_state) = (Some [1], [10], [8; 7; 7; 7; 7; 6; 7; 7; 7; 7; 0; 0; 0]) /\
  run Linked (oex_env false all_mem) (plain 9) (OPop (Some 1)) oex_state = Bad UseAfterFree.
Proof. vm_compute. auto 10. Qed.
(** New lists: their items, and what is left when memory ends. *)
Example C77_new_ex :
  oseen (run Linked (oex_env false all_mem) (plain 9) (OGetSlice (mk_slice None None (Some (-2)))) oex_state) = (Some [100; 11; 11], [10; 11; 12; 11], [7; 7; 7; 7; 7; 6; 7; 6; 7; 7; 0; 1; 0]) /\
  oseen (run Array (oex_env false all_mem) (plain 9) (OMul 2) oex_state) = (Some [100; 10; 11; 12; 11; 10; 11; 12; 11], [10; 11; 12; 11], [7; 7; 7; 7; 7; 8; 9; 8; 7; 7; 0; 1; 0]) /\
  oseen (run Linked (oex_env false all_mem) (plain 6) (OMul 2) oex_state) = (None, [10; 11; 12; 11], [7; 7; 7; 7; 7; 6; 5; 6; 7; 7; 0; 0; 0]) /\
  oseen (run Array (oex_env false all_mem) (plain 9) (OAdd (Some [13])) oex_state) = (Some [101; 10; 11; 12; 11; 13], [10; 11; 12; 11], [7; 7; 7; 7; 7; 7; 7; 7; 8; 7; 0; 0; 1]) /\
  oseen (run Array (oex_env false (fun p => p <? 101)) (plain 9) (OAdd (Some [13])) oex_state) = (None, [10; 11; 12; 11], [7; 7; 7; 7; 7; 6; 5; 6; 7; 7; 0; 0; 0]).
Proof. vm_compute. auto 10. Qed.
