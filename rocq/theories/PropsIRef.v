(** C76: the references that calls of the integer lists take and give back. *)
From Coq Require Import ZArith List Bool.
From Verif Require Import Base PyListSpec ArrayListModel ObjModel ObjSpec IRefModel IRefSpec IRefMore IRefCalls IRefValueSpec IRefValueProofs PropsArrayList.
Import ListNotations.
Local Open Scope Z_scope.

(** Every call, of either kind, with or without memory. *)
Theorem C76_call : forall k E c s, sane E s -> callable E s c -> ends k E c s (run k E c s).
Proof. intros k E c s W. exact (run_ends E s W k c). Qed.
Print Assumptions C76_call.
Theorem C76_drop : forall k E c s s1 v, sane E s -> callable E s c -> run k E c s = Ok s1 v ->
  exists s2, drop E v s1 = Ok s2 tt /\ adds E s s2 (extra k E c s v).
Proof. intros k E. exact (call_drop E k). Qed.
Print Assumptions C76_drop.

(** Whatever fails, a call returns, raises and leaves in the list what the
    specification says. *)
Theorem C76_values : forall k E c s, tru E <> fls E -> zlen (elems s) <= SSIZE_MAX -> outcome_of k E c s (run k E c s).
Proof. intros k E c s. exact (values E k c s). Qed.
Print Assumptions C76_values.

(** ** The array lists *)
Theorem C76_array_call : forall E c s, sane E s -> callable E s c -> (forall n, room E n = true) -> keyed c = false -> broken_ne c = false ->
  match run Array E c s with
  | Ok s' v => adds E s s' (owned v)
  | Er s' _ => adds E s s' []
  | _ => False
  end.
Proof. exact array_call. Qed.
Print Assumptions C76_array_call.
(** Whatever a program calls, and whatever fails on the way: all counts are
    what they were, and every object made is gone. *)
Theorem C76_array_session : forall E cs s, sane E s -> Forall (callable E s) cs -> (forall n, room E n = true) ->
  Forall (fun c => keyed c = false /\ broken_ne c = false) cs ->
  exists s', session Array E cs s = Ok s' tt /\ forall p, imm E p = false -> cnt s' p = cnt s p.
Proof. exact array_session. Qed.
Print Assumptions C76_array_session.
(** Sorting with a key leaves one reference to None behind each time. *)
Theorem C76_array_session_keyed : forall E cs s, sane E s -> Forall (callable E s) cs -> plenty E -> Forall (fun c => broken_ne c = false) cs ->
  exists s' n, session Array E cs s = Ok s' tt /\ 0 <= n <= Z.of_nat (length (filter keyed cs)) /\
    forall p, imm E p = false -> cnt s' p = cnt s p + (if p =? none E then n else 0).
Proof. exact array_session_keyed. Qed.
Print Assumptions C76_array_session_keyed.
Theorem C76_sort_none_refuted : forall E k keys sorted s s' v, sane E s -> callable E s (KSortKey keys sorted) ->
  run k E (KSortKey keys sorted) s = Ok s' v -> imm E (none E) = false ->
  v = VObj (none E) /\ cnt s' (none E) = cnt s (none E) + (if all_keys (length (elems s)) keys then 2 else 1).
Proof. exact sort_none. Qed.
Print Assumptions C76_sort_none_refuted.

(** ** The linked list *)
(** Nothing that is in use is ever released; what is left behind are
    integers and None. *)
Theorem C76_linked_session : forall E cs s, sane E s -> Forall (callable E s) cs -> plenty E -> Forall (fun c => broken_ne c = false) cs ->
  exists s' lost, session Linked E cs s = Ok s' tt /\ adds E s s' lost /\
    Forall (fun o => o = none E \/ (exists z, small E z = Some o) \/ nxt s <= o < nxt s') lost.
Proof. exact linked_session. Qed.
Print Assumptions C76_linked_session.
(** Reading one item [n] times leaves [n] integer objects that live for ever. *)
Theorem C76_linked_get_refuted : forall E i z, (forall p, alloc E p = true) -> small E z = None ->
  forall n s, sane E s -> at_index (zlen (elems s)) i <> None ->
  nth_error (elems s) (Z.to_nat (if i <? 0 then zlen (elems s) + i else i)) = Some z ->
  exists s', session Linked E (repeat (KGet i) n) s = Ok s' tt /\ nxt s' = nxt s + Z.of_nat n /\
    forall p, cnt s' p = if (nxt s <=? p) && (p <? nxt s + Z.of_nat n) then 1 else cnt s p.
Proof. exact l_get_again. Qed.
Print Assumptions C76_linked_get_refuted.

(** ** Failing allocations *)
(** A constructor whose list cannot grow to hold all items loses the sequence. *)
Theorem C76_init_lost_refuted : forall E k q items n s, sane E s -> callable E s (KInitSeq q items) ->
  (forall o, In o items -> exists z, conv E o = inl z) -> 0 <= n < zlen items -> room E n = false ->
  exists s', run k E (KInitSeq q items) s = Er s' RuntimeError /\ adds E s s' [q].
Proof. exact init_seq_lost. Qed.
Print Assumptions C76_init_lost_refuted.

(** ** Examples *)
(** Objects: 1 None, 2 True, 3 False, 4 the list, 5 an argument; 10..29 the
    integers 1000..1019, 30 a string; 1000+z the small integer z. *)
Definition ex_env (imm312 : bool) (mem : Z -> bool) (rm : Z -> bool) : env :=
  {| conv := fun o => if (10 <=? o) && (o <? 30) then inl (o + 990) else if (995 <=? o) && (o <=? 1256) then inl (o - 1000) else inr TypeError;
     small := fun z => if imm312 then None else if (-5 <=? z) && (z <=? 256) then Some (1000 + z) else None;
     small_size := fun z => if (-5 <=? z) && (z <=? 256) then Some (1000 + z) else None;
     imm := fun o => imm312 && ((o <=? 3) || (995 <=? o) && (o <=? 1256)); alloc := mem; room := rm;
     none := 1; tru := 2; fls := 3; self := 4 |}.
Definition yes (_ : Z) := true.
Definition ex_cnt (p : Z) : Z := if (1 <=? p) && (p <=? 20) || (995 <=? p) && (p <=? 1256) then 7 else 0.
Definition ex_state : rst := {| elems := [1500; 3; 1501]; cnt := ex_cnt; nxt := 5000 |}.
Definition seen (r : rr value) : option (list Z) * list Z * list Z :=
  match r with
  | Ok s v => (Some (owned v), elems s, map (cnt s) [1; 2; 3; 4; 5; 10; 11; 25; 30; 1003; 5000; 5001; 5002; 5003])
  | Er s _ => (None, elems s, map (cnt s) [1; 2; 3; 4; 5; 10; 11; 25; 30; 1003; 5000; 5001; 5002; 5003])
  | _ => (None, [], [])
  end.
Definition it_ex (own : bool) (items : list Z) (fin : option exn) : iterable :=
  {| it_obj := 5; it_own := own; it_iter := None; it_items := items; it_end := fin |}.

Example ex_sane : sane (ex_env false yes yes) ex_state /\ sane (ex_env true yes yes) ex_state.
Proof.
  assert (N : forall p, 0 <= ex_cnt p) by (intros p; unfold ex_cnt; destruct ((1 <=? p) && (p <=? 20) || (995 <=? p) && (p <=? 1256)); discriminate).
  assert (H : forall p, 5000 <= p -> ex_cnt p = 0 /\ forall b, b && ((p <=? 3) || (995 <=? p) && (p <=? 1256)) = false).
  { intros p Hp. unfold ex_cnt. destruct (Z.leb_spec p 20); [exfalso; apply (Z.lt_irrefl 20); eapply Z.lt_le_trans; [|exact H]; eapply Z.lt_le_trans; [|exact Hp]; reflexivity|].
    destruct (Z.leb_spec p 1256) as [L|L]; [exfalso; apply (Z.lt_irrefl 1256); eapply Z.lt_le_trans; [|exact L]; eapply Z.lt_le_trans; [|exact Hp]; reflexivity|].
    destruct (Z.leb_spec p 3) as [L3|L3]; [exfalso; apply (Z.lt_irrefl 3); eapply Z.lt_le_trans; [|exact L3]; eapply Z.lt_le_trans; [|exact Hp]; reflexivity|].
    rewrite !andb_false_r. simpl. split; auto. intros b. apply andb_false_r. }
  assert (S : forall z o, (if (-5 <=? z) && (z <=? 256) then Some (1000 + z) else None) = Some o -> 0 < ex_cnt o).
  { intros z o Hz. destruct (Z.leb_spec (-5) z); [|discriminate]. destruct (Z.leb_spec z 256); [|discriminate]. assert (Ho : o = 1000 + z) by (cbn [andb] in Hz; congruence). clear Hz. subst o. unfold ex_cnt.
    replace (995 <=? 1000 + z) with true by (symmetry; apply Z.leb_le; apply (Zplus_le_compat_l (-5) z 1000); assumption).
    replace (1000 + z <=? 1256) with true by (symmetry; apply Z.leb_le; apply (Zplus_le_compat_l z 256 1000); assumption).
    destruct ((1 <=? 1000 + z) && (1000 + z <=? 20)); reflexivity. }
  assert (K : forall E, (forall p, imm E p = false -> 0 <= ex_cnt p) ->
     (forall p, 5000 <= p -> ex_cnt p = 0 /\ imm E p = false) -> none E = 1 -> tru E = 2 -> fls E = 3 -> self E = 4 ->
     (forall z o, small E z = Some o \/ small_size E z = Some o -> 0 < ex_cnt o) -> sane E ex_state).
  { intros E H1 H2 E1 E2 E3 E4 H3. unfold sane, lives. rewrite E1, E2, E3, E4. cbn [cnt ex_state nxt].
    split; [exact H1|]. split; [exact H2|]. do 4 (split; [right; reflexivity|]). intros z o Hz. right. eapply H3; eauto. }
  split; apply K; auto; try reflexivity.
  - intros p Hp. split; [apply H; auto | reflexivity].
  - intros z o [Hz|Hz]; eapply S; exact Hz.
  - intros p Hp. split; [apply H; auto | apply (proj2 (H p Hp) true)].
  - intros z o [Hz|Hz]; [discriminate | eapply S; exact Hz].
Qed.
Example ex_callable : Forall (callable (ex_env false yes yes) ex_state)
  [KExtend (inr (it_ex false [10; 25; 30; 11] None)); KInitSeq 5 [10; 11]; KAdd (Some [10; 10]); KEq true [Some 25; None];
   KSortKey [Some 11; Some 30; Some 11] (fun xs => rev xs); KSetSlice (mk_slice (Some 1) (Some 2) None) true [Some 10; Some 25; Some 11]].
Proof.
  repeat (apply Forall_cons || apply Forall_nil); split; cbn [borrowed handed somes it_items it_ex it_obj];
    repeat (apply Forall_cons || apply Forall_nil); try reflexivity; right; reflexivity.
Qed.
(** extend from an iterator that makes 25 and then yields a string: the array
    list and the linked list release everything. *)
Example C76_extend_ex :
  seen (run Array (ex_env false yes yes) (KExtend (inr (it_ex false [10; 25; 30; 11] None))) ex_state) =
    (None, [1500; 3; 1501; 1000; 1015], [7; 7; 7; 7; 7; 7; 7; 0; 0; 7; 0; 0; 0; 0]) /\
  seen (run Linked (ex_env false yes yes) (KExtend (inr (it_ex false [10; 25; 30; 11] None))) ex_state) =
    (None, [1500; 3; 1501; 1000; 1015; -1], [7; 7; 7; 7; 7; 7; 7; 0; 0; 7; 0; 0; 0; 0]) /\
  seen (run Linked (ex_env false yes yes) (KIAdd (inr (it_ex true [10; 25] None))) ex_state) =
    (Some [4], [1500; 3; 1501; 1000; 1015], [7; 7; 7; 8; 7; 7; 7; 0; 0; 7; 0; 0; 0; 0]) /\
  seen (run Array (ex_env true yes yes) (KIAdd (inl [8])) ex_state) = (Some [1], [1500; 3; 1501; 8], [7; 7; 7; 7; 7; 7; 7; 0; 0; 7; 0; 0; 0; 0]).
Proof. vm_compute. auto. Qed.
(** to_list: the list 5000 with the integers 5001, 1003 and 5002. *)
Example C76_to_list_ex :
  seen (run Array (ex_env false yes yes) KToList ex_state) = (Some [5000; 5001; 1003; 5002], [1500; 3; 1501], [7; 7; 7; 7; 7; 7; 7; 0; 0; 8; 1; 1; 1; 0]) /\
  seen (run Linked (ex_env false yes yes) KToList ex_state) = (Some [5000; 5001; 1003; 5002], [1500; 3; 1501], [7; 7; 7; 7; 7; 7; 7; 0; 0; 9; 1; 2; 2; 0]) /\
  seen (run Linked (ex_env true yes yes) KToList ex_state) = (Some [5000; 5001; 5002; 5003], [1500; 3; 1501], [7; 7; 7; 7; 7; 7; 7; 0; 0; 7; 1; 2; 2; 2]) /\
  (* memory runs out at the last integer *)
  seen (run Array (ex_env false (fun p => p <? 5002) yes) KToList ex_state) = (None, [1500; 3; 1501], [7; 7; 7; 7; 7; 7; 7; 0; 0; 7; 0; 0; 0; 0]) /\
  run Linked (ex_env false (fun p => p <? 5002) yes) KToList ex_state = Bad NullDeref.
Proof. vm_compute. auto 10. Qed.
Example C76_add_ex :
  seen (run Array (ex_env false yes yes) (KAdd (Some [10; 10])) ex_state) =
    (Some [5003; 5001; 1003; 5002; 10; 10], [1500; 3; 1501], [7; 7; 7; 7; 7; 9; 7; 0; 0; 8; 0; 1; 1; 1]) /\
  seen (run Linked (ex_env false yes yes) (KAdd (Some [10; 10])) ex_state) =
    (Some [5003; 5001; 1003; 5002; 10; 10], [1500; 3; 1501], [7; 7; 7; 7; 7; 9; 7; 0; 0; 9; 0; 2; 2; 1]) /\
  (* x + (1, 2): an error, and the integers stay *)
  seen (run Linked (ex_env false yes yes) (KAdd None) ex_state) = (None, [1500; 3; 1501], [7; 7; 7; 7; 7; 7; 7; 0; 0; 8; 0; 1; 1; 0]) /\
  seen (run Array (ex_env false yes yes) (KAdd None) ex_state) = (None, [1500; 3; 1501], [7; 7; 7; 7; 7; 7; 7; 0; 0; 7; 0; 0; 0; 0]).
Proof. vm_compute. auto. Qed.
Example C76_get_ex :
  seen (run Array (ex_env false yes yes) (KGet (-1)) ex_state) = (Some [5000], [1500; 3; 1501], [7; 7; 7; 7; 7; 7; 7; 0; 0; 7; 1; 0; 0; 0]) /\
  seen (run Linked (ex_env false yes yes) (KGet (-1)) ex_state) = (Some [5000], [1500; 3; 1501], [7; 7; 7; 7; 7; 7; 7; 0; 0; 7; 2; 0; 0; 0]) /\
  match session Linked (ex_env false yes yes) (repeat (KGet (-1)) 3) ex_state with
  | Ok s _ => map (cnt s) [5000; 5001; 5002; 5003] = [1; 1; 1; 0] | _ => False end /\
  match session Array (ex_env false yes yes) (repeat (KGet (-1)) 3) ex_state with
  | Ok s _ => map (cnt s) [5000; 5001; 5002; 5003] = [0; 0; 0; 0] | _ => False end.
Proof. vm_compute. auto. Qed.
Example C76_sort_ex :
  seen (run Array (ex_env false yes yes) (KSortKey [Some 11; Some 30; Some 11] (@rev Z)) ex_state) =
    (Some [1], [1501; 3; 1500], [9; 7; 7; 7; 7; 7; 7; 0; 0; 7; 0; 0; 0; 0]) /\
  (* the key function raises at the second element *)
  seen (run Linked (ex_env false yes yes) (KSortKey [Some 11; None; Some 11] (@rev Z)) ex_state) =
    (Some [1], [1500; 3; 1501], [8; 7; 7; 7; 7; 7; 7; 0; 0; 7; 0; 0; 0; 0]) /\
  run Array (ex_env false (fun _ => false) yes) (KSortKey [Some 11; Some 30; Some 11] (@rev Z)) ex_state = Bad NullDeref.
Proof. vm_compute. auto. Qed.
Example C76_slice_ex :
  seen (run Array (ex_env false yes yes) (KSetSlice (mk_slice (Some 1) (Some 2) None) true [Some 10; Some 25; Some 11]) ex_state) =
    (Some [], [1500; 1000; 1015; 1001; 1501], [7; 7; 7; 7; 7; 7; 7; 0; 0; 7; 0; 0; 0; 0]) /\
  seen (run Array (ex_env false yes yes) (KSetSlice (mk_slice (Some 1) (Some 2) None) true [Some 10; Some 30; Some 11]) ex_state) =
    (None, [1500; 1000; -1; 1501], [7; 7; 7; 7; 7; 7; 7; 0; 0; 7; 0; 0; 0; 0]) /\
  (* the list cannot grow *)
  seen (run Array (ex_env false yes (fun n => n <? 4)) (KSetSlice (mk_slice (Some 1) (Some 2) None) true [Some 10; Some 11; Some 25]) ex_state) =
    (None, [1500; 1000; 1001; 1501], [7; 7; 7; 7; 7; 7; 7; 0; 0; 7; 0; 0; 0; 0]) /\
  seen (run Linked (ex_env false yes (fun n => n <? 4)) (KSetSlice (mk_slice (Some 1) (Some 2) None) true [Some 10; Some 11; Some 25]) ex_state) =
    (None, [1500; 1000; 1001; 1501], [7; 7; 7; 7; 7; 7; 7; 1; 0; 7; 0; 0; 0; 0]).
Proof. vm_compute. auto. Qed.
Example C76_init_ex :
  seen (run Array (ex_env false yes yes) (KInitSeq 5 [10; 11]) ex_state) = (Some [], [1000; 1001], [7; 7; 7; 7; 7; 7; 7; 0; 0; 7; 0; 0; 0; 0]) /\
  seen (run Array (ex_env false yes yes) (KInitSeq 5 [10; 1; 11]) ex_state) = (None, [1000], [7; 7; 7; 7; 7; 7; 7; 0; 0; 7; 0; 0; 0; 0]) /\
  seen (run Array (ex_env false yes (fun n => n <? 1)) (KInitSeq 5 [10; 11]) ex_state) = (None, [1000], [7; 7; 7; 7; 8; 7; 7; 0; 0; 7; 0; 0; 0; 0]) /\
  (* iterator 5000, the iterable and the item *)
  seen (run Linked (ex_env false yes (fun n => n <? 1)) (KInitIter (it_ex false [10; 25] None)) ex_state) = (None, [1000], [7; 7; 7; 7; 8; 7; 7; 1; 0; 7; 1; 0; 0; 0]) /\
  seen (run Linked (ex_env false yes yes) (KInitIter (it_ex false [10; 30] None)) ex_state) = (None, [1000], [7; 7; 7; 7; 7; 7; 7; 0; 0; 7; 0; 0; 0; 0]).
Proof. vm_compute. auto 10. Qed.
Example C76_compare_ex :
  seen (run Array (ex_env false yes yes) (KEq true [Some 25; Some 1003; Some 11]) ex_state) = (Some [3], [1500; 3; 1501], [7; 7; 8; 7; 7; 7; 7; 0; 0; 7; 0; 0; 0; 0]) /\
  seen (run Linked (ex_env false yes yes) (KOrder Z.ltb true [Some 30; Some 10; Some 11]) ex_state) = (Some [3], [1500; 3; 1501], [7; 7; 8; 7; 7; 7; 7; 0; 0; 7; 0; 0; 0; 0]) /\
  seen (run Array (ex_env false yes yes) (KNe true [Some 25; Some 1003; Some 11]) ex_state) = (Some [2], [1500; 3; 1501], [7; 8; 7; 7; 7; 7; 7; 0; 0; 7; 0; 0; 0; 0]) /\
  run Array (ex_env false yes yes) (KNe true [None; Some 10; Some 11]) ex_state = Bad NullDeref /\
  seen (run Array (ex_env false yes yes) KIter ex_state) = (Some [5000; 4], [1500; 3; 1501], [7; 7; 7; 8; 7; 7; 7; 0; 0; 7; 1; 0; 0; 0]).
Proof. vm_compute. auto 10. Qed.
(** The results of whole calls: what [outcome_of] says about them. *)
Example C76_values_ex :
  tru (ex_env false yes yes) <> fls (ex_env false yes yes) /\ zlen (elems ex_state) <= SSIZE_MAX /\
  (forall s v, run Array (ex_env false yes yes) (KIndex 1003) ex_state = Ok s v -> v = VObj 1001 /\ elems s = [1500; 3; 1501]) /\
  (forall s v, run Linked (ex_env false yes yes) (KGetSlice (mk_slice (Some 1) None None)) ex_state = Ok s v -> v = VList 5000 [1003; 5001] /\ elems s = [1500; 3; 1501]) /\
  (forall s v, run Linked (ex_env false yes yes) (KGetSlice (mk_slice (Some 1) None (Some 0))) ex_state <> Ok s v) /\
  (match run Array (ex_env false yes yes) (KIndex 11) ex_state with Er s e => e = ValueError /\ elems s = [1500; 3; 1501] | _ => False end) /\
  (match run Array (ex_env false yes yes) (KInitIter (it_ex false [10; 25] (Some ValueError))) ex_state with Er s e => e = ValueError /\ elems s = [1000; 1015] | _ => False end).
Proof.
  split; [discriminate|]. split; [vm_compute; discriminate|]. split; [|split; [|split; [|vm_compute; auto]]].
  - intros s v H. vm_compute in H. inversion H. auto.
  - intros s v H. vm_compute in H. inversion H. auto.
  - intros s v H. vm_compute in H. discriminate.
Qed.
