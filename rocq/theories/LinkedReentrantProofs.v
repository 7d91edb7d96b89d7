(** Proofs for LinkedReentrantModel. *)
From Coq Require Import ZArith List Bool Arith Lia.
From Verif Require Import Base PyLongModel PyLongProofs PyListSpec ListLemmas ArrayListModel ArrayListProofs ArrayListSpec
  ArrayListFacts ArrayListMoreModel ArrayListCmpProofs ArrayListMoreProofs StdListModel StdListProofs LinkedListSpec
  LinkedListModel LinkedListProofs LinkedListFacts LinkedReentrantModel LinkedReentrantSpec.
Import ListNotations.
Local Open Scope Z_scope.
Local Arguments Z.mul : simpl never.
Local Arguments Z.add : simpl never.
Local Arguments Z.sub : simpl never.
Local Arguments Z.of_nat : simpl never.
Local Arguments Z.to_nat : simpl never.
Local Arguments Z.max : simpl never.
Local Arguments Z.min : simpl never.
Local Arguments Z.ltb : simpl never.
Local Arguments Z.leb : simpl never.
Local Arguments Z.eqb : simpl never.
Local Arguments Z.pow : simpl never.

Lemma next_lwith {A} (r : outcome A) l (g : A -> ll -> lres) : next (r, l) g = lwith r l (fun a => g a l).
Proof. reflexivity. Qed.
Lemma next_ret {A B} (a : A) l (f : A -> ll -> outcome B * ll) : next (Ret a, l) f = f a l.
Proof. reflexivity. Qed.
Lemma next_raise {A B} e l (f : A -> ll -> outcome B * ll) : next (Raise e, l) f = (Raise e, l).
Proof. reflexivity. Qed.

Lemma as_long_64 z : in_sbits 64 z -> as_long (PInt z) = Ret z.
Proof. intros H. cbn. apply in_sbits_b_spec in H. rewrite H. reflexivity. Qed.

Lemma lconv_at {B} (f : pyobj -> outcome B) o l r l1 : o l = (r, l1) -> lconv f o l = (obind r f, l1).
Proof. intros E. unfold lconv. rewrite E. reflexivity. Qed.

Lemma lsane_cases {A} (u : code A) l : lsane u -> proper l ->
  (exists a l1, u l = (Ret a, l1) /\ proper l1) \/ (exists e l1, u l = (Raise e, l1) /\ proper l1).
Proof.
  intros [R P] H. specialize (P l H). destruct (R l) as [[a E]|[e E]]; destruct (u l) as [r l1]; cbn [fst snd] in *; subst r.
  - left. eauto.
  - right. eauto.
Qed.

(** Result, contents and node structure as Python's [p]. *)
Definition lmatches (cfg : config) (r : lres) (p : sres * list Z) : Prop := sim r (expected cfg KInt (fst p), snd p).

Lemma lraise_matches cfg e l : proper l -> lmatches cfg (Raise e, l) (SRaise e, vals l).
Proof. intros [W _]. split; [reflexivity|]. split; [reflexivity|exact W]. Qed.

Lemma op_matches cfg o l : proper l -> lcall_ok (vals l) (LCall o) -> lmatches cfg (lstep cfg o l) (py_step o (vals l)).
Proof. intros (W & F & L) H. apply lstep_sim; assumption. Qed.

Lemma lone_arg cfg c o l : larguments c = [Some o] -> largs_sane c -> proper l ->
  (exists z l1, o l = (Ret (PInt z), l1) /\ proper l1 /\
     latomic c l = match lpython_call c [Some z] with Some p => py_step p (vals l1) | None => (SRaise TypeError, vals l1) end) \/
  (exists e l1, (forall B (f : pyobj -> outcome B), (forall x, f (PObj x) = Raise TypeError) -> lconv f o l = (Raise e, l1)) /\
     lmatches cfg (Raise e, l1) (latomic c l)).
Proof.
  intros E S P. assert (So : lsane o) by (apply S; rewrite E; left; reflexivity).
  destruct (lsane_cases o l So P) as [(a & l1 & A & P1)|(e & l1 & A & P1)].
  - destruct a as [z|x].
    + left. exists z, l1. split; [exact A|]. split; [exact P1|]. unfold latomic. rewrite E. cbn [levaluate]. rewrite A. reflexivity.
    + right. exists TypeError, l1. split.
      * intros B f Hf. rewrite (lconv_at f o l _ _ A). cbn [obind]. rewrite Hf. reflexivity.
      * unfold latomic. rewrite E. cbn [levaluate]. rewrite A. apply lraise_matches. exact P1.
  - right. exists e, l1. split.
    + intros B f Hf. rewrite (lconv_at f o l _ _ A). reflexivity.
    + unfold latomic. rewrite E. cbn [levaluate]. rewrite A. apply lraise_matches. exact P1.
Qed.

Lemma call_ok_op s o : match o with OResize _ | OPop (Some _) => False | _ => True end -> op_ok KInt s o -> lcall_ok s (LCall o).
Proof. intros A B. split; [|exact B]. unfold linked. exact A. Qed.

Lemma append_at cfg o l : proper l -> largs_sane (MAppend o) -> largs_fit (MAppend o) ->
  lmatches cfg (lappend_u o l) (latomic (MAppend o) l).
Proof.
  intros P S F. destruct (lone_arg cfg (MAppend o) o l eq_refl S P) as [(z & l1 & A & P1 & ->)|(e & l1 & C & M)].
  - destruct (F l) as (z' & E & R). rewrite A in E. injection E as <-. cbn [lpython_call].
    assert (X : lappend_u o l = lstep cfg (OAppend z) l1).
    { cbn [lstep]. unfold lappend_u, lappend, lconv_err. rewrite (lconv_at as_long o l _ _ A). cbn [obind fst snd].
      unfold conv_pending. destruct (as_long (PInt z)); reflexivity. }
    rewrite X. apply op_matches; [exact P1|]. apply call_ok_op; [exact I|exact R].
  - exfalso. destruct (F l) as (z & E & R). specialize (C Z as_long (fun _ => eq_refl)). unfold lconv in C. rewrite E in C. cbn [obind] in C.
    assert (R64 : in_sbits 64 z) by (apply (in_range_64 KInt); exact R).
    rewrite as_long_64 in C by exact R64. discriminate.
Qed.

Lemma count_at cfg o l : proper l -> largs_sane (MCount o) -> largs_fit (MCount o) ->
  lmatches cfg (lcount_u o l) (latomic (MCount o) l).
Proof.
  intros P S F. destruct (lone_arg cfg (MCount o) o l eq_refl S P) as [(z & l1 & A & P1 & ->)|(e & l1 & C & M)].
  - cbn [lpython_call].
    assert (X : lcount_u o l = lstep cfg (OCount z) l1).
    { cbn [lstep]. unfold lcount_u, lcount. rewrite (lconv_at _ o l _ _ A). reflexivity. }
    rewrite X. apply op_matches; [exact P1|]. apply call_ok_op; [exact I|exact (F _ _ _ A)].
  - unfold lcount_u. rewrite C by reflexivity. exact M.
Qed.

Lemma remove_at cfg o l : proper l -> largs_sane (MRemove o) -> largs_fit (MRemove o) ->
  lmatches cfg (lremove_u o l) (latomic (MRemove o) l).
Proof.
  intros P S F. destruct (lone_arg cfg (MRemove o) o l eq_refl S P) as [(z & l1 & A & P1 & ->)|(e & l1 & C & M)].
  - cbn [lpython_call].
    assert (X : lremove_u o l = lstep cfg (ORemove z) l1).
    { cbn [lstep]. unfold lremove_u, lremove. rewrite (lconv_at _ o l _ _ A). reflexivity. }
    rewrite X. apply op_matches; [exact P1|]. apply call_ok_op; [exact I|exact (F _ _ _ A)].
  - unfold lremove_u. rewrite C by reflexivity. exact M.
Qed.

Lemma get_at cfg o l : proper l -> largs_sane (MGet o) -> lmatches cfg (lsubscript_u cfg o l) (latomic (MGet o) l).
Proof.
  intros P S. destruct (lone_arg cfg (MGet o) o l eq_refl S P) as [(z & l1 & A & P1 & ->)|(e & l1 & C & M)].
  - cbn [lpython_call].
    assert (X : lsubscript_u cfg o l = lstep cfg (OGet z) l1).
    { cbn [lstep]. unfold lsubscript_u, lsubscript. rewrite (lconv_at _ o l _ _ A). reflexivity. }
    rewrite X. apply op_matches; [exact P1|]. apply call_ok_op; exact I.
  - unfold lsubscript_u. rewrite C by reflexivity. exact M.
Qed.

Lemma del_at cfg o l : proper l -> largs_sane (MDel o) -> lmatches cfg (lass_subscript_u o None l) (latomic (MDel o) l).
Proof.
  intros P S. destruct (lone_arg cfg (MDel o) o l eq_refl S P) as [(z & l1 & A & P1 & ->)|(e & l1 & C & M)].
  - cbn [lpython_call].
    assert (X : lass_subscript_u o None l = lstep cfg (ODel z) l1).
    { cbn [lstep]. unfold lass_subscript_u, lass_subscript. rewrite (lconv_at _ o l _ _ A). reflexivity. }
    rewrite X. apply op_matches; [exact P1|]. apply call_ok_op; exact I.
  - unfold lass_subscript_u. rewrite C by reflexivity. exact M.
Qed.

Lemma insert_at cfg oi ov l : proper l -> largs_sane (MInsert oi ov) -> largs_fit (MInsert oi ov) ->
  lmatches cfg (linsert_u oi ov l) (latomic (MInsert oi ov) l).
Proof.
  intros P S [Fi Fv].
  assert (Si : lsane oi) by (apply S; left; reflexivity).
  assert (Sv : lsane ov) by (apply S; right; left; reflexivity).
  unfold linsert_u, latomic. cbn [larguments levaluate].
  destruct (lsane_cases oi l Si P) as [(a & l1 & A & P1)|(e & l1 & A & P1)]; rewrite (lconv_at _ oi l _ _ A), A;
    [|apply lraise_matches; exact P1].
  destruct a as [i|x]; [|apply lraise_matches; exact P1]. cbn [obind]. unfold parse_n. rewrite as_long_64 by (exact (Fi _ _ _ A)).
  rewrite next_ret.
  destruct (lsane_cases ov l1 Sv P1) as [(b & l2 & B & P2)|(e & l2 & B & P2)]; rewrite (lconv_at _ ov l1 _ _ B), B;
    [|apply lraise_matches; exact P2].
  destruct b as [v|x]; [|apply lraise_matches; exact P2]. cbn [obind lpython_call].
  match goal with |- lmatches _ ?r _ => assert (X : r = lstep cfg (OInsert i v) l2) end.
  { cbn [lstep]. unfold linsert. unfold parse_n. rewrite as_long_64 by (exact (Fi _ _ _ A)). reflexivity. }
  rewrite X. apply op_matches; [exact P2|]. apply call_ok_op; [exact I|exact (Fv _ _ _ B)].
Qed.

Lemma lconv_opt_sane f d (o : option iobj) l : (match o with None => True | Some u => lsane u end) -> proper l ->
  (forall x, f (PObj x) = Raise TypeError) ->
  (o = None /\ lconv_opt f d o l = (Ret d, l)) \/
  (exists (u : iobj) z l1, o = Some u /\ u l = (Ret (PInt z), l1) /\ lconv_opt f d o l = (f (PInt z), l1) /\ proper l1) \/
  (exists (u : iobj) e l1, o = Some u /\ proper l1 /\ lconv_opt f d o l = (Raise e, l1) /\
     forall r, levaluate (Some u :: r) l = (inr e, l1)).
Proof.
  intros S O Hf. destruct o as [u|]; [|left; split; reflexivity]. right.
  unfold lconv_opt. destruct (lsane_cases u l S O) as [(a & l1 & A & O1)|(e & l1 & A & O1)]; rewrite (lconv_at _ u l _ _ A).
  - destruct a as [z|x].
    + left. exists u, z, l1. auto.
    + right. exists u, TypeError, l1. cbn [levaluate]. rewrite A. cbn [obind]. rewrite Hf. auto.
  - right. exists u, e, l1. cbn [levaluate]. rewrite A. cbn. auto.
Qed.

(** index: Python's with the omitted stop replaced by the size the list had
    when the call started. *)
Lemma index_at_old cfg o oa ob l : proper l -> largs_sane (MIndex o oa ob) -> largs_fit (MIndex o oa ob) ->
  match levaluate [Some o; oa; ob] l with
  | (inr e, l') => lindex_u o oa ob l = (Raise e, l') /\ proper l'
  | (inl zs, l') => exists v a b, zs = [Some v; a; b] /\ proper l' /\
      lmatches cfg (lindex_u o oa ob l)
        (py_step (OIndex v a (Some (match b with None => zlen (vals l) | Some b => b end))) (vals l'))
  end.
Proof.
  intros P S (Fv & Fa & Fb).
  assert (Sv : lsane o) by (apply S; left; reflexivity).
  assert (Sa : match oa with None => True | Some u => lsane u end)
    by (destruct oa; [apply S; right; left; reflexivity|exact I]).
  assert (Sb : match ob with None => True | Some u => lsane u end)
    by (destruct ob; [apply S; right; right; left; reflexivity|exact I]).
  assert (L0 : in_sbits 64 (lsize l)).
  { rewrite lsize_vals. destruct P as (_ & _ & L). pose proof (zlen_nonneg (vals l)). destruct ssize_consts as [EA _]. rewrite EA in L.
    unfold in_sbits. change (2 ^ (64 - 1)) with 9223372036854775808. lia. }
  unfold lindex_u. rewrite <- lsize_vals. set (stop0 := lsize l) in *.
  replace (levaluate [Some o; oa; ob] l) with
    (match o l with
     | (Ret (PInt z), l1) =>
          match levaluate [oa; ob] l1 with
          | (inl zs, l') => (inl (Some z :: zs), l')
          | (inr e, l') => (inr e, l')
          end
      | (Raise e, l1) => (inr e, l1)
      | (_, l1) => (inr TypeError, l1)
      end : (list (option Z) + exn) * ll) by reflexivity.
  destruct (lsane_cases o l Sv P) as [(a & l1 & A & P1)|(e & l1 & A & P1)]; rewrite (lconv_at _ o l _ _ A), A;
    [|split; [reflexivity|exact P1]].
  destruct a as [v|x]; [|split; [reflexivity|exact P1]]. cbn [obind]. pose proof (Fv _ _ _ A) as Rv.
  rewrite (parse_elem_ok KInt) by exact Rv. rewrite next_ret.
  assert (Pn : forall x, parse_n (PObj x) = Raise TypeError) by reflexivity.
  assert (Tail : forall (oa' ob' : option Z) (a b : Z) l3, proper l3 ->
    (forall z, oa' = Some z -> in_sbits 64 z) -> (forall z, ob' = Some z -> in_sbits 64 z) ->
    a = match oa' with None => 0 | Some x => x end ->
    b = match ob' with None => stop0 | Some x => x end ->
    lmatches cfg
    (let size_ := lsize l3 in
    let start := if a <? 0 then a + size_ else a in
    let stop := if b <? 0 then b + size_ else b in
    let start := if start <? 0 then 0 else start in
    let stop := if size_ <? stop then size_ else stop in
    if stop <? start then (Raise ValueError, l3)
    else lwith (at_ (lst l3) (Z.to_nat stop)) l3 (fun stopIter =>
         lwith (at_ (lst l3) (Z.to_nat start)) l3 (fun startIter =>
         lwith (std_find_it (lst l3) (fun x => x =? v) (size (lst l3)) startIter stopIter) l3 (fun it =>
         if it_eqb it stopIter then (Raise ValueError, l3)
         else lwith (std_distance (lst l3) (size (lst l3)) (begin_ (lst l3)) it) l3 (fun d => (Ret (VInt d), l3))))))
    (py_step (OIndex v oa' (Some (match ob' with None => stop0 | Some x => x end))) (vals l3))).
  { intros oa' ob' a b l3 P3 Ha Hb Ea Eb. rewrite <- Eb.
    assert (Rb : in_sbits 64 b) by (rewrite Eb; destruct ob' as [x|]; [apply Hb; reflexivity|exact L0]).
    match goal with |- lmatches _ ?r _ => assert (X : r = lstep cfg (OIndex v oa' (Some b)) l3) end.
    { cbn [lstep option_map]. unfold lindex. rewrite (parse_elem_ok KInt) by exact Rv. cbn [lwith].
      assert (EA : match option_map PInt oa' with None => Ret 0 | Some x => parse_n x end = Ret a).
      { rewrite Ea. destruct oa' as [x|]; cbn [option_map]; [|reflexivity]. unfold parse_n. rewrite as_long_64 by (apply Ha; reflexivity). reflexivity. }
      rewrite EA. cbn [lwith]. unfold parse_n. rewrite as_long_64 by exact Rb. reflexivity. }
    rewrite X. apply op_matches; [exact P3|]. apply call_ok_op; [exact I|]. split; [exact Rv|]. split.
    - destruct oa' as [x|]; [|exact I]. cbn. unfold in_ssize. apply in_sbits_b_spec. apply Ha. reflexivity.
    - cbn. unfold in_ssize. apply in_sbits_b_spec. exact Rb. }
  destruct (lconv_opt_sane parse_n 0 oa l1 Sa P1 Pn) as [[-> ->]|[(u & za & l2 & -> & A2 & -> & P2)|(u & e & l2 & -> & P2 & -> & Ev)]].
  - rewrite next_ret. cbn [levaluate].
    destruct (lconv_opt_sane parse_n stop0 ob l1 Sb P1 Pn) as [[-> ->]|[(u & zb & l3 & -> & A3 & -> & P3)|(u & e & l3 & -> & P3 & -> & Ev)]].
    + rewrite next_ret. exists v, None, None. split; [reflexivity|]. split; [exact P1|].
      apply (Tail None None 0 stop0 l1 P1); try reflexivity; discriminate.
    + pose proof (Fb _ _ _ A3) as Rb. cbv beta in Rb. rewrite A3. unfold parse_n. rewrite as_long_64 by exact Rb.
      rewrite next_ret. exists v, None, (Some zb). split; [reflexivity|]. split; [exact P3|].
      apply (Tail None (Some zb) 0 zb l3 P3); try reflexivity; [discriminate|]. intros z E. inversion E; subst; exact Rb.
    + rewrite next_raise. specialize (Ev []). cbn [levaluate] in Ev. rewrite Ev. split; [reflexivity|exact P3].
  - pose proof (Fa _ _ _ A2) as Ra. cbv beta in Ra. change (parse_n (PInt za)) with (as_long (PInt za)). rewrite as_long_64 by exact Ra.
    rewrite !next_ret. cbn [levaluate]. rewrite A2.
    assert (Hs : forall z, Some za = Some z -> in_sbits 64 z) by (intros z E; injection E as <-; exact Ra).
    destruct (lconv_opt_sane parse_n stop0 ob l2 Sb P2 Pn) as [[-> ->]|[(u' & zb & l3 & -> & A3 & -> & P3)|(u' & e & l3 & -> & P3 & -> & Ev)]].
    + rewrite next_ret. exists v, (Some za), None. split; [reflexivity|]. split; [exact P2|].
      apply (Tail (Some za) None za stop0 l2 P2); try reflexivity; [exact Hs|discriminate].
    + pose proof (Fb _ _ _ A3) as Rb. cbv beta in Rb. rewrite A3. unfold parse_n. rewrite as_long_64 by exact Rb.
      rewrite next_ret. exists v, (Some za), (Some zb). split; [reflexivity|]. split; [exact P3|].
      apply (Tail (Some za) (Some zb) za zb l3 P3); try reflexivity; [exact Hs|]. intros z E. inversion E; subst; exact Rb.
    + rewrite next_raise. specialize (Ev []). cbn [levaluate] in Ev. rewrite Ev. split; [reflexivity|exact P3].
  - rewrite next_raise. specialize (Ev [ob]). rewrite Ev. split; [reflexivity|exact P2].
Qed.

Lemma index_at cfg o oa ob l : proper l -> largs_sane (MIndex o oa ob) -> largs_fit (MIndex o oa ob) ->
  ob <> None -> lmatches cfg (lindex_u o oa ob l) (latomic (MIndex o oa ob) l).
Proof.
  intros P S F N. pose proof (index_at_old cfg o oa ob l P S F) as H. unfold latomic. cbn [larguments].
  destruct ob as [u|]; [|congruence]. clear N.
  destruct (levaluate [Some o; oa; Some u] l) as [[zs|e] l'] eqn:E.
  - destruct H as (v & a & b & -> & P' & M). cbn [lpython_call].
    assert (Hb : b <> None).
    { clear - E. cbn [levaluate] in E. destruct (o l) as [[[z|x]| | |] l1]; try discriminate.
      destruct oa as [ua|].
      - destruct (ua l1) as [[[za|x]| | |] l2]; try discriminate.
        destruct (u l2) as [[[zb|x]| | |] l3]; try discriminate. inversion E; subst. discriminate.
      - destruct (u l1) as [[[zb|x]| | |] l3]; try discriminate. inversion E; subst. discriminate. }
    destruct b as [b|]; [|congruence]. exact M.
  - destruct H as [-> P']. apply lraise_matches. exact P'.
Qed.

(** Unpacking a slice. *)
Lemma lunpack_eval sl l : proper l -> largs_sane (MGetSlice sl) -> largs_fit (MGetSlice sl) ->
  match levaluate [ls_step sl; ls_start sl; ls_stop sl] l with
  | (inr e, l') => lunpack_u sl l = (Raise e, l') /\ proper l'
  | (inl zs, l') => exists c a b, zs = [c; a; b] /\ proper l' /\
      lunpack_u sl l = (PySlice_Unpack {| sl_start := a; sl_stop := b; sl_step := c |}, l') /\
      step_of {| sl_start := a; sl_stop := b; sl_step := c |} <> 0
  end.
Proof.
  intros O Sa Ft. destruct sl as [st sp se]. cbn [largs_fit ls_step ls_start ls_stop] in *.
  assert (S1 : match se with None => True | Some u => lsane u end)
    by (destruct se; [apply Sa; left; reflexivity|exact I]).
  assert (S2 : match st with None => True | Some u => lsane u end)
    by (destruct st; [apply Sa; right; left; reflexivity|exact I]).
  assert (S3 : match sp with None => True | Some u => lsane u end)
    by (destruct sp; [apply Sa; right; right; left; reflexivity|exact I]).
  clear Sa. unfold lunpack_u. cbn [ls_step ls_start ls_stop].
  assert (Pn : forall x, slice_ix (PObj x) = Raise TypeError) by reflexivity.
  assert (Rest : forall step0 l1, proper l1 -> step0 <> 0 ->
    match levaluate [st; sp] l1 with
    | (inr e, l') => proper l' /\
       next (lconv_opt slice_ix (if (if step0 <? - SSIZE_MAX then - SSIZE_MAX else step0) <? 0 then SSIZE_MAX else 0) st l1) (fun start l =>
       next (lconv_opt slice_ix (if (if step0 <? - SSIZE_MAX then - SSIZE_MAX else step0) <? 0 then SSIZE_MIN else SSIZE_MAX) sp l) (fun stop l =>
       (Ret (start, stop, if step0 <? - SSIZE_MAX then - SSIZE_MAX else step0), l))) = (Raise e, l')
    | (inl zs, l') => exists a b, zs = [a; b] /\ proper l' /\
       next (lconv_opt slice_ix (if (if step0 <? - SSIZE_MAX then - SSIZE_MAX else step0) <? 0 then SSIZE_MAX else 0) st l1) (fun start l =>
       next (lconv_opt slice_ix (if (if step0 <? - SSIZE_MAX then - SSIZE_MAX else step0) <? 0 then SSIZE_MIN else SSIZE_MAX) sp l) (fun stop l =>
       (Ret (start, stop, if step0 <? - SSIZE_MAX then - SSIZE_MAX else step0), l)))
       = (Ret (match a with None => if (if step0 <? - SSIZE_MAX then - SSIZE_MAX else step0) <? 0 then SSIZE_MAX else 0 | Some z => clip z end,
               match b with None => if (if step0 <? - SSIZE_MAX then - SSIZE_MAX else step0) <? 0 then SSIZE_MIN else SSIZE_MAX | Some z => clip z end,
               if step0 <? - SSIZE_MAX then - SSIZE_MAX else step0), l')
    end).
  { intros step0 l1 O1 Hs. set (st1 := if step0 <? - SSIZE_MAX then - SSIZE_MAX else step0). clearbody st1.
    destruct (lconv_opt_sane slice_ix (if st1 <? 0 then SSIZE_MAX else 0) st l1 S2 O1 Pn) as
      [[-> ->]|[(u & za & l2 & -> & A2 & -> & O2)|(u & e & l2 & -> & O2 & -> & Ev)]].
    - rewrite !next_ret.
      destruct (lconv_opt_sane slice_ix (if st1 <? 0 then SSIZE_MIN else SSIZE_MAX) sp l1 S3 O1 Pn) as
        [[-> ->]|[(u' & zb & l3 & -> & A3 & -> & O3)|(u' & e & l3 & -> & O3 & -> & Ev)]]; cbn [levaluate].
      + exists None, None. split; [reflexivity|]. split; [exact O1|reflexivity].
      + rewrite A3. exists None, (Some zb). split; [reflexivity|]. split; [exact O3|reflexivity].
      + specialize (Ev []). cbn [levaluate] in Ev. rewrite Ev. split; [exact O3|reflexivity].
    - cbn [levaluate]. rewrite A2. change (slice_ix (PInt za)) with (Ret (clip za)). rewrite !next_ret.
      destruct (lconv_opt_sane slice_ix (if st1 <? 0 then SSIZE_MIN else SSIZE_MAX) sp l2 S3 O2 Pn) as
        [[-> ->]|[(u' & zb & l3 & -> & A3 & -> & O3)|(u' & e & l3 & -> & O3 & -> & Ev)]]; cbn [levaluate].
      + exists (Some za), None. split; [reflexivity|]. split; [exact O2|reflexivity].
      + rewrite A3. exists (Some za), (Some zb). split; [reflexivity|]. split; [exact O3|reflexivity].
      + specialize (Ev []). cbn [levaluate] in Ev. rewrite Ev. split; [exact O3|reflexivity].
    - rewrite Ev. split; [exact O2|reflexivity]. }
  assert (CZ : forall z, z <> 0 -> clip z <> 0).
  { intros z Hz. destruct (clip_cases z) as [[? ->]|[[? ->]|[? ->]]]; try assumption; destruct ssize_consts; lia. }
  destruct (lconv_opt_sane slice_ix 1 se l S1 O Pn) as
    [[-> ->]|[(u & zs & l2 & -> & A2 & -> & O2)|(u & e & l2 & -> & O2 & -> & Ev)]].
  - rewrite !next_ret. change (1 =? 0) with false. cbv iota.
    specialize (Rest 1 l O ltac:(lia)).
    replace (levaluate [None; st; sp] l) with
      (match levaluate [st; sp] l with (inl zs, s') => (inl (None :: zs), s') | (inr e, s') => (inr e, s') end
       : (list (option Z) + exn) * ll) by reflexivity.
    destruct (levaluate [st; sp] l) as [[zs|e] l']; [|destruct Rest; split; assumption].
    destruct Rest as (a & b & -> & O' & R). exists None, a, b. split; [reflexivity|]. split; [exact O'|].
    split; [exact R|]. cbn. lia.
  - pose proof (Ft _ _ _ A2) as Nz. cbv beta in Nz. change (slice_ix (PInt zs)) with (Ret (clip zs)). rewrite !next_ret.
    destruct (Z.eqb_spec (clip zs) 0) as [E|_]; [exfalso; exact (CZ zs Nz E)|].
    specialize (Rest (clip zs) l2 O2 (CZ zs Nz)).
    replace (levaluate [Some u; st; sp] l) with
      (match levaluate [st; sp] l2 with (inl r, s') => (inl (Some zs :: r), s') | (inr e, s') => (inr e, s') end
       : (list (option Z) + exn) * ll) by (cbn [levaluate]; rewrite A2; reflexivity).
    destruct (levaluate [st; sp] l2) as [[r|e] l']; [|destruct Rest; split; assumption].
    destruct Rest as (a & b & -> & O' & R). exists (Some zs), a, b. split; [reflexivity|]. split; [exact O'|].
    split; [|exact Nz]. unfold PySlice_Unpack. cbn [sl_step sl_start sl_stop].
    destruct (Z.eqb_spec (clip zs) 0) as [E|_]; [exfalso; exact (CZ zs Nz E)|]. exact R.
  - rewrite Ev. split; [reflexivity|exact O2].
Qed.

Lemma getslice_at cfg sl l : proper l -> largs_sane (MGetSlice sl) -> largs_fit (MGetSlice sl) ->
  lmatches cfg (lgetitem_slice_u cfg sl l) (latomic (MGetSlice sl) l).
Proof.
  intros O S F. pose proof (lunpack_eval sl l O S F) as H. unfold latomic, lgetitem_slice_u. cbn [larguments].
  destruct (levaluate [ls_step sl; ls_start sl; ls_stop sl] l) as [[zs|e] l'].
  - destruct H as (c & a & b & -> & O' & -> & Nz). cbn [lpython_call].
    match goal with |- lmatches _ ?r _ =>
      assert (X : r = lstep cfg (OGetSlice {| sl_start := a; sl_stop := b; sl_step := c |}) l') end.
    { cbn [lstep]. unfold lgetitem_slice. destruct (PySlice_Unpack _) as [[[x y] z]| | |]; reflexivity. }
    rewrite X. apply op_matches; [exact O'|]. apply call_ok_op; exact I.
  - destruct H as [-> P']. apply lraise_matches. exact P'.
Qed.

Theorem latomic_ok cfg c l : proper l -> largs_sane c -> largs_fit c -> lsize_read_last c ->
  lmatches cfg (mstep cfg c l) (latomic c l).
Proof.
  intros P S F R. destruct c; cbn [mstep lsize_read_last] in *; try contradiction.
  - apply append_at; assumption.
  - apply insert_at; assumption.
  - apply index_at; assumption.
  - apply count_at; assumption.
  - apply remove_at; assumption.
  - apply get_at; assumption.
  - apply del_at; assumption.
  - apply getslice_at; assumption.
Qed.

(** ** Unchecked conversions *)
Lemma lconv_err_int o l z l' : o l = (Ret (PInt z), l') -> in_sbits 64 z -> lconv_err o l = ((wrap 32 z, None), l').
Proof.
  intros E R. unfold lconv_err. rewrite (lconv_at _ o l _ _ E). cbn [obind fst snd]. rewrite as_long_64 by exact R. reflexivity.
Qed.
Lemma lconv_err_bad o l e l' : unconverted o l e l' -> lconv_err o l = ((-1, Some e), l').
Proof.
  unfold lconv_err. intros [E|[[-> (x & E)]|[-> (z & E & N)]]]; rewrite (lconv_at _ o l _ _ E); cbn [obind fst snd]; try reflexivity.
  cbn [as_long]. destruct (in_sbits_b 64 z) eqn:B; [apply in_sbits_b_spec in B; contradiction|]. reflexivity.
Qed.
Lemma lconv_err_snd o l : snd (lconv_err o l) = snd (o l).
Proof. reflexivity. Qed.
(** A returning conversion either fails or yields a 64-bit integer. *)
Lemma conv_cases o l : lreturns o -> (exists z l', o l = (Ret (PInt z), l') /\ in_sbits 64 z) \/ (exists e l', unconverted o l e l').
Proof.
  intros R. destruct (o l) as [r l'] eqn:E. destruct (R l) as [[a A]|[e A]]; rewrite E in A; cbn [fst] in A; subst r.
  - destruct a as [z|x].
    + destruct (in_sbits_b 64 z) eqn:B.
      * left. exists z, l'. split; [reflexivity|]. apply in_sbits_b_spec. exact B.
      * right. exists OverflowError, l'. right. right. split; [reflexivity|]. exists z. split; [exact E|].
        intros H. apply in_sbits_b_spec in H. congruence.
    + right. exists TypeError, l'. right. left. split; [reflexivity|]. exists x. exact E.
  - right. exists e, l'. left. exact E.
Qed.

Lemma append_bad cfg o l e l1 : unconverted o l e l1 -> lwf l1 ->
  exists l2, mstep cfg (MAppend o) l = (RetPending VNone e, l2) /\ vals l2 = vals l1 ++ [-1] /\ lwf l2.
Proof.
  intros U W. cbn [mstep]. unfold lappend_u. rewrite (lconv_err_bad o l e l1 U). cbn [ret_with].
  destruct (push_back_ok (lst l1) (-1) W) as (W' & V' & _). eexists. split; [reflexivity|]. split; [exact V'|exact W'].
Qed.

(** ** pop and item assignment *)
Lemma not_in_erased l p i : wf l -> (p < size l)%nat -> itpos l p = Some i ->
  exists l' : slist Z, erase l (Some i) = Ret l' /\ ~ In i (ids l').
Proof.
  intros W H E. destruct (erase_pos l p W H) as (l' & A & _ & _ & _ & _ & N). rewrite E in A. exists l'. split; [exact A|].
  apply N. exact E.
Qed.

Lemma pop_exact_l cfg o l i l1 : lwf l1 -> vals l <> [] -> o l = (Ret (PInt i), l1) -> in_sbits 64 i ->
  let p := rel (zlen (vals l)) i in
  fst (mstep cfg (MPop o) l) =
  if (0 <=? p) && (p <? zlen (vals l)) then Undef (if p <? zlen (vals l1) then UseAfterFree else IterBeforeBegin)
  else Raise IndexError.
Proof.
  intros W N E R p. cbn [mstep]. unfold lpop_u. destruct (nodes (lst l)) as [|n0 ns] eqn:Nd; [exfalso; apply N; apply nodes_vals; exact Nd|].
  rewrite (lconv_at _ o l _ _ E). cbn [obind]. rewrite as_long_64 by exact R. rewrite next_ret. rewrite lsize_vals.
  fold (rel (zlen (vals l)) i). fold p. cbv zeta. rewrite idx_test.
  destruct ((0 <=? p) && (p <? zlen (vals l))) eqn:B; cbn [negb]; [|reflexivity]. apply rel_bounds_dec in B.
  rewrite at_pos by exact W. cbn [lwith].
  destruct (Z.ltb_spec p (zlen (vals l1))) as [L|L].
  - assert (Hp : (Z.to_nat p < size (lst l1))%nat) by (rewrite size_vals; unfold zlen in L; lia).
    destruct (itpos_some (lst l1) _ Hp) as (j & J). rewrite J.
    destruct (not_in_erased _ _ _ W Hp J) as (s' & A & NI). rewrite A. cbn [lwith]. rewrite (deref_gone s' j NI). reflexivity.
  - rewrite itpos_end by (rewrite size_vals; unfold zlen in L; lia). reflexivity.
Qed.

Lemma set_store l2 p v (x : outcome val) : lwf l2 -> 0 <= p < zlen (vals l2) ->
  exists l3, lwith (at_ (lst l2) (Z.to_nat p)) l2 (fun it => lwith (assign (lst l2) it v) l2 (fun s => (x, put l2 s))) = (x, l3) /\
    vals l3 = firstn (Z.to_nat p) (vals l2) ++ v :: skipn (S (Z.to_nat p)) (vals l2) /\ lwf l3 /\ ids (lst l3) = ids (lst l2).
Proof.
  intros W H. rewrite at_pos by exact W. cbn [lwith].
  destruct (assign_pos (lst l2) (Z.to_nat p) v W) as (s' & A & W' & I' & V' & _); [rewrite size_vals; unfold zlen in H; lia|].
  rewrite A. cbn [lwith]. eexists. split; [reflexivity|]. split; [exact V'|]. split; [exact W'|exact I'].
Qed.
Lemma set_store_out l2 p v (x : outcome val) : lwf l2 -> zlen (vals l2) <= p ->
  lwith (at_ (lst l2) (Z.to_nat p)) l2 (fun it => lwith (assign (lst l2) it v) l2 (fun s => (x, put l2 s))) = (Undef IterBeforeBegin, l2).
Proof.
  intros W H. rewrite at_pos by exact W. cbn [lwith]. rewrite itpos_end by (rewrite size_vals; unfold zlen in H; lia). reflexivity.
Qed.

Lemma set_exact_l cfg oi ov l i l1 v l2 : lwf l2 -> oi l = (Ret (PInt i), l1) -> in_sbits 64 i ->
  ov l1 = (Ret (PInt v), l2) -> in_sbits 32 v ->
  let p := rel (zlen (vals l1)) i in
  (~ 0 <= p < zlen (vals l1) -> mstep cfg (MSet oi ov) l = (Raise IndexError, l1)) /\
  (0 <= p < zlen (vals l1) -> p < zlen (vals l2) -> exists l3, mstep cfg (MSet oi ov) l = (Ret VNone, l3) /\
     vals l3 = firstn (Z.to_nat p) (vals l2) ++ v :: skipn (S (Z.to_nat p)) (vals l2) /\ lwf l3) /\
  (0 <= p < zlen (vals l1) -> zlen (vals l2) <= p -> mstep cfg (MSet oi ov) l = (Undef IterBeforeBegin, l2)).
Proof.
  intros W E R A Rv p. cbn [mstep]. unfold lass_subscript_u. rewrite (lconv_at _ oi l _ _ E). cbn [obind].
  assert (X : as_index (PInt i) = Ret i) by (cbn; rewrite (proj2 (in_sbits_b_spec 64 i)) by exact R; reflexivity).
  rewrite X, next_ret. unfold lsetitem_u. rewrite lsize_vals.
  assert (RE : (if i <? 0 then zlen (vals l1) + i else i) = p) by (unfold p, rel; destruct (i <? 0); lia).
  rewrite RE. cbv zeta. rewrite idx_test.
  assert (R64 : in_sbits 64 v) by (apply (in_range_64 KInt); exact Rv).
  rewrite (lconv_err_int ov l1 v l2 A R64). rewrite wrap_id by (try lia; exact Rv). cbn [ret_with].
  destruct ((0 <=? p) && (p <? zlen (vals l1))) eqn:B; cbn [negb].
  - apply rel_bounds_dec in B. split; [intros; contradiction|]. split; intros _ H.
    + destruct (set_store l2 p v (Ret VNone) W) as (l3 & Q & V3 & W3 & _); [lia|]. exists l3. auto.
    + apply set_store_out; assumption.
  - assert (NB : ~ 0 <= p < zlen (vals l1)) by (intros H; apply rel_bounds_dec in H; congruence).
    split; [reflexivity|]. split; intros; contradiction.
Qed.

Lemma set_bad cfg oi ov l i l1 e l2 : lwf l2 -> oi l = (Ret (PInt i), l1) -> in_sbits 64 i -> unconverted ov l1 e l2 ->
  let p := rel (zlen (vals l1)) i in 0 <= p < zlen (vals l1) -> p < zlen (vals l2) ->
  exists l3, mstep cfg (MSet oi ov) l = (RetPending VNone e, l3) /\
    vals l3 = firstn (Z.to_nat p) (vals l2) ++ -1 :: skipn (S (Z.to_nat p)) (vals l2) /\ lwf l3.
Proof.
  intros W E R U p B H. cbn [mstep]. unfold lass_subscript_u. rewrite (lconv_at _ oi l _ _ E). cbn [obind].
  assert (X : as_index (PInt i) = Ret i) by (cbn; rewrite (proj2 (in_sbits_b_spec 64 i)) by exact R; reflexivity).
  rewrite X, next_ret. unfold lsetitem_u. rewrite lsize_vals.
  assert (RE : (if i <? 0 then zlen (vals l1) + i else i) = p) by (unfold p, rel; destruct (i <? 0); lia).
  rewrite RE. cbv zeta. rewrite idx_test, (proj2 (rel_bounds_dec _ _) B). cbn [negb].
  rewrite (lconv_err_bad ov l1 e l2 U). cbn [ret_with].
  destruct (set_store l2 p (-1) (RetPending VNone e) W) as (l3 & Q & V3 & W3 & _); [lia|]. exists l3. auto.
Qed.

(** ** Iterators kept across user code *)
Lemma subseq_cons {A} (x : A) b : forall c, subseq (x :: b) c -> exists d1 d2, c = d1 ++ x :: d2 /\ subseq b d2.
Proof.
  induction c as [|y c IH]; intros H; inversion H; subst.
  - exists [], c. split; [reflexivity|assumption].
  - destruct (IH ltac:(assumption)) as (d1 & d2 & -> & H'). exists (y :: d1), d2. split; [reflexivity|exact H'].
Qed.
Lemma subseq_weak {A} (a b c : list A) : subseq a b -> subseq a (c ++ b).
Proof. intros H. induction c as [|x c IH]; cbn [app]; [exact H|apply sub_skip; exact IH]. Qed.
Lemma subseq_split {A} (a b : list A) : forall c, subseq (a ++ b) c -> exists c1 c2, c = c1 ++ c2 /\ subseq a c1 /\ subseq b c2.
Proof.
  induction a as [|x a IH]; intros c H; cbn [app] in H.
  - exists [], c. split; [reflexivity|]. split; [constructor|exact H].
  - destruct (subseq_cons x _ c H) as (d1 & d2 & -> & H'). destruct (IH d2 H') as (c1 & c2 & -> & H1 & H2).
    exists (d1 ++ x :: c1), c2. split; [rewrite <- app_assoc; reflexivity|]. split; [|exact H2].
    apply subseq_weak. constructor. exact H1.
Qed.
Lemma subseq_len {A} (a b : list A) : subseq a b -> (length a <= length b)%nat.
Proof. induction 1; cbn; lia. Qed.
Lemma subseq_refl {A} (a : list A) : subseq a a.
Proof. induction a; constructor; assumption. Qed.
Lemma subseq_trans {A} (b c : list A) : subseq b c -> forall a, subseq a b -> subseq a c.
Proof.
  induction 1 as [c|x b c H IH|x b c H IH]; intros a Ha.
  - inversion Ha; subst. constructor.
  - inversion Ha; subst; [constructor| |].
    + constructor. apply IH. assumption.
    + apply sub_skip. apply IH. assumption.
  - apply sub_skip. apply IH. exact Ha.
Qed.
Lemma subseq_app_r {A} (a b : list A) : subseq a (a ++ b).
Proof. induction a; cbn; constructor; assumption. Qed.
Lemma subseq_mid {A} (a b : list A) x : subseq (a ++ b) (a ++ x :: b).
Proof. induction a; cbn; [apply sub_skip; apply subseq_refl|constructor; assumption]. Qed.

(** [it] is in the list, with at least [k] nodes from it on. *)
Definition room (l : ll) (it : iterator) (k : nat) : Prop :=
  exists p, it = itpos (lst l) p /\ (p + k <= size (lst l))%nat.

Lemma room_split l it k : room l it k <-> exists a b, ids (lst l) = a ++ b /\ it = hd_error b /\ (k <= length b)%nat.
Proof.
  split.
  - intros (p & -> & H). rewrite size_ids in H. exists (firstn p (ids (lst l))), (skipn p (ids (lst l))).
    split; [symmetry; apply firstn_skipn|]. split; [|rewrite skipn_length; lia].
    rewrite itpos_nth. rewrite <- (firstn_skipn p (ids (lst l))) at 1.
    rewrite nth_error_app2; rewrite firstn_length; [|lia].
    replace (p - Nat.min p (length (ids (lst l))))%nat with 0%nat by lia. destruct (skipn p (ids (lst l))); reflexivity.
  - intros (a & b & E & -> & H). exists (length a). split.
    + rewrite itpos_nth, E, nth_error_app2, Nat.sub_diag by lia. destruct b; reflexivity.
    + rewrite size_ids, E, app_length. lia.
Qed.

Lemma room_keeps l l' it k : subseq (ids (lst l)) (ids (lst l')) -> room l it k -> room l' it k.
Proof.
  intros S H. apply room_split in H. destruct H as (a & b & E & -> & H). rewrite E in S.
  destruct (subseq_split a b _ S) as (c1 & c2 & Ec & _ & S2). apply room_split.
  destruct b as [|x b].
  - exists (c1 ++ c2), []. rewrite app_nil_r. cbn in *. auto.
  - destruct (subseq_cons x b c2 S2) as (d1 & d2 & -> & S3). exists (c1 ++ d1), (x :: d2).
    rewrite Ec, <- app_assoc. split; [reflexivity|]. split; [reflexivity|]. apply subseq_len in S3. cbn in *. lia.
Qed.

Lemma room_less l it k k' : (k' <= k)%nat -> room l it k -> room l it k'.
Proof. intros H (p & E & L). exists p. split; [exact E|lia]. Qed.

Lemma room_ids l l' it k : ids (lst l') = ids (lst l) -> room l it k -> room l' it k.
Proof. intros E. apply room_keeps. rewrite E. apply subseq_refl. Qed.

Lemma room_next l it k : lwf l -> room l it (S k) -> exists it', it_next (lst l) it = Ret it' /\ room l it' k.
Proof.
  intros W (p & -> & H). exists (itpos (lst l) (S p)). split; [apply next_pos; [exact W|lia]|]. exists (S p). split; [reflexivity|lia].
Qed.
Lemma room_deref l it k : lwf l -> room l it (S k) -> exists x, deref (lst l) it = Ret x.
Proof.
  intros W (p & -> & H). destruct (nth_nodes (lst l) p ltac:(lia)) as (i & v & _ & V & _). exists v.
  apply deref_pos; [exact W|exact V].
Qed.
Lemma room_assign l it k v : lwf l -> room l it (S k) ->
  exists s, assign (lst l) it v = Ret s /\ wf s /\ ids s = ids (lst l).
Proof.
  intros W (p & -> & H). destruct (assign_pos (lst l) p v W ltac:(lia)) as (s & A & W' & I' & _). exists s. auto.
Qed.
Lemma room_insert l it k v : lwf l -> room l it k ->
  exists s, insert_ (lst l) it v = Ret s /\ wf s /\ subseq (ids (lst l)) (ids s).
Proof.
  intros W (p & -> & H). destruct (insert_pos (lst l) p v W ltac:(lia)) as (s & A & W' & _ & I' & _). exists s.
  split; [exact A|]. split; [exact W'|]. rewrite I'. rewrite <- (firstn_skipn p (ids (lst l))) at 1. apply subseq_mid.
Qed.

Definition safe_code {A} (u : code A) : Prop := lreturns u /\ keeps_nodes u.

Lemma code_run {A} (u : code A) l it k : lreturns u -> keeps_nodes u -> lwf l -> room l it k ->
  exists r l1, u l = (r, l1) /\ lwf l1 /\ room l1 it k /\ ((exists a, r = Ret a) \/ exists e, r = Raise e) /\
    subseq (ids (lst l)) (ids (lst l1)).
Proof.
  intros R K W Rm. specialize (K l W). specialize (R l). destruct (u l) as [r l1]. cbn [fst snd] in *. destruct K as [W1 S1].
  exists r, l1. split; [reflexivity|]. split; [exact W1|]. split; [eapply room_keeps; eassumption|]. split; [exact R|exact S1].
Qed.

Lemma lassign_safe q n : lseq_all (@lreturns) q -> lseq_all (@keeps_nodes) q -> forall i it l m, lwf l -> room l it (n + m) ->
  ldefined (fst (lassign_loop_u q n i it l)) /\
  (forall it', fst (lassign_loop_u q n i it l) = Ret it' ->
     lwf (snd (lassign_loop_u q n i it l)) /\ room (snd (lassign_loop_u q n i it l)) it' m).
Proof.
  intros [_ R] [_ K]. induction n as [|n IH]; intros i it l m W Rm; cbn [lassign_loop_u].
  - split; [intros u; discriminate|]. intros it' E. cbn [fst snd] in *. injection E as <-. auto.
  - destruct (R i) as [Rg Ro]. destruct (K i) as [Kg Ko]. cbn [Nat.add] in Rm.
    destruct (code_run (s_get q i) l it (S (n + m)) Rg Kg W Rm) as (r & l1 & E & W1 & Rm1 & [[o ->]|[e ->]] & _); rewrite E;
      [|rewrite next_raise; split; [intros u; discriminate|intros it' X; discriminate X]].
    rewrite next_ret. assert (Eo : fst (s_get q i l) = Ret o) by (rewrite E; reflexivity).
    destruct (code_run o l1 it (S (n + m)) (Ro l o Eo) (Ko l o Eo) W1 Rm1) as (r2 & l2 & E2 & W2 & Rm2 & _ & _).
    pose proof (lconv_err_snd o l1) as S2. destruct (lconv_err o l1) as [[v err] l2']. cbn [snd] in S2. rewrite E2 in S2. cbn [snd] in S2. subst l2'.
    destruct (room_assign l2 it (n + m) v W2 Rm2) as (s & A & Ws & Is). rewrite A, next_ret.
    assert (W3 : lwf (put l2 s)) by exact Ws.
    assert (Rm3 : room (put l2 s) it (S (n + m))) by (eapply room_ids; [|exact Rm2]; exact Is).
    destruct err as [e|]; [split; [intros u; discriminate|intros it' X; discriminate X]|].
    destruct (room_next (put l2 s) it (n + m) W3 Rm3) as (it' & Nx & Rm4). cbn zeta. rewrite Nx, next_ret. apply IH; assumption.
Qed.

Lemma linsert_safe q n : lseq_all (@lreturns) q -> lseq_all (@keeps_nodes) q -> forall i it l m, lwf l -> room l it m ->
  ldefined (fst (linsert_loop_u q n i it l)).
Proof.
  intros [_ R] [_ K]. induction n as [|n IH]; intros i it l m W Rm; cbn [linsert_loop_u]; [intros u; discriminate|].
  destruct (R i) as [Rg Ro]. destruct (K i) as [Kg Ko].
  destruct (code_run (s_get q i) l it m Rg Kg W Rm) as (r & l1 & E & W1 & Rm1 & [[o ->]|[e ->]] & _); rewrite E;
    [|rewrite next_raise; intros u; discriminate].
  rewrite next_ret. assert (Eo : fst (s_get q i l) = Ret o) by (rewrite E; reflexivity).
  destruct (code_run o l1 it m (Ro l o Eo) (Ko l o Eo) W1 Rm1) as (r2 & l2 & E2 & W2 & Rm2 & _ & _).
  pose proof (lconv_err_snd o l1) as S2. destruct (lconv_err o l1) as [[v err] l2']. cbn [snd] in S2. rewrite E2 in S2. cbn [snd] in S2. subst l2'.
  destruct (room_insert l2 it m v W2 Rm2) as (s & A & Ws & Is). rewrite A, next_ret.
  destruct err as [e|]; [intros u; discriminate|]. apply (IH _ it (put l2 s) m); [exact Ws|].
  eapply room_keeps; [|exact Rm2]. exact Is.
Qed.

Lemma next_defined {A B} (r : outcome A * ll) (f : A -> ll -> outcome B * ll) :
  ldefined (fst r) -> (forall a, fst r = Ret a -> ldefined (fst (f a (snd r)))) -> ldefined (fst (next r f)).
Proof.
  destruct r as [r l]. cbn [fst snd]. intros D H. destruct r as [a|e|a e|u]; [exact (H a eq_refl)|intros u; discriminate|intros u; discriminate|].
  exfalso. exact (D u eq_refl).
Qed.
Lemma lthen_defined {A} (v : A) r : ldefined (fst r) -> ldefined (fst (lthen v r)).
Proof. destruct r as [[x|e|x e|u] l]; cbn; intros D w; try discriminate. intros E. exact (D u eq_refl). Qed.

Lemma adjust_one len start stop : 0 <= len ->
  let '(a, b, n) := PySlice_AdjustIndices len start stop 1 in 0 <= a <= len /\ 0 <= b <= len /\ n = Z.max 0 (b - a).
Proof.
  intros H. unfold PySlice_AdjustIndices, adjust1. change (1 <? 0) with false. cbv iota.
  repeat match goal with |- context [?x <? ?y] => destruct (Z.ltb_spec x y)
    | |- context [?x <=? ?y] => destruct (Z.leb_spec x y) end; rewrite ?Z.div_1_r; lia.
Qed.

Lemma lunpack_defined sl l : proper l -> largs_sane (MGetSlice sl) -> largs_fit (MGetSlice sl) ->
  ldefined (fst (lunpack_u sl l)) /\ proper (snd (lunpack_u sl l)).
Proof.
  intros P S F. pose proof (lunpack_eval sl l P S F) as H.
  destruct (levaluate _ l) as [[zs|e] l'].
  - destruct H as (c & a & b & _ & P' & -> & Nz). cbn [fst snd]. split; [|exact P']. intros u E.
    destruct (unpack_cases {| sl_start := a; sl_stop := b; sl_step := c |}) as [[Z0 _]|[_ (x & y & z & U)]]; [contradiction|].
    rewrite U in E. discriminate.
  - destruct H as [-> P']. cbn [fst snd]. split; [intros u; discriminate|exact P'].
Qed.

Lemma lsetitem_slice_safe sl q l : proper l -> largs_sane (MGetSlice sl) -> largs_fit (MGetSlice sl) ->
  (forall t, exists n, 0 <= n /\ fst (s_len q t) = Ret n) ->
  lseq_all (@lreturns) q -> lseq_all (@keeps_nodes) q -> ldefined (fst (lsetitem_slice_u sl q l)).
Proof.
  intros P Sa Ft Hn R K. unfold lsetitem_slice_u. destruct (lunpack_defined sl l P Sa Ft) as [D P1].
  apply next_defined; [exact D|]. intros [[start stop] step] _. set (l1 := snd (lunpack_u sl l)) in *. clearbody l1. clear D.
  destruct P1 as (W1 & _ & _).
  destruct (PySlice_AdjustIndices (lsize l1) start stop step) as [[a b] n] eqn:Adj.
  destruct (Hn l1) as (m & Hm & Em). rewrite Em. cbn [seq_size].
  destruct (proj1 K l1 W1) as [W2 S2]. set (l2 := snd (s_len q l1)) in *. clearbody l2.
  destruct (Z.eqb_spec step 1) as [->|_]; cbn [negb]; [|intros u; discriminate].
  assert (N1 : 0 <= lsize l1) by (unfold lsize; lia).
  pose proof (adjust_one (lsize l1) start stop N1) as B. rewrite Adj in B. destruct B as (Ba & Bb & ->).
  set (n := Z.max 0 (b - a)) in *. clear Adj.
  assert (SZ : (size (lst l1) <= size (lst l2))%nat) by (rewrite !size_ids; apply subseq_len; exact S2).
  unfold lsize in *. unfold at_z. destruct (Z.ltb_spec a 0); [lia|]. rewrite at_pos by exact W2. cbn [lwith].
  assert (Rm : forall j k, (j + k <= Z.to_nat n)%nat -> room l2 (itpos (lst l2) (Z.to_nat a)) (j + k)).
  { intros j k H'. exists (Z.to_nat a). split; [reflexivity|]. lia. }
  apply lthen_defined.
  destruct (Z.eqb_spec m n) as [E|NE]; [|destruct (Z.ltb_spec m n) as [Lt|Gt]].
  - destruct (lassign_safe q (Z.to_nat n) R K 0 (itpos (lst l2) (Z.to_nat a)) l2 0 W2 (Rm (Z.to_nat n) 0%nat ltac:(lia))) as [D _].
    apply next_defined; [exact D|]. intros x _ u. discriminate.
  - destruct (lassign_safe q (Z.to_nat m) R K 0 (itpos (lst l2) (Z.to_nat a)) l2 (Z.to_nat (n - m)) W2 (Rm (Z.to_nat m) (Z.to_nat (n - m)) ltac:(lia))) as [D Q].
    apply next_defined; [exact D|]. intros it' E. destruct (Q it' E) as [W3 (p & -> & H3)].
    set (l3 := snd _) in *. clearbody l3. rewrite advance_pos by (auto; lia). rewrite next_ret.
    destruct (erase_range_ok (size (lst l3)) (Z.to_nat (n - m)) (lst l3) p W3 H3 ltac:(lia)) as (s' & A & _). rewrite A, next_ret.
    intros u. discriminate.
  - destruct (lassign_safe q (Z.to_nat n) R K 0 (itpos (lst l2) (Z.to_nat a)) l2 0 W2 (Rm (Z.to_nat n) 0%nat ltac:(lia))) as [D Q].
    apply next_defined; [exact D|]. intros it' E. destruct (Q it' E) as [W3 Rm3]. apply (linsert_safe q _ R K _ it' _ 0%nat); assumption.
Qed.

(** ** Comparison *)
Lemma leq_loop_safe q n : lseq_all (@lreturns) q -> lseq_all (@keeps_nodes) q -> forall i it l, lwf l -> room l it n ->
  ldefined (fst (leq_loop_u q n i it l)).
Proof.
  intros [_ R] [_ K]. induction n as [|n IH]; intros i it l W Rm; cbn [leq_loop_u]; [intros u; discriminate|].
  destruct (R i) as [Rg Ro]. destruct (K i) as [Kg Ko].
  destruct (code_run (s_get q i) l it (S n) Rg Kg W Rm) as (r & l1 & E & W1 & Rm1 & [[o ->]|[e ->]] & _); rewrite E;
    [|rewrite next_raise; intros u; discriminate].
  rewrite next_ret. assert (Eo : fst (s_get q i l) = Ret o) by (rewrite E; reflexivity).
  destruct (room_deref l1 it n W1 Rm1) as (x & Dx). rewrite Dx, next_ret.
  destruct (code_run o l1 it (S n) (Ro l o Eo) (Ko l o Eo) W1 Rm1) as (r2 & l2 & E2 & W2 & Rm2 & _ & _).
  pose proof (lconv_err_snd o l1) as S2. destruct (lconv_err o l1) as [[v err] l2']. cbn [snd] in S2. rewrite E2 in S2. cbn [snd] in S2. subst l2'.
  destruct err as [e|]; [intros u; discriminate|]. destruct (negb (x =? v)); [intros u; discriminate|].
  destruct (room_next l2 it n W2 Rm2) as (it' & Nx & Rm3). rewrite Nx, next_ret. apply IH; assumption.
Qed.
Lemma ret_bool_def b p : ldefined (ret_bool b p).
Proof. destruct p; intros u; discriminate. Qed.
Lemma lord_loop_safe rel q n : lseq_all (@lreturns) q -> lseq_all (@keeps_nodes) q -> forall i it pend l, lwf l -> room l it n ->
  ldefined (fst (lord_loop_u rel q n i it pend l)).
Proof.
  intros [_ R] [_ K]. induction n as [|n IH]; intros i it pend l W Rm; cbn [lord_loop_u]; [apply ret_bool_def|].
  destruct (R i) as [Rg Ro]. destruct (K i) as [Kg Ko].
  destruct (code_run (s_get q i) l it (S n) Rg Kg W Rm) as (r & l1 & E & W1 & Rm1 & [[o ->]|[e ->]] & _); rewrite E;
    [|rewrite next_raise; intros u; discriminate].
  rewrite next_ret. assert (Eo : fst (s_get q i l) = Ret o) by (rewrite E; reflexivity).
  destruct (room_deref l1 it n W1 Rm1) as (x & Dx). rewrite Dx, next_ret.
  destruct (code_run o l1 it (S n) (Ro l o Eo) (Ko l o Eo) W1 Rm1) as (r2 & l2 & E2 & W2 & Rm2 & _ & _).
  pose proof (lconv_err_snd o l1) as S2. destruct (lconv_err o l1) as [[v err] l2']. cbn [snd] in S2. rewrite E2 in S2. cbn [snd] in S2. subst l2'.
  cbv zeta. destruct (negb (x =? v)); [apply ret_bool_def|].
  destruct (room_next l2 it n W2 Rm2) as (it' & Nx & Rm3). rewrite Nx, next_ret. apply IH; assumption.
Qed.

Lemma lcompare_safe c q l : lwf l -> c <> Ne_ -> lseq_all (@lreturns) q -> lseq_all (@keeps_nodes) q ->
  ldefined (fst (lcompare_u c q l)).
Proof.
  intros W N R K. destruct (proj1 K l W) as [W1 _].
  assert (O : forall r, ldefined (fst (lord_u r q l))).
  { intros r. unfold lord_u. apply next_defined.
    - destruct (proj1 R l) as [[a E]|[e E]]; rewrite E; intros u; discriminate.
    - intros m _. set (l1 := snd (s_len q l)) in *. clearbody l1. destruct (Z.eqb_spec (lsize l1) m) as [E|_]; cbn [negb]; [|intros u; discriminate].
      apply lord_loop_safe; try assumption. exists 0%nat. split; [apply begin_pos|]. unfold lsize in E. lia. }
  destruct c; try (apply O); [|congruence]. cbn [lcompare_u]. unfold leq_u.
  destruct (proj1 R l) as [[a E]|[e E]]; rewrite E; cbn [seq_size]; set (l1 := snd (s_len q l)) in *; clearbody l1.
  - destruct (Z.eqb_spec a (lsize l1)) as [E1|_]; cbn [negb]; [|intros u; discriminate].
    apply leq_loop_safe; try assumption. exists 0%nat. split; [apply begin_pos|]. unfold lsize in E1. lia.
  - destruct (Z.eqb_spec (-1) (lsize l1)) as [E1|_]; [unfold lsize in E1; lia|]. cbn [negb]. intros u; discriminate.
Qed.

(** ** Sequences that leave the list alone *)
Lemma lget_plain q zs i l o : lstands_for q zs -> 0 <= i -> src_get (src_items (map PInt zs)) (values (lst l)) i = Ret o ->
  exists z u, o = PInt z /\ s_get q i l = (Ret u, l) /\ forall l', u l' = (Ret (PInt z), l').
Proof.
  intros [_ Q] Hi E. cbn [src_get src_items] in E. unfold znth in E. destruct (Z.ltb_spec i 0); [lia|].
  rewrite nth_error_map in E. destruct (nth_error zs (Z.to_nat i)) as [z|] eqn:N; [|discriminate]. cbn in E. injection E as <-.
  destruct (Q i z Hi N l) as (u & A & V). exists z, u. auto.
Qed.
Lemma lconv_err_plain u z l : (forall l', u l' = (Ret (PInt z), l')) ->
  lconv_err u l = (conv_pending KInt (PInt z), l).
Proof.
  intros H. unfold lconv_err, lconv, conv_pending. rewrite H. cbn [fst snd obind]. unfold as_long.
  destruct (in_sbits_b 64 z); reflexivity.
Qed.
Lemma put_same l : put l (lst l) = l.
Proof. destruct l; reflexivity. Qed.

Lemma lassign_plain q zs : lstands_for q zs -> forall n i it l it' s', 0 <= i ->
  lassign_loop (src_items (map PInt zs)) n i it (lst l) = (Ret it', s') -> lassign_loop_u q n i it l = (Ret it', put l s').
Proof.
  intros Q. induction n as [|n IH]; intros i it l it' s' Hi; cbn [lassign_loop lassign_loop_u].
  - intros E. injection E as <- <-. rewrite put_same. reflexivity.
  - destruct (src_get (src_items (map PInt zs)) (values (lst l)) i) as [o| | |] eqn:G; try discriminate.
    destruct (lget_plain q zs i l o Q Hi G) as (z & u & -> & A & V). rewrite A, next_ret, (lconv_err_plain u z l V).
    destruct (conv_pending KInt (PInt z)) as [v err]. destruct (assign (lst l) it v) as [s1| | |]; try discriminate.
    rewrite next_ret. destruct err as [e|]; [discriminate|]. cbn [put lst].
    destruct (it_next s1 it) as [it1| | |]; try discriminate. rewrite next_ret. intros E.
    rewrite (IH (i + 1) it1 (put l s1) it' s' ltac:(lia) E). reflexivity.
Qed.
Lemma linsert_plain q zs : lstands_for q zs -> forall n i it l s', 0 <= i ->
  linsert_loop (src_items (map PInt zs)) n i it (lst l) = (Ret tt, s') -> linsert_loop_u q n i it l = (Ret tt, put l s').
Proof.
  intros Q. induction n as [|n IH]; intros i it l s' Hi; cbn [linsert_loop linsert_loop_u].
  - intros E. injection E as <-. rewrite put_same. reflexivity.
  - destruct (src_get (src_items (map PInt zs)) (values (lst l)) i) as [o| | |] eqn:G; try discriminate.
    destruct (lget_plain q zs i l o Q Hi G) as (z & u & -> & A & V). rewrite A, next_ret, (lconv_err_plain u z l V).
    destruct (conv_pending KInt (PInt z)) as [v err]. destruct (insert_ (lst l) it v) as [s1| | |]; try discriminate.
    rewrite next_ret. destruct err as [e|]; [discriminate|]. cbn [put lst]. intros E.
    rewrite (IH (i + 1) it (put l s1) s' ltac:(lia) E). reflexivity.
Qed.

Lemma obind_ret_inv {A B} (o : outcome A) (f : A -> outcome B) b : obind o f = Ret b -> exists a, o = Ret a /\ f a = Ret b.
Proof. destruct o; cbn; try discriminate; [eauto|]. destruct (f a); discriminate. Qed.

Lemma setslice_plain sl ul q zs l l1 s' : lunpack_u ul l = (PySlice_Unpack sl, l1) -> lstands_for q zs ->
  lsetitem_slice sl (AssSeq (src_items (map PInt zs))) l1 = (Ret VNone, put l1 s') ->
  lsetitem_slice_u ul q l = (Ret VNone, put l1 s').
Proof.
  intros U Q E. unfold lsetitem_slice_u, lsetitem_slice in *. rewrite U.
  destruct (PySlice_Unpack sl) as [[[x y] z]| | |]; try discriminate. rewrite next_ret. cbn [lwith] in E.
  destruct (PySlice_AdjustIndices (lsize l1) x y z) as [[a b] n]. rewrite (proj1 Q). cbn [seq_size src_len src_items fst snd] in *.
  replace (zlen (map PInt zs)) with (zlen zs) in E by (unfold zlen; rewrite map_length; reflexivity).
  fold (src_items (map PInt zs)) in E.
  destruct (negb (z =? 1)); [discriminate|]. destruct (at_z (lst l1) a) as [it| | |]; try discriminate. cbn [lwith] in *.
  destruct (zlen zs =? n) eqn:E1; [|destruct (zlen zs <? n) eqn:E2]; cbv zeta in E.
  - destruct (lassign_loop _ (Z.to_nat n) 0 it (lst l1)) as [r s1] eqn:L. cbn [fst snd omap obind] in E.
    destruct r as [it1| | |]; try discriminate. cbn [obind] in E. rewrite (lassign_plain q zs Q _ 0 it l1 it1 s1 ltac:(lia) L).
    rewrite next_ret. exact E.
  - destruct (lassign_loop _ (Z.to_nat (zlen zs)) 0 it (lst l1)) as [r s1] eqn:L. cbn [fst snd omap obind] in E.
    destruct r as [it1| | |]; try discriminate. rewrite (lassign_plain q zs Q _ 0 it l1 it1 s1 ltac:(lia) L).
    rewrite next_ret. cbn [put lst]. destruct (obind (advance s1 _ it1) _) as [s2| | |] eqn:O; try discriminate.
    apply obind_ret_inv in O. destruct O as (it2 & -> & O). rewrite next_ret. cbn [put lst]. rewrite O, next_ret. exact E.
  - destruct (lassign_loop _ (Z.to_nat n) 0 it (lst l1)) as [r s1] eqn:L. cbn [fst snd omap obind] in E.
    destruct r as [it1| | |]; try discriminate. rewrite (lassign_plain q zs Q _ 0 it l1 it1 s1 ltac:(lia) L).
    rewrite next_ret. destruct (linsert_loop _ (Z.to_nat (zlen zs - n)) n it1 s1) as [r s2] eqn:L2. cbn [fst snd] in E.
    destruct r as [[]| | |]; try discriminate.
    assert (Hn : 0 <= n).
    { destruct (Z.leb_spec 0 n); [assumption|]. exfalso. assert (Z.to_nat n = 0%nat) as Z0 by lia.
      replace (Z.to_nat (zlen zs - n)) with (S (Z.to_nat (zlen zs - n) - 1)) in L2 by (unfold zlen in *; lia).
      cbn [linsert_loop src_get src_items] in L2. unfold znth in L2. destruct (Z.ltb_spec n 0); [discriminate|lia]. }
    rewrite (linsert_plain q zs Q _ n it1 (put l1 s1) s2 Hn L2). exact E.
Qed.

Lemma setslice_atomic_l cfg sl q zs l : proper l -> largs_sane (MGetSlice sl) -> lyields_opt (ls_step sl) (fun z => z = 1) ->
  lstands_for q zs -> Forall (fun v => in_sbits 32 v) zs ->
  lmatches cfg (lsetitem_slice_u sl q l)
    (match levaluate (larguments (MGetSlice sl)) l with
     | (inl [c; a; b], l') => py_step (OSetSlice {| sl_start := a; sl_stop := b; sl_step := c |} zs) (vals l')
     | (inl _, l') => (SRaise TypeError, vals l')
     | (inr e, l') => (SRaise e, vals l')
     end).
Proof.
  intros P Sa Y Q F.
  assert (Ft : largs_fit (MGetSlice sl)).
  { cbn [largs_fit]. destruct (ls_step sl); [|exact I]. intros t z t' E. rewrite (Y _ _ _ E). discriminate. }
  pose proof (lunpack_eval sl l P Sa Ft) as H. cbn [larguments].
  destruct (levaluate [ls_step sl; ls_start sl; ls_stop sl] l) as [[zs'|e] l'] eqn:Ev;
    [|unfold lsetitem_slice_u; destruct H as [-> P']; apply lraise_matches; exact P'].
  destruct H as (c & a & b & -> & P' & U & Nz). set (sl' := {| sl_start := a; sl_stop := b; sl_step := c |}) in *.
  assert (Sc : step_of sl' = 1).
  { clear -Ev Y. cbn [levaluate] in Ev. unfold step_of, sl'. cbn [sl_step].
    destruct (ls_step sl) as [u|].
    - destruct (u l) as [[[z|x]| | |] s1] eqn:A; try discriminate.
      destruct (match ls_start sl with None => _ | Some _ => _ end) as [[zz|e] s2]; [|discriminate].
      inversion Ev; subst. exact (Y _ _ _ A).
    - destruct (match ls_start sl with None => _ | Some _ => _ end) as [[zz|e] s2]; [|discriminate].
      inversion Ev; subst. reflexivity. }
  assert (G : Forall good (map PInt zs)).
  { rewrite Forall_map. eapply Forall_impl; [|exact F]. intros v Hv. exists v. split; [reflexivity|]. apply (in_range_64 KInt). exact Hv. }
  destruct P' as (W' & F' & L').
  destruct (lsetitem_slice_ok sl' (map PInt zs) l' W' L' Sc G) as (s' & E & _).
  rewrite (setslice_plain sl' sl q zs l l' s' U Q E). rewrite <- E.
  change (lsetitem_slice sl' (AssSeq (src_items (map PInt zs))) l') with (lstep cfg (OSetSlice sl' zs) l').
  apply lstep_sim; try assumption. apply call_ok_op; [exact I|]. split; assumption.
Qed.

(** Comparison. *)
Lemma leq_loop_plain q zs : lstands_for q zs -> forall n i it l b, 0 <= i ->
  leq_loop (fun i => match znth (map PInt zs) i with Some o => Ret o | None => Raise IndexError end) n i it (lst l) = Ret b ->
  leq_loop_u q n i it l = (Ret b, l).
Proof.
  intros Q. induction n as [|n IH]; intros i it l b Hi; cbn [leq_loop leq_loop_u].
  - intros E. injection E as <-. reflexivity.
  - destruct (znth (map PInt zs) i) as [o|] eqn:G; [|discriminate].
    destruct (lget_plain q zs i l o Q Hi) as (z & u & -> & A & V); [cbn [src_get src_items]; rewrite G; reflexivity|].
    rewrite A, next_ret. intros E. apply obind_ret_inv in E. destruct E as (x & -> & E). rewrite next_ret.
    rewrite (lconv_err_plain u z l V). destruct (conv_pending KInt (PInt z)) as [v [e|]]; [discriminate|].
    destruct (negb (x =? v)); [injection E as <-; reflexivity|]. apply obind_ret_inv in E. destruct E as (it' & -> & E).
    rewrite next_ret. apply IH; [lia|exact E].
Qed.
Lemma lord_loop_plain r q zs : lstands_for q zs -> forall n i it p l b, 0 <= i ->
  lord_loop r (fun i => match znth (map PInt zs) i with Some o => Ret o | None => Raise IndexError end) n i it p (lst l) = Ret b ->
  lord_loop_u r q n i it p l = (Ret b, l).
Proof.
  intros Q. induction n as [|n IH]; intros i it p l b Hi; cbn [lord_loop lord_loop_u].
  - intros E. rewrite E. reflexivity.
  - destruct (znth (map PInt zs) i) as [o|] eqn:G; [|discriminate].
    destruct (lget_plain q zs i l o Q Hi) as (z & u & -> & A & V); [cbn [src_get src_items]; rewrite G; reflexivity|].
    rewrite A, next_ret. intros E. apply obind_ret_inv in E. destruct E as (x & -> & E). rewrite next_ret.
    rewrite (lconv_err_plain u z l V). destruct (conv_pending KInt (PInt z)) as [v err]. cbv zeta in *.
    destruct (negb (x =? v)); [rewrite E; reflexivity|]. apply obind_ret_inv in E. destruct E as (it' & -> & E).
    rewrite next_ret. apply IH; [lia|exact E].
Qed.

Lemma lcompare_plain c q zs l : lwf l -> lstands_for q zs -> Forall (fun v => in_sbits 32 v) zs ->
  exists b, lcompare_u c q l = (Ret b, l) /\
    (b = true <-> match c with Eq_ => vals l = zs | Ne_ => vals l <> zs | _ => llord_sem c (vals l) zs end).
Proof.
  intros W Q F. destruct (lcompare_items c (map PInt zs) zs l W) as (b & E & S).
  { clear -F. induction F as [|v zs Hv F IH]; constructor; [|exact IH]. apply (stores_elem KInt). rewrite as_elem_int.
    rewrite (proj2 (in_sbits_b_spec 64 _)) by (apply (in_range_64 KInt); exact Hv). f_equal. apply wrap_id; [cbn; lia|exact Hv]. }
  exists b. split; [|exact S]. clear S F W.
  assert (Zl : zlen (map PInt zs) = zlen zs) by (unfold zlen; rewrite map_length; reflexivity).
  assert (X : forall b, leq (cmp_items (map PInt zs)) l = Ret b -> leq_u q l = (Ret b, l)).
  { intros b' E'. unfold leq, cmp_items in E'. cbn [seq_size] in E'. unfold leq_u. rewrite (proj1 Q). cbn [fst snd seq_size].
    rewrite Zl in E'. destruct (negb (zlen zs =? lsize l)); [rewrite E'; reflexivity|].
    apply (leq_loop_plain q zs Q); [lia|exact E']. }
  assert (Y : forall r b, lord r (cmp_items (map PInt zs)) l = Ret b -> lord_u r q l = (Ret b, l)).
  { intros r b' E'. unfold lord, cmp_items in E'. unfold lord_u. rewrite (proj1 Q), next_ret.
    rewrite Zl in E'. destruct (negb (lsize l =? zlen zs)); [rewrite E'; reflexivity|].
    apply (lord_loop_plain r q zs Q); [lia|exact E']. }
  destruct c; cbn [lcompare lcompare_u] in *; auto.
  unfold lne in E. unfold lne_u. destruct (leq (cmp_items (map PInt zs)) l) as [b'| | |] eqn:E'; try discriminate.
  rewrite (X b' eq_refl). injection E as <-. reflexivity.
Qed.

(** ** What goes wrong *)
Lemma assign_gone (s : slist Z) i v : ~ In i (ids s) -> assign s (Some i) v = Undef UseAfterFree.
Proof. intros N. cbn. rewrite (proj2 (pos_of_none (nodes s) i)); [reflexivity|exact N]. Qed.

Lemma slice_erased sl q l start stop l1 m o l2 i : lunpack_u sl l = (Ret (start, stop, 1), l1) -> lwf l1 ->
  (forall t, s_len q t = (Ret m, t)) -> 0 < m ->
  let '(a, b, n) := PySlice_AdjustIndices (zlen (vals l1)) start stop 1 in
  0 < n -> s_get q 0 l1 = (Ret o, l2) -> nth_error (ids (lst l1)) (Z.to_nat a) = Some i ->
  ~ In i (ids (lst (snd (o l2)))) -> fst (lsetitem_slice_u sl q l) = Undef UseAfterFree.
Proof.
  intros U W QL Hm. pose proof (adjust_one (zlen (vals l1)) start stop (zlen_nonneg _)) as B.
  destruct (PySlice_AdjustIndices (zlen (vals l1)) start stop 1) as [[a b] n] eqn:Adj. destruct B as (Ba & Bb & ->).
  set (n := Z.max 0 (b - a)) in *. intros Hn G I N. unfold lsetitem_slice_u. rewrite U, next_ret, lsize_vals, Adj, QL.
  fold n. cbn [seq_size fst snd]. change (negb (1 =? 1)) with false. cbv iota.
  unfold at_z. destruct (Z.ltb_spec a 0); [lia|]. rewrite at_pos by exact W. cbn [lwith].
  assert (It : itpos (lst l1) (Z.to_nat a) = Some i) by (rewrite itpos_nth; exact I). rewrite It.
  assert (X : forall k, lassign_loop_u q (S k) 0 (Some i) l1 = (Undef UseAfterFree, snd (o l2))).
  { intros k. cbn [lassign_loop_u]. rewrite G, next_ret. pose proof (lconv_err_snd o l2) as E.
    destruct (lconv_err o l2) as [[v err] l3]. cbn [snd] in E. subst l3. rewrite assign_gone by exact N. reflexivity. }
  destruct (m =? n) eqn:E1; [|destruct (m <? n) eqn:E2].
  - destruct (Z.to_nat n) as [|k] eqn:K; [lia|]. rewrite X. reflexivity.
  - destruct (Z.to_nat m) as [|k] eqn:K; [lia|]. rewrite X. reflexivity.
  - destruct (Z.to_nat n) as [|k] eqn:K; [lia|]. rewrite X. reflexivity.
Qed.

Lemma compare_erased c q l m l1 o l2 i : s_len q l = (Ret m, l1) -> m = zlen (vals l1) ->
  s_get q 0 l1 = (Ret o, l2) -> hd_error (ids (lst l1)) = Some i -> ~ In i (ids (lst l2)) ->
  fst (lcompare_u c q l) = Undef UseAfterFree.
Proof.
  intros L M G H N.
  assert (Bg : begin_ (lst l1) = Some i).
  { unfold begin_, id_at. unfold ids in H. destruct (nodes (lst l1)) as [|[j v] ns]; [discriminate|]. exact H. }
  assert (Hm : exists k, Z.to_nat m = S k).
  { subst m. unfold vals, values, ids, zlen in *. destruct (nodes (lst l1)); [discriminate|]. cbn [map length]. eexists. rewrite Nat2Z.id. reflexivity. }
  destruct Hm as [k K].
  assert (E : leq_u q l = (Undef UseAfterFree, l2)).
  { unfold leq_u. rewrite L. cbn [fst snd seq_size]. rewrite lsize_vals, <- M, Z.eqb_refl. cbn [negb]. rewrite K, Bg.
    cbn [leq_loop_u]. rewrite G, next_ret, deref_gone by exact N. reflexivity. }
  assert (O : forall r, lord_u r q l = (Undef UseAfterFree, l2)).
  { intros r. unfold lord_u. rewrite L, next_ret. rewrite lsize_vals, <- M, Z.eqb_refl. cbn [negb]. rewrite K, Bg.
    cbn [lord_loop_u]. rewrite G, next_ret, deref_gone by exact N. reflexivity. }
  destruct c; cbn [lcompare_u]; unfold lne_u; rewrite ?E, ?O; reflexivity.
Qed.

Lemma len_raises_l sl q l e start stop l1 l2 : lunpack_u sl l = (Ret (start, stop, 1), l1) ->
  s_len q l1 = (Raise e, l2) -> lwf l2 -> zlen (vals l2) = zlen (vals l1) ->
  let '(a, b, n) := PySlice_AdjustIndices (zlen (vals l1)) start stop 1 in
  (a + n = zlen (vals l1) -> fst (lsetitem_slice_u sl q l) = Undef IterBeforeBegin) /\
  (a + n < zlen (vals l1) -> exists l', lsetitem_slice_u sl q l = (RetPending VNone e, l') /\ lwf l' /\
     vals l' = firstn (Z.to_nat a) (vals l2) ++ skipn (Z.to_nat (a + n + 1)) (vals l2)).
Proof.
  intros U QL W ZL. pose proof (adjust_one (zlen (vals l1)) start stop (zlen_nonneg _)) as B.
  destruct (PySlice_AdjustIndices (zlen (vals l1)) start stop 1) as [[a b] n] eqn:Adj. destruct B as (Ba & Bb & ->).
  set (n := Z.max 0 (b - a)) in *.
  assert (SZ : Z.of_nat (size (lst l2)) = zlen (vals l1)) by (rewrite <- ZL; symmetry; rewrite <- lsize_vals; reflexivity).
  assert (X : forall R, (forall it, R = next (advance (lst l2) (Z.to_nat (n + 1)) it, l2) (fun it' l =>
        next (erase_range (size (lst l)) (lst l) it it', l) (fun s l => (Ret tt, put l s))) ->
        it = itpos (lst l2) (Z.to_nat a) ->
        lsetitem_slice_u sl q l = match fst R with Ret _ => (RetPending VNone e, snd R) | _ => lthen VNone R end)).
  { intros R it -> ->. unfold lsetitem_slice_u. rewrite U, next_ret, lsize_vals, Adj, QL. fold n. cbn [seq_size fst snd].
    change (negb (1 =? 1)) with false. cbv iota.
    unfold at_z. destruct (Z.ltb_spec a 0); [lia|]. rewrite at_pos by exact W. cbn [lwith].
    destruct (Z.eqb_spec (-1) n); [lia|]. destruct (Z.ltb_spec (-1) n); [|lia]. change (Z.to_nat (-1)) with 0%nat.
    cbn [lassign_loop_u]. rewrite next_ret. replace (n - -1) with (n + 1) by lia. reflexivity. }
  rewrite (X _ _ eq_refl eq_refl). clear X. split; intros H.
  - replace (Z.to_nat (n + 1)) with (Z.to_nat n + 1)%nat by lia.
    assert (Ad : forall k p, (p + k = size (lst l2))%nat -> advance (lst l2) (k + 1) (itpos (lst l2) p) = Undef IterBeforeBegin).
    { induction k as [|k IH]; intros p Hp; cbn [advance Nat.add].
      - replace (itpos (lst l2) p) with (@None nat); [reflexivity|]. symmetry. rewrite Nat.add_0_r in Hp. subst p. apply itpos_end. lia.
      - rewrite next_pos by (auto; lia). cbn [obind]. apply IH. lia. }
    rewrite Ad by lia. reflexivity.
  - rewrite advance_pos by (auto; lia). rewrite next_ret.
    destruct (erase_range_ok (size (lst l2)) (Z.to_nat (n + 1)) (lst l2) (Z.to_nat a) W ltac:(lia) ltac:(lia)) as (s' & E & W' & V' & _).
    rewrite E, next_ret. cbn [fst snd]. eexists. split; [reflexivity|]. split; [exact W'|]. unfold vals at 1. cbn [put lst]. rewrite V'.
    unfold vals. do 2 f_equal. lia.
Qed.

(** ** extend *)
Lemma unconv_of o l : lreturns o -> (exists z l2, o l = (Ret (PInt z), l2) /\ in_sbits 64 z /\ lconv_err o l = ((wrap 32 z, None), l2)) \/
  (exists e l2, unconverted o l e l2 /\ lconv_err o l = ((-1, Some e), l2)).
Proof.
  intros R. destruct (conv_cases o l R) as [(z & l2 & E & H)|(e & l2 & H)].
  - left. exists z, l2. split; [exact E|]. split; [exact H|]. apply lconv_err_int; assumption.
  - right. exists e, l2. split; [exact H|]. apply lconv_err_bad; exact H.
Qed.

Lemma lextend_trace items fin : Forall lreturns items -> lreturns fin ->
  (forall nx l o, In nx items -> fst (nx l) = Ret o -> lreturns o) -> forall l,
  exists r c l', ltrace items fin l r c l' /\ forall mark,
    lextend_loop_u mark items fin None l = (match r with None => Ret tt | Some e => Raise e end, if c then mark l' else l').
Proof.
  intros R Rf. induction R as [|nx items Rn R IH]; intros RO l.
  - destruct (Rf l) as [[[] E]|[e E]]; destruct (fin l) as [x l'] eqn:F; cbn [fst] in E; subst x.
    + exists None, true, l'. split; [constructor; exact F|]. intros mark. cbn [lextend_loop_u]. rewrite F. reflexivity.
    + exists (Some e), true, l'. split; [apply lt_end_raise; exact F|]. intros mark. cbn [lextend_loop_u]. rewrite F. reflexivity.
  - destruct (Rn l) as [[o E]|[e E]].
    2: { destruct (nx l) as [x l'] eqn:F; cbn [fst] in E; subst x. exists (Some e), true, l'. split; [apply lt_next_raise; exact F|].
         intros mark. cbn [lextend_loop_u]. rewrite F. reflexivity. }
    assert (Ro : lreturns o) by (apply (RO nx l); [left; reflexivity|exact E]).
    destruct (nx l) as [x l1] eqn:F; cbn [fst] in E; subst x.
    destruct (unconv_of o l1 Ro) as [(z & l2 & A & Hz & C)|(e & l2 & A & C)].
    + destruct (IH ltac:(intros n' t o' I; apply RO; right; exact I) (pushed l2 (wrap 32 z))) as (r & c & l' & T & M).
      exists r, c, l'. split.
      { eapply lt_item; [exact F|exact A|exact Hz|apply wrap_range; lia|apply wrap_cong; lia|exact T]. }
      intros mark. cbn [lextend_loop_u]. rewrite F. cbn [fst snd]. rewrite C. apply M.
    + destruct items as [|nx' items'].
      * exists (or_own (raised (fst (fin (pushed l2 (-1))))) e), true, (snd (fin (pushed l2 (-1)))). split.
        { eapply lt_bad_last; [exact F|exact A|]. destruct (fin (pushed l2 (-1))); reflexivity. }
        intros mark. cbn [lextend_loop_u]. rewrite F. cbn [fst snd]. rewrite C.
        change (put l2 (push_back (lst l2) (-1))) with (pushed l2 (-1)).
        destruct (Rf (pushed l2 (-1))) as [[u E]|[e' E]]; rewrite E; reflexivity.
      * set (x := nx' (pushed l2 (-1))).
        exists (or_own (raised (fst x)) e), (match raised (fst x) with Some _ => true | None => false end), (snd x). split.
        { eapply lt_bad; [exact F|exact A|]. unfold x. destruct (nx' (pushed l2 (-1))); reflexivity. }
        intros mark. cbn [lextend_loop_u]. rewrite F. cbn [fst snd]. rewrite C. cbn [lextend_loop_u].
        change (put l2 (push_back (lst l2) (-1))) with (pushed l2 (-1)).
        pose proof (Forall_inv R) as Rn'. unfold x. destruct (Rn' (pushed l2 (-1))) as [[u E]|[e' E]]; rewrite E; reflexivity.
Qed.

Lemma extend_l it l : lreturns (n_start it) -> Forall lreturns (n_items it) -> lreturns (n_end it) ->
  (forall nx l o, In nx (n_items it) -> fst (nx l) = Ret o -> lreturns o) ->
  (exists e l1, n_start it l = (Raise e, l1) /\ lextend_u it l = (Raise e, l1) /\ liadd_u it l = (Raise e, l1)) \/
  (exists l1 r c l', n_start it l = (Ret tt, l1) /\ ltrace (n_items it) (n_end it) l1 r c l' /\
     fst (lextend_u it l) = match r with None => Ret VNone | Some e => Raise e end /\
     lst (snd (lextend_u it l)) = lst l' /\ modc (snd (lextend_u it l)) = (if c then modc l' + 1 else modc l') /\
     liadd_u it l = (match r with None => Ret VSelf | Some e => Raise e end, l')).
Proof.
  intros Rs Ri Re RO. unfold lextend_u, liadd_u. destruct (Rs l) as [[[] E]|[e E]]; destruct (n_start it l) as [x l1]; cbn [fst] in E; subst x.
  - right. destruct (lextend_trace (n_items it) (n_end it) Ri Re RO l1) as (r & c & l' & T & M). exists l1, r, c, l'.
    split; [reflexivity|]. split; [exact T|]. rewrite !next_ret, !M. unfold lthen. cbn [fst snd].
    split; [destruct r; reflexivity|]. split; [destruct c; reflexivity|]. split; [destruct c; reflexivity|].
    destruct c, r; reflexivity.
  - left. exists e, l1. rewrite !next_raise. auto.
Qed.

Lemma unconv_det o l e1 l1 e2 l2 : unconverted o l e1 l1 -> unconverted o l e2 l2 -> e1 = e2 /\ l1 = l2.
Proof.
  intros [A|[(-> & x & A)|(-> & z & A & _)]] [B|[(-> & y & B)|(-> & w & B & _)]]; rewrite A in B; inversion B; auto.
Qed.
Lemma unconv_int o l e l1 z l2 : unconverted o l e l1 -> o l = (Ret (PInt z), l2) -> in_sbits 64 z -> False.
Proof.
  intros [A|[(-> & x & A)|(-> & w & A & N)]] B H; rewrite A in B; inversion B; subst; contradiction.
Qed.

Lemma ltrace_det items fin l r1 c1 t1 : ltrace items fin l r1 c1 t1 -> forall r2 c2 t2, ltrace items fin l r2 c2 t2 ->
  r1 = r2 /\ c1 = c2 /\ t1 = t2.
Proof.
  induction 1; intros r2 c2 t2 T; inversion T; subst;
    try match goal with A : ?f ?x = _, B : ?f ?x = _ |- _ => rewrite A in B; inversion B; subst; clear B end;
    try (split; [reflexivity|split; reflexivity]);
    try match goal with A : unconverted ?o ?l ?e ?k, B : unconverted ?o ?l ?e' ?k' |- _ =>
      destruct (unconv_det _ _ _ _ _ _ A B) as [<- <-]; clear B end;
    try match goal with A : ?f ?x = _, B : ?f ?x = _ |- _ => rewrite A in B; inversion B; subst; clear B end;
    try (split; [reflexivity|split; reflexivity]);
    try (exfalso; eapply unconv_int; eassumption).
  match goal with H : forall r c t, ltrace _ _ _ r c t -> _ |- _ => apply H end.
  match goal with A : exists m, ?v = ?z + m * 2 ^ 32, B : exists m, ?w = ?z + m * 2 ^ 32, C : in_sbits 32 ?v, D : in_sbits 32 ?w |- _ =>
    destruct A as [a A]; destruct B as [b B];
    assert (v = w) as <- by (unfold in_sbits in C, D; change (2 ^ (32 - 1)) with (2 ^ 31) in C, D;
      assert (2 ^ 32 = 2 * 2 ^ 31) as P2 by reflexivity; rewrite P2 in A, B; assert (0 < 2 ^ 31) by reflexivity; nia) end.
  assumption.
Qed.

(** ** Calls that keep every node *)
Lemma lwith_same {A} (o : outcome A) l f : (forall a, snd (f a) = l) -> snd (lwith o l f) = l.
Proof. intros H. destruct o; cbn; auto. Qed.
Lemma lext_keeps after items fin : (forall l, lst (after l) = lst l) -> forall pend l, lwf l ->
  lwf (snd (lextend_items after items fin pend l)) /\ subseq (ids (lst l)) (ids (lst (snd (lextend_items after items fin pend l)))).
Proof.
  intros A. induction items as [|o items IH]; intros pend l W; cbn [lextend_items].
  - cbn [snd]. unfold lwf. rewrite A. split; [exact W|apply subseq_refl].
  - destruct pend; [split; [exact W|apply subseq_refl]|]. destruct (conv_pending KInt o) as [v err].
    destruct (push_back_ok (lst l) v W) as (W' & _ & I & _). destruct (IH err (put l (push_back (lst l) v)) W') as [W2 S2].
    split; [exact W2|]. eapply subseq_trans; [exact S2|]. cbn [put lst]. rewrite I. apply subseq_app_r.
Qed.

Lemma adds_only_keeps cfg o : adds_only o -> keeps_nodes (lstep cfg o).
Proof.
  intros A l W.
  assert (Same : forall r : lres, snd r = l -> lwf (snd r) /\ subseq (ids (lst l)) (ids (lst (snd r)))).
  { intros r ->. split; [exact W|apply subseq_refl]. }
  destruct o; cbn [adds_only] in A; try contradiction; cbn [lstep].
  - unfold lappend. destruct (conv_pending KInt (PInt v)) as [v' err]. cbn [snd].
    destruct (push_back_ok (lst l) v' W) as (W' & _ & I & _). split; [exact W'|]. cbn [bump lst]. rewrite I. apply subseq_app_r.
  - destruct how; cbn [lextend].
    1, 2: apply (lext_keeps (fun l => bump l (lst l))); [reflexivity|exact W].
    destruct (append_range_ok vs (lst l) W) as (W' & _ & (new & I) & _). split; [exact W'|]. cbn [bump lst snd]. rewrite I. apply subseq_app_r.
  - unfold linsert. destruct (parse_n (PInt i)) as [i'| | |]; cbn [lwith]; try (apply Same; reflexivity).
    destruct (parse_elem KInt (PInt v)) as [v'| | |]; cbn [lwith]; try (apply Same; reflexivity). cbv zeta.
    set (p := if i' <? 0 then _ else _). assert (Hp : (Z.to_nat p <= size (lst l))%nat).
    { unfold p, lsize. destruct (Z.ltb_spec i' 0); [lia|]. destruct (Z.ltb_spec (Z.of_nat (size (lst l))) i'); lia. }
    rewrite at_pos by exact W. cbn [lwith].
    destruct (insert_pos (lst l) (Z.to_nat p) v' W Hp) as (s' & -> & W' & _ & I & _). cbn [lwith snd]. split; [exact W'|].
    cbn [bump lst]. rewrite I. rewrite <- (firstn_skipn (Z.to_nat p) (ids (lst l))) at 1. apply subseq_mid.
  - destruct (lreverse_ok l W) as (s & -> & _ & I & W'). split; [exact W'|]. cbn [snd put lst]. rewrite I. apply subseq_refl.
  - apply Same. reflexivity.
  - apply Same. unfold lsubscript. apply lwith_same. intros a. unfold lgetitem. cbv zeta. destruct (_ || _); [reflexivity|].
    repeat (apply lwith_same; intros ?). reflexivity.
  - unfold lass_subscript. destruct (as_index (PInt i)) as [i'| | |]; cbn [lwith]; try (apply Same; reflexivity).
    unfold lsetitem. cbv zeta. set (p := if i' <? 0 then _ else _). destruct ((p <? 0) || (lsize l <=? p)) eqn:B; [apply Same; reflexivity|].
    destruct (conv_pending KInt (PInt v)) as [v' err]. rewrite at_pos by exact W. cbn [lwith].
    apply Bool.orb_false_iff in B. destruct B as [B1 B2]. apply Z.ltb_ge in B1. apply Z.leb_gt in B2. unfold lsize in B2.
    destruct (assign_pos (lst l) (Z.to_nat p) v' W ltac:(lia)) as (s' & -> & W' & I & _). cbn [lwith snd]. split; [exact W'|].
    cbn [put lst]. rewrite I. apply subseq_refl.
  - apply Same. unfold lgetitem_slice. apply lwith_same. intros [[x y] z]. destruct (PySlice_AdjustIndices (lsize l) x y z) as [[? ?] ?].
    apply lwith_same. reflexivity.
  - apply Same. unfold lindex. repeat (apply lwith_same; intros ?). cbv zeta. destruct (_ <? _); [reflexivity|].
    repeat (apply lwith_same; intros ?). destruct (it_eqb _ _); [reflexivity|]. apply lwith_same. reflexivity.
  - apply Same. unfold lcount. repeat (apply lwith_same; intros ?). reflexivity.
  - apply Same. unfold lcontains. repeat (apply lwith_same; intros ?). reflexivity.
  - apply Same. unfold lto_list. repeat (apply lwith_same; intros ?). reflexivity.
  - apply Same. reflexivity.
Qed.

(** ** Failed conversions inside slice assignment and comparison *)
Lemma conv_small u z l : (forall l', u l' = (Ret (PInt z), l')) -> in_sbits 32 z -> lconv_err u l = ((z, None), l).
Proof.
  intros H R. rewrite (lconv_err_int u l z l (H l)) by (apply (in_range_64 KInt); exact R). rewrite wrap_id by (exact R || lia). reflexivity.
Qed.
Lemma firstn_len {A} (a b : list A) : firstn (length a) (a ++ b) = a.
Proof. induction a; cbn; [reflexivity|congruence]. Qed.
Lemma skipn_len {A} (a b : list A) : skipn (length a) (a ++ b) = b.
Proof. induction a; cbn; [reflexivity|assumption]. Qed.
Lemma skipn_len_S {A} (a b : list A) x : skipn (S (length a)) (a ++ x :: b) = b.
Proof. induction a; cbn; [reflexivity|assumption]. Qed.
Lemma assign_mid l pre x rest v : lwf l -> vals l = pre ++ x :: rest ->
  exists s', assign (lst l) (itpos (lst l) (length pre)) v = Ret s' /\ wf s' /\ values s' = (pre ++ [v]) ++ rest /\
    it_next s' (itpos (lst l) (length pre)) = Ret (itpos s' (length (pre ++ [v]))).
Proof.
  intros W V. assert (H : (length pre < size (lst l))%nat) by (rewrite size_vals, V, app_length; cbn; lia).
  destruct (assign_pos (lst l) (length pre) v W H) as (s' & E & W' & I & V' & _). exists s'. split; [exact E|]. split; [exact W'|].
  split.
  - rewrite V'. fold (vals l). rewrite V, firstn_len, skipn_len_S, <- app_assoc. reflexivity.
  - rewrite (itpos_ids (lst l) s') by (symmetry; exact I). rewrite next_pos by (auto; rewrite size_ids, I, <- size_ids; exact H).
    rewrite app_length. cbn [length]. do 2 f_equal. lia.
Qed.
Lemma insert_mid l pre rest v : lwf l -> vals l = pre ++ rest ->
  exists s', insert_ (lst l) (itpos (lst l) (length pre)) v = Ret s' /\ wf s' /\ values s' = (pre ++ [v]) ++ rest /\
    itpos (lst l) (length pre) = itpos s' (length (pre ++ [v])).
Proof.
  intros W V. assert (H : (length pre <= size (lst l))%nat) by (rewrite size_vals, V, app_length; lia).
  destruct (insert_pos (lst l) (length pre) v W H) as (s' & E & W' & V' & I & _). exists s'. split; [exact E|]. split; [exact W'|].
  split.
  - rewrite V'. fold (vals l). rewrite V, firstn_len, skipn_len, <- app_assoc. reflexivity.
  - rewrite !itpos_nth. rewrite I, app_length. cbn [length].
    rewrite nth_error_app2 by (rewrite firstn_length; lia). rewrite firstn_length, Nat.min_l by (rewrite <- size_ids; exact H).
    replace (length pre + 1 - length pre)%nat with 1%nat by lia. cbn [nth_error].
    rewrite <- (firstn_skipn (length pre) (ids (lst l))) at 1. rewrite nth_error_app2 by (rewrite firstn_length; lia).
    rewrite firstn_length, Nat.min_l by (rewrite <- size_ids; exact H). rewrite Nat.sub_diag. reflexivity.
Qed.

Lemma lassign_bad q e zs : forall n i pre rest l, lints_then_bad q i zs e -> Forall (fun v => in_sbits 32 v) zs ->
  lwf l -> vals l = pre ++ rest -> (length zs < n)%nat -> (n <= length rest)%nat ->
  exists l', lassign_loop_u q n i (itpos (lst l) (length pre)) l = (Raise e, l') /\ lwf l' /\
    vals l' = pre ++ zs ++ -1 :: skipn (S (length zs)) rest.
Proof.
  induction zs as [|z zs IH]; intros [|n] i pre [|x rest] l Q F W V N M; cbn [length] in N, M; try lia; cbn [lassign_loop_u].
  - destruct (Q l) as (o & A & B). rewrite A, next_ret, (lconv_err_bad o l e l (B l)).
    destruct (assign_mid l pre x rest (-1) W V) as (s' & -> & W' & V' & _). rewrite next_ret.
    exists (put l s'). split; [reflexivity|]. split; [exact W'|]. unfold vals. cbn [put lst]. rewrite V', <- app_assoc. reflexivity.
  - destruct Q as [Q Q']. destruct (Q l) as (o & A & B). pose proof (Forall_inv F) as Fz. pose proof (Forall_inv_tail F) as Ft.
    rewrite A, next_ret, (conv_small o z l B Fz).
    destruct (assign_mid l pre x rest z W V) as (s' & -> & W' & V' & Nx). rewrite next_ret. cbn [put lst]. rewrite Nx, next_ret.
    destruct (IH n (i + 1) (pre ++ [z]) rest (put l s') Q' Ft W' V' ltac:(lia) ltac:(lia)) as (l' & E & W2 & V2).
    exists l'. split; [exact E|]. split; [exact W2|]. rewrite V2, <- app_assoc. reflexivity.
Qed.
Lemma lassign_good q e zs : forall n i pre rest l, lints_then_bad q i zs e -> Forall (fun v => in_sbits 32 v) zs ->
  lwf l -> vals l = pre ++ rest -> (n <= length zs)%nat -> (n <= length rest)%nat ->
  exists l', lassign_loop_u q n i (itpos (lst l) (length pre)) l = (Ret (itpos (lst l') (length pre + n)), l') /\ lwf l' /\
    vals l' = (pre ++ firstn n zs) ++ skipn n rest /\ lints_then_bad q (i + Z.of_nat n) (skipn n zs) e.
Proof.
  induction zs as [|z zs IH]; intros [|n] i pre rest l Q F W V N M; cbn [length] in N; try lia.
  1, 2: exists l; rewrite Nat.add_0_r; split; [reflexivity|]; split; [exact W|]; split; [cbn; rewrite app_nil_r; exact V|];
    rewrite Z.add_0_r; exact Q.
  destruct rest as [|x rest]; cbn [length] in M; [lia|]. cbn [lassign_loop_u].
  destruct Q as [Q Q']. destruct (Q l) as (o & A & B). pose proof (Forall_inv F) as Fz. pose proof (Forall_inv_tail F) as Ft.
  rewrite A, next_ret, (conv_small o z l B Fz).
  destruct (assign_mid l pre x rest z W V) as (s' & -> & W' & V' & Nx). rewrite next_ret. cbn [put lst]. rewrite Nx, next_ret.
  destruct (IH n (i + 1) (pre ++ [z]) rest (put l s') Q' Ft W' V' ltac:(lia) ltac:(lia)) as (l' & E & W2 & V2 & Q2).
  exists l'. split.
  - cbn [put lst] in E. rewrite E. rewrite app_length. cbn [length]. do 3 f_equal. lia.
  - split; [exact W2|]. split; [rewrite V2, <- (app_assoc pre); reflexivity|].
    cbn [skipn]. replace (i + Z.of_nat (S n)) with (i + 1 + Z.of_nat n) by lia. exact Q2.
Qed.
Lemma linsert_bad q e zs : forall n i pre rest l, lints_then_bad q i zs e -> Forall (fun v => in_sbits 32 v) zs ->
  lwf l -> vals l = pre ++ rest -> (length zs < n)%nat ->
  exists l', linsert_loop_u q n i (itpos (lst l) (length pre)) l = (Raise e, l') /\ lwf l' /\ vals l' = pre ++ zs ++ -1 :: rest.
Proof.
  induction zs as [|z zs IH]; intros [|n] i pre rest l Q F W V N; cbn [length] in N; try lia; cbn [linsert_loop_u].
  - destruct (Q l) as (o & A & B). rewrite A, next_ret, (lconv_err_bad o l e l (B l)).
    destruct (insert_mid l pre rest (-1) W V) as (s' & -> & W' & V' & _). rewrite next_ret.
    exists (put l s'). split; [reflexivity|]. split; [exact W'|]. unfold vals. cbn [put lst]. rewrite V', <- app_assoc. reflexivity.
  - destruct Q as [Q Q']. destruct (Q l) as (o & A & B). pose proof (Forall_inv F) as Fz. pose proof (Forall_inv_tail F) as Ft.
    rewrite A, next_ret, (conv_small o z l B Fz).
    destruct (insert_mid l pre rest z W V) as (s' & -> & W' & V' & Ip). rewrite next_ret. rewrite Ip.
    destruct (IH n (i + 1) (pre ++ [z]) rest (put l s') Q' Ft W' V' ltac:(lia)) as (l' & E & W2 & V2).
    exists l'. split; [exact E|]. split; [exact W2|]. rewrite V2, <- app_assoc. reflexivity.
Qed.

Lemma setslice_bad_l sl q l start stop l1 m zs e : lunpack_u sl l = (Ret (start, stop, 1), l1) -> lwf l1 ->
  (forall t, s_len q t = (Ret m, t)) -> lints_then_bad q 0 zs e -> Forall (fun v => in_sbits 32 v) zs -> zlen zs < m ->
  let '(a, b, n) := PySlice_AdjustIndices (zlen (vals l1)) start stop 1 in
  exists l', lsetitem_slice_u sl q l = (Raise e, l') /\ lwf l' /\
    vals l' = firstn (Z.to_nat a) (vals l1) ++ zs ++ -1 :: skipn (Z.to_nat (a + Z.min n (zlen zs + 1))) (vals l1).
Proof.
  intros U W QL Q F Hm. pose proof (adjust_one (zlen (vals l1)) start stop (zlen_nonneg _)) as B.
  destruct (PySlice_AdjustIndices (zlen (vals l1)) start stop 1) as [[a b] n] eqn:Adj. destruct B as (Ba & Bb & ->).
  unfold lsetitem_slice_u. rewrite U, next_ret, lsize_vals, Adj, QL. cbn [seq_size fst snd].
  change (negb (1 =? 1)) with false. cbv iota. set (n := Z.max 0 (b - a)) in *.
  unfold at_z. destruct (Z.ltb_spec a 0); [lia|]. rewrite at_pos by exact W. cbn [lwith].
  set (pre := firstn (Z.to_nat a) (vals l1)). set (rest := skipn (Z.to_nat a) (vals l1)).
  assert (Es : vals l1 = pre ++ rest) by (symmetry; apply firstn_skipn).
  assert (Lp : length pre = Z.to_nat a) by (unfold pre, zlen in *; rewrite firstn_length; lia).
  assert (Lr : Z.of_nat (length rest) = zlen (vals l1) - a) by (unfold rest, zlen in *; rewrite skipn_length; lia).
  rewrite <- Lp.
  assert (Sk : forall j, 0 <= j -> skipn (Z.to_nat j) rest = skipn (Z.to_nat (a + j)) (vals l1)).
  { intros j Hj. unfold rest. rewrite skipn_skipn. f_equal. lia. }
  assert (X : zlen zs < n -> forall j, (length zs < j <= Z.to_nat n)%nat -> exists l',
    lassign_loop_u q j 0 (itpos (lst l1) (length pre)) l1 = (Raise e, l') /\ lwf l' /\
    vals l' = pre ++ zs ++ -1 :: skipn (Z.to_nat (a + Z.min n (zlen zs + 1))) (vals l1)).
  { intros Hn j Hj. destruct (lassign_bad q e zs j 0 pre rest l1 Q F W Es ltac:(lia) ltac:(lia)) as (l' & E & W' & V').
    exists l'. split; [exact E|]. split; [exact W'|]. rewrite V'.
    rewrite Z.min_r by lia. rewrite <- Sk by (unfold zlen; lia). unfold zlen. do 4 f_equal. lia. }
  unfold zlen in Hm.
  destruct (Z.eqb_spec m n) as [E|NE]; [|destruct (Z.ltb_spec m n) as [Lt|Gt]].
  - destruct (X ltac:(unfold zlen; lia) (Z.to_nat n) ltac:(lia)) as (l' & -> & R). rewrite next_raise. exists l'. split; [reflexivity|exact R].
  - destruct (X ltac:(unfold zlen; lia) (Z.to_nat m) ltac:(lia)) as (l' & -> & R). rewrite next_raise. exists l'. split; [reflexivity|exact R].
  - destruct (Z.lt_decidable (zlen zs) n) as [Hn|Hn].
    + destruct (X Hn (Z.to_nat n) ltac:(unfold zlen in *; lia)) as (l' & -> & R). rewrite next_raise. exists l'. split; [reflexivity|exact R].
    + unfold zlen in Hn. destruct (lassign_good q e zs (Z.to_nat n) 0 pre rest l1 Q F W Es ltac:(lia) ltac:(lia)) as (l2 & -> & W2 & V2 & Q2).
      rewrite next_ret. replace (length pre + Z.to_nat n)%nat with (length (pre ++ firstn (Z.to_nat n) zs))
        by (rewrite app_length, firstn_length; lia).
      rewrite Z2Nat.id in Q2 by lia. rewrite Z.add_0_l in Q2.
      destruct (linsert_bad q e (skipn (Z.to_nat n) zs) (Z.to_nat (m - n)) n (pre ++ firstn (Z.to_nat n) zs) (skipn (Z.to_nat n) rest) l2 Q2) as (l3 & -> & W3 & V3).
      * rewrite Forall_forall in F |- *. intros y Hy. apply F. rewrite <- (firstn_skipn (Z.to_nat n) zs). apply in_or_app. right. exact Hy.
      * exact W2.
      * exact V2.
      * rewrite skipn_length. lia.
      * exists l3. split; [reflexivity|]. split; [exact W3|]. rewrite V3, <- app_assoc. rewrite (app_assoc (firstn (Z.to_nat n) zs)), firstn_skipn.
        rewrite Sk by lia. rewrite Z.min_l by (unfold zlen; lia). reflexivity.
Qed.

Lemma deref_mid l pre x rest : lwf l -> vals l = pre ++ x :: rest ->
  deref (lst l) (itpos (lst l) (length pre)) = Ret x /\
  it_next (lst l) (itpos (lst l) (length pre)) = Ret (itpos (lst l) (length (pre ++ [x]))).
Proof.
  intros W V. assert (H : (length pre < size (lst l))%nat) by (rewrite size_vals, V, app_length; cbn; lia). split.
  - apply (deref_pos (lst l) (length pre) x W). fold (vals l). rewrite V, nth_error_app2, Nat.sub_diag by lia. reflexivity.
  - rewrite next_pos by auto. rewrite app_length. cbn [length]. do 2 f_equal. lia.
Qed.
Lemma leq_loop_bad q e x rest zs l : lwf l -> forall n i pre, lints_then_bad q i zs e -> Forall (fun v => in_sbits 32 v) zs ->
  vals l = pre ++ zs ++ x :: rest -> (length zs < n)%nat ->
  leq_loop_u q n i (itpos (lst l) (length pre)) l = (RetPending false e, l).
Proof.
  intros W. induction zs as [|z zs IH]; intros [|n] i pre Q F V N; cbn [length] in N; try lia; cbn [leq_loop_u].
  - destruct (Q l) as (o & A & B). rewrite A, next_ret. destruct (deref_mid l pre x rest W V) as [-> _]. rewrite next_ret.
    rewrite (lconv_err_bad o l e l (B l)). reflexivity.
  - destruct Q as [Q Q']. destruct (Q l) as (o & A & B). pose proof (Forall_inv F) as Fz. pose proof (Forall_inv_tail F) as Ft.
    rewrite A, next_ret. destruct (deref_mid l pre z (zs ++ x :: rest) W V) as [-> Nx]. rewrite next_ret.
    rewrite (conv_small o z l B Fz), Z.eqb_refl. cbn [negb]. rewrite Nx, next_ret.
    apply (IH n (i + 1) (pre ++ [z]) Q' Ft); [rewrite <- app_assoc; exact V|lia].
Qed.
Lemma lord_loop_bad r q e x rest zs l : lwf l -> x <> -1 -> forall n i pre, lints_then_bad q i zs e -> Forall (fun v => in_sbits 32 v) zs ->
  vals l = pre ++ zs ++ x :: rest -> (length zs < n)%nat ->
  lord_loop_u r q n i (itpos (lst l) (length pre)) None l = (RetPending (r x (-1)) e, l).
Proof.
  intros W X. induction zs as [|z zs IH]; intros [|n] i pre Q F V N; cbn [length] in N; try lia; cbn [lord_loop_u].
  - destruct (Q l) as (o & A & B). rewrite A, next_ret. destruct (deref_mid l pre x rest W V) as [-> _]. rewrite next_ret.
    rewrite (lconv_err_bad o l e l (B l)). cbv zeta. destruct (Z.eqb_spec x (-1)); [contradiction|]. reflexivity.
  - destruct Q as [Q Q']. destruct (Q l) as (o & A & B). pose proof (Forall_inv F) as Fz. pose proof (Forall_inv_tail F) as Ft.
    rewrite A, next_ret. destruct (deref_mid l pre z (zs ++ x :: rest) W V) as [-> Nx]. rewrite next_ret.
    rewrite (conv_small o z l B Fz). cbv zeta. rewrite Z.eqb_refl. cbn [negb]. rewrite Nx, next_ret.
    apply (IH n (i + 1) (pre ++ [z]) Q' Ft); [rewrite <- app_assoc; exact V|lia].
Qed.
Lemma compare_bad_l c q zs x rest e l : lwf l -> vals l = zs ++ x :: rest ->
  (forall t, s_len q t = (Ret (zlen (vals l)), t)) -> lints_then_bad q 0 zs e -> Forall (fun v => in_sbits 32 v) zs ->
  (is_ord c -> x <> -1) ->
  exists b, lcompare_u c q l = (RetPending b e, l) /\
    (b = true <-> match c with Eq_ => False | Ne_ => True | Lt_ => x < -1 | Le_ => x <= -1 | Gt_ => -1 < x | Ge_ => -1 <= x end).
Proof.
  intros W V QL Q F H.
  assert (Ln : (length zs < Z.to_nat (zlen (vals l)))%nat) by (unfold zlen; rewrite V, app_length; cbn; lia).
  assert (E : leq_u q l = (RetPending false e, l)).
  { unfold leq_u. rewrite QL. cbn [seq_size fst snd]. rewrite lsize_vals, Z.eqb_refl. cbn [negb]. rewrite begin_pos.
    apply (leq_loop_bad q e x rest zs l W _ 0 [] Q F V Ln). }
  assert (O : forall r, x <> -1 -> lord_u r q l = (RetPending (r x (-1)) e, l)).
  { intros r X. unfold lord_u. rewrite QL, next_ret, lsize_vals, Z.eqb_refl. cbn [negb]. rewrite begin_pos.
    apply (lord_loop_bad r q e x rest zs l W X _ 0 [] Q F V Ln). }
  destruct c; cbn [lcompare_u].
  - rewrite E. exists false. split; [reflexivity|]. split; [discriminate|contradiction].
  - unfold lne_u. rewrite E. exists true. split; [reflexivity|]. tauto.
  - rewrite (O _ (H I)). eexists. split; [reflexivity|]. apply Z.ltb_lt.
  - rewrite (O _ (H I)). eexists. split; [reflexivity|]. apply Z.leb_le.
  - rewrite (O _ (H I)). eexists. split; [reflexivity|]. rewrite Z.gtb_ltb. apply Z.ltb_lt.
  - rewrite (O _ (H I)). eexists. split; [reflexivity|]. rewrite Z.geb_leb. apply Z.leb_le.
Qed.
