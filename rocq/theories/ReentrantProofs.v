(** Proofs for ReentrantModel. *)
From Coq Require Import ZArith List Bool Lia.
From Verif Require Import Base PyLongModel PyLongProofs MemModel PyListSpec ListLemmas ArrayListModel ArrayListProofs
  ArrayListSpec ArrayListFacts ArrayListMoreModel ArrayListCmpProofs ReentrantModel ReentrantSpec.
Import ListNotations.
Local Open Scope Z_scope.
Local Arguments Z.mul : simpl never.
Local Arguments Z.add : simpl never.
Local Arguments Z.sub : simpl never.
Local Arguments Z.of_nat : simpl never.
Local Arguments Z.to_nat : simpl never.
Local Arguments Z.max : simpl never.
Local Arguments Z.min : simpl never.
Local Arguments Z.ltb : simpl never.
Local Arguments Z.leb : simpl never.
Local Arguments Z.eqb : simpl never.
Local Arguments Z.pow : simpl never.

Definition okst (k : kind) (s : list Z) : Prop := Forall (in_range k) s /\ zlen s <= SSIZE_MAX.

(** Outcomes of one piece of sane user code. *)
Lemma sane_cases {A} k (u : user A) s : sane k u -> okst k s ->
  (exists a s1, act u s = (Ret a, s1) /\ okst k s1) \/ (exists e s1, act u s = (Raise e, s1) /\ okst k s1).
Proof.
  intros H [F L]. destruct (H s F L) as (F1 & L1 & [[a E]|[e E]]); destruct (act u s) as [r s1]; cbn in *; subst r.
  - left. exists a, s1. repeat split; assumption.
  - right. exists e, s1. repeat split; assumption.
Qed.

Lemma as_long_in z : in_sbits 64 z -> as_long (PInt z) = Ret z.
Proof. intros H. cbn. apply in_sbits_b_spec in H. rewrite H. reflexivity. Qed.

Ltac user u S O :=
  let a := fresh "a" in let s1 := fresh "s" in let E := fresh "E" in let O1 := fresh "O" in let e := fresh "e" in
  destruct (sane_cases _ u _ S O) as [(a & s1 & E & O1)|(e & s1 & E & O1)];
  rewrite E; cbn [obind after fst snd];
  [destruct a as [?z|?x]|].

Lemma one_arg cfg k c o s : arguments c = [Some o] -> args_sane k c -> okst k s ->
  (exists z s1, act o s = (Ret (PInt z), s1) /\ okst k s1) \/
  (exists e s1, conv as_long o s = (Raise e, s1) /\ (forall B (f : pyobj -> outcome B), (forall x, f (PObj x) = Raise TypeError) -> conv f o s = (Raise e, s1)) /\
     atomic_call c s = (SRaise e, s1) /\ expected cfg k (SRaise e) = Raise e).
Proof.
  intros E S O. assert (So : sane k o) by (apply S; rewrite E; left; reflexivity).
  destruct (sane_cases k o s So O) as [(a & s1 & A & O1)|(e & s1 & A & O1)].
  - destruct a as [z|x]; [left; exists z, s1; auto|]. right. exists TypeError, s1.
    unfold conv, atomic_call. rewrite A, E. cbn [evaluate]. rewrite A. cbn.
    repeat split; try reflexivity. intros B f Hf. rewrite Hf. reflexivity.
  - right. exists e, s1. unfold conv, atomic_call. rewrite A, E. cbn [evaluate]. rewrite A.
    repeat split; reflexivity.
Qed.

Lemma atomic_one c o s z s1 : arguments c = [Some o] -> act o s = (Ret (PInt z), s1) ->
  atomic_call c s = match python_call c [Some z] with Some p => py_step p s1 | None => (SRaise TypeError, s1) end.
Proof. intros E A. unfold atomic_call. rewrite E. cbn [evaluate]. rewrite A. reflexivity. Qed.

Lemma pair_eta {A B} (p : A * B) : p = (fst p, snd p).
Proof. destruct p; reflexivity. Qed.

Lemma refines_at cfg k o s : okst k s -> op_ok k s o ->
  step cfg k o s = (expected cfg k (fst (py_step o s)), snd (py_step o s)).
Proof. intros [F L] H. apply step_refines; assumption. Qed.

Definition matches (cfg : config) (k : kind) (r : res) (p : sres * list Z) : Prop :=
  r = (expected cfg k (fst p), snd p).

Lemma append_atomic cfg k o s : okst k s -> args_sane k (RAppend o) -> args_fit k (RAppend o) ->
  matches cfg k (append_u k o s) (atomic_call (RAppend o) s).
Proof.
  intros O S F. destruct (one_arg cfg k (RAppend o) o s eq_refl S O) as [(z & s1 & A & O1)|(e & s1 & _ & C & T & _)].
  - unfold matches. rewrite (atomic_one (RAppend o) o s z s1 eq_refl A). cbn [python_call].
    rewrite <- refines_at; [|assumption|exact (F _ _ _ A)]. cbn [step]. unfold append_u, append, conv. rewrite A.
    cbn [obind]. rewrite as_elem_ok by (exact (F _ _ _ A)). reflexivity.
  - unfold matches. rewrite T. unfold append_u. rewrite C by reflexivity. reflexivity.
Qed.

Lemma count_atomic cfg k o s : okst k s -> args_sane k (RCount o) -> args_fit k (RCount o) ->
  matches cfg k (count_u k o s) (atomic_call (RCount o) s).
Proof.
  intros O S F. destruct (one_arg cfg k (RCount o) o s eq_refl S O) as [(z & s1 & A & O1)|(e & s1 & _ & C & T & _)].
  - unfold matches. rewrite (atomic_one (RCount o) o s z s1 eq_refl A). cbn [python_call].
    rewrite <- refines_at; [|assumption|exact (F _ _ _ A)]. cbn [step]. unfold count_u, count, conv. rewrite A.
    cbn [obind]. rewrite as_elem_ok by (exact (F _ _ _ A)). reflexivity.
  - unfold matches. rewrite T. unfold count_u. rewrite C by reflexivity. reflexivity.
Qed.

Lemma remove_atomic cfg k o s : okst k s -> args_sane k (RRemove o) -> args_fit k (RRemove o) ->
  matches cfg k (remove_u k o s) (atomic_call (RRemove o) s).
Proof.
  intros O S F. destruct (one_arg cfg k (RRemove o) o s eq_refl S O) as [(z & s1 & A & O1)|(e & s1 & _ & C & T & _)].
  - unfold matches. rewrite (atomic_one (RRemove o) o s z s1 eq_refl A). cbn [python_call].
    rewrite <- refines_at; [|assumption|exact (F _ _ _ A)]. cbn [step]. unfold remove_u, remove, conv. rewrite A.
    cbn [obind]. rewrite as_elem_ok by (exact (F _ _ _ A)). reflexivity.
  - unfold matches. rewrite T. unfold remove_u. rewrite C by reflexivity. reflexivity.
Qed.

Lemma get_atomic cfg k o s : okst k s -> args_sane k (RGet o) ->
  matches cfg k (subscript_u cfg k o s) (atomic_call (RGet o) s).
Proof.
  intros O S. destruct (one_arg cfg k (RGet o) o s eq_refl S O) as [(z & s1 & A & O1)|(e & s1 & _ & C & T & _)].
  - unfold matches. rewrite (atomic_one (RGet o) o s z s1 eq_refl A). cbn [python_call].
    rewrite <- refines_at; [|assumption|exact I]. cbn [step]. unfold subscript_u, subscript, conv. rewrite A.
    cbn [obind]. unfold after, with_. cbn [fst snd]. destruct (as_index (PInt z)); reflexivity.
  - unfold matches. rewrite T. unfold subscript_u. rewrite C by reflexivity. reflexivity.
Qed.

Lemma del_atomic cfg k o s : okst k s -> args_sane k (RDel o) ->
  matches cfg k (ass_subscript_u k o None s) (atomic_call (RDel o) s).
Proof.
  intros O S. destruct (one_arg cfg k (RDel o) o s eq_refl S O) as [(z & s1 & A & O1)|(e & s1 & _ & C & T & _)].
  - unfold matches. rewrite (atomic_one (RDel o) o s z s1 eq_refl A). cbn [python_call].
    rewrite <- refines_at; [|assumption|exact I]. cbn [step]. unfold ass_subscript_u, ass_subscript, conv. rewrite A.
    cbn [obind]. unfold after, with_. cbn [fst snd]. destruct (as_index (PInt z)); reflexivity.
  - unfold matches. rewrite T. unfold ass_subscript_u. rewrite C by reflexivity. reflexivity.
Qed.

Lemma insert_atomic cfg k oi ov s : okst k s -> args_sane k (RInsert oi ov) -> args_fit k (RInsert oi ov) ->
  matches cfg k (insert_u k oi ov s) (atomic_call (RInsert oi ov) s).
Proof.
  intros O S [Fi Fv].
  assert (Si : sane k oi) by (apply S; left; reflexivity).
  assert (Sv : sane k ov) by (apply S; right; left; reflexivity).
  unfold matches, insert_u, atomic_call, conv. cbn [arguments evaluate].
  destruct (sane_cases k oi s Si O) as [(a & s1 & A & O1)|(e & s1 & A & O1)]; rewrite A; [|reflexivity].
  destruct a as [i|x]; [|reflexivity]. cbn [obind]. unfold parse_n. rewrite as_long_in by (exact (Fi _ _ _ A)).
  unfold after at 1. cbn [fst snd].
  destruct (sane_cases k ov s1 Sv O1) as [(b & s2 & B & O2)|(e & s2 & B & O2)]; rewrite B; [|reflexivity].
  destruct b as [v|x]; [|reflexivity]. cbn [obind python_call].
  rewrite <- refines_at; [|assumption|exact (Fv _ _ _ B)]. cbn [step]. unfold insert.
  rewrite parse_elem_ok by (exact (Fv _ _ _ B)). unfold parse_n. rewrite as_long_in by (exact (Fi _ _ _ A)). reflexivity.
Qed.

Lemma conv_opt_sane k f d (o : option uobj) s : (match o with None => True | Some u => sane k u end) -> okst k s ->
  (forall x, f (PObj x) = Raise TypeError) ->
  (o = None /\ conv_opt f d o s = (Ret d, s)) \/
  (exists (u : uobj) z s1, o = Some u /\ act u s = (Ret (PInt z), s1) /\ conv_opt f d o s = (f (PInt z), s1) /\ okst k s1) \/
  (exists (u : uobj) e s1, o = Some u /\ evaluate [Some u] s = (inr e, s1) /\ conv_opt f d o s = (Raise e, s1) /\
     forall r, evaluate (Some u :: r) s = (inr e, s1)).
Proof.
  intros S O Hf. destruct o as [u|]; [|left; split; reflexivity]. right.
  unfold conv_opt, conv. destruct (sane_cases k u s S O) as [(a & s1 & A & O1)|(e & s1 & A & O1)].
  - destruct a as [z|x].
    + left. exists u, z, s1. rewrite A. auto.
    + right. exists u, TypeError, s1. cbn [evaluate]. rewrite A. cbn [obind]. rewrite Hf. auto.
  - right. exists u, e, s1. cbn [evaluate]. rewrite A. cbn. auto.
Qed.

(** index: the code is Python's with the omitted stop replaced by the size the
    list had when the call started. *)
Lemma index_eval cfg k o oa ob s : okst k s -> args_sane k (RIndex o oa ob) -> args_fit k (RIndex o oa ob) ->
  index_u k o oa ob s =
  match evaluate [Some o; oa; ob] s with
  | (inr e, s') => (Raise e, s')
  | (inl zs, s') =>
      match zs with
      | [Some v; a; b] => let b := match b with None => Some (zlen s) | Some b => Some b end in
          (expected cfg k (fst (py_step (OIndex v a b) s')), s')
      | _ => (Undef OutOfBounds, s')
      end
  end.
Proof.
  intros O S (Fv & Fa & Fb).
  assert (Sv : sane k o) by (apply S; left; reflexivity).
  assert (Sa : match oa with None => True | Some u => sane k u end)
    by (destruct oa; [apply S; right; left; reflexivity|exact I]).
  assert (Sb : match ob with None => True | Some u => sane k u end)
    by (destruct ob; [apply S; right; right; left; reflexivity|exact I]).
  assert (L0 : in_sbits 64 (zlen s)).
  { destruct O as [_ L]. pose proof (zlen_nonneg s). destruct ssize_consts as [EA _]. rewrite EA in L.
    unfold in_sbits. change (2 ^ (64 - 1)) with 9223372036854775808. lia. }
  unfold index_u. set (stop0 := zlen s) in *. unfold conv at 1.
  replace (evaluate [Some o; oa; ob] s) with
    (match act o s with
     | (Ret (PInt z), s1) =>
          match evaluate [oa; ob] s1 with
          | (inl zs, s') => (inl (Some z :: zs), s')
          | (inr e, s') => (inr e, s')
          end
      | (Raise e, s1) => (inr e, s1)
      | (_, s1) => (inr TypeError, s1)
      end : (list (option Z) + exn) * list Z) by reflexivity.
  destruct (sane_cases k o s Sv O) as [(a & s1 & A & O1)|(e & s1 & A & O1)]; rewrite A; [|reflexivity].
  destruct a as [v|x]; [|reflexivity]. cbn [obind]. pose proof (Fv _ _ _ A) as Rv.
  rewrite parse_elem_ok by exact Rv. unfold after at 1. cbn [fst snd].
  assert (Pn : forall x, parse_n (PObj x) = Raise TypeError) by reflexivity.
  assert (Tail : forall (oa' ob' : option Z) (a b : Z) s3, okst k s3 -> in_ssize_opt oa' -> in_ssize_opt ob' ->
    a = match oa' with None => 0 | Some x => x end ->
    b = match ob' with None => stop0 | Some x => x end ->
    (let size := zlen s3 in
    let start := if a <? 0 then a + size else a in
    let stop := if b <? 0 then b + size else b in
    let start := if start <? 0 then 0 else start in
    let stop := if size <? stop then size else stop in
    if stop <? start then (Raise ValueError, s3)
    else with_ (std_find s3 v (Z.to_nat (stop - start)) start) s3 (fun it =>
         if it =? stop then (Raise ValueError, s3) else (Ret (VInt it), s3)))
    = (expected cfg k (fst (py_step (OIndex v oa' (Some b)) s3)), s3)).
  { intros oa' ob' a b s3 [F3 L3] Ha Hb -> ->.
    set (b := match ob' with None => stop0 | Some x => x end).
    assert (Hbb : in_ssize_opt (Some b)).
    { unfold b. destruct ob' as [x|]; [exact Hb|]. cbn. unfold in_ssize. apply in_sbits_b_spec. exact L0. }
    pose proof (zlen_nonneg s3) as N3.
    rewrite <- (index_step cfg k v oa' (Some b) s3 (conj N3 L3) Rv Ha Hbb).
    unfold index. rewrite parse_elem_ok by exact Rv. cbn [with_ option_map].
    assert (EA : match option_map PInt oa' with None => Ret 0 | Some x => parse_n x end
               = Ret (match oa' with None => 0 | Some a => a end)).
    { destruct oa' as [a|]; cbn in *; [unfold in_ssize in Ha; rewrite Ha|]; reflexivity. }
    rewrite EA. cbn [with_]. unfold parse_n. rewrite as_long_in by (apply in_sbits_b_spec; exact Hbb). cbn [with_].
    reflexivity. }
  destruct (conv_opt_sane k parse_n 0 oa s1 Sa O1 Pn) as [[-> ->]|[(u & za & s2 & -> & A2 & -> & O2)|(u & e & s2 & -> & _ & -> & Ev)]].
  - unfold after at 1. cbn [fst snd evaluate].
    destruct (conv_opt_sane k parse_n stop0 ob s1 Sb O1 Pn) as [[-> ->]|[(u & zb & s3 & -> & A3 & -> & O3)|(u & e & s3 & -> & _ & -> & Ev)]].
    + unfold after at 1. cbn [fst snd]. apply (Tail None None 0 stop0 s1 O1 I I); reflexivity.
    + pose proof (Fb _ _ _ A3) as Rb. cbv beta in Rb. rewrite A3. cbn [evaluate]. unfold parse_n. rewrite as_long_in by exact Rb.
      unfold after at 1. cbn [fst snd]. apply (Tail None (Some zb) 0 zb s3 O3 I); try reflexivity.
      cbn. unfold in_ssize. apply in_sbits_b_spec. exact Rb.
    + unfold after at 1. cbn [fst snd]. specialize (Ev []). cbn [evaluate] in Ev. rewrite Ev. reflexivity.
  - pose proof (Fa _ _ _ A2) as Ra. cbv beta in Ra. unfold parse_n at 1. rewrite as_long_in by exact Ra.
    unfold after at 1. cbn [fst snd evaluate]. rewrite A2.
    assert (Hs : in_ssize_opt (Some za)) by (cbn; unfold in_ssize; apply in_sbits_b_spec; exact Ra).
    destruct (conv_opt_sane k parse_n stop0 ob s2 Sb O2 Pn) as [[-> ->]|[(u' & zb & s3 & -> & A3 & -> & O3)|(u' & e & s3 & -> & _ & -> & Ev)]].
    + unfold after at 1. cbn [fst snd]. apply (Tail (Some za) None za stop0 s2 O2 Hs I); reflexivity.
    + pose proof (Fb _ _ _ A3) as Rb. cbv beta in Rb. rewrite A3. cbn [evaluate]. unfold parse_n. rewrite as_long_in by exact Rb.
      unfold after at 1. cbn [fst snd]. apply (Tail (Some za) (Some zb) za zb s3 O3 Hs); try reflexivity.
      cbn. unfold in_ssize. apply in_sbits_b_spec. exact Rb.
    + unfold after at 1. cbn [fst snd]. specialize (Ev []). cbn [evaluate] in Ev. rewrite Ev. reflexivity.
  - unfold after at 1. cbn [fst snd]. specialize (Ev [ob]). rewrite Ev. reflexivity.
Qed.

Lemma index_atomic cfg k o oa ob s : okst k s -> args_sane k (RIndex o oa ob) -> args_fit k (RIndex o oa ob) ->
  ob <> None -> matches cfg k (index_u k o oa ob s) (atomic_call (RIndex o oa ob) s).
Proof.
  intros O S F N. unfold matches. rewrite (index_eval cfg) by assumption. unfold atomic_call. cbn [arguments].
  destruct ob as [u|]; [|congruence]. clear N.
  destruct (evaluate [Some o; oa; Some u] s) as [[zs|e] s'] eqn:E; [|reflexivity].
  cbn [evaluate] in E.
  destruct (act o s) as [[[v|x]| | |] s1]; try discriminate.
  destruct oa as [ua|].
  - destruct (act ua s1) as [[[za|x]| | |] s2]; try discriminate.
    destruct (act u s2) as [[[zb|x]| | |] s3]; try discriminate.
    inversion E; subst. cbn [python_call]. cbn [py_step]. destruct (filter _ _); reflexivity.
  - destruct (act u s1) as [[[zb|x]| | |] s3]; try discriminate.
    inversion E; subst. cbn [python_call]. cbn [py_step]. destruct (filter _ _); reflexivity.
Qed.

Lemma after_ret {A B} (a : A) s (f : A -> list Z -> outcome B * list Z) : after (Ret a, s) f = f a s.
Proof. reflexivity. Qed.

(** Unpacking a slice. *)
Lemma unpack_eval k sl s : okst k s -> args_sane k (RGetSlice sl) -> args_fit k (RGetSlice sl) ->
  match evaluate [u_step sl; u_start sl; u_stop sl] s with
  | (inr e, s') => unpack_u sl s = (Raise e, s')
  | (inl zs, s') => exists c a b, zs = [c; a; b] /\ okst k s' /\
      unpack_u sl s = (PySlice_Unpack {| sl_start := a; sl_stop := b; sl_step := c |}, s') /\
      step_of {| sl_start := a; sl_stop := b; sl_step := c |} <> 0
  end.
Proof.
  intros O Sa Ft. destruct sl as [st sp se]. cbn [args_fit u_step u_start u_stop] in *.
  assert (S1 : match se with None => True | Some u => sane k u end)
    by (destruct se; [apply Sa; left; reflexivity|exact I]).
  assert (S2 : match st with None => True | Some u => sane k u end)
    by (destruct st; [apply Sa; right; left; reflexivity|exact I]).
  assert (S3 : match sp with None => True | Some u => sane k u end)
    by (destruct sp; [apply Sa; right; right; left; reflexivity|exact I]).
  clear Sa. unfold unpack_u. cbn [u_step u_start u_stop].
  assert (Pn : forall x, slice_index (PObj x) = Raise TypeError) by reflexivity.
  assert (Rest : forall step0 s1, okst k s1 -> step0 <> 0 ->
    match evaluate [st; sp] s1 with
    | (inr e, s') =>
       after (conv_opt slice_index (if (if step0 <? - SSIZE_MAX then - SSIZE_MAX else step0) <? 0 then SSIZE_MAX else 0) st s1) (fun start s =>
       after (conv_opt slice_index (if (if step0 <? - SSIZE_MAX then - SSIZE_MAX else step0) <? 0 then SSIZE_MIN else SSIZE_MAX) sp s) (fun stop s =>
       (Ret (start, stop, if step0 <? - SSIZE_MAX then - SSIZE_MAX else step0), s))) = (Raise e, s')
    | (inl zs, s') => exists a b, zs = [a; b] /\ okst k s' /\
       after (conv_opt slice_index (if (if step0 <? - SSIZE_MAX then - SSIZE_MAX else step0) <? 0 then SSIZE_MAX else 0) st s1) (fun start s =>
       after (conv_opt slice_index (if (if step0 <? - SSIZE_MAX then - SSIZE_MAX else step0) <? 0 then SSIZE_MIN else SSIZE_MAX) sp s) (fun stop s =>
       (Ret (start, stop, if step0 <? - SSIZE_MAX then - SSIZE_MAX else step0), s)))
       = (Ret (match a with None => if (if step0 <? - SSIZE_MAX then - SSIZE_MAX else step0) <? 0 then SSIZE_MAX else 0 | Some z => clip z end,
               match b with None => if (if step0 <? - SSIZE_MAX then - SSIZE_MAX else step0) <? 0 then SSIZE_MIN else SSIZE_MAX | Some z => clip z end,
               if step0 <? - SSIZE_MAX then - SSIZE_MAX else step0), s')
    end).
  { intros step0 s1 O1 Hs. set (st1 := if step0 <? - SSIZE_MAX then - SSIZE_MAX else step0). clearbody st1.
    destruct (conv_opt_sane k slice_index (if st1 <? 0 then SSIZE_MAX else 0) st s1 S2 O1 Pn) as
      [[-> ->]|[(u & za & s2 & -> & A2 & -> & O2)|(u & e & s2 & -> & _ & -> & Ev)]].
    - unfold after at 1 3. cbn [fst snd].
      destruct (conv_opt_sane k slice_index (if st1 <? 0 then SSIZE_MIN else SSIZE_MAX) sp s1 S3 O1 Pn) as
        [[-> ->]|[(u' & zb & s3 & -> & A3 & -> & O3)|(u' & e & s3 & -> & _ & -> & Ev)]]; cbn [evaluate].
      + exists None, None. repeat split; try apply O1; reflexivity.
      + rewrite A3. exists None, (Some zb). repeat split; try apply O3; reflexivity.
      + specialize (Ev []). cbn [evaluate] in Ev. rewrite Ev. reflexivity.
    - cbn [evaluate]. rewrite A2. unfold slice_index at 1 3. unfold after at 1 3. cbn [fst snd].
      destruct (conv_opt_sane k slice_index (if st1 <? 0 then SSIZE_MIN else SSIZE_MAX) sp s2 S3 O2 Pn) as
        [[-> ->]|[(u' & zb & s3 & -> & A3 & -> & O3)|(u' & e & s3 & -> & _ & -> & Ev)]]; cbn [evaluate].
      + exists (Some za), None. repeat split; try apply O2; reflexivity.
      + rewrite A3. exists (Some za), (Some zb). repeat split; try apply O3; reflexivity.
      + specialize (Ev []). cbn [evaluate] in Ev. rewrite Ev. reflexivity.
    - rewrite Ev. reflexivity. }
  assert (CZ : forall z, z <> 0 -> clip z <> 0).
  { intros z Hz. destruct (clip_cases z) as [[? ->]|[[? ->]|[? ->]]]; try assumption; destruct ssize_consts; lia. }
  destruct (conv_opt_sane k slice_index 1 se s S1 O Pn) as
    [[-> ->]|[(u & zs & s2 & -> & A2 & -> & O2)|(u & e & s2 & -> & _ & -> & Ev)]].
  - rewrite !after_ret. change (1 =? 0) with false. cbv iota.
    specialize (Rest 1 s O ltac:(lia)).
    replace (evaluate [None; st; sp] s) with
      (match evaluate [st; sp] s with (inl zs, s') => (inl (None :: zs), s') | (inr e, s') => (inr e, s') end
       : (list (option Z) + exn) * list Z) by reflexivity.
    destruct (evaluate [st; sp] s) as [[zs|e] s']; [|exact Rest].
    destruct Rest as (a & b & -> & O' & R). exists None, a, b. split; [reflexivity|]. split; [exact O'|].
    split; [exact R|]. cbn. lia.
  - pose proof (Ft _ _ _ A2) as Nz. cbv beta in Nz. change (slice_index (PInt zs)) with (Ret (clip zs)). rewrite !after_ret.
    destruct (Z.eqb_spec (clip zs) 0) as [E|_]; [exfalso; exact (CZ zs Nz E)|].
    specialize (Rest (clip zs) s2 O2 (CZ zs Nz)).
    replace (evaluate [Some u; st; sp] s) with
      (match evaluate [st; sp] s2 with (inl l, s') => (inl (Some zs :: l), s') | (inr e, s') => (inr e, s') end
       : (list (option Z) + exn) * list Z) by (cbn [evaluate]; rewrite A2; reflexivity).
    destruct (evaluate [st; sp] s2) as [[l|e] s']; [|exact Rest].
    destruct Rest as (a & b & -> & O' & R). exists (Some zs), a, b. split; [reflexivity|]. split; [exact O'|].
    split; [|exact Nz]. unfold PySlice_Unpack. cbn [sl_step sl_start sl_stop].
    destruct (Z.eqb_spec (clip zs) 0) as [E|_]; [exfalso; exact (CZ zs Nz E)|]. exact R.
  - rewrite Ev. reflexivity.
Qed.

Lemma getslice_atomic cfg k sl s : okst k s -> args_sane k (RGetSlice sl) -> args_fit k (RGetSlice sl) ->
  matches cfg k (getitem_slice_u cfg k sl s) (atomic_call (RGetSlice sl) s).
Proof.
  intros O S F. pose proof (unpack_eval k sl s O S F) as H. unfold matches, atomic_call, getitem_slice_u. cbn [arguments].
  destruct (evaluate [u_step sl; u_start sl; u_stop sl] s) as [[zs|e] s'].
  - destruct H as (c & a & b & -> & O' & -> & Nz). cbn [python_call].
    rewrite <- refines_at; [|assumption|exact I]. cbn [step]. unfold getitem_slice.
    destruct (PySlice_Unpack _) as [[[x y] z]| | |]; reflexivity.
  - rewrite H. reflexivity.
Qed.

Theorem atomic_ok cfg k c s : Forall (fun v => in_sbits (bits k) v) s -> zlen s <= SSIZE_MAX ->
  args_sane k c -> args_fit k c -> size_read_last c ->
  rstep cfg k c s = (expected cfg k (fst (atomic_call c s)), snd (atomic_call c s)).
Proof.
  intros F L S A R. assert (O : okst k s) by (split; assumption).
  destruct c; cbn [rstep size_read_last] in *; try contradiction.
  - apply append_atomic; assumption.
  - apply insert_atomic; assumption.
  - apply remove_atomic; assumption.
  - apply count_atomic; assumption.
  - apply index_atomic; assumption.
  - apply get_atomic; assumption.
  - apply del_atomic; assumption.
  - apply getslice_atomic; assumption.
Qed.

(** ** pop and item assignment: the size is read too early *)
Lemma pop_exact cfg k o s i s1 : okst k s1 -> s <> [] -> act o s = (Ret (PInt i), s1) -> in_sbits 64 i ->
  let p := rel (zlen s) i in
  pop_u cfg k o s =
  if (0 <=? p) && (p <? zlen s) then
    if p <? zlen s1 then (Ret (VElem (from_elem cfg k (get_default s1 p))), firstn (Z.to_nat p) s1 ++ skipn (Z.to_nat p + 1) s1)
    else (Undef OutOfBounds, s1)
  else (Raise IndexError, s1).
Proof.
  intros O1 N A I p. unfold pop_u. destruct s as [|x r]; [congruence|]. set (s := x :: r) in *. clearbody s.
  unfold conv. rewrite A. cbn [obind]. rewrite as_long_in by exact I. rewrite after_ret. fold (rel (zlen s) i). fold p.
  cbv zeta. rewrite idx_test. destruct ((0 <=? p) && (p <? zlen s)) eqn:B; cbn [negb]; [|reflexivity].
  apply rel_bounds_dec in B. destruct (Z.ltb_spec p (zlen s1)) as [L|L].
  - destruct (zsplit s1 p ltac:(lia)) as (a & y & b & -> & La).
    rewrite znth_mid, zerase_mid by (symmetry; exact La).
    rewrite firstn_zlen, skipn1_zlen, get_default_mid by (symmetry; exact La). reflexivity.
  - destruct (znth s1 p) eqn:Z1; [|reflexivity]. apply znth_some in Z1. lia.
Qed.

Lemma pop_keeps_size cfg k o s : okst k s -> s <> [] -> args_sane k (RPop o) -> args_fit k (RPop o) ->
  zlen (snd (act o s)) = zlen s -> matches cfg k (pop_u cfg k o s) (atomic_call (RPop o) s).
Proof.
  intros O N S F Z1. destruct (one_arg cfg k (RPop o) o s eq_refl S O) as [(z & s1 & A & O1)|(e & s1 & C0 & C & T & _)].
  - pose proof (F _ _ _ A) as R. cbv beta in R. unfold matches. rewrite (atomic_one (RPop o) o s z s1 eq_refl A). cbn [python_call].
    rewrite (pop_exact cfg k o s z s1 O1 N A R). rewrite A in Z1. cbn [snd] in Z1. rewrite <- Z1.
    cbn [py_step]. fold (zlen s1). unfold in_ssize. rewrite (proj2 (in_sbits_b_spec 64 z)) by exact R.
    destruct ((0 <=? rel (zlen s1) z) && (rel (zlen s1) z <? zlen s1)) eqn:B; [|reflexivity].
    apply rel_bounds_dec in B. destruct (Z.ltb_spec (rel (zlen s1) z) (zlen s1)); [reflexivity|lia].
  - unfold matches. rewrite T. unfold pop_u. destruct s; [congruence|]. rewrite C0. reflexivity.
Qed.

Lemma zset_spec {A} (s : list A) p v : 0 <= p < zlen s ->
  zset s p v = Some (firstn (Z.to_nat p) s ++ v :: skipn (Z.to_nat p + 1) s).
Proof.
  intros H. destruct (zsplit s p H) as (a & x & b & -> & La).
  rewrite zset_mid, firstn_zlen, skipn1_zlen by (symmetry; exact La). reflexivity.
Qed.

Lemma nset_some {A} (l : list A) : forall n v l', nset l n v = Some l' -> (n < length l)%nat /\ length l' = length l.
Proof.
  induction l as [|y l IH]; intros n v l' E; [destruct n; discriminate|].
  destruct n as [|n]; cbn [nset] in E; [inversion E; subst; cbn; lia|].
  destruct (nset l n v) as [l2|] eqn:E2; [|discriminate]. apply IH in E2. inversion E; subst. cbn. lia.
Qed.

Lemma zset_some {A} (l : list A) p v l' : zset l p v = Some l' -> 0 <= p < zlen l /\ zlen l' = zlen l.
Proof.
  unfold zset, zlen. destruct (Z.ltb_spec p 0); [discriminate|]. intros E. apply nset_some in E. lia.
Qed.

Lemma zset_out {A} (s : list A) p v : zlen s <= p -> zset s p v = None.
Proof. intros H. destruct (zset s p v) eqn:E; [|reflexivity]. apply zset_some in E. lia. Qed.

Lemma zset_in {A} (l : list A) p v : 0 <= p < zlen l -> exists l', zset l p v = Some l' /\ zlen l' = zlen l.
Proof.
  intros H. rewrite zset_spec by exact H. eexists. split; [reflexivity|].
  pose proof (zset_spec l p v H) as E. apply zset_some in E. apply E.
Qed.

Lemma ninsert_len {A} (l : list A) : forall n v l', ninsert l n v = Some l' -> length l' = S (length l).
Proof.
  induction l as [|y l IH]; intros n v l' E; destruct n as [|n]; cbn [ninsert] in E;
    try discriminate; try (inversion E; subst; reflexivity).
  destruct (ninsert l n v) as [l2|] eqn:E2; [|discriminate]. apply IH in E2. inversion E; subst. cbn. lia.
Qed.

Lemma zinsert_in {A} (l : list A) p v : 0 <= p <= zlen l -> exists l', zinsert l p v = Some l' /\ zlen l' = zlen l + 1.
Proof.
  intros H. destruct (zsplit_le l p H) as (a & b & -> & La). rewrite zinsert_mid by (symmetry; exact La).
  eexists. split; [reflexivity|]. rewrite !zlen_app, zlen_cons. lia.
Qed.

Lemma set_exact cfg k oi ov s i s1 v s2 : okst k s1 -> act oi s = (Ret (PInt i), s1) -> in_sbits 64 i ->
  act ov s1 = (Ret (PInt v), s2) -> in_range k v ->
  let p := rel (zlen s1) i in
  rstep cfg k (RSet oi ov) s =
  if (0 <=? p) && (p <? zlen s1) then
    if p <? zlen s2 then (Ret VNone, firstn (Z.to_nat p) s2 ++ v :: skipn (Z.to_nat p + 1) s2)
    else (Undef OutOfBounds, s2)
  else (Raise IndexError, s1).
Proof.
  intros [_ L1] A I B R p. cbn [rstep]. unfold ass_subscript_u, conv. rewrite A. cbn [obind]. unfold as_index.
  rewrite (proj2 (in_sbits_b_spec 64 i)) by exact I. rewrite after_ret. unfold setitem_u. cbv zeta.
  replace (if i <? 0 then zlen s1 + i else i) with p by (unfold p, rel; destruct (i <? 0); lia).
  rewrite idx_test. destruct ((0 <=? p) && (p <? zlen s1)) eqn:Bd; cbn [negb]; [|reflexivity].
  apply rel_bounds_dec in Bd. unfold conv. rewrite B. cbn [obind]. rewrite as_elem_ok by exact R. rewrite after_ret.
  destruct (Z.ltb_spec p (zlen s2)) as [L|L]; [rewrite zset_spec by lia|rewrite zset_out by lia]; reflexivity.
Qed.

Lemma set_keeps_size cfg k oi ov s i s1 v s2 : okst k s1 -> act oi s = (Ret (PInt i), s1) -> in_sbits 64 i ->
  act ov s1 = (Ret (PInt v), s2) -> in_range k v -> zlen s2 = zlen s1 ->
  let p := rel (zlen s1) i in 0 <= p < zlen s1 ->
  rstep cfg k (RSet oi ov) s = (expected cfg k (fst (atomic_call (RSet oi ov) s)), snd (atomic_call (RSet oi ov) s)).
Proof.
  intros O1 A I B R Z1 p Hp. rewrite (set_exact cfg k oi ov s i s1 v s2) by assumption. fold p.
  unfold atomic_call. cbn [arguments evaluate]. rewrite A, B. cbn [evaluate python_call py_step]. fold (zlen s2).
  rewrite Z1. fold p. rewrite (proj2 (rel_bounds_dec _ _) Hp). destruct (Z.ltb_spec p (zlen s1)); [reflexivity|lia].
Qed.

(** ** Slice assignment *)
Lemma adjust_step1 len start stop : 0 <= len ->
  let '(a, b, n) := PySlice_AdjustIndices len start stop 1 in
  0 <= a <= len /\ 0 <= b <= len /\ n = Z.max 0 (b - a).
Proof.
  intros H. unfold PySlice_AdjustIndices, adjust1. change (1 <? 0) with false. cbv iota.
  repeat match goal with |- context [?x <? ?y] => destruct (Z.ltb_spec x y)
    | |- context [?x <=? ?y] => destruct (Z.leb_spec x y) end; rewrite ?Z.div_1_r; lia.
Qed.

Definition safe_piece (A : Type) (u : user A) : Prop := returns u /\ never_shrinks u.

Lemma piece {A} (u : user A) s : returns u -> never_shrinks u ->
  (exists a s1, act u s = (Ret a, s1) /\ zlen s <= zlen s1) \/ (exists e s1, act u s = (Raise e, s1) /\ zlen s <= zlen s1).
Proof.
  intros R N. specialize (N s). destruct (R s) as [[a E]|[e E]]; destruct (act u s) as [r s1]; cbn in *; subst r; [left|right]; eauto.
Qed.

Lemma conv_err_piece k o s : returns o -> never_shrinks o ->
  exists v err s1, conv_err k o s = ((v, err), s1) /\ zlen s <= zlen s1.
Proof.
  intros R N. unfold conv_err, conv. destruct (piece o s R N) as [(a & s1 & -> & L)|(e & s1 & -> & L)].
  - destruct (obind (Ret a) as_long); eauto.
  - cbn. eauto.
Qed.

Lemma assign_safe k q start n : seq_all (@returns) q -> seq_all (@never_shrinks) q -> 0 <= start ->
  forall i s, 0 <= i -> start + i + Z.of_nat n <= zlen s ->
  defined (fst (assign_loop_u k q n i start s)) /\ zlen s <= zlen (snd (assign_loop_u k q n i start s)).
Proof.
  intros [_ R] [_ N] Hs. induction n as [|n IH]; intros i s Hi H; cbn [assign_loop_u].
  - split; [intros u; discriminate|cbn; lia].
  - destruct (R i) as [R1 R2]. destruct (N i) as [N1 N2].
    destruct (piece (q_get q i) s R1 N1) as [(o & s1 & A & L)|(e & s1 & A & L)]; rewrite A.
    + rewrite after_ret.
      assert (Ro : returns o) by (apply (R2 s); rewrite A; reflexivity).
      assert (No : never_shrinks o) by (apply (N2 s); rewrite A; reflexivity).
      destruct (conv_err_piece k o s1 Ro No) as (v & err & s2 & C & L2). rewrite C.
      destruct (zset_in s2 (start + i) v) as (s3 & E3 & L3); [lia|]. rewrite E3.
      destruct err as [e|]; [split; [intros u; discriminate|cbn; lia]|].
      destruct (IH (i + 1) s3 ltac:(lia) ltac:(lia)) as [D K]. split; [exact D|lia].
    + unfold after. cbn [fst snd]. split; [intros u; discriminate|lia].
Qed.

Lemma insert_safe ord k q start n : seq_all (@returns) q -> seq_all (@never_shrinks) q -> 0 <= start ->
  (ord = ConvFirst \/ seq_all (@keeps_buffer) q) ->
  forall i s, 0 <= i -> start + i <= zlen s ->
  defined (fst (insert_loop_u ord k q n i start s)).
Proof.
  intros [_ R] [_ N] Hs Ho. induction n as [|n IH]; intros i s Hi H; cbn [insert_loop_u].
  - intros u; discriminate.
  - destruct (R i) as [R1 R2]. destruct (N i) as [N1 N2].
    destruct (piece (q_get q i) s R1 N1) as [(o & s1 & A & L)|(e & s1 & A & L)]; rewrite A.
    + rewrite after_ret.
      assert (Ro : returns o) by (apply (R2 s); rewrite A; reflexivity).
      assert (No : never_shrinks o) by (apply (N2 s); rewrite A; reflexivity).
      destruct (conv_err_piece k o s1 Ro No) as (v & err & s2 & C & L2). rewrite C.
      assert (St : match ord with IterFirst => inval o s1 | ConvFirst => false end = false).
      { destruct Ho as [->|[_ Hk]]; [reflexivity|]. destruct ord; [|reflexivity].
        destruct (Hk i) as [_ Hk2]. apply (Hk2 s). rewrite A. reflexivity. }
      cbv zeta. rewrite St.
      destruct (zinsert_in s2 (start + i) v) as (s3 & E3 & L3); [lia|]. rewrite E3.
      destruct err as [e|]; [intros u; discriminate|]. apply IH; lia.
    + unfold after. cbn [fst snd]. intros u; discriminate.
Qed.

Lemma after_defined {A B} (r : outcome A * list Z) (f : A -> list Z -> outcome B * list Z) :
  defined (fst r) -> (forall a, fst r = Ret a -> defined (fst (f a (snd r)))) -> defined (fst (after r f)).
Proof.
  intros D H. unfold after. destruct (fst r) eqn:E; cbn [fst].
  - apply H. reflexivity.
  - intros u; discriminate.
  - intros u; discriminate.
  - exfalso. exact (D u eq_refl).
Qed.

Lemma then_ret_defined {A} (v : A) r : defined (fst r) -> defined (fst (then_ret v r)).
Proof.
  intros D. unfold then_ret. cbn [fst]. destruct (fst r) eqn:E; cbn [obind]; intros w; try discriminate.
  intros _. exact (D _ eq_refl).
Qed.

Lemma conv_opt_defined f d (o : option uobj) s : (match o with None => True | Some u => returns u end) ->
  (forall p, defined (f p)) -> defined (fst (conv_opt f d o s)).
Proof.
  intros R Hf. destruct o as [u|]; cbn [conv_opt]; [|intros x; discriminate]. unfold conv.
  destruct (R s) as [[a E]|[e E]]; destruct (act u s) as [r s1]; cbn in E; subst r; cbn [fst obind]; [apply Hf|intros x; discriminate].
Qed.

Lemma unpack_defined sl s : (forall u, In (Some u) [u_step sl; u_start sl; u_stop sl] -> returns u) ->
  defined (fst (unpack_u sl s)).
Proof.
  intros R. unfold unpack_u.
  assert (Hf : forall p, defined (slice_index p)) by (intros [z|x] u; discriminate).
  apply after_defined; [apply conv_opt_defined; [|exact Hf]; destruct (u_step sl); [apply R; left; reflexivity|exact I]|].
  intros step _. destruct (step =? 0); [intros u; discriminate|]. cbv zeta.
  apply after_defined; [apply conv_opt_defined; [|exact Hf]; destruct (u_start sl); [apply R; right; left; reflexivity|exact I]|].
  intros start _.
  apply after_defined; [apply conv_opt_defined; [|exact Hf]; destruct (u_stop sl); [apply R; right; right; left; reflexivity|exact I]|].
  intros stop _ u. discriminate.
Qed.

Lemma setitem_slice_safe ord k sl q s : (forall u, In (Some u) [u_step sl; u_start sl; u_stop sl] -> returns u) ->
  (forall t, exists n, 0 <= n /\ fst (act (q_len q) t) = Ret n) ->
  seq_all (@returns) q -> seq_all (@never_shrinks) q -> (ord = ConvFirst \/ seq_all (@keeps_buffer) q) ->
  defined (fst (setitem_slice_u ord k sl q s)).
Proof.
  intros Rs Hn R N Ho. unfold setitem_slice_u. apply after_defined; [apply unpack_defined; exact Rs|].
  intros [[start stop] step] _. set (s1 := snd (unpack_u sl s)). clearbody s1.
  destruct (PySlice_AdjustIndices (zlen s1) start stop step) as [[a b] n] eqn:Adj.
  destruct (act (q_len q) s1) as [rl s2] eqn:A.
  assert (L : zlen s1 <= zlen s2) by (destruct N as [N _]; specialize (N s1); rewrite A in N; exact N).
  destruct (Hn s1) as (m & Hm & Em). rewrite A in Em. cbn [fst] in Em. subst rl. cbn [seq_size].
  destruct (Z.eqb_spec step 1) as [->|_]; cbn [negb]; [|intros u; discriminate].
  pose proof (adjust_step1 (zlen s1) start stop (zlen_nonneg s1)) as B. rewrite Adj in B. destruct B as (Ba & Bb & ->).
  set (n := Z.max 0 (b - a)) in *.
  apply then_ret_defined.
  destruct (Z.eqb_spec m n) as [E|NE]; [|destruct (Z.ltb_spec m n) as [Lt|Gt]].
  - apply assign_safe; try assumption; lia.
  - destruct (assign_safe k q a (Z.to_nat m) R N ltac:(lia) 0 s2 ltac:(lia) ltac:(lia)) as [D K].
    apply after_defined; [exact D|]. intros w E. clear E w.
    unfold zerase_range. set (s3 := snd _) in *. clearbody s3.
    destruct (_ && _) eqn:G; [intros u; discriminate|]. exfalso.
    rewrite !andb_false_iff, !Z.leb_gt in G. lia.
  - destruct (assign_safe k q a (Z.to_nat n) R N ltac:(lia) 0 s2 ltac:(lia) ltac:(lia)) as [D K].
    apply after_defined; [exact D|]. intros w E. clear E w. apply insert_safe; try assumption; lia.
Qed.

(** A length that raises: one element too many is erased, or memory before the
    buffer is touched. *)
Lemma len_raises ord k sl q s e start stop s1 s2 : unpack_u sl s = (Ret (start, stop, 1), s1) ->
  act (q_len q) s1 = (Raise e, s2) -> zlen s2 = zlen s1 ->
  let '(a, b, n) := PySlice_AdjustIndices (zlen s1) start stop 1 in
  a <= b ->
  (a = 0 -> fst (setitem_slice_u ord k sl q s) = Undef OutOfBounds) /\
  (0 < a -> setitem_slice_u ord k sl q s =
     (RetPending VNone e, firstn (Z.to_nat (a - 1)) s2 ++ skipn (Z.to_nat b) s2)).
Proof.
  intros U A L. pose proof (adjust_step1 (zlen s1) start stop (zlen_nonneg s1)) as B.
  destruct (PySlice_AdjustIndices (zlen s1) start stop 1) as [[a b] n] eqn:Adj.
  destruct B as (Ba & Bb & ->). intros Hab.
  assert (X : setitem_slice_u ord k sl q s =
    match zerase_range s2 (a + -1) b with
    | Some s' => (RetPending VNone e, s')
    | None => (Undef OutOfBounds, s2) end).
  { unfold setitem_slice_u. rewrite U, after_ret, Adj, A. cbn [seq_size]. change (negb (1 =? 1)) with false. cbv iota.
    destruct (Z.eqb_spec (-1) (Z.max 0 (b - a))); [lia|]. destruct (Z.ltb_spec (-1) (Z.max 0 (b - a))); [|lia].
    change (Z.to_nat (-1)) with 0%nat. cbn [assign_loop_u]. rewrite after_ret.
    destruct (zerase_range s2 (a + -1) b); reflexivity. }
  rewrite X. unfold zerase_range. split; intros Ha.
  - destruct (Z.leb_spec 0 (a + -1)); [lia|]. reflexivity.
  - destruct (Z.leb_spec 0 (a + -1)); [|lia]. destruct (Z.leb_spec (a + -1) b); [|lia].
    destruct (Z.leb_spec b (zlen s2)); [|lia]. reflexivity.
Qed.

(** A sequence that leaves the list alone behaves like its items. *)
Lemma stands_get q zs i : stands_for q zs -> 0 <= i < zlen zs -> exists z,
  znth zs i = Some z /\ forall s, exists o, act (q_get q i) s = (Ret o, s) /\ inval o s = false /\
  forall t, act o t = (Ret (PInt z), t).
Proof.
  intros [_ H] Hi. destruct (znth_in zs i Hi) as [z E]. exists z. split; [exact E|].
  unfold znth in E. destruct (Z.ltb_spec i 0); [discriminate|].
  intros s. destruct (H i z ltac:(lia) E s) as (o & A & Q & V). exists o. split; [exact A|].
  split; [apply Q|]. intros t. rewrite (pair_eta (act o t)), V. rewrite (proj1 (Q t)). reflexivity.
Qed.

Lemma znth_map {A B} (f : A -> B) l i : znth (map f l) i = option_map f (znth l i).
Proof. unfold znth. destruct (i <? 0); [reflexivity|]. apply nth_error_map. Qed.

Lemma assign_plain k q zs start : stands_for q zs -> Forall (in_sbits 64) zs -> forall n i s, 0 <= i -> i + Z.of_nat n <= zlen zs ->
  assign_loop_u k q n i start s = assign_loop k (src_items (map PInt zs)) n i start s.
Proof.
  intros Q F. induction n as [|n IH]; intros i s Hi H; [reflexivity|]. cbn [assign_loop_u assign_loop].
  destruct (stands_get q zs i Q ltac:(lia)) as (z & E & G). destruct (G s) as (o & A & _ & V).
  rewrite A, after_ret. cbn [src_get src_items]. rewrite znth_map, E. cbn [option_map].
  assert (R : in_sbits 64 z).
  { rewrite Forall_forall in F. apply F. unfold znth in E. destruct (i <? 0); [discriminate|]. eapply nth_error_In; exact E. }
  unfold conv_err, conv. rewrite V. cbn [obind]. rewrite as_long_in by exact R.
  destruct (zset s (start + i) (wrap (bits k) z)); [|reflexivity]. apply IH; lia.
Qed.

Lemma insert_plain ord k q zs start : stands_for q zs -> Forall (in_sbits 64) zs -> forall n i s, 0 <= i -> i + Z.of_nat n <= zlen zs ->
  insert_loop_u ord k q n i start s = insert_loop k (src_items (map PInt zs)) n i start s.
Proof.
  intros Q F. induction n as [|n IH]; intros i s Hi H; [reflexivity|]. cbn [insert_loop_u insert_loop].
  destruct (stands_get q zs i Q ltac:(lia)) as (z & E & G). destruct (G s) as (o & A & Iv & V).
  rewrite A, after_ret. cbn [src_get src_items]. rewrite znth_map, E. cbn [option_map].
  assert (R : in_sbits 64 z).
  { rewrite Forall_forall in F. apply F. unfold znth in E. destruct (i <? 0); [discriminate|]. eapply nth_error_In; exact E. }
  unfold conv_err, conv. rewrite V. cbn [obind]. rewrite as_long_in by exact R. cbv zeta. rewrite Iv.
  replace (match ord with IterFirst => false | ConvFirst => false end) with false by (destruct ord; reflexivity).
  destruct (zinsert s (start + i) (wrap (bits k) z)); [|reflexivity]. apply IH; lia.
Qed.

Lemma after_with {A B} (r : outcome A * list Z) (f : A -> list Z -> outcome B * list Z) :
  after r f = match fst r with
  | Ret a => f a (snd r)
  | Raise e => (Raise e, snd r)
  | RetPending _ e => (Raise e, snd r)
  | Undef u => (Undef u, snd r) end.
Proof. reflexivity. Qed.

Lemma assign_not_pending k src n : forall i start s u e, fst (assign_loop k src n i start s) <> RetPending u e.
Proof.
  induction n as [|n IH]; intros i start s u e; cbn [assign_loop]; [discriminate|].
  destruct (src_get src s i); try discriminate.
  destruct (as_long a); cbn; destruct (zset s (start + i) _); try discriminate; apply IH.
Qed.

Lemma setslice_atomic cfg ord k sl q zs s : okst k s -> args_sane k (RGetSlice sl) ->
  yields_opt (u_step sl) (fun z => z = 1) -> stands_for q zs -> Forall (in_range k) zs ->
  setitem_slice_u ord k sl q s =
  match evaluate (arguments (RGetSlice sl)) s with
  | (inl [c; a; b], s') => let r := py_step (OSetSlice {| sl_start := a; sl_stop := b; sl_step := c |} zs) s' in
                           (expected cfg k (fst r), snd r)
  | (inl _, s') => (Undef OutOfBounds, s')
  | (inr e, s') => (Raise e, s')
  end.
Proof.
  intros O Sa Y Q F.
  assert (F64 : Forall (in_sbits 64) zs) by (eapply Forall_impl; [|exact F]; intros v; apply in_range_64).
  assert (Ft : args_fit k (RGetSlice sl)).
  { cbn [args_fit]. destruct (u_step sl); [|exact I]. intros t z t' E. rewrite (Y _ _ _ E). discriminate. }
  pose proof (unpack_eval k sl s O Sa Ft) as H. cbn [arguments].
  destruct (evaluate [u_step sl; u_start sl; u_stop sl] s) as [[l|e] s'] eqn:Ev;
    [|unfold setitem_slice_u; rewrite H; reflexivity].
  destruct H as (c & a & b & -> & O' & U & Nz).
  assert (Sc : step_of {| sl_start := a; sl_stop := b; sl_step := c |} = 1).
  { clear -Ev Y. cbn [evaluate] in Ev. unfold step_of. cbn [sl_step].
    destruct (u_step sl) as [u|].
    - destruct (act u s) as [[[z|x]| | |] s1] eqn:A; try discriminate.
      destruct (match u_start sl with None => _ | Some _ => _ end) as [[l|e] s2]; [|discriminate].
      inversion Ev; subst. exact (Y _ _ _ A).
    - destruct (match u_start sl with None => _ | Some _ => _ end) as [[l|e] s2]; [|discriminate].
      inversion Ev; subst. reflexivity. }
  cbv zeta. rewrite <- refines_at; [|exact O'|split; assumption]. cbn [step].
  unfold setitem_slice_u, setitem_slice. rewrite U.
  destruct O' as [F' L'].
  destruct (unpack_step1 s' _ L' Sc) as (start & stop & -> & Adj). rewrite after_ret. cbn [with_].
  pose proof (adjust_step1 (zlen s') start stop (zlen_nonneg s')) as B.
  destruct (PySlice_AdjustIndices (zlen s') start stop 1) as [[x y] n]. destruct B as (Bx & By & ->). clear Adj.
  destruct Q as [QL QG]. rewrite QL. cbn [seq_size src_len src_items]. rewrite zlen_map.
  assert (Q : stands_for q zs) by (split; assumption). change (negb (1 =? 1)) with false. cbv iota.
  pose proof (zlen_nonneg zs) as Nn. set (n := Z.max 0 (y - x)).
  destruct (Z.eqb_spec (zlen zs) n) as [E|NE]; [|destruct (Z.ltb_spec (zlen zs) n) as [Lt|Gt]].
  - rewrite (assign_plain k q zs x Q F64) by lia. reflexivity.
  - rewrite (assign_plain k q zs x Q F64) by lia. rewrite after_with.
    pose proof (assign_not_pending k (src_items (map PInt zs)) (Z.to_nat (zlen zs)) 0 x s') as NP.
    destruct (assign_loop k (src_items (map PInt zs)) (Z.to_nat (zlen zs)) 0 x s') as [r s2]. cbn [fst snd] in *.
    destruct r; try reflexivity. exfalso. exact (NP _ _ eq_refl).
  - rewrite (assign_plain k q zs x Q F64) by lia. rewrite after_with.
    pose proof (assign_not_pending k (src_items (map PInt zs)) (Z.to_nat n) 0 x s') as NP.
    destruct (assign_loop k (src_items (map PInt zs)) (Z.to_nat n) 0 x s') as [r s2]. cbn [fst snd] in *.
    destruct r; try reflexivity; [|exfalso; exact (NP _ _ eq_refl)].
    rewrite (insert_plain ord k q zs x Q F64) by lia. reflexivity.
Qed.

(** Shrinking code in the first item. *)
Lemma setslice_shrink ord k sl q s start stop s1 m o s2 v s3 : unpack_u sl s = (Ret (start, stop, 1), s1) ->
  (forall t, act (q_len q) t = (Ret m, t)) -> 0 < m ->
  let '(a, b, n) := PySlice_AdjustIndices (zlen s1) start stop 1 in
  0 < n -> act (q_get q 0) s1 = (Ret o, s2) -> act o s2 = (Ret (PInt v), s3) -> zlen s3 <= a ->
  fst (setitem_slice_u ord k sl q s) = Undef OutOfBounds.
Proof.
  intros U QL Hm. pose proof (adjust_step1 (zlen s1) start stop (zlen_nonneg s1)) as B.
  destruct (PySlice_AdjustIndices (zlen s1) start stop 1) as [[a b] n] eqn:Adj. destruct B as (Ba & Bb & ->).
  intros Hn A1 A2 L. unfold setitem_slice_u. rewrite U, after_ret, Adj, QL. cbn [seq_size].
  change (negb (1 =? 1)) with false. cbv iota. set (n := Z.max 0 (b - a)) in *.
  assert (X : forall j, assign_loop_u k q (S j) 0 a s1 = (Undef OutOfBounds, s3)).
  { intros j. cbn [assign_loop_u]. rewrite A1, after_ret. unfold conv_err, conv. rewrite A2. cbn [obind].
    destruct (as_long (PInt v)); rewrite zset_out by lia; reflexivity. }
  destruct (m =? n) eqn:E1; [|destruct (m <? n) eqn:E2].
  - destruct (Z.to_nat n) as [|j] eqn:J; [lia|]. rewrite X. reflexivity.
  - destruct (Z.to_nat m) as [|j] eqn:J; [lia|]. rewrite X. reflexivity.
  - destruct (Z.to_nat n) as [|j] eqn:J; [lia|]. rewrite X. reflexivity.
Qed.

(** A failed conversion inside a slice assignment. *)
Lemma conv_err_bad k o s e : leaves_alone o -> fails_with o e -> conv_err k o s = ((-1, Some e), s).
Proof.
  intros L F. unfold conv_err, conv. destruct (F s) as [E|[[-> (x & E)]|[-> (z & E & R)]]];
    rewrite (pair_eta (act o s)), E, (proj1 (L s)); cbn [obind as_long];
    [| |assert (in_sbits_b 64 z = false) as -> by (destruct (in_sbits_b 64 z) eqn:B; [apply in_sbits_b_spec in B; contradiction|reflexivity])];
    destruct k; reflexivity.
Qed.
Lemma conv_err_good k o s z : leaves_alone o -> (forall t, fst (act o t) = Ret (PInt z)) -> in_range k z ->
  conv_err k o s = ((z, None), s).
Proof.
  intros L F R. unfold conv_err, conv. rewrite (pair_eta (act o s)), F, (proj1 (L s)). cbn [obind].
  rewrite as_long_in by (apply in_range_64 in R; exact R). rewrite wrap_id by (exact R || (destruct k; cbn; lia)). reflexivity.
Qed.
Lemma zset_mid {A} (pre rest : list A) x v i : i = zlen pre -> zset (pre ++ x :: rest) i v = Some ((pre ++ [v]) ++ rest).
Proof.
  intros ->. unfold zset, zlen. destruct (Z.ltb_spec (Z.of_nat (length pre)) 0); [lia|]. rewrite Nat2Z.id.
  induction pre as [|y pre IH]; [reflexivity|]. cbn [app length nset]. rewrite IH by (unfold zlen; lia). reflexivity.
Qed.
Lemma zinsert_mid {A} (pre rest : list A) v i : i = zlen pre -> zinsert (pre ++ rest) i v = Some ((pre ++ [v]) ++ rest).
Proof.
  intros ->. unfold zinsert, zlen. destruct (Z.ltb_spec (Z.of_nat (length pre)) 0); [lia|]. rewrite Nat2Z.id.
  induction pre as [|y pre IH]; [destruct rest; reflexivity|]. cbn [app length ninsert]. rewrite IH by (unfold zlen; lia). reflexivity.
Qed.
Lemma zlen_snoc {A} (l : list A) x : zlen (l ++ [x]) = zlen l + 1.
Proof. unfold zlen. rewrite app_length. cbn. lia. Qed.

Lemma skipn_add {A} (l : list A) : forall a b, skipn (a + b) l = skipn b (skipn a l).
Proof. induction l as [|x l IH]; intros [|a] b; cbn; rewrite ?skipn_nil; try reflexivity. apply IH. Qed.

Lemma assign_bad k q start e zs : forall n i pre rest, ints_then_bad q i zs e -> Forall (in_range k) zs -> zlen pre = start + i ->
  (length zs < n)%nat -> (n <= length rest)%nat ->
  assign_loop_u k q n i start (pre ++ rest) = (Raise e, pre ++ zs ++ -1 :: skipn (S (length zs)) rest).
Proof.
  induction zs as [|z zs IH]; intros [|n] i pre [|x rest] Q F L N M; cbn [length] in N, M; try lia; cbn [assign_loop_u].
  - destruct (Q (pre ++ x :: rest)) as (o & A & Lo & B). rewrite A, after_ret, (conv_err_bad k o _ e Lo B).
    rewrite zset_mid by lia. rewrite <- app_assoc. reflexivity.
  - destruct Q as [Q Q']. destruct (Q (pre ++ x :: rest)) as (o & A & Lo & V).
    pose proof (Forall_inv F) as Fz. pose proof (Forall_inv_tail F) as Ft.
    rewrite A, after_ret, (conv_err_good k o _ z Lo V Fz). rewrite zset_mid by lia.
    rewrite (IH n (i + 1) (pre ++ [z]) rest Q' Ft) by (rewrite ?zlen_snoc; lia). rewrite <- app_assoc. reflexivity.
Qed.
Lemma assign_good k q start e zs : forall n i pre rest, ints_then_bad q i zs e -> Forall (in_range k) zs -> zlen pre = start + i ->
  (n <= length zs)%nat -> (n <= length rest)%nat ->
  assign_loop_u k q n i start (pre ++ rest) = (Ret tt, pre ++ firstn n zs ++ skipn n rest) /\
  ints_then_bad q (i + Z.of_nat n) (skipn n zs) e.
Proof.
  induction zs as [|z zs IH]; intros [|n] i pre rest Q F L N M; cbn [length] in N; try lia;
    try (rewrite Z.add_0_r; split; [reflexivity|exact Q]).
  destruct rest as [|x rest]; cbn [length] in M; [lia|]. cbn [assign_loop_u].
  destruct Q as [Q Q']. destruct (Q (pre ++ x :: rest)) as (o & A & Lo & V).
  pose proof (Forall_inv F) as Fz. pose proof (Forall_inv_tail F) as Ft.
  rewrite A, after_ret, (conv_err_good k o _ z Lo V Fz). rewrite zset_mid by lia.
  destruct (IH n (i + 1) (pre ++ [z]) rest Q' Ft) as [E R]; try (rewrite ?zlen_snoc; lia). rewrite E, <- app_assoc.
  split; [reflexivity|]. cbn [skipn]. replace (i + Z.of_nat (S n)) with (i + 1 + Z.of_nat n) by lia. exact R.
Qed.
Lemma insert_bad ord k q start e zs : forall n i pre rest, ints_then_bad q i zs e -> Forall (in_range k) zs -> zlen pre = start + i ->
  (length zs < n)%nat -> insert_loop_u ord k q n i start (pre ++ rest) = (Raise e, pre ++ zs ++ -1 :: rest).
Proof.
  induction zs as [|z zs IH]; intros [|n] i pre rest Q F L N; cbn [length] in N; try lia; cbn [insert_loop_u].
  - destruct (Q (pre ++ rest)) as (o & A & Lo & B). rewrite A, after_ret, (conv_err_bad k o _ e Lo B). cbv zeta.
    rewrite (proj2 (Lo _)). replace (match ord with IterFirst => false | ConvFirst => false end) with false by (destruct ord; reflexivity).
    rewrite zinsert_mid by lia. rewrite <- app_assoc. reflexivity.
  - destruct Q as [Q Q']. destruct (Q (pre ++ rest)) as (o & A & Lo & V).
    pose proof (Forall_inv F) as Fz. pose proof (Forall_inv_tail F) as Ft.
    rewrite A, after_ret, (conv_err_good k o _ z Lo V Fz). cbv zeta.
    rewrite (proj2 (Lo _)). replace (match ord with IterFirst => false | ConvFirst => false end) with false by (destruct ord; reflexivity).
    rewrite zinsert_mid by lia.
    rewrite (IH n (i + 1) (pre ++ [z]) rest Q' Ft) by (rewrite ?zlen_snoc; lia). rewrite <- app_assoc. reflexivity.
Qed.

Lemma setslice_bad ord k sl q s start stop s1 m zs e : unpack_u sl s = (Ret (start, stop, 1), s1) ->
  (forall t, act (q_len q) t = (Ret m, t)) -> ints_then_bad q 0 zs e -> Forall (in_range k) zs -> zlen zs < m ->
  let '(a, b, n) := PySlice_AdjustIndices (zlen s1) start stop 1 in
  setitem_slice_u ord k sl q s =
    (Raise e, firstn (Z.to_nat a) s1 ++ zs ++ -1 :: skipn (Z.to_nat (a + Z.min n (zlen zs + 1))) s1).
Proof.
  intros U QL Q F Hm. pose proof (adjust_step1 (zlen s1) start stop (zlen_nonneg s1)) as B.
  destruct (PySlice_AdjustIndices (zlen s1) start stop 1) as [[a b] n] eqn:Adj. destruct B as (Ba & Bb & ->).
  unfold setitem_slice_u. rewrite U, after_ret, Adj, QL. cbn [seq_size].
  change (negb (1 =? 1)) with false. cbv iota. set (n := Z.max 0 (b - a)) in *.
  set (pre := firstn (Z.to_nat a) s1). set (rest := skipn (Z.to_nat a) s1).
  assert (Es : s1 = pre ++ rest) by (symmetry; apply firstn_skipn).
  assert (Lp : zlen pre = a) by (unfold pre, zlen in *; rewrite firstn_length; lia).
  assert (Lr : Z.of_nat (length rest) = zlen s1 - a) by (unfold rest, zlen in *; rewrite skipn_length; lia).
  assert (Sk : forall j, 0 <= j -> skipn (Z.to_nat j) rest = skipn (Z.to_nat (a + j)) s1).
  { intros j Hj. unfold rest. rewrite Z2Nat.inj_add by lia. rewrite skipn_add. reflexivity. }
  assert (X : zlen zs < n -> forall j, (length zs < j <= Z.to_nat n)%nat -> assign_loop_u k q j 0 a s1 =
     (Raise e, pre ++ zs ++ -1 :: skipn (Z.to_nat (a + Z.min n (zlen zs + 1))) s1)).
  { intros Hn j Hj. rewrite Es at 1. rewrite (assign_bad k q a e zs j 0 pre rest Q F) by lia.
    rewrite Z.min_r by lia. rewrite <- Sk by (unfold zlen; lia). unfold zlen. do 5 f_equal. lia. }
  unfold zlen in Hm. fold pre.
  destruct (Z.eqb_spec m n) as [E|NE]; [|destruct (Z.ltb_spec m n) as [Lt|Gt]].
  - rewrite X by (unfold zlen; lia). reflexivity.
  - rewrite X by (unfold zlen; lia). reflexivity.
  - destruct (Z.lt_decidable (zlen zs) n) as [Hn|Hn].
    + rewrite X by (unfold zlen in *; lia). reflexivity.
    + unfold zlen in Hn. rewrite Es at 1. destruct (assign_good k q a e zs (Z.to_nat n) 0 pre rest Q F) as [A Q2]; try lia.
      rewrite A, after_ret. rewrite app_assoc. rewrite (insert_bad ord k q a e (skipn (Z.to_nat n) zs)) with (pre := pre ++ firstn (Z.to_nat n) zs).
      * rewrite <- app_assoc. rewrite (app_assoc (firstn (Z.to_nat n) zs)), firstn_skipn. unfold then_ret. cbn.
        rewrite Sk by lia. rewrite Z.min_l by (unfold zlen; lia). reflexivity.
      * replace n with (0 + Z.of_nat (Z.to_nat n)) at 1 by lia. exact Q2.
      * rewrite Forall_forall in F |- *. intros y Hy. apply F. rewrite <- (firstn_skipn (Z.to_nat n) zs). apply in_or_app. right. exact Hy.
      * unfold zlen in *. rewrite app_length, firstn_length. lia.
      * rewrite skipn_length. lia.
Qed.

(** The position of an insertion formed before the conversion. *)
Lemma setslice_stale k sl q s start stop s1 m o s2 : unpack_u sl s = (Ret (start, stop, 1), s1) ->
  (forall t, act (q_len q) t = (Ret m, t)) -> 0 < m ->
  let '(a, b, n) := PySlice_AdjustIndices (zlen s1) start stop 1 in
  n = 0 -> act (q_get q 0) s1 = (Ret o, s2) -> inval o s2 = true ->
  fst (setitem_slice_u IterFirst k sl q s) = Undef UseAfterFree.
Proof.
  intros U QL Hm. pose proof (adjust_step1 (zlen s1) start stop (zlen_nonneg s1)) as B.
  destruct (PySlice_AdjustIndices (zlen s1) start stop 1) as [[a b] n] eqn:Adj. destruct B as (Ba & Bb & Bn).
  intros -> A1 A2. unfold setitem_slice_u. rewrite U, after_ret, Adj, QL. cbn [seq_size].
  change (negb (1 =? 1)) with false. cbv iota.
  destruct (Z.eqb_spec m 0); [lia|]. destruct (Z.ltb_spec m 0); [lia|]. change (Z.to_nat 0) with 0%nat.
  cbn [assign_loop_u]. rewrite after_ret. destruct (Z.to_nat (m - 0)) as [|j] eqn:J; [lia|].
  cbn [insert_loop_u]. rewrite A1, after_ret. destruct (conv_err k o s2) as [[v err] s3]. cbv zeta. rewrite A2. reflexivity.
Qed.

(** ** Comparison *)
Lemma eq_loop_safe k q : seq_all (@returns) q -> seq_all (@never_shrinks) q -> forall n i s, 0 <= i ->
  i + Z.of_nat n <= zlen s -> defined (fst (eq_loop_u k q n i s)).
Proof.
  intros [_ R] [_ N]. induction n as [|n IH]; intros i s Hi H; cbn [eq_loop_u]; [intros u; discriminate|].
  destruct (R i) as [R1 R2]. destruct (N i) as [N1 N2].
  destruct (piece (q_get q i) s R1 N1) as [(o & s1 & A & L)|(e & s1 & A & L)]; rewrite A; [|intros u; discriminate].
  rewrite after_ret.
  assert (Ro : returns o) by (apply (R2 s); rewrite A; reflexivity).
  assert (No : never_shrinks o) by (apply (N2 s); rewrite A; reflexivity).
  destruct (znth_in s1 i ltac:(lia)) as [x ->].
  destruct (conv_err_piece k o s1 Ro No) as (v & err & s2 & C & L2). rewrite C.
  destruct err; [intros u; discriminate|]. destruct (x =? v); [apply IH; lia|intros u; discriminate].
Qed.

Lemma ret_bool_defined b p : defined (ret_bool b p).
Proof. destruct p; intros u; discriminate. Qed.

Lemma ord_loop_safe k r q size : seq_all (@returns) q -> seq_all (@never_shrinks) q -> forall n i pend s, 0 <= i ->
  i + Z.of_nat n <= zlen s -> defined (fst (ord_loop_u k r q size n i pend s)).
Proof.
  intros [_ R] [_ N]. induction n as [|n IH]; intros i pend s Hi H; cbn [ord_loop_u]; [apply ret_bool_defined|].
  destruct (R i) as [R1 R2]. destruct (N i) as [N1 N2].
  destruct (piece (q_get q i) s R1 N1) as [(o & s1 & A & L)|(e & s1 & A & L)]; rewrite A; [|intros u; discriminate].
  rewrite after_ret.
  assert (Ro : returns o) by (apply (R2 s); rewrite A; reflexivity).
  assert (No : never_shrinks o) by (apply (N2 s); rewrite A; reflexivity).
  destruct (znth_in s1 i ltac:(lia)) as [x ->].
  destruct (conv_err_piece k o s1 Ro No) as (v & err & s2 & C & L2). rewrite C.
  cbv zeta. destruct (x =? v); [apply IH; lia|apply ret_bool_defined].
Qed.

Lemma compare_safe k c q s : c <> Ne_ -> seq_all (@returns) q -> seq_all (@never_shrinks) q ->
  defined (fst (compare_u k c q s)).
Proof.
  intros Hc R N.
  assert (D : forall r, defined (fst (ord_u k r q s))).
  { intros r. unfold ord_u. destruct (act (q_len q) s) as [rl s1]. destruct (seq_size rl) as [n p].
    apply ord_loop_safe; try assumption; [lia|]. pose proof (zlen_nonneg s1). lia. }
  destruct c; cbn [compare_u]; try apply D; [|congruence].
  unfold eq_u. destruct (act (q_len q) s) as [rl s1]. destruct (seq_size rl) as [n p].
  destruct (Z.eqb_spec n (zlen s1)) as [->|]; cbn [negb]; [|apply ret_bool_defined].
  apply eq_loop_safe; try assumption; [lia|]. pose proof (zlen_nonneg s1). lia.
Qed.

Lemma eq_loop_plain k q zs : stands_for q zs -> forall n i s, 0 <= i -> i + Z.of_nat n <= zlen zs ->
  eq_loop_u k q n i s =
  (eq_loop k (fun i => match znth (map PInt zs) i with Some o => Ret o | None => Raise IndexError end) n i s, s).
Proof.
  intros Q. induction n as [|n IH]; intros i s Hi H; [reflexivity|]. cbn [eq_loop_u eq_loop].
  destruct (stands_get q zs i Q ltac:(lia)) as (z & E & G). destruct (G s) as (o & A & _ & V).
  rewrite A, after_ret, znth_map, E. cbn [option_map]. destruct (znth s i) as [x|]; [|reflexivity].
  unfold conv_err, conv, conv_pending. rewrite V. cbn [obind].
  cbn [as_long]. destruct (in_sbits_b 64 z); [|reflexivity].
  destruct (x =? wrap (bits k) z); [|reflexivity]. apply IH; lia.
Qed.

Lemma ord_loop_plain k r q zs size : stands_for q zs -> forall n i pend s, 0 <= i -> i + Z.of_nat n <= zlen zs ->
  ord_loop_u k r q size n i pend s =
  (ord_seq k r (fun i => match znth (map PInt zs) i with Some o => Ret o | None => Raise IndexError end) size n i pend s, s).
Proof.
  intros Q. induction n as [|n IH]; intros i pend s Hi H; [reflexivity|]. cbn [ord_loop_u ord_seq].
  destruct (stands_get q zs i Q ltac:(lia)) as (z & E & G). destruct (G s) as (o & A & _ & V).
  rewrite A, after_ret, znth_map, E. cbn [option_map]. destruct (znth s i) as [x|]; [|reflexivity].
  unfold conv_err, conv, conv_pending. rewrite V. cbn [obind].
  cbn [as_long]. destruct (in_sbits_b 64 z).
  - destruct (x =? wrap (bits k) z); [|reflexivity]. apply IH; lia.
  - destruct (x =? wrap (bits k) (-1)); [|reflexivity]. apply IH; lia.
Qed.

Lemma compare_plain k c q zs s : stands_for q zs -> zlen zs < 2 ^ 64 -> Forall (in_range k) zs ->
  exists b, compare_u k c q s = (Ret b, s) /\ (b = true <-> cmp_sem c s zs).
Proof.
  intros Q H F.
  assert (B : compare_u k c q s = (compare_ k c (cmp_items (map PInt zs)) s, s)).
  { pose proof Q as [QL _]. pose proof (zlen_nonneg zs) as Nn.
    assert (EQ : eq_u k q s = (eq_ k (cmp_items (map PInt zs)) s, s)).
    { unfold eq_u, eq_, cmp_items. rewrite QL. cbn [seq_size]. rewrite zlen_map.
      destruct (Z.eqb_spec (zlen zs) (zlen s)); cbn [negb]; [|reflexivity].
      apply eq_loop_plain; [exact Q|lia|lia]. }
    assert (ORD : forall r, ord_u k r q s = (ord_ k r (cmp_items (map PInt zs)) s, s)).
    { intros r. unfold ord_u, ord_, cmp_items. rewrite QL. cbn [seq_size]. rewrite zlen_map.
      pose proof (zlen_nonneg s). apply ord_loop_plain; [exact Q|lia|lia]. }
    destruct c; cbn [compare_u compare_]; try apply ORD; [exact EQ|].
    unfold ne_u, ne_. rewrite EQ. reflexivity. }
  destruct (compare_items k c s (map PInt zs) zs) as (b & E & I).
  - rewrite zlen_map. exact H.
  - clear -F. induction F as [|z zs Hz F IH]; cbn [map]; constructor; [|exact IH].
    exists z. split; [reflexivity|]. split; [exact (in_range_64 k z Hz)|].
    split; [exact Hz|]. exists 0. lia.
  - exists b. rewrite B, E. split; [reflexivity|exact I].
Qed.

Lemma compare_shrink k c q s m s1 o s2 : act (q_len q) s = (Ret m, s1) -> 0 < m -> m = zlen s1 ->
  act (q_get q 0) s1 = (Ret o, s2) -> s2 = [] -> fst (compare_u k c q s) = Undef OutOfBounds.
Proof.
  intros A Hm E A1 ->. 
  assert (X : fst (eq_u k q s) = Undef OutOfBounds).
  { unfold eq_u. rewrite A. cbn [seq_size]. destruct (Z.eqb_spec m (zlen s1)); [|lia]. cbn [negb].
    destruct (Z.to_nat m) as [|j] eqn:J; [lia|]. cbn [eq_loop_u]. rewrite A1, after_ret. reflexivity. }
  assert (Y : forall r, fst (ord_u k r q s) = Undef OutOfBounds).
  { intros r. unfold ord_u. rewrite A. cbn [seq_size]. rewrite <- E, Z.min_id.
    destruct (Z.to_nat m) as [|j] eqn:J; [lia|]. cbn [ord_loop_u]. rewrite A1, after_ret. reflexivity. }
  destruct c; cbn [compare_u]; try apply Y; [exact X|].
  unfold ne_u. destruct (eq_u k q s) as [r s3]. cbn [fst] in *. rewrite X. reflexivity.
Qed.

(** ** extend *)
Lemma wrap_reduced k z : reduced (bits k) z (wrap (bits k) z).
Proof.
  unfold reduced, wrap. pose proof (bits_ge k) as B.
  assert (P : 2 ^ bits k = 2 * 2 ^ (bits k - 1)).
  { rewrite <- Z.pow_succ_r by lia. f_equal. lia. }
  assert (P0 : 0 < 2 ^ (bits k - 1)) by (apply Z.pow_pos_nonneg; lia).
  pose proof (Z.mod_pos_bound (z + 2 ^ (bits k - 1)) (2 ^ bits k) ltac:(lia)) as M.
  split; [lia|]. exists (- ((z + 2 ^ (bits k - 1)) / 2 ^ bits k)).
  pose proof (Z.div_mod (z + 2 ^ (bits k - 1)) (2 ^ bits k) ltac:(lia)) as D. nia.
Qed.

Lemma extend_trace k fin : forall items s, Forall returns items -> returns fin ->
  (forall nx t o, In nx items -> fst (act nx t) = Ret o -> returns o) ->
  exists r, trace k items fin s r (snd (extend_loop_u k items fin s)) /\
  fst (extend_loop_u k items fin s) = match r with None => Ret tt | Some e => Raise e end.
Proof.
  induction items as [|nx items IH]; intros s R Rf Ro; cbn [extend_loop_u].
  - destruct (Rf s) as [[[] E]|[e E]]; destruct (act fin s) as [r s1] eqn:A; cbn in E; subst r.
    + rewrite after_ret. exists None. split; [apply tr_end; exact A|reflexivity].
    + exists (Some e). split; [apply tr_end_raise; exact A|reflexivity].
  - inversion R as [|? ? R1 R2]; subst.

    destruct (R1 s) as [[o E]|[e E]]; destruct (act nx s) as [r s1] eqn:A; cbn in E; subst r.
    + rewrite after_ret. assert (RO : returns o) by (apply (Ro nx s); [left; reflexivity|rewrite A; reflexivity]).
      unfold conv. destruct (RO s1) as [[p E]|[e E]]; destruct (act o s1) as [r s2] eqn:B; cbn in E; subst r.
      * cbn [obind]. destruct p as [z|x].
        -- rewrite as_elem_int. destruct (in_sbits_b 64 z) eqn:G.
           ++ rewrite after_ret. apply in_sbits_b_spec in G.
              destruct (IH (s2 ++ [wrap (bits k) z]) R2 Rf) as (r & T & F).
              { intros nx' t o' I. apply Ro. right. exact I. }
              exists r. split; [|exact F]. destruct (wrap_reduced k z) as [W1 W2].
              eapply tr_item; [exact A|exact B|exact G|exact W1|exact W2|exact T].
           ++ exists (Some OverflowError). split; [|reflexivity]. eapply tr_conv_range; [exact A|exact B|].
              intros C. apply in_sbits_b_spec in C. congruence.
        -- exists (Some TypeError). split; [|reflexivity]. eapply tr_conv_type; [exact A|exact B].
      * exists (Some e). split; [|reflexivity]. eapply tr_conv_raise; [exact A|exact B].
    + exists (Some e). split; [|reflexivity]. apply tr_next_raise; exact A.
Qed.

Lemma extend_ok k it s : returns (i_start it) -> Forall returns (i_items it) -> returns (i_end it) ->
  (forall nx t o, In nx (i_items it) -> fst (act nx t) = Ret o -> returns o) ->
  match act (i_start it) s with
  | (Ret _, s0) => exists r, trace k (i_items it) (i_end it) s0 r (snd (extend_u k it s)) /\
      fst (extend_u k it s) = match r with None => Ret VNone | Some e => Raise e end /\
      snd (iadd_u k it s) = snd (extend_u k it s) /\
      fst (iadd_u k it s) = match r with None => Ret VSelf | Some e => Raise e end
  | (Raise e, s0) => extend_u k it s = (Raise e, s0) /\ iadd_u k it s = (Raise e, s0)
  | _ => False
  end.
Proof.
  intros R0 R Rf Ro. unfold extend_u, iadd_u.
  destruct (R0 s) as [[[] E]|[e E]]; destruct (act (i_start it) s) as [r0 s0] eqn:A; cbn in E; subst r0; [|split; reflexivity].
  rewrite !after_ret. destruct (extend_trace k (i_end it) (i_items it) s0 R Rf Ro) as (r & T & F).
  exists r. unfold then_ret. cbn [fst snd]. rewrite F. split; [exact T|]. destruct r; repeat split; reflexivity.
Qed.

Lemma congruent_eq h z a b m1 m2 : 0 < h -> - h <= a < h -> - h <= b < h -> a = z + m1 * (2 * h) -> b = z + m2 * (2 * h) -> a = b.
Proof. intros. assert (m1 = m2); [|subst; reflexivity]. assert (- (2 * h) < (m1 - m2) * (2 * h) < 2 * h) by lia. nia. Qed.

Lemma trace_fun k items fin s r1 t1 r2 t2 : trace k items fin s r1 t1 -> trace k items fin s r2 t2 -> r1 = r2 /\ t1 = t2.
Proof.
  intros T. revert r2 t2. induction T; intros r2 t2 T2; inversion T2; subst;
    try (split; congruence);
    repeat match goal with
    | A : ?x = (_, _), B : ?x = (_, _) |- _ => rewrite A in B; inversion B; subst; clear B
    end; try contradiction; try (split; reflexivity).
  apply IHT. match goal with H : trace _ r fin (_ ++ [?w]) r2 t2 |- _ => replace v with w; [exact H|] end.
  repeat match goal with H : exists m, _ = _ |- _ => destruct H as [? H] end.
  unfold in_sbits in *. pose proof (bits_ge k).
  assert (P : 2 ^ bits k = 2 * 2 ^ (bits k - 1)) by (rewrite <- Z.pow_succ_r by lia; f_equal; lia).
  assert (P0 : 0 < 2 ^ (bits k - 1)) by (apply Z.pow_pos_nonneg; lia). rewrite P in *.
  eapply congruent_eq; eassumption.
Qed.

(** ** sort with a key *)
Lemma sort_key_ok u s vs s1 : act u s = (Ret vs, s1) ->
  sort_key_u u s = if inval u s then (Undef UseAfterFree, s1) else (Ret VNone, vs).
Proof. intros A. unfold sort_key_u. rewrite A. reflexivity. Qed.

(** ** Witnesses of the failures *)
Lemma index_default_ok cfg k o oa s : Forall (fun v => in_sbits (bits k) v) s -> zlen s <= SSIZE_MAX ->
  args_sane k (RIndex o oa None) -> args_fit k (RIndex o oa None) ->
  rstep cfg k (RIndex o oa None) s =
  match evaluate [Some o; oa] s with
  | (inl [Some v; a], s') => (expected cfg k (fst (py_step (OIndex v a (Some (zlen s))) s')), s')
  | (inl _, s') => (Undef OutOfBounds, s')
  | (inr e, s') => (Raise e, s')
  end.
Proof.
  intros F L S A. cbn [rstep]. rewrite (index_eval cfg) by (try assumption; split; assumption).
  cbn [evaluate]. destruct (act o s) as [[[v|x]| | |] s1]; try reflexivity.
  destruct oa as [u|]; [|reflexivity]. destruct (act u s1) as [[[z|x]| | |] s2]; reflexivity.
Qed.

Lemma appender_sane k x z : in_range k x -> sane k (appender x z).
Proof.
  intros R s F L. cbn [act appender fst snd]. destruct (Z.ltb_spec (zlen s) SSIZE_MAX) as [H|H].
  - split; [apply Forall_app; split; [exact F|constructor; [exact R|constructor]]|]. split; [rewrite zlen_app; change (zlen [x]) with 1; lia|].
    left. eexists. reflexivity.
  - split; [exact F|]. split; [exact L|]. left. eexists. reflexivity.
Qed.

Lemma get_default_app (s : list Z) x : get_default (s ++ [x]) (zlen s) = x.
Proof. apply get_default_mid. reflexivity. Qed.

Lemma index_grow cfg k v s : Forall (in_range k) s -> zlen s < SSIZE_MAX -> in_range k v -> ~ In v s ->
  rstep cfg k (RIndex (appender v v) None None) s = (Raise ValueError, s ++ [v]) /\
  atomic_call (RIndex (appender v v) None None) s = (SRet (SNum (zlen s)), s ++ [v]).
Proof.
  intros F L R N. pose proof (zlen_nonneg s) as L0.
  assert (F1 : Forall (in_range k) (s ++ [v])) by (apply Forall_app; split; [exact F|constructor; [exact R|constructor]]).
  assert (L1 : zlen (s ++ [v]) = zlen s + 1) by (rewrite zlen_app; reflexivity).
  assert (NF : forall x, 0 <= x < zlen s -> get_default (s ++ [v]) x <> v).
  { intros x Hx E. apply N. rewrite <- E. unfold get_default. rewrite app_nth1 by (unfold zlen in *; lia).
    apply nth_In. unfold zlen in *. lia. }
  assert (P : positions (length (s ++ [v])) = positions (length s) ++ [zlen s]).
  { unfold positions. rewrite app_length, Nat.add_1_r, seq_S, map_app. reflexivity. }
  assert (Oc : occurrences (s ++ [v]) v = [zlen s]).
  { unfold occurrences. rewrite P, filter_app.
    replace (filter (fun x => get_default (s ++ [v]) x =? v) (positions (length s))) with (@nil Z).
    - cbn [filter app]. rewrite get_default_app, Z.eqb_refl. reflexivity.
    - symmetry. destruct (filter _ (positions (length s))) as [|y l] eqn:E; [reflexivity|]. exfalso.
      assert (I : In y (filter (fun x => get_default (s ++ [v]) x =? v) (positions (length s)))) by (rewrite E; left; reflexivity).
      apply filter_In in I. destruct I as [I1 I2]. apply in_positions in I1. apply Z.eqb_eq in I2. exact (NF y I1 I2). }
  split.
  - rewrite index_default_ok; [|exact F|lia| |].
    + cbn [evaluate act appender]. destruct (Z.ltb_spec (zlen s) SSIZE_MAX); [|lia].
      cbn [py_step fst]. rewrite Oc. cbn [filter].
      destruct (Z.leb_spec 0 (zlen s)); [|lia]. unfold rel. destruct (Z.ltb_spec (zlen s) 0); [lia|].
      rewrite Z.ltb_irrefl. reflexivity.
    + intros u [E|[E|[E|[]]]]; try discriminate. inversion E; subst. apply appender_sane. exact R.
    + split; [|split; exact I]. intros t z t' E. cbn in E. inversion E; subst. exact R.
  - unfold atomic_call. cbn [arguments evaluate act appender]. destruct (Z.ltb_spec (zlen s) SSIZE_MAX); [|lia].
    cbn [python_call py_step]. rewrite Oc. fold (zlen (s ++ [v])). rewrite L1. cbn [filter].
    destruct (Z.leb_spec 0 (zlen s)); [|lia]. destruct (Z.ltb_spec (zlen s) (zlen s + 1)); [|lia]. reflexivity.
Qed.

Lemma pop_shrink cfg k s i : s <> [] -> 0 <= rel (zlen s) i < zlen s -> in_sbits 64 i ->
  rstep cfg k (RPop (emptier i)) s = (Undef OutOfBounds, []) /\
  atomic_call (RPop (emptier i)) s = (SRaise IndexError, []).
Proof.
  intros N H I. split.
  - cbn [rstep]. rewrite (pop_exact cfg k (emptier i) s i []); [|split; [constructor|change (zlen (@nil Z)) with 0; destruct ssize_consts; lia]|exact N|reflexivity|exact I].
    rewrite (proj2 (rel_bounds_dec _ _) H). change (zlen (@nil Z)) with 0.
    destruct (Z.ltb_spec (rel (zlen s) i) 0); [lia|]. reflexivity.
  - unfold atomic_call. cbn [arguments evaluate act emptier python_call py_step]. unfold in_ssize.
    rewrite (proj2 (in_sbits_b_spec 64 i) I). change (Z.of_nat (length (@nil Z))) with 0.
    destruct ((0 <=? rel 0 i) && (rel 0 i <? 0)) eqn:B; [|reflexivity]. apply rel_bounds_dec in B. lia.
Qed.

Lemma pop_grow cfg k a y x : Forall (in_range k) (a ++ [y]) -> zlen (a ++ [y]) < SSIZE_MAX -> in_range k x ->
  rstep cfg k (RPop (appender x (-1))) (a ++ [y]) = (Ret (VElem (from_elem cfg k y)), a ++ [x]) /\
  atomic_call (RPop (appender x (-1))) (a ++ [y]) = (SRet (SElem x), a ++ [y]).
Proof.
  intros F L R. set (s := a ++ [y]) in *.
  assert (Ls : zlen s = zlen a + 1) by (unfold s; rewrite zlen_app; reflexivity).
  pose proof (zlen_nonneg a) as La.
  assert (A : act (appender x (-1)) s = (Ret (PInt (-1)), s ++ [x])).
  { cbn [act appender]. destruct (Z.ltb_spec (zlen s) SSIZE_MAX); [reflexivity|lia]. }
  assert (Lx : zlen (s ++ [x]) = zlen s + 1) by (rewrite zlen_app; reflexivity).
  assert (I : in_sbits 64 (-1)) by (split; vm_compute; congruence).
  split.
  - cbn [rstep]. rewrite (pop_exact cfg k _ s (-1) (s ++ [x])); [|split| |exact A|exact I].
    + assert (E : rel (zlen s) (-1) = zlen a) by (unfold rel; change (-1 <? 0) with true; cbv iota; lia).
      rewrite E. rewrite (proj2 (rel_bounds_dec _ _)) by lia. destruct (Z.ltb_spec (zlen a) (zlen (s ++ [x]))); [|lia].
      unfold s. rewrite <- app_assoc. cbn [app].
      rewrite get_default_mid, firstn_zlen, skipn1_zlen by reflexivity. reflexivity.
    + apply Forall_app; split; [exact F|constructor; [exact R|constructor]].
    + lia.
    + unfold s. destruct a; discriminate.
  - unfold atomic_call. cbn [arguments evaluate]. rewrite A. cbn [python_call py_step].
    unfold in_ssize. rewrite (proj2 (in_sbits_b_spec 64 (-1)) I).
    fold (zlen (s ++ [x])). rewrite Lx.
    assert (E : rel (zlen s + 1) (-1) = zlen s) by (unfold rel; change (-1 <? 0) with true; cbv iota; lia).
    rewrite E. rewrite (proj2 (rel_bounds_dec _ _)) by lia.
    rewrite get_default_app, firstn_zlen, skipn1_zlen by reflexivity. rewrite app_nil_r. reflexivity.
Qed.

Lemma set_shrink cfg k s oi i v : zlen s <= SSIZE_MAX -> Forall (in_range k) s -> act oi s = (Ret (PInt i), s) -> in_sbits 64 i ->
  in_range k v -> 0 <= rel (zlen s) i < zlen s ->
  rstep cfg k (RSet oi (emptier v)) s = (Undef OutOfBounds, []).
Proof.
  intros L F A I R H. rewrite (set_exact cfg k oi (emptier v) s i s v []); try assumption; [|split; assumption|reflexivity].
  rewrite (proj2 (rel_bounds_dec _ _) H). change (zlen (@nil Z)) with 0.
  destruct (Z.ltb_spec (rel (zlen s) i) 0); [lia|]. reflexivity.
Qed.

(** ** Failed conversions in comparisons *)
Lemma znth_at {A} (pre : list A) x rest i : i = zlen pre -> znth (pre ++ x :: rest) i = Some x.
Proof.
  intros ->. unfold znth, zlen. destruct (Z.ltb_spec (Z.of_nat (length pre)) 0); [lia|]. rewrite Nat2Z.id.
  clear. induction pre; [reflexivity|assumption].
Qed.
Lemma eq_loop_bad k q e x rest zs : forall n i pre, ints_then_bad q i zs e -> Forall (in_range k) zs -> zlen pre = i -> (length zs < n)%nat ->
  eq_loop_u k q n i (pre ++ zs ++ x :: rest) = (RetPending false e, pre ++ zs ++ x :: rest).
Proof.
  induction zs as [|z zs IH]; intros [|n] i pre Q F L N; cbn [length] in N; try lia; cbn [eq_loop_u app].
  - destruct (Q (pre ++ x :: rest)) as (o & A & Lo & B). rewrite A, after_ret, znth_at by lia.
    rewrite (conv_err_bad k o _ e Lo B). reflexivity.
  - destruct Q as [Q Q']. destruct (Q (pre ++ z :: zs ++ x :: rest)) as (o & A & Lo & V).
    pose proof (Forall_inv F) as Fz. pose proof (Forall_inv_tail F) as Ft.
    rewrite A, after_ret, znth_at by lia. rewrite (conv_err_good k o _ z Lo V Fz). rewrite Z.eqb_refl.
    replace (pre ++ z :: zs ++ x :: rest) with ((pre ++ [z]) ++ zs ++ x :: rest) by (rewrite <- app_assoc; reflexivity).
    apply (IH n (i + 1) (pre ++ [z]) Q' Ft); rewrite ?zlen_snoc; lia.
Qed.
Lemma ord_loop_bad k r q sz e x rest zs : x <> -1 -> forall n i pre, ints_then_bad q i zs e -> Forall (in_range k) zs -> zlen pre = i ->
  (length zs < n)%nat ->
  ord_loop_u k r q sz n i None (pre ++ zs ++ x :: rest) = (RetPending (r x (-1)) e, pre ++ zs ++ x :: rest).
Proof.
  intros X. induction zs as [|z zs IH]; intros [|n] i pre Q F L N; cbn [length] in N; try lia; cbn [ord_loop_u app].
  - destruct (Q (pre ++ x :: rest)) as (o & A & Lo & B). rewrite A, after_ret, znth_at by lia.
    rewrite (conv_err_bad k o _ e Lo B). cbv zeta. destruct (Z.eqb_spec x (-1)); [contradiction|]. reflexivity.
  - destruct Q as [Q Q']. destruct (Q (pre ++ z :: zs ++ x :: rest)) as (o & A & Lo & V).
    pose proof (Forall_inv F) as Fz. pose proof (Forall_inv_tail F) as Ft.
    rewrite A, after_ret, znth_at by lia. rewrite (conv_err_good k o _ z Lo V Fz). cbv zeta. rewrite Z.eqb_refl.
    replace (pre ++ z :: zs ++ x :: rest) with ((pre ++ [z]) ++ zs ++ x :: rest) by (rewrite <- app_assoc; reflexivity).
    apply (IH n (i + 1) (pre ++ [z]) Q' Ft); rewrite ?zlen_snoc; lia.
Qed.
Lemma compare_bad k c q m zs x rest e : (forall t, act (q_len q) t = (Ret m, t)) -> ints_then_bad q 0 zs e ->
  Forall (in_range k) zs -> zlen zs < m ->
  match c with Eq_ | Ne_ => m = zlen (zs ++ x :: rest) | _ => x <> -1 end ->
  exists b, compare_u k c q (zs ++ x :: rest) = (RetPending b e, zs ++ x :: rest) /\
    (b = true <-> match c with Eq_ => False | Ne_ => True | Lt_ => x < -1 | Le_ => x <= -1 | Gt_ => -1 < x | Ge_ => -1 <= x end).
Proof.
  intros QL Q F Hm H. assert (L : zlen (zs ++ x :: rest) = zlen zs + 1 + zlen rest) by (unfold zlen; rewrite app_length; cbn; lia).
  pose proof (zlen_nonneg rest). pose proof (zlen_nonneg zs).
  assert (E : m = zlen (zs ++ x :: rest) -> eq_u k q (zs ++ x :: rest) = (RetPending false e, zs ++ x :: rest)).
  { intros Em. unfold eq_u. rewrite QL. cbn [seq_size]. rewrite <- Em, Z.eqb_refl. cbn [negb].
    apply (eq_loop_bad k q e x rest zs (Z.to_nat m) 0 [] Q F); [reflexivity|unfold zlen in *; lia]. }
  assert (O : forall r, x <> -1 -> ord_u k r q (zs ++ x :: rest) = (RetPending (r x (-1)) e, zs ++ x :: rest)).
  { intros r X. unfold ord_u. rewrite QL. cbn [seq_size].
    apply (ord_loop_bad k r q m e x rest zs X _ 0 [] Q F); [reflexivity|]. rewrite L. unfold zlen in *; lia. }
  destruct c; cbn [compare_u].
  - rewrite (E H). exists false. split; [reflexivity|]. split; [discriminate|contradiction].
  - unfold ne_u. rewrite (E H). exists true. split; [reflexivity|]. tauto.
  - rewrite (O _ H). eexists. split; [reflexivity|]. apply Z.ltb_lt.
  - rewrite (O _ H). eexists. split; [reflexivity|]. apply Z.leb_le.
  - rewrite (O _ H). eexists. split; [reflexivity|]. rewrite Z.gtb_ltb. apply Z.ltb_lt.
  - rewrite (O _ H). eexists. split; [reflexivity|]. rewrite Z.geb_leb. apply Z.leb_le.
Qed.

Lemma zero_step_u cfg ord k sl q o s s1 : u_step sl = Some o -> act o s = (Ret (PInt 0), s1) ->
  rstep cfg k (RGetSlice sl) s = (Raise ValueError, s1) /\ setitem_slice_u ord k sl q s = (Raise ValueError, s1).
Proof.
  intros E H. assert (U : unpack_u sl s = (Raise ValueError, s1)).
  { unfold unpack_u. rewrite E. unfold conv_opt, conv. rewrite H. reflexivity. }
  cbn [rstep]. unfold getitem_slice_u, setitem_slice_u. rewrite U. split; reflexivity.
Qed.
