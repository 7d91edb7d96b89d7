(** Property theorems C62: the comparison CPython_sort selects before sorting. *)
From Coq Require Import ZArith List Bool Arith Lia Permutation.
From Verif Require Import Base PyLongModel PyLongProofs MemModel PreSortModel PreSortSpec SortSpec CPythonSortModel PreSortProofs.
Import ListNotations.
Local Open Scope Z_scope.

(** Whatever the keys, the check finishes without reading outside an object and
    selects a comparison that gives the answer of Python's <, errors included,
    for any two of them. *)
Theorem C62_selected : forall py312 rcb slot fn flt keys, interpreter rcb slot fn flt -> Forall sound keys ->
  exists c, pre_sort_check py312 slot keys = Ret c /\
    ((2 <= length keys)%nat -> forall v w, In v keys -> In w keys -> compare py312 rcb slot fn flt c v w = rcb CLt v w).
Proof. intros py312 rcb slot fn flt keys I. exact (check_agrees py312 rcb slot fn flt I keys). Qed.
Print Assumptions C62_selected.

(** Sorting the keys with the selected comparison sorts them by Python's <. *)
Theorem C62_sorts : forall py312 rcb slot fn flt keys (less : {v | In v keys} -> {v | In v keys} -> bool) grab reverse (l : list {v | In v keys}),
  interpreter rcb slot fn flt -> Forall sound keys -> (2 <= length keys)%nat -> map (@proj1_sig _ _) l = keys ->
  weak_order less -> (forall v w, rcb CLt (proj1_sig v) (proj1_sig w) = Ret (less v w)) -> (forall n, grab n = true) -> 8 * zlen l <= SSIZE_MAX ->
  exists c l', pre_sort_check py312 slot keys = Ret c /\
    CPython_sort_plain (fun _ v w => match compare py312 rcb slot fn flt c (proj1_sig v) (proj1_sig w) with Ret b => Some b | _ => None end) grab l reverse = SortOk l' /\
    Permutation l' l /\ (if reverse then descending less l' else ascending less l') /\ stable less l' l.
Proof. intros py312 rcb slot fn flt keys less grab reverse l I. exact (selected_sorts py312 rcb slot fn flt I keys less grab reverse l). Qed.
Print Assumptions C62_sorts.

(** Before 3.12 the fast comparison of small ints is never selected. *)
Theorem C62_never_long : forall slot keys c, pre_sort_check false slot keys = Ret c -> c <> KOne FLong /\ c <> KTuples FLong.
Proof. exact never_long. Qed.
Print Assumptions C62_never_long.

(** ** An interpreter *)
Fixpoint eqv (v w : pv) : bool :=
  match v, w with
  | VInt a, VInt b => pl_val a =? pl_val b
  | VFloat a, VFloat b => a =? b
  | VStr a, VStr b => if list_eq_dec Z.eq_dec a b then true else false
  | VTup a, VTup b => (fix go a b := match a, b with [], [] => true | x :: a', y :: b' => eqv x y && go a' b' | _, _ => false end) a b
  | VObj c i, VObj d j => (c =? d) && (i =? j)
  | _, _ => false
  end.
Fixpoint strlt (a b : list Z) : bool :=
  match a, b with
  | _, [] => false
  | [], _ => true
  | x :: a', y :: b' => (x <? y) || ((x =? y) && strlt a' b')
  end.
(** Objects of class 0 compare by their numbers, those of class 1 raise. *)
Fixpoint ltv (v w : pv) : outcome bool :=
  match v, w with
  | VInt a, VInt b => Ret (pl_val a <? pl_val b)
  | VFloat a, VFloat b => Ret (a <? b)
  | VStr a, VStr b => Ret (strlt a b)
  | VTup a, VTup b =>
      (fix go a b := match a, b with
        | _, [] => Ret false
        | [], _ => Ret true
        | x :: a', y :: b' => if eqv x y then go a' b' else ltv x y
        end) a b
  | VObj 0 i, VObj 0 j => Ret (i <? j)
  | VObj 1 _, _ => Raise (UserError 7)
  | _, _ => Raise TypeError
  end.
Definition ex_rcb (op : cop) (v w : pv) : outcome bool := match op with CLt => ltv v w | CEq => Ret (eqv v w) end.
Definition ex_slot (t : ptype) : option Z := match t with TInt => Some 1 | TFloat => Some 2 | TStr => Some 3 | TTup => Some 4 | TCls 0 => Some 5 | TCls 1 => Some 6 | TCls _ => None end.
Definition ex_fn (k : Z) (v w : pv) : answer := match ltv v w with Ret b => ABool b | Raise TypeError => ANotImplemented | Raise e => AError e | _ => ANotImplemented end.

Lemma strlt_less a b : strlt a b = true <-> str_less a b.
Proof.
  revert b. induction a as [|x a IH]; intros [|y b]; cbn; split; intros H; try discriminate; try apply SL_end; try reflexivity; try (inversion H; fail).
  - apply orb_prop in H. destruct H as [H|H]; [apply SL_head, Z.ltb_lt, H|]. apply andb_prop in H. destruct H as (E & H). apply Z.eqb_eq in E. subst y. apply SL_tail, IH, H.
  - inversion H as [|c d r s L|c r s L]; subst; [apply orb_true_intro; left; apply Z.ltb_lt, L|]. rewrite Z.eqb_refl. apply orb_true_intro. right. apply IH in L. rewrite L. reflexivity.
Qed.
Lemma ltv_answers : forall v w, (exists r, ltv v w = Ret r) \/ (exists e, ltv v w = Raise e).
Proof.
  fix IH 1. intros v w. destruct v as [p|x|c|a|c i]; destruct w as [q|y|d|b|d j]; cbn; eauto.
  - revert b. induction a as [|x a IHa]; intros [|y b]; eauto. destruct (eqv x y); [apply IHa|apply IH].
  - destruct c as [|[| |]|]; eauto.
  - destruct c as [|[| |]|]; eauto.
  - destruct c as [|[| |]|]; eauto.
  - destruct c as [|[| |]|]; eauto.
  - destruct c as [|[| |]|]; eauto. destruct d; eauto.
Qed.
Example C62_interpreter : interpreter ex_rcb ex_slot ex_fn Z.ltb.
Proof.
  split.
  - reflexivity.
  - reflexivity.
  - intros a b _. exists (strlt a b). split; [reflexivity|apply strlt_less].
  - intros a b o H. induction H as [| | |x r y s o E H IH|x r y s E|x r y s e E]; cbn in *; try reflexivity; [| |discriminate]; injection E as ->; [exact IH|reflexivity].
  - intros [|] v w; [apply ltv_answers|left; eexists; reflexivity].
  - intros v w k _ _. unfold ex_fn, ex_rcb. destruct (ltv v w) as [b|e| |]; try exact Logic.I; [reflexivity|]. destruct e; try reflexivity; exact Logic.I.
Qed.

(** ** Keys *)
Definition I (z : Z) : pv := VInt (mk_pylong z).
Definition ints := [I 3; I (-5); I 0].
Definition long_ints := [I 3; I (-5); I (2 ^ 40)].
Definition names := [VStr [98; 233]; VStr [98]; VStr [97; 255]].
Definition wide_names := [VStr [98; 233]; VStr [300; 1]; VStr [98; 300]].
Definition pairs := [VTup [I 1; VStr [98]]; VTup [I 1; VStr [97]]; VTup [I 0; VObj 7 7]].
Definition mixed_pairs := [VTup [I 1; VStr [98]]; VTup [VStr [97]]].
Definition not_all_tuples := [VTup [I 1]; VTup []; I 4].
Definition raising := [VObj 1 1; VObj 1 2].
Definition nested := [VTup [VTup [I 2]]; VTup [VTup [I 1]]].

Example C62_ex_selected :
  map (pre_sort_check true ex_slot) [ints; long_ints; names; wide_names; pairs; mixed_pairs; not_all_tuples; raising; nested; [VFloat 5; VFloat 4]; [I 1; VFloat 4]] =
  [Ret (KOne FLong); Ret (KOne (FObject 1)); Ret (KOne FLatin); Ret (KOne (FObject 3)); Ret (KTuples FLong); Ret (KTuples FSafe); Ret (KOne FSafe); Ret (KOne (FObject 6)); Ret (KTuples FSafe); Ret (KOne FFloat); Ret (KOne FSafe)]
  /\ pre_sort_check false ex_slot ints = Ret (KOne (FObject 1)).
Proof. vm_compute. split; reflexivity. Qed.
Example C62_ex_answers :
  let cmp keys v w := match pre_sort_check true ex_slot keys with Ret c => compare true ex_rcb ex_slot ex_fn Z.ltb c v w | _ => Undef NullDeref end in
  cmp ints (I (-5)) (I 0) = Ret true /\ cmp names (VStr [98; 233]) (VStr [98]) = Ret false /\ cmp names (VStr [97; 255]) (VStr [98]) = Ret true /\
  cmp pairs (VTup [I 1; VStr [97]]) (VTup [I 1; VStr [98]]) = Ret true /\ cmp pairs (VTup [I 0; VObj 7 7]) (VTup [I 1; VStr [98]]) = Ret true /\
  cmp mixed_pairs (VTup [I 1; VStr [98]]) (VTup [VStr [97]]) = Raise TypeError /\ cmp raising (VObj 1 1) (VObj 1 2) = Raise (UserError 7).
Proof. vm_compute. repeat split; reflexivity. Qed.
Lemma sound_int z : sound (I z).
Proof. destruct (mk_pylong_wf z) as (A & _ & B). constructor; [|exact B]. eapply Forall_impl; [|exact A]. cbn. intros d D. lia. Qed.
Example C62_ex_sound : Forall sound ints /\ Forall sound long_ints /\ Forall sound names /\ Forall sound pairs.
Proof. repeat split; repeat constructor; try apply sound_int; try apply (mk_pylong_wf _); cbn; try lia; try discriminate. Qed.
(** Sorting with the selected comparison. *)
Example C62_ex_sorts :
  let sorted keys := match pre_sort_check true ex_slot keys with
    | Ret c => CPython_sort_plain (fun _ v w => match compare true ex_rcb ex_slot ex_fn Z.ltb c v w with Ret b => Some b | _ => None end) (fun _ => true) keys false
    | _ => SortErr [] end in
  sorted ints = SortOk [I (-5); I 0; I 3] /\ sorted long_ints = SortOk [I (-5); I 3; I (2 ^ 40)] /\ sorted names = SortOk [VStr [97; 255]; VStr [98]; VStr [98; 233]] /\
  sorted pairs = SortOk [VTup [I 0; VObj 7 7]; VTup [I 1; VStr [97]]; VTup [I 1; VStr [98]]] /\
  match sorted raising with SortErr _ => True | _ => False end.
Proof. vm_compute. repeat split; reflexivity. Qed.

(** The selection matters: comparing the bytes of strings outside Latin-1, or
    the first digit of long ints, does not answer Python's <. *)
Example C62_ex_wrong : elem_compare true ex_rcb ex_slot ex_fn Z.ltb FLatin (VStr [511]) (VStr [512]) = Ret false /\ ltv (VStr [511]) (VStr [512]) = Ret true /\
  elem_compare true ex_rcb ex_slot ex_fn Z.ltb FLong (I 5) (I (2 ^ 40)) = Ret false /\ ltv (I 5) (I (2 ^ 40)) = Ret true.
Proof. vm_compute. repeat split; reflexivity. Qed.
