(** C10, C31 and C39 for operands that are not sequences, and for sequences
    whose size or items cannot be had. *)
From Coq Require Import ZArith List Bool Arith Lia Permutation Sorted.
From Verif Require Import Base PyLongModel PyListSpec ListLemmas ArrayListModel ArrayListProofs ArrayListSpec
  ArrayListFacts ArrayListMoreModel ArrayListCmpProofs ArrayListMoreProofs
  StdListModel StdListProofs LinkedListSpec LinkedListModel LinkedListProofs LinkedListFacts ObjMoreModel CmpErrors CmpAnySpec CmpAny PropsLinkedList.
Import ListNotations.
Local Open Scope Z_scope.

(** * C10 *)
(** Python raises TypeError for the orderings. *)
Theorem C10_not_sequence : forall k c s, compare_ k c CNotSeq s = Ret (match c with Ne_ => true | _ => false end).
Proof. exact compare_notseq. Qed.
Print Assumptions C10_not_sequence.
(** Another size: == and != read no item. *)
Theorem C10_length : forall k s get len, len <> zlen s ->
  compare_ k Eq_ (CSeq (Ret len) get) s = Ret false /\ compare_ k Ne_ (CSeq (Ret len) get) s = Ret true.
Proof. exact a_length. Qed.
Print Assumptions C10_length.
(** Every object reads as something. *)
Theorem C10_reads_total : forall k o, exists r, reads (bits k) o r.
Proof. exact reads_total. Qed.
Print Assumptions C10_reads_total.
(** Any list or tuple, whatever its items: an ordering is Python's about the
    values read, -1 for items that do not convert, and the last error met up
    to the first difference is left set. *)
Theorem C10_order_any_refuted : forall k c s items rs, c <> Eq_ -> c <> Ne_ -> zlen items < 2 ^ 64 -> Forall2 (reads (bits k)) items rs ->
  exists b, compare_ k c (cmp_items items) s = left_set (last_error (looked s rs)) b /\ (b = true <-> cmp_sem c s (map fst rs)).
Proof. exact order_any. Qed.
Print Assumptions C10_order_any_refuted.
(** == and != stop at the first item that differs or does not convert. *)
Theorem C10_equality_any_refuted : forall k its vs o v err rest x ys, Forall2 (stores (bits k)) its vs -> reads (bits k) o (v, err) ->
  length rest = length ys -> x <> v \/ err <> None ->
  compare_ k Eq_ (cmp_items (its ++ o :: rest)) (vs ++ x :: ys) = left_set err false /\
  compare_ k Ne_ (cmp_items (its ++ o :: rest)) (vs ++ x :: ys) = left_set err true.
Proof. exact equality_any. Qed.
Print Assumptions C10_equality_any_refuted.
Example C10_any_ex : let items := [PInt 7; PObj 1; PInt (2 ^ 70); PInt 3] in
  Forall2 (reads 32) items [(7, None); (-1, Some TypeError); (-1, Some OverflowError); (3, None)] /\
  map (fun c => compare_ KInt c (cmp_items items) [7; -1; 5; 9]) [Eq_; Ne_; Lt_; Ge_]
    = [RetPending false TypeError; RetPending true TypeError; RetPending false OverflowError; RetPending true OverflowError] /\
  map (fun c => compare_ KInt c (cmp_items items) [7; -2; 5; 9]) [Lt_; Ge_] = [RetPending true TypeError; RetPending false TypeError] /\
  map (fun c => compare_ KInt c (cmp_items items) [6; -1]) [Eq_; Ne_; Lt_; Ge_] = [Ret false; Ret true; Ret true; Ret false].
Proof.
  split; [|vm_compute; auto].
  constructor; [apply Reads; exists 7; split; [reflexivity|]; split; [lia|apply (ArrayListFacts.reduced_wrap KInt); reflexivity]|].
  constructor; [apply Rejects; reflexivity|].
  constructor; [apply Rejects; split; [right; vm_compute; discriminate|reflexivity]|].
  constructor; [apply Reads; exists 3; split; [reflexivity|]; split; [lia|apply (ArrayListFacts.reduced_wrap KInt); reflexivity]|]. constructor.
Qed.

(** * C31 *)
Theorem C31_not_sequence : forall c l, lcompare c CNotSeq l = Ret (match c with Ne_ => true | _ => false end).
Proof. exact l_notseq. Qed.
Print Assumptions C31_not_sequence.
(** A sequence of another size: no item is read. *)
Theorem C31_length : forall get len l, len <> zlen (vals l) ->
  lcompare Eq_ (CSeq (Ret len) get) l = Ret false /\ lcompare Ne_ (CSeq (Ret len) get) l = Ret true /\
  forall c, c <> Eq_ -> c <> Ne_ -> lcompare c (CSeq (Ret len) get) l = Ret (zlen (vals l) <? len).
Proof. exact l_length. Qed.
Print Assumptions C31_length.
(** A size that cannot be had: == and != answer with the error left pending. *)
Theorem C31_size_refuted : forall e get l,
  lcompare Eq_ (CSeq (Raise e) get) l = RetPending false e /\ lcompare Ne_ (CSeq (Raise e) get) l = RetPending true e /\
  forall c, c <> Eq_ -> c <> Ne_ -> lcompare c (CSeq (Raise e) get) l = Raise e.
Proof. exact l_size. Qed.
Print Assumptions C31_size_refuted.
(** An item that cannot be had, behind an equal prefix. *)
Theorem C31_item_fails : forall items vs e get y ys l, lwf l -> vals l = vs ++ y :: ys -> Forall2 (stores 32) items vs ->
  (forall j o, nth_error items j = Some o -> get (Z.of_nat j) = Ret o) -> get (zlen vs) = Raise e ->
  let a := CSeq (Ret (zlen (vals l))) get in
  (forall c, c <> Ne_ -> lcompare c a l = Raise e) /\ lcompare Ne_ a l = Undef NullDeref.
Proof. exact l_item_fails. Qed.
Print Assumptions C31_item_fails.
(** An item that does not convert, behind an equal prefix: every comparison
    answers, with the error left pending; the orderings compare with -1. *)
Theorem C31_unconvertible_refuted : forall items vs o e get y ys l, lwf l -> vals l = vs ++ y :: ys -> Forall2 (stores 32) items vs ->
  (forall j x, nth_error items j = Some x -> get (Z.of_nat j) = Ret x) -> get (zlen vs) = Ret o -> rejected o e ->
  let a := CSeq (Ret (zlen (vals l))) get in
  lcompare Eq_ a l = RetPending false e /\ lcompare Ne_ a l = RetPending true e /\
  (y <> -1 -> (forall c, c = Lt_ \/ c = Le_ -> lcompare c a l = RetPending (y <? -1) e) /\
              (forall c, c = Gt_ \/ c = Ge_ -> lcompare c a l = RetPending (-1 <? y) e)).
Proof. exact l_rejected. Qed.
Print Assumptions C31_unconvertible_refuted.
(** The same for any list or tuple as long as the list. *)
Theorem C31_order_any_refuted : forall c l items rs, c <> Eq_ -> c <> Ne_ -> lwf l -> length items = length (vals l) -> Forall2 (reads 32) items rs ->
  exists b, lcompare c (cmp_items items) l = left_set (last_error (looked (vals l) rs)) b /\ (b = true <-> llord_sem c (vals l) (map fst rs)).
Proof. exact l_order_any. Qed.
Print Assumptions C31_order_any_refuted.
Theorem C31_equality_any_refuted : forall its vs o v err rest x ys l, lwf l -> vals l = vs ++ x :: ys -> Forall2 (stores 32) its vs -> reads 32 o (v, err) ->
  length rest = length ys -> x <> v \/ err <> None ->
  lcompare Eq_ (cmp_items (its ++ o :: rest)) l = left_set err false /\ lcompare Ne_ (cmp_items (its ++ o :: rest)) l = left_set err true.
Proof. exact l_equality_any. Qed.
Print Assumptions C31_equality_any_refuted.
Example C31_any_ex : let l := ex_list [7; -1; 5] in let items := [PInt 7; PObj 1; PInt (2 ^ 70)] in
  lwf l /\ length items = length (vals l) /\
  map (fun c => lcompare c (cmp_items items) l) [Eq_; Ne_; Lt_; Le_; Gt_; Ge_]
    = [RetPending false TypeError; RetPending true TypeError; RetPending false OverflowError; RetPending false OverflowError; RetPending true OverflowError; RetPending true OverflowError].
Proof. split; [apply ex_list_wf|]. vm_compute. auto. Qed.

Example C31_errors_ex : let get := fun i => if i =? 0 then Ret (PInt 7) else Raise ValueError in
  lwf (ex_list [7; 8; 9]) /\ vals (ex_list [7; 8; 9]) = [7] ++ 8 :: [9] /\
  map (fun c => lcompare c (CSeq (Ret 3) get) (ex_list [7; 8; 9])) [Eq_; Ne_; Lt_; Ge_] = [Raise ValueError; Undef NullDeref; Raise ValueError; Raise ValueError] /\
  map (fun c => lcompare c (CSeq (Ret 4) get) (ex_list [7; 8; 9])) [Eq_; Ne_; Lt_; Ge_] = [Ret false; Ret true; Ret true; Ret true] /\
  map (fun c => lcompare c (cmp_items [PInt 7; PObj 1; PInt 9]) (ex_list [7; 8; 9])) [Eq_; Ne_; Lt_; Ge_]
    = [RetPending false TypeError; RetPending true TypeError; RetPending false TypeError; RetPending true TypeError].
Proof. split; [apply ex_list_wf|]. vm_compute. auto. Qed.

(** * C39 *)
Theorem C39_not_sequence : forall cmp now lnow c s l,
  a_compare cmp now c ONotSeq s = Ret (match c with Ne_ => true | _ => false end) /\
  l_compare cmp lnow c ONotSeq l = Ret (match c with Ne_ => true | _ => false end).
Proof. exact o_notseq. Qed.
Print Assumptions C39_not_sequence.
(** A sequence of another size: no item is read or compared. *)
Theorem C39_length : forall cmp now lnow get len l, len <> zlen (vals l) ->
  let answer c := Ret (match c with Eq_ => false | Ne_ => true | _ => zlen (vals l) <? len end) in
  forall c, a_compare cmp now c (OSeq (Ret len) get) (vals l) = answer c /\
            l_compare cmp lnow c (OSeq (Ret len) get) l = answer c.
Proof. exact o_length. Qed.
Print Assumptions C39_length.
Theorem C39_size_refuted : forall cmp now lnow get e l,
  let answer c := match c with Eq_ => RetPending false e | Ne_ => RetPending true e | _ => Raise e end in
  forall c, a_compare cmp now c (OSeq (Raise e) get) (vals l) = answer c /\
            l_compare cmp lnow c (OSeq (Raise e) get) l = answer c.
Proof. exact o_size. Qed.
Print Assumptions C39_size_refuted.
(** An item that cannot be had, behind items that compare equal: the error is
    raised, by the orderings for the first item only. *)
Theorem C39_item_fails : forall cmp get e l, lwf l -> forall items vs y ys, vals l = vs ++ y :: ys -> length items = length vs ->
  (forall j o, nth_error items j = Some o -> get (Z.of_nat j) = Ret o) -> get (zlen vs) = Raise e ->
  let a := OSeq (Ret (zlen (vals l))) get in
  ((forall j v o, nth_error vs j = Some v -> nth_error items j = Some o -> rich_bool cmp j Eq_ v o = Ret true) ->
     a_compare cmp (fun _ => vals l) Eq_ a (vals l) = Raise e /\ l_compare cmp (fun _ => lst l) Eq_ a l = Raise e) /\
  ((forall j v o, nth_error vs j = Some v -> nth_error items j = Some o -> rich_bool cmp j Ne_ v o = Ret false) ->
     a_compare cmp (fun _ => vals l) Ne_ a (vals l) = Raise e /\ l_compare cmp (fun _ => lst l) Ne_ a l = Raise e) /\
  (vs = [] -> forall c, c <> Eq_ -> c <> Ne_ ->
     a_compare cmp (fun _ => vals l) c a (vals l) = Raise e /\ l_compare cmp (fun _ => lst l) c a l = Raise e).
Proof. exact o_item_fails. Qed.
Print Assumptions C39_item_fails.

Example C39_errors_ex : let get := fun i => if i =? 0 then Ret 7 else Raise ValueError in
  let cmp := fun (_ : nat) c x y => Ret match c with Ne_ => negb (x =? y) | _ => x =? y end in
  map (fun c => a_compare cmp (fun _ => [7; 8]) c (OSeq (Ret 2) get) [7; 8]) [Eq_; Ne_; Lt_] = [Raise ValueError; Raise ValueError; Ret true] /\
  map (fun c => l_compare cmp (fun _ => lst (ex_list [7; 8])) c (OSeq (Ret 2) get) (ex_list [7; 8])) [Eq_; Ne_; Lt_] = [Raise ValueError; Raise ValueError; Ret true] /\
  map (fun c => l_compare cmp (fun _ => lst (ex_list [7; 8])) c (OSeq (Raise ValueError) get) (ex_list [7; 8])) [Eq_; Ne_; Lt_]
    = [RetPending false ValueError; RetPending true ValueError; Raise ValueError].
Proof. vm_compute. auto. Qed.
