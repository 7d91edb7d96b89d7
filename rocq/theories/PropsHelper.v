(** C85: int constants and iteration helpers for natively compiled code.

    The properties are stated with HelperSpec ([reads_as], [written_as],
    [builtin_slots]) and the values of PyLongModel. *)
From Coq Require Import ZArith List Bool Lia.
From Verif Require Import Base PyLongModel PyLongProofs ArrayListSpec HelperModel HelperSpec HelperProofs.
Import ListNotations.
Local Open Scope Z_scope.

(** Before 3.12 the text is read as int() reads it: exactly these texts, ... *)
Theorem C85_text : forall limit t p, from_string limit t = Ret p <->
  exists z ds, reads_as t z ds /\ p = mk_pylong z /\ (limit <= 0 \/ zlen ds <= limit).
Proof. exact string_exact. Qed.
Print Assumptions C85_text.
(** ... and every other text is a ValueError. *)
Theorem C85_text_else : forall limit t, (exists p, from_string limit t = Ret p) \/ from_string limit t = Raise ValueError.
Proof. exact string_else. Qed.
Print Assumptions C85_text_else.
Example C85_text_ex : from_string 4300 [32; 45; 49; 95; 50; 10] = Ret (mk_pylong (-12)) /\
  from_string 4300 [49; 95; 95; 50] = Raise ValueError /\ from_string 4300 [49; 95] = Raise ValueError /\ from_string 4300 [] = Raise ValueError /\
  reads_as [32; 45; 49; 95; 50; 10] (-12) [1; 2].
Proof.
  split; [vm_compute; reflexivity|]; split; [vm_compute; reflexivity|]; split; [vm_compute; reflexivity|]; split; [vm_compute; reflexivity|].
  exists [32], [49; 95; 50], [10], true, [45]; split; [reflexivity|]; split; [repeat constructor|]; split; [constructor; [right; lia|constructor]|].
  split; [apply (num_bar 1); [lia|]; apply (num_one 2); lia|]; split; reflexivity.
Qed.

(** From 3.12 on the digits of an int give that int, ... *)
Theorem C85_digits : forall limit t z neg count digits, written_as z neg count digits ->
  PyFast_FromDigits true limit t neg count digits = Ret (mk_pylong z).
Proof. exact (fun limit t => digits_written). Qed.
Print Assumptions C85_digits.
(** ... any digits give an object of their value, and it is an int in Python's
    form exactly when there are none or the top one is not zero. *)
Theorem C85_digits_exact : forall limit t neg count digits, 0 <= count <= zlen digits -> Forall (fun d => 0 <= d < PyLong_BASE) digits ->
  exists p, PyFast_FromDigits true limit t neg count digits = Ret p /\
    pl_val p = (if neg then - digits_val (firstn (Z.to_nat count) digits) else digits_val (firstn (Z.to_nat count) digits)) /\
    (pl_wf p <-> count = 0 \/ nth (Z.to_nat (count - 1)) digits 0 <> 0).
Proof. exact (fun limit t => digits_exact). Qed.
Print Assumptions C85_digits_exact.
Example C85_digits_ex : PyFast_FromDigits true 4300 [] true 2 [5; 1; 9] = Ret (mk_pylong (-(2 ^ 30 + 5))) /\ written_as (-(2 ^ 30 + 5)) true 2 [5; 1; 9].
Proof.
  split; [vm_compute; reflexivity|]; exists (mk_pylong (-(2 ^ 30 + 5))).
  split; [apply mk_pylong_wf|]; split; [apply mk_pylong_val|]; split; [vm_compute; reflexivity|]; split; [intros _; vm_compute; reflexivity|].
  exists [9]; vm_compute; reflexivity.
Qed.

(** A constant written both ways is the same int in both configurations, ... *)
Theorem C85_constant : forall py312 limit z t neg count digits, decimal_text z t -> written_as z neg count digits ->
  limit <= 0 \/ zlen t - (if z <? 0 then 1 else 0) <= limit -> PyFast_FromDigits py312 limit t neg count digits = Ret (mk_pylong z).
Proof. exact constant. Qed.
Print Assumptions C85_constant.
(** ... except that before 3.12 one of more digits than the interpreter's limit
    is refused. *)
Theorem C85_constant_long_refuted : forall limit z t neg count digits, decimal_text z t -> written_as z neg count digits ->
  0 < limit < zlen t - (if z <? 0 then 1 else 0) ->
  PyFast_FromDigits false limit t neg count digits = Raise ValueError /\ PyFast_FromDigits true limit t neg count digits = Ret (mk_pylong z).
Proof. exact (fun limit z t neg count digits D W L => conj (constant_long limit z t neg count digits D L) (digits_written z neg count digits W)). Qed.
Print Assumptions C85_constant_long_refuted.
Example C85_constant_ex : decimal_text (-105) [45; 49; 48; 53] /\ written_as (-105) true 1 [105] /\
  PyFast_FromDigits false 3 [45; 49; 48; 53] true 1 [105] = Ret (mk_pylong (-105)) /\
  PyFast_FromDigits false 2 [45; 49; 48; 53] true 1 [105] = Raise ValueError.
Proof.
  split; [exists [1; 0; 5]; split; [repeat constructor; lia|]; split; [discriminate|]; split; [discriminate|]; split; reflexivity|].
  split; [|split; vm_compute; reflexivity].
  exists (mk_pylong (-105)); split; [apply mk_pylong_wf|]; split; [apply mk_pylong_val|]; split; [vm_compute; reflexivity|]; split; [intros _; reflexivity|exists []; vm_compute; reflexivity].
Qed.
(** A count larger than the array reads beyond it; a zero top digit makes an
    object that is not the int Python would make. *)
Theorem C85_count_refuted : forall limit t neg count digits, zlen digits < count ->
  PyFast_FromDigits true limit t neg count digits = Undef OutOfBounds.
Proof. exact (fun limit t => digits_short). Qed.
Print Assumptions C85_count_refuted.
Theorem C85_form_refuted : exists p, PyFast_FromDigits true 4300 [53] false 2 [5; 0] = Ret p /\ pl_val p = 5 /\ p <> mk_pylong 5 /\
  PyFast_FromDigits false 4300 [53] false 2 [5; 0] = Ret (mk_pylong 5).
Proof. eexists; split; [vm_compute; reflexivity|]; split; [vm_compute; reflexivity|]; split; [vm_compute; discriminate|vm_compute; reflexivity]. Qed.
Print Assumptions C85_form_refuted.

(** The shortcut to the iterator of the five builtin types answers as
    PyObject_GetIter does. *)
Theorem C85_iter : forall o, builtin_slots o -> PyFast_GetIter o = object_get_iter o.
Proof. exact get_iter_same. Qed.
Print Assumptions C85_iter.
Example C85_iter_ex : builtin_slots {| type_is := TDict; tp_iter := Some (Iterator 7); sequence := None |} /\
  PyFast_GetIter {| type_is := TDict; tp_iter := Some (Iterator 7); sequence := None |} = Ret 7 /\
  builtin_slots {| type_is := TOther; tp_iter := Some (NoIterator 8); sequence := None |} /\
  PyFast_GetIter {| type_is := TOther; tp_iter := Some (NoIterator 8); sequence := None |} = Raise TypeError /\
  PyFast_GetIter {| type_is := TOther; tp_iter := None; sequence := Some (Iterator 9) |} = Ret 9.
Proof.
  split; [intros _; exists (Iterator 7); split; [reflexivity|discriminate]|]; split; [reflexivity|].
  split; [intro N; exfalso; apply N; reflexivity|]; split; reflexivity.
Qed.
(** It is the iterator of the object, or an error when there is none. *)
Theorem C85_iter_exact : forall o, builtin_slots o -> (forall i, PyFast_GetIter o = Ret i <-> iterates_with o i) /\
  ((exists i, iterates_with o i) \/ exists e, PyFast_GetIter o = Raise e).
Proof. exact get_iter_exact. Qed.
Print Assumptions C85_iter_exact.
(** A step returns an item exactly when the type's slot did, leaves the error
    the slot set and no other, and crashes exactly without a slot. *)
Theorem C85_next : forall s, (forall r e, PyFast_Next s = Ret (r, e) ->
    (forall o, r = Some o <-> s = Some (Item o)) /\ (forall x, e = Some x <-> s = Some (NextFails x))) /\
  (PyFast_Next s = Undef NullDeref <-> s = None) /\ (s <> None -> exists f, PyFast_Next s = Ret f).
Proof. exact next_found. Qed.
Print Assumptions C85_next.
Example C85_next_ex : PyFast_Next (Some (Item 4)) = Ret (Some 4, None) /\ PyFast_Next (Some (NextFails ValueError)) = Ret (None, Some ValueError).
Proof. split; reflexivity. Qed.
(** It is what PyIter_Next finds exactly when the slot does not end with
    StopIteration set; then the error stays for the caller. *)
Theorem C85_next_same : forall s, PyFast_Next s = iter_next s <-> s <> Some (NextFails StopIteration).
Proof. exact next_same. Qed.
Print Assumptions C85_next_same.
Theorem C85_next_refuted : PyFast_Next (Some (NextFails StopIteration)) = Ret (None, Some StopIteration) /\ iter_next (Some (NextFails StopIteration)) = Ret (None, None).
Proof. split; reflexivity. Qed.
Print Assumptions C85_next_refuted.
