(** C82: the call helpers for natively compiled code (utils/PythonUtils.h). *)
From Coq Require Import ZArith List Bool.
From Verif Require Import Base ObjModel ObjSpec NativeModel NativeSpec NativeProofs.
Import ListNotations.
Local Open Scope Z_scope.

(** ** Calls that go right *)
Theorem C82_direct : forall E c args n names rc, direct c = true ->
  called E c [] [] [] rc (call_no_args E c rc) /\ called E c args [] [] rc (call_no_kwargs E c args rc) /\
  called E c (firstn n args) (combine names (skipn n args)) [] rc (call_kw E c args n names rc).
Proof.
  exact (fun E c args n names rc D => conj (direct_no_args E c rc D) (conj (direct_no_kwargs E c args rc D) (direct_kw E c args n names rc D))).
Qed.
Print Assumptions C82_direct.
Theorem C82_no_args : forall E c rc, plain c = true -> tp_call c = true -> called E c [] [] [] rc (call_no_args E c rc).
Proof. exact plain_no_args. Qed.
Print Assumptions C82_no_args.

(** ** Calls by tp_call: every positional argument loses a reference *)
Theorem C82_arguments_refuted : forall E c args rc, plain c = true -> tp_call c = true -> tuple_ok E = true -> (forall o, 0 <= rc o) ->
  (enough E rc (answer E (id c) args []) args -> called E c args [] args rc (call_no_kwargs E c args rc)) /\
  (~ enough E rc (answer E (id c) args []) args -> call_no_kwargs E c args rc = Crash DeadObject).
Proof. exact plain_no_kwargs. Qed.
Print Assumptions C82_arguments_refuted.
Theorem C82_keywords_refuted : forall E c args n names rc, plain c = true -> tp_call c = true -> tuple_ok E = true -> dict_ok E = true -> (forall o, 0 <= rc o) ->
  let pos := firstn n args in let kw := combine names (skipn n args) in
  enough E rc (answer E (id c) pos kw) pos -> called E c pos kw pos rc (call_kw E c args n names rc).
Proof. exact plain_kw. Qed.
Print Assumptions C82_keywords_refuted.
(** An object to which there are [n] references is gone after [n] such calls. *)
Theorem C82_drained_refuted : forall E c a n rc, plain c = true -> tp_call c = true -> tuple_ok E = true -> imm E a = false ->
  (forall o, 0 <= rc o) -> answer E (id c) [a] [] = None -> rc a = Z.of_nat n ->
  (exists rc', again E c [a] n rc = Some rc' /\ rc' a = 0) /\ again E c [a] (S n) rc = None.
Proof. exact drained. Qed.
Print Assumptions C82_drained_refuted.

(** ** Calls that crash *)
Theorem C82_method_refuted : forall E c args n names rc, type_vec c = false -> have_vec c = true -> own_vec c = true -> is_method c = true ->
  call_no_args E c rc = Crash NullWrite /\ call_no_kwargs E c args rc = Crash BeforeArgs /\ call_kw E c args n names rc = Crash BeforeArgs.
Proof. exact bound_method. Qed.
Print Assumptions C82_method_refuted.
Theorem C82_no_slot_refuted : forall E c args n names rc, type_vec c = false -> have_vec c = true -> own_vec c = false ->
  call_no_args E c rc = Crash NullCall /\ call_no_kwargs E c args rc = Crash NullCall /\ call_kw E c args n names rc = Crash NullCall.
Proof. exact no_slot. Qed.
Print Assumptions C82_no_slot_refuted.
Theorem C82_instance_refuted : forall E c args n names rc, type_vec c = true -> is_class c = false ->
  call_no_args E c rc = Crash NotAType /\ call_no_kwargs E c args rc = Crash NotAType /\ call_kw E c args n names rc = Crash NotAType.
Proof. exact instance. Qed.
Print Assumptions C82_instance_refuted.
Theorem C82_not_callable_refuted : forall E c args n names rc, plain c = true -> tp_call c = false ->
  call_no_args E c rc = Crash NullCall /\ (tuple_ok E = true -> call_no_kwargs E c args rc = Crash NullCall) /\
  (tuple_ok E = true -> dict_ok E = true -> call_kw E c args n names rc = Crash NullCall).
Proof. exact not_callable. Qed.
Print Assumptions C82_not_callable_refuted.
Theorem C82_no_memory_refuted : forall E c args n names rc, plain c = true ->
  (tuple_ok E = false -> call_no_kwargs E c args rc = Crash NullWrite /\ call_kw E c args n names rc = Crash NullWrite) /\
  (tuple_ok E = true -> dict_ok E = false -> tp_call c = true -> (forall o, 0 <= rc o) ->
     enough E rc (answer E (id c) (firstn n args) (combine names (skipn n args))) (firstn n args) ->
     call_kw E c args n names rc = Crash NullWrite).
Proof. exact no_memory. Qed.
Print Assumptions C82_no_memory_refuted.

(** ** Globals *)
(** The value is the global, else the builtin of that name, but the frame and
    both dictionaries are left with a reference too many each time. *)
Theorem C82_global : forall E G name rc f, frame G = Some f ->
  exists v rc', load_global E G name rc = Done v rc' [] /\
    v = match glob G name with Some v => Some v | None => builtin G name end /\
    shifted E rc rc' (result v ++ [f; gdict G; bdict G]) [].
Proof. exact loads. Qed.
Print Assumptions C82_global.
Theorem C82_global_refuted : forall E G names rc f, frame G = Some f -> (forall o, 0 <= rc o) ->
  exists rc', load_many E G names rc = Some rc' /\
    forall o, rc' o = rc o + (if imm E o then 0 else zlen names * occ [f; gdict G; bdict G] o).
Proof. exact loads_leak. Qed.
Print Assumptions C82_global_refuted.

(** ** Examples *)
Definition ex_env : env := {| answer := fun _ pos _ => match pos with [] => Some 9 | x :: _ => Some x end; imm := fun o => o =? 0; tuple_ok := true; dict_ok := true |}.
Definition ex_rc (o : Z) : Z := if (1 <=? o) && (o <=? 9) then 2 else 0.
(** A Python function; an instance with [__call__]; a bound method; a list. *)
Definition ex_fun : callable := {| id := 1; type_vec := false; have_vec := true; own_vec := true; tp_call := true; is_method := false; is_class := false |}.
Definition ex_obj : callable := {| id := 1; type_vec := false; have_vec := false; own_vec := false; tp_call := true; is_method := false; is_class := false |}.
Definition ex_method : callable := {| id := 1; type_vec := false; have_vec := true; own_vec := true; tp_call := true; is_method := true; is_class := false |}.
Definition ex_list : callable := {| id := 1; type_vec := true; have_vec := false; own_vec := false; tp_call := false; is_method := false; is_class := false |}.
Definition counts_of (x : nres) : option (option Z * list Z * list (Z * list Z * list (Z * Z))) :=
  match x with Done r rc seen => Some (r, map rc [1; 2; 3; 4; 9], seen) | Crash _ => None end.
Example C82_call_ex :
  direct ex_fun = true /\ plain ex_obj = true /\
  counts_of (call_no_kwargs ex_env ex_fun [2; 3] ex_rc) = Some (Some 2, [2; 3; 2; 2; 2], [(1, [2; 3], [])]) /\
  counts_of (call_no_kwargs ex_env ex_obj [2; 3] ex_rc) = Some (Some 2, [2; 2; 1; 2; 2], [(1, [2; 3], [])]) /\
  counts_of (call_kw ex_env ex_obj [2; 3] 1 [4] ex_rc) = Some (Some 2, [2; 2; 2; 2; 2], [(1, [2], [(4, 3)])]) /\
  counts_of (call_no_args ex_env ex_obj ex_rc) = Some (Some 9, [2; 2; 2; 2; 3], [(1, [], [])]) /\
  call_no_kwargs ex_env ex_obj [3; 3; 3] (fun o => if o =? 3 then 1 else 0) = Crash DeadObject /\
  call_no_args ex_env ex_method ex_rc = Crash NullWrite /\ call_no_kwargs ex_env ex_list [2] ex_rc = Crash NotAType.
Proof. vm_compute. auto 20. Qed.
Example C82_enough_ex : enough ex_env ex_rc (answer ex_env 1 [2; 3] []) [2; 3] /\ (forall o, 0 <= ex_rc o) /\
  (let E := {| answer := fun _ _ _ => None; imm := fun _ => false; tuple_ok := true; dict_ok := true |} in
   answer E (id ex_obj) [5] [] = None /\ ex_rc 5 = Z.of_nat 2 /\ again E ex_obj [5] 3 ex_rc = None).
Proof.
  assert (P : forall o, 0 <= ex_rc o) by (intro o; unfold ex_rc; destruct ((1 <=? o) && (o <=? 9)); discriminate).
  split; [|split; [exact P|vm_compute; auto]].
  intros o _. cbn [occ answer ex_env result].
  destruct (Z.eqb_spec 2 o) as [<-|N]; [vm_compute; discriminate|].
  destruct (Z.eqb_spec 3 o) as [<-|M]; [vm_compute; discriminate|]; rewrite !Z.add_0_r; apply P.
Qed.
Example C82_global_ex :
  let G := {| frame := Some 2; gdict := 3; bdict := 4; glob := fun n => if n =? 7 then Some 9 else None; builtin := fun n => if n =? 8 then Some 1 else None |} in
  counts_of (load_global ex_env G 7 ex_rc) = Some (Some 9, [2; 3; 3; 3; 3], []) /\
  counts_of (load_global ex_env G 8 ex_rc) = Some (Some 1, [3; 3; 3; 3; 2], []) /\
  counts_of (load_global ex_env G 6 ex_rc) = Some (None, [2; 3; 3; 3; 2], []) /\
  match load_many ex_env G [7; 8; 6] ex_rc with Some rc => map rc [1; 2; 3; 4; 9] = [2; 5; 5; 5; 2] | None => False end.
Proof. vm_compute. auto. Qed.
