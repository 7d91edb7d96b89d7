(** C79: importing the extension module. *)
From Coq Require Import ZArith List Bool String Lia.
From Verif Require Import Base ImportModel ImportSpec ImportProofs.
Import ListNotations.
Local Open Scope string_scope.
Local Open Scope list_scope.
Local Open Scope Z_scope.

(** An interpreter with [types] references to every class and no modules. *)
Definition ex_start (types : Z) : ist :=
  {| cnt := fun o => match o with OType _ => types | OMod _ => 0 end; dict := fun _ => []; exc := None; nxt := 0; asked := 0 |}.
Definition ex_granted (no : list nat) (n : nat) : bool := negb (existsb (Nat.eqb n) no).
Example ex_start_fresh : fresh (ex_start 1) /\ exc (ex_start 1) = None.
Proof. split; [intros m _|]; reflexivity. Qed.

(** A module that is loaded has all the classes. *)
Theorem C79_loaded : forall G s p s',
  fresh s -> exc s = None -> load G s = (s', Loaded p) -> complete s s' p /\ fresh s' /\ exc s' = None.
Proof. exact import_loaded. Qed.
Print Assumptions C79_loaded.
Example C79_loaded_ex : snd (load (ex_granted []) (ex_start 1)) = Loaded 0 /\
  dict (fst (load (ex_granted []) (ex_start 1))) 0%nat = map (fun e => (fst e, OMod (snd e))) (combine library (seq 1 14)).
Proof. vm_compute. auto. Qed.

(** It is loaded if and only if no request is refused; which error is raised
    otherwise. *)
Theorem C79_result : forall G s, fresh s -> exc s = None ->
  ((exists p, snd (load G s) = Loaded p) <-> forall i, (i < all_requests)%nat -> G (asked s + i)%nat = true) /\
  (snd (load G s) = Failed MemoryError <-> G (asked s) = false) /\
  (forall e, snd (load G s) = Failed e -> e = MemoryError \/ e = SystemError).
Proof. exact import_result. Qed.
Print Assumptions C79_result.
Example C79_result_ex : all_requests = 43%nat /\ snd (load (ex_granted [0%nat]) (ex_start 1)) = Failed MemoryError /\
  snd (load (ex_granted [42%nat]) (ex_start 1)) = Failed SystemError /\ snd (load (ex_granted [43%nat]) (ex_start 1)) = Loaded 0.
Proof. vm_compute. auto. Qed.

(** What an attempt that fails leaves: nothing, or a module that no one refers to
    and the modules of the classes that were made. *)
Theorem C79_left : forall G s e, fresh s -> exc s = None -> snd (load G s) = Failed e ->
  (G (asked s) = false /\ cnt (fst (load G s)) = cnt s /\ dict (fst (load G s)) = dict s) \/
  exists p fs, attempt G s (fst (load G s)) p fs /\ exists c f, In (c, f) fs /\ bound f = None.
Proof. exact import_left. Qed.
Print Assumptions C79_left.
(** The module of IntArrayListIter is refused, that of BigIntArrayList cannot be
    filled, that of IntLinkedList is lost. *)
Example C79_left_ex :
  let t := fst (load (ex_granted [4; 6; 12]%nat) (ex_start 1)) in
  snd (load (ex_granted [4; 6; 12]%nat) (ex_start 1)) = Failed SystemError /\
  map (fun m => (cnt t (OMod m), dict t m)) [1; 2; 3; 4]%nat =
    [(1, [("IntArrayList", OType "IntArrayList")]); (0, []); (1, [("BigIntArrayListIter", OType "BigIntArrayListIter")]); (1, [("IntLinkedList", OType "IntLinkedList")])] /\
  firstn 3 (dict t 0%nat) = [("IntArrayList", OMod 1); ("BigIntArrayListIter", OMod 3); ("IntLinkedListIter", OMod 5)] /\
  cnt t (OType "IntLinkedList") = 2 /\ cnt t (OType "BigIntArrayList") = 1.
Proof. vm_compute. auto. Qed.

(** An attempt that fails does not leave the counts as they were. *)
Theorem C79_left_refuted : ~ (forall G s e, fresh s -> exc s = None -> snd (load G s) = Failed e -> cnt (fst (load G s)) = cnt s).
Proof.
  intros H. specialize (H (ex_granted [42%nat]) (ex_start 1) SystemError (proj1 ex_start_fresh) eq_refl eq_refl).
  apply (f_equal (fun f => f (OMod 0))) in H. vm_compute in H. discriminate.
Qed.
Print Assumptions C79_left_refuted.

(** After any attempts, one with enough memory loads the module. *)
Theorem C79_retry : forall Gs s G, fresh s -> exc s = None -> (forall n, G n = true) ->
  let t := after_attempts Gs s in exists p, snd (load G t) = Loaded p /\ complete t (fst (load G t)) p.
Proof. exact import_retry. Qed.
Print Assumptions C79_retry.
Example C79_retry_ex :
  snd (load (ex_granted []) (after_attempts [ex_granted [0%nat]; ex_granted [7%nat]; ex_granted [45%nat; 46%nat]] (ex_start 1))) = Loaded 28.
Proof. vm_compute. reflexivity. Qed.

(** The files of the package bind every class, and nothing that is not one. *)
Theorem C79_files : forall s s' p, complete s s' p ->
  py_file s' p ints_py = inl (classes_of ints_py) /\ py_file s' p objects_py = inl (classes_of objects_py) /\ py_file s' p unsafe_py = inl (classes_of unsafe_py).
Proof. exact import_files. Qed.
Print Assumptions C79_files.
Theorem C79_files_all : forall c, In c library <-> In c (ints_py ++ objects_py ++ unsafe_py).
Proof. exact library_split. Qed.
Print Assumptions C79_files_all.
Example C79_files_ex : let t := fst (load (ex_granted []) (ex_start 1)) in py_file t 0 objects_py = inl (classes_of objects_py).
Proof. vm_compute. reflexivity. Qed.
