(** C86: what the operations of Python reach on classes whose types are never
    made ready.

    The properties are stated with TypeSpec: the functions a list class should
    run for each operation of a Python list, the methods of Python's list, and
    the occasions on which a type becomes ready. *)
From Coq Require Import List Bool Arith String Lia.
From Verif Require Import TypeTable TypeModel TypeSpec TypeProofs.
Import ListNotations.
Local Open Scope list_scope.
Local Open Scope string_scope.

(** In any program the k-th operation is answered as if all types had been made
    ready at import, unless it reads, tests or changes an attribute of an
    instance and nothing before made the type ready. *)
Theorem C86_program : forall py311 prog k c o, nth_error prog k = Some (c, o) -> (attribute_access o -> readied prog k c) ->
  nth_error (fst (run py311 fresh prog)) k = nth_error (fst (run py311 all_ready prog)) k.
Proof. exact program. Qed.
Print Assumptions C86_program.
(** In that case no attribute is there, whatever its name. *)
Theorem C86_first_refuted : forall py311 prog k c o, nth_error prog k = Some (c, o) -> attribute_access o -> ~ readied prog k c ->
  nth_error (fst (run py311 fresh prog)) k = unready_answer o.
Proof. exact program_first. Qed.
Print Assumptions C86_first_refuted.
(** hasattr(x, "append") is False in a new process, and True after x.append(1);
    isinstance(x, Sequence) raises AttributeError. *)
Example C86_program_ex :
  let prog := [(IntArrayList, Construct); (IntArrayList, HasAttr "append"); (IntArrayList, IsInstance); (IntArrayList, Len);
               (IntArrayList, CallMethod "append" 1 0); (IntArrayList, HasAttr "append"); (IntArrayList, IsInstance); (IntArrayListIter, GetAttr "__class__")] in
  fst (run true fresh prog) = [Enters "IntArrayList_init"; Says false; Raises ErrAttribute; Enters "IntArrayList_len";
                               Enters "IntArrayList_append"; Says true; Got; Raises ErrAttribute] /\
  fst (run true all_ready prog) = [Enters "IntArrayList_init"; Says true; Got; Enters "IntArrayList_len";
                                   Enters "IntArrayList_append"; Says true; Got; Got] /\
  readied prog 5 IntArrayList /\ ~ readied prog 1 IntArrayList.
Proof.
  split; [vm_compute; reflexivity|]; split; [vm_compute; reflexivity|]; split.
  - exists 4%nat, (CallMethod "append" 1 0); split; [lia|]; split; [reflexivity|exact I].
  - intros (j & o & L & E & M); destruct j as [|j]; [|lia]; injection E as <-; exact M.
Qed.
(** After a program exactly the types are ready for which it had an occasion. *)
Theorem C86_ready : forall py311 prog d, snd (run py311 fresh prog) d = true <-> exists o, In (d, o) prog /\ makes_ready d o.
Proof.
  exact (fun py311 prog d => conj
    (fun H => match proj1 (run_ready py311 prog fresh d) H with or_introl E => match Bool.diff_false_true E with end | or_intror X => X end)
    (fun X => proj2 (run_ready py311 prog fresh d) (or_intror X))).
Qed.
Print Assumptions C86_ready.
(** Then the attributes of an instance are those of its table, of the operators
    the table fills, and of object. *)
Theorem C86_attributes : forall py311 st c n, st c = true -> (fst (perform py311 st c (HasAttr n)) = Says true <-> has_attribute c n) /\
  (fst (perform py311 st c (GetAttr n)) = Got <-> has_attribute c n).
Proof. exact attributes. Qed.
Print Assumptions C86_attributes.

(** On the five list classes, ready or not, every operation of a Python list
    runs the function of that class for it, ... *)
Theorem C86_list : forall py311 st c o f, is_list c -> In (o, f) list_operations -> fst (perform py311 st c o) = Enters (of_class c f).
Proof. exact list_ops. Qed.
Print Assumptions C86_list.
(** ... every method of Python's list, called as Python allows it, too; ... *)
Theorem C86_methods : forall py311 st c n lo hi kw f a k, is_list c -> In (n, (lo, hi, kw, f)) list_methods -> (lo <= a <= hi)%nat -> (k <= kw)%nat ->
  fst (perform py311 st c (CallMethod n a k)) = Enters (of_class c f).
Proof. exact list_calls. Qed.
Print Assumptions C86_methods.
(** ... with another number of arguments these run nothing; ... *)
Theorem C86_checked : forall py311 st c n r a k, is_list c -> In (n, r) checked_methods -> a <> r \/ k <> 0%nat ->
  fst (perform py311 st c (CallMethod n a k)) = Raises ErrType.
Proof. exact list_checked. Qed.
Print Assumptions C86_checked.
(** ... and the methods that stand for operators run what the operator runs. *)
Theorem C86_dunders : forall py311 st c n a o, is_list c -> In (n, a, o) dunders -> fst (perform py311 st c (CallMethod n a 0)) = fst (perform py311 st c o).
Proof. exact list_dunders. Qed.
Print Assumptions C86_dunders.
Example C86_list_ex : is_list ObjectLinkedList /\
  fst (perform true fresh ObjectLinkedList (Add Plain)) = Enters "ObjectLinkedList_add" /\
  fst (perform true fresh ObjectLinkedList (RMul Index)) = Enters "ObjectLinkedList_mul" /\
  fst (perform true fresh ObjectLinkedList (CallMethod "index" 3 0)) = Enters "ObjectLinkedList_index" /\
  fst (perform true fresh ObjectLinkedList (CallMethod "append" 2 0)) = Raises ErrType /\
  fst (perform true fresh ObjectLinkedList (CallMethod "resize" 1 0)) = Raises ErrAttribute.
Proof. unfold is_list; cbn [In]; repeat split; try (vm_compute; reflexivity); tauto. Qed.
(** Lists are not hashable, and asking does not make the type ready. *)
Theorem C86_hash : forall py311 st c, is_list c -> fst (perform py311 st c Hash) = Raises ErrType /\ snd (perform py311 st c Hash) = st.
Proof. exact list_hash. Qed.
Print Assumptions C86_hash.
(** Buffers are those of the two integer array lists only. *)
Theorem C86_view : forall py311 st c, fst (perform py311 st c View) =
  match c with IntArrayList | BigIntArrayList => Enters (of_class c "get_buffer") | _ => Raises ErrType end.
Proof. exact list_view. Qed.
Print Assumptions C86_view.
(** Iterators are their own iterators, are made by lists only, have no length and
    are compared and hashed by identity; nothing else can be stepped. *)
Theorem C86_iterators : forall py311 st c, is_iterator c ->
  fst (perform py311 st c Iter) = Enters (of_class c "iter") /\ fst (perform py311 st c Next) = Enters (of_class c "next") /\
  fst (perform py311 st c Construct) = Raises ErrType /\ fst (perform py311 st c Len) = Raises ErrType /\ fst (perform py311 st c Truth) = Says true /\
  fst (perform py311 st c Equal) = ByIdentity /\ fst (perform py311 st c Hash) = ByAddress.
Proof. exact iterators. Qed.
Print Assumptions C86_iterators.
Theorem C86_next : forall py311 st c, fst (perform py311 st c Next) = Raises ErrType <-> ~ is_iterator c.
Proof. exact next_only. Qed.
Print Assumptions C86_next.
Example C86_iterators_ex : is_iterator BigIntArrayListIter /\ fst (perform true fresh BigIntArrayListIter Next) = Enters "BigIntArrayListIter_next".
Proof. split; [unfold is_iterator; cbn [In]; tauto|reflexivity]. Qed.
(** with works for Unsafe, ASM and SIMD only. *)
Theorem C86_with : forall py311 st c, fst (perform py311 st c With) =
  match c with Unsafe | ASM | SIMD => Manages (of_class c "enter") (of_class c "exit") | _ => Raises (if py311 then ErrType else ErrAttribute) end.
Proof. exact managers. Qed.
Print Assumptions C86_with.
(** Every method of every class runs its function when called with a number of
    arguments its convention lets through, except __rmul__, ... *)
Theorem C86_table : forall py311 st c m a k, In m (methods c) -> m_name m <> "__rmul__" ->
  fst (perform py311 st c (CallMethod (m_name m) a k)) = if admits (m_conv m) a k then Enters (m_fn m) else Raises ErrType.
Proof. exact reached. Qed.
Print Assumptions C86_table.
(** ... whose function nothing runs: the name is taken by the operator. *)
Theorem C86_rmul_refuted : forall py311 st c o, fst (perform py311 st c o) <> Enters (of_class c "rmul").
Proof. exact rmul_never. Qed.
Print Assumptions C86_rmul_refuted.
Example C86_table_ex : In (meth "__rmul__" Bound One "IntLinkedList_rmul" [PObject; PObject]) (methods IntLinkedList) /\
  fst (perform true fresh IntLinkedList (CallMethod "__rmul__" 1 0)) = Enters "IntLinkedList_mul" /\
  fst (perform true fresh Unsafe (CallMethod "memcpy" 3 0)) = Enters "Unsafe_memcpy" /\
  fst (perform true fresh SIMD (CallMethod "reverseInt64" 2 1)) = Raises ErrType.
Proof. split; [cbn [methods IntLinkedList_methods In]; tauto|]; split; [vm_compute; reflexivity|]; split; vm_compute; reflexivity. Qed.
(** No function reads a parameter its convention does not pass. *)
Theorem C86_params : forall c m, In m (methods c) -> exists rest, passes (m_conv m) = (m_params m ++ rest)%list.
Proof. exact params. Qed.
Print Assumptions C86_params.
Example C86_params_ex : exists m, In m (methods ASM) /\ m_name m = "run" /\ passes (m_conv m) = m_params m.
Proof. exists (meth "run" Bound Fast "ASM_run" [PObject; PArray; PSize]); cbn [methods ASM_methods In]; split; [tauto|split; reflexivity]. Qed.
