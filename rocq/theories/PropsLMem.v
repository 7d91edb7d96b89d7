(** Property theorems C80: IntLinkedList when requests for nodes are refused. *)
From Coq Require Import ZArith List Bool Arith Permutation.
From Verif Require Import Base LMemModel LMemSpec LMemProofs.
Import ListNotations.
Local Open Scope list_scope.

(** * C80 *)
(** append and insert: one request; refused, the list is as it was and
    RuntimeError is raised. *)
Theorem C80_append : forall g i l m rest, owns m l rest ->
  exists l' m', owns m' l' rest /\
    append g i l m = (if enough g m 1 then Returns (snd i) else Raises RuntimeError, l', m') /\
    vals l' = if enough g m 1 then vals l ++ [fst i] else vals l.
Proof. exact append_ok. Qed.
Print Assumptions C80_append.
Theorem C80_insert : forall g p v l m rest, owns m l rest ->
  exists l' m', owns m' l' rest /\
    insert g p v l m = (if enough g m 1 then Returns None else Raises RuntimeError, l', m') /\
    vals l' = if enough g m 1 then firstn p (vals l) ++ v :: skipn p (vals l) else vals l.
Proof. exact insert_ok. Qed.
Print Assumptions C80_insert.

(** extend and += have no handler: a refused node ends the process. *)
Theorem C80_extend_same : forall g ys l m rest, owns m l rest ->
  exists l' m', owns m' l' rest /\
    extend_same g ys l m = (if enough g m (length ys) then Returns None else Terminates, l', m') /\
    vals l' = if enough g m (length ys) then vals l ++ ys else vals l.
Proof. exact extend_same_ok. Qed.
Print Assumptions C80_extend_same.
Theorem C80_extend_items : forall g is_ fin l m rest, owns m l rest ->
  exists l' m', owns m' l' rest /\
    extend_items g is_ fin None l m = (if enough g m (length (through is_)) then extend_ends is_ fin else Terminates, l', m') /\
    (enough g m (length (through is_)) = true -> vals l' = vals l ++ through is_).
Proof. intros. rewrite <- ext_end_spec. apply extend_items_ok. assumption. Qed.
Print Assumptions C80_extend_items.

(** Construction from items: RuntimeError for a refused node, and for an item
    that does not convert; no object and no node is left. Called on a list that
    stays (l.__init__), the items before are its elements. *)
Theorem C80_construct_items : forall g is_ m rest, owns m [] rest ->
  let '(x, o, m') := construct g true (SItems is_ None) m in
  if enough g m (length (before is_)) && (match failed is_ with None => true | Some _ => false end)
  then x = Returns None /\ exists l, o = Some l /\ vals l = values_of is_ /\ owns m' l rest
  else x = Raises RuntimeError /\ o = None /\ owns m' [] rest.
Proof. exact construct_items. Qed.
Print Assumptions C80_construct_items.
Theorem C80_init_items : forall g is_ fin m rest, owns m [] rest ->
  exists l' m', owns m' l' rest /\
    init g (SItems is_ fin) m = (if enough g m (length (before is_)) then init_end is_ fin else Raises RuntimeError, l', m') /\
    vals l' = firstn (met g (asked m) (length (before is_))) (before is_).
Proof. intros g is_ fin m rest. exact (init_items_ok g is_ fin [] m rest). Qed.
Print Assumptions C80_init_items.

(** copy, construction from another list, from_range and repetition return the
    whole list, or raise and give every node back. *)
Theorem C80_made : forall g obj xs n m rest, owns m [] rest ->
  makes g obj xs m rest (copy g obj xs m) /\
  makes g obj xs m rest (construct g obj (SSame xs) m) /\
  makes g obj xs m rest (from_range g obj xs m) /\
  makes g obj (times (Z.to_nat n) xs) m rest (mul g obj n xs m).
Proof.
  intros g obj xs n m rest O. split; [|split; [|split]]; [apply copy_ok | apply construct_same | apply range_ok | apply mul_ok]; exact O.
Qed.
Print Assumptions C80_made.

(** *= does the rounds there is memory for - the elements are then there 2^r
    times, though n times were asked for - and raises if that was not all. *)
Theorem C80_imul : forall g n l m rest, owns m l rest ->
  exists r l' m', owns m' l' rest /\
    ((n <= 0)%Z /\ imul g n l m = (Returns None, l', m') /\ l' = [] \/
     (0 < n)%Z /\ r = Z.to_nat n - 1 /\ imul g n l m = (Returns None, l', m') /\ vals l' = times (2 ^ r) (vals l) /\ enough g m ((2 ^ r - 1) * length l) = true \/
     (0 < n)%Z /\ r < Z.to_nat n - 1 /\ imul g n l m = (Raises RuntimeError, l', m') /\ vals l' = times (2 ^ r) (vals l) /\
     enough g m ((2 ^ r - 1) * length l) = true /\ enough g m ((2 ^ S r - 1) * length l) = false).
Proof. exact imul_ok. Qed.
Print Assumptions C80_imul.

(** Slice assignment: the elements of the slice are overwritten, then one node is
    asked for per further item; those made before a refused one stay. *)
Theorem C80_slice : forall g p n is_ l m rest, owns m l rest -> p + n <= length l ->
  exists l' m', owns m' l' rest /\
    set_slice g p n is_ l m = (if enough g m (length (through is_) - n) then match failed is_ with Some e => Raises e | None => Returns None end
                               else Raises RuntimeError, l', m') /\
    vals l' = firstn p (vals l) ++ firstn (n + met g (asked m) (length (through is_) - n)) (through is_) ++
              skipn (p + match failed is_ with Some _ => Nat.min n (length (through is_)) | None => n end) (vals l).
Proof. exact set_slice_ok. Qed.
Print Assumptions C80_slice.
(** Calls that ask for nothing. *)
Theorem C80_erase : forall p l m rest, owns m l rest ->
  (p < length l -> exists l' m', owns m' l' rest /\ erase_one p l m = (Returns None, l', m') /\ vals l' = firstn p (vals l) ++ skipn (S p) (vals l)) /\
  (exists m', owns m' [] rest /\ clear l m = (Returns None, [], m')) /\
  (exists m', owns m' [] rest /\ dealloc l m = (Fine, m')).
Proof.
  intros p l m rest O. split; [apply erase_one_ok, O|]. split; [apply clear_ok, O|].
  destruct (free_nodes_ok l m rest O) as (m' & F & _ & O'). exists m'. split; [exact O' | exact F].
Qed.
Print Assumptions C80_erase.

(** Whatever is refused, a program that constructs each list once never frees a
    node twice or uses a freed one; the allocated nodes are those of its lists;
    and when its lists go away none is left. *)
Theorem C80_nodes : forall g es, forallb once es = true ->
  Forall (fun e => forall u, e <> Corrupt u) (fst (run g es start)) /\ accounted (snd (run g es start)).
Proof. exact history. Qed.
Print Assumptions C80_nodes.
Theorem C80_freed : forall g es, forallb once es = true -> let w := snd (run g es start) in live (heap (snd (run g (drop_all w) w))) = [].
Proof. exact all_freed. Qed.
Print Assumptions C80_freed.
(** __init__ on a list that has elements forgets their nodes. *)
Theorem C80_again_refuted : forall g i s w l x w', accounted w -> get w i = Some l -> step g (EAgain i s) w = Some (x, w') ->
  Permutation (live (heap w')) (addrs l ++ nodes_of (pool w')).
Proof. exact again. Qed.
Print Assumptions C80_again_refuted.

(** A history in which the requests 4 and 9 are refused. *)
Definition C80_grant (i : nat) : bool := negb (Nat.eqb i 4 || Nat.eqb i 9).
Definition C80_events : list event :=
  [ENew true (FItems [(1, None); (2, None)] None); EAppend 0 (3, None); EAppend 0 (4, None); EAppend 0 (5, None);
   ECopy true 0; EMul true 0 2; EImul 0 2; ESlice 0 1 1 [(7, None); (8, None)]]%Z.
Example C80_ex_run : forallb once C80_events = true /\
  fst (run C80_grant C80_events start) =
    [Returns None; Returns None; Returns None; Raises RuntimeError; Returns None; Raises RuntimeError; Returns None; Returns None] /\
  map (option_map vals) (pool (snd (run C80_grant C80_events start))) = [Some [1; 7; 8; 3; 4; 1; 2; 3; 4]; Some [1; 2; 3; 4]]%Z /\
  length (live (heap (snd (run C80_grant C80_events start)))) = 13.
Proof. vm_compute. repeat (split; [reflexivity|]). reflexivity. Qed.
(** extend meets the refused request 4; *= 4 stops after one of three rounds. *)
Example C80_ex_stop :
  fst (run C80_grant [ENew true (FItems [(1, None); (2, None)] None); EExtend 0 (FItems [(5, None); (6, None); (7, None)] None); EClear 0]%Z start) = [Returns None; Terminates] /\
  (let r := run C80_grant [ENew true (FItems [(1, None); (2, None)] None); EImul 0 4]%Z start in
   (fst r, map (option_map vals) (pool (snd r)))) = ([Returns None; Raises RuntimeError], [Some [1; 2; 1; 2]]%Z).
Proof. vm_compute. split; reflexivity. Qed.
Example C80_ex_again : let w := snd (run C80_grant [ENew true (FItems [(1, None); (2, None)] None); EAgain 0 FNothing]%Z start) in
  live (heap (snd (run C80_grant (drop_all w) w))) = [1; 0].
Proof. vm_compute. reflexivity. Qed.
(** A list whose nodes are accounted for. *)
Example C80_ex_owns : owns {| live := [7; 2; 5]; asked := 9 |} [(5, 1%Z); (2, 4%Z)] [7] /\
  enough C80_grant {| live := [7; 2; 5]; asked := 9 |} 1 = false /\ enough C80_grant {| live := [7; 2; 5]; asked := 5 |} 4 = true.
Proof.
  split; [|vm_compute; split; reflexivity]. split; [|split].
  - repeat constructor; cbn; intuition discriminate.
  - cbn. apply Permutation_sym, (Permutation_trans (perm_swap 2 5 [7])). apply Permutation_sym, (Permutation_trans (perm_swap 2 7 [5])). constructor. apply perm_swap.
  - repeat constructor.
Qed.
