(** C74: objects that are made, initialised (once, again, or never), used and
    dropped. *)
From Coq Require Import ZArith List Bool String Lia Permutation.
From Verif Require Import Base PyListSpec PyLongProofs ArrayListModel LifeModel LifeSpec LifeRun.
Import ListNotations.
Local Open Scope Z_scope.

(** The linked list classes. *)
Theorem C74_linked : forall c, linked c = true <-> c = IntL \/ c = ObjL.
Proof. intros []; cbn; split; intros H; try discriminate; auto; destruct H; discriminate. Qed.
Print Assumptions C74_linked.

(** Every history of an array list class, and every history of a linked list
    class that initialises its objects before using them, answers as Python
    does: an initialisation replaces the contents whatever they were, keeps the
    elements in front of a failure, and leaves nothing behind when the arguments
    are wrong. Nothing is undefined. *)
Theorem C74_answers : forall room c ok h, decides c ok -> Forall (sound room c) h ->
  linked c = false \/ careful c ok h nothing = true ->
  let r := lrun room c h start in let p := prun c ok h nothing in
  map seen (fst r) = map Some (fst p) /\
  forall x, option_map items (find_obj (objs (snd r)) x) = option_map snd (snd p x).
Proof. exact life_answers. Qed.
Print Assumptions C74_answers.

(** The memory after it: what the objects own, and what second initialisations
    left behind: every node of the old contents of a linked list, at most one
    buffer of an array list. *)
Theorem C74_memory : forall room c ok h, decides c ok -> Forall (sound room c) h ->
  linked c = false \/ careful c ok h nothing = true ->
  let w := snd (lrun room c h start) in
  exists lost, Permutation (heap (wmem w)) (owned w ++ lost) /\ NoDup (heap (wmem w)) /\
    (linked c = true -> zlen (owned w) = fold_right Z.add 0 (map (fun p => zlen (items (snd p))) (objs w)) /\
                        zlen lost = sum_over c ok dropped h nothing) /\
    (linked c = false -> zlen (owned w) <= zlen (objs w) /\ zlen lost <= sum_over c ok again h nothing).
Proof. exact life_memory. Qed.
Print Assumptions C74_memory.

(** Without second initialisations nothing is left when all objects are gone. *)
Theorem C74_clean : forall room c ok h, decides c ok -> Forall (sound room c) h ->
  linked c = false \/ careful c ok h nothing = true ->
  (forall x, snd (prun c ok h nothing) x = None) -> sum_over c ok again h nothing = 0 ->
  heap (wmem (snd (lrun room c h start))) = [].
Proof. exact life_clean. Qed.
Print Assumptions C74_clean.

(** Appending to, clearing, copying from or just dropping a linked list that
    was never initialised follows a null pointer. *)
Theorem C74_careless_refuted : forall room c ok pre o post, linked c = true -> decides c ok ->
  Forall (sound room c) (pre ++ [o]) -> careful c ok pre nothing = true ->
  reckless c ok o (snd (prun c ok pre nothing)) = true ->
  exists xs, fst (lrun room c (pre ++ o :: post) start) = xs ++ [Undef NullDeref] /\
    map seen xs = map Some (fst (prun c ok pre nothing)).
Proof. exact life_careless. Qed.
Print Assumptions C74_careless_refuted.

(** A size that the memory does not grant: RuntimeError, and an empty list. *)
Theorem C74_refused : forall room c os x pos kw s n, linked c = false -> NoDup (map fst kw) ->
  well_called c pos kw -> good_size c pos kw -> 0 < n -> room n = false ->
  (given c pos kw 0 = Some (CInt n) /\ in_sbits 64 n) \/
  ((forall z, given c pos kw 0 <> Some (CInt z)) /\ given c pos kw 1 = Some (CInt n)) ->
  let r := init_call room c os x pos kw s in fst r = Raise RuntimeError /\ items (fst (snd r)) = [].
Proof. exact refused. Qed.
Print Assumptions C74_refused.

(** An iterator of a linked list goes on with the old elements after a second
    initialisation, and reads the end node when the new list is longer. *)
Theorem C74_iterator_refuted : forall room c ok h x xs ys n, linked c = true -> decides c ok ->
  Forall (sound room c) h -> careful c ok h nothing = true ->
  snd (prun c ok h nothing) x = None -> forallb (holds c) xs = true ->
  exists d1 d2,
    find_obj (objs (snd (lrun room c (h ++ [LMake x [CSeq xs] []]) start))) x = Some d1 /\
    find_obj (objs (snd (lrun room c (h ++ [LMake x [CSeq xs] []; LInit x [CSeq ys] []]) start))) x = Some d2 /\
    items d1 = taken c xs /\ items d2 = taken c ys /\
    iter_run n (iter_new d1) d2 = leftovers n (taken c xs) (List.length (taken c ys)).
Proof. exact life_iterator. Qed.
Print Assumptions C74_iterator_refuted.

(** ** Cases *)
Definition fits_size (a : option carg) : bool :=
  match a with None => true | Some (CInt z) => in_sbits_b 64 z | _ => false end.
Definition ex_ok (c : cls) (pos : list carg) (kw : kwargs) : bool :=
  (List.length pos <=? List.length (names c))%nat &&
  forallb (fun p => existsb (String.eqb (fst p)) (skipn (List.length pos) (names c))) kw &&
  (linked c || fits_size (given c pos kw 1)).
Example ex_decides : forall c, decides c (ex_ok c).
Proof.
  intros c pos kw _. unfold ex_ok, well_called, good_size. rewrite !andb_true_iff, orb_true_iff, Nat.leb_le, forallb_forall.
  assert (A : forall k, existsb (String.eqb k) (skipn (List.length pos) (names c)) = true <-> In k (skipn (List.length pos) (names c))).
  { intros k. rewrite existsb_exists. split; [intros (y & H & E); apply String.eqb_eq in E; congruence|intros H; exists k; split; [exact H|apply String.eqb_refl]]. }
  assert (B : fits_size (given c pos kw 1) = true <-> given c pos kw 1 = None \/ exists z, given c pos kw 1 = Some (CInt z) /\ in_sbits 64 z).
  { destruct (given c pos kw 1) as [[z| | | |]|]; cbn [fits_size];
      [|split; [discriminate|intros [H|(z & H & _)]; discriminate]..|tauto].
    rewrite in_sbits_b_spec. split; [intros H; right; exists z; auto|intros [H|(y & H & K)]; [discriminate|injection H as <-; exact K]]. }
  rewrite B. split.
  - intros [[H1 H2] H3]. split; [split; [exact H1|]|exact H3]. intros k a I. apply A. exact (H2 (k, a) I).
  - intros [[H1 H2] H3]. split; [split; [exact H1|]|exact H3]. intros [k a] I. apply A. exact (H2 k a I).
Qed.
Definition ints (l : list Z) : list pyobj := map PInt l.
Definition anything : Z -> bool := fun _ => true.

(** Two objects of an array list class: one is never initialised, one twice,
    the second time from itself; wrong arguments; reserved sizes. *)
Definition ex_arrays : list lop :=
  [LNew 1; LAppend 1 (PInt 5); LLen 1; LMake 2 [CSeq (ints [1; 2; 3])] [("exceptSize"%string, CInt 10)];
   LInit 1 [COf 2] []; LGet 1 (-1); LInit 2 [] [("iterable"%string, COf 2)]; LLen 2;
   LInit 1 [CSeq [PInt 7; PObj 3; PInt 8]] []; LLen 1; LInit 1 [CSeq (ints [4]); COther] []; LLen 1;
   LInit 1 [CInt 8] [("size"%string, CInt 3)]; LMake 3 [CInt 100] []; LMake 4 [CInt (2 ^ 63)] []; LLen 4; LDrop 1; LDrop 2].
Example C74_ex_arrays :
  fst (prun IntA (ex_ok IntA) ex_arrays nothing) =
    [Ok LNone; Ok LNone; Ok (LSize 1); Ok LNone; Ok LNone; Ok (LItem (PInt 3)); Ok LNone; Ok (LSize 0);
     Err RuntimeError; Ok (LSize 1); Err SystemError; Ok (LSize 0); Err SystemError; Ok LNone; Err SystemError; Err TypeError; Ok LNone; Ok LNone] /\
  map seen (fst (lrun anything IntA ex_arrays start)) = map Some (fst (prun IntA (ex_ok IntA) ex_arrays nothing)) /\
  heap (wmem (snd (lrun anything IntA ex_arrays start))) = [5; 4; 3; 2; 1] /\
  owned (snd (lrun anything IntA ex_arrays start)) = [5] /\ sum_over IntA (ex_ok IntA) again ex_arrays nothing = 5.
Proof. vm_compute. auto 10. Qed.
Example C74_ex_sound : Forall (sound anything IntA) ex_arrays.
Proof.
  unfold ex_arrays. repeat (constructor; [cbn [sound]; try exact I; (split; [cbn; repeat constructor; cbn; intuition discriminate|reflexivity])|]).
  constructor.
Qed.

(** A linked list used with care. *)
Definition ex_linked : list lop :=
  [LNew 1; LLen 1; LGet 1 0; LInit 1 [CSeq (ints [1; 2; 3])] []; LAppend 1 (PInt 4); LMake 2 [COf 1] [];
   LInit 1 [CIter (ints [9]) (Some (UserError 1))] []; LLen 1; LGet 2 (-1); LInit 2 [] [("exceptSize"%string, CInt 1)]; LDrop 2; LDrop 1].
Example C74_ex_linked : careful ObjL (ex_ok ObjL) ex_linked nothing = true /\
  fst (prun ObjL (ex_ok ObjL) ex_linked nothing) =
    [Ok LNone; Ok (LSize 0); Err IndexError; Ok LNone; Ok LNone; Ok LNone; Err (UserError 1); Ok (LSize 1); Ok (LItem (PInt 4));
     Err TypeError; Ok LNone; Ok LNone] /\
  map seen (fst (lrun anything ObjL ex_linked start)) = map Some (fst (prun ObjL (ex_ok ObjL) ex_linked nothing)) /\
  (* eight nodes nobody owns *)
  zlen (heap (wmem (snd (lrun anything ObjL ex_linked start)))) = 8 /\ sum_over ObjL (ex_ok ObjL) dropped ex_linked nothing = 8.
Proof. vm_compute. auto 10. Qed.

(** A subclass whose __init__ forgets the base class: dropping the object is
    enough. *)
Example C74_ex_careless : forall o, In o [LAppend 1 (PInt 1); LClear 1; LDrop 1; LMake 2 [COf 1] []] ->
  reckless IntL (ex_ok IntL) o (snd (prun IntL (ex_ok IntL) [LNew 1] nothing)) = true /\
  fst (lrun anything IntL [LNew 1; o] start) = [Ret LNone; Undef NullDeref].
Proof. intros o [<-|[<-|[<-|[<-|[]]]]]; vm_compute; auto. Qed.
(** The same history of an array list class is harmless. *)
Example C74_ex_harmless :
  fst (lrun anything IntA [LNew 1; LMake 2 [COf 1] []; LAppend 1 (PInt 1); LClear 1; LDrop 1] start) = [Ret LNone; Ret LNone; Ret LNone; Ret LNone; Ret LNone].
Proof. vm_compute. reflexivity. Qed.

Example C74_ex_clean :
  let h := [LNew 1; LInit 1 [CSeq (ints [1; 2])] []; LMake 2 [COf 1] []; LAppend 2 (PInt 3); LDrop 1; LMake 3 [CSeq [PObj 1]] []; LDrop 2] in
  careful IntL (ex_ok IntL) h nothing = true /\ sum_over IntL (ex_ok IntL) again h nothing = 0 /\
  map (snd (prun IntL (ex_ok IntL) h nothing)) [1; 2; 3] = [None; None; None] /\ heap (wmem (snd (lrun anything IntL h start))) = [].
Proof. vm_compute. auto 10. Qed.

Example C74_ex_refused : let room := fun n => n <? 1000 in
  fst (init_call room ObjA [] 1 [CSeq (ints [1]); CInt 2000] [] (raw, wmem start)) = Raise RuntimeError /\
  fst (init_call room ObjA [] 1 [CInt 1000] [] (raw, wmem start)) = Raise RuntimeError /\
  fst (init_call room ObjA [] 1 [CInt 999] [] (raw, wmem start)) = Ret tt.
Proof. vm_compute. auto. Qed.

(** x = IntLinkedList([1, 2]); i = iter(x); x.__init__([7, 8, 9]); list(i) *)
Definition after (h : list lop) : option cell := find_obj (objs (snd (lrun anything IntL h start))) 1.
Example C74_ex_iterator :
  match after [LMake 1 [CSeq (ints [1; 2])] []], after [LMake 1 [CSeq (ints [1; 2])] []; LInit 1 [CSeq (ints [7; 8; 9])] []] with
  | Some d1, Some d2 => iter_run 5 (iter_new d1) d2 = [Ret (PInt 1); Ret (PInt 2); Undef IterBeforeBegin] /\
                        iter_run 5 (iter_new d2) d2 = [Ret (PInt 7); Ret (PInt 8); Ret (PInt 9); Raise StopIteration; Raise StopIteration]
  | _, _ => False
  end.
Proof. vm_compute. auto. Qed.
