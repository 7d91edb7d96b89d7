(** What the calls of the object lists may do: contents, results, and the
    references of everybody but the list. *)
From Coq Require Import ZArith List Bool Permutation.
From Verif Require Import Base PyListSpec ArrayListModel ObjSpec IRefModel IRefSpec ORefModel.
Import ListNotations.
Local Open Scope Z_scope.

(** The counts without the references of the list to its elements. *)
Definition outside (s : rst) : rst := with_cnt (fun p => cnt s p - occ (elems s) p) s.
(** The list owns a reference to each element, and the constants and the list
    itself are kept alive by others. *)
Definition sound (E : env) (s : rst) : Prop := sane E (outside s) /\ Forall (fun o => o < nxt s) (elems s).

(** From [s] to [s'] the references of everybody but the list change by
    [mine], owned by the result, and [lost], owned by nobody; [short] are
    elements the list has no reference for. *)
Definition shares (E : env) (s s' : rst) (mine lost short : list Z) : Prop :=
  forall p, imm E p = false -> cnt (outside s') p = cnt (outside s) p + occ mine p + occ lost p - occ short p.

(** The objects borrowed from the caller, or owned by an argument, live; those
    handed over by iterators, sequences and key functions are none of the
    objects to come. Sorting permutes. Sizes are Py_ssize_t. *)
Definition borrowed (c : call) : list Z :=
  match c with
  | OInitSame _ ys | OExtendFast ys | OIAddFast ys | OAdd (Some ys) | OSetSlice _ _ (SFast ys) => ys
  | OInitSeq _ q items => q :: items
  | OInitIter _ a | OExtendIter _ a | OIAddIter _ a => [it_obj a]
  | OAppend o | OInsert _ o | OSet _ o | ORemove o => [o]
  | _ => []
  end.
Definition handed (c : call) : list Z :=
  match c with
  | OInitIter _ a | OExtendIter _ a | OIAddIter _ a => it_items a
  | OSetSlice _ _ (SItems items) => somes items
  | OCompare _ _ _ items => map fst (somes items)
  | OSort _ (Some keys) _ _ => somes keys
  | _ => []
  end.
Definition callable (E : env) (s : rst) (c : call) : Prop :=
  Forall (lives E (outside s)) (borrowed c) /\ Forall (fun o => o < nxt s) (handed c) /\
  match c with OSort _ _ _ perm => forall xs, Permutation xs (perm xs) | OSetSlice _ _ _ => size s <= SSIZE_MAX | _ => True end.

(** The largest list a call needs room for, as far as its arguments say. *)
Definition wanted (c : call) (s : rst) : Z :=
  match c with
  | OInitSame h ys | OInitSeq h _ ys => Z.max h (zlen ys)
  | OInitIter h a => Z.max h (zlen (it_items a))
  | OAppend _ | OInsert _ _ => size s + 1
  | OExtendFast ys | OIAddFast ys => size s + zlen ys
  | OExtendIter h a | OIAddIter h a => size s + Z.max (match h with inl h => h | inr _ => 0 end) (zlen (it_items a))
  | OResize n => n
  | OCopy => size s
  | OMul n | OIMul n => size s * n
  | OSetSlice _ _ src => size s + zlen (source_items src)
  | _ => 0
  end.
(** Memory refused for a list of at most that size. *)
Definition refused (G : memory) (most : Z) : Prop := exists n m, 0 <= n < m /\ m <= most /\ grows G n m = false.
Definition no_object (E : env) : Prop := exists p, alloc E p = false.

(** ** Calls that return *)
(** The answer of a comparison: == wants every comparison of two items to be
    true, != every one to be false if it is to answer False; the orderings
    answer by length, then with the comparison of the first items. *)
Definition answer (q : relation) (seq shorter : bool) (n : Z) (items : list (option (Z * (bool + exn)))) (b : bool) : Prop :=
  match q with
  | REq => b = true <-> seq = true /\ zlen items = n /\ Forall (fun i => exists o, i = Some (o, inl true)) items
  | RNe => b = false <-> seq = true /\ zlen items = n /\ Forall (fun i => exists o, i = Some (o, inl false)) items
  | ROrd => (seq = false -> b = false) /\ (seq = true -> zlen items <> n -> b = shorter) /\
            (seq = true -> zlen items = n -> match items with [] => b = false | i :: _ => exists o, i = Some (o, inl b) end)
  end.
(** The element at [i], counted from the end if negative. *)
Definition has_at (xs : list Z) (i : Z) (pre : list Z) (o : Z) (post : list Z) : Prop :=
  xs = pre ++ o :: post /\ zlen pre = rel (zlen xs) i.
Definition hinted (k : kind) (h : Z + exn) : Prop := k = Array -> exists n, h = inl n.
Definition keeps (s s' : rst) : Prop := elems s' = elems s.
Definition returns (k : kind) (E : env) (c : call) (s s' : rst) (v : value) (lost short : list Z) : Prop :=
  match c with
  | OInitSame _ ys => elems s' = ys /\ v = VUnit /\ lost = elems s /\ short = ys
  | OInitSeq _ _ items => elems s' = items /\ v = VUnit /\ lost = elems s /\ short = []
  | OInitIter _ a => elems s' = it_items a /\ v = VUnit /\ lost = elems s /\ short = [] /\ it_end a = None
  | OAppend o => elems s' = elems s ++ [o] /\ v = VObj (none E) /\ lost = [] /\ short = []
  | OInsert i o => (exists pre post, elems s = pre ++ post /\ elems s' = pre ++ o :: post /\ zlen pre = clamp (size s) (rel (size s) i)) /\
                   v = VObj (none E) /\ lost = [] /\ short = []
  | OPop i => (exists pre o post, has_at (elems s) (match i with Some i => i | None => -1 end) pre o post /\ elems s' = pre ++ post /\ v = VObj o) /\
              lost = [] /\ short = []
  | ORemove o => (exists pre post, elems s = pre ++ o :: post /\ ~ In o pre /\ elems s' = pre ++ post) /\ v = VObj (none E) /\ lost = [] /\ short = []
  | OSearch f => keeps s s' /\ (exists n o, f (elems s) = Some n /\ v = VObj o /\ (small_size E n = Some o \/ small_size E n = None /\ nxt s <= o)) /\
                 lost = [] /\ short = []
  | OGet i => keeps s s' /\ (exists pre o post, has_at (elems s) i pre o post /\ v = VObj o) /\ lost = [] /\ short = []
  | OSet i o => (exists pre old post, has_at (elems s) i pre old post /\ elems s' = pre ++ o :: post /\ lost = [old]) /\ v = VUnit /\ short = []
  | ODel i => (exists pre old post, has_at (elems s) i pre old post /\ elems s' = pre ++ post) /\ v = VUnit /\ lost = [] /\ short = []
  | OExtendFast ys | OIAddFast ys => elems s' = elems s ++ ys /\ v = VObj (none E) /\ lost = [] /\ short = []
  | OExtendIter h a => elems s' = elems s ++ it_items a /\ v = VObj (none E) /\ lost = [] /\ short = [] /\ it_end a = None /\ hinted k h
  | OIAddIter h a => elems s' = elems s ++ it_items a /\ v = VObj (self E) /\ lost = [] /\ short = [] /\ it_end a = None /\ hinted k h
  | OClear => elems s' = [] /\ v = VObj (none E) /\ lost = [] /\ short = []
  | OReverse => elems s' = rev (elems s) /\ v = VObj (none E) /\ lost = [] /\ short = []
  | OResize n => 0 <= n /\ v = VObj (none E) /\ lost = skipn (Z.to_nat n) (elems s) /\ short = repeat (none E) (Z.to_nat (n - size s)) /\
                 elems s' = firstn (Z.to_nat n) (elems s) ++ short
  | OToList | OCopy => keeps s s' /\ (exists l, v = VList l (elems s)) /\ lost = [] /\ short = []
  | OGetSlice sl => keeps s s' /\ (exists l, v = VList l (py_getslice (elems s) sl)) /\ lost = [] /\ short = []
  | OMul n => keeps s s' /\ (exists l, v = VList l (repeated n (elems s))) /\ lost = [] /\ short = []
  | OIMul n => elems s' = repeated n (elems s) /\ v = VObj (self E) /\ lost = (if n <=? 0 then elems s else []) /\ short = [] /\
               (k = Array -> 2 <= n -> elems s = [])
  | OAdd other => keeps s s' /\ (exists ys l, other = Some ys /\ v = VList l (elems s ++ ys)) /\ lost = [] /\ short = []
  | OAddSame => False
  | OSetSlice sl seq src =>
      seq = true /\ v = VUnit /\ lost = [] /\
      (exists vs, source_items src = map Some vs /\ (k = Array -> step_of sl = 1 /\ elems s' = py_setslice (elems s) sl vs)) /\
      short = match k, src with Array, SFast ys => skipn (Z.to_nat (slice_len (elems s) sl)) ys | _, _ => [] end
  | OCompare q seq shorter items => keeps s s' /\ (exists b : bool, v = VObj (if b then tru E else fls E) /\ answer q seq shorter (size s) items b) /\ lost = [] /\ short = []
  | OSort _ keys fail perm => elems s' = perm (elems s) /\ v = VObj (none E) /\ fail = None /\
                              match keys with Some ks => all_keys (length (elems s)) ks = true | None => True end /\
                              lost = (match k with Array => [] | Linked => [none E] end) /\ short = []
  | OIter => keeps s s' /\ (exists i, v = VIter i (self E) /\ nxt s <= i) /\ lost = [] /\ short = []
  | ONext i => keeps s s' /\ (exists o, nth_error (elems s) (Z.to_nat i) = Some o /\ v = VObj o) /\ lost = [] /\ short = []
  end.

(** ** Calls that raise *)
(** Nothing has happened. *)
Definition undone (s s' : rst) (lost : list Z) : Prop := keeps s s' /\ lost = [].
(** The iterator that a failed constructor keeps. *)
Definition iterator_of (s : rst) (a : iterable) (i : list Z) : Prop := i = [it_obj a] \/ exists j, nxt s <= j /\ i = [j; it_obj a].
(** Some items have come to the slice, in the places of as many elements. *)
Definition partly (s s' : rst) (sl : slice) (src : source) : Prop :=
  exists pre mid post vs rest, elems s = pre ++ mid ++ post /\ (forall ws, py_setslice (elems s) sl ws = pre ++ ws ++ post) /\
    source_items src = map Some vs ++ rest /\ elems s' = pre ++ vs ++ skipn (length vs) mid ++ post.
(** The error of a sort as the caller sees it. *)
Definition seen (k : kind) (e : exn) : exn := match k with Array => e | Linked => SystemError end.
Definition raises (k : kind) (E : env) (G : memory) (c : call) (s s' : rst) (e : exn) (lost : list Z) : Prop :=
  match c with
  | OInitSame _ _ => e = RuntimeError /\ refused G (wanted c s) /\ elems s' = [] /\ lost = elems s
  | OInitSeq _ q items =>
      e = RuntimeError /\ refused G (wanted c s) /\
      (k = Array /\ elems s' = [] /\ lost = elems s \/
       k = Array /\ elems s' = [] /\ lost = elems s ++ q :: items \/
       k = Linked /\ exists o rest, items = elems s' ++ o :: rest /\ lost = elems s ++ [q; o])
  | OInitIter _ a =>
      k = Array /\ e = RuntimeError /\ refused G (wanted c s) /\ elems s' = [] /\ lost = elems s \/
      e = TypeError /\ (it_iter a <> None \/ no_object E) /\ elems s' = [] /\ lost = elems s \/
      it_end a = Some e /\ elems s' = it_items a /\ lost = elems s \/
      e = RuntimeError /\ refused G (wanted c s) /\ exists o rest i, it_items a = elems s' ++ o :: rest /\ iterator_of s a i /\ lost = elems s ++ o :: i
  | OAppend _ | OInsert _ _ => e = RuntimeError /\ refused G (wanted c s) /\ undone s s' lost
  | OPop i => e = IndexError /\ undone s s' lost /\ (size s = 0 \/ exists j, i = Some j /\ ~ 0 <= rel (size s) j < size s)
  | ORemove o => e = ValueError /\ undone s s' lost /\ ~ In o (elems s)
  | OSearch f => (e = ValueError /\ f (elems s) = None \/ e = MemoryError /\ no_object E) /\ undone s s' lost
  | OGet i | OSet i _ | ODel i => e = IndexError /\ undone s s' lost /\ ~ 0 <= rel (size s) i < size s
  | OExtendFast _ | OIAddFast _ | OClear | OReverse => False
  | OExtendIter h a | OIAddIter h a =>
      undone s s' lost /\ (it_iter a = Some e \/ e = MemoryError /\ no_object E) \/
      elems s' = elems s ++ it_items a /\ lost = [] /\ it_end a = Some e /\ hinted k h \/
      k = Array /\ h = inr e /\ keeps s s' /\ lost = firstn 1 (it_items a)
  | OResize n => undone s s' lost /\ (e = ValueError /\ n < 0 \/ e = RuntimeError /\ refused G (wanted c s))
  | OToList => e = MemoryError /\ no_object E /\ undone s s' lost
  | OGetSlice sl => (e = MemoryError /\ no_object E \/ e = ValueError /\ step_of sl = 0) /\ undone s s' lost
  | OCopy | OMul _ => (e = MemoryError /\ no_object E \/ e = RuntimeError /\ refused G (wanted c s)) /\ undone s s' lost
  | OIMul n => e = RuntimeError /\ lost = [] /\ (refused G (wanted c s) \/ k = Array /\ 2 <= n /\ grows G (size s') (size s' + 1) = false) /\
               exists m r, elems s' = firstn m (repeated r (elems s)) /\ (length (elems s) <= m)%nat
  | OAdd other => (e = MemoryError /\ no_object E \/ e = TypeError /\ other = None) /\ undone s s' lost
  | OAddSame => e = MemoryError /\ undone s s' lost
  | OSetSlice sl seq src =>
      e = ValueError /\ step_of sl = 0 /\ undone s s' lost \/
      e = TypeError /\ seq = false /\ undone s s' lost \/
      e = NotImplementedError /\ k = Array /\ step_of sl <> 1 /\ undone s s' lost \/
      e = IndexError /\ In None (source_items src) /\ lost = [] /\ (k = Array -> partly s s' sl src) \/
      e = RuntimeError /\ refused G (wanted c s) /\ (k = Array -> partly s s' sl src) /\
      (lost = [] /\ (k = Linked \/ exists ys, src = SFast ys) \/
       k = Array /\ exists items o, src = SItems items /\ In (Some o) items /\ lost = [o])
  | OCompare _ _ _ items => undone s s' lost /\ (e = IndexError /\ In None items \/ exists o, In (Some (o, inr e)) items)
  | OSort block keys fail perm =>
      lost = [] /\
      (block = false /\ k = Linked /\ keeps s s' /\ e = MemoryError \/
       (exists ks, keys = Some ks /\ all_keys (length (elems s)) ks = false) /\ keeps s s' /\ e = seen k (UserError 0) \/
       exists e', fail = Some e' /\ elems s' = perm (elems s) /\ e = seen k e')
  | OIter => e = MemoryError /\ no_object E /\ undone s s' lost
  | ONext i => e = StopIteration /\ undone s s' lost /\ nth_error (elems s) (Z.to_nat i) = None
  end.

(** ** All calls *)
Definition extends (c : call) : bool :=
  match c with OExtendFast _ | OExtendIter _ _ | OIAddFast _ | OIAddIter _ _ => true | _ => false end.
Definition ends (k : kind) (E : env) (G : memory) (c : call) (s : rst) (r : rr value) : Prop :=
  match r with
  | Ok s' v => exists lost short, shares E s s' (owned v) lost short /\ returns k E c s s' v lost short
  | Er s' e => exists lost, shares E s s' [] lost [] /\ raises k E G c s s' e lost
  | Bad u => k = Linked /\ ((exists i, c = OPop (Some i) /\ 0 <= rel (size s) i < size s) /\ u = UseAfterFree \/
                            (exists sl seq src, c = OSetSlice sl seq src /\ step_of sl <> 1) /\ u = OutOfBounds)
  | Killed => extends c = true /\ refused G (wanted c s)
  end.

(** Calls that leave the list without a reference for an element. *)
Definition short_of (k : kind) (c : call) (s : rst) : bool :=
  match c with
  | OInitSame _ (_ :: _) => true
  | OResize n => size s <? n
  | OSetSlice sl _ (SFast ys) => match k with Array => slice_len (elems s) sl <? zlen ys | Linked => false end
  | _ => false
  end.

(** ** Programs *)
(** [P] holds of every call of a program where it is made. *)
Fixpoint along (k : kind) (E : env) (P : memory -> call -> rst -> Prop) (cs : list (memory * call)) (s : rst) : Prop :=
  match cs with
  | [] => True
  | (G, c) :: r => P G c s /\ match run k E G c s with
                             | Ok s v => match drop E v s with Ok s _ => along k E P r s | _ => True end
                             | Er s _ => along k E P r s
                             | _ => True
                             end
  end.
(** Calls that take and give references as they should, if memory is there. *)
Definition tidy (k : kind) (E : env) (c : call) (s : rst) : Prop :=
  match c with
  | OInitSame _ ys => elems s = [] /\ ys = []
  | OInitSeq _ _ _ | OInitIter _ _ => elems s = []
  | OSet _ _ => False
  | OResize n => n < 0 \/ n = size s
  | OIMul n => 0 < n \/ elems s = []
  | OSort _ _ _ _ => k = Array \/ imm E (none E) = true
  | OExtendIter h _ | OIAddIter h _ => hinted k h
  | OSetSlice sl _ src => match k, src with
                          | Array, SFast ys => zlen ys <= slice_len (elems s) sl
                          | Array, SItems _ => True
                          | Linked, _ => step_of sl = 1
                          end
  | OPop i => k = Array \/ i = None
  | _ => True
  end.
Definition enough (G : memory) (most : Z) : Prop := forall n m, 0 <= n < m -> m <= most -> grows G n m = true.
