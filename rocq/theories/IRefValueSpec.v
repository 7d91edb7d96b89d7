(** What the calls of the integer lists return, raise and leave in the list. *)
From Coq Require Import ZArith List Bool.
From Verif Require Import Base PyListSpec ArrayListModel IRefModel IRefSpec.
Import ListNotations.
Local Open Scope Z_scope.

Definition stands (E : env) (o z : Z) : Prop := conv E o = inl z.
(** The object for the number [z]: the one that is kept for it, or a new one. *)
Definition number (cache : Z -> option Z) (s : rst) (z : Z) (v : value) : Prop :=
  exists o, v = VObj o /\ (cache z = Some o \/ cache z = None /\ nxt s <= o).
(** A new list object with the objects for the numbers [xs], followed by [more]. *)
Definition lists (E : env) (s : rst) (xs more : list Z) (v : value) : Prop :=
  exists l items, v = VList l (items ++ more) /\ nxt s <= l /\ Forall2 (fun z o => number (small E) s z (VObj o)) xs items.
Definition boolean (E : env) (b : bool) : value := VObj (if b then tru E else fls E).
(** [z] is at the position [i], counted from the end if negative. *)
Definition has_at (xs : list Z) (i : Z) (pre : list Z) (z : Z) (post : list Z) : Prop :=
  xs = pre ++ z :: post /\ zlen pre = rel (zlen xs) i.
Definition inside (xs : list Z) (i : Z) : Prop := 0 <= rel (zlen xs) i < zlen xs.
(** All items can be read and converted. *)
Definition all_stand (E : env) (items : list (option Z)) (zs : list Z) : Prop :=
  exists os, items = map Some os /\ Forall2 (stands E) os zs.
(** The orderings take -1 for what cannot be converted. *)
Definition taken (E : env) (o : Z) : Z := match conv E o with inl z => z | inr _ => -1 end.

Definition yields (k : kind) (E : env) (c : call) (s s' : rst) (v : value) : Prop :=
  match c with
  | KInitSeq _ items => Forall2 (stands E) items (elems s') /\ v = VUnit
  | KInitIter a => it_iter a = None /\ it_end a = None /\ Forall2 (stands E) (it_items a) (elems s') /\ v = VUnit
  | KAppend o => exists z, stands E o z /\ elems s' = elems s ++ [z] /\ v = VObj (none E)
  | KInsert i o => exists z pre post, stands E o z /\ elems s = pre ++ post /\ zlen pre = clamp (zlen (elems s)) (rel (zlen (elems s)) i) /\
                   elems s' = pre ++ z :: post /\ v = VObj (none E)
  | KSet i o => exists z pre old post, stands E o z /\ has_at (elems s) i pre old post /\ elems s' = pre ++ z :: post /\ v = VUnit
  | KRemove o => exists z pre post, stands E o z /\ elems s = pre ++ z :: post /\ ~ In z pre /\ elems s' = pre ++ post /\ v = VObj (none E)
  | KContains o => (exists z, stands E o z) /\ elems s' = elems s /\ v = VUnit
  | KIndex o => exists z pre post, stands E o z /\ elems s = pre ++ z :: post /\ ~ In z pre /\ elems s' = elems s /\ number (small_size E) s (zlen pre) v
  | KCount o => exists z, stands E o z /\ elems s' = elems s /\ number (small_size E) s (Z.of_nat (count_occ Z.eq_dec (elems s) z)) v
  | KPop i => exists z pre post, elems s = pre ++ z :: post /\ length pre = Z.to_nat i /\ elems s' = pre ++ post /\ number (small E) s z v
  | KExtend (inl ys) | KIAdd (inl ys) => elems s' = elems s ++ ys /\ v = VObj (none E)
  | KExtend (inr a) => it_iter a = None /\ it_end a = None /\ (exists zs, Forall2 (stands E) (it_items a) zs /\ elems s' = elems s ++ zs) /\ v = VObj (none E)
  | KIAdd (inr a) => it_iter a = None /\ it_end a = None /\ (exists zs, Forall2 (stands E) (it_items a) zs /\ elems s' = elems s ++ zs) /\ v = VObj (self E)
  | KToList => elems s' = elems s /\ lists E s (elems s) [] v
  | KGet i => elems s' = elems s /\ exists z pre post, has_at (elems s) i pre z post /\ number (small E) s z v
  | KGetSlice sl => elems s' = elems s /\ step_of sl <> 0 /\ lists E s (py_getslice (elems s) sl) [] v
  | KSetSlice sl seq items => seq = true /\ step_of sl = 1 /\ (exists zs, all_stand E items zs /\ elems s' = py_setslice (elems s) sl zs) /\ v = VUnit
  | KAddSame => False
  | KAdd other => elems s' = elems s /\ exists ys, other = Some ys /\ lists E s (elems s) ys v
  | KMul => elems s' = elems s /\ exists o, v = VObj o /\ nxt s <= o
  | KIMul f => elems s' = f (elems s) /\ v = VObj (self E)
  | KEq seq items => elems s' = elems s /\ exists b, v = boolean E b /\ (b = true <-> seq = true /\ all_stand E items (elems s))
  | KNe seq items => elems s' = elems s /\ exists b, v = boolean E b /\ (b = false <-> seq = true /\ all_stand E items (elems s))
  | KOrder rel seq items =>
      elems s' = elems s /\ exists b, v = boolean E b /\
      (seq = false -> b = false) /\
      (seq = true -> zlen items <> zlen (elems s) -> b = rel (zlen (elems s)) (zlen items)) /\
      (seq = true -> zlen items = zlen (elems s) ->
       (b = true <-> exists os o more x rest, items = map Some os ++ Some o :: more /\ elems s = map (taken E) os ++ x :: rest /\
                       x <> taken E o /\ rel x (taken E o) = true))
  | KSortKey keys sorted => elems s' = (if all_keys (length (elems s)) keys then sorted (elems s) else elems s) /\ v = VObj (none E)
  | KIter => elems s' = elems s /\ exists i, v = VIter i (self E) /\ nxt s <= i
  | KNext i => elems s' = elems s /\ exists z, nth_error (elems s) (Z.to_nat i) = Some z /\ number (small E) s z v
  | KChange f => elems s' = f (elems s) /\ v = VObj (none E)
  end.

Definition no_object (E : env) : Prop := exists p, alloc E p = false.
Definition no_room (E : env) (xs : list Z) : Prop := room E (zlen xs) = false.
(** The argument does not convert. *)
Definition unfit (E : env) (o : Z) (e : exn) (s s' : rst) : Prop := conv E o = inr e /\ elems s' = elems s.
(** Some of the [items] are in the list [xs]; the next does not convert, or
    there is no room for it. *)
Definition broke_off (E : env) (items : list Z) (xs : list Z) : Prop :=
  exists os o rest, items = os ++ o :: rest /\ Forall2 (stands E) os xs /\ ((exists e, conv E o = inr e) \/ no_room E xs).
Definition stops (k : kind) (E : env) (c : call) (s s' : rst) (e : exn) : Prop :=
  match c with
  | KInitSeq _ items => e = RuntimeError /\ broke_off E items (elems s')
  | KInitIter a => e = TypeError /\ elems s' = [] /\ (it_iter a <> None \/ no_object E) \/
                   it_end a = Some e /\ Forall2 (stands E) (it_items a) (elems s') \/
                   e = RuntimeError /\ broke_off E (it_items a) (elems s')
  | KAppend o | KInsert _ o => unfit E o e s s' \/ e = RuntimeError /\ no_room E (elems s) /\ elems s' = elems s
  | KSet i o => unfit E o e s s' \/ e = IndexError /\ ~ inside (elems s) i /\ elems s' = elems s
  | KRemove o => unfit E o e s s' \/ e = ValueError /\ elems s' = elems s /\ exists z, stands E o z /\ ~ In z (elems s)
  | KContains o => unfit E o e s s'
  | KIndex o => unfit E o e s s' \/ elems s' = elems s /\ (e = ValueError /\ (exists z, stands E o z /\ ~ In z (elems s)) \/ e = MemoryError /\ no_object E)
  | KCount o => unfit E o e s s' \/ elems s' = elems s /\ e = MemoryError /\ no_object E
  | KPop i => e = IndexError /\ elems s' = elems s /\ nth_error (elems s) (Z.to_nat i) = None \/
              e = MemoryError /\ no_object E /\ exists z pre post, elems s = pre ++ z :: post /\ length pre = Z.to_nat i /\ elems s' = pre ++ post
  | KExtend (inl _) | KIAdd (inl _) => False
  | KExtend (inr a) | KIAdd (inr a) =>
      elems s' = elems s /\ (it_iter a = Some e \/ e = MemoryError /\ no_object E) \/
      it_end a = Some e /\ (exists zs, Forall2 (stands E) (it_items a) zs /\ elems s' = elems s ++ zs) \/
      exists os o rest zs, it_items a = os ++ o :: rest /\ Forall2 (stands E) os zs /\ conv E o = inr e /\
        elems s' = elems s ++ zs ++ match k with Array => [] | Linked => [-1] end
  | KToList => elems s' = elems s /\ e = MemoryError /\ no_object E
  | KGet i => elems s' = elems s /\ (e = IndexError /\ ~ inside (elems s) i \/ e = MemoryError /\ no_object E)
  | KGetSlice sl => elems s' = elems s /\ (e = ValueError /\ step_of sl = 0 \/ e = MemoryError /\ no_object E)
  | KSetSlice sl seq items =>
      elems s' = elems s /\ (e = ValueError /\ step_of sl = 0 \/ e = TypeError /\ seq = false \/ e = NotImplementedError /\ step_of sl <> 1) \/
      step_of sl = 1 /\ seq = true /\
      exists pre mid post os zs more, elems s = pre ++ mid ++ post /\ (forall ws, py_setslice (elems s) sl ws = pre ++ ws ++ post) /\
        items = map Some os ++ more /\ Forall2 (stands E) os zs /\
        (e = IndexError /\ (exists r, more = None :: r) /\ elems s' = pre ++ zs ++ skipn (length zs) mid ++ post \/
         e = RuntimeError /\ (exists o r, more = Some o :: r) /\ (length mid <= length zs)%nat /\ no_room E (elems s') /\ elems s' = pre ++ zs ++ post \/
         (exists o r, more = Some o :: r /\ conv E o = inr e) /\ elems s' = pre ++ zs ++ -1 :: skipn (S (length zs)) mid ++ post)
  | KAddSame => e = MemoryError /\ elems s' = elems s
  | KAdd other => elems s' = elems s /\ (e = MemoryError /\ no_object E \/ e = TypeError /\ other = None)
  | KMul => elems s' = elems s /\ e = MemoryError /\ no_object E
  | KIMul _ | KChange _ | KSortKey _ _ => False
  | KEq _ items | KOrder _ _ items => elems s' = elems s /\ e = IndexError /\ In None items
  | KNe _ _ => False
  | KIter => elems s' = elems s /\ e = MemoryError /\ no_object E
  | KNext i => elems s' = elems s /\ (e = StopIteration /\ nth_error (elems s) (Z.to_nat i) = None \/ e = MemoryError /\ no_object E)
  end.
Definition outcome_of (k : kind) (E : env) (c : call) (s : rst) (r : rr value) : Prop :=
  match r with Ok s' v => yields k E c s s' v | Er s' e => stops k E c s s' e | _ => True end.
