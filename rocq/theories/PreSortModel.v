(** utils/include/CPythonSort.c: the comparison functions, 1201-1366, and the
    pre-sort check that selects one, 1448-1535. PyObject_RichCompareBool and the
    tp_richcompare slots are parameters; [Raise] is -1 with an error set. Objects
    carry no identity: what depends on it is inside the parameters. *)
From Coq Require Import ZArith List Bool Arith.
From Verif Require Import Base PyLongModel MemModel.
Import ListNotations.
Local Open Scope Z_scope.

(** Objects of the exact types the check knows, and others by class. *)
Inductive pv := VInt (p : pylong) | VFloat (bits : Z) | VStr (cps : list Z) | VTup (items : list pv) | VObj (cls id : Z).
Inductive ptype := TInt | TFloat | TStr | TTup | TCls (c : Z).
Definition type_of (v : pv) : ptype :=
  match v with VInt _ => TInt | VFloat _ => TFloat | VStr _ => TStr | VTup _ => TTup | VObj c _ => TCls c end.
Definition is_type (v : pv) (t : ptype) : bool :=
  match type_of v, t with
  | TInt, TInt | TFloat, TFloat | TStr, TStr | TTup, TTup => true
  | TCls c, TCls d => c =? d
  | _, _ => false
  end.

(** PEP 393: bytes per character, least possible. *)
Definition kind_of (cps : list Z) : nat :=
  if forallb (fun c => c <? 256) cps then 1 else if forallb (fun c => c <? 65536) cps then 2 else 4.
Definition data_of (cps : list Z) : bytes := flat_map (le_bytes (kind_of cps)) cps.

Inductive cop := CLt | CEq.
(** What a tp_richcompare slot answers for Py_LT (with PyObject_IsTrue). *)
Inductive answer := ANotImplemented | AError (e : exn) | ABool (b : bool).

Section Compare.
Variable py312 : bool.
Variable rcb : cop -> pv -> pv -> outcome bool.   (* PyObject_RichCompareBool *)
Variable slot : ptype -> option Z.                (* tp_richcompare, an address *)
Variable fn : Z -> pv -> pv -> answer.            (* the function there, for Py_LT *)
Variable flt : Z -> Z -> bool.                    (* < of two doubles *)

(** safe_object_compare, 1212-1217. *)
Definition safe_object_compare (v w : pv) : outcome bool := rcb CLt v w.

(** unsafe_object_compare, 1223-1255; [k]: ms->key_richcompare. *)
Definition unsafe_object_compare (k : Z) (v w : pv) : outcome bool :=
  if negb (match slot (type_of v) with Some a => a =? k | None => false end) then rcb CLt v w
  else match fn k v w with
       | ANotImplemented => rcb CLt v w
       | AError e => Raise e
       | ABool b => Ret b
       end.

(** memcmp: sign of the first difference. *)
Fixpoint memcmp (a b : bytes) : Z :=
  match a, b with
  | x :: a', y :: b' => if x =? y then memcmp a' b' else if x <? y then -1 else 1
  | _, _ => 0
  end.
(** unsafe_latin_compare, 1258-1279. *)
Definition unsafe_latin_compare (v w : pv) : outcome bool :=
  match v, w with
  | VStr a, VStr b =>
      let len := Nat.min (length a) (length b) in
      let res := memcmp (firstn len (data_of a)) (firstn len (data_of b)) in
      Ret (if negb (res =? 0) then res <? 0 else (length a <? length b)%nat)
  | _, _ => Undef OutOfBounds
  end.

(** _PyLong_CompactValue: (1 - (lv_tag & 3)) * ob_digit[0]. *)
Definition compact_value (p : pylong) : Z := (1 - Py_SIZE true p mod 4) * first_digit p.
(** PyLong_AsSsize_t with its error left set. *)
Definition as_ssize (p : pylong) : outcome Z := if in_sbits_b 64 (pl_val p) then Ret (pl_val p) else RetPending (-1) OverflowError.
(** unsafe_long_compare, 1282-1308. *)
Definition unsafe_long_compare (v w : pv) : outcome bool :=
  match v, w with
  | VInt a, VInt b =>
      if py312 then Ret (compact_value a <? compact_value b)
      else obind (as_ssize a) (fun x => omap (fun y => x <? y) (as_ssize b))
  | _, _ => Undef OutOfBounds
  end.

(** unsafe_float_compare, 1311-1323. *)
Definition unsafe_float_compare (v w : pv) : outcome bool :=
  match v, w with VFloat a, VFloat b => Ret (flt a b) | _, _ => Undef OutOfBounds end.

(** What ms->key_compare points to. *)
Inductive compare_fn := FSafe | FObject (k : Z) | FLatin | FLong | FFloat.
Definition elem_compare (c : compare_fn) : pv -> pv -> outcome bool :=
  match c with
  | FSafe => safe_object_compare
  | FObject k => unsafe_object_compare k
  | FLatin => unsafe_latin_compare
  | FLong => unsafe_long_compare
  | FFloat => unsafe_float_compare
  end.

(** unsafe_tuple_compare, 1331-1363; [inner]: ms->tuple_elem_compare. *)
Fixpoint tuple_loop (inner : pv -> pv -> outcome bool) (first : bool) (a b : list pv) : outcome bool :=
  match a, b with
  | x :: a', y :: b' =>
      match rcb CEq x y with
      | Ret true => tuple_loop inner false a' b'
      | Ret false => if first then inner x y else rcb CLt x y
      | r => r
      end
  | _, _ => Ret (length a <? length b)%nat
  end.
Definition unsafe_tuple_compare (inner : pv -> pv -> outcome bool) (v w : pv) : outcome bool :=
  match v, w with VTup a, VTup b => tuple_loop inner true a b | _, _ => Undef OutOfBounds end.

(** ** Pre-sort check *)
Record flags := { in_tuples : bool; same_type : bool; latin : bool; bounded : bool }.
Definition is_full_tuple (v : pv) : bool := match v with VTup (_ :: _) => true | _ => false end.
(** PyTuple_GET_ITEM(v, 0). *)
Definition first_item (v : pv) : outcome pv := match v with VTup (x :: _) => Ret x | _ => Undef OutOfBounds end.

(** The loop 1464-1504. *)
Fixpoint scan (t : ptype) (keys : list pv) (f : flags) : outcome flags :=
  match keys with
  | [] => Ret f
  | k :: r =>
      if in_tuples f && negb (is_full_tuple k)
      then Ret {| in_tuples := false; same_type := false; latin := latin f; bounded := bounded f |}
      else obind (if in_tuples f then first_item k else Ret k) (fun key =>
           let same := same_type f && is_type key t in
           let f' := {| in_tuples := in_tuples f; same_type := same; latin := latin f; bounded := bounded f |} in
           if negb (is_type key t) && negb (in_tuples f) then Ret f'
           else if same then
             let int_ := match t with TInt => true | _ => false end in
             let str_ := match t with TStr => true | _ => false end in
             let small := match key with VInt p => pl_compact p | _ => true end in
             let one := match key with VStr c => Nat.eqb (kind_of c) 1 | _ => true end in
             if int_ && bounded f && (if py312 then negb small else true)
             then scan t r {| in_tuples := in_tuples f; same_type := true; latin := latin f; bounded := false |}
             else if str_ && latin f && negb one
             then scan t r {| in_tuples := in_tuples f; same_type := true; latin := false; bounded := bounded f |}
             else scan t r f'
           else scan t r f')
  end.

Inductive key_compare := KOne (c : compare_fn) | KTuples (inner : compare_fn).
(** 1506-1533. *)
Definition choose (t : ptype) (f : flags) : key_compare :=
  let c :=
    if same_type f then
      match t with
      | TStr => if latin f then FLatin else match slot t with Some k => FObject k | None => FSafe end
      | TInt => if bounded f then FLong else match slot t with Some k => FObject k | None => FSafe end
      | TFloat => FFloat
      | _ => match slot t with Some k => FObject k | None => FSafe end
      end
    else FSafe in
  if in_tuples f then KTuples (match t with TTup => FSafe | _ => c end) else KOne c.

(** 1448-1535; fewer than two keys are never compared. *)
Definition pre_sort_check (keys : list pv) : outcome key_compare :=
  match keys with
  | [] | [_] => Ret (KOne FSafe)
  | k :: _ =>
      let tup := is_full_tuple k in
      obind (if tup then first_item k else Ret k) (fun key =>
      omap (choose (type_of key)) (scan (type_of key) keys {| in_tuples := tup; same_type := true; latin := true; bounded := true |}))
  end.

Definition compare (c : key_compare) (v w : pv) : outcome bool :=
  match c with KOne c => elem_compare c v w | KTuples c => unsafe_tuple_compare (elem_compare c) v w end.
End Compare.
