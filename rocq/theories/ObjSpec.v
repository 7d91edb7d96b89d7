(** Specification of reference counting and of a list of objects, written from
    the Python reference; independent of the C++ code. *)
From Coq Require Import ZArith List Bool.
From Verif Require Import Base PyListSpec ObjModel ObjWorldModel.
Import ListNotations.
Local Open Scope Z_scope.

(** How often [o] occurs. *)
Fixpoint occ (s : list Z) (o : Z) : Z :=
  match s with [] => 0 | x :: r => (if x =? o then 1 else 0) + occ r o end.

(** Slots of live lists that hold [o]. *)
Definition in_lists {K} (w : world K) (o : Z) : Z :=
  fold_right (fun s n => match s with Some s => occ (k_items K s) o + n | None => n end) 0 (w_lists w).

(** Every count is the number of references that exist: those of the program
    and the slots of live lists. *)
Definition balanced {K} (w : world K) : Prop := forall o, w_rc w o = w_ext w o + in_lists w o.

(** ** A Python list of objects, compared by identity *)
Definition lift (r : sres * list Z) : outcome (oval (list Z)) * list Z :=
  (match fst r with
   | SRaise e => Raise e
   | SRet SNone => Ret ONone
   | SRet (SBool b) => Ret (OBool b)
   | SRet (SNum z) => Ret (ONum z)
   | SRet (SElem v) => Ret (OElem v)
   | SRet (PyListSpec.SList vs) => Ret (OPyList vs)
   | SRet (SSame vs) => Ret (ONew vs)
   end, snd r).

(** Items of an argument and how its iteration ends; [None]: not iterable. *)
Definition items_of (s : list Z) (a : oarg) : option (list Z * option exn) :=
  match a with
  | OSame ys => Some (ys, None)
  | OSelfArg => Some (s, None)
  | OList ys => Some (ys, None)
  | OIter ys fin => Some (ys, fin)
  | OOther => None
  end.

Definition repeated (n : Z) (s : list Z) : list Z := concat (repeat s (Z.to_nat n)).

(** An argument used as index must be an int. *)
Definition int_arg (i : pyobj) (s : list Z) (f : Z -> sres * list Z) : outcome (oval (list Z)) * list Z :=
  match i with PInt z => lift (f z) | PObj _ => (Raise TypeError, s) end.
Definition opt_int (i : option pyobj) : option (option Z) :=
  match i with None => Some None | Some (PInt z) => Some (Some z) | Some (PObj _) => None end.

Definition py_obj (c : ocall oarg) (s : list Z) : outcome (oval (list Z)) * list Z :=
  match c with
  | CAppend o => lift (py_step (OAppend o) s)
  | CExtend a =>
      match items_of s a with
      | Some (ys, None) => (Ret ONone, s ++ ys)
      | Some (ys, Some e) => (Raise e, s ++ ys)
      | None => (Raise TypeError, s)
      end
  | CIadd a =>
      match items_of s a with
      | Some (ys, None) => (Ret OSelf, s ++ ys)
      | Some (ys, Some e) => (Raise e, s ++ ys)
      | None => (Raise TypeError, s)
      end
  | CAdd (OSame ys) => (Ret (ONew (s ++ ys)), s)
  | CAdd OSelfArg => (Ret (ONew (s ++ s)), s)
  | CAdd (OList ys) => (Ret (OPyList (s ++ ys)), s)
  | CAdd (OIter _ _) | CAdd OOther => (Raise TypeError, s)
  | CPop None => lift (py_step (OPop None) s)
  | CPop (Some i) => int_arg i s (fun z => py_step (OPop (Some z)) s)
  | CIndex o a b =>
      match opt_int a, opt_int b with
      | Some a, Some b => lift (py_step (OIndex o a b) s)
      | _, _ => (Raise TypeError, s)
      end
  | CCount o => lift (py_step (OCount o) s)
  | CInsert i o => int_arg i s (fun z => py_step (OInsert z o) s)
  | CRemove o => lift (py_step (ORemove o) s)
  | CLen => lift (py_step OLen s)
  | CGet i => int_arg i s (fun z => py_step (OGet z) s)
  | CGetSlice sl => lift (py_step (OGetSlice sl) s)
  | CSet i o => int_arg i s (fun z => py_step (OSet z o) s)
  | CDel i => int_arg i s (fun z => py_step (ODel z) s)
  | CSetSlice sl SetDel => lift (py_step (OSetSlice sl []) s)
  | CSetSlice sl (SetNoLen e) => (Raise e, s)
  | CSetSlice sl (SetTo a) =>
      match items_of s a with
      | Some (ys, None) => lift (py_step (OSetSlice sl ys) s)
      | Some (_, Some e) => (Raise e, s)
      | None => (Raise TypeError, s)
      end
  | CResize i =>
      match i with
      | PInt n => if (0 <=? n) && in_ssize n
                  then (Ret ONone, firstn (Z.to_nat n) s ++ repeat PyNone (Z.to_nat n - length s))
                  else (Raise ValueError, s)
      | PObj _ => (Raise TypeError, s)
      end
  | CToList => lift (py_step OToList s)
  | CCopy => lift (py_step OCopy s)
  | CMul n => (Ret (ONew (repeated n s)), s)
  | CImul n => (Ret OSelf, repeated n s)
  | CContains _ o => lift (py_step (OContains o) s)
  | CReverse => lift (py_step OReverse s)
  | CClear => lift (py_step OClear s)
  end.

Definition py_init (a : option oarg) : outcome (list Z) :=
  match a with
  | None => Ret []
  | Some a => match items_of [] a with
              | Some (ys, None) => Ret ys
              | Some (_, Some e) => Raise e
              | None => Raise TypeError
              end
  end.

(** The same as a class, with counts that follow the references. *)
Definition PythonClass : klass :=
  {| k_list := list Z;
     k_items := fun s => s;
     k_init := fun a rc => (py_init a, match py_init a with Ret s => fun o => rc o + occ s o | _ => rc end);
     k_call := fun c s rc =>
       let '(v, s') := py_obj c s in
       (v, (s', fun o => rc o + (occ s' o - occ s o) + occ (result_owned v) o
                        + match v with Ret (ONew n) | RetPending (ONew n) _ => occ n o | _ => 0 end));
     k_free := fun s rc => Ret (fun o => rc o - occ s o) |}.

(** Same results, contents and counts as the Python list. *)
Definition same_run {K} (w : world K) (p : world PythonClass) : Prop :=
  w_log w = w_log p /\ (forall j, contents w j = contents p j) /\ (forall o, w_rc w o = w_rc p o).

(** ** Where the lists keep the counts *)
Definition SLOTS : Z := 2 ^ 63 - 1.
Definition slice_len (s : list Z) (sl : slice) : Z := zlen (slice_positions (length s) sl).
Definition valid_index (s : list Z) (i : pyobj) : bool :=
  match i with
  | PInt z => let p := rel (zlen s) z in (0 <=? p) && (p <? zlen s)
  | PObj _ => false
  end.
Definition emptyb (s : list Z) : bool := match s with [] => true | _ => false end.

(** Calls of ObjectArrayList that keep every count right. *)
Definition a_counted (c : ocall oarg) (s : list Z) : bool :=
  (zlen s <=? SLOTS) &&
  match c with
  | CExtend OSelfArg | CIadd OSelfArg => false
  | CSet i _ => negb (valid_index s i)
  | CSetSlice _ SetDel | CSetSlice _ (SetNoLen _) => false
  | CSetSlice _ (SetTo OSelfArg) => emptyb s
  | CSetSlice sl (SetTo (OSame ys)) | CSetSlice sl (SetTo (OList ys)) =>
      negb (step_of sl =? 1) || (zlen ys <=? slice_len s sl)
  | CResize n => match n with PInt z => (z =? zlen s) || negb ((0 <=? z) && in_ssize z) | PObj _ => true end
  | CImul n => (n =? 1) || emptyb s
  | _ => true
  end.

(** Calls of ObjectLinkedList that keep every count right. *)
Definition l_counted (c : ocall oarg) (s : list Z) : bool :=
  (zlen s <=? SLOTS) &&
  match c with
  | CExtend OSelfArg => emptyb s
  | CPop (Some i) => negb (valid_index s i)
  | CSet i _ => negb (valid_index s i)
  | CSetSlice _ SetDel => false
  | CSetSlice sl (SetTo a) =>
      (step_of sl =? 1) && (zlen s + match items_of s a with Some (ys, _) => zlen ys + 1 | None => 0 end <=? SLOTS)
  | CImul n => (1 <=? n) || emptyb s
  | _ => true
  end.

(** A history made of such events: constructions not from a list of the same
    class, and calls counted in the state they are made in. *)
Definition counted_event (counted : ocall oarg -> list Z -> bool) {K} (w : world K) (e : event) : bool :=
  match e with
  | EvNew (Some (SObj j)) => match contents w j with Some s => emptyb s | None => true end
  | EvCall l c =>
      match contents w l, call_map (resolve w (Some l)) c with
      | Some s, Some c => counted c s
      | _, _ => true
      end
  | _ => true
  end.
Fixpoint counted_run (counted : ocall oarg -> list Z -> bool) {K} (es : list event) (w : world K) : bool :=
  match es with
  | [] => true
  | e :: r => counted_event counted w e &&
              match wstep e w with Ret w' => counted_run counted r w' | _ => true end
  end.

(** ** Where results and contents are those of a Python list (by identity) *)
Definition MAXVEC : Z := 2 ^ 60 - 1.
Definition opt_fits (i : option pyobj) : bool := match i with Some (PInt z) => in_ssize z | _ => true end.

(** Excluded besides uncounted calls: [+=] and [+] with a list of the class,
    [pop(i)] of an empty list with something that is not a machine integer,
    [index] bounds beyond machine integers, slice assignment with a step or
    from a sequence that fails, results of more than 2^60 - 1 elements,
    membership of an object that is present but not an int. *)
Definition a_agrees (c : ocall oarg) (s : list Z) : bool :=
  a_counted c s &&
  match c with
  | CIadd (OSame _) | CAdd (OSame _) | CAdd OSelfArg => false
  | CPop (Some i) => negb (emptyb s) || match i with PInt z => in_ssize z | PObj _ => false end
  | CIndex _ a b => opt_fits a && opt_fits b
  | CSetSlice sl (SetTo (OIter _ (Some _))) => false
  | CSetSlice sl (SetTo _) => step_of sl =? 1
  | CMul n | CImul n => zlen s * n <=? MAXVEC
  | CContains isint o => isint || (occ s o =? 0)
  | _ => true
  end.

(** The bounds of the slice cross (Python then inserts at the start). *)
Definition crossing (s : list Z) (sl : slice) : bool :=
  let len := zlen s in
  let i := match sl_start sl with None => 0 | Some i => clamp len (rel len i) end in
  let j := match sl_stop sl with None => len | Some j => clamp len (rel len j) end in
  j <? i.

(** Excluded for ObjectLinkedList besides uncounted calls: [+=] and [+] with a
    list of the class, [pop(i)] and [index] as above, slice assignment with
    crossing bounds, of the list itself or from a sequence that fails,
    membership of an object that is present but not an int; resize does not
    exist. *)
Definition l_agrees (c : ocall oarg) (s : list Z) : bool :=
  l_counted c s &&
  match c with
  | CIadd (OSame _) | CIadd OSelfArg | CAdd (OSame _) | CAdd OSelfArg | CResize _ => false
  | CPop (Some i) => negb (emptyb s) || match i with PInt z => in_ssize z | PObj _ => false end
  | CIndex _ a b => opt_fits a && opt_fits b
  | CSetSlice sl (SetNoLen _) => negb (step_of sl =? 0)
  | CSetSlice sl (SetTo OSelfArg) => emptyb s
  | CSetSlice sl (SetTo (OIter _ (Some _))) => false
  | CSetSlice sl (SetTo a) => negb (crossing s sl) || match items_of s a with Some (ys, _) => emptyb ys | None => true end
  | CContains isint o => isint || (occ s o =? 0)
  | _ => true
  end.
