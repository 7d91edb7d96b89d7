(** The interpreter around the object lists: several lists of one class, the
    references they share, and histories of calls. *)
From Coq Require Import ZArith List Bool.
From Verif Require Import Base PyListSpec ObjModel ObjArrayModel StdListModel LinkedListModel ObjLinkedModel.
Import ListNotations.
Local Open Scope Z_scope.

(** A list class: contents, construction, calls, destruction. *)
Record klass := {
  k_list : Type;
  k_items : k_list -> list Z;
  k_init : option oarg -> counts -> outcome k_list * counts;
  k_call : ocall oarg -> k_list -> counts -> ores k_list;
  k_free : k_list -> counts -> outcome counts }.

Definition ArrayClass (f : cpu) : klass :=
  {| k_list := vec; k_items := fun s => s; k_init := a_init; k_call := a_call f; k_free := a_dealloc |}.
Definition LinkedClass : klass :=
  {| k_list := ll; k_items := fun l => values (lst l); k_init := l_init; k_call := l_call; k_free := l_dealloc |}.

(** An iterable argument as the program names it: list number [j], or else. *)
Inductive sarg :=
| SObj (j : nat)
| SPyList (items : list Z)
| SIter (items : list Z) (fin : option exn)
| SOther.

(** What a program does: obtain or drop a reference, construct a list, call a
    method, drop the last reference to a list. *)
Inductive event :=
| EvAcquire (o : Z)
| EvRelease (o : Z)
| EvNew (a : option sarg)
| EvCall (l : nat) (c : ocall sarg)
| EvFree (l : nat).

(** [w_ext] are the references the program holds itself; a destroyed list is
    [None]; [w_log] are the results, contents instead of identities. *)
Record world (K : klass) := {
  w_lists : list (option (k_list K));
  w_rc : counts;
  w_ext : counts;
  w_log : list (outcome (oval (list Z))) }.
Arguments w_lists {K} w.
Arguments w_rc {K} w.
Arguments w_ext {K} w.
Arguments w_log {K} w.

Definition empty_world (K : klass) : world K :=
  {| w_lists := []; w_rc := fun _ => 0; w_ext := fun _ => 0; w_log := [] |}.

(** Contents of list [j]. *)
Definition contents {K} (w : world K) (j : nat) : option (list Z) :=
  match nth_error (w_lists w) j with Some (Some s) => Some (k_items K s) | _ => None end.

Definition resolve {K} (w : world K) (me : option nat) (a : sarg) : option oarg :=
  match a with
  | SObj j => match me with
              | Some l => if Nat.eqb j l then Some OSelfArg else option_map OSame (contents w j)
              | None => option_map OSame (contents w j)
              end
  | SPyList items => Some (OList items)
  | SIter items fin => Some (OIter items fin)
  | SOther => Some OOther
  end.

Definition call_map {A B} (f : A -> option B) (c : ocall A) : option (ocall B) :=
  match c with
  | CExtend a => option_map CExtend (f a)
  | CIadd a => option_map CIadd (f a)
  | CAdd a => option_map CAdd (f a)
  | CSetSlice sl (SetTo a) => option_map (fun b => CSetSlice sl (SetTo b)) (f a)
  | CSetSlice sl SetDel => Some (CSetSlice sl SetDel)
  | CSetSlice sl (SetNoLen e) => Some (CSetSlice sl (SetNoLen e))
  | CAppend o => Some (CAppend o)
  | CPop i => Some (CPop i)
  | CIndex o a b => Some (CIndex o a b)
  | CCount o => Some (CCount o)
  | CInsert i o => Some (CInsert i o)
  | CRemove o => Some (CRemove o)
  | CLen => Some CLen
  | CGet i => Some (CGet i)
  | CGetSlice sl => Some (CGetSlice sl)
  | CSet i o => Some (CSet i o)
  | CDel i => Some (CDel i)
  | CResize n => Some (CResize n)
  | CToList => Some CToList
  | CCopy => Some CCopy
  | CMul n => Some (CMul n)
  | CImul n => Some (CImul n)
  | CContains b o => Some (CContains b o)
  | CReverse => Some CReverse
  | CClear => Some CClear
  end.

(** Objects the program passes, which it must hold, and objects an iterator
    makes or finds, which only have to be objects. *)
Definition arg_held (a : oarg) : list Z := match a with OList items => items | _ => [] end.
Definition arg_made (a : oarg) : list Z := match a with OIter items _ => items | _ => [] end.
Definition call_arg (c : ocall oarg) : option oarg :=
  match c with
  | CExtend a | CIadd a | CAdd a | CSetSlice _ (SetTo a) => Some a
  | _ => None
  end.
Definition call_held (c : ocall oarg) : list Z :=
  match c with
  | CAppend o | CIndex o _ _ | CCount o | CInsert _ o | CRemove o | CSet _ o | CContains _ o => [o]
  | _ => match call_arg c with Some a => arg_held a | None => [] end
  end.
Definition call_made (c : ocall oarg) : list Z :=
  match call_arg c with Some a => arg_made a | None => [] end.

Definition possible {K} (w : world K) (held made : list Z) : bool :=
  forallb (fun o => 0 <? w_ext w o) held && forallb is_obj made.

(** References handed to the program with a result. *)
Definition owned {C} (v : oval C) : list Z :=
  match v with OElem o => [o] | OPyList os => os | _ => [] end.
Definition result_owned {C} (v : outcome (oval C)) : list Z :=
  match v with Ret v | RetPending v _ => owned v | _ => [] end.
Definition result_new {C} (v : outcome (oval C)) : list (option C) :=
  match v with Ret (ONew c) | RetPending (ONew c) _ => [Some c] | _ => [] end.

(** A result as the program can observe it. *)
Definition observe_val {C} (items : C -> list Z) (v : oval C) : oval (list Z) :=
  match v with
  | ONone => ONone
  | OBool b => OBool b
  | ONum z => ONum z
  | OElem o => OElem o
  | OPyList os => OPyList os
  | ONew c => ONew (items c)
  | OSelf => OSelf
  end.
Definition observe {C} (items : C -> list Z) (v : outcome (oval C)) : outcome (oval (list Z)) :=
  omap (observe_val items) v.

Fixpoint set_list {C} (ls : list (option C)) (l : nat) (x : option C) : list (option C) :=
  match ls, l with
  | [], _ => []
  | _ :: r, O => x :: r
  | y :: r, S m => y :: set_list r m x
  end.

(** One event; what the program cannot do in this state changes nothing. *)
Definition wstep {K} (e : event) (w : world K) : outcome (world K) :=
  match e with
  | EvAcquire o =>
      if negb (is_obj o) then Ret w
      else Ret {| w_lists := w_lists w; w_rc := new_ref o (w_rc w); w_ext := new_ref o (w_ext w); w_log := w_log w |}
  | EvRelease o =>
      if w_ext w o <=? 0 then Ret w
      else omap (fun rc => {| w_lists := w_lists w; w_rc := rc; w_ext := upd (w_ext w) o (w_ext w o - 1);
                              w_log := w_log w |}) (decref o (w_rc w))
  | EvNew a =>
      match match a with None => Some None | Some a => option_map Some (resolve w None a) end with
      | None => Ret w
      | Some a =>
          if possible w match a with Some a => arg_held a | None => [] end
                        match a with Some a => arg_made a | None => [] end
          then match k_init K a (w_rc w) with
               | (Ret s, rc) => Ret {| w_lists := w_lists w ++ [Some s]; w_rc := rc; w_ext := w_ext w;
                                       w_log := w_log w ++ [Ret (ONew (k_items K s))] |}
               | (Raise e, rc) | (RetPending _ e, rc) =>
                   Ret {| w_lists := w_lists w; w_rc := rc; w_ext := w_ext w; w_log := w_log w ++ [Raise e] |}
               | (Undef u, _) => Undef u
               end
          else Ret w
      end
  | EvCall l c =>
      match nth_error (w_lists w) l, call_map (resolve w (Some l)) c with
      | Some (Some s), Some c =>
          if possible w (call_held c) (call_made c)
          then match k_call K c s (w_rc w) with
               | (Undef u, _) => Undef u
               | (v, (s', rc)) =>
                   Ret {| w_lists := set_list (w_lists w) l (Some s') ++ result_new v; w_rc := rc;
                          w_ext := new_refs (result_owned v) (w_ext w);
                          w_log := w_log w ++ [observe (k_items K) v] |}
               end
          else Ret w
      | _, _ => Ret w
      end
  | EvFree l =>
      match nth_error (w_lists w) l with
      | Some (Some s) => omap (fun rc => {| w_lists := set_list (w_lists w) l None; w_rc := rc; w_ext := w_ext w;
                                            w_log := w_log w |}) (k_free K s (w_rc w))
      | _ => Ret w
      end
  end.

Fixpoint wrun {K} (es : list event) (w : world K) : outcome (world K) :=
  match es with [] => Ret w | e :: r => obind (wstep e w) (wrun r) end.
