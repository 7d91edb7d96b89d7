(** What the construction of an IntIntHashMap leaves behind. *)
From Coq Require Import ZArith List Bool.
From Verif Require Import Base HashModel MapModel MapSpec MapRefModel.
Import ListNotations.
Local Open Scope Z_scope.

(** The argument without the identities of its objects. *)
Definition plain_arg (a : rarg) : arg :=
  match a with
  | RMap t => AMap t | RDict _ items => ADict (map snd items) | RIter _ es tail => AIter (map e_is es) tail
  | RSeqIter _ es => ASeqIter (map e_is es)
  | RMapping _ (inl m) => AMapping (inl (map snd m)) | RMapping _ (inr e) => AMapping (inr e) | ROther => AOther
  end.

(** The entry is not a pair. *)
Definition misshapen (e : entry) : bool :=
  match e with EList [_; _] => false | ETuple [_; _] => false | EIter (_ :: _ :: _) => false | _ => true end.
(** What of an entry that is no pair has been taken out of it. *)
Definition taken (e : rentry) : list Z :=
  match e_is e with EIter [] => [e_iter e] | EIter (_ :: _) => [e_iter e; e_key e] | _ => [] end.
(** The entries that are read, and the one that stops the loop. *)
Fixpoint entries_read (stops : entry -> bool) (es : list rentry) : list rentry :=
  match es with [] => [] | e :: r => if stops (e_is e) then [e] else e :: entries_read stops r end.
Definition stopped_by (stops : entry -> bool) (es : list rentry) : option rentry := List.find (fun e => stops (e_is e)) es.
Definition stops_iter (cfg : mapcfg) (e : entry) : bool := match stop_of cfg e with Some _ => true | None => false end.
(** Left behind: by an iterator every entry read; when an entry is no pair also
    what was taken out of it and the iterator or sequence itself. *)
Definition and_rest (x : Z) (e : option rentry) : list Z :=
  match e with Some e => if misshapen (e_is e) then x :: taken e else [] | None => [] end.
Definition left_iter (cfg : mapcfg) (i : Z) (es : list rentry) : list Z :=
  map e_obj (entries_read (stops_iter cfg) es) ++ and_rest i (stopped_by (stops_iter cfg) es).
Definition left_seq (cfg : mapcfg) (q : Z) (es : list rentry) : list Z := and_rest q (stopped_by (stops_iter cfg) es).
(** A list or tuple that is an iterator takes lists for tuples (C71). *)
Definition no_pairs (es : list rentry) : Prop := forall e k v, In e es -> e_is e <> EList [k; v].

(** Number of steps an argument may take. *)
Definition arg_size (a : rarg) : Z :=
  match a with
  | RDict _ items => Z.of_nat (length items) | RIter _ es _ => Z.of_nat (length es) | RSeqIter _ es => Z.of_nat (length es)
  | RMapping _ (inl m) => Z.of_nat (length m) | _ => 0
  end.
Definition fits (a : option rarg) : Prop := match a with Some a => arg_size a <= 2 ^ 24 - 2 | None => True end.
(** PyObject_GetItem answers with a value or an error. *)
Definition defined (a : option rarg) : Prop :=
  match a with Some (RMapping _ (inl m)) => answers (map snd m) | Some (RSeqIter _ es) => no_pairs es | _ => True end.
(** What the construction leaves behind: something only if it reads an iterator
    or a sequence that is one. *)
Definition left_behind (cfg : mapcfg) (arg1 arg2 : option rarg) : list Z :=
  match arg1, arg2 with
  | Some (RIter i es _), None => left_iter cfg i es
  | Some (RSeqIter q es), None => left_seq cfg q es
  | _, _ => []
  end.
