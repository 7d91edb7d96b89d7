(** Object lists as operands: what is assumed of them. *)
From Coq Require Import ZArith List Bool.
From Verif Require Import Base PyListSpec ArrayListModel StdListModel LinkedListModel LinkedListProofs ObjModel MixObjModel.
Import ListNotations.
Local Open Scope Z_scope.

Definition sound (o : olist) : Prop := zlen (oheld o) <= SSIZE_MAX /\ match o with OArr _ => True | OLnk l => lwf l end.
(** Objects that live. *)
Definition alive (rc : counts) (os : list Z) : Prop := Forall (fun o => is_obj o = true /\ 0 < rc o) os.
