(** The sortslice helpers of utils/include/CPythonSort.c on two separate
    arrays, keys and values, as the code has them.  CPythonSortModel.v works on
    one array of slots; SortSliceProofs.v shows that each helper, applied to two
    arrays of one length, is the slot operation used there. *)
From Coq Require Import ZArith List Bool.
From Verif Require Import Base CPythonSortModel.
Import ListNotations.
Local Open Scope Z_scope.

Section Slice.
Context {K V : Type}.

(** struct sortslice 147-150; [values] is NULL without a key function. *)
Record slice := mkslice { keys : list K; values : option (list V) }.

Definition obnd {X Y} (o : option X) (f : X -> option Y) : option Y :=
  match o with Some x => f x | None => None end.

(** memcpy / memmove of [n] pointers between arrays. *)
Definition copy_range {X} (dst : list X) (i : Z) (src : list X) (j n : Z) : option (list X) :=
  obnd (sub src j n) (fun b => put dst i b).

(** dst[i] = src[j]. *)
Definition copy_one {X} (dst : list X) (i : Z) (src : list X) (j : Z) : option (list X) :=
  obnd (znth src j) (fun x => zset dst i x).

(** reverse_slice 129-141 on one array. *)
Fixpoint reverse_one {X} (fuel : nat) (l : list X) (lo hi : Z) : option (list X) :=
  match fuel with
  | O => Some l
  | S f =>
      if lo <? hi then
        obnd (znth l lo) (fun x =>
        obnd (znth l hi) (fun y =>
        obnd (zset l lo y) (fun l =>
        obnd (zset l hi x) (fun l => reverse_one f l (lo + 1) (hi - 1)))))
      else Some l
  end.

(** 663-671 / 673-681: slide [L, m) one to the right. *)
Fixpoint slide_one {X} (fuel : nat) (l : list X) (m lo : Z) : option (list X) :=
  match fuel with
  | O => Some l
  | S f =>
      if lo <? m then
        obnd (copy_one l m l (m - 1)) (fun l => slide_one f l (m - 1) lo)
      else Some l
  end.
Definition insert_one {X} (l : list X) (ok lo : Z) : option (list X) :=
  obnd (znth l ok) (fun pivot =>
  obnd (slide_one (Z.to_nat (ok - lo)) l ok lo) (fun l => zset l lo pivot)).

(** The pattern of every helper: act on the keys and, when there are values, in
    the same way on the values. *)
(** sortslice_memcpy 392-398, sortslice_memmove 400-406. *)
Definition sortslice_memmove (s1 : slice) (i : Z) (s2 : slice) (j n : Z) : option slice :=
  obnd (copy_range (keys s1) i (keys s2) j n) (fun ks =>
  match values s1 with
  | None => Some (mkslice ks None)
  | Some v1 =>
      match values s2 with
      | None => None
      | Some v2 => obnd (copy_range v1 i v2 j n) (fun vs => Some (mkslice ks (Some vs)))
      end
  end).

(** sortslice_copy 415-420; sortslice_copy_incr 423-428 and sortslice_copy_decr
    430-435 are this at the cursors, which move by one in both arrays. *)
Definition sortslice_copy (s1 : slice) (i : Z) (s2 : slice) (j : Z) : option slice :=
  obnd (copy_one (keys s1) i (keys s2) j) (fun ks =>
  match values s1 with
  | None => Some (mkslice ks None)
  | Some v1 =>
      match values s2 with
      | None => None
      | Some v2 => obnd (copy_one v1 i v2 j) (fun vs => Some (mkslice ks (Some vs)))
      end
  end).

(** sortslice_reverse 437-442. *)
Definition sortslice_reverse (s : slice) (lo n : Z) : option slice :=
  obnd (reverse_one (Z.to_nat n) (keys s) lo (lo + n - 1)) (fun ks =>
  match values s with
  | None => Some (mkslice ks None)
  | Some v => obnd (reverse_one (Z.to_nat n) v lo (lo + n - 1)) (fun vs => Some (mkslice ks (Some vs)))
  end).

(** binarysort 663-682: insert slot [ok] at position [lo]. *)
Definition sortslice_insert (s : slice) (ok lo : Z) : option slice :=
  obnd (insert_one (keys s) ok lo) (fun ks =>
  match values s with
  | None => Some (mkslice ks None)
  | Some v => obnd (insert_one v ok lo) (fun vs => Some (mkslice ks (Some vs)))
  end).
End Slice.
Arguments slice : clear implicits.
