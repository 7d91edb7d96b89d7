(** Model of utils/include/CPythonSort.c: the merge sort that the library uses
    for [sort(key=...)] and for object lists.

    The array being sorted is a list of slots.  A slot is a key together with
    the value that travels with it: every [sortslice_*] helper (392-442) and
    [binarysort] (672-683) moves [keys[i]] and [values[i]] together, so the two
    parallel arrays are modelled as one array of pairs (SortSliceModel.v models
    the helpers on two separate arrays and SortSliceProofs.v shows that they
    act on both in the same way).  Without a key function ([values == NULL]) a
    slot is just the element.

    Memory is explicit: [arr] is the array, [tmp] the initialised part of the
    merge buffer [ms->a], of capacity [room] ([ms->alloced]).  Reading or
    writing outside them, and pushing on a full [pending] stack, is undefined
    behaviour.  Comparison is an oracle that may answer differently at every
    call and may raise.  Loops carry fuel; running out of it is the separate
    fault [NoFuel], which the proofs exclude, so they show termination. *)
From Coq Require Import ZArith List Bool Lia.
From Verif Require Import Base.
Import ListNotations.
Local Open Scope Z_scope.

Inductive fault := Ub (u : ub) | NoFuel.

(** struct s_slice 157-161: a pending run of the merge stack. *)
Record run := mkrun { rbase : Z; rlen : Z; rpower : Z }.

(** Constants 90, 96, 104, 85. *)
Definition MIN_GALLOP : Z := 7.
Definition MERGESTATE_TEMP_SIZE : Z := 256.
Definition MAX_MINRUN : Z := 64.
Definition MAX_MERGE_PENDING : Z := 64.

Section Sort.
Context {A : Type}.

(** [cmp t x y]: what the [t]-th call of [ms->key_compare(x, y)] answers;
    [None] when it raises. *)
Variable cmp : nat -> A -> A -> option bool.

(** Does PyMem_Malloc of this many slots succeed? *)
Variable grab : Z -> bool.

(** MergeState 165-210, together with the array it works on. *)
Record st := mkst {
  arr : list A;
  tmp : list A;
  room : Z;              (* ms->alloced *)
  gallops : Z;           (* ms->min_gallop *)
  pend : list run;       (* ms->pending[0..n) *)
  tick : nat             (* comparisons made so far *)
}.

Inductive mres (X : Type) :=
| Done (x : X) (s : st)
| Bad (f : fault).
Arguments Done {X} x s.
Arguments Bad {X} f.

Definition M (X : Type) := st -> mres X.
Definition ret {X} (x : X) : M X := fun s => Done x s.
Definition bind {X Y} (m : M X) (f : X -> M Y) : M Y :=
  fun s => match m s with Done x s' => f x s' | Bad e => Bad e end.
Definition bad {X} (f : fault) : M X := fun _ => Bad f.
Notation "x <- m ;; k" := (bind m (fun x => k)) (at level 61, m at next level, right associativity).
Notation "m ;;; k" := (bind m (fun _ => k)) (at level 61, right associativity).

Definition with_arr (l : list A) (s : st) : st :=
  mkst l (tmp s) (room s) (gallops s) (pend s) (tick s).
Definition with_tmp (l : list A) (s : st) : st :=
  mkst (arr s) l (room s) (gallops s) (pend s) (tick s).
Definition with_room (z : Z) (s : st) : st :=
  mkst (arr s) (tmp s) z (gallops s) (pend s) (tick s).
Definition with_gallops (z : Z) (s : st) : st :=
  mkst (arr s) (tmp s) (room s) z (pend s) (tick s).
Definition with_pend (p : list run) (s : st) : st :=
  mkst (arr s) (tmp s) (room s) (gallops s) p (tick s).
Definition with_tick (t : nat) (s : st) : st :=
  mkst (arr s) (tmp s) (room s) (gallops s) (pend s) t.

(** One array read, from the sorted array or the merge buffer. *)
Definition get_arr (i : Z) : M A :=
  fun s => match znth (arr s) i with Some x => Done x s | None => Bad (Ub OutOfBounds) end.
Definition get_tmp (i : Z) : M A :=
  fun s => match znth (tmp s) i with Some x => Done x s | None => Bad (Ub OutOfBounds) end.

Definition set_arr (i : Z) (v : A) : M unit :=
  fun s => match zset (arr s) i v with
           | Some l => Done tt (with_arr l s)
           | None => Bad (Ub OutOfBounds)
           end.

(** [n] consecutive slots from index [i]. *)
Definition sub (l : list A) (i n : Z) : option (list A) :=
  if (0 <=? i) && (0 <=? n) && (i + n <=? zlen l)
  then Some (firstn (Z.to_nat n) (skipn (Z.to_nat i) l)) else None.

(** Overwrite the slots from index [i] by [v]. *)
Definition put (l : list A) (i : Z) (v : list A) : option (list A) :=
  if (0 <=? i) && (i + zlen v <=? zlen l)
  then Some (firstn (Z.to_nat i) l ++ v ++ skipn (Z.to_nat i + length v) l) else None.

(** sortslice_memcpy 392-398 / sortslice_memmove 400-406 between the array and
    the buffer, and inside the array. *)
Definition copy_to_tmp (j n : Z) : M unit :=
  fun s => match sub (arr s) j n with
           | Some b => if n <=? room s then Done tt (with_tmp b s) else Bad (Ub OutOfBounds)
           | None => Bad (Ub OutOfBounds)
           end.
Definition copy_from_tmp (i j n : Z) : M unit :=
  fun s => match sub (tmp s) j n with
           | Some b => match put (arr s) i b with
                       | Some l => Done tt (with_arr l s)
                       | None => Bad (Ub OutOfBounds)
                       end
           | None => Bad (Ub OutOfBounds)
           end.
Definition move_in_arr (i j n : Z) : M unit :=
  fun s => match sub (arr s) j n with
           | Some b => match put (arr s) i b with
                       | Some l => Done tt (with_arr l s)
                       | None => Bad (Ub OutOfBounds)
                       end
           | None => Bad (Ub OutOfBounds)
           end.

(** sortslice_copy 415-420, sortslice_copy_incr 423-428, sortslice_copy_decr
    430-435: copy one slot. *)
Definition copy_arr_arr (i j : Z) : M unit := x <- get_arr j;; set_arr i x.
Definition copy_arr_tmp (i j : Z) : M unit := x <- get_tmp j;; set_arr i x.

(** ISLT 109. *)
Definition islt (x y : A) : M (option bool) :=
  fun s => Done (cmp (tick s) x y) (with_tick (S (tick s)) s).

(** A Py_ssize_t result: overflow is undefined. *)
Definition sz (z : Z) : M Z :=
  if (SSIZE_MIN <=? z) && (z <=? SSIZE_MAX) then ret z else bad (Ub SignedOverflow).

(** reverse_slice 129-141: swap inwards from [lo] and [hi], [hi] inclusive. *)
Fixpoint reverse_loop (fuel : nat) (lo hi : Z) : M unit :=
  if lo <? hi then
    match fuel with
    | O => bad NoFuel
    | S f =>
        x <- get_arr lo;;
        y <- get_arr hi;;
        set_arr lo y;;;
        set_arr hi x;;;
        reverse_loop f (lo + 1) (hi - 1)
    end
  else ret tt.

(** sortslice_reverse 437-442: slots [lo, lo+n). *)
Definition reverse_slice (lo n : Z) : M unit := reverse_loop (Z.to_nat n) lo (lo + n - 1).

(** The test made on each slot by gallop_right ([!(key < x)]: key goes to the
    right of x) and by gallop_left ([x < key]). *)
Definition probe_right (key x : A) : M (option bool) :=
  k <- islt key x;; ret (option_map negb k).
Definition probe_left (key x : A) : M (option bool) := islt x key.

(** The galloping loops 248-256, 270-276 (gallop_right) and 737-744, 756-762
    (gallop_left): probe slots [at + dir*ofs] while the answer is [want]. *)
Fixpoint gallop_loop (fuel : nat) (get : Z -> M A) (probe : A -> M (option bool)) (want : bool)
    (pos dir maxofs lastofs ofs : Z) : M (option (Z * Z)) :=
  if ofs <? maxofs then
    match fuel with
    | O => bad NoFuel
    | S f =>
        x <- get (pos + dir * ofs);;
        k <- probe x;;
        match k with
        | None => ret None
        | Some b =>
            if Bool.eqb b want then
              ofs' <- sz (2 * ofs + 1);;
              gallop_loop f get probe want pos dir maxofs ofs ofs'
            else ret (Some (lastofs, ofs))
        end
    end
  else ret (Some (lastofs, ofs)).

(** The binary search 287-295 / 773-781. *)
Fixpoint bin_search (fuel : nat) (get : Z -> M A) (probe : A -> M (option bool)) (base lo hi : Z)
    : M (option Z) :=
  if lo <? hi then
    match fuel with
    | O => bad NoFuel
    | S f =>
        let m := lo + (hi - lo) / 2 in
        x <- get (base + m);;
        k <- probe x;;
        match k with
        | None => ret None
        | Some true => bin_search f get probe base (m + 1) hi
        | Some false => bin_search f get probe base lo m
        end
    end
  else ret (Some hi).

(** gallop_right 231-299 and gallop_left 719-787 on [n] slots from [base]; the
    two functions are the same program up to the probe. *)
Definition gallop (get : Z -> M A) (probe : A -> M (option bool)) (base n hint : Z)
    : M (option Z) :=
  let fuel := Z.to_nat n in
  x <- get (base + hint);;
  k <- probe x;;
  match k with
  | None => ret None
  | Some true =>
      (* gallop towards the end 263-282 / 732-749 *)
      let maxofs := n - hint in
      r <- gallop_loop fuel get probe true (base + hint) 1 maxofs 0 1;;
      match r with
      | None => ret None
      | Some (lastofs, ofs) =>
          let ofs := if maxofs <? ofs then maxofs else ofs in
          bin_search fuel get probe base (lastofs + hint + 1) (ofs + hint)
      end
  | Some false =>
      (* gallop towards the start 243-262 / 750-769 *)
      let maxofs := hint + 1 in
      r <- gallop_loop fuel get probe false (base + hint) (-1) maxofs 0 1;;
      match r with
      | None => ret None
      | Some (lastofs, ofs) =>
          let ofs := if maxofs <? ofs then maxofs else ofs in
          bin_search fuel get probe base (hint - ofs + 1) (hint - lastofs)
      end
  end.

Definition gallop_right (get : Z -> M A) (key : A) (base n hint : Z) : M (option Z) :=
  gallop get (probe_right key) base n hint.
Definition gallop_left (get : Z -> M A) (key : A) (base n hint : Z) : M (option Z) :=
  gallop get (probe_left key) base n hint.

(** merge_compute_minrun 341-351. *)
Fixpoint minrun_loop (fuel : nat) (n r : Z) : M Z :=
  if MAX_MINRUN <=? n then
    match fuel with
    | O => bad NoFuel
    | S f => minrun_loop f (n / 2) (Z.lor r (Z.land n 1))
    end
  else ret (n + r).
Definition merge_compute_minrun (n : Z) : M Z := minrun_loop (Z.to_nat n) n 0.

(** powerloop 358-390. *)
Fixpoint power_loop (fuel : nat) (a b n result : Z) : M Z :=
  match fuel with
  | O => bad NoFuel
  | S f =>
      let result := result + 1 in
      if n <=? a then
        a' <- sz (2 * (a - n));;
        b' <- sz (2 * (b - n));;
        power_loop f a' b' n result
      else if n <=? b then ret result
      else
        a' <- sz (2 * a);;
        b' <- sz (2 * b);;
        power_loop f a' b' n result
  end.
Definition powerloop (s1 n1 n2 n : Z) : M Z :=
  a <- sz (2 * s1 + n1);;
  b <- sz (a + n1 + n2);;
  power_loop (Z.to_nat n) a b n 0.

(** The loops 478-480 and 524-526 of count_run: extend an ascending run. *)
Fixpoint ascend (fuel : nat) (lo nrem n : Z) : M (option Z) :=
  if n <? nrem then
    match fuel with
    | O => bad NoFuel
    | S f =>
        x <- get_arr (lo + n);;
        y <- get_arr (lo + n - 1);;
        k <- islt x y;;
        match k with
        | None => ret None
        | Some true => ret (Some n)
        | Some false => ascend f lo nrem (n + 1)
        end
    end
  else ret (Some n).

(** REVERSE_LAST_NEQ 462-470. *)
Definition reverse_last_neq (lo n neq : Z) : M unit :=
  if neq =? 0 then ret tt else reverse_slice (lo + (n - (neq + 1))) (neq + 1).

(** The loop 505-519 of count_run: a descending run with equal stretches. *)
Fixpoint descend (fuel : nat) (lo nrem n neq : Z) : M (option (Z * Z)) :=
  if n <? nrem then
    match fuel with
    | O => bad NoFuel
    | S f =>
        x <- get_arr (lo + n);;
        y <- get_arr (lo + n - 1);;
        k <- islt x y;;
        match k with
        | None => ret None
        | Some true =>
            reverse_last_neq lo n neq;;;
            descend f lo nrem (n + 1) 0
        | Some false =>
            k2 <- islt y x;;
            match k2 with
            | None => ret None
            | Some true => ret (Some (n, neq))
            | Some false => descend f lo nrem (n + 1) (neq + 1)
            end
        end
    end
  else ret (Some (n, neq)).

(** count_run 452-540 on the [nrem] slots from [lo]. *)
Definition count_run (lo nrem : Z) : M (option Z) :=
  let fuel := Z.to_nat nrem in
  r <- ascend fuel lo nrem 1;;
  match r with
  | None => ret None
  | Some n =>
      if n =? nrem then ret (Some n)
      else
        let descending :=
          d <- descend fuel lo nrem (n + 1) 0;;
          match d with
          | None => ret None
          | Some (n, neq) =>
              reverse_last_neq lo n neq;;;
              reverse_slice lo n;;;
              ascend fuel lo nrem n
          end in
        if 1 <? n then
          x <- get_arr lo;;
          y <- get_arr (lo + n - 1);;
          k <- islt x y;;
          match k with
          | None => ret None
          | Some true => ret (Some n)
          | Some false => reverse_slice lo n;;; descending
          end
        else descending
  end.

(** The slide 665-671 of binarysort: [for (M = ok; M > L; --M) a[M] = a[M-1]]. *)
Fixpoint slide (fuel : nat) (lo m l : Z) : M unit :=
  if l <? m then
    match fuel with
    | O => bad NoFuel
    | S f => copy_arr_arr (lo + m) (lo + m - 1);;; slide f lo (m - 1) l
    end
  else ret tt.

(** binarysort 553-686: insert slots [ok, n) of the slice at [lo]. *)
Fixpoint binarysort_loop (fuel : nat) (lo n ok : Z) : M (option unit) :=
  if ok <? n then
    match fuel with
    | O => bad NoFuel
    | S f =>
        pivot <- get_arr (lo + ok);;
        r <- bin_search (Z.to_nat n) get_arr (probe_right pivot) lo 0 ok;;
        match r with
        | None => ret None
        | Some l =>
            slide (Z.to_nat n) lo ok l;;;
            set_arr (lo + l) pivot;;;
            binarysort_loop f lo n (ok + 1)
        end
    end
  else ret (Some tt).
Definition binarysort (lo n ok : Z) : M (option unit) :=
  binarysort_loop (Z.to_nat n) lo n (if ok =? 0 then 1 else ok).

(** merge_getmem 792-821. *)
Definition merge_getmem (need : Z) : M (option unit) :=
  fun s => if need <=? room s then Done (Some tt) s
           else if grab need then Done (Some tt) (with_tmp [] (with_room need s))
           else Done None (with_tmp [] s).

(** Where the merging loops leave to: the labels Succeed, Fail, CopyB/CopyA,
    or the galloping part. *)
Inductive jump := JSucceed | JFail | JCopy | JGallop.

(** Local variables of merge_lo / merge_hi: slots left in A and B, index of
    the destination, of A and of B (in the array or in the buffer). *)
Record lv := mklv { na : Z; nb : Z; dst : Z; pa : Z; pb : Z }.

(** merge_lo 858-886: one pair of slots at a time. *)
Fixpoint lo_single (fuel : nat) (mg ac bc : Z) (v : lv) : M (jump * lv) :=
  match fuel with
  | O => bad NoFuel
  | S f =>
      y <- get_arr (pb v);;
      x <- get_tmp (pa v);;
      k <- islt y x;;
      match k with
      | None => ret (JFail, v)
      | Some true =>
          copy_arr_arr (dst v) (pb v);;;
          let v := mklv (na v) (nb v - 1) (dst v + 1) (pa v) (pb v + 1) in
          if nb v =? 0 then ret (JSucceed, v)
          else if mg <=? bc + 1 then ret (JGallop, v)
          else lo_single f mg 0 (bc + 1) v
      | Some false =>
          copy_arr_tmp (dst v) (pa v);;;
          let v := mklv (na v - 1) (nb v) (dst v + 1) (pa v + 1) (pb v) in
          if na v =? 1 then ret (JCopy, v)
          else if mg <=? ac + 1 then ret (JGallop, v)
          else lo_single f mg (ac + 1) 0 v
      end
  end.

Definition set_gallops (z : Z) : M unit := fun s => Done tt (with_gallops z s).

(** merge_lo 894-936: galloping; the new [min_gallop] is returned as well. *)
Fixpoint lo_gallop (fuel : nat) (mg : Z) (v : lv) : M (jump * Z * lv) :=
  match fuel with
  | O => bad NoFuel
  | S f =>
      let mg := if 1 <? mg then mg - 1 else mg in
      set_gallops mg;;;
      y <- get_arr (pb v);;
      r <- gallop_right get_tmp y (pa v) (na v) 0;;
      match r with
      | None => ret (JFail, mg, v)
      | Some ac =>
          (if ac =? 0 then ret tt else copy_from_tmp (dst v) (pa v) ac);;;
          let v := mklv (na v - ac) (nb v) (dst v + ac) (pa v + ac) (pb v) in
          if negb (ac =? 0) && (na v =? 1) then ret (JCopy, mg, v)
          else if negb (ac =? 0) && (na v =? 0) then ret (JSucceed, mg, v)
          else
            copy_arr_arr (dst v) (pb v);;;
            let v := mklv (na v) (nb v - 1) (dst v + 1) (pa v) (pb v + 1) in
            if nb v =? 0 then ret (JSucceed, mg, v)
            else
              x <- get_tmp (pa v);;
              r <- gallop_left get_arr x (pb v) (nb v) 0;;
              match r with
              | None => ret (JFail, mg, v)
              | Some bc =>
                  (if bc =? 0 then ret tt else move_in_arr (dst v) (pb v) bc);;;
                  let v := mklv (na v) (nb v - bc) (dst v + bc) (pa v) (pb v + bc) in
                  if negb (bc =? 0) && (nb v =? 0) then ret (JSucceed, mg, v)
                  else
                    copy_arr_tmp (dst v) (pa v);;;
                    let v := mklv (na v - 1) (nb v) (dst v + 1) (pa v + 1) (pb v) in
                    if na v =? 1 then ret (JCopy, mg, v)
                    else if (MIN_GALLOP <=? ac) || (MIN_GALLOP <=? bc) then lo_gallop f mg v
                    else ret (JGallop, mg, v)
              end
      end
  end.

(** merge_lo 851-939: the outer loop. *)
Fixpoint lo_outer (fuel : nat) (mg : Z) (v : lv) : M (jump * lv) :=
  match fuel with
  | O => bad NoFuel
  | S f =>
      r <- lo_single (Z.to_nat (na v + nb v)) mg 0 0 v;;
      match r with
      | (JGallop, v) =>
          r <- lo_gallop (Z.to_nat (na v + nb v)) (mg + 1) v;;
          match r with
          | (JGallop, mg, v) => set_gallops (mg + 1);;; lo_outer f (mg + 1) v
          | (j, _, v) => ret (j, v)
          end
      | (j, v) => ret (j, v)
      end
  end.

Definition get_gallops : M Z := fun s => Done (gallops s) s.

(** merge_lo 831-953: merge the [na] slots at [a] with the [nb] slots at
    [b = a + na]. *)
Definition merge_lo (a nA b nB : Z) : M (option unit) :=
  m <- merge_getmem nA;;
  match m with
  | None => ret None
  | Some _ =>
      copy_to_tmp a nA;;;
      copy_arr_arr a b;;;
      let v := mklv nA (nB - 1) (a + 1) 0 (b + 1) in
      r <- (if nb v =? 0 then ret (JSucceed, v)
            else if na v =? 1 then ret (JCopy, v)
            else mg <- get_gallops;; lo_outer (Z.to_nat (na v + nb v)) mg v);;
      let '(j, v) := r in
      match j with
      | JCopy =>
          move_in_arr (dst v) (pb v) (nb v);;;
          copy_arr_tmp (dst v + nb v) (pa v);;;
          ret (Some tt)
      | _ =>
          (if na v =? 0 then ret tt else copy_from_tmp (dst v) (pa v) (na v));;;
          ret (match j with JFail => None | _ => Some tt end)
      end
  end.

(** merge_hi 992-1020: one pair of slots at a time, from the right. *)
Fixpoint hi_single (fuel : nat) (mg ac bc : Z) (v : lv) : M (jump * lv) :=
  match fuel with
  | O => bad NoFuel
  | S f =>
      y <- get_tmp (pb v);;
      x <- get_arr (pa v);;
      k <- islt y x;;
      match k with
      | None => ret (JFail, v)
      | Some true =>
          copy_arr_arr (dst v) (pa v);;;
          let v := mklv (na v - 1) (nb v) (dst v - 1) (pa v - 1) (pb v) in
          if na v =? 0 then ret (JSucceed, v)
          else if mg <=? ac + 1 then ret (JGallop, v)
          else hi_single f mg (ac + 1) 0 v
      | Some false =>
          copy_arr_tmp (dst v) (pb v);;;
          let v := mklv (na v) (nb v - 1) (dst v - 1) (pa v) (pb v - 1) in
          if nb v =? 1 then ret (JCopy, v)
          else if mg <=? bc + 1 then ret (JGallop, v)
          else hi_single f mg 0 (bc + 1) v
      end
  end.

(** merge_hi 1028-1073: galloping; [basea] is the start of A in the array, the
    start of B in the buffer is 0. *)
Fixpoint hi_gallop (fuel : nat) (basea mg : Z) (v : lv) : M (jump * Z * lv) :=
  match fuel with
  | O => bad NoFuel
  | S f =>
      let mg := if 1 <? mg then mg - 1 else mg in
      set_gallops mg;;;
      y <- get_tmp (pb v);;
      r <- gallop_right get_arr y basea (na v) (na v - 1);;
      match r with
      | None => ret (JFail, mg, v)
      | Some k =>
          let ac := na v - k in
          let v' := mklv (na v - ac) (nb v) (dst v - ac) (pa v - ac) (pb v) in
          (if ac =? 0 then ret tt else move_in_arr (dst v' + 1) (pa v' + 1) ac);;;
          let v := v' in
          if negb (ac =? 0) && (na v =? 0) then ret (JSucceed, mg, v)
          else
            copy_arr_tmp (dst v) (pb v);;;
            let v := mklv (na v) (nb v - 1) (dst v - 1) (pa v) (pb v - 1) in
            if nb v =? 1 then ret (JCopy, mg, v)
            else
              x <- get_arr (pa v);;
              r <- gallop_left get_tmp x 0 (nb v) (nb v - 1);;
              match r with
              | None => ret (JFail, mg, v)
              | Some k =>
                  let bc := nb v - k in
                  let v' := mklv (na v) (nb v - bc) (dst v - bc) (pa v) (pb v - bc) in
                  (if bc =? 0 then ret tt else copy_from_tmp (dst v' + 1) (pb v' + 1) bc);;;
                  let v := v' in
                  if negb (bc =? 0) && (nb v =? 1) then ret (JCopy, mg, v)
                  else if negb (bc =? 0) && (nb v =? 0) then ret (JSucceed, mg, v)
                  else
                    copy_arr_arr (dst v) (pa v);;;
                    let v := mklv (na v - 1) (nb v) (dst v - 1) (pa v - 1) (pb v) in
                    if na v =? 0 then ret (JSucceed, mg, v)
                    else if (MIN_GALLOP <=? ac) || (MIN_GALLOP <=? bc) then hi_gallop f basea mg v
                    else ret (JGallop, mg, v)
              end
      end
  end.

(** merge_hi 985-1076: the outer loop. *)
Fixpoint hi_outer (fuel : nat) (basea mg : Z) (v : lv) : M (jump * lv) :=
  match fuel with
  | O => bad NoFuel
  | S f =>
      r <- hi_single (Z.to_nat (na v + nb v)) mg 0 0 v;;
      match r with
      | (JGallop, v) =>
          r <- hi_gallop (Z.to_nat (na v + nb v)) basea (mg + 1) v;;
          match r with
          | (JGallop, mg, v) => set_gallops (mg + 1);;; hi_outer f basea (mg + 1) v
          | (j, _, v) => ret (j, v)
          end
      | (j, v) => ret (j, v)
      end
  end.

(** merge_hi 961-1093. *)
Definition merge_hi (a nA b nB : Z) : M (option unit) :=
  m <- merge_getmem nB;;
  match m with
  | None => ret None
  | Some _ =>
      copy_to_tmp b nB;;;
      copy_arr_arr (b + nB - 1) (a + nA - 1);;;
      let v := mklv (nA - 1) nB (b + nB - 2) (a + nA - 2) (nB - 1) in
      r <- (if na v =? 0 then ret (JSucceed, v)
            else if nb v =? 1 then ret (JCopy, v)
            else mg <- get_gallops;; hi_outer (Z.to_nat (na v + nb v)) a mg v);;
      let '(j, v) := r in
      match j with
      | JCopy =>
          move_in_arr (dst v + (1 - na v)) (pa v + (1 - na v)) (na v);;;
          copy_arr_tmp (dst v - na v) (pb v);;;
          ret (Some tt)
      | _ =>
          (if nb v =? 0 then ret tt else copy_from_tmp (dst v - (nb v - 1)) 0 (nb v));;;
          ret (match j with JFail => None | _ => Some tt end)
      end
  end.

(** Access to the stack of pending runs. *)
Definition get_run (i : Z) : M run :=
  fun s => match znth (pend s) i with Some r => Done r s | None => Bad (Ub OutOfBounds) end.
Definition set_run (i : Z) (r : run) : M unit :=
  fun s => match zset (pend s) i r with
           | Some p => Done tt (with_pend p s)
           | None => Bad (Ub OutOfBounds)
           end.
Definition npend : M Z := fun s => Done (zlen (pend s)) s.
Definition drop_run : M unit := fun s => Done tt (with_pend (removelast (pend s)) s).

(** merge_at 1098-1150. *)
Definition merge_at (i : Z) : M (option unit) :=
  ra <- get_run i;;
  rb <- get_run (i + 1);;
  n <- npend;;
  let nA := rlen ra in
  let nB := rlen rb in
  set_run i (mkrun (rbase ra) (nA + nB) (rpower ra));;;
  (if i =? n - 3 then r <- get_run (i + 2);; set_run (i + 1) r else ret tt);;;
  drop_run;;;
  y <- get_arr (rbase rb);;
  r <- gallop_right get_arr y (rbase ra) nA 0;;
  match r with
  | None => ret None
  | Some k =>
      let a := rbase ra + k in
      let nA := nA - k in
      if nA =? 0 then ret (Some tt)
      else
        x <- get_arr (a + nA - 1);;
        r <- gallop_left get_arr x (rbase rb) nB (nB - 1);;
        match r with
        | None => ret None
        | Some nB =>
            if nB =? 0 then ret (Some tt)
            else if nA <=? nB then merge_lo a nA (rbase rb) nB
            else merge_hi a nA (rbase rb) nB
        end
  end.

(** The loop 1172-1175 of found_new_run. *)
Fixpoint collapse_loop (fuel : nat) (power : Z) : M (option unit) :=
  n <- npend;;
  if 1 <? n then
    r <- get_run (n - 2);;
    if power <? rpower r then
      match fuel with
      | O => bad NoFuel
      | S f =>
          m <- merge_at (n - 2);;
          match m with
          | None => ret None
          | Some _ => collapse_loop f power
          end
      end
    else ret (Some tt)
  else ret (Some tt).

(** found_new_run 1163-1180; [listlen] is [ms->listlen], and a run's base is
    already its start index. *)
Definition found_new_run (listlen n2 : Z) : M (option unit) :=
  n <- npend;;
  if n =? 0 then ret (Some tt)
  else
    top <- get_run (n - 1);;
    p <- powerloop (rbase top) (rlen top) n2 listlen;;
    m <- collapse_loop (Z.to_nat n) p;;
    match m with
    | None => ret None
    | Some _ =>
        n <- npend;;
        top <- get_run (n - 1);;
        set_run (n - 1) (mkrun (rbase top) (rlen top) p);;;
        ret (Some tt)
    end.

(** merge_force_collapse 1187-1200. *)
Fixpoint force_collapse (fuel : nat) : M (option unit) :=
  n <- npend;;
  if 1 <? n then
    match fuel with
    | O => bad NoFuel
    | S f =>
        let i := n - 2 in
        i <- (if 0 <? i then
                p <- get_run (i - 1);;
                q <- get_run (i + 1);;
                ret (if rlen p <? rlen q then i - 1 else i)
              else ret i);;
        m <- merge_at i;;
        match m with
        | None => ret None
        | Some _ => force_collapse f
        end
    end
  else ret (Some tt).

(** Push 1575-1577: writing pending[n] needs a free entry. *)
Definition push_run (r : run) : M unit :=
  fun s => if zlen (pend s) <? MAX_MERGE_PENDING
           then Done tt (with_pend (pend s ++ [r]) s) else Bad (Ub OutOfBounds).

(** The main loop 1550-1581 of CPython_sort. *)
Fixpoint march (fuel : nat) (listlen minrun lo nrem : Z) : M (option unit) :=
  match fuel with
  | O => bad NoFuel
  | S f =>
      r <- count_run lo nrem;;
      match r with
      | None => ret None
      | Some n =>
          b <- (if n <? minrun then
                  let force := if nrem <=? minrun then nrem else minrun in
                  x <- binarysort lo force n;;
                  ret (option_map (fun _ => force) x)
                else ret (Some n));;
          match b with
          | None => ret None
          | Some n =>
              m <- found_new_run listlen n;;
              match m with
              | None => ret None
              | Some _ =>
                  push_run (mkrun lo n 0);;;
                  if nrem - n =? 0 then ret (Some tt)
                  else march f listlen minrun (lo + n) (nrem - n)
              end
          end
      end
  end.

(** CPython_sort 1535-1604: from merge_init to the final reversal, for an
    array whose keys have been computed. *)
Definition sort_slots (n : Z) (reverse : bool) : M (option unit) :=
  if n <? 2 then ret (Some tt)
  else
    (if reverse then reverse_slice 0 n else ret tt);;;
    minrun <- merge_compute_minrun n;;
    r <- march (Z.to_nat n) n minrun 0 n;;
    r <- match r with
         | None => ret None
         | Some _ => c <- npend;; force_collapse (Z.to_nat c)
         end;;
    (if reverse then reverse_slice 0 n else ret tt);;;
    ret r.

(** merge_init 302-329. *)
Definition merge_init (l : list A) (has_keyfunc : bool) : st :=
  let n := zlen l in
  let alloced :=
    if has_keyfunc then
      let h := (n + 1) / 2 in
      if MERGESTATE_TEMP_SIZE / 2 <? h then MERGESTATE_TEMP_SIZE / 2 else h
    else MERGESTATE_TEMP_SIZE in
  mkst l [] alloced MIN_GALLOP [] 0.

End Sort.

Arguments Done {A X} x s.
Arguments Bad {A X} f.

(** Result of CPython_sort: the final array and whether NULL was returned. *)
Inductive sort_out (V : Type) :=
| SortOk (l : list V)
| SortErr (l : list V)
| SortBad (f : fault).
Arguments SortOk {V} l.
Arguments SortErr {V} l.
Arguments SortBad {V} f.

(** CPython_sort 1388-1632 without key function. *)
Definition CPython_sort_plain {V} (cmp : nat -> V -> V -> option bool) (grab : Z -> bool)
    (l : list V) (reverse : bool) : sort_out V :=
  match sort_slots cmp grab (zlen l) reverse (merge_init l false) with
  | Done (Some _) s => SortOk (arr s)
  | Done None s => SortErr (arr s)
  | Bad f => SortBad f
  end.

(** The key loop 1433-1443: [keyf i v] is the answer of the [i]-th call. *)
Fixpoint compute_keys {V K} (keyf : nat -> V -> option K) (i : nat) (l : list V) : option (list K) :=
  match l with
  | [] => Some []
  | v :: r =>
      match keyf i v with
      | None => None
      | Some k => option_map (cons k) (compute_keys keyf (S i) r)
      end
  end.

(** CPython_sort with a key function; [grab] also decides the key array
    allocation 1425-1430, made when there are at least 128 elements. *)
Definition CPython_sort_key {V K} (keyf : nat -> V -> option K) (cmp : nat -> K -> K -> option bool)
    (grab : Z -> bool) (l : list V) (reverse : bool) : sort_out V :=
  if (MERGESTATE_TEMP_SIZE / 2 <=? zlen l) && negb (grab (zlen l)) then SortErr l
  else
    match compute_keys keyf 0 l with
    | None => SortErr l
    | Some ks =>
        match sort_slots (fun t x y => cmp t (fst x) (fst y)) grab (zlen l) reverse
                (merge_init (combine ks l) true) with
        | Done (Some _) s => SortOk (map snd (arr s))
        | Done None s => SortErr (map snd (arr s))
        | Bad f => SortBad f
        end
    end.
