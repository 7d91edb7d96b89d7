(** Model of utils/include/TimSort.h (gfx::timsort), which simdsort falls back
    to for more than 5000 elements on a CPU without AVX2 and AVX-512
    (BitonicSort.cpp 486-491, 599-604).

    It runs on the machine of CPythonSortModel.v: one array, one merge buffer,
    a stack of runs.  Here the buffer and the stack are std::vectors that grow
    as needed, so [room] and the bound of the stack play no role; the third
    field of a run is unused.  The following are the same program text in both
    sorts and are shared: the gallop searches (TimSort.h 238-337; their final
    lower_bound / upper_bound of libstdc++ halves the range exactly like
    [bin_search]), the pair-at-a-time merging loops [lo_single] (384-407) and
    [hi_single] (510-534, where the pointer [cursor1] of the source is one past
    the model's index outside that loop), binarySort (96-108: upper_bound, then
    rotateRight 345-350 by moving one slot at a time) and minRunLength 138-147.

    Simplified: the [int] counter minGallop is unbounded. *)
From Coq Require Import ZArith List Bool.
From Verif Require Import Base CPythonSortModel.
Import ListNotations.
Local Open Scope Z_scope.

Section TimSort.
Context {A : Type}.

(** [std::invoke(comp, x, y)]; the option type is that of the shared machine,
    [timsort] below uses a comparison that always answers. *)
Variable cmp : nat -> A -> A -> option bool.
Notation M := (@M A).
Notation "x <- m ;; k" := (bind m (fun x => k)) (at level 61, m at next level, right associativity).
Notation "m ;;; k" := (bind m (fun _ => k)) (at level 61, right associativity).

(** The loop 121-125 of countRunAndMakeAscending: a strictly descending run. *)
Fixpoint ts_descend (fuel : nat) (lo nrem n : Z) : M (option Z) :=
  if n <? nrem then
    match fuel with
    | O => bad NoFuel
    | S f =>
        x <- get_arr (lo + n);;
        y <- get_arr (lo + n - 1);;
        k <- islt cmp x y;;
        match k with
        | None => ret None
        | Some true => ts_descend f lo nrem (n + 1)
        | Some false => ret (Some n)
        end
    end
  else ret (Some n).

(** countRunAndMakeAscending 111-136 on the [nrem] slots from [lo]. *)
Definition ts_count_run (lo nrem : Z) : M (option Z) :=
  if nrem =? 1 then ret (Some 1)
  else
    x <- get_arr (lo + 1);;
    y <- get_arr lo;;
    k <- islt cmp x y;;
    match k with
    | None => ret None
    | Some true =>
        r <- ts_descend (Z.to_nat nrem) lo nrem 2;;
        match r with
        | None => ret None
        | Some n => reverse_slice lo n;;; ret (Some n)
        end
    | Some false => ascend cmp (Z.to_nat nrem) lo nrem 2
    end.

(** rotateLeft 339-343 on the [n] slots from [i]: the first goes to the end. *)
Definition rotate_left (i n : Z) : M unit :=
  x <- get_arr i;;
  move_in_arr i (i + 1) (n - 1);;;
  set_arr (i + n - 1) x.

(** rotateRight 345-350: the last goes to the front. *)
Definition rotate_right (i n : Z) : M unit :=
  x <- get_arr (i + n - 1);;
  move_in_arr (i + 1) i (n - 1);;;
  set_arr i x.

(** move_to_tmp 605-608. *)
Definition move_to_tmp (j n : Z) : M unit :=
  fun s => match sub (arr s) j n with
           | Some b => Done tt (with_tmp b s)
           | None => Bad (Ub OutOfBounds)
           end.

(** mergeLo 409-449: galloping; the new [minGallop] is returned as well. *)
Fixpoint ts_lo_gallop (fuel : nat) (mg : Z) (v : lv) : M (jump * Z * lv) :=
  match fuel with
  | O => bad NoFuel
  | S f =>
      y <- get_arr (pb v);;
      r <- gallop_right cmp get_tmp y (pa v) (na v) 0;;
      match r with
      | None => ret (JFail, mg, v)
      | Some ac =>
          (if ac =? 0 then ret tt else copy_from_tmp (dst v) (pa v) ac);;;
          let v := mklv (na v - ac) (nb v) (dst v + ac) (pa v + ac) (pb v) in
          if negb (ac =? 0) && (na v <=? 1) then ret (if na v =? 1 then JCopy else JSucceed, mg, v)
          else
            copy_arr_arr (dst v) (pb v);;;
            let v := mklv (na v) (nb v - 1) (dst v + 1) (pa v) (pb v + 1) in
            if nb v =? 0 then ret (JSucceed, mg, v)
            else
              x <- get_tmp (pa v);;
              r <- gallop_left cmp get_arr x (pb v) (nb v) 0;;
              match r with
              | None => ret (JFail, mg, v)
              | Some bc =>
                  (if bc =? 0 then ret tt else move_in_arr (dst v) (pb v) bc);;;
                  let v := mklv (na v) (nb v - bc) (dst v + bc) (pa v) (pb v + bc) in
                  if negb (bc =? 0) && (nb v =? 0) then ret (JSucceed, mg, v)
                  else
                    copy_arr_tmp (dst v) (pa v);;;
                    let v := mklv (na v - 1) (nb v) (dst v + 1) (pa v + 1) (pb v) in
                    if na v =? 1 then ret (JCopy, mg, v)
                    else
                      let mg := mg - 1 in
                      if (MIN_GALLOP <=? ac) || (MIN_GALLOP <=? bc) then ts_lo_gallop f mg v
                      else ret (JGallop, mg, v)
              end
      end
  end.

(** mergeLo 380-455: the outer loop; also returns [minGallop] at the epilogue. *)
Fixpoint ts_lo_outer (fuel : nat) (mg : Z) (v : lv) : M (jump * Z * lv) :=
  match fuel with
  | O => bad NoFuel
  | S f =>
      r <- lo_single cmp (Z.to_nat (na v + nb v)) mg 0 0 v;;
      match r with
      | (JGallop, v) =>
          r <- ts_lo_gallop (Z.to_nat (na v + nb v)) mg v;;
          match r with
          | (JGallop, mg, v) => ts_lo_outer f ((if mg <? 0 then 0 else mg) + 2) v
          | r => ret r
          end
      | (j, v) => ret (j, mg, v)
      end
  end.

(** mergeLo 353-471. *)
Definition ts_merge_lo (a nA b nB : Z) : M (option unit) :=
  if nA =? 1 then rotate_left a (b - a + nB);;; ret (Some tt)
  else if nB =? 1 then rotate_right a (b - a + nB);;; ret (Some tt)
  else
    move_to_tmp a nA;;;
    copy_arr_arr a b;;;
    let v := mklv nA (nB - 1) (a + 1) 0 (b + 1) in
    mg <- get_gallops;;
    r <- ts_lo_outer (Z.to_nat (na v + nb v)) mg v;;
    let '(j, mg, v) := r in
    set_gallops (Z.min mg 1);;;
    match j with
    | JCopy =>
        move_in_arr (dst v) (pb v) (nb v);;;
        copy_arr_tmp (dst v + nb v) (pa v);;;
        ret (Some tt)
    | _ =>
        copy_from_tmp (dst v) (pa v) (na v);;;
        ret (match j with JFail => None | _ => Some tt end)
    end.

(** mergeHi 537-580: galloping; [basea] is [base1]. *)
Fixpoint ts_hi_gallop (fuel : nat) (basea mg : Z) (v : lv) : M (jump * Z * lv) :=
  match fuel with
  | O => bad NoFuel
  | S f =>
      y <- get_tmp (pb v);;
      r <- gallop_right cmp get_arr y basea (na v) (na v - 1);;
      match r with
      | None => ret (JFail, mg, v)
      | Some k =>
          let ac := na v - k in
          let v' := mklv (na v - ac) (nb v) (dst v - ac) (pa v - ac) (pb v) in
          (if ac =? 0 then ret tt else move_in_arr (dst v' + 1) (pa v' + 1) ac);;;
          let v := v' in
          if negb (ac =? 0) && (na v =? 0) then ret (JSucceed, mg, v)
          else
            copy_arr_tmp (dst v) (pb v);;;
            let v := mklv (na v) (nb v - 1) (dst v - 1) (pa v) (pb v - 1) in
            if nb v =? 1 then ret (JCopy, mg, v)
            else
              x <- get_arr (pa v);;
              r <- gallop_left cmp get_tmp x 0 (nb v) (nb v - 1);;
              match r with
              | None => ret (JFail, mg, v)
              | Some k =>
                  let bc := nb v - k in
                  let v' := mklv (na v) (nb v - bc) (dst v - bc) (pa v) (pb v - bc) in
                  (if bc =? 0 then ret tt else copy_from_tmp (dst v' + 1) (pb v' + 1) bc);;;
                  let v := v' in
                  if negb (bc =? 0) && (nb v <=? 1) then ret (if nb v =? 1 then JCopy else JSucceed, mg, v)
                  else
                    copy_arr_arr (dst v) (pa v);;;
                    let v := mklv (na v - 1) (nb v) (dst v - 1) (pa v - 1) (pb v) in
                    if na v =? 0 then ret (JSucceed, mg, v)
                    else
                      let mg := mg - 1 in
                      if (MIN_GALLOP <=? ac) || (MIN_GALLOP <=? bc) then ts_hi_gallop f basea mg v
                      else ret (JGallop, mg, v)
              end
      end
  end.

(** mergeHi 500-586: the outer loop. *)
Fixpoint ts_hi_outer (fuel : nat) (basea mg : Z) (v : lv) : M (jump * Z * lv) :=
  match fuel with
  | O => bad NoFuel
  | S f =>
      r <- hi_single cmp (Z.to_nat (na v + nb v)) mg 0 0 v;;
      match r with
      | (JGallop, v) =>
          r <- ts_hi_gallop (Z.to_nat (na v + nb v)) basea mg v;;
          match r with
          | (JGallop, mg, v) => ts_hi_outer f basea ((if mg <? 0 then 0 else mg) + 2) v
          | r => ret r
          end
      | (j, v) => ret (j, mg, v)
      end
  end.

(** mergeHi 474-603. *)
Definition ts_merge_hi (a nA b nB : Z) : M (option unit) :=
  if nA =? 1 then rotate_left a (b - a + nB);;; ret (Some tt)
  else if nB =? 1 then rotate_right a (b - a + nB);;; ret (Some tt)
  else
    move_to_tmp b nB;;;
    copy_arr_arr (b + nB - 1) (a + nA - 1);;;
    let v := mklv (nA - 1) nB (b + nB - 2) (a + nA - 2) (nB - 1) in
    mg <- get_gallops;;
    r <- ts_hi_outer (Z.to_nat (na v + nb v)) a mg v;;
    let '(j, mg, v) := r in
    set_gallops (Z.min mg 1);;;
    match j with
    | JCopy =>
        move_in_arr (dst v - na v + 1) (pa v + 1 - na v) (na v);;;
        copy_arr_tmp (dst v - na v) (pb v);;;
        ret (Some tt)
    | _ =>
        copy_from_tmp (dst v - (nb v - 1)) 0 (nb v);;;
        ret (match j with JFail => None | _ => Some tt end)
    end.

(** mergeAt 185-205 and mergeConsecutiveRuns 208-235. *)
Definition ts_merge_at (i : Z) : M (option unit) :=
  n <- npend;;
  ra <- get_run i;;
  rb <- get_run (i + 1);;
  let len1 := rlen ra in
  let len2 := rlen rb in
  set_run i (mkrun (rbase ra) (len1 + len2) (rpower ra));;;
  (if i =? n - 3 then r <- get_run (i + 2);; set_run (i + 1) r else ret tt);;;
  drop_run;;;
  y <- get_arr (rbase rb);;
  r <- gallop_right cmp get_arr y (rbase ra) len1 0;;
  match r with
  | None => ret None
  | Some k =>
      let base1 := rbase ra + k in
      let len1 := len1 - k in
      if len1 =? 0 then ret (Some tt)
      else
        x <- get_arr (base1 + len1 - 1);;
        r <- gallop_left cmp get_arr x (rbase rb) len2 (len2 - 1);;
        match r with
        | None => ret None
        | Some len2 =>
            if len2 =? 0 then ret (Some tt)
            else if len1 <=? len2 then ts_merge_lo base1 len1 (rbase rb) len2
            else ts_merge_hi base1 len1 (rbase rb) len2
        end
  end.

(** [pending_[i].len]. *)
Definition run_len (i : Z) : M Z := r <- get_run i;; ret (rlen r).

(** mergeCollapse 154-170. *)
Fixpoint ts_collapse (fuel : nat) : M (option unit) :=
  c <- npend;;
  if 1 <? c then
    match fuel with
    | O => bad NoFuel
    | S f =>
        let n := c - 2 in
        c1 <- (if 0 <? n then
                 a <- run_len (n - 1);; b <- run_len n;; c <- run_len (n + 1);; ret (a <=? b + c)
               else ret false);;
        c2 <- (if c1 : bool then ret true
               else if 1 <? n then
                 a <- run_len (n - 2);; b <- run_len (n - 1);; c <- run_len n;; ret (a <=? b + c)
               else ret false);;
        if c2 : bool then
          a <- run_len (n - 1);;
          c <- run_len (n + 1);;
          m <- ts_merge_at (if a <? c then n - 1 else n);;
          match m with None => ret None | Some _ => ts_collapse f end
        else
          a <- run_len n;;
          b <- run_len (n + 1);;
          if a <=? b then
            m <- ts_merge_at n;;
            match m with None => ret None | Some _ => ts_collapse f end
          else ret (Some tt)
    end
  else ret (Some tt).

(** mergeForceCollapse 173-182. *)
Fixpoint ts_force_collapse (fuel : nat) : M (option unit) :=
  c <- npend;;
  if 1 <? c then
    match fuel with
    | O => bad NoFuel
    | S f =>
        let n := c - 2 in
        i <- (if 0 <? n then
                a <- run_len (n - 1);; b <- run_len (n + 1);; ret (if a <? b then n - 1 else n)
              else ret n);;
        m <- ts_merge_at i;;
        match m with None => ret None | Some _ => ts_force_collapse f end
    end
  else ret (Some tt).

(** pushRun 149-151. *)
Definition ts_push (r : run) : M unit := fun s => Done tt (with_pend (pend s ++ [r]) s).

(** The loop 648-662 of sort. *)
Fixpoint ts_march (fuel : nat) (minrun cur nrem : Z) : M (option unit) :=
  match fuel with
  | O => bad NoFuel
  | S f =>
      r <- ts_count_run cur nrem;;
      match r with
      | None => ret None
      | Some n =>
          b <- (if n <? minrun then
                  let force := Z.min nrem minrun in
                  x <- binarysort cmp cur force n;;
                  ret (option_map (fun _ => force) x)
                else ret (Some n));;
          match b with
          | None => ret None
          | Some n =>
              ts_push (mkrun cur n 0);;;
              c <- npend;;
              m <- ts_collapse (Z.to_nat c);;
              match m with
              | None => ret None
              | Some _ =>
                  if nrem - n =? 0 then ret (Some tt)
                  else ts_march f minrun (cur + n) (nrem - n)
              end
          end
      end
  end.

(** MIN_MERGE 88. *)
Definition MIN_MERGE : Z := 32.

(** sort 630-670 on the whole array. *)
Definition ts_sort (n : Z) : M (option unit) :=
  if n <? 2 then ret (Some tt)
  else if n <? MIN_MERGE then
    r <- ts_count_run 0 n;;
    match r with
    | None => ret None
    | Some k => binarysort cmp 0 n k
    end
  else
    minrun <- merge_compute_minrun n;;
    r <- ts_march (Z.to_nat n) minrun 0 n;;
    match r with
    | None => ret None
    | Some _ => c <- npend;; ts_force_collapse (Z.to_nat c)
    end.
End TimSort.

(** gfx::timsort 727-737 with a comparison that always answers: the sorted
    vector, or a fault. *)
Definition timsort {V} (lt : V -> V -> bool) (l : list V) : list V + fault :=
  match ts_sort (fun _ x y => Some (lt x y)) (zlen l) (mkst l [] 0 MIN_GALLOP [] 0) with
  | Done _ s => inl (arr s)
  | Bad f => inr f
  end.
