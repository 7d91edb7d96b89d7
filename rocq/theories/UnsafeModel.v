(** The raw memory methods of Unsafe (unsafe/Unsafe.cpp) over the C heap.

    The heap is the list of live blocks; a block has an address and its bytes.
    What the C library's allocator answers is an input of each call: an address
    and the initial bytes, or nothing. An answer that no allocator can give
    (null, overlapping a live block, of the wrong size, misaligned) counts as
    nothing. Simplifications: memory that is not on this heap (Python objects,
    the stack) is outside the model, so touching it is undefined; accesses of 0
    bytes are harmless at any address; [realloc] to 0 bytes frees and returns
    NULL, as in glibc and the Windows runtime. *)
From Coq Require Import ZArith List Bool.
From Verif Require Import Base MemModel.
Import ListNotations.
Local Open Scope Z_scope.

(** [b_al]: made by aligned_malloc; [b_data]: one number 0..255 per byte. *)
Record block := { b_al : bool; b_base : Z; b_data : bytes }.
Definition heap := list block.

(** PyArg_ParseTuple "K": any int, modulo 2^64. *)
Definition as_K (o : pyobj) : outcome Z :=
  match o with PInt z => Ret (z mod 2 ^ 64) | PObj _ => Raise TypeError end.

(** PyLong_AsSize_t. *)
Definition as_size (o : pyobj) : outcome Z :=
  match o with
  | PInt z => if (0 <=? z) && (z <? 2 ^ 64) then Ret z else Raise OverflowError
  | PObj _ => Raise TypeError
  end.

(** PyLong_AsVoidPtr: negative ints are taken as signed addresses. *)
Definition as_ptr (o : pyobj) : outcome Z :=
  match o with
  | PInt z => if (- 2 ^ 63 <=? z) && (z <? 2 ^ 64) then Ret (z mod 2 ^ 64) else Raise OverflowError
  | PObj _ => Raise TypeError
  end.

(** Conversions one after the other, the error indicator being looked at only
    afterwards: the last error is the one that is raised. *)
Definition both {A B} (a : outcome A) (b : outcome B) : outcome (A * B) :=
  match a, b with
  | Ret x, Ret y => Ret (x, y)
  | _, Raise e => Raise e
  | Raise e, _ => Raise e
  | _, _ => Raise SystemError
  end.

(** Bytes reserved for a block: at least one, so that addresses differ. *)
Definition extent (n : Z) : Z := Z.max 1 n.
Definition b_size (b : block) : Z := zlen (b_data b).

Definition apart (a n : Z) (b : block) : bool := (a + extent n <=? b_base b) || (b_base b + extent (b_size b) <=? a).

(** What the allocator offers: address and initial contents. *)
Definition offer := option (Z * bytes).
Definition grant (h : heap) (size : Z) (o : offer) : offer :=
  match o with
  | Some (a, init) =>
      if (0 <? a) && (a + extent size <=? 2 ^ 64) && (zlen init =? size) && forallb (apart a size) h
      then o else None
  | None => None
  end.

Definition inside (a n : Z) (b : block) : bool := (b_base b <=? a) && (a + n <=? b_base b + b_size b).
Definition at_base (a : Z) (b : block) : bool := b_base b =? a.

(** Reading and writing [n] bytes at [a]. *)
Definition hload (h : heap) (a n : Z) : outcome bytes :=
  if n =? 0 then Ret []
  else if a =? 0 then Undef NullDeref
  else match find (inside a n) h with
       | Some b => Ret (firstn (Z.to_nat n) (skipn (Z.to_nat (a - b_base b)) (b_data b)))
       | None => Undef OutOfBounds
       end.

Definition patch (d : bytes) (i : nat) (v : bytes) : bytes := firstn i d ++ v ++ skipn (i + length v) d.

Definition hstore (h : heap) (a : Z) (v : bytes) : outcome heap :=
  if zlen v =? 0 then Ret h
  else if a =? 0 then Undef NullDeref
  else match find (inside a (zlen v)) h with
       | Some _ => Ret (map (fun b => if inside a (zlen v) b
                                      then {| b_al := b_al b; b_base := b_base b;
                                              b_data := patch (b_data b) (Z.to_nat (a - b_base b)) v |}
                                      else b) h)
       | None => Undef OutOfBounds
       end.

Definition drop (a : Z) (h : heap) : heap := filter (fun b => negb (at_base a b)) h.

(** What a method returns. *)
Inductive uval := UNone | UAddr (a : Z) | UBytes (b : bytes).

Definition done (o : outcome heap) (h : heap) : outcome uval * heap :=
  match o with
  | Ret h' => (Ret UNone, h')
  | Raise e => (Raise e, h)
  | RetPending h' e => (RetPending UNone e, h')
  | Undef u => (Undef u, h)
  end.

(** A new block, or MemoryError. *)
Definition give (al : bool) (o : offer) (h : heap) : outcome uval * heap :=
  match o with
  | Some (a, init) => (Ret (UAddr a), {| b_al := al; b_base := a; b_data := init |} :: h)
  | None => (Raise MemoryError, h)
  end.

(** Unsafe_malloc, 36-48. *)
Definition u_malloc (size : pyobj) (o : offer) (h : heap) : outcome uval * heap :=
  match as_size size with
  | Ret n => give false (grant h n o) h
  | Raise e => (Raise e, h)
  | _ => (Raise SystemError, h)
  end.

(** Unsafe_calloc, 50-62; the block is zeroed, a product beyond size_t fails. *)
Definition u_calloc (num size : pyobj) (o : offer) (h : heap) : outcome uval * heap :=
  match obind (as_K num) (fun x => omap (pair x) (as_K size)) with
  | Ret (x, y) =>
      if 2 ^ 64 <=? x * y then (Raise MemoryError, h)
      else give false (option_map (fun p => (fst p, repeat 0 (length (snd p)))) (grant h (x * y) o)) h
  | Raise e => (Raise e, h)
  | _ => (Raise SystemError, h)
  end.

(** Which deallocator takes which block: on Windows aligned blocks only
    _aligned_free (memory/AlignedAllocator.h 12-37), elsewhere both are free. *)
Definition takes (win aligned_fn : bool) (b : block) : bool := negb win || Bool.eqb aligned_fn (b_al b).

(** Unsafe_realloc, 64-77. *)
Definition u_realloc (win : bool) (addr newsize : pyobj) (o : offer) (h : heap) : outcome uval * heap :=
  match obind (as_K addr) (fun x => omap (pair x) (as_K newsize)) with
  | Ret (a, n) =>
      if a =? 0 then give false (grant h n o) h
      else match find (at_base a) h with
           | None => (Undef BadFree, h)
           | Some b =>
               if negb (takes win false b) then (Undef BadFree, h)
               else if n =? 0 then (Raise MemoryError, drop a h)
               else match grant (drop a h) n o with
                    | Some (a', init) =>
                        (Ret (UAddr a'),
                         {| b_al := b_al b; b_base := a';
                            b_data := firstn (Z.to_nat n) (b_data b) ++ skipn (length (b_data b)) init |} :: drop a h)
                    | None => (Raise MemoryError, h)
                    end
           end
  | Raise e => (Raise e, h)
  | _ => (Raise SystemError, h)
  end.

(** Unsafe_free, 79-87, and Unsafe_alignedFree, 107-115. *)
Definition u_free (win aligned_fn : bool) (addr : pyobj) (h : heap) : outcome uval * heap :=
  match as_size addr with
  | Ret a =>
      if a =? 0 then (Ret UNone, h)
      else match find (at_base a) h with
           | Some b => if takes win aligned_fn b then (Ret UNone, drop a h) else (Undef BadFree, h)
           | None => (Undef BadFree, h)
           end
  | Raise e => (Raise e, h)
  | _ => (Raise SystemError, h)
  end.

Definition pow2 (z : Z) : bool := (0 <? z) && (Z.land z (z - 1) =? 0).

(** Unsafe_alignedMalloc, 89-105, with alignedAlloc. What happens for an
    alignment that is not a power of two is left to the allocator. *)
Definition u_aligned_malloc (size align : pyobj) (o : offer) (h : heap) : outcome uval * heap :=
  match obind (as_K size) (fun x => omap (pair x) (as_K align)) with
  | Ret (n, al) =>
      give true (match grant h n o with
                 | Some (a, init) => if pow2 al && negb (a mod al =? 0) then None else Some (a, init)
                 | None => None
                 end) h
  | Raise e => (Raise e, h)
  | _ => (Raise SystemError, h)
  end.

(** The largest bytes object: PY_SSIZE_T_MAX - PyBytesObject_SIZE. *)
Definition BYTES_MAX : Z := SSIZE_MAX - 33.

(** Unsafe_get, 117-126, with PyBytes_FromStringAndSize: one byte comes from a
    cache, a null pointer leaves the new object uninitialised. [fresh]: the
    memory the new object gets, if any. *)
Definition u_get (addr size : pyobj) (fresh : option bytes) (h : heap) : outcome uval * heap :=
  match obind (as_K addr) (fun x => omap (pair x) (as_K size)) with
  | Ret (a, k) =>
      let n := wrap 64 k in
      if n <? 0 then (Raise SystemError, h)
      else if n =? 0 then (Ret (UBytes []), h)
      else if (n =? 1) && negb (a =? 0) then (omap UBytes (hload h a 1), h)
      else if BYTES_MAX <? n then (Raise OverflowError, h)
      else match fresh with
           | None => (Raise MemoryError, h)
           | Some m => if a =? 0 then (Ret (UBytes m), h) else (omap UBytes (hload h a n), h)
           end
  | Raise e => (Raise e, h)
  | _ => (Raise SystemError, h)
  end.

(** Unsafe_set, 128-158; [None] is an argument that is not a bytes object. *)
Definition u_set (addr : pyobj) (data : option bytes) (h : heap) : outcome uval * heap :=
  match as_K addr with
  | Ret a => match data with None => (Raise TypeError, h) | Some v => done (hstore h a v) h end
  | Raise e => (Raise e, h)
  | _ => (Raise SystemError, h)
  end.

Definition meet (a b n : Z) : bool := (0 <? n) && (a <? b + n) && (b <? a + n).

(** Unsafe_memcpy, 253-274. *)
Definition u_memcpy (from to size : pyobj) (h : heap) : outcome uval * heap :=
  match both (both (as_ptr from) (as_ptr to)) (as_size size) with
  | Ret (s, d, n) =>
      done (obind (hload h s n) (fun v => if meet s d n then Undef Overlap else hstore h d v)) h
  | Raise e => (Raise e, h)
  | _ => (Raise SystemError, h)
  end.

(** Unsafe_memset, 276-296: the value goes through long and int to unsigned char. *)
Definition u_memset (addr val size : pyobj) (h : heap) : outcome uval * heap :=
  match both (both (as_ptr addr) (as_long val)) (as_size size) with
  | Ret (a, v, n) =>
      if n =? 0 then (Ret UNone, h)
      else match find (inside a n) h with
           | Some _ => done (hstore h a (repeat (wrap 32 v mod 256) (Z.to_nat n))) h
           | None => (Undef (if a =? 0 then NullDeref else OutOfBounds), h)
           end
  | Raise e => (Raise e, h)
  | _ => (Raise SystemError, h)
  end.

(** Unsafe_call, 210-243: [ret] is what the called function returns (it does
    not touch the heap); more than 8 bytes are copied from the address it
    returned. fast_memcpy is an exact copy (C26). *)
Definition u_call (ret : Z) (result size : pyobj) (h : heap) : outcome uval * heap :=
  match both (as_ptr result) (as_size size) with
  | Ret (a, n) =>
      if n =? 0 then (Ret UNone, h)
      else if 8 <? n
           then done (obind (hload h (ret mod 2 ^ 64) n)
                            (fun v => if meet (ret mod 2 ^ 64) a n then Undef Overlap else hstore h a v)) h
           else done (hstore h a (le_bytes (Z.to_nat n) ret)) h
  | Raise e => (Raise e, h)
  | _ => (Raise SystemError, h)
  end.

(** Histories. *)
Inductive uop :=
| UMalloc (size : pyobj) (o : offer)
| UCalloc (num size : pyobj) (o : offer)
| URealloc (addr newsize : pyobj) (o : offer)
| UFree (addr : pyobj)
| UAlignedMalloc (size align : pyobj) (o : offer)
| UAlignedFree (addr : pyobj)
| UGet (addr size : pyobj) (fresh : option bytes)
| USet (addr : pyobj) (data : option bytes)
| UMemcpy (from to size : pyobj)
| UMemset (addr val size : pyobj)
| UCall (ret : Z) (result size : pyobj).

Definition ustep (win : bool) (op : uop) (h : heap) : outcome uval * heap :=
  match op with
  | UMalloc n o => u_malloc n o h
  | UCalloc x y o => u_calloc x y o h
  | URealloc a n o => u_realloc win a n o h
  | UFree a => u_free win false a h
  | UAlignedMalloc n al o => u_aligned_malloc n al o h
  | UAlignedFree a => u_free win true a h
  | UGet a n f => u_get a n f h
  | USet a v => u_set a v h
  | UMemcpy s d n => u_memcpy s d n h
  | UMemset a v n => u_memset a v n h
  | UCall r a n => u_call r a n h
  end.

(** Results and final heap, or the first undefined behaviour. *)
Fixpoint urun (win : bool) (ops : list uop) (h : heap) : outcome (list (outcome uval) * heap) :=
  match ops with
  | [] => Ret ([], h)
  | op :: r =>
      match ustep win op h with
      | (Undef u, _) => Undef u
      | (v, h') => omap (fun p => (v :: fst p, snd p)) (urun win r h')
      end
  end.
