(** Buffer views of the integer array lists and the life time of the memory
    they show: ints/IntArrayList.h 13-19, ints/IntArrayList.cpp (line numbers
    below) and the same text in ints/BigIntArrayList.cpp.

    Several lists, each owning the buffer of its vector, and several views. A
    view is what memoryview(x), or any C consumer of the buffer protocol,
    holds: the pointer and the length taken at the export. IntArrayList_get_buffer
    does not set view->obj, so CPython (which clears the field before the call)
    takes no reference to the list, and there is no release function and no
    count of exports (1222-1225), so nothing holds the list back from moving
    its buffer. *)
From Coq Require Import ZArith List Bool.
From Verif Require Import Base PyLongModel MemModel PyListSpec ArrayListModel ViewSpec.
Import ListNotations.
Local Open Scope Z_scope.

(** A memory cell for one element; [None] is memory nothing was written to. *)
Notation cell := (option Z).

(** The object: the vector's pointer and size (its capacity is the length of
    the buffer) and the field [shape]. *)
Record vec := { v_ptr : option nat; v_size : Z; v_shp : Z }.

(** A Py_buffer: [buf], the number of items [len / itemsize], and the object
    into which the pointer [shape] points. *)
Record pybuf := { w_ptr : option nat; w_items : Z; w_shape_in : nat }.

(** Live buffers, objects and views by number; numbers are never reused. *)
Record store := {
  heap : nat -> option (list cell); h_next : nat;
  objs : nat -> option vec; o_next : nat;
  views : nat -> option pybuf; w_next : nat }.

Definition empty_store : store :=
  {| heap := fun _ => None; h_next := 0; objs := fun _ => None; o_next := 0; views := fun _ => None; w_next := 0 |}.

Definition put {A} (f : nat -> option A) (i : nat) (x : option A) : nat -> option A :=
  fun j => if Nat.eqb j i then x else f j.

Definition with_heap (w : store) (h : nat -> option (list cell)) (n : nat) : store :=
  {| heap := h; h_next := n; objs := objs w; o_next := o_next w; views := views w; w_next := w_next w |}.
Definition with_obj (w : store) (i : nat) (x : option vec) : store :=
  {| heap := heap w; h_next := h_next w; objs := put (objs w) i x; o_next := o_next w; views := views w; w_next := w_next w |}.

Fixpoint known (c : list cell) : option (list Z) :=
  match c with
  | [] => Some []
  | None :: _ => None
  | Some v :: r => option_map (cons v) (known r)
  end.

(** The vector's contents: its first [v_size] cells. *)
Definition contents (w : store) (v : vec) : outcome (list Z) :=
  match v_ptr v with
  | None => if v_size v =? 0 then Ret [] else Undef NullDeref
  | Some b =>
      match heap w b with
      | None => Undef UseAfterFree
      | Some c => if v_size v <=? zlen c then or_ub Dangling (known (firstn (Z.to_nat (v_size v)) c))
                  else Undef OutOfBounds
      end
  end.

Definition capacity (w : store) (v : vec) : Z :=
  match v_ptr v with None => 0 | Some b => match heap w b with None => 0 | Some c => zlen c end end.

(** How many elements a call makes room for before it is done, apart from the
    ones it leaves in the list: [reserve(size + hint)] in extend from a list
    (264-267; PyObject_LengthHint of a list is its length), [resize(n)] (175). *)
Definition reserved (o : op) (s : list Z) : Z :=
  match o with
  | OExtend FromList vs => zlen s + zlen vs
  | _ => 0
  end.

(** std::vector leaves [s'] as its contents and has made room for [need]
    elements. While that fits the capacity all happens in place, and the cells
    behind the contents keep their values (erase and clear of ints write
    nothing there). Otherwise it allocates [grow capacity need] cells, copies
    and frees the old buffer (AlignedAllocator.h 49-55). *)
Definition relocate (grow : Z -> Z -> Z) (w : store) (i : nat) (v : vec) (s' : list Z) (need : Z) : store :=
  let cap := capacity w v in
  if need <=? cap then
    let h := match v_ptr v with
             | None => heap w
             | Some b => put (heap w) b (option_map (fun c => map Some s' ++ skipn (length s') c) (heap w b))
             end in
    with_obj (with_heap w h (h_next w)) i (Some {| v_ptr := v_ptr v; v_size := zlen s'; v_shp := v_shp v |})
  else
    let h := match v_ptr v with None => heap w | Some b => put (heap w) b None end in
    let b' := h_next w in
    let c := map Some s' ++ repeat None (Z.to_nat (grow cap need) - length s') in
    with_obj (with_heap w (put h b' (Some c)) (S b')) i (Some {| v_ptr := Some b'; v_size := zlen s'; v_shp := v_shp v |}).

Definition no_object (w : store) : outcome val * store := (Raise TypeError, w).

(** memoryview item access, Objects/memoryobject.c: negative indices count
    from the end, the bound is the length taken at the export. *)
Definition item_cell (w : store) (p : pybuf) (j : Z) : outcome (nat * Z * cell) :=
  let j := if j <? 0 then j + w_items p else j in
  if (0 <=? j) && (j <? w_items p) then
    match w_ptr p with
    | None => Undef NullDeref
    | Some b => match heap w b with
                | None => Undef UseAfterFree
                | Some c => match znth c j with None => Undef OutOfBounds | Some x => Ret (b, j, x) end
                end
    end
  else Raise IndexError.

Definition vexec (cfg : config) (k : kind) (grow : Z -> Z -> Z) (sort : list Z -> list Z) (o : vop) (w : store)
  : outcome val * store :=
  match o with
  | VNew vs =>
      (* IntArrayList_init, 42-111, on a fresh object: push_back in a loop *)
      match init k (IArg (AList (map PInt vs))) with
      | Ret (VNewList s) =>
          let i := o_next w in
          let v := {| v_ptr := None; v_size := 0; v_shp := 0 |} in
          let fresh := {| heap := heap w; h_next := h_next w; objs := put (objs w) i (Some v); o_next := S i;
                          views := views w; w_next := w_next w |} in
          (Ret VNone, relocate grow fresh i v s (zlen s))
      | r => (r, w)
      end
  | VCall i m =>
      match objs w i with
      | None => no_object w
      | Some v =>
          match contents w v with
          | Ret s => let '(r, s') := step cfg k m s in
                     match r with
                     | Undef u => (Undef u, w)
                     | _ => (r, relocate grow w i v s' (Z.max (zlen s') (reserved m s)))
                     end
          | Undef u => (Undef u, w)
          | _ => no_object w
          end
      end
  | VSorted i =>
      (* IntArrayList_sort, 450-499, works in place *)
      match objs w i with
      | None => no_object w
      | Some v => match contents w v with
                  | Ret s => (Ret VNone, relocate grow w i v (sort s) (zlen s))
                  | Undef u => (Undef u, w)
                  | _ => no_object w
                  end
      end
  | VDrop i =>
      (* IntArrayList_dealloc, 113-116: the vector's destructor frees the
         buffer, tp_free the object *)
      match objs w i with
      | None => no_object w
      | Some v =>
          match v_ptr v with
          | None => (Ret VNone, with_obj w i None)
          | Some b => match heap w b with
                      | None => (Undef BadFree, w)
                      | Some _ => (Ret VNone, with_obj (with_heap w (put (heap w) b None) (h_next w)) i None)
                      end
          end
      end
  | VView i =>
      (* IntArrayList_get_buffer, 1153-1170 *)
      match objs w i with
      | None => no_object w
      | Some v =>
          (Ret VNone,
           {| heap := heap w; h_next := h_next w;
              objs := put (objs w) i (Some {| v_ptr := v_ptr v; v_size := v_size v; v_shp := v_size v |});
              o_next := o_next w;
              views := put (views w) (w_next w) (Some {| w_ptr := v_ptr v; w_items := v_size v; w_shape_in := i |});
              w_next := S (w_next w) |})
      end
  | VGet n j =>
      match views w n with
      | None => no_object w
      | Some p => (obind (item_cell w p j) (fun x => or_ub Dangling (option_map VInt (snd x))), w)
      end
  | VPut n j z =>
      match views w n with
      | None => no_object w
      | Some p =>
          match item_cell w p j with
          | Ret (b, q, _) =>
              (* pack_single: the value must fit the format 'i' or 'q' *)
              if in_sbits_b (bits k) z
              then (Ret VNone, with_heap w (put (heap w) b (option_map
                      (fun c => firstn (Z.to_nat q) c ++ Some z :: skipn (Z.to_nat q + 1) c) (heap w b))) (h_next w))
              else (Raise ValueError, w)
          | Raise e => (Raise e, w)
          | RetPending _ e => (Raise e, w)
          | Undef u => (Undef u, w)
          end
      end
  | VLen n => match views w n with None => no_object w | Some p => (Ret (VInt (w_items p)), w) end
  | VShape n =>
      match views w n with
      | None => no_object w
      | Some p => match objs w (w_shape_in p) with
                  | None => (Undef UseAfterFree, w)
                  | Some v => (Ret (VInt (v_shp v)), w)
                  end
      end
  end.

(** A history; it ends with the first undefined behaviour. *)
Fixpoint vrun (cfg : config) (k : kind) (grow : Z -> Z -> Z) (sort : list Z -> list Z) (os : list vop) (w : store)
  : list (outcome val) * store :=
  match os with
  | [] => ([], w)
  | o :: r => match vexec cfg k grow sort o w with
              | (Undef u, w1) => ([Undef u], w1)
              | (x, w1) => let '(xs, w2) := vrun cfg k grow sort r w1 in (x :: xs, w2)
              end
  end.
