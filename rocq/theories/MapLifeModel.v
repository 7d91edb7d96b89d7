(** The heap blocks of IntIntHashMap objects: made, initialised once, again or
    never, and dropped (ints/IntIntHashMap.cpp 19-20, 241-252, tp_new).

    A table owns at most two blocks, the one of its vector of values and the one
    of its buckets. Which steps a construction takes depends on its arguments
    (MapModel); here it is any list of steps, each with the allocator's answer.
    Simplifications: the memory of the objects themselves is left out; the
    destructor of the vector of a zeroed object frees nothing (libstdc++,
    libc++); IntIntHashMap_copy is undefined anyway (MapModel) and left out. *)
From Coq Require Import ZArith List Bool.
From Verif Require Import Base.
Import ListNotations.
Local Open Scope Z_scope.

(** What the two pointers of a table point to. *)
Record cell := { values : option Z; buckets : option Z }.
Definition none : cell := {| values := None; buckets := None |}.
(** [next]: the allocator's next block. *)
Record mem := { heap : list Z; next : Z }.
Definition malloc (m : mem) : Z * mem := (next m, {| heap := next m :: heap m; next := next m + 1 |}).
(** Releasing a block that is not allocated is undefined; a null pointer is
    not released. *)
Definition release (p : option Z) (m : mem) : option mem :=
  match p with
  | None => Some m
  | Some b => if existsb (Z.eqb b) (heap m) then Some {| heap := remove Z.eq_dec b (heap m); next := next m |} else None
  end.

(** Steps of the table during a construction: a push_back that needs room;
    increase_size (UnorderedDense.h 1000-1010); copy assignment (1263-1275),
    [needs]: the vector needs room. The answers are the allocator's. *)
Inductive tstep := GrowValues (g : bool) | GrowBuckets (g : bool) | CopyFrom (needs gv gb : bool).
Inductive done := Fine | Refused | Freed.   (* Freed: undefined *)
(** The vector gets a new block before it gives the old one back. *)
Definition grow_values (g : bool) (c : cell) (m : mem) : done * cell * mem :=
  if negb g then (Refused, c, m)
  else let '(b, m1) := malloc m in
       match release (values c) m1 with
       | None => (Freed, c, m1)
       | Some m2 => (Fine, {| values := Some b; buckets := buckets c |}, m2)
       end.
(** deallocate_buckets (960-968), allocate_buckets_from_shift (970-980). *)
Definition drop_buckets (c : cell) (m : mem) : option (cell * mem) :=
  match release (buckets c) m with None => None | Some m1 => Some ({| values := values c; buckets := None |}, m1) end.
Definition new_buckets (g : bool) (c : cell) (m : mem) : done * cell * mem :=
  if negb g then (Refused, c, m) else let '(b, m1) := malloc m in (Fine, {| values := values c; buckets := Some b |}, m1).
Definition tdo (s : tstep) (c : cell) (m : mem) : done * cell * mem :=
  match s with
  | GrowValues g => grow_values g c m
  | GrowBuckets g => match drop_buckets c m with None => (Freed, c, m) | Some (c1, m1) => new_buckets g c1 m1 end
  | CopyFrom needs gv gb =>
      match drop_buckets c m with
      | None => (Freed, c, m)
      | Some (c1, m1) =>
          match (if needs then grow_values gv c1 m1 else (Fine, c1, m1)) with
          | (Fine, c2, m2) => new_buckets gb c2 m2
          | r => r
          end
      end
  end.
(** The try block: it ends at the first step refused. *)
Fixpoint fill (ss : list tstep) (c : cell) (m : mem) : done * cell * mem :=
  match ss with
  | [] => (Fine, c, m)
  | s :: r => match tdo s c m with (Fine, c1, m1) => fill r c1 m1 | x => x end
  end.

(** [MInit x g ss]: the placement new of line 20 forgets the pointers that are
    there; [g]: the first buckets are granted, or the exception leaves the
    function. *)
Inductive mop := MNew (x : Z) | MInit (x : Z) (g : bool) (ss : list tstep) | MDrop (x : Z).
Record world := { objs : list (Z * cell); wmem : mem }.
Definition start : world := {| objs := []; wmem := {| heap := []; next := 1 |} |}.
Fixpoint get (x : Z) (l : list (Z * cell)) : option cell :=
  match l with [] => None | (y, c) :: r => if x =? y then Some c else get x r end.
Fixpoint del (x : Z) (l : list (Z * cell)) : list (Z * cell) :=
  match l with [] => [] | (y, c) :: r => if x =? y then r else (y, c) :: del x r end.

Inductive mans := MDone | MRuntimeError | MEscapes | MUndefined | MNoSuch.
Definition mstep (o : mop) (w : world) : mans * world :=
  match o with
  | MNew x =>     (* PyType_GenericNew: zeroed memory *)
      match get x (objs w) with Some _ => (MNoSuch, w) | None => (MDone, {| objs := (x, none) :: objs w; wmem := wmem w |}) end
  | MInit x g ss =>
      match get x (objs w) with
      | None => (MNoSuch, w)
      | Some _ =>
          match new_buckets g none (wmem w) with
          | (Fine, c, m) =>
              let '(d, c1, m1) := fill ss c m in
              (match d with Fine => MDone | Refused => MRuntimeError | Freed => MUndefined end,
               {| objs := (x, c1) :: del x (objs w); wmem := m1 |})
          | (_, c, m) => (MEscapes, {| objs := (x, c) :: del x (objs w); wmem := m |})
          end
      end
  | MDrop x =>    (* IntIntHashMap_dealloc 249-252; ~table 1256-1261, then the vector *)
      match get x (objs w) with
      | None => (MNoSuch, w)
      | Some c =>
          match release (buckets c) (wmem w) with
          | None => (MUndefined, w)
          | Some m1 => match release (values c) m1 with
                       | None => (MUndefined, w)
                       | Some m2 => (MDone, {| objs := del x (objs w); wmem := m2 |})
                       end
          end
      end
  end.
Fixpoint mrun (h : list mop) (w : world) : list mans * world :=
  match h with [] => ([], w) | o :: r => let '(a, w1) := mstep o w in let '(b, w2) := mrun r w1 in (a :: b, w2) end.
