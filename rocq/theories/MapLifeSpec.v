(** What is claimed of the blocks of IntIntHashMap objects. *)
From Coq Require Import ZArith List Bool.
From Verif Require Import MapLifeModel.
Import ListNotations.
Local Open Scope Z_scope.

Definition opt (p : option Z) : list Z := match p with Some b => [b] | None => [] end.
Definition blocks (c : cell) : list Z := opt (values c) ++ opt (buckets c).
(** The blocks objects point to. *)
Definition owned (w : world) : list Z := flat_map (fun e => blocks (snd e)) (objs w).

(** Which objects there are and which of them were initialised. *)
Definition known := Z -> option bool.
Definition nobody : known := fun _ => None.
Definition set (k : known) (x : Z) (v : option bool) : known := fun y => if y =? x then v else k y.
Definition knows (o : mop) (k : known) : known :=
  match o with
  | MNew x => match k x with None => set k x (Some false) | Some _ => k end
  | MInit x _ _ => match k x with None => k | Some _ => set k x (Some true) end
  | MDrop x => set k x None
  end.
Fixpoint after (h : list mop) (k : known) : known := match h with [] => k | o :: r => after r (knows o k) end.
(** How often an object is initialised that already was. *)
Fixpoint again (h : list mop) (k : known) : nat :=
  match h with
  | [] => O
  | o :: r => ((match o with MInit x _ _ => match k x with Some true => 1 | _ => 0 end | _ => 0 end) + again r (knows o k))%nat
  end.
(** What a call answers. *)
Definition refusal (s : tstep) : bool :=
  match s with GrowValues g | GrowBuckets g => negb g | CopyFrom needs gv gb => (needs && negb gv) || negb gb end.
Definition answer (o : mop) (k : known) : mans :=
  match o with
  | MNew x => match k x with None => MDone | Some _ => MNoSuch end
  | MInit x g ss => match k x with None => MNoSuch | Some _ => if g then if existsb refusal ss then MRuntimeError else MDone else MEscapes end
  | MDrop x => match k x with None => MNoSuch | Some _ => MDone end
  end.
Fixpoint answers (h : list mop) (k : known) : list mans := match h with [] => [] | o :: r => answer o k :: answers r (knows o k) end.
