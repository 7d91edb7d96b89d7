(** What the page protections under generated code should be, said without the
    model's steps: the pages the bytes lie on, and a list of the functions that
    are live, the newest first. *)
From Coq Require Import ZArith List Bool.
From Verif Require Import Base AsmModel PageModel.
Import ListNotations.
Local Open Scope Z_scope.

(** A page on which one of the bytes of [b], laid out from [a] on, lies. *)
Definition touches (a : Z) (b : list Z) (q : Z) : bool :=
  existsb (fun i => (a + Z.of_nat i) / 4096 =? q) (seq 0 (List.length b)).
(** Pages with a live function are executable, the others are as they were. *)
Definition under (base : Z -> Z) (live : list (Z * list Z)) (q : Z) : Z :=
  if existsb (fun f => touches (fst f) (snd f) q) live then 64 else base q.
(** The pages of a region all have the protection of the first. *)
Definition even (p : Z -> Z) (a : Z) (b : list Z) : Prop :=
  forall q, touches a b q = true -> p q = p (a / 4096).
(** Aligned memory apart from the live functions. *)
Definition placed (live : list (Z * list Z)) (a : Z) (b : list Z) : Prop :=
  0 < a /\ a mod 16 = 0 /\
  forall k c, In (k, c) live -> k <> a /\ (a + zlen b <= k \/ k + zlen c <= a).
Definition shares (a : Z) (b : list Z) (c : Z) (d : list Z) : Prop :=
  exists q, touches a b q = true /\ touches c d q = true.

(** Where the bytes are run from: in place when aligned, else from a copy. *)
Definition target (live : list (Z * list Z)) (at_ : Z) (b : list Z) (answer : option Z) (t : Z) : Prop :=
  (at_ mod 16 = 0 /\ t = at_) \/ (at_ mod 16 <> 0 /\ answer = Some t /\ placed live t b).

(** The histories that are fine, with the answers they get: a region is given
    executable pages only when its pages are alike, and a function is freed only
    when no live function made later shares a page with it. *)
Inductive hist (base : Z -> Z) : list (Z * list Z) -> list pcall -> list (pret * list Z) -> list (Z * list Z) -> Prop :=
  | h_nil live : hist base live [] [] live
  | h_make live c at_ b a cs rs live' :
      c = KMake (Code at_ b) (Some a) true \/ c = KMakeFast b (Some a) true ->
      b <> [] -> placed live a b -> even (under base live) a b ->
      hist base ((a, b) :: live) cs rs live' -> hist base live (c :: cs) ((PPtr a, []) :: rs) live'
  | h_free newer a b older c cs rs live' :
      c = KFree a true \/ c = KFreeFast a true ->
      (forall k d, In (k, d) newer -> ~ shares a b k d) ->
      hist base (newer ++ older) cs rs live' -> hist base (newer ++ (a, b) :: older) (c :: cs) ((PNone, []) :: rs) live'
  | h_call live a b cs rs live' :
      In (a, b) live ->
      hist base live cs rs live' -> hist base live (KCall a :: cs) ((PNone, b) :: rs) live'
  | h_run live c at_ b answer t cs rs live' :
      c = KRun (Code at_ b) answer true true \/ c = KRunFast at_ b answer true true ->
      b <> [] -> target live at_ b answer t -> even (under base live) t b ->
      hist base live cs rs live' -> hist base live (c :: cs) ((PNone, b) :: rs) live'
  | h_argument live c e cs rs live' :
      (exists x answer ok ok2, (c = KRun x answer ok ok2 \/ c = KMake x answer ok) /\
         ((x = WrongCount \/ x = NotBytes) /\ e = ETypeError \/ (exists at_, x = Code at_ []) /\ e = EValueError)) ->
      hist base live cs rs live' -> hist base live (c :: cs) ((PErr e, []) :: rs) live'
  | h_no_memory live c at_ b ok ok2 cs rs live' :
      c = KMake (Code at_ b) None ok \/ c = KMakeFast b None ok \/
      (at_ mod 16 <> 0 /\ (c = KRun (Code at_ b) None ok ok2 \/ c = KRunFast at_ b None ok ok2)) ->
      (b <> [] \/ c = KMakeFast b None ok \/ c = KRunFast at_ b None ok ok2) ->
      hist base live cs rs live' -> hist base live (c :: cs) ((PErr EMemoryError, []) :: rs) live'
  | h_refused live c at_ b answer t ok2 cs rs live' :
      b <> [] ->
      (c = KMake (Code at_ b) (Some t) false \/ c = KMakeFast b (Some t) false) /\ placed live t b \/
      (c = KRun (Code at_ b) answer false ok2 \/ c = KRunFast at_ b answer false ok2) /\ target live at_ b answer t ->
      hist base live cs rs live' -> hist base live (c :: cs) ((PErr EOSError, []) :: rs) live'.

(** A state with those live functions. *)
Definition holds (base : Z -> Z) (live : list (Z * list Z)) (s : pst) : Prop :=
  blocks s = live /\ locked s = false /\ (forall q, prot s q = under base live q) /\
  NoDup (map fst live) /\ (forall a, ~ In a (map fst live) -> tget (tbl s) a = None) /\
  forall newer a b older, live = newer ++ (a, b) :: older ->
    b <> [] /\ tget (tbl s) a = Some (zlen b, under base older (a / 4096)) /\ even (under base older) a b.
