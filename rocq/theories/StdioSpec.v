(** UTF-8 after RFC 3629, lines of a text, and what the stream functions are
    expected to do. Of the model only the type of calls and their number made by
    a history are used. *)
From Coq Require Import ZArith List Bool.
From Verif Require Import Base StdioModel.
Import ListNotations.
Local Open Scope Z_scope.

(** The encoding of one code point: the shortest form, no surrogates. *)
Inductive uchar : Z -> list Z -> Prop :=
| U1 c : 0 <= c < 128 -> uchar c [c]
| U2 c x y : 128 <= c < 2048 -> c = x * 64 + y -> 0 <= y < 64 -> uchar c [192 + x; 128 + y]
| U3 c x y z : 2048 <= c < 65536 -> ~ 55296 <= c <= 57343 -> c = x * 4096 + y * 64 + z -> 0 <= y < 64 -> 0 <= z < 64 ->
    uchar c [224 + x; 128 + y; 128 + z]
| U4 c w x y z : 65536 <= c <= 1114111 -> c = w * 262144 + x * 4096 + y * 64 + z -> 0 <= x < 64 -> 0 <= y < 64 -> 0 <= z < 64 ->
    uchar c [240 + w; 128 + x; 128 + y; 128 + z].
(** [utf8 s bs]: the bytes [bs] are the encoding of the text [s]. *)
Inductive utf8 : list Z -> list Z -> Prop :=
| Unil : utf8 [] []
| Ucons c s x y : uchar c x -> utf8 s y -> utf8 (c :: s) (x ++ y).

(** A Python string: code points up to 10FFFF, surrogates allowed. *)
Definition pystr (s : list Z) : Prop := Forall (fun c => 0 <= c <= 1114111) s.
Definition surrogate (c : Z) : Prop := 55296 <= c <= 57343.

(** The text before the first character [c]. *)
Fixpoint before (c : Z) (s : list Z) : list Z :=
  match s with [] => [] | x :: r => if x =? c then [] else x :: before c r end.
(** [lines_of s ls]: the lines of [s], each with its newline; only the last may
    lack it and none is empty. *)
Inductive lines_of : list Z -> list (list Z) -> Prop :=
| LNone : lines_of [] []
| LLast l : l <> [] -> ~ In 10 l -> lines_of l [l]
| LMore l s ls : ~ In 10 l -> lines_of s ls -> lines_of (l ++ 10 :: s) ((l ++ [10]) :: ls).

Definition byte (b : Z) : Prop := 0 <= b < 256.

(** The bytes that reading with size argument [z] reserves: [z] reduced to 32
    bits when it fits a long and the reduced value is positive. *)
Definition reserved (z : Z) : Z :=
  if (- 2 ^ 63 <=? z) && (z <? 2 ^ 63) && (z mod 2 ^ 32 <? 2 ^ 31) then z mod 2 ^ 32 else 0.
Fixpoint total (l : list Z) : Z := match l with [] => 0 | x :: r => x + total r end.
(** A text that has an encoding. *)
Definition encodable (s : list Z) : bool := forallb (fun c => negb ((55296 <=? c) && (c <=? 57343))) s.

(** ** Calls *)
(** The text a call puts on stdout: what comes before the first NUL. *)
Definition printed (c : scall) : list Z :=
  match c with SPuts (Some s) _ => if encodable s then before 0 s else [] | _ => [] end.
Definition good_call (c : scall) : Prop := match c with SPuts (Some s) _ => pystr s | _ => True end.
(** The calls of a history that were made. *)
Definition made (cs : list scall) (t : io) : list scall := firstn (length (fst (srun cs t))) cs.
(** Calls that read with one size and get memory. *)
Definition gets (z : Z) (c : scall) : Prop := exists g, c = SGets (PInt z) (Some g).
(** Bytes a call allocates. *)
Definition leaks (c : scall) : Z := match c with SGets (PInt z) (Some _) => reserved z | _ => 0 end.
