(** unsafe/Unsafe.cpp 312-354: fputs, fflush and fgets on the C streams stdout
    and stdin (POSIX: no newline translation), with CPython's UTF-8 codec.

    A Python string is its list of code points. Simplifications: writing to
    stdout does not fail; stdin is the bytes still to come, then end of file;
    no other code uses the two streams. *)
From Coq Require Import ZArith List Bool.
From Verif Require Import Base.
Import ListNotations.
Local Open Scope Z_scope.

(** ** CPython's UTF-8 codec (Objects/stringlib/codecs.h, strict errors) *)

(** utf8_encoder: one code point; a surrogate is an error. *)
Definition enc1 (c : Z) : option (list Z) :=
  if c <? 128 then Some [c]
  else if c <? 2048 then Some [192 + c / 64; 128 + c mod 64]
  else if (55296 <=? c) && (c <=? 57343) then None
  else if c <? 65536 then Some [224 + c / 4096; 128 + c / 64 mod 64; 128 + c mod 64]
  else Some [240 + c / 262144; 128 + c / 4096 mod 64; 128 + c / 64 mod 64; 128 + c mod 64].
Fixpoint encode (s : list Z) : option (list Z) :=
  match s with
  | [] => Some []
  | c :: r => match enc1 c, encode r with Some x, Some y => Some (x ++ y) | _, _ => None end
  end.

(** utf8_decode: one character at a time; [None] is UnicodeDecodeError. *)
Definition cont (b : Z) : bool := (128 <=? b) && (b <? 192).
Fixpoint decode (bs : list Z) : option (list Z) :=
  match bs with
  | [] => Some []
  | a :: r =>
      if a <? 128 then option_map (cons a) (decode r)
      else if a <? 194 then None
      else if a <? 224 then
        match r with
        | b :: r' => if cont b then option_map (cons (a * 64 + b - (192 * 64 + 128))) (decode r') else None
        | _ => None
        end
      else if a <? 240 then
        match r with
        | b :: c :: r' =>
            if cont b && (negb (a =? 224) || (160 <=? b)) && (negb (a =? 237) || (b <? 160)) && cont c
            then option_map (cons (a * 4096 + b * 64 + c - (224 * 4096 + 128 * 64 + 128))) (decode r') else None
        | _ => None
        end
      else if a <? 245 then
        match r with
        | b :: c :: d :: r' =>
            if cont b && (negb (a =? 240) || (144 <=? b)) && (negb (a =? 244) || (b <? 144)) && cont c && cont d
            then option_map (cons (a * 262144 + b * 4096 + c * 64 + d - (240 * 262144 + 128 * 4096 + 128 * 64 + 128))) (decode r')
            else None
        | _ => None
        end
      else None
  end.

(** ** The streams *)

(** [sent]: delivered to the operating system; [held]: in the buffer of stdout;
    [inp]: still to come on stdin; [lost]: bytes allocated and never freed. *)
Record io := Io { sent : list Z; held : list Z; inp : list Z; lost : Z }.

(** What a call returns or raises. [RTerminate]: std::bad_alloc leaves the
    function, no handler, std::terminate. *)
Inductive sres :=
| RNone | RStr (s : list Z)
| RTypeError | RValueError | RRuntimeError | REncodeError | RDecodeError
| RTerminate | RUndef (u : ub).

(** The bytes before the first NUL, if there is one. *)
Fixpoint cstring (m : list Z) : option (list Z) :=
  match m with
  | [] => None
  | b :: r => if b =? 0 then Some [] else option_map (cons b) (cstring r)
  end.

(** Unsafe_fputs, 312-326. PyUnicode_AsUTF8 returns the encoding followed by a
    NUL. [k]: how many buffered bytes the C library chooses to deliver. *)
Definition fputs (arg : option (list Z)) (k : nat) (t : io) : sres * io :=
  match arg with
  | None => (RTypeError, t)
  | Some s =>
      match encode s with
      | None => (REncodeError, t)
      | Some bs =>
          match cstring (bs ++ [0]) with
          | None => (RUndef OutOfBounds, t)
          | Some w => (RNone, Io (sent t ++ firstn k (held t ++ w)) (skipn k (held t ++ w)) (inp t) (lost t))
          end
      end
  end.

(** Unsafe_fflush, 328-332. *)
Definition fflush (t : io) : sres * io := (RNone, Io (sent t ++ held t) [] (inp t) (lost t)).

(** The C function fgets: at most [m] bytes, up to and including a newline. *)
Fixpoint take_line (m : nat) (s : list Z) : list Z * list Z :=
  match m, s with
  | O, _ => ([], s)
  | _, [] => ([], [])
  | S m', b :: r => if b =? 10 then ([b], r) else let (x, y) := take_line m' r in (b :: x, y)
  end.
(** Into a buffer of [n >= 1] bytes: its new contents and the rest of the
    stream, or null at the end of the stream. With [n = 1] nothing is read and
    the call succeeds (glibc, musl, the Windows runtime). *)
Definition c_fgets (n : Z) (buf : list Z) (s : list Z) : option (list Z) * list Z :=
  let (x, r) := take_line (Z.to_nat (n - 1)) s in
  match x with
  | [] => if n =? 1 then (Some (0 :: skipn 1 buf), s) else (None, r)
  | _ => (Some (x ++ 0 :: skipn (length x + 1) buf), r)
  end.

(** [(int) PyLong_AsLong(o)], 340: -1 when the value does not fit a long (the
    error set by it is replaced by the ValueError of 342). *)
Definition size_arg (z : Z) : Z := if in_sbits_b 64 z then wrap 32 z else -1.

(** Unsafe_fgets, 334-354. [mem]: the initial bytes of [new char[n]], 346, or
    no memory. Py_BuildValue("s"), 353, decodes up to the first NUL. The buffer
    is not freed on any path. *)
Definition fgets (arg : pyobj) (mem : option (nat -> Z)) (t : io) : sres * io :=
  match arg with
  | PObj _ => (RTypeError, t)
  | PInt z =>
      let n := size_arg z in
      if n <=? 0 then (RValueError, t)
      else match mem with
           | None => (RTerminate, t)
           | Some g =>
               let (o, rest) := c_fgets n (map g (seq 0 (Z.to_nat n))) (inp t) in
               let t' := Io (sent t) (held t) rest (lost t + n) in
               match o with
               | None => (RRuntimeError, t')
               | Some b =>
                   match cstring b with
                   | None => (RUndef OutOfBounds, t')
                   | Some w => match decode w with Some s => (RStr s, t') | None => (RDecodeError, t') end
                   end
               end
           end
  end.

(** ** Histories *)
Inductive scall := SPuts (arg : option (list Z)) (k : nat) | SFlush | SGets (n : pyobj) (mem : option (nat -> Z)).
Definition sstep (c : scall) (t : io) : sres * io :=
  match c with SPuts a k => fputs a k t | SFlush => fflush t | SGets n m => fgets n m t end.
(** The process ends at [RTerminate]. *)
Fixpoint srun (cs : list scall) (t : io) : list sres * io :=
  match cs with
  | [] => ([], t)
  | c :: r =>
      match sstep c t with
      | (RTerminate, t') => ([RTerminate], t')
      | (x, t') => let (xs, t'') := srun r t' in (x :: xs, t'')
      end
  end.
