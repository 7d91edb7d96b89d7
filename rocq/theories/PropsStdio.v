(** C65: fputs, fflush and fgets of unsafe/Unsafe.cpp. *)
From Coq Require Import ZArith List Bool Lia.
From Verif Require Import Base StdioModel StdioSpec StdioProofs.
Import ListNotations.
Local Open Scope Z_scope.

(** Whatever is called, and however the C library buffers: stdout has received,
    in order, the UTF-8 encoding of the text of every fputs call up to its first
    NUL (nothing for a string that has no encoding), and what is delivered is
    never taken back. fflush delivers everything. *)
Theorem C65_output : forall cs t, Forall good_call cs ->
  exists w, utf8 (concat (map printed (made cs t))) w /\
    sent (snd (srun cs t)) ++ held (snd (srun cs t)) = sent t ++ held t ++ w /\ exists m, sent (snd (srun cs t)) = sent t ++ m.
Proof. exact output_thm. Qed.
Theorem C65_flush : forall t, fst (fflush t) = RNone /\ held (snd (fflush t)) = [] /\ sent (snd (fflush t)) = sent t ++ held t.
Proof. exact flush_thm. Qed.
(** A string is written completely exactly when it has no NUL. *)
Theorem C65_complete : forall s k t, pystr s -> encodable s = true -> held t = [] ->
  (utf8 s (skipn (length (sent t)) (sent (snd (fputs (Some s) k t)) ++ held (snd (fputs (Some s) k t)))) <-> ~ In 0 s).
Proof. exact complete_thm. Qed.

(** Reading a text without NUL with a size larger than every line: the lines,
    one per call, then RuntimeError for ever. *)
Theorem C65_lines : forall z s ls, 1 < reserved z -> lines_of s ls -> ~ In 0 s ->
  (forall l x, In l ls -> utf8 l x -> Z.of_nat (length x) < reserved z) ->
  forall cs t, utf8 s (inp t) -> Forall (gets z) cs -> (length ls <= length cs)%nat ->
  fst (srun cs t) = map RStr ls ++ repeat RRuntimeError (length cs - length ls).
Proof. exact lines_thm. Qed.
(** Reading ASCII text with any size above 1: pieces of lines that together are
    the text. *)
Theorem C65_ascii : forall z, 1 < reserved z ->
  forall cs t, Forall (fun b => 0 < b < 128) (inp t) -> Forall (gets z) cs -> (length (inp t) <= length cs)%nat ->
  exists ps, fst (srun cs t) = map RStr ps ++ repeat RRuntimeError (length cs - length ps) /\ concat ps = inp t /\
    Forall (fun p => p <> [] /\ Z.of_nat (length p) < reserved z /\ ~ In 10 (removelast p)) ps.
Proof. exact ascii_thm. Qed.

(** A text longer than the buffer is cut after [size - 1] bytes; the call
    succeeds exactly when that is the end of a character, and the bytes are
    consumed in both cases. *)
Theorem C65_cut : forall z s g t, 1 < reserved z -> utf8 s (inp t) -> s <> [] -> ~ In 10 s -> ~ In 0 s ->
  let n := Z.to_nat (reserved z - 1) in let r := fgets (PInt z) (Some g) t in
  inp (snd r) = skipn n (inp t) /\
  (forall p, fst r = RStr p <-> utf8 p (firstn n (inp t))) /\
  (fst r = RDecodeError <-> ~ exists p, utf8 p (firstn n (inp t))).
Proof. exact cut_thm. Qed.
(** In particular a character with as many bytes as the buffer is never read:
    the call fails and its first bytes are gone. *)
Theorem C65_split_refuted : forall z c x rest g t, 1 < reserved z -> uchar c x -> inp t = x ++ rest -> reserved z <= Z.of_nat (length x) ->
  fgets (PInt z) (Some g) t =
  (RDecodeError, Io (sent t) (held t) (skipn (Z.to_nat (reserved z - 1)) x ++ rest) (lost t + reserved z)).
Proof. exact split_thm. Qed.
(** A NUL in a line: what follows it in the line is consumed and dropped. *)
Theorem C65_nul_refuted : forall z s a b rest g t, 1 < reserved z -> utf8 s a -> ~ In 10 s -> ~ In 10 b -> ~ In 0 s ->
  inp t = a ++ 0 :: b ++ 10 :: rest -> Z.of_nat (length a + length b) + 2 < reserved z ->
  fgets (PInt z) (Some g) t = (RStr s, Io (sent t) (held t) rest (lost t + reserved z)).
Proof. exact nul_thm. Qed.
(** With size 1 nothing is ever read and the end of the stream is never seen. *)
Theorem C65_one_refuted : forall z cs t, reserved z = 1 -> Forall (gets z) cs ->
  fst (srun cs t) = repeat (RStr []) (length cs) /\ inp (snd (srun cs t)) = inp t.
Proof. exact one_thm. Qed.

(** The size: as given from 1 to 2^31 - 1; otherwise only its low 32 bits count;
    ValueError when these are not positive or the value does not fit a long. *)
Theorem C65_size : forall z m t,
  (1 <= z < 2 ^ 31 -> reserved z = z) /\
  (forall k, - 2 ^ 63 <= z < 2 ^ 63 -> - 2 ^ 63 <= z + k * 2 ^ 32 < 2 ^ 63 -> fgets (PInt (z + k * 2 ^ 32)) m t = fgets (PInt z) m t) /\
  (fst (fgets (PInt z) m t) = RValueError <-> reserved z = 0) /\
  (~ - 2 ^ 63 <= z < 2 ^ 63 -> fgets (PInt z) m t = (RValueError, t)).
Proof. exact size_thm. Qed.
(** No history reads outside a buffer. *)
Theorem C65_safe : forall cs t u, ~ In (RUndef u) (fst (srun cs t)).
Proof. exact safe_thm. Qed.
(** Every buffer is lost: the leak is the sum of all sizes ever accepted. *)
Theorem C65_leak : forall cs t, lost (snd (srun cs t)) = lost t + total (map leaks (made cs t)).
Proof. exact leak_thm. Qed.
(** Without memory for the buffer the process ends. *)
Theorem C65_no_memory : forall z t, 0 < reserved z -> fgets (PInt z) None t = (RTerminate, t).
Proof. exact fgets_no_memory. Qed.

(** The codec used above is UTF-8 in both directions. *)
Theorem C65_encoder : forall s bs, pystr s -> (encode s = Some bs <-> utf8 s bs).
Proof. exact encode_utf8. Qed.
Theorem C65_decoder : forall bs s, Forall byte bs -> (decode bs = Some s <-> utf8 s bs).
Proof. exact decode_thm. Qed.

(** A text with characters of one, two and three bytes, a NUL and more; a surrogate; lines with two-byte characters read
    with sizes 10 and 3, and size 2^32 + 1. *)
Definition C65_g : nat -> Z := fun _ => 170.
Definition C65_t0 : io := Io [] [] [104; 195; 169; 10; 98; 10; 195; 169] 0.
Example C65_ex : srun [SPuts (Some [104; 233; 8364; 0; 65]) 2; SPuts (Some [55296]) 0; SPuts None 0; SPuts (Some [128512]) 1;
    SGets (PInt 10) (Some C65_g); SGets (PInt (2 ^ 32 + 1)) (Some C65_g); SGets (PInt 3) (Some C65_g); SGets (PInt 2) (Some C65_g);
    SGets (PInt 0) None; SGets (PInt (2 ^ 64)) None; SGets (PObj 1) None; SGets (PInt 10) (Some C65_g); SGets (PInt 10) (Some C65_g); SFlush] C65_t0
  = ([RNone; REncodeError; RTypeError; RNone; RStr [104; 233; 10]; RStr []; RStr [98; 10]; RDecodeError;
      RValueError; RValueError; RTypeError; RDecodeError; RRuntimeError; RNone],
     Io [104; 195; 169; 226; 130; 172; 240; 159; 152; 128] [] [] 36).
Proof. vm_compute. reflexivity. Qed.
Example C65_ex_lines : lines_of [104; 233; 10; 98; 10; 233] [[104; 233; 10]; [98; 10]; [233]] /\ utf8 [104; 233; 10; 98; 10; 233] (inp C65_t0) /\
  fst (srun (repeat (SGets (PInt 10) (Some C65_g)) 5) C65_t0) = map RStr [[104; 233; 10]; [98; 10]; [233]] ++ repeat RRuntimeError 2.
Proof.
  split; [|split; [|vm_compute; reflexivity]].
  - apply (LMore [104; 233] [98; 10; 233] [[98; 10]; [233]]); [cbn; lia|]. apply (LMore [98] [233] [[233]]); [cbn; lia|].
    apply LLast; [discriminate|cbn; lia].
  - apply encode_utf8; [repeat constructor; lia|vm_compute; reflexivity].
Qed.
Example C65_ex_ascii : let t := Io [] [] [97; 98; 99; 10; 100] 0 in
  fst (srun (repeat (SGets (PInt 3) (Some C65_g)) 5) t) = map RStr [[97; 98]; [99; 10]; [100]] ++ repeat RRuntimeError 2 /\
  concat [[97; 98]; [99; 10]; [100]] = inp t.
Proof. vm_compute. split; reflexivity. Qed.
Example C65_ex_nul : fgets (PInt 10) (Some C65_g) (Io [] [] [195; 169; 0; 98; 10; 99] 0) = (RStr [233], Io [] [] [99] 10).
Proof. vm_compute. reflexivity. Qed.
Example C65_ex_complete : fputs (Some [65; 0; 66]) 9 (Io [] [] [] 0) = (RNone, Io [65] [] [] 0).
Proof. vm_compute. reflexivity. Qed.
Print Assumptions C65_output.
Print Assumptions C65_flush.
Print Assumptions C65_complete.
Print Assumptions C65_lines.
Print Assumptions C65_ascii.
Print Assumptions C65_cut.
Print Assumptions C65_split_refuted.
Print Assumptions C65_nul_refuted.
Print Assumptions C65_one_refuted.
Print Assumptions C65_size.
Print Assumptions C65_safe.
Print Assumptions C65_leak.
Print Assumptions C65_no_memory.
Print Assumptions C65_encoder.
Print Assumptions C65_decoder.
