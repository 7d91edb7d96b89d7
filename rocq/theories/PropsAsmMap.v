(** C92: the JIT functions over their hash table when memory is refused. *)
From Coq Require Import ZArith List Bool Lia.
From Verif Require Import Base HashSpec HashModel HashMemModel HashMemSpec AsmMapModel AsmMapSpec AsmMapProofs.
Import ListNotations.
Local Open Scope Z_scope.

(** Every sequence of calls, with any answers of the allocator and of
    VirtualProtect and any 64-bit hash function. *)
Theorem C92_calls : forall (hash : Z -> Z) (dbg : bool) cs,
  (forall k, 0 <= hash k < 2 ^ 64) -> few (2 ^ 24 - 3) dbg jspec0 cs -> jrun hash dbg jstart cs = spec_calls dbg jspec0 cs.
Proof. exact calls_thm. Qed.
Print Assumptions C92_calls.
(** The table is never used without its buckets and its loops end. *)
Theorem C92_sound : forall (hash : Z -> Z) (dbg : bool) cs,
  (forall k, 0 <= hash k < 2 ^ 64) -> few (2 ^ 24 - 3) dbg jspec0 cs ->
  ~ In OBad (jrun hash dbg jstart cs) /\ ~ In OLoops (jrun hash dbg jstart cs).
Proof. exact sound_thm. Qed.
Print Assumptions C92_sound.
(** The process is ended only by refused memory. *)
Theorem C92_granted : forall (hash : Z -> Z) (dbg : bool) cs,
  (forall k, 0 <= hash k < 2 ^ 64) -> few (2 ^ 24 - 3) dbg jspec0 cs -> Forall (fun x => fst x = (true, true)) cs ->
  ~ In OTerminate (jrun hash dbg jstart cs).
Proof. exact granted_thm. Qed.
Print Assumptions C92_granted.
(** That makeFunction raises MemoryError whenever it finds no memory is false:
    the fourth function ends the process if the table cannot grow. *)
Theorem C92_memory_error_refuted : ~ (forall (hash : Z -> Z) (dbg : bool) cs,
  (forall k, 0 <= hash k < 2 ^ 64) -> few (2 ^ 24 - 3) dbg jspec0 cs -> ~ In OTerminate (jrun hash dbg jstart cs)).
Proof. exact memory_error_refuted. Qed.
Print Assumptions C92_memory_error_refuted.

(** Four functions, the table growing behind the third; one freed, an unknown
    address freed the fast way (its entry stays), then by freeFunction, which
    leaves the lock locked when VirtualProtect fails; then makeFunction. *)
Definition some_calls : list (bool * bool * jcall) :=
  [(true, false, JMake 5 (Some 4096) (Some 4)); (true, false, JMakeFast 7 (Some 8192) (Some 4)); (true, false, JMake 0 None None);
   (true, false, JMake 9 None None); (true, false, JMake 9 (Some 12288) None); (true, false, JMake 9 (Some 12288) (Some 4));
   (true, true, JMake 3 (Some 16384) (Some 4)); (false, false, JFree 8192 true); (true, false, JFreeFast 64 false);
   (false, false, JFree 64 false); (false, false, JFreeFast 4096 true); (true, false, JMake 3 (Some 20480) (Some 4))].
Example C92_ex : few (2 ^ 24 - 3) true jspec0 some_calls /\
  spec_calls true jspec0 some_calls =
    [OPtr 4096; OPtr 8192; OValueError; OMemoryError; OOSError; OPtr 12288; OPtr 16384; ODone (7, 4); OKept (0, 0); OKept (0, 0); ODone (5, 4); ORelock] /\
  jrun hash_int true jstart some_calls = spec_calls true jspec0 some_calls.
Proof.
  split; [|split; vm_compute; reflexivity].
  cbv [few some_calls]; repeat (split; [vm_compute; discriminate|]); exact I.
Qed.
(** The fourth function without new buckets; an unknown address with no place
    for its entry; one whose entry can be made and whose block is not one. *)
Example C92_ex_ends :
  let three := [(true, false, JMakeFast 5 (Some 4096) (Some 4)); (true, false, JMakeFast 7 (Some 8192) (Some 4)); (true, false, JMakeFast 9 (Some 12288) (Some 4))] in
  jrun hash_int false jstart (three ++ [(true, false, JMakeFast 3 (Some 16384) (Some 4)); (true, true, JFree 4096 true)]) = [OPtr 4096; OPtr 8192; OPtr 12288; OTerminate] /\
  jrun hash_int false jstart [(false, true, JFreeFast 64 true)] = [OTerminate] /\
  jrun hash_int false jstart [(true, true, JFreeFast 64 true)] = [OBadFree] /\
  jrun hash_int true jstart [(true, true, JFreeFast 64 false); (true, true, JMake 8 (Some 64) (Some 4))] = [OKept (0, 0); OAssert] /\
  jrun hash_int false jstart [(true, true, JFreeFast 64 false); (true, true, JMake 8 (Some 64) (Some 4)); (true, true, JFree 64 true); (true, true, JFree 64 true); (true, true, JFree 64 true)] =
    [OKept (0, 0); OPtr 64; ODone (8, 4); OValueError; ORelock].
Proof. vm_compute. repeat split. Qed.
