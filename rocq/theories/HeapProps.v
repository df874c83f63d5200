(** C137: aligned_malloc and aligned_free on every platform. *)

Require Import ZArith List Lia.
Require Import Verif.BitsSpec Verif.HeapSpec Verif.HeapModel Verif.HeapProofs.
Import ListNotations.
Open Scope Z_scope.

(** one call: the system is asked once, for the size and for a multiple of the alignment that
    it accepts, and its answer is returned; the null pointer if it fails *)
Theorem C137_call : forall msvc word size align failed p, pow2 word -> pow2 align ->
  exists a, snd (aligned_malloc msvc word size align failed p) = [Obtain (if msvc then Crt else Posix) a size failed p] /\
    (align | a) /\ accepts word (if msvc then Crt else Posix) a /\
    fst (aligned_malloc msvc word size align failed p) = if failed then 0 else p.
Proof. exact malloc_answer. Qed.
Print Assumptions C137_call.

(** histories: whatever the system answers, a client that keeps the rules of aligned_malloc and
    aligned_free never breaks those of the system *)
Theorem C137_use : forall msvc word ops es cs, pow2 word ->
  heap_run msvc word ops = (es, cs) -> correct_client [] es -> correct_use word [] cs.
Proof. exact heap_use. Qed.
Print Assumptions C137_use.

(** nothing leaks: the system has handed out what the client owns, no more *)
Theorem C137_no_leak : forall msvc word ops es cs, heap_run msvc word ops = (es, cs) ->
  map snd (fold_left held_after cs []) = fold_left owned_after es [].
Proof. exact heap_holds. Qed.
Print Assumptions C137_no_leak.

(** a history on 32-bit Linux and on Windows; the second call fails and leaves a stray pointer *)
Definition heap_history : list heap_op :=
  [Malloc 10 2 false 4096; Malloc 10 64 true 77; Malloc 6 16 false 4112; Free 4096; Free 0].
Example C137_instance : pow2 4 /\
  heap_run false 4 heap_history =
    ([Malloced 10 2 4096; Malloced 10 64 0; Malloced 6 16 4112; Freed 4096; Freed 0],
     [Obtain Posix 4 10 false 4096; Obtain Posix 64 10 true 77; Obtain Posix 16 6 false 4112; Return_ Posix 4096;
      Return_ Posix 0]) /\
  snd (heap_run true 8 heap_history) =
     [Obtain Crt 2 10 false 4096; Obtain Crt 64 10 true 77; Obtain Crt 16 6 false 4112; Return_ Crt 4096; Return_ Crt 0] /\
  correct_client [] (fst (heap_run false 4 heap_history)) /\
  ~ correct_use 4 [] [Obtain Posix 2 10 false 4096] /\
  ~ correct_use 4 [] [Obtain Posix 4 10 false 4096; Return_ Crt 4096].
Proof.
  assert (P : forall k, 0 <= k -> pow2 (2 ^ k)) by (intros k K; exists k; auto).
  split; [apply (P 2); lia|]. split; [reflexivity|]. split; [reflexivity|]. split.
  { cbn. split; [apply (P 1); lia|]. split; [apply (P 6); lia|]. split; [apply (P 4); lia|]. intuition. }
  split.
  - cbn. intros [[_ [k K]] _]. lia.
  - cbn. intros [_ [[H|[H|[]]] _]]; discriminate.
Qed.
