(** C160: a monotonic_buffer_resource with the default upstream falls back on the heap. *)

Require Import ZArith Lia List Bool.
Require Import Verif.Outcome Verif.BitsSpec Verif.SimpleSpec Verif.MonoModel.
Require Import Verif.HeapSpec Verif.LoneSpec Verif.LoneProofs Verif.FallSpec Verif.SpillSpec Verif.SpillModel Verif.SpillProofs.
Import ListNotations.
Open Scope Z_scope.

(** Every history has the outcome it would have without an upstream, the answers of the
    system in place of null; with no condition on the heap, the alignments or the client. *)
Theorem C160_fallback : forall dbg msvc word b n ops,
  mono_run dbg (mono_construct b n false) (map (no_heap b n) ops) =
  lone_outcome lone_mono b n (spill_seen (spill_run dbg msvc word (mono_construct b n true) ops)).
Proof. exact mono_behind. Qed.
Print Assumptions C160_fallback.

(** What is asked of the system is answered with what it answered, or null when it failed. *)
Theorem C160_answers : forall dbg msvc word s ops s' es cs,
  spill_run dbg msvc word s ops = Ok (s', es, cs) -> Forall2 passed_on ops es.
Proof. exact mono_answers. Qed.
Print Assumptions C160_answers.

(** The calls of the system are ones it defines, whatever the client gives back. *)
Theorem C160_heap_use : forall dbg msvc word s ops s' es cs, pow2 word -> Forall power_aligned ops ->
  spill_run dbg msvc word s ops = Ok (s', es, cs) -> correct_use word [] cs.
Proof. exact mono_heap_use. Qed.
Print Assumptions C160_heap_use.

(** Exactly what the system still holds: all it ever answered.  Nothing is returned in any history. *)
Theorem C160_held_exact_partial : forall dbg msvc word s ops s' es cs, spill_run dbg msvc word s ops = Ok (s', es, cs) ->
  (forall f p, ~ In (Return_ f p) cs) /\ fold_left held_after cs [] = map (pair (if msvc then Crt else Posix)) (had [] es).
Proof. exact mono_heap_held. Qed.
Print Assumptions C160_held_exact_partial.

(** a client that gives back what it had from the heap, and then calls release(): the heap
    never gets it back *)
Theorem C160_return_refuted : exists s,
  spill_run true false 8 (mono_construct 4096 32 true) [FAllocate 64 8 false 65536; FDeallocate 65536; FRelease] =
    Ok (s, [EAllocate 64 8 65536 [UpAllocate 64 8]; EDeallocate 65536 []; ERelease], [Obtain Posix 8 64 false 65536]) /\
  fold_left held_after [Obtain Posix 8 64 false 65536] [] = [(Posix, 65536)].
Proof. exact mono_leaks. Qed.
Print Assumptions C160_return_refuted.

(** two requests are served by the buffer, one by the heap at an odd multiple of 8, one fails there *)
Example C160_instance : forall dbg,
  let ops := [FAllocate 5 1 true 7; FAllocate 8 16 true 7; FAllocate 100 1 false 9000; FAllocate 200 64 true 3; FDeallocate 9000] in
  pow2 8 /\ Forall power_aligned ops /\
  (exists s, spill_run dbg false 8 (mono_construct 4096 32 true) ops =
    Ok (s, [EAllocate 5 1 4096 []; EAllocate 8 16 4112 []; EAllocate 100 1 9000 [UpAllocate 100 1];
            EAllocate 200 64 0 [UpAllocate 200 64]; EDeallocate 9000 []],
        [Obtain Posix 8 100 false 9000; Obtain Posix 64 200 true 3])) /\
  had [] [EAllocate 5 1 4096 []; EAllocate 8 16 4112 []; EAllocate 100 1 9000 [UpAllocate 100 1];
          EAllocate 200 64 0 [UpAllocate 200 64]; EDeallocate 9000 []] = [9000].
Proof.
  intros dbg. cbv zeta.
  assert (P : forall k, 0 <= k -> pow2 (2 ^ k)) by (intros k K; exists k; auto).
  assert (P1 := P 0 ltac:(lia)). assert (P16 := P 4 ltac:(lia)). assert (P64 := P 6 ltac:(lia)).
  split; [exact (P 3 ltac:(lia))|].
  split; [repeat constructor; assumption|].
  split; [eexists; destruct dbg; vm_compute; reflexivity|reflexivity].
Qed.
