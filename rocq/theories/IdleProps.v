(** Property C148: a request that a resource does not serve from its buffer leaves no trace in it. *)

Require Import ZArith Lia List Bool.
Require Import Verif.Outcome Verif.Machine Verif.BitsSpec.
Require Import Verif.SimpleModel Verif.SimpleSpec Verif.SimpleView Verif.SimpleRefuted Verif.SimpleExamples.
Require Import Verif.MonoModel Verif.MonoSpec Verif.MonoProofs Verif.IdleSpec Verif.IdleProofs.
Import ListNotations.
Open Scope Z_scope.
Open Scope res_scope.

(** C148 for simple_resource: from any history, right or wrong, the calls that were answered with
    null or passed on to the upstream, and those that gave back null or memory of the upstream, can be
    left out; the other calls have the same results and the resource ends in the same state. *)
Theorem C148_simple_resource : forall c buffer size up s fuel ops s' es, made c buffer size up s ->
  Forall (roomy (data s + MB c * BS c)) ops -> run c fuel s ops = Ok (s', es) ->
  run c fuel s (busy_ops ops es) = Ok (s', busy_events es).
Proof. exact idle_simple. Qed.
Print Assumptions C148_simple_resource.

(** and for monotonic_buffer_resource, if no request runs past the last address *)
Theorem C148_monotonic_partial : forall dbg buffer size up ops s es, mono_made buffer size -> Forall (fair_op (buffer + size)) ops ->
  mono_run dbg (mono_construct buffer size up) ops = Ok (s, es) ->
  mono_run dbg (mono_construct buffer size up) (busy_ops ops es) = Ok (s, busy_events es).
Proof. exact idle_mono. Qed.
Print Assumptions C148_monotonic_partial.

(** a request that does run past it, up to address 0 itself, is followed by one that is answered with
    null although it moves the place where the next memory is taken from *)
Theorem C148_monotonic_refuted : forall dbg, exists s es s' es',
  mono_run dbg (mono_construct 4096 32 false) wrapped = Ok (s, es) /\
  es = [EAllocate 8 1 4096 []; EAllocate (2 ^ 64 - 4104) 1 4104 []; EAllocate 8 1 0 []; EAllocate 8 1 8 []] /\
  busy_ops wrapped es = [ask 8; ask (2 ^ 64 - 4104); ask 8] /\
  mono_run dbg (mono_construct 4096 32 false) (busy_ops wrapped es) = Ok (s', es') /\
  s' <> s /\ es' <> busy_events es.
Proof. exact null_moves. Qed.
Print Assumptions C148_monotonic_refuted.

(** a request for 100 of 32 bytes between two others, refused by the one and passed on by the other *)
Example C148_instance :
  made (conf 16 false) 4096 32 false (fresh 4096 8 false) /\
  Forall (roomy (data (fresh 4096 8 false) + MB (conf 16 false) * BS (conf 16 false))) [get 5; get 100; ODeallocate 0; get 3] /\
  (exists s', run (conf 16 false) 50 (fresh 4096 8 false) [get 5; get 100; ODeallocate 0; get 3] =
     Ok (s', [EAllocate 5 1 4096 []; EAllocate 100 1 0 []; EDeallocate 0 []; EAllocate 3 1 4104 []])) /\
  busy_ops [get 5; get 100; ODeallocate 0; get 3] [EAllocate 5 1 4096 []; EAllocate 100 1 0 []; EDeallocate 0 []; EAllocate 3 1 4104 []] =
    [get 5; get 3] /\
  Forall (fair_op (4096 + 32)) [ask 8; ask 100; ask 8] /\
  exists s, mono_run true (mono_construct 4096 32 true) [ask 8; ask 100; ask 8] =
    Ok (s, [EAllocate 8 1 4096 []; EAllocate 100 1 0 [UpAllocate 100 1]; EAllocate 8 1 4104 []]).
Proof.
  split; [exact made_16|].
  assert (P1 : pow2 1) by (exists 0; split; [lia|reflexivity]).
  split; [repeat constructor; cbn [data fresh MB BS conf]; try lia; exact P1|].
  split; [eexists; vm_compute; reflexivity|]. split; [reflexivity|].
  split; [repeat constructor; try lia; exact P1|]. eexists. vm_compute. reflexivity.
Qed.
