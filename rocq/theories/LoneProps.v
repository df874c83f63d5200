(** C156: the upstream has no influence on what the buffer serves. *)

Require Import ZArith Lia List Bool.
Require Import Verif.Outcome Verif.BitsSpec Verif.SimpleSpec Verif.SimpleModel Verif.SimpleView Verif.SimpleProofs Verif.SimpleRefuted.
Require Import Verif.MonoModel Verif.LoneSpec Verif.LoneProofs.
Import ListNotations.
Open Scope Z_scope.

(** Two simple_resources over the same buffer, one with an upstream and one without: every
    history, misuse included, has the same outcome on both (abort, undefined behaviour or
    endless loop included), the requests that went upstream being answered with null
    instead, and leaves the same books; provided what comes from the upstream is aligned
    to blocks. *)
Theorem C156_without_partial : forall c b n s s0 fuel ops, made c b n true s -> made c b n false s0 -> Forall sane_op ops ->
  Forall (block_aligned (DBG c) (BS c) (data s) (bc s * BS c)) ops ->
  run c fuel s0 (map (lone_op (data s) (bc s * BS c)) ops) = lone_outcome lone (data s) (bc s * BS c) (run c fuel s ops).
Proof. exact simple_lone. Qed.
Print Assumptions C156_without_partial.

(** Hence two upstreams that answer differently make no difference to what the buffer
    serves. *)
Theorem C156_two_upstreams_partial : forall c b n s fuel ops ops', made c b n true s -> Forall sane_op ops -> Forall sane_op ops' ->
  Forall (block_aligned (DBG c) (BS c) (data s) (bc s * BS c)) ops -> Forall (block_aligned (DBG c) (BS c) (data s) (bc s * BS c)) ops' ->
  map (lone_op (data s) (bc s * BS c)) ops = map (lone_op (data s) (bc s * BS c)) ops' ->
  lone_outcome lone (data s) (bc s * BS c) (run c fuel s ops) = lone_outcome lone (data s) (bc s * BS c) (run c fuel s ops').
Proof. exact simple_two. Qed.
Print Assumptions C156_two_upstreams_partial.

(** monotonic_buffer_resource: the same for every history, buffer and build, with no condition. *)
Theorem C156_monotonic : forall dbg b n ops,
  mono_run dbg (mono_construct b n false) (map (lone_op b n) ops) = lone_outcome lone_mono b n (mono_run dbg (mono_construct b n true) ops).
Proof. exact mono_lone. Qed.
Print Assumptions C156_monotonic.

(** The condition is needed: a debug build aborts on an upstream's answer that is not aligned
    to blocks, however small the alignment asked for; without an upstream the call returns null. *)
Theorem C156_answer_refuted : forall fuel,
  run (conf 8 true) (S fuel) (fresh 4096 8 true) [OAllocate 100 1 (fun _ _ => 9001)] = Abort /\
  run (conf 8 true) (S fuel) (fresh 4096 8 false) [OAllocate 100 1 (fun _ _ => 0)] = Ok (fresh 4096 8 false, [EAllocate 100 1 0 []]).
Proof. exact odd_answers. Qed.
Print Assumptions C156_answer_refuted.

(** ... and every build aborts when such memory is given back. *)
Theorem C156_return_refuted : forall dbg fuel,
  run (conf 8 dbg) fuel (fresh 4096 8 true) [ODeallocate 9001] = Abort /\
  run (conf 8 dbg) fuel (fresh 4096 8 false) [ODeallocate 0] = Ok (fresh 4096 8 false, [EDeallocate 0 []]).
Proof. exact odd_returns. Qed.
Print Assumptions C156_return_refuted.

(** a buffer of 8 blocks at 4096: two requests are served, one goes upstream, all are given back *)
Example C156_instance : forall dbg,
  let ops := [get 5; OAllocate 100 16 (fun _ _ => 9008); OAllocate 1 16 (fun _ _ => 9012); ODeallocate 9008; ODeallocate 4096; get 9] in
  made (conf 8 dbg) 4096 32 true (fresh 4096 8 true) /\ made (conf 8 dbg) 4096 32 false (fresh 4096 8 false) /\
  Forall sane_op ops /\ Forall (block_aligned dbg 4 4096 32) ops /\
  (exists s, run (conf 8 dbg) 9 (fresh 4096 8 true) ops =
     Ok (s, [EAllocate 5 1 4096 []; EAllocate 100 16 9008 [UpAllocate 100 16]; EAllocate 1 16 4112 [];
             EDeallocate 9008 [UpDeallocate 9008]; EDeallocate 4096 []; EAllocate 9 1 4096 []])) /\
  (exists s, run (conf 8 dbg) 9 (fresh 4096 8 false) (map (lone_op 4096 32) ops) =
     Ok (s, [EAllocate 5 1 4096 []; EAllocate 100 16 0 []; EAllocate 1 16 4112 [];
             EDeallocate 0 []; EDeallocate 4096 []; EAllocate 9 1 4096 []])) /\
  run (conf 8 dbg) 9 (fresh 4096 8 true) (ops ++ [ODeallocate 4112; ODeallocate 4112]) = Abort /\
  run (conf 8 dbg) 9 (fresh 4096 8 false) (map (lone_op 4096 32) (ops ++ [ODeallocate 4112; ODeallocate 4112])) = Abort /\
  (exists s, mono_run dbg (mono_construct 4096 32 false) (map (lone_op 4096 32) ops) =
     Ok (s, [EAllocate 5 1 4096 []; EAllocate 100 16 0 []; EAllocate 1 16 4112 [];
             EDeallocate 0 []; EDeallocate 4096 []; EAllocate 9 1 4113 []])).
Proof.
  intros dbg. cbv zeta.
  assert (P16 : pow2 16) by (exists 4; split; [lia|reflexivity]). assert (P1 : pow2 1) by exact pow2_1.
  split; [apply made_up|]. split; [apply made_up|].
  split; [repeat constructor; cbn; auto; lia|].
  split.
  { repeat constructor; cbn [block_aligned get]; unfold answer_fits;
      try (intros _; split; [lia|]); try (split; [lia|]); try (intros E; vm_compute in E; discriminate E); try (intros _);
      first [exists 0; reflexivity|exists 2252; reflexivity|exists 2253; reflexivity]. }
  split; [eexists; destruct dbg; vm_compute; reflexivity|].
  split; [eexists; destruct dbg; vm_compute; reflexivity|].
  split; [destruct dbg; vm_compute; reflexivity|]. split; [destruct dbg; vm_compute; reflexivity|].
  eexists; destruct dbg; vm_compute; reflexivity.
Qed.
