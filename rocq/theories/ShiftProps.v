(** C154: where the buffer lies in memory does not matter. *)

Require Import ZArith Lia List Bool.
Require Import Verif.Outcome Verif.BitsSpec Verif.SimpleSpec Verif.SimpleModel Verif.SimpleView Verif.SimpleProofs Verif.SimpleRefuted.
Require Import Verif.MonoModel Verif.ShiftSpec Verif.ShiftProofs.
Import ListNotations.
Open Scope Z_scope.

(** Two simple_resources of one type with buffers of one size, [d] bytes apart, [d] a
    multiple of the block size: every history (any calls, good or bad, that pass the
    alignments dividing [d]) has the same outcome on both, aborts, undefined behaviour and
    endless loops included, up to the displacement of the pointers served from the buffer,
    and leaves the same books. *)
Theorem C154_position_partial : forall c b n up s s2 d fuel ops, made c b n up s -> made c (b + d) n up s2 -> (BS c | d) ->
  Forall (movable b n (b + BS c + MB c * BS c) d) ops ->
  run c fuel s2 (map (moved_op b n d) ops) = moved_outcome (moved_simple d) b n d (run c fuel s ops).
Proof. exact simple_position. Qed.
Print Assumptions C154_position_partial.

(** The same without any restriction on the address for monotonic_buffer_resource. *)
Theorem C154_monotonic : forall dbg b n up d ops, 0 < b -> 0 < b + d -> 0 < n ->
  Forall (movable b n (b + n) d) ops ->
  mono_run dbg (mono_construct (b + d) n up) (map (moved_op b n d) ops) =
  moved_outcome (moved_mono d) b n d (mono_run dbg (mono_construct b n up) ops).
Proof. exact mono_position. Qed.
Print Assumptions C154_monotonic.

(** It is not so for every address: the first request is served from a buffer at 4096 and is
    undefined behaviour with the buffer at 2^32 (1 << ctz(address), a shift of an int). *)
Theorem C154_position_refuted : forall dbg, exists s s2,
  buffer_ok 4096 32 /\ buffer_ok (2 ^ 32) 32 /\ 2 ^ 32 + 4 + 8 * 4 < 2 ^ 64 /\
  construct (conf 8 dbg) 4096 32 false = Ok s /\ construct (conf 8 dbg) (4096 + (2 ^ 32 - 4096)) 32 false = Ok s2 /\
  (4 | 2 ^ 32 - 4096) /\ movable 4096 32 (4096 + 4 + 8 * 4) (2 ^ 32 - 4096) (get 5) /\
  (exists s', run (conf 8 dbg) 1 s [get 5] = Ok (s', [EAllocate 5 1 4096 []])) /\
  (forall fuel, run (conf 8 dbg) fuel s2 [get 5] = UB).
Proof. exact ctz_depends. Qed.
Print Assumptions C154_position_refuted.

(** The alignments have to divide the distance: 4 bytes further up a request for an 8-byte
    boundary is given another block. *)
Theorem C154_distance_refuted : forall dbg,
  let o := OAllocate 1 8 (fun _ _ => 0) in
  (exists s', run (conf 8 dbg) 1 (fresh 4096 8 false) [o] = Ok (s', [EAllocate 1 8 4096 []])) /\
  (exists s', run (conf 8 dbg) 1 (fresh 4100 8 false) [o] = Ok (s', [EAllocate 1 8 4104 []])).
Proof. exact distance_matters. Qed.
Print Assumptions C154_distance_refuted.

(** buffers at 4096 and 8192; the last call gives back a pointer twice, which aborts *)
Example C154_instance : forall dbg,
  let ops := [get 5; OAllocate 1 16 (fun _ _ => 0); ODeallocate 4096; get 9] in
  made (conf 8 dbg) 4096 32 false (fresh 4096 8 false) /\
  made (conf 8 dbg) (4096 + 4096) 32 false (fresh 8192 8 false) /\ (4 | 4096) /\
  Forall (movable 4096 32 (4096 + 4 + 8 * 4) 4096) (ops ++ [ODeallocate 4112; ODeallocate 4112]) /\
  (exists s, run (conf 8 dbg) 9 (fresh 8192 8 false) (map (moved_op 4096 32 4096) ops) =
     Ok (s, [EAllocate 5 1 8192 []; EAllocate 1 16 8208 []; EDeallocate 8192 []; EAllocate 9 1 8192 []])) /\
  run (conf 8 dbg) 9 (fresh 8192 8 false) (map (moved_op 4096 32 4096) (ops ++ [ODeallocate 4112; ODeallocate 4112])) = Abort /\
  Forall (movable 4096 32 (4096 + 32) 4096) (ops ++ [ODeallocate 4112; ODeallocate 4112]) /\
  (exists s, mono_run dbg (mono_construct (4096 + 4096) 32 true) (map (moved_op 4096 32 4096) ops) =
     Ok (s, [EAllocate 5 1 8192 []; EAllocate 1 16 8208 []; EDeallocate 8192 []; EAllocate 9 1 8209 []])).
Proof.
  intros dbg. cbv zeta.
  assert (P16 : pow2 16) by exact pow2_16. assert (P1 : pow2 1) by exact pow2_1.
  assert (D16 : (16 | 4096)) by (exists 256; reflexivity).
  split; [apply made_at; lia|]. split; [apply (made_at dbg 8192); lia|]. split; [exists 1024; reflexivity|].
  split; [repeat constructor; unfold movable, get; repeat split; try apply Z.divide_1_l; auto; lia|].
  split; [eexists; destruct dbg; vm_compute; reflexivity|].
  split; [destruct dbg; vm_compute; reflexivity|].
  split; [repeat constructor; unfold movable, get; repeat split; try apply Z.divide_1_l; auto; lia|].
  eexists; destruct dbg; vm_compute; reflexivity.
Qed.
