(** C166: different objects are packed one behind the other. *)

Require Import ZArith Lia List Bool.
Require Import Verif.Outcome Verif.Machine Verif.BitsSpec.
Require Import Verif.SimpleModel Verif.SimpleSpec Verif.SimpleView Verif.SimpleProofs Verif.SimpleRefuted Verif.SimpleExamples.
Require Import Verif.MonoModel Verif.MonoSpec Verif.MonoProofs Verif.RoomSpec Verif.PackSpec Verif.PackProofs.
Import ListNotations.
Open Scope Z_scope.
Open Scope res_scope.

(** monotonic_buffer_resource, after any history: objects in the order of their alignments, from the
    largest to the smallest, are served at p and directly behind one another exactly when one request
    for the sum of their sizes is served at p; and the resource is left in the same state. *)
Theorem C166_monotonic : forall dbg buffer size up ops s es sz al rq ans p s1, mono_made buffer size ->
  Forall (fair_op (buffer + size)) ops -> mono_run dbg (mono_construct buffer size up) ops = Ok (s, es) ->
  ordered al ((sz, al) :: rq) -> buffer + size + al + total_of (fun x => x) ((sz, al) :: rq) <= 2 ^ 64 -> p <> 0 ->
  (mono_run dbg (mono_construct buffer size up) (ops ++ [OAllocate (total_of (fun x => x) ((sz, al) :: rq)) al ans]) =
     Ok (s1, es ++ [EAllocate (total_of (fun x => x) ((sz, al) :: rq)) al p []]) <->
   mono_run dbg (mono_construct buffer size up) (ops ++ requests ans ((sz, al) :: rq)) =
     Ok (s1, es ++ packed (fun x => x) p ((sz, al) :: rq))).
Proof. exact mono_packed. Qed.
Print Assumptions C166_monotonic.

(** A simple_resource just made, in debug or release builds: requests of any sizes, aligned at most as
    the blocks are, are served from the first block on, each directly behind the blocks of the one
    before it, if the blocks of all of them are in the buffer. *)
Theorem C166_simple : forall c buffer size_b up s, made c buffer size_b up s ->
  forall fuel, (Z.to_nat (bc s) < fuel)%nat ->
  forall rq ans, Forall (fun r => 0 < fst r /\ pow2 (snd r) /\ snd r <= BS c /\ fst r + snd r <= 2 ^ 64) rq ->
  total_of (given (BS c)) rq <= bc s ->
  exists s', run c fuel s (requests ans rq) = Ok (s', packed (fun sz => given (BS c) sz * BS c) (data s) rq).
Proof. exact simple_packed. Qed.
Print Assumptions C166_simple.

(** a byte, then objects of 16, 4 and 1 bytes; requests for 5, 1 and 9 bytes, 6 blocks in all, in 8 blocks of 4 bytes *)
Example C166_instance : forall dbg,
  mono_made 4096 64 /\ Forall (fair_op (4096 + 64)) [get 1] /\ ordered 8 [(16, 8); (4, 4); (1, 1)] /\
  total_of (fun x => x) [(16, 8); (4, 4); (1, 1)] = 21 /\
  (exists s1, mono_run dbg (mono_construct 4096 64 false) ([get 1] ++ [OAllocate 21 8 (fun _ _ => 0)]) =
     Ok (s1, [EAllocate 1 1 4096 []; EAllocate 21 8 4104 []]) /\
   mono_run dbg (mono_construct 4096 64 false) ([get 1] ++ requests (fun _ _ => 0) [(16, 8); (4, 4); (1, 1)]) =
     Ok (s1, [EAllocate 1 1 4096 []; EAllocate 16 8 4104 []; EAllocate 4 4 4120 []; EAllocate 1 1 4124 []])) /\
  made (conf 8 dbg) 4096 32 false (fresh 4096 8 false) /\ total_of (given 4) [(5, 2); (1, 1); (9, 4)] = 6 /\
  (exists s1, run (conf 8 dbg) 60 (fresh 4096 8 false) (requests (fun _ _ => 0) [(5, 2); (1, 1); (9, 4)]) =
     Ok (s1, [EAllocate 5 2 4096 []; EAllocate 1 1 4104 []; EAllocate 9 4 4108 []])).
Proof.
  intros dbg. split; [unfold mono_made; lia|].
  split; [apply Forall_cons; [split; [lia|]; split; [exact pow2_1|lia]|apply Forall_nil]|].
  split.
  { cbn [ordered]. split; [lia|]. split; [exists 3; split; [lia|reflexivity]|]. split; [lia|]. split; [exists 2; lia|].
    split; [lia|]. split; [exists 2; split; [lia|reflexivity]|]. split; [lia|]. split; [exists 1; lia|].
    split; [lia|]. split; [exact pow2_1|]. split; [lia|]. split; [exists 1; lia|exact I]. }
  split; [reflexivity|]. split.
  { eexists. split; [destruct dbg; vm_compute; reflexivity|destruct dbg; vm_compute; reflexivity]. }
  split; [exact (made_8 dbg)|]. split; [reflexivity|]. eexists. destruct dbg; vm_compute; reflexivity.
Qed.
