(** C164: objects allocated one after another lie one after another. *)

Require Import ZArith Lia List Bool.
Require Import Verif.Outcome Verif.Machine Verif.BitsSpec.
Require Import Verif.SimpleModel Verif.SimpleSpec Verif.SimpleView Verif.SimpleProofs Verif.SimpleRefuted Verif.SimpleExamples.
Require Import Verif.MonoModel Verif.MonoSpec Verif.MonoProofs Verif.RoomSpec Verif.LargerProofs Verif.RowSpec Verif.RowProofs.
Import ListNotations.
Open Scope Z_scope.
Open Scope res_scope.

(** monotonic_buffer_resource, after any history: a request for k * sz bytes is served at p, from the
    buffer, exactly when k requests for sz bytes each are served from the buffer at p, p + sz,
    p + 2 * sz and so on; and the resource is left in the same state. *)
Theorem C164_monotonic : forall dbg buffer size up ops s es sz al ans k p s1, mono_made buffer size ->
  Forall (fair_op (buffer + size)) ops -> mono_run dbg (mono_construct buffer size up) ops = Ok (s, es) ->
  0 < sz -> pow2 al -> (al | sz) -> (0 < k)%nat -> buffer + size + al + Z.of_nat k * sz <= 2 ^ 64 -> p <> 0 ->
  (mono_run dbg (mono_construct buffer size up) (ops ++ [OAllocate (Z.of_nat k * sz) al ans]) =
     Ok (s1, es ++ [EAllocate (Z.of_nat k * sz) al p []]) <->
   mono_run dbg (mono_construct buffer size up) (ops ++ repeat (OAllocate sz al ans) k) =
     Ok (s1, es ++ row sz al p sz k)).
Proof. exact mono_array. Qed.
Print Assumptions C164_monotonic.

(** A simple_resource just made, in debug or release builds: k requests for sz bytes each, aligned at
    most as the blocks are, are served from the first address of the buffer's blocks on, one right
    after the other, for every k whose blocks are in the buffer. *)
Theorem C164_simple : forall c buffer size_b up s, made c buffer size_b up s ->
  forall fuel, (Z.to_nat (bc s) < fuel)%nat ->
  forall sz al ans k, 0 < sz -> pow2 al -> al <= BS c -> sz + al <= 2 ^ 64 -> Z.of_nat k * given (BS c) sz <= bc s ->
  exists s', run c fuel s (repeat (OAllocate sz al ans) k) = Ok (s', row sz al (data s) (given (BS c) sz * BS c) k).
Proof. exact simple_row. Qed.
Print Assumptions C164_simple.

(** three objects of 8 bytes after a request for 3 bytes; three of 5 bytes, 2 blocks each, in 8 blocks of 4 bytes *)
Example C164_instance : forall dbg,
  mono_made 4096 64 /\ Forall (fair_op (4096 + 64)) [get 3] /\
  (exists s1, mono_run dbg (mono_construct 4096 64 false) [get 3; OAllocate 24 8 (fun _ _ => 0)] =
     Ok (s1, [EAllocate 3 1 4096 []; EAllocate 24 8 4104 []]) /\
   mono_run dbg (mono_construct 4096 64 false) ([get 3] ++ repeat (OAllocate 8 8 (fun _ _ => 0)) 3) =
     Ok (s1, [EAllocate 3 1 4096 []; EAllocate 8 8 4104 []; EAllocate 8 8 4112 []; EAllocate 8 8 4120 []])) /\
  made (conf 8 dbg) 4096 32 false (fresh 4096 8 false) /\ 3 * given (BS (conf 8 dbg)) 5 <= bc (fresh 4096 8 false) /\
  (exists s1, run (conf 8 dbg) 60 (fresh 4096 8 false) (repeat (OAllocate 5 2 (fun _ _ => 0)) 3) =
     Ok (s1, [EAllocate 5 2 4096 []; EAllocate 5 2 4104 []; EAllocate 5 2 4112 []])).
Proof.
  intros dbg. split; [repeat split; lia|]. split; [apply Forall_cons; [split; [lia|]; split; [exact pow2_1|lia]|apply Forall_nil]|]. split.
  { eexists. split; [destruct dbg; vm_compute; reflexivity|destruct dbg; vm_compute; reflexivity]. }
  split; [exact (made_8 dbg)|]. split; [vm_compute; discriminate|]. eexists. destruct dbg; vm_compute; reflexivity.
Qed.
