(** C163: a larger buffer serves whatever a smaller one does. *)

Require Import ZArith Lia List Bool.
Require Import Verif.Outcome Verif.Machine Verif.BitsSpec.
Require Import Verif.SimpleModel Verif.SimpleSpec Verif.SimpleView Verif.SimpleProofs Verif.SimpleMainProofs Verif.SimpleRefuted Verif.SimpleExamples.
Require Import Verif.MonoModel Verif.MonoSpec Verif.LargerSpec Verif.LargerProofs.
Import ListNotations.
Open Scope Z_scope.
Open Scope res_scope.

(** Two monotonic_buffer_resources on buffers that begin at one address: every history of calls, all
    of which the smaller one deals with on its own, has the same results with the larger one. *)
Theorem C163_monotonic : forall dbg buffer size size' up ops s es, mono_made buffer size -> mono_made buffer size' -> size <= size' ->
  mono_run dbg (mono_construct buffer size up) ops = Ok (s, es) -> Forall from_buffer es ->
  exists s', mono_run dbg (mono_construct buffer size' up) ops = Ok (s', es).
Proof. exact mono_larger. Qed.
Print Assumptions C163_monotonic.

(** Two simple_resources, of types with the same BlockSize, the second with the same or a larger
    MaxBlockCount, in debug or release builds, on buffers that begin at one address: the same, for
    all histories for which the search of the smaller one is right (C53). *)
Theorem C163_careful_partial : forall c c' buffer size size' up s s', made c buffer size up s -> made c' buffer size' up s' ->
  BS c' = BS c -> MB c <= MB c' -> size <= size' ->
  forall fuel fuel', (Z.to_nat (bc s) < fuel)%nat -> (Z.to_nat (bc s') < fuel')%nat ->
  forall ops s1 es, careful_client (data s) (BS c) (bc s) up ops -> run c fuel s ops = Ok (s1, es) -> Forall from_buffer es ->
  exists s1', run c' fuel' s' ops = Ok (s1', es).
Proof. exact careful_larger. Qed.
Print Assumptions C163_careful_partial.

(** Not so where the search is not right: 5 blocks and 9 blocks, and a history in the course of which
    one block is granted twice.  The program with the smaller buffer goes on, the one with the larger
    buffer is aborted when the last of its allocations is given back. *)
Theorem C163_larger_refuted : exists s1 s2 es, Forall from_buffer es /\
  run (conf 16 true) 60 (fresh 4096 5 false) (twice ++ [ODeallocate 4100]) = Ok (s1, es ++ [EDeallocate 4100 []]) /\
  run (conf 16 true) 60 (fresh 4096 9 false) twice = Ok (s2, es) /\
  run (conf 16 true) 60 (fresh 4096 9 false) (twice ++ [ODeallocate 4100]) = Abort.
Proof. exact larger_aborts. Qed.
Print Assumptions C163_larger_refuted.

(** Nor in release builds: 3 blocks and 5 blocks of 4 bytes.  12 bytes fill the smaller buffer to the last
    byte; it then serves 20 bytes from the memory behind its end, which the larger one refuses. *)
Theorem C163_release_refuted : exists s1 s2,
  run (conf 16 false) 60 (fresh 4096 3 false) [get 12; OAllocate 20 16 (fun _ _ => 0)] =
    Ok (s1, [EAllocate 12 1 4096 []; EAllocate 20 16 4112 []]) /\
  run (conf 16 false) 60 (fresh 4096 5 false) [get 12; OAllocate 20 16 (fun _ _ => 0)] =
    Ok (s2, [EAllocate 12 1 4096 []; EAllocate 20 16 0 []]).
Proof. exact larger_refuses. Qed.
Print Assumptions C163_release_refuted.

(** a pool in 8 blocks and in 20; three calls on a monotonic buffer *)
Example C163_instance : forall dbg,
  made (conf 8 dbg) 4096 32 false (fresh 4096 8 false) /\ made (conf 20 dbg) 4096 80 false (fresh 4096 20 false) /\
  made (conf 16 true) 4096 20 false (fresh 4096 5 false) /\ made (conf 16 true) 4096 36 false (fresh 4096 9 false) /\
  careful_client 4096 4 8 false pool_ops /\
  (exists s1 s2 es, run (conf 8 dbg) 60 (fresh 4096 8 false) pool_ops = Ok (s1, es) /\ Forall from_buffer es /\
     es = [EAllocate 5 1 4096 []; EAllocate 7 1 4104 []; EDeallocate 4096 []; EAllocate 6 1 4096 []] /\
     run (conf 20 dbg) 60 (fresh 4096 20 false) pool_ops = Ok (s2, es)) /\
  mono_made 4096 16 /\ mono_made 4096 64 /\
  (exists s1 s2 es, mono_run dbg (mono_construct 4096 16 false) [get 3; OAllocate 8 8 (fun _ _ => 0); get 0] = Ok (s1, es) /\
     Forall from_buffer es /\ es = [EAllocate 3 1 4096 []; EAllocate 8 8 4104 []; EAllocate 0 1 0 []] /\
     mono_run dbg (mono_construct 4096 64 false) [get 3; OAllocate 8 8 (fun _ _ => 0); get 0] = Ok (s2, es)).
Proof.
  intros dbg. assert (M : made (conf 8 dbg) 4096 32 false (fresh 4096 8 false)) by exact (made_8 dbg).
  split; [exact M|]. split; [apply (made_n 20 20); lia|]. split; [apply (made_n 16 5); lia|]. split; [apply (made_n 16 9); lia|].
  split; [apply (pool_is_careful (conf 8 dbg) 4096 32 false _ 2 pool_ops M); [lia|cbn; lia|exact pool_example]|].
  split.
  { eexists. eexists. exists [EAllocate 5 1 4096 []; EAllocate 7 1 4104 []; EDeallocate 4096 []; EAllocate 6 1 4096 []].
    split; [destruct dbg; vm_compute; reflexivity|].
    split; [repeat (apply Forall_cons; [cbn [from_buffer]; first [reflexivity|split; [reflexivity|right; lia]]|]); apply Forall_nil|].
    split; [reflexivity|]. destruct dbg; vm_compute; reflexivity. }
  split; [unfold mono_made; lia|]. split; [unfold mono_made; lia|].
  eexists. eexists. exists [EAllocate 3 1 4096 []; EAllocate 8 8 4104 []; EAllocate 0 1 0 []].
  split; [destruct dbg; vm_compute; reflexivity|].
  split; [repeat (apply Forall_cons; [cbn [from_buffer]; split; [reflexivity|first [left; reflexivity|right; lia]]|]); apply Forall_nil|].
  split; [reflexivity|]. destruct dbg; vm_compute; reflexivity.
Qed.

(** the resources of C163_release_refuted are ordinary ones *)
Example C163_release_instance : made (conf 16 false) 4096 12 false (fresh 4096 3 false) /\ made (conf 16 false) 4096 20 false (fresh 4096 5 false).
Proof. split; [apply (made_n 16 3); lia|apply (made_n 16 5); lia]. Qed.
