(** C167: after release() a simple_resource can be used again as if it were new. *)

Require Import ZArith Lia List Bool.
Require Import Verif.Outcome Verif.Machine Verif.BitsSpec.
Require Import Verif.SimpleModel Verif.SimpleSpec Verif.SimpleView Verif.SimpleProofs Verif.SimpleMainProofs Verif.SimpleRefuted Verif.SimpleExamples.
Require Import Verif.AgainProofs.
Import ListNotations.
Open Scope Z_scope.
Open Scope res_scope.

(** simple_resource, debug and release builds, clients for whose requests the search is right (C53), if
    the block at the start of the buffer is lent out, on its own, when release() is called. *)
Theorem C167_kept_partial : forall c buffer size up s, made c buffer size up s ->
  forall fuel, (enough (bc s) <= fuel)%nat ->
  forall ops ops2 s1 es sz, careful_client (data s) (BS c) (bc s) up ops -> careful_client (data s) (BS c) (bc s) up ops2 ->
  run c fuel s ops = Ok (s1, es) -> In (data s, sz) (live es) -> 0 < sz < BS c ->
  exists t1 t2 es2, run c fuel s ops2 = Ok (t1, es2) /\ run c fuel s (ops ++ ORelease :: ops2) = Ok (t2, es ++ ERelease :: es2).
Proof. exact kept_again. Qed.
Print Assumptions C167_kept_partial.

(** The same after calls for single blocks, returned or not, with any number of calls of release(). *)
Theorem C167_single_partial : forall c buffer size up s, made c buffer size up s -> 2 * BS c <= 2 ^ 64 ->
  forall fuel, (enough (bc s) <= fuel)%nat ->
  forall ops ops2, single_block_client (data s) (BS c) (bc s) up ops -> careful_client (data s) (BS c) (bc s) up ops2 ->
  exists t1 t2 es es2 s1, run c fuel s ops = Ok (s1, es) /\ run c fuel s ops2 = Ok (t1, es2) /\
    run c fuel s (ops ++ ORelease :: ops2) = Ok (t2, es ++ ERelease :: es2).
Proof. exact single_again. Qed.
Print Assumptions C167_single_partial.

(** Not otherwise: two allocations of two blocks each, of which release() gives back only the first;
    a request for the whole buffer is then refused. *)
Theorem C167_again_refuted : forall dbg, exists s1 s2,
  run (conf 8 dbg) 60 (fresh 4096 8 false) [get 29] = Ok (s1, [EAllocate 29 1 4096 []]) /\
  run (conf 8 dbg) 60 (fresh 4096 8 false) [get 5; get 5; ORelease; get 29] =
    Ok (s2, [EAllocate 5 1 4096 []; EAllocate 5 1 4104 []; ERelease; EAllocate 29 1 0 []]).
Proof. exact again_refused. Qed.
Print Assumptions C167_again_refuted.

(** single blocks, release(), then a pool of two blocks each *)
Example C167_instance : forall dbg,
  made (conf 8 dbg) 4096 32 false (fresh 4096 8 false) /\ (enough 8 <= 100)%nat /\ single_block_client 4096 4 8 false single_ops /\
  careful_client 4096 4 8 false [get 1; get 3] /\ careful_client 4096 4 8 false pool_ops /\
  (exists s1 s2, run (conf 8 dbg) 100 (fresh 4096 8 false) [get 1; get 3] = Ok (s1, [EAllocate 1 1 4096 []; EAllocate 3 1 4100 []]) /\
     In (4096, 1) (live [EAllocate 1 1 4096 []; EAllocate 3 1 4100 []]) /\
     run (conf 8 dbg) 100 (fresh 4096 8 false) ([get 1; get 3] ++ ORelease :: pool_ops) =
       Ok (s2, [EAllocate 1 1 4096 []; EAllocate 3 1 4100 []; ERelease; EAllocate 5 1 4096 []; EAllocate 7 1 4104 []; EDeallocate 4096 [];
                EAllocate 6 1 4096 []])).
Proof.
  intros dbg. assert (M : made (conf 8 dbg) 4096 32 false (fresh 4096 8 false)) by exact (made_8 dbg).
  split; [exact M|]. split; [apply Nat.leb_le; reflexivity|]. split; [exact single_example|]. split.
  { apply (pool_is_careful (conf 8 dbg) 4096 32 false _ 1 [get 1; get 3] M); [lia|cbn; lia|].
    assert (P : forall rs k, 0 < k < 4 -> pool_request 4 1 rs k 1) by (intros rs k H; unfold pool_request; lia).
    unfold pool_client. cbn [valid_client].
    split; [apply get_valid; [lia|apply P; lia]|]. intros rs1 e1 S1.
    split; [apply get_valid; [lia|apply P; lia]|]. intros; exact I. }
  split; [apply (pool_is_careful (conf 8 dbg) 4096 32 false _ 2 pool_ops M); [lia|cbn; lia|exact pool_example]|].
  do 2 eexists. split; [destruct dbg; vm_compute; reflexivity|]. split; [cbn; auto|destruct dbg; vm_compute; reflexivity].
Qed.
