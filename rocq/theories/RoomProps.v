(** Property C149: when there is room for a request, by what the client holds. *)

Require Import ZArith Lia List Bool.
Require Import Verif.Outcome Verif.Machine Verif.BitsSpec.
Require Import Verif.SimpleModel Verif.SimpleSpec Verif.SimpleView Verif.SimpleMainProofs Verif.SimpleRefuted Verif.SimpleExamples.
Require Import Verif.MonoModel Verif.MonoSpec Verif.MonoProofs Verif.RoomSpec Verif.RoomProofs.
Import ListNotations.
Open Scope Z_scope.
Open Scope res_scope.

(** C149 for a client whose requests all need [k] blocks: however it takes and gives back, a request is
    served if and only if one more allocation of [k] blocks fits beside the live ones; nothing is
    ever lost to fragmentation *)
Theorem C149_pool : forall c buffer size_b up s, made c buffer size_b up s ->
  forall fuel, (Z.to_nat (bc s) < fuel)%nat ->
  forall k ops size align ans, 0 < k -> (k + 1) * BS c <= 2 ^ 64 -> 0 < size ->
  pool_client (data s) (BS c) (bc s) k up (ops ++ [OAllocate size align ans]) ->
  exists s' es e, run c fuel s (ops ++ [OAllocate size align ans]) = Ok (s', es ++ [e]) /\
    (served e <-> (Z.of_nat (length (live es)) + 1) * k <= bc s).
Proof. exact pool_room. Qed.
Print Assumptions C149_pool.

(** for a client that gives back in the opposite order: if and only if its blocks are left *)
Theorem C149_stack : forall c buffer size_b up s, made c buffer size_b up s ->
  forall fuel, (Z.to_nat (bc s) < fuel)%nat ->
  forall ops size align ans, 0 < size ->
  stack_client (data s) (BS c) (bc s) up (ops ++ [OAllocate size align ans]) ->
  exists s' es e, run c fuel s (ops ++ [OAllocate size align ans]) = Ok (s', es ++ [e]) /\
    (served e <-> taken (BS c) (live es) + given (BS c) size <= bc s).
Proof. exact stack_room. Qed.
Print Assumptions C149_stack.

(** for every client for which the search is right: at the latest when one block more is left *)
Theorem C149_careful : forall c buffer size_b up s, made c buffer size_b up s ->
  forall fuel, (Z.to_nat (bc s) < fuel)%nat ->
  forall ops size align ans, 0 < size -> align <= BS c ->
  careful_client (data s) (BS c) (bc s) up (ops ++ [OAllocate size align ans]) ->
  exists s' es e, run c fuel s (ops ++ [OAllocate size align ans]) = Ok (s', es ++ [e]) /\
    (taken (BS c) (live es) + given (BS c) size < bc s -> served e) /\
    (served e -> taken (BS c) (live es) + given (BS c) size <= bc s).
Proof. exact careful_room. Qed.
Print Assumptions C149_careful.

(** for a client that takes block 0 first and keeps it (any other calls in any order; debug builds,
    calls that return): at the latest when more is left than one block less than asked for, for each
    live allocation *)
Theorem C149_pinned : forall c buffer size_b up s, made c buffer size_b up s ->
  forall fuel sz al an ops size align ans s' es, DBG c = true -> 0 < sz < BS c -> pow2 al -> al <= BS c -> sz + al <= 2 ^ 64 ->
  pinned_client (data s) (BS c) (bc s) up (ops ++ [OAllocate size align ans]) ->
  run c fuel s (OAllocate sz al an :: ops ++ [OAllocate size align ans]) = Ok (s', es) -> 0 < size -> align <= BS c ->
  exists es0 e, es = es0 ++ [e] /\
    (taken (BS c) (live es0) + Z.of_nat (length (live es0)) * (given (BS c) size - 1) < bc s -> served e) /\
    (served e -> taken (BS c) (live es0) + given (BS c) size <= bc s).
Proof. exact pinned_room. Qed.
Print Assumptions C149_pinned.

(** monotonic_buffer_resource: at the latest when the rest is enough with all the padding that the
    alignments can ask for *)
Theorem C149_monotonic : forall dbg buffer size up ops sz align ans, mono_made buffer size -> buffer <> 0 ->
  Forall (fair_op (buffer + size)) (ops ++ [OAllocate sz align ans]) -> 0 < sz ->
  exists s es e, mono_run dbg (mono_construct buffer size up) (ops ++ [OAllocate sz align ans]) = Ok (s, es ++ [e]) /\
    (padded es + (sz + align - 1) <= size -> served e) /\
    (served e -> bytes (handed es) + sz <= size).
Proof. exact mono_room. Qed.
Print Assumptions C149_monotonic.

(** in 8 blocks of 4 bytes: four allocations of two blocks and no fifth; the end of the stack, of the
    client that keeps block 0 and of the buffer *)
Definition fives : list op := [get 5; get 5; get 5; get 5].
Example C149_instance :
  made (conf 8 true) 4096 32 false (fresh 4096 8 false) /\
  pool_client 4096 4 8 2 false (fives ++ [get 5]) /\
  (exists s', run (conf 8 true) 50 (fresh 4096 8 false) (fives ++ [get 5]) =
     Ok (s', [EAllocate 5 1 4096 []; EAllocate 5 1 4104 []; EAllocate 5 1 4112 []; EAllocate 5 1 4120 []] ++ [EAllocate 5 1 0 []])) /\
  pool_client 4096 4 8 2 false ([get 5; get 7; ODeallocate 4096] ++ [get 6]) /\
  careful_client 4096 4 8 false ([get 5; get 7; ODeallocate 4096] ++ [get 6]) /\
  stack_client 4096 4 8 false ([get 5; ODeallocate 4096; get 9] ++ [get 3]) /\
  pinned_client 4096 4 8 false ([get 5; get 1; ODeallocate 4100] ++ [get 3]) /\
  taken 4 [(4096, 2); (4108, 1)] + 2 * (given 4 3 - 1) < 8 /\
  Forall (fair_op (4096 + 32)) ([ask 8; OAllocate 8 16 (fun _ _ => 0)] ++ [OAllocate 1 8 (fun _ _ => 0)]) /\
  padded [EAllocate 8 1 4096 []; EAllocate 8 16 4112 []] + (1 + 8 - 1) = 39 /\
  exists s, mono_run true (mono_construct 4096 32 false) ([ask 8; OAllocate 8 16 (fun _ _ => 0)] ++ [OAllocate 1 8 (fun _ _ => 0)]) =
    Ok (s, [EAllocate 8 1 4096 []; EAllocate 8 16 4112 []] ++ [EAllocate 1 8 4120 []]).
Proof.
  assert (M : made (conf 8 true) 4096 32 false (fresh 4096 8 false)) by exact (made_8 true).
  split; [exact M|].
  assert (P : forall rs k, 4 < k < 8 -> pool_request 4 2 rs k 1) by (intros rs k H; unfold pool_request; lia).
  split.
  { unfold pool_client, fives. cbn [app valid_client].
    do 4 (split; [apply get_valid; [lia|apply P; lia]|]; intros ? ? _). split; [apply get_valid; [lia|apply P; lia]|]. auto. }
  split; [eexists; vm_compute; reflexivity|]. split; [exact pool_example|].
  split; [apply (SimpleMainProofs.pool_is_careful _ _ _ _ _ 2 _ M); [lia|cbn; lia|exact pool_example]|].
  split; [exact stack_example|]. split; [exact pinned_example|]. split; [vm_compute; reflexivity|].
  split; [|split; [reflexivity|eexists; vm_compute; reflexivity]].
  assert (P0 : pow2 1) by (exists 0; split; [lia|reflexivity]).
  assert (P3 : pow2 8) by (exists 3; split; [lia|reflexivity]).
  assert (P4 : pow2 16) by (exists 4; split; [lia|reflexivity]).
  repeat constructor; try lia; assumption.
Qed.
