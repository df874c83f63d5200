(** C162: holding less never hurts. *)

Require Import ZArith Lia List Bool.
Require Import Verif.Outcome Verif.Machine Verif.BitsSpec.
Require Import Verif.SimpleModel Verif.SimpleSpec Verif.SimpleView Verif.SimpleProofs Verif.SimpleMainProofs Verif.SimpleRefuted Verif.SimpleExamples.
Require Import Verif.MonoModel Verif.MonoSpec Verif.RoomSpec Verif.LessSpec Verif.HoldProofs.
Import ListNotations.
Open Scope Z_scope.
Open Scope res_scope.

(** A simple_resource, in both builds, and any two histories for which its search is right (C53), of
    which the second leaves allocated nothing that the first does not: if a request is served from the
    buffer after the first, so is it, or one that asks for less, after the second, and no later. *)
Theorem C162_careful_partial : forall c buffer size_b up s, made c buffer size_b up s ->
  forall fuel, (Z.to_nat (bc s) < fuel)%nat ->
  forall ops sz al ans ops' sz' al' ans', 0 < sz -> asks_less sz' al' sz al ->
  careful_client (data s) (BS c) (bc s) up (ops ++ [OAllocate sz al ans]) ->
  careful_client (data s) (BS c) (bc s) up (ops' ++ [OAllocate sz' al' ans']) ->
  exists s1 s2 es es' e e', run c fuel s (ops ++ [OAllocate sz al ans]) = Ok (s1, es ++ [e]) /\
    run c fuel s (ops' ++ [OAllocate sz' al' ans']) = Ok (s2, es' ++ [e']) /\
    (incl (live es') (live es) -> served e -> served e' /\ no_later e' e).
Proof. exact careful_hold. Qed.
Print Assumptions C162_careful_partial.

(** Where the search is not right: three allocations, and a request that is served.  If the second of
    them is given back first, the same request never returns. *)
Theorem C162_return_refuted : forall dbg, exists c s s1 s2 es, DBG c = dbg /\ made c 4096 32 false s /\
  run c 60 s ([get 3; get 5; get 3] ++ [get 9]) = Ok (s1, es ++ [EAllocate 9 1 4112 []]) /\
  run c 60 s ([get 3; get 5; get 3] ++ [ODeallocate 4100]) = Ok (s2, es ++ [EDeallocate 4100 []]) /\
  In (4100, 5) (live es) /\
  forall ans, never_returns (fun fuel => allocate_impl c fuel s2 9 1 ans).
Proof. exact return_hangs. Qed.
Print Assumptions C162_return_refuted.

(** A monotonic_buffer_resource and any two histories of calls that do not lead out of the address
    space, of which the second has handed out since its last release() nothing that the first has
    not: the same. *)
Theorem C162_monotonic_partial : forall dbg buffer size up ops sz al ans s es e ops' sz' al' ans' s' es', mono_made buffer size ->
  Forall (fair_op (buffer + size)) (ops ++ [OAllocate sz al ans]) ->
  mono_run dbg (mono_construct buffer size up) (ops ++ [OAllocate sz al ans]) = Ok (s, es ++ [e]) -> served e ->
  Forall (fair_op (buffer + size)) ops' -> mono_run dbg (mono_construct buffer size up) ops' = Ok (s', es') ->
  incl (handed es') (handed es) -> asks_less sz' al' sz al ->
  exists s2 e', mono_run dbg (mono_construct buffer size up) (ops' ++ [OAllocate sz' al' ans']) = Ok (s2, es' ++ [e']) /\
    served e' /\ no_later e' e.
Proof. exact mono_hold. Qed.
Print Assumptions C162_monotonic_partial.

(** Missing: requests whose end wraps around.  64 bytes at 4096: 70 bytes are refused at first, and
    served, from in front of the buffer, after a request for 2^64 - 8 bytes. *)
Theorem C162_monotonic_refuted : forall dbg, exists s s',
  mono_run dbg (mono_construct 4096 64 false) ([OAllocate (2 ^ 64 - 8) 1 (fun _ _ => 0)] ++ [get 70]) =
    Ok (s, [EAllocate (2 ^ 64 - 8) 1 4096 []] ++ [EAllocate 70 1 4088 []]) /\
  mono_run dbg (mono_construct 4096 64 false) ([] ++ [get 70]) = Ok (s', [] ++ [EAllocate 70 1 0 []]).
Proof. exact mono_hold_refused. Qed.
Print Assumptions C162_monotonic_refuted.

(** a pool that has given its first object back; a monotonic buffer that has been released *)
Example C162_instance : forall dbg,
  made (conf 8 dbg) 4096 32 false (fresh 4096 8 false) /\ asks_less 6 1 6 1 /\
  careful_client 4096 4 8 false ([get 5; get 7] ++ [get 6]) /\
  careful_client 4096 4 8 false ([get 5; get 7; ODeallocate 4096] ++ [get 6]) /\
  (exists s1 s2, run (conf 8 dbg) 60 (fresh 4096 8 false) ([get 5; get 7] ++ [get 6]) =
     Ok (s1, [EAllocate 5 1 4096 []; EAllocate 7 1 4104 []] ++ [EAllocate 6 1 4112 []]) /\
   run (conf 8 dbg) 60 (fresh 4096 8 false) ([get 5; get 7; ODeallocate 4096] ++ [get 6]) =
     Ok (s2, [EAllocate 5 1 4096 []; EAllocate 7 1 4104 []; EDeallocate 4096 []] ++ [EAllocate 6 1 4096 []])) /\
  incl (live [EAllocate 5 1 4096 []; EAllocate 7 1 4104 []; EDeallocate 4096 []]) (live [EAllocate 5 1 4096 []; EAllocate 7 1 4104 []]) /\
  Forall (fair_op (4096 + 64)) ([get 3; get 9] ++ [get 20]) /\ Forall (fair_op (4096 + 64)) [get 40; ORelease; get 3] /\
  (exists s1 s2, mono_run dbg (mono_construct 4096 64 false) ([get 3; get 9] ++ [get 20]) =
     Ok (s1, [EAllocate 3 1 4096 []; EAllocate 9 1 4099 []] ++ [EAllocate 20 1 4108 []]) /\
   mono_run dbg (mono_construct 4096 64 false) [get 40; ORelease; get 3] =
     Ok (s2, [EAllocate 40 1 4096 []; ERelease; EAllocate 3 1 4096 []])) /\
  incl (handed [EAllocate 40 1 4096 []; ERelease; EAllocate 3 1 4096 []]) (handed [EAllocate 3 1 4096 []; EAllocate 9 1 4099 []]).
Proof.
  intros dbg. assert (M : made (conf 8 dbg) 4096 32 false (fresh 4096 8 false)) by exact (made_8 dbg).
  assert (P1 : pow2 1) by exact pow2_1.
  assert (CP : forall ops, pool_client 4096 4 8 2 false ops -> careful_client 4096 4 8 false ops).
  { intros ops V. apply (pool_is_careful (conf 8 dbg) 4096 32 false _ 2 ops M); [lia|cbn; lia|exact V]. }
  split; [exact M|]. split; [split; [lia|split; [exact P1|lia]]|].
  split.
  { apply CP. unfold pool_client. cbn [app valid_client].
    split; [apply get_valid; [lia|unfold pool_request; lia]|]. intros ? ? _.
    split; [apply get_valid; [lia|unfold pool_request; lia]|]. intros ? ? _.
    split; [apply get_valid; [lia|unfold pool_request; lia]|]. auto. }
  split; [apply CP; exact pool_example|].
  split; [eexists; eexists; split; destruct dbg; vm_compute; reflexivity|].
  split; [cbn; intros a H; cbn in *; tauto|].
  split; [repeat constructor; cbn [fair_op get]; auto; lia|].
  split; [repeat constructor; cbn [fair_op get]; auto; lia|].
  split; [eexists; eexists; split; destruct dbg; vm_compute; reflexivity|].
  cbn; intros a H; cbn in *; tauto.
Qed.
