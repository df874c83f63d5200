(** C161: asking for less succeeds where asking for more does. *)

Require Import ZArith Lia List Bool.
Require Import Verif.Outcome Verif.Machine Verif.BitsSpec.
Require Import Verif.SimpleModel Verif.SimpleSpec Verif.SimpleView Verif.SimpleProofs Verif.SimpleMainProofs Verif.SimpleRefuted Verif.SimpleExamples.
Require Import Verif.MonoModel Verif.MonoSpec Verif.RoomSpec Verif.LoneProofs Verif.LessSpec Verif.LessProofs.
Require Verif.LargerProofs.
Import ListNotations.
Open Scope Z_scope.
Open Scope res_scope.

(** A monotonic_buffer_resource, after any history of calls that do not lead out of the address
    space: if a request is served from the buffer, so would be any that asks for less, in its
    place, and it would begin and end no later, so at least as much would be left. *)
Theorem C161_monotonic_partial : forall dbg buffer size up ops sz al ans s es e, mono_made buffer size ->
  Forall (fair_op (buffer + size)) (ops ++ [OAllocate sz al ans]) ->
  mono_run dbg (mono_construct buffer size up) (ops ++ [OAllocate sz al ans]) = Ok (s, es ++ [e]) -> served e ->
  forall sz' al' ans', asks_less sz' al' sz al ->
  exists s' e', mono_run dbg (mono_construct buffer size up) (ops ++ [OAllocate sz' al' ans']) = Ok (s', es ++ [e']) /\
    served e' /\ no_later e' e.
Proof. exact mono_less. Qed.
Print Assumptions C161_monotonic_partial.

(** Missing: requests whose end wraps around.  64 bytes at 4096: a request for 2^64 - 8 bytes is
    served, one for 65 bytes is not. *)
Theorem C161_monotonic_refuted : forall dbg, exists s s',
  mono_run dbg (mono_construct 4096 64 false) [OAllocate (2 ^ 64 - 8) 1 (fun _ _ => 0)] = Ok (s, [EAllocate (2 ^ 64 - 8) 1 4096 []]) /\
  mono_run dbg (mono_construct 4096 64 false) [OAllocate 65 1 (fun _ _ => 0)] = Ok (s', [EAllocate 65 1 0 []]).
Proof. exact mono_less_refused. Qed.
Print Assumptions C161_monotonic_refuted.

(** A simple_resource, in both builds, after any history for which its search is right (C53): the
    same. *)
Theorem C161_careful_partial : forall c buffer size_b up s, made c buffer size_b up s ->
  forall fuel, (Z.to_nat (bc s) < fuel)%nat ->
  forall ops sz al ans sz' al' ans', asks_less sz' al' sz al ->
  careful_client (data s) (BS c) (bc s) up (ops ++ [OAllocate sz al ans]) ->
  careful_client (data s) (BS c) (bc s) up (ops ++ [OAllocate sz' al' ans']) ->
  exists s1 s2 es e e', run c fuel s (ops ++ [OAllocate sz al ans]) = Ok (s1, es ++ [e]) /\
    run c fuel s (ops ++ [OAllocate sz' al' ans']) = Ok (s2, es ++ [e']) /\
    (served e -> served e' /\ no_later e' e).
Proof. exact careful_less. Qed.
Print Assumptions C161_careful_partial.

(** In debug builds, after any history of calls, good or bad: if a request is served from the
    buffer, so would be any in its place that asks for less, for no more than block alignment and
    for a size that is not a multiple of the block size. *)
Theorem C161_odd_partial : forall c buffer size up s fuel ops sz al ans s1 es e, made c buffer size up s -> DBG c = true ->
  Forall sane_op (ops ++ [OAllocate sz al ans]) -> sz + al <= 2 ^ 64 -> (2 * Z.to_nat (bc s) + 1 < fuel)%nat ->
  run c fuel s (ops ++ [OAllocate sz al ans]) = Ok (s1, es ++ [e]) -> served e ->
  forall sz' al' ans', asks_less sz' al' sz al -> ~ (BS c | sz') -> al' <= BS c ->
  exists s2 e', run c fuel s (ops ++ [OAllocate sz' al' ans']) = Ok (s2, es ++ [e']) /\ served e'.
Proof. exact odd_less. Qed.
Print Assumptions C161_odd_partial.

(** For all other requests for less, exactly: the search for it comes upon one block [i] that can hold
    it; it is served if this leaves a byte to spare there, and the program is aborted if it does
    not.  It is never refused, passed on or searched for without end. *)
Theorem C161_exact_partial : forall c buffer size up s fuel ops sz al ans s1 es e, made c buffer size up s -> DBG c = true ->
  Forall sane_op (ops ++ [OAllocate sz al ans]) -> sz + al <= 2 ^ 64 -> (2 * Z.to_nat (bc s) + 1 < fuel)%nat ->
  run c fuel s (ops ++ [OAllocate sz al ans]) = Ok (s1, es ++ [e]) -> served e ->
  forall sz' al' ans', asks_less sz' al' sz al ->
  exists s0 i, run c fuel s ops = Ok (s0, es) /\
    search_from_0 (data s) (BS c) (bc s) (nxt s0) (inuse s0) sz' al' (Some (Holds i)) /\
    (forall j, search_from_0 (data s) (BS c) (bc s) (nxt s0) (inuse s0) sz' al' (Some (Holds j)) -> j = i) /\
    ((exists s2 e', run c fuel s (ops ++ [OAllocate sz' al' ans']) = Ok (s2, es ++ [e']) /\ served e') <->
     can_hold_spare (data s) (BS c) (from_block (nxt s0) (bc s) i) sz' al') /\
    (run c fuel s (ops ++ [OAllocate sz' al' ans']) = Abort <->
     ~ can_hold_spare (data s) (BS c) (from_block (nxt s0) (bc s) i) sz' al').
Proof. exact debug_less. Qed.
Print Assumptions C161_exact_partial.

(** And that happens: blocks of 4 bytes, the first one free, the second in use.  A request for 5 bytes
    is served from the third block, one for 4 bytes in its place aborts the program. *)
Theorem C161_less_refuted : exists s es,
  run (conf 8 true) 60 (fresh 4096 8 true) ([get 3; get 3; ODeallocate 4096] ++ [get 5]) = Ok (s, es ++ [EAllocate 5 1 4104 []]) /\
  run (conf 8 true) 60 (fresh 4096 8 true) ([get 3; get 3; ODeallocate 4096] ++ [get 4]) = Abort.
Proof. exact less_aborts. Qed.
Print Assumptions C161_less_refuted.

(** Nor in release builds: 5 blocks of 4 bytes, the first two and the last lent out.  A request for 14
    bytes is served, if from memory that is partly in use; one for 8 bytes in its place, which fills the two blocks
    between, writes outside of the table of blocks. *)
Theorem C161_release_refuted : exists s es,
  run (conf 5 false) 60 (fresh 4096 5 false) ([get 4; OAllocate 2 16 (fun _ _ => 0)] ++ [OAllocate 14 2 (fun _ _ => 0)]) =
    Ok (s, es ++ [EAllocate 14 2 4100 []]) /\
  run (conf 5 false) 60 (fresh 4096 5 false) ([get 4; OAllocate 2 16 (fun _ _ => 0)] ++ [get 8]) = UB.
Proof. exact less_outside. Qed.
Print Assumptions C161_release_refuted.

(** 9 bytes and 7 bytes behind two allocations; 9 bytes and 3 bytes after one was given back; 20 bytes
    aligned to 16 and 16 bytes aligned to 2 behind 3 bytes of a monotonic buffer *)
Example C161_instance : forall dbg,
  made (conf 8 dbg) 4096 32 false (fresh 4096 8 false) /\ made (conf 8 dbg) 4096 32 true (fresh 4096 8 true) /\
  asks_less 7 1 9 1 /\ asks_less 3 1 9 1 /\ asks_less 16 2 20 16 /\
  careful_client 4096 4 8 false ([get 5; get 3] ++ [get 9]) /\ careful_client 4096 4 8 false ([get 5; get 3] ++ [get 7]) /\
  (exists s1 s2, run (conf 8 dbg) 60 (fresh 4096 8 false) ([get 5; get 3] ++ [get 9]) =
     Ok (s1, [EAllocate 5 1 4096 []; EAllocate 3 1 4104 []] ++ [EAllocate 9 1 4108 []]) /\
   run (conf 8 dbg) 60 (fresh 4096 8 false) ([get 5; get 3] ++ [get 7]) =
     Ok (s2, [EAllocate 5 1 4096 []; EAllocate 3 1 4104 []] ++ [EAllocate 7 1 4108 []])) /\
  Forall sane_op ([get 3; get 3; ODeallocate 4096] ++ [get 9]) /\ ~ (4 | 3) /\
  (exists s1 s2, run (conf 8 true) 60 (fresh 4096 8 true) ([get 3; get 3; ODeallocate 4096] ++ [get 9]) =
     Ok (s1, [EAllocate 3 1 4096 []; EAllocate 3 1 4100 []; EDeallocate 4096 []] ++ [EAllocate 9 1 4104 []]) /\
   run (conf 8 true) 60 (fresh 4096 8 true) ([get 3; get 3; ODeallocate 4096] ++ [get 3]) =
     Ok (s2, [EAllocate 3 1 4096 []; EAllocate 3 1 4100 []; EDeallocate 4096 []] ++ [EAllocate 3 1 4096 []])) /\
  Forall (fair_op (4096 + 64)) ([get 3] ++ [OAllocate 20 16 (fun _ _ => 0)]) /\
  (exists s1 s2, mono_run dbg (mono_construct 4096 64 false) ([get 3] ++ [OAllocate 20 16 (fun _ _ => 0)]) =
     Ok (s1, [EAllocate 3 1 4096 []] ++ [EAllocate 20 16 4112 []]) /\
   mono_run dbg (mono_construct 4096 64 false) ([get 3] ++ [OAllocate 16 2 (fun _ _ => 0)]) =
     Ok (s2, [EAllocate 3 1 4096 []] ++ [EAllocate 16 2 4100 []])).
Proof.
  intros dbg.
  assert (P1 : pow2 1) by exact pow2_1. assert (P2 : pow2 2) by (exists 1; split; [lia|reflexivity]).
  assert (P16 : pow2 16) by (exists 4; split; [lia|reflexivity]).
  assert (M : made (conf 8 dbg) 4096 32 false (fresh 4096 8 false)) by exact (made_8 dbg).
  split; [exact M|]. split; [apply made_up|].
  split; [split; [lia|split; [exact P1|lia]]|]. split; [split; [lia|split; [exact P1|lia]]|]. split; [split; [lia|split; [exact P2|lia]]|].
  assert (ST : forall k, 0 < k < 32 -> ~ (4 | k) -> careful_client 4096 4 8 false ([get 5; get 3] ++ [get k])).
  { intros k K ND. apply (SimpleMainProofs.stack_is_careful _ _ _ _ _ _ M). unfold stack_client. cbn [app valid_client].
    split; [apply get_valid; [lia|split; [lia|split; [cbn; lia|intros [x X]; cbn in X; lia]]]|]. intros ? ? _.
    split; [apply get_valid; [lia|split; [lia|split; [cbn; lia|intros [x X]; cbn in X; lia]]]|]. intros ? ? _.
    split; [apply get_valid; [lia|split; [lia|split; [cbn; lia|exact ND]]]|]. auto. }
  split; [apply ST; [lia|intros [x X]; lia]|]. split; [apply ST; [lia|intros [x X]; lia]|].
  split; [eexists; eexists; split; destruct dbg; vm_compute; reflexivity|].
  split; [repeat constructor; cbn [sane_op get]; auto; lia|]. split; [intros [x X]; lia|].
  split; [eexists; eexists; split; vm_compute; reflexivity|].
  split; [repeat constructor; cbn [fair_op get]; auto; lia|].
  eexists; eexists; split; destruct dbg; vm_compute; reflexivity.
Qed.

(** the resource of C161_release_refuted is an ordinary one, and the requests are *)
Example C161_release_instance : made (conf 5 false) 4096 20 false (fresh 4096 5 false) /\ asks_less 8 1 14 2.
Proof. split; [apply (LargerProofs.made_n 5 5); lia|]. split; [lia|]. split; [exact pow2_1|lia]. Qed.
