(** Property C110: what the callback of a moved timer sees of itself. *)

Require Import ZArith List Bool Lia.
Require Import Verif.Outcome Verif.TimerSpec Verif.TimerModel Verif.RelocateSpec Verif.RelocateProofs.
Import ListNotations.
Open Scope Z_scope.

(** ** C110 *)

(** a callable whose bytes do not depend on its address is intact when it is called,
    after every history *)
Theorem C110_intact_partial : forall N ops st es addr parts d ty bytes z, timer_run N no_timers ops = Ok (st, es) ->
  built addr parts ops -> Forall is_fixed (parts ty) -> In (TCalled d (ty, bytes) z) es ->
  intact addr parts d ty bytes.
Proof. exact relocated_fixed. Qed.
Print Assumptions C110_intact_partial.

(** exactly: the bytes called are those of an intact object where the callable was
    constructed; where it is called they are intact only if that is the same address or
    the callable has no pointer into itself *)
Theorem C110_exact_partial : forall N ops st es addr parts d ty bytes z, timer_run N no_timers ops = Ok (st, es) ->
  built addr parts ops -> (forall s, 0 <= addr s < 2 ^ 64) -> In (TCalled d (ty, bytes) z) es ->
  exists s now, In (TNew s now (ty, bytes)) ops /\ intact addr parts s ty bytes /\
    (intact addr parts d ty bytes <-> addr s = addr d \/ Forall is_fixed (parts ty)).
Proof. exact relocated_exact. Qed.
Print Assumptions C110_exact_partial.

(** one move is enough to break a callable with a pointer into itself: it still points
    into the timer that is gone *)
Theorem C110_intact_refuted : forall addr o, 0 <= addr 0%nat < 2 ^ 64 -> 0 <= addr 1%nat < 2 ^ 64 -> addr 0%nat <> addr 1%nat ->
  let parts := fun _ : nat => [Inside o] in
  let ops := [TNew 0 1 (5%nat, object_at (addr 0%nat) [Inside o]); TMove 1 0; TDestroy 0; TDestroy 1] in
  built addr parts ops /\ exists st bytes, timer_run 8 no_timers ops = Ok (st, [TCalled 1 (5%nat, bytes) 1]) /\
    ~ intact addr parts 1 5 bytes.
Proof. exact relocated_broken. Qed.
Print Assumptions C110_intact_refuted.

(** type 5 holds a counter and a pointer to it, type 6 only a counter *)
Example C110_instance :
  let addr s := 4096 + 64 * Z.of_nat s in
  let parts ty := if Nat.eqb ty 5 then [Fixed [42]; Inside 0] else [Fixed [43; 44]] in
  let ops := [TNew 0 1 (5%nat, [42; 0; 16; 0; 0; 0; 0; 0; 0]); TNew 1 2 (6%nat, [43; 44]); TMove 2 1; TDestroy 2; TDestroy 0] in
  built addr parts ops /\ Forall is_fixed (parts 6%nat) /\ exists st,
  timer_run 16 no_timers ops = Ok (st, [TCalled 2 (6%nat, [43; 44]) 2; TCalled 0 (5%nat, [42; 0; 16; 0; 0; 0; 0; 0; 0]) 1]) /\
  intact addr parts 2 6 [43; 44] /\ intact addr parts 0 5 [42; 0; 16; 0; 0; 0; 0; 0; 0].
Proof.
  cbn zeta. split.
  - intros s now ty bytes [E|[E|[E|[E|[E|[]]]]]]; try discriminate E; injection E as <- <- <- <-; reflexivity.
  - split; [repeat constructor|]. eexists. split; [vm_compute; reflexivity|]. split; reflexivity.
Qed.
