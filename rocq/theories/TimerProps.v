(** Properties C75-C77, C84: timer.h. *)

Require Import ZArith List Bool Lia Permutation.
Require Import Verif.Outcome Verif.TimerSpec Verif.TimerModel Verif.TimerProofs.
Import ListNotations.
Open Scope Z_scope.

(** C75: in every history that never overwrites a timer which still owns a
    callable, the owner of a callable calls it, at its destruction and never else;
    when all timers are gone every callable was called exactly once *)
Theorem C75_called_once_partial : forall N ops st es, timer_run N no_timers ops = Ok (st, es) -> no_overwrite [] ops ->
  calls_seen es = expected_calls [] ops /\
  Permutation (given ops) (called es ++ map snd (owners ops)) /\
  (forall s, (length (owned_by (owners ops) s) <= 1)%nat) /\
  ((forall s, st s = None) -> Permutation (given ops) (called es)).
Proof. exact callbacks_once. Qed.
Print Assumptions C75_called_once_partial.

(** every program that uses its timers well runs, and the timers that exist are the
    ones constructed and not destroyed *)
Theorem C75_runs : forall N ops, well_used N [] ops -> steady (readings ops) ->
  exists st es, timer_run N no_timers ops = Ok (st, es) /\ forall s, st s <> None <-> In s (fold_left living_after ops []).
Proof. exact timers_run. Qed.
Print Assumptions C75_runs.

(** in every history none is called more often than it was given *)
Theorem C75_at_most_once : forall N ops st es, timer_run N no_timers ops = Ok (st, es) ->
  exists rest, Permutation (given ops) (called es ++ rest).
Proof. exact at_most_once. Qed.
Print Assumptions C75_at_most_once.

(** move assignment onto a timer forgets its callable *)
Theorem C75_called_once_refuted : forall c0 c1 : callable, length (snd c0) = 8%nat -> length (snd c1) = 8%nat ->
  exists st, timer_run 8 no_timers [TNew 0 1 c0; TNew 1 2 c1; TAssign 0 1; TDestroy 1; TDestroy 0] =
    Ok (st, [TCalled 0 c1 2]) /\ forall s, st s = None.
Proof. exact overwritten_lost. Qed.
Print Assumptions C75_called_once_refuted.

(** every history: a callable is called, at the destruction of the timer that holds
    it, or was forgotten by a move assignment, or still waits; so all are called
    exactly once if and only if no assignment forgot one *)
Theorem C75_exact_partial : forall N ops st es, timer_run N no_timers ops = Ok (st, es) ->
  calls_seen es = kept_calls [] ops /\
  Permutation (given ops) (called es ++ forgotten [] ops ++ map snd (keepers ops)) /\
  ((forall s, st s = None) -> (Permutation (given ops) (called es) <-> forgotten [] ops = [])).
Proof. exact keepers_exact. Qed.
Print Assumptions C75_exact_partial.

(** the first assignment is onto a timer that was moved from, the second forgets *)
Example C75_exact_instance :
  let c k := (k, [Z.of_nat k]) in
  let ops := [TNew 0 1 (c 5%nat); TMove 1 0; TNew 2 4 (c 6%nat); TAssign 0 2; TAssign 1 0; TDestroy 2; TDestroy 0; TDestroy 1] in
  forgotten [] ops = [c 5%nat] /\ forgotten [] (firstn 4 ops) = [] /\ kept_calls [] ops = [(1%nat, c 6%nat)] /\ exists st,
  timer_run 8 no_timers ops = Ok (st, [TCalled 1 (c 6%nat) 4]).
Proof. cbn zeta. repeat split. eexists. vm_compute. reflexivity. Qed.

Example C75_instance :
  let c k := (k, [Z.of_nat k; 7; 0; 0; 9]) in
  let ops := [TNew 0 1 (c 5%nat); TMove 1 0; TNew 2 4 (c 6%nat); TAssign 0 2; TDestroy 2; TDestroy 0; TReset 1 8; TDestroy 1] in
  no_overwrite [] ops /\ well_used 8 [] ops /\ exists st,
  timer_run 8 no_timers ops = Ok (st, [TCalled 0 (c 6%nat) 4; TCalled 1 (c 5%nat) 8]).
Proof. cbn zeta. split; [cbn; intuition discriminate|]. split; [cbn; intuition (lia || discriminate)|]. eexists. vm_compute. reflexivity. Qed.

(** C76: moving between two different timers, after every history *)
Theorem C76_move_partial : forall N ops st es d s o st' ev, timer_run N no_timers ops = Ok (st, es) ->
  (o = TMove d s \/ (o = TAssign d s /\ d <> s)) -> timer_step N st o = Ok (st', ev) ->
  ev = [] /\ exists z cs,
    timer_step N st (TStart s) = Ok (st, [TStarted s z]) /\
    timer_step N st' (TStart d) = Ok (st', [TStarted d z]) /\
    (exists st1, timer_step N st (TDestroy s) = Ok (st1, map (fun c => TCalled s c z) cs)) /\
    (exists st2, timer_step N st' (TDestroy d) = Ok (st2, map (fun c => TCalled d c z) cs)) /\
    (exists st3, timer_step N st' (TDestroy s) = Ok (st3, [])) /\
    forall u, u <> d -> u <> s -> st' u = st u.
Proof. exact move_transfers. Qed.
Print Assumptions C76_move_partial.

(** a timer assigned to itself loses its callable *)
Theorem C76_self_move_refuted : forall c : callable, length (snd c) = 8%nat ->
  exists st, timer_run 8 no_timers [TNew 0 1 c; TAssign 0 0; TDestroy 0] = Ok (st, []) /\ forall s, st s = None.
Proof. exact self_lost. Qed.
Print Assumptions C76_self_move_refuted.

(** whatever the timer: the start point stays, the callable is not called any more.  With
    C76_move_partial this is the outcome of every move assignment. *)
Theorem C76_self_exact_partial : forall N st s st' ev, timer_step N st (TAssign s s) = Ok (st', ev) ->
  ev = [] /\ exists z cs,
    timer_step N st (TStart s) = Ok (st, [TStarted s z]) /\
    timer_step N st' (TStart s) = Ok (st', [TStarted s z]) /\
    (exists st1, timer_step N st (TDestroy s) = Ok (st1, map (fun c => TCalled s c z) cs)) /\
    (exists st2, timer_step N st' (TDestroy s) = Ok (st2, [])) /\
    forall u, u <> s -> st' u = st u.
Proof. exact self_move_exact. Qed.
Print Assumptions C76_self_exact_partial.

Example C76_self_instance : exists st st' st1 ev,
  timer_run 8 no_timers [TNew 0 1 (5%nat, [1; 2; 3]); TNew 1 2 (6%nat, [])] = Ok (st, []) /\
  timer_step 8 st (TAssign 0 0) = Ok (st', ev) /\
  timer_step 8 st (TDestroy 0) = Ok (st1, [TCalled 0 (5%nat, [1; 2; 3]) 1]).
Proof. do 4 eexists. split; [reflexivity|]. split; [reflexivity|]. vm_compute. reflexivity. Qed.

(** reset changes only the start point *)
Theorem C76_reset : forall N st s now st' ev, timer_step N st (TReset s now) = Ok (st', ev) ->
  ev = [] /\ timer_step N st' (TStart s) = Ok (st', [TStarted s now]) /\
  (exists z cs st1 st2, timer_step N st (TDestroy s) = Ok (st1, map (fun c => TCalled s c z) cs) /\
     timer_step N st' (TDestroy s) = Ok (st2, map (fun c => TCalled s c now) cs)) /\
  forall u, u <> s -> st' u = st u.
Proof. exact reset_only_start. Qed.
Print Assumptions C76_reset.

Example C76_instance : exists st st' ev,
  timer_run 8 no_timers [TNew 0 1 (5%nat, [1; 2; 3]); TNew 1 2 (6%nat, [])] = Ok (st, []) /\
  timer_step 8 st (TAssign 1 0) = Ok (st', ev) /\
  exists st2, timer_step 8 st' (TDestroy 1) = Ok (st2, [TCalled 1 (5%nat, [1; 2; 3]) 1]).
Proof. do 3 eexists. split; [reflexivity|]. split; [reflexivity|]. eexists. vm_compute. reflexivity. Qed.

(** C77: leaked_...() is the whole number of ticks since the timer's start point *)
Theorem C77_leaked_exact : forall N ops st es s tick now, timer_run N no_timers ops = Ok (st, es) -> st s <> None ->
  steady (readings ops ++ [now]) -> unit_tick tick ->
  exists v, timer_step N st (TLeaked s tick now) = Ok (st, [TRead s tick now v]) /\
    whole_ticks tick (now - started ops s) v.
Proof. exact leaked_exact. Qed.
Print Assumptions C77_leaked_exact.

(** and never decreases while nothing resets, replaces or destroys the timer *)
Theorem C77_leaked_monotone : forall N pre st es s tick n1 v1 mid st2 es2 n2 v2,
  timer_run N no_timers pre = Ok (st, es) ->
  timer_step N st (TLeaked s tick n1) = Ok (st, [TRead s tick n1 v1]) ->
  timer_run N st mid = Ok (st2, es2) -> Forall (leaves s) mid ->
  timer_step N st2 (TLeaked s tick n2) = Ok (st2, [TRead s tick n2 v2]) ->
  steady (readings pre ++ [n1] ++ readings mid ++ [n2]) -> unit_tick tick -> 0 <= v1 <= v2.
Proof. exact leaked_monotone. Qed.
Print Assumptions C77_leaked_monotone.

(** readings of the same moment: the coarser one is the finer one divided by the
    ratio of the units *)
Theorem C77_units : forall N ops st es s t1 t2 now v1 v2, timer_run N no_timers ops = Ok (st, es) ->
  steady (readings ops ++ [now]) -> unit_tick t1 -> unit_tick t2 -> t1 <= t2 ->
  timer_step N st (TLeaked s t1 now) = Ok (st, [TRead s t1 now v1]) ->
  timer_step N st (TLeaked s t2 now) = Ok (st, [TRead s t2 now v2]) -> v2 = v1 / (t2 / t1).
Proof. exact leaked_ratio. Qed.
Print Assumptions C77_units.

Example C77_instance : exists st st2,
  timer_run 8 no_timers [TNew 0 100 (5%nat, []); TMove 1 0] = Ok (st, []) /\ started [TNew 0 100 (5%nat, []); TMove 1 0] 1 = 100 /\
  timer_step 8 st (TLeaked 1 1000000 2999999) = Ok (st, [TRead 1 1000000 2999999 2]) /\
  timer_run 8 st [TReset 0 3000000] = Ok (st2, []) /\ Forall (leaves 1) [TReset 0 3000000] /\
  timer_step 8 st2 (TLeaked 1 1000000 4000100) = Ok (st2, [TRead 1 1000000 4000100 4]).
Proof.
  do 2 eexists. split; [reflexivity|]. split; [reflexivity|]. split; [vm_compute; reflexivity|].
  split; [reflexivity|]. split; [repeat constructor; cbn; discriminate|]. vm_compute. reflexivity.
Qed.

(** C84: no history ever runs the destructor of a stored callable *)
Theorem C84_callable_destroyed_refuted : forall N ops st st' es c, timer_run N st ops = Ok (st', es) -> ~ In (TDied c) es.
Proof. exact never_dies. Qed.
Print Assumptions C84_callable_destroyed_refuted.

Example C84_instance : exists st,
  timer_run 8 no_timers [TNew 0 1 (5%nat, [1; 2]); TDestroy 0] = Ok (st, [TCalled 0 (5%nat, [1; 2]) 1]).
Proof. eexists. vm_compute. reflexivity. Qed.
