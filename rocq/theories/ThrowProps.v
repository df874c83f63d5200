(** Property C121: timers and exceptions (timer.h). *)

Require Import ZArith List Bool.
Require Import Verif.Outcome Verif.TimerSpec Verif.TimerModel Verif.ThrowSpec Verif.ThrowModel Verif.ThrowProofs.
Import ListNotations.
Open Scope Z_scope.

(** C121: a program in which none of the user's code throws is the one of C75-C77 *)
Theorem C121_quiet_partial : forall N ops, well_used N [] (map op ops) -> steady (readings (map op ops)) ->
  ~ exception_in ops ->
  exists st es, timer_run N no_timers (map op ops) = Ok (st, es) /\ throw_run N no_timers ops = Ok (st, map XSeen es).
Proof. exact throw_quiet. Qed.
Print Assumptions C121_quiet_partial.

(** exactly: the program is terminated if some of the user's code that a timer runs throws,
    be it in the construction of the callable, in its call or in the clock *)
Theorem C121_exact_partial : forall N ops, well_used N [] (map op ops) -> steady (readings (map op ops)) ->
  exists st es, timer_run N no_timers (map op ops) = Ok (st, es) /\
    (exception_in ops -> throw_run N no_timers ops = Abort) /\
    (~ exception_in ops -> throw_run N no_timers ops = Ok (st, map XSeen es)).
Proof. exact throw_exact. Qed.
Print Assumptions C121_exact_partial.

(** the last timer was moved from: its callable is not called, and cannot throw *)
Example C121_instance :
  let quiet o := XOp o false false in
  let c := (5%nat, [1; 2; 3]) in
  let ops := [quiet (TNew 0 1 c); XOp (TMove 1 0) true true; XOp (TDestroy 0) true true] in
  well_used 8 [] (map op (ops ++ [XOp (TDestroy 1) false true])) /\
  ~ exception_in ops /\ exception_in (ops ++ [XOp (TDestroy 1) false true]) /\
  (exists st, throw_run 8 no_timers (ops ++ [quiet (TDestroy 1)]) = Ok (st, [XSeen (TCalled 1 c 1)])) /\
  throw_run 8 no_timers (ops ++ [XOp (TDestroy 1) false true]) = Abort.
Proof. exact throw_instance. Qed.

(** no exception of a callable is ever caught *)
Theorem C121_caught_refuted : forall N ops st st' es s, throw_run N st ops = Ok (st', es) -> ~ In (XCaught s) es.
Proof. exact throw_never. Qed.
Print Assumptions C121_caught_refuted.

(** whatever the callable: if copying or moving it into the timer throws, the program ends *)
Theorem C121_construct_refuted : forall N s now ty bytes, (length bytes <= N)%nat ->
  throw_run N no_timers [XOp (TNew s now (ty, bytes)) false true] = Abort.
Proof. exact throw_construct. Qed.
Print Assumptions C121_construct_refuted.
