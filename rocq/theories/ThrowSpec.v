(** Timers whose callables, or whose clock, may throw.  Nothing here refers to the model. *)

Require Import ZArith List Bool.
Require Import Verif.TimerSpec.
Import ListNotations.

(** A call, and which of the user's code throws if the call runs it: the clock, or the
    callable (when it is copied or moved into the timer, or when it is called). *)
Record xop := XOp { op : top; clock_throws : bool; callable_throws : bool }.

(** what the caller sees: what the call does, or the exception *)
Inductive xevent : Type :=
| XSeen (e : tevent)
| XCaught (s : nat).

(** Code of the user that the call runs throws; [l] tells who owns which callable. *)
Definition meets_exception (l : list (nat * callable)) (x : xop) : Prop :=
  match op x with
  | TNew _ _ _ => clock_throws x = true \/ callable_throws x = true
  | TReset _ _ | TLeaked _ _ _ => clock_throws x = true
  | TDestroy s => callable_throws x = true /\ owned_by l s <> []
  | TMove _ _ | TAssign _ _ | TStart _ => False
  end.

(** after these calls [x] is made and meets an exception *)
Definition exception_in (ops : list xop) : Prop :=
  exists pre x post, ops = pre ++ x :: post /\ meets_exception (keepers (map op pre)) x.
