(** Model of abort_if and its macros. *)

Require Import List Bool.
Require Import Verif.Outcome.
Import ListNotations.

(** What the program has written to stderr, and whether it has ended in abort.  A
    message is a number. *)
Record ending := Ending { written : list nat; aborted : bool }.

(** common.h:445-460 abort_if; [None] is a null format *)
Definition abort_if (condition : bool) (format : option nat) : ending :=
  if condition
  then Ending (match format with Some f => [f] | None => [] end) true
  else Ending [] false.

(** Expressions in macro arguments are evaluated where the macro puts them: the
    condition is a computation over the program's state. *)
Section Macros.
  Variable S : Type.
  Definition expr := S -> S * bool.
  (** common.h:46-53 UTILS_ABORT_IF: the format is never null *)
  Definition utils_abort_if (c : expr) (message : nat) (s : S) : S * ending :=
    let (s', b) := c s in (s', abort_if b (Some message)).
  (** common.h:55-59 UTILS_DEBUG_ABORT_IF *)
  Definition utils_debug_abort_if (ndebug : bool) (c : expr) (message : nat) (s : S) : S * ending :=
    if ndebug then (s, Ending [] false) else utils_abort_if c message s.
End Macros.
