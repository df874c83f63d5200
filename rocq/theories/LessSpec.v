(** Specification for C161: asking for less succeeds where asking for more does. *)

Require Import ZArith List Bool.
Require Import Verif.BitsSpec Verif.SimpleSpec.
Import ListNotations.
Open Scope Z_scope.

(** at least one byte, no more bytes and no stricter an alignment than the other request *)
Definition asks_less (size' align' size align : Z) : Prop :=
  0 < size' <= size /\ pow2 align' /\ align' <= align.

(** the memory, served from the buffer, begins and ends no later than that of the other request *)
Definition no_later (e' e : event) : Prop :=
  match e', e with
  | EAllocate size' _ p' [], EAllocate size _ p [] => p' <= p /\ p' + size' <= p + size
  | _, _ => False
  end.
