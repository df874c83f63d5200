(** When a range can be walked.  Nothing here refers to the model. *)

Require Import ZArith.
Open Scope Z_scope.

(** nothing to walk, or steps of [st] lead from [b] towards [e] *)
Definition steps_toward (b e st : Z) : Prop := b = e \/ (b < e /\ 0 < st).
