(** Specification for C164: objects allocated one after another lie one after another. *)

Require Import ZArith List Bool.
Require Import Verif.SimpleSpec.
Import ListNotations.
Open Scope Z_scope.

(** [k] requests served from the buffer, at [p], [p + step], [p + 2 * step] and so on *)
Definition row (size align p step : Z) (k : nat) : list event :=
  map (fun i => EAllocate size align (p + Z.of_nat i * step) []) (seq 0 k).
