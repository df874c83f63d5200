(** How long calls take.  [f n] is what a call gives if it is stopped ([Hang]) before it starts
    round [n + 1] of its loop.  Nothing here refers to the model. *)

Require Import ZArith List.
Require Import Verif.Outcome.
Import ListNotations.
Open Scope Z_scope.

(** the call comes to an end in its [k]th round *)
Definition takes {A : Type} (f : nat -> res A) (k : nat) : Prop :=
  f k <> Hang /\ forall j, (j < k)%nat -> f j = Hang.

(** the indices from 0 to [n - 1] *)
Definition indices (n : Z) : list Z := map Z.of_nat (seq 0 (Z.to_nat n)).
(** how many of them [f] holds for *)
Definition number (f : Z -> bool) (n : Z) : nat := length (filter f (indices n)).
