(** Specification vocabulary for memory ranges. *)

Require Import ZArith List.
Import ListNotations.
Open Scope Z_scope.

(** the program may access the [n] bytes at [p] *)
Definition accessible (m : Z -> option Z) (p : Z) (n : nat) : Prop :=
  forall i, 0 <= i < Z.of_nat n -> m (p + i) <> None.

(** [m'] is [m] with byte dst+i replaced by [f i] for i < n, and nothing else changed *)
Definition range_replaced (m m' : Z -> option Z) (dst : Z) (n : nat) (f : Z -> option Z) : Prop :=
  (forall i, 0 <= i < Z.of_nat n -> m' (dst + i) = f i) /\
  (forall a, (a < dst \/ dst + Z.of_nat n <= a) -> m' a = m a).

Definition disjoint_ranges (a b : Z) (n : nat) : Prop :=
  a + Z.of_nat n <= b \/ b + Z.of_nat n <= a.

(** a run of a stateful callable: [chain f s ts s' outs] says that calling [f] on
    the elements of [ts] one after the other leads from [s] to [s'] and returns [outs] *)
Inductive chain {S A O : Type} (f : S -> A -> S * O) : S -> list A -> S -> list O -> Prop :=
| chain_nil : forall s, chain f s [] s []
| chain_cons : forall s t s1 o ts s2 os,
    f s t = (s1, o) -> chain f s1 ts s2 os -> chain f s (t :: ts) s2 (o :: os).
