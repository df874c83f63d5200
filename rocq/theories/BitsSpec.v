(** Specification vocabulary for bit and alignment arithmetic (plain number
    theory; nothing here mentions the model of the code). *)

Require Import ZArith List.
Open Scope Z_scope.

Definition pow2 (x : Z) : Prop := exists k, 0 <= k /\ x = 2 ^ k.

(** [r] is the least multiple of [m] that is at least [v] *)
Definition least_multiple (m v r : Z) : Prop :=
  (m | r) /\ v <= r /\ forall s, (m | s) -> v <= s -> r <= s.

(** [k] is the least non-negative distance from [p] to a multiple of [a] in a
    64-bit address space *)
Definition least_skip (a p k : Z) : Prop :=
  0 <= k /\ (a | (p + k) mod 2 ^ 64) /\
  forall j, 0 <= j < k -> ~ (a | (p + j) mod 2 ^ 64).

(** every [n]-byte block at a multiple of [a] contains a multiple of [m] *)
Definition guaranteed_alignment (a n m : Z) : Prop :=
  forall p, 0 <= p -> (a | p) -> p + n <= 2 ^ 64 -> exists q, p <= q < p + n /\ (m | q).

(** [m] is the greatest power of two with that property *)
Definition best_alignment (a n m : Z) : Prop :=
  pow2 m /\ guaranteed_alignment a n m /\
  forall m', pow2 m' -> guaranteed_alignment a n m' -> m' <= m.

(** [n] is the bit length of [v] *)
Definition bit_length (v n : Z) : Prop :=
  0 <= n /\ v < 2 ^ n /\ forall m, 0 <= m -> v < 2 ^ m -> n <= m.

(** number of one bits among the [w] low bits of [v] *)
Definition ones (w : nat) (v : Z) : nat :=
  length (filter (fun i => Z.testbit v (Z.of_nat i)) (seq 0 w)).

(** [n] leading zeros in a [w]-bit word *)
Definition leading_zeros (w v n : Z) : Prop :=
  0 <= n < w /\ 2 ^ (w - 1 - n) <= v < 2 ^ (w - n).

(** [n] trailing zeros *)
Definition trailing_zero_count (v n : Z) : Prop :=
  0 <= n /\ (2 ^ n | v) /\ ~ (2 ^ (n + 1) | v).
