(** Specification vocabulary for integer helpers. *)

Require Import ZArith List.
Require Import Verif.Machine.
Import ListNotations.
Open Scope Z_scope.

(** [q] and [r] are quotient and remainder of truncating division *)
Definition division (n d q r : Z) : Prop :=
  n = q * d + r /\ Z.abs r < Z.abs d /\ 0 <= r * n.

(** [w] is the least member of [widths] that is at least [n] *)
Definition narrowest (widths : list Z) (n w : Z) : Prop :=
  In w widths /\ n <= w /\ forall v, In v widths -> n <= v -> w <= v.

(** [k] is the least number of bytes holding [b] bits *)
Definition bytes_for (b k : Z) : Prop :=
  b <= 8 * k /\ forall j, b <= 8 * j -> k <= j.

(** [l] is first, first+1, ..., last *)
Definition interval (first last : Z) (l : list Z) : Prop :=
  Z.of_nat (length l) = last - first + 1 /\
  forall i x, nth_error l i = Some x -> x = first + Z.of_nat i.

(** [l] is the longest sequence b, b+st, b+2st, ... that stays within [lo,hi] *)
Definition progression (b st lo hi : Z) (l : list Z) : Prop :=
  (forall i x, nth_error l i = Some x ->
     x = b + Z.of_nat i * st /\ lo <= x <= hi) /\
  ~ (lo <= b + Z.of_nat (length l) * st <= hi).

(** braces accept an integer of type [t] for a [c]: a constant (with value [v]) that [c]
    represents, anything else if [c] represents all values of [t] *)
Definition keeps_value (t c : ity) (const : bool) (v : Z) : Prop :=
  if const then inty c v else forall x, inty t x -> inty c x.

(** the integer types an operand may have: bool is one *)
Definition operand_ity (t : ity) : Prop := std_ity t \/ t = bool_t.
