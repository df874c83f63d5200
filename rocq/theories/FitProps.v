(** Property C150: the bit and alignment functions fit together. *)

Require Import ZArith List Lia Bool.
Require Import Verif.Outcome Verif.Machine Verif.TypeListModel Verif.BitsModel
  Verif.BitsSpec Verif.FitProofs.
Import ListNotations.
Open Scope Z_scope.

(** C150: leading zeros and bits_count make up the width *)
Theorem C150_clz_bits : forall dbg t v, (0 < sizeof t <= 8)%nat -> 0 < v < 2 ^ (8 * Z.of_nat (sizeof t)) ->
  exists n m, clz dbg 100 gcc_types t v = Some (Ok n) /\ bits_count v = Ok m /\ n + m = (8 * Z.of_nat (sizeof t)).
Proof. exact clz_bits. Qed.
Print Assumptions C150_clz_bits.

(** for a power of two, and only then, all bits but one are leading or trailing zeros *)
Theorem C150_power_counts : forall dbg t v, (0 < sizeof t <= 8)%nat -> 0 < v < 2 ^ (8 * Z.of_nat (sizeof t)) ->
  exists n m, clz dbg 100 gcc_types t v = Some (Ok n) /\ ctz dbg 100 gcc_types t v = Some (Ok m) /\
    (is_power_of_2 v = true <-> n + m = (8 * Z.of_nat (sizeof t)) - 1).
Proof. exact power_counts. Qed.
Print Assumptions C150_power_counts.

(** greatest_divisor_that_is_power_of_2 is two to the trailing zeros *)
Theorem C150_divisor_ctz : forall dbg t u v, std_ity u -> sgn u = false -> bits u = (8 * Z.of_nat (sizeof t)) -> (0 < sizeof t <= 8)%nat -> 0 < v -> inty u v ->
  exists n, ctz dbg 100 gcc_types t v = Some (Ok n) /\ greatest_divisor u v = Ok (2 ^ n).
Proof. exact divisor_ctz. Qed.
Print Assumptions C150_divisor_ctz.

(** and for an address its get_alignment *)
Theorem C150_alignment_divisor : forall dbg t p, sizeof t = 8%nat -> 0 < p < 2 ^ 64 -> exists a,
  get_alignment dbg 100 gcc_types t p = Some (Ok a) /\ greatest_divisor u64 p = Ok a.
Proof. exact alignment_divisor. Qed.
Print Assumptions C150_alignment_divisor.

(** an address is aligned to exactly the powers of two up to its alignment *)
Theorem C150_aligned_up_to : forall dbg t p a, sizeof t = 8%nat -> 0 < p < 2 ^ 64 -> pow2 a -> a < 2 ^ 64 ->
  exists m, get_alignment dbg 100 gcc_types t p = Some (Ok m) /\ (is_aligned dbg p a = Ok true <-> a <= m).
Proof. exact aligned_up_to. Qed.
Print Assumptions C150_aligned_up_to.

Theorem C150_aligned_less : forall dbg p a b, pow2 a -> pow2 b -> a <= b -> b < 2 ^ 64 -> 0 <= p < 2 ^ 64 ->
  is_aligned dbg p b = Ok true -> is_aligned dbg p a = Ok true.
Proof. exact aligned_less. Qed.
Print Assumptions C150_aligned_less.

(** next_multiple_of is where skip_to_align leads; from there nothing is left to skip; an address is
    left alone exactly when it is aligned *)
Theorem C150_round_up : forall dbg a p, pow2 a -> a < 2 ^ 64 -> 0 <= p -> p + a <= 2 ^ 64 ->
  exists q k, next_multiple_of dbg a p = Ok q /\ skip_to_align dbg p a = Ok k /\ q = p + k /\ 0 <= k < a /\
    is_aligned dbg q a = Ok true /\ next_multiple_of dbg a q = Ok q /\ skip_to_align dbg q a = Ok 0 /\
    (is_aligned dbg p a = Ok true <-> k = 0) /\ (is_aligned dbg p a = Ok true <-> q = p).
Proof. exact round_up. Qed.
Print Assumptions C150_round_up.

(** rounding up keeps the order *)
Theorem C150_round_monotone : forall dbg a p p', pow2 a -> a < 2 ^ 64 -> 0 <= p <= p' -> p' + a <= 2 ^ 64 ->
  exists q q', next_multiple_of dbg a p = Ok q /\ next_multiple_of dbg a p' = Ok q' /\ q <= q'.
Proof. exact round_monotone. Qed.
Print Assumptions C150_round_monotone.

(** next_multiple_of(a, p) and next_multiple_of<a>(p) are the same, also where they wrap around *)
Theorem C150_round_forms : forall dbg a p, pow2 a -> a < 2 ^ 64 -> 0 <= p < 2 ^ 64 -> exists q,
  next_multiple_of dbg a p = Ok q /\ next_multiple_of_t a u64 p = Some (Ok q).
Proof. exact round_forms. Qed.
Print Assumptions C150_round_forms.

(** a shift to the left can be taken back exactly if no bit was lost; a shift to the right and back
    clears the bits shifted out *)
Theorem C150_shift_back : forall dbg t v n, std_ity t -> sgn t = false -> inty t v -> 0 <= n < bits t ->
  exists l r, shift_left dbg t v n = Ok l /\ shift_right dbg t l n = Ok r /\ (r = v <-> v < 2 ^ (bits t - n)).
Proof. exact shift_back. Qed.
Print Assumptions C150_shift_back.

Theorem C150_shift_clears : forall dbg t v n, std_ity t -> sgn t = false -> inty t v -> 0 <= n < bits t ->
  exists r l, shift_right dbg t v n = Ok r /\ shift_left dbg t r n = Ok l /\ l = v - v mod 2 ^ n.
Proof. exact shift_clears. Qed.
Print Assumptions C150_shift_clears.

(** one bit shifted to the left is a power of two, and its own greatest such divisor *)
Theorem C150_shift_power : forall dbg t v n, std_ity t -> sgn t = false -> 0 <= n < bits t -> inty t v ->
  (shift_left dbg t 1 n = Ok v <-> v = 2 ^ n) /\ (v = 2 ^ n -> is_power_of_2 v = true /\ greatest_divisor t v = Ok v).
Proof. exact shift_power. Qed.
Print Assumptions C150_shift_power.

(** the powers of two are the bytes with one bit in the table of one bits *)
Theorem C150_table_powers : forall b, 0 <= b < 256 ->
  (is_power_of_2 b = true <-> nth_error k_num_bits_table (Z.to_nat b) = Some 1).
Proof. exact table_powers. Qed.
Print Assumptions C150_table_powers.

Example C150_instance :
  clz true 100 gcc_types (TAtom 9 2) 40 = Some (Ok 10) /\ bits_count 40 = Ok 6 /\ ctz true 100 gcc_types (TAtom 9 2) 40 = Some (Ok 3) /\
  greatest_divisor u16 40 = Ok 8 /\ get_alignment true 100 gcc_types (TAtom 9 8) 4104 = Some (Ok 8) /\
  next_multiple_of true 16 4104 = Ok 4112 /\ skip_to_align true 4104 16 = Ok 8 /\ is_aligned true 4112 16 = Ok true /\
  next_multiple_of_t 16 u64 4104 = Some (Ok 4112) /\ next_multiple_of_t 16 u64 (2 ^ 64 - 1) = Some (Ok 0) /\
  shift_left true u8 13 3 = Ok 104 /\ shift_right true u8 104 3 = Ok 13 /\ shift_left true u8 77 3 = Ok 104 /\
  8 * Z.of_nat (sizeof (TAtom 9 2)) = 16 /\ pow2 16 /\ inty u16 40 /\ inty u8 77.
Proof.
  repeat (split; [vm_compute; reflexivity|]). split; [exists 4; split; [lia|reflexivity]|].
  split; unfold inty, minv, maxv; cbn [sgn bits u16 u8]; lia.
Qed.
