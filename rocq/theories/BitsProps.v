(** Properties C01-C14: bit and alignment arithmetic (common.h, clz.h, ctz.h,
    memory.h get_alignment). *)

Require Import ZArith List Lia Bool.
Require Import Verif.Outcome Verif.Machine Verif.TypeListModel Verif.BitsModel
  Verif.BitsSpec Verif.BitsProofs.
Import ListNotations.
Open Scope Z_scope.

(** C01 *)
Theorem C01_is_power_of_2 : forall v, 0 <= v < 2 ^ 64 ->
  (is_power_of_2 v = true <-> exists k, 0 <= k < 64 /\ v = 2 ^ k).
Proof. exact is_power_of_2_spec. Qed.
Print Assumptions C01_is_power_of_2.

Example C01_instance :
  is_power_of_2 0 = false /\ is_power_of_2 (2 ^ 63) = true /\ is_power_of_2 (2 ^ 63 + 2) = false.
Proof. repeat split. Qed.

(** C02: least multiple, or 0 when it does not fit 64 bits *)
Theorem C02_next_multiple_of : forall dbg m v, pow2 m -> m < 2 ^ 64 -> 0 <= v < 2 ^ 64 ->
  exists r, least_multiple m v r /\
    (r < 2 ^ 64 -> next_multiple_of dbg m v = Ok r) /\
    (2 ^ 64 <= r -> next_multiple_of dbg m v = Ok 0).
Proof. exact next_multiple_of_correct. Qed.
Print Assumptions C02_next_multiple_of.

(** arguments that are not a power of two are caught in debug builds *)
Theorem C02_misuse_aborts : forall m v, 0 <= m < 2 ^ 64 -> ~ pow2 m ->
  next_multiple_of true m v = Abort /\ skip_to_align true v m = Abort /\
  is_aligned true v m = Abort.
Proof. exact not_power_asserts. Qed.
Print Assumptions C02_misuse_aborts.

Example C02_instance :
  next_multiple_of true 16 17 = Ok 32 /\
  next_multiple_of true 16 (2 ^ 64 - 1) = Ok 0 /\
  next_multiple_of true 24 17 = Abort.
Proof. repeat split. Qed.

(** C03 *)
Theorem C03_unsigned : forall u p v, std_ity u -> sgn u = false ->
  pow2 p -> inty u p -> inty u v ->
  exists r, least_multiple p v r /\
    next_multiple_of_t p u v = Some (Ok (r mod 2 ^ bits u)).
Proof. exact next_multiple_t_unsigned. Qed.
Print Assumptions C03_unsigned.

Theorem C03_signed : forall u p v, std_ity u -> sgn u = true ->
  pow2 p -> inty u p -> inty u v ->
  exists r, least_multiple p v r /\
    next_multiple_of_t p u v =
      Some (if (32 <=? bits u) && (maxv u <? v + p - 1) then UB else Ok (conv u r)).
Proof. exact next_multiple_t_signed. Qed.
Print Assumptions C03_signed.

(** in particular the plain least multiple whenever v+P-1 is a value of U *)
Theorem C03_signed_no_overflow : forall u p v, std_ity u -> sgn u = true ->
  pow2 p -> inty u p -> inty u v -> v + p - 1 <= maxv u ->
  exists r, least_multiple p v r /\ next_multiple_of_t p u v = Some (Ok r).
Proof. exact next_multiple_t_signed_fits. Qed.
Print Assumptions C03_signed_no_overflow.

Example C03_instance :
  next_multiple_of_t 8 u8 250 = Some (Ok 0) /\ next_multiple_of_t 8 i32 (-13) = Some (Ok (-8)) /\
  next_multiple_of_t 8 i32 (2 ^ 31 - 1) = Some UB /\
  next_multiple_of_t 8 i8 127 = Some (Ok (-128)) /\
  inty u8 250 /\ inty u8 8 /\ pow2 8.
Proof.
  repeat split; try (unfold inty, minv, maxv; simpl; lia). exists 3. split; [lia|reflexivity].
Qed.

(** C04 *)
Theorem C04_skip_to_align : forall dbg p a, pow2 a -> a < 2 ^ 64 -> 0 <= p < 2 ^ 64 ->
  exists k, skip_to_align dbg p a = Ok k /\ least_skip a p k /\ k < a /\ (k = 0 <-> (a | p)).
Proof. exact skip_to_align_correct. Qed.
Print Assumptions C04_skip_to_align.

Example C04_instance :
  skip_to_align true 13 8 = Ok 3 /\ skip_to_align true (2 ^ 64 - 3) 16 = Ok 3.
Proof. repeat split. Qed.

(** C05 *)
Theorem C05_is_aligned : forall dbg p a, pow2 a -> a < 2 ^ 64 -> 0 <= p < 2 ^ 64 ->
  exists b, is_aligned dbg p a = Ok b /\ (b = true <-> (a | p)).
Proof. exact is_aligned_correct. Qed.
Print Assumptions C05_is_aligned.

(** is_aligned<T>(p) and skip_to_align<T>(p), with the alignment [al] of T *)
Theorem C05_of_type : forall dbg al p, pow2 al -> al < 2 ^ 64 -> 0 <= p < 2 ^ 64 ->
  (exists k, skip_to_align_for dbg al p = Some (Ok k) /\ least_skip al p k /\ k < al) /\
  (exists b, is_aligned_for dbg al p = Ok b /\ (b = true <-> (al | p))) /\
  (skip_to_align_for dbg al p = Some (Ok 0) <-> is_aligned_for dbg al p = Ok true).
Proof. exact alignment_of_type. Qed.
Print Assumptions C05_of_type.

Example C05_of_type_instance :
  skip_to_align_for true 8 13 = Some (Ok 3) /\ is_aligned_for true 8 13 = Ok false /\
  skip_to_align_for true 8 16 = Some (Ok 0) /\ is_aligned_for true 8 16 = Ok true /\ skip_to_align_for true 12 16 = None.
Proof. repeat split. Qed.

Example C05_instance : is_aligned true 48 16 = Ok true /\ is_aligned true 40 16 = Ok false.
Proof. split; reflexivity. Qed.

(** C06.  Full statement:
      forall a n, pow2 a -> 0 < n -> a + n - 1 < 2^64 ->
        exists m, max_alignment_inside_block dbg a n = Ok m /\ best_alignment a n m.
    It holds below 2 GiB only: the code shifts an int. *)
Theorem C06_max_alignment_partial : forall dbg a n, pow2 a -> 0 < n -> a + n - 1 < 2 ^ 31 ->
  exists m, max_alignment_inside_block dbg a n = Ok m /\ best_alignment a n m.
Proof. exact max_align_correct. Qed.
Print Assumptions C06_max_alignment_partial.

(** from 2 GiB to 4 GiB the result is 2^64-2^31, never the right answer *)
Theorem C06_above_2GiB_refuted : forall dbg a n, pow2 a -> 0 < n ->
  2 ^ 31 <= a + n - 1 < 2 ^ 32 ->
  max_alignment_inside_block dbg a n = Ok (2 ^ 64 - 2 ^ 31) /\
  ~ best_alignment a n (2 ^ 64 - 2 ^ 31).
Proof. exact max_align_wrong. Qed.
Print Assumptions C06_above_2GiB_refuted.

(** from 4 GiB on the behaviour is undefined *)
Theorem C06_above_4GiB_refuted : forall dbg a n, pow2 a -> 0 < n ->
  2 ^ 32 <= a + n - 1 < 2 ^ 64 ->
  max_alignment_inside_block dbg a n = UB.
Proof. exact max_align_ub. Qed.
Print Assumptions C06_above_4GiB_refuted.

(** exactly: the answer is right below 2 GiB, for no other arguments *)
Theorem C06_exact_partial : forall dbg a n, pow2 a -> 0 < n ->
  ((exists m, max_alignment_inside_block dbg a n = Ok m /\ best_alignment a n m) <-> a + n - 1 < 2 ^ 31).
Proof. exact max_align_exact. Qed.
Print Assumptions C06_exact_partial.

Example C06_instance :
  max_alignment_inside_block true 16 32 = Ok 32 /\ max_alignment_inside_block true 8 1 = Ok 8 /\
  max_alignment_inside_block true 16 (2 ^ 31) = Ok (2 ^ 64 - 2 ^ 31) /\
  max_alignment_inside_block true 16 (2 ^ 32) = UB /\ pow2 16.
Proof. repeat split. exists 4. split; [lia|reflexivity]. Qed.

(** C07 *)
Theorem C07_bit_length : forall fuel t v, std_ity t -> sgn t = false -> inty t v ->
  (65 <= fuel)%nat ->
  exists n, bits_count v = Ok n /\ nbits_occupied fuel t v = Ok n /\ bit_length v n.
Proof. exact bit_length_functions. Qed.
Print Assumptions C07_bit_length.

(** the specification determines the number *)
Theorem C07_bit_length_unique : forall v n m, bit_length v n -> bit_length v m -> n = m.
Proof. exact bit_length_unique. Qed.
Print Assumptions C07_bit_length_unique.

Example C07_instance :
  bits_count 0 = Ok 0 /\ bits_count (2 ^ 64 - 1) = Ok 64 /\ nbits_occupied 65 u8 255 = Ok 8 /\
  inty u8 255.
Proof. repeat split; unfold minv, maxv; simpl; lia. Qed.

(** C08 *)
Theorem C08_greatest_divisor : forall t v, std_ity t -> sgn t = false -> inty t v ->
  (0 < v -> exists d, greatest_divisor t v = Ok d /\ pow2 d /\ (d | v) /\ ~ (2 * d | v)) /\
  (v = 0 -> greatest_divisor t v = Ok (2 ^ (bits t - 1)) /\ inty t (2 ^ (bits t - 1)) /\
            ~ inty t (2 ^ bits t)).
Proof. exact greatest_divisor_correct. Qed.
Print Assumptions C08_greatest_divisor.

Example C08_instance :
  greatest_divisor u8 96 = Ok 32 /\ greatest_divisor u8 0 = Ok 128 /\ greatest_divisor u64 0 = Ok (2 ^ 63).
Proof. repeat split. Qed.

(** C09 *)
Theorem C09_num_bits_table :
  length k_num_bits_table = 256%nat /\
  forall b, (b < 256)%nat ->
    nth_error k_num_bits_table b = Some (Z.of_nat (ones 8 (Z.of_nat b))).
Proof. exact (conj table_length table_value). Qed.
Print Assumptions C09_num_bits_table.

Example C09_instance : nth_error k_num_bits_table 7 = Some 3 /\ ones 8 7 = 3%nat.
Proof. split; reflexivity. Qed.

(** C10.  [supported] is any list of intrinsic operand types; [t] the operand. *)
Theorem C10_clz : forall dbg sz supported t v, (length supported < sz)%nat ->
  0 < v < 2 ^ (8 * Z.of_nat (sizeof t)) ->
  ((exists u, In u supported /\ (sizeof t <= sizeof u)%nat) ->
   exists n, clz dbg sz supported t v = Some (Ok n) /\
     leading_zeros (8 * Z.of_nat (sizeof t)) v n) /\
  ((forall u, In u supported -> (sizeof u < sizeof t)%nat) -> clz dbg sz supported t v = None).
Proof. exact clz_correct. Qed.
Print Assumptions C10_clz.

(** on GCC and Clang and on 64-bit MSVC every type of up to 8 bytes, on 32-bit MSVC of up to
    4 bytes; a wider one does not compile *)
Theorem C10_platforms : forall dbg t v, 0 < v < 2 ^ (8 * Z.of_nat (sizeof t)) ->
  ((sizeof t <= 8)%nat ->
   exists n m, leading_zeros (8 * Z.of_nat (sizeof t)) v n /\ leading_zeros (8 * Z.of_nat (sizeof t)) v m /\
     clz dbg 100 gcc_types t v = Some (Ok n) /\ clz dbg 100 msvc64_types t v = Some (Ok m)) /\
  ((sizeof t <= 4)%nat ->
   exists n, leading_zeros (8 * Z.of_nat (sizeof t)) v n /\ clz dbg 100 msvc32_types t v = Some (Ok n)) /\
  ((4 < sizeof t)%nat -> clz dbg 100 msvc32_types t v = None) /\
  ((8 < sizeof t)%nat -> clz dbg 100 gcc_types t v = None /\ clz dbg 100 msvc64_types t v = None).
Proof. exact clz_platforms. Qed.
Print Assumptions C10_platforms.

Example C10_instance :
  clz true 100 gcc_types (TAtom 9 1) 3 = Some (Ok 6) /\
  clz true 100 msvc64_types (TAtom 9 2) 3 = Some (Ok 14) /\
  clz true 100 msvc32_types (TAtom 9 8) 3 = None /\
  (exists u, In u msvc64_types /\ (2 <= sizeof u)%nat).
Proof.
  repeat split. exists (TAtom 1 4). split; [left; reflexivity|simpl; lia].
Qed.

(** C11 *)
Theorem C11_ctz : forall dbg sz supported t v, (length supported < sz)%nat ->
  0 < v < 2 ^ (8 * Z.of_nat (sizeof t)) ->
  ((exists u, In u supported /\ (sizeof t <= sizeof u)%nat) ->
   exists n, ctz dbg sz supported t v = Some (Ok n) /\ trailing_zero_count v n /\
     n < 8 * Z.of_nat (sizeof t)) /\
  ((forall u, In u supported -> (sizeof u < sizeof t)%nat) -> ctz dbg sz supported t v = None).
Proof. exact ctz_correct. Qed.
Print Assumptions C11_ctz.

Theorem C11_platforms : forall dbg t v, 0 < v < 2 ^ (8 * Z.of_nat (sizeof t)) ->
  ((sizeof t <= 8)%nat ->
   exists n m, trailing_zero_count v n /\ trailing_zero_count v m /\
     ctz dbg 100 gcc_types t v = Some (Ok n) /\ ctz dbg 100 msvc64_types t v = Some (Ok m)) /\
  ((sizeof t <= 4)%nat ->
   exists n, trailing_zero_count v n /\ ctz dbg 100 msvc32_types t v = Some (Ok n)) /\
  ((4 < sizeof t)%nat -> ctz dbg 100 msvc32_types t v = None) /\
  ((8 < sizeof t)%nat -> ctz dbg 100 gcc_types t v = None /\ ctz dbg 100 msvc64_types t v = None).
Proof. exact ctz_platforms. Qed.
Print Assumptions C11_platforms.

Example C11_instance :
  ctz true 100 gcc_types (TAtom 9 1) 24 = Some (Ok 3) /\
  ctz true 100 msvc32_types (TAtom 9 4) (2 ^ 31) = Some (Ok 31).
Proof. split; reflexivity. Qed.

(** C12 *)
Theorem C12_crafted_agrees : forall dbg fuel t (s : nat) v, std_ity t -> sgn t = false ->
  bits t = 8 * Z.of_nat s -> 0 < v < 2 ^ bits t -> (64 <= fuel)%nat ->
  exists n m,
    crafted_clz dbg fuel t v = Ok n /\ calc_clz dbg s v = Ok n /\ leading_zeros (bits t) v n /\
    crafted_ctz dbg fuel t v = Ok m /\ calc_ctz dbg v = Ok m /\ trailing_zero_count v m.
Proof. exact crafted_agree. Qed.
Print Assumptions C12_crafted_agrees.

Example C12_instance :
  crafted_clz true 64 u16 40 = Ok 10 /\ crafted_ctz true 64 u16 40 = Ok 3 /\
  bits u16 = 8 * Z.of_nat 2.
Proof. repeat split. Qed.

(** C13 *)
Theorem C13_get_alignment : forall dbg sz supported t ptr, (length supported < sz)%nat ->
  sizeof t = 8%nat -> (exists u, In u supported /\ (8 <= sizeof u)%nat) ->
  0 < ptr < 2 ^ 64 ->
  exists a, get_alignment dbg sz supported t ptr = Some (Ok a) /\
    pow2 a /\ (a | ptr) /\ forall b, pow2 b -> (b | ptr) -> b <= a.
Proof. exact get_alignment_correct. Qed.
Print Assumptions C13_get_alignment.

Example C13_instance :
  get_alignment true 100 gcc_types (TAtom 9 8) 4096 = Some (Ok 4096) /\
  get_alignment true 100 gcc_types (TAtom 9 8) (2 ^ 63) = Some (Ok (2 ^ 63)).
Proof. split; reflexivity. Qed.

(** C14 *)
Theorem C14_shift_right : forall dbg t v n, std_ity t -> inty t v -> 0 <= n < bits t ->
  shift_right dbg t v n = Ok (v / 2 ^ n).
Proof. exact shift_right_correct. Qed.
Print Assumptions C14_shift_right.

Theorem C14_shift_left_unsigned : forall dbg t v n, std_ity t -> sgn t = false -> inty t v ->
  0 <= n < bits t ->
  shift_left dbg t v n = Ok ((v * 2 ^ n) mod 2 ^ bits t).
Proof. exact shift_left_unsigned. Qed.
Print Assumptions C14_shift_left_unsigned.

Theorem C14_shift_left_signed : forall dbg t v n, std_ity t -> sgn t = true -> inty t v ->
  0 <= n < bits t ->
  shift_left dbg t v n =
    if (v <? 0) || ((32 <=? bits t) && (2 ^ bits t <=? v * 2 ^ n)) then UB
    else Ok (conv t (v * 2 ^ n)).
Proof. exact shift_left_signed. Qed.
Print Assumptions C14_shift_left_signed.

Theorem C14_excess_shift_aborts : forall t v n, bits t <= n ->
  shift_left true t v n = Abort /\ shift_right true t v n = Abort.
Proof. exact excess_shift. Qed.
Print Assumptions C14_excess_shift_aborts.

Example C14_instance :
  shift_right true i8 (-3) 1 = Ok (-2) /\ shift_left true u8 255 4 = Ok 240 /\
  shift_left true i8 100 1 = Ok (-56) /\ shift_left true i32 (2 ^ 30) 2 = UB /\
  shift_left true u8 1 8 = Abort /\ inty i8 (-3).
Proof. repeat split; unfold minv, maxv; simpl; lia. Qed.

(** C105: an enumeration value [e] is a value of its underlying type [u] *)
Theorem C105_round_trip : forall u e, std_ity u -> inty u e ->
  to_underlying u e = e /\ inty u (to_underlying u e) /\ enum_of u (to_underlying u e) = e.
Proof. exact underlying_values. Qed.
Print Assumptions C105_round_trip.

Theorem C105_order : forall u e f, std_ity u -> inty u e -> inty u f ->
  (to_underlying u e = to_underlying u f <-> e = f) /\ (to_underlying u e < to_underlying u f <-> e < f).
Proof. exact underlying_order. Qed.
Print Assumptions C105_order.

Example C105_instance : to_underlying i8 (-128) = -128 /\ to_underlying u64 (2 ^ 64 - 1) = 2 ^ 64 - 1 /\
  inty i8 (-128) /\ inty u64 (2 ^ 64 - 1).
Proof. repeat split; vm_compute; discriminate. Qed.
