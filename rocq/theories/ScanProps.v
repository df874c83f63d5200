(** Property C142: the results of clz.h and ctz.h across compilers, and while compiling. *)

Require Import ZArith List Bool Lia.
Require Import Verif.Outcome Verif.Machine Verif.TypeListModel Verif.BitsSpec Verif.BitsModel
  Verif.ScanSpec Verif.ScanModel Verif.ScanProofs.
Import ListNotations.
Open Scope Z_scope.

(** C142: the right count in every phase on every compiler, with all conversions made; an
    operand wider than the widest intrinsic is rejected *)
Theorem C142_count : forall q c ph dbg t v, 0 < v < 2 ^ (8 * Z.of_nat (sizeof t)) ->
  ((sizeof t <= widest_operand c)%nat ->
   exists n, count_zeros q c ph dbg t v = Some (Ok n) /\ right_count q (8 * Z.of_nat (sizeof t)) v n) /\
  ((widest_operand c < sizeof t)%nat -> count_zeros q c ph dbg t v = None).
Proof. exact count_right. Qed.
Print Assumptions C142_count.

(** so the count is the same everywhere *)
Theorem C142_portable_count : forall q c c' ph ph' dbg dbg' t v, 0 < v < 2 ^ (8 * Z.of_nat (sizeof t)) ->
  (sizeof t <= widest_operand c)%nat -> (sizeof t <= widest_operand c')%nat ->
  count_zeros q c ph dbg t v = count_zeros q c' ph' dbg' t v.
Proof. exact count_same. Qed.
Print Assumptions C142_portable_count.

(** the functions of C10 and C11 are these *)
Theorem C142_same_functions : forall c ph dbg t v, 0 < v < 2 ^ (8 * Z.of_nat (sizeof t)) ->
  count_zeros Leading c ph dbg t v = clz dbg 100 (operand_types c) t v /\
  count_zeros Trailing c ph dbg t v = ctz dbg 100 (operand_types c) t v.
Proof. exact count_abbreviates. Qed.
Print Assumptions C142_same_functions.

(** but the type of the result is not: clz(8u) - clz(4u) is 2^32 - 1 with MSVC and -1
    elsewhere, and -1 < clz(8u) is false with MSVC *)
Theorem C142_expression_refuted : forall dbg ph,
  count_zeros Leading Msvc64 ph dbg (TAtom 9 4) 8 = Some (Ok 28) /\
  count_zeros Leading Msvc64 ph dbg (TAtom 9 4) 4 = Some (Ok 29) /\
  difference Msvc64 28 29 = Ok (2 ^ 32 - 1) /\ difference Gcc64 28 29 = Ok (-1) /\
  int_less_than Msvc64 (-1) 28 = false /\ int_less_than Gcc64 (-1) 28 = true.
Proof. exact difference_differs. Qed.
Print Assumptions C142_expression_refuted.

(** exactly: a difference of two counts is right unless it is negative with MSVC; it is
    right again once converted to int *)
Theorem C142_difference_exact_partial : forall q c t1 t2 a b n m,
  (sizeof t1 <= widest_operand c)%nat -> (sizeof t2 <= widest_operand c)%nat ->
  0 < a < 2 ^ (8 * Z.of_nat (sizeof t1)) -> 0 < b < 2 ^ (8 * Z.of_nat (sizeof t2)) ->
  right_count q (8 * Z.of_nat (sizeof t1)) a n -> right_count q (8 * Z.of_nat (sizeof t2)) b m ->
  (difference c n m = Ok (n - m) <-> c = Gcc64 \/ c = Gcc32 \/ m <= n) /\
  (~ (c = Gcc64 \/ c = Gcc32 \/ m <= n) -> difference c n m = Ok (2 ^ 32 + (n - m))) /\
  exists d, difference c n m = Ok d /\ conv i32 d = n - m.
Proof. exact same_meaning_exact. Qed.
Print Assumptions C142_difference_exact_partial.

(** exactly: comparisons with an int are right unless it is negative with MSVC *)
Theorem C142_comparison_exact_partial : forall q c t v n k, (sizeof t <= widest_operand c)%nat ->
  0 < v < 2 ^ (8 * Z.of_nat (sizeof t)) -> right_count q (8 * Z.of_nat (sizeof t)) v n -> inty i32 k ->
  ((less_than_int c n k = true <-> n < k) /\ (int_less_than c k n = true <-> k < n) <->
   c = Gcc64 \/ c = Gcc32 \/ 0 <= k).
Proof. exact comparison_exact. Qed.
Print Assumptions C142_comparison_exact_partial.

(** both are about values the calls return *)
Example C142_instance :
  count_zeros Leading Msvc64 Running true (TAtom 9 1) 5 = Some (Ok 5) /\
  count_zeros Leading Msvc32 Compiling true (TAtom 9 2) 5 = Some (Ok 13) /\
  count_zeros Leading Gcc32 Running true (TAtom 9 8) 5 = Some (Ok 61) /\
  count_zeros Trailing Msvc64 Compiling true (TAtom 9 8) (2 ^ 63) = Some (Ok 63) /\
  count_zeros Trailing Msvc32 Running true (TAtom 9 8) 8 = None /\
  right_count Leading 8 5 5 /\ right_count Leading 64 5 61 /\
  difference Msvc32 13 5 = Ok 8 /\ less_than_int Msvc64 5 8 = true.
Proof. repeat split; try (vm_compute; reflexivity); try lia. Qed.

(** C143: the value 0, for which there is no count in C++17's intrinsics.  A debug build
    aborts; a release build answers only while compiling with MSVC *)
Theorem C143_zero_partial : forall q c ph dbg t, (0 < sizeof t <= widest_operand c)%nat ->
  ((exists n, count_zeros q c ph dbg t 0 = Some (Ok n)) <->
   dbg = false /\ ph = Compiling /\ (c = Msvc64 \/ c = Msvc32)) /\
  (dbg = true -> count_zeros q c ph dbg t 0 = Some Abort).
Proof. exact zero_exact. Qed.
Print Assumptions C143_zero_partial.

(** what it answers is not a count: clz(0) is clz(1), and ctz of the 8 bits 0 is 31 *)
Theorem C143_zero_refuted : forall t, (0 < sizeof t <= 4)%nat ->
  count_zeros Leading Msvc64 Compiling false t 0 = Some (Ok (8 * Z.of_nat (sizeof t) - 1)) /\
  count_zeros Leading Msvc64 Compiling false t 1 = Some (Ok (8 * Z.of_nat (sizeof t) - 1)) /\
  count_zeros Trailing Msvc64 Compiling false t 0 = Some (Ok 31).
Proof. exact zero_answers. Qed.
Print Assumptions C143_zero_refuted.

(** every case *)
Theorem C143_zero_exact_partial : forall q c ph dbg t, (0 < sizeof t <= widest_operand c)%nat ->
  count_zeros q c ph dbg t 0 =
    Some (if dbg then Abort
          else match c, ph with
               | Msvc64, Compiling | Msvc32, Compiling =>
                 Ok (match q with
                     | Leading => 8 * Z.of_nat (sizeof t) - 1
                     | Trailing => if (4 <? sizeof t)%nat then 63 else 31
                     end)
               | _, _ => UB
               end).
Proof. exact zero_cases. Qed.
Print Assumptions C143_zero_exact_partial.

Example C143_instance :
  count_zeros Leading Gcc64 Running true (TAtom 9 4) 0 = Some Abort /\
  count_zeros Leading Gcc64 Running false (TAtom 9 4) 0 = Some UB /\
  count_zeros Trailing Msvc64 Compiling false (TAtom 9 1) 0 = Some (Ok 31) /\
  (0 < sizeof (TAtom 9 1) <= widest_operand Msvc64)%nat.
Proof. repeat split; cbn; lia. Qed.
