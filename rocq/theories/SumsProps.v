(** Property C152: the integer helpers fit together. *)

Require Import ZArith List Lia Bool Permutation.
Require Import Verif.Outcome Verif.Machine Verif.BitsModel Verif.ArithModel Verif.SumsProofs.
Import ListNotations.
Open Scope Z_scope.

(** The type uint_from_nbits_t picks for the bits a value occupies holds the value, and no
    narrower unsigned type does. *)
Theorem C152_value_type : forall v, 1 <= v < 2 ^ 64 -> exists n t,
  bits_count v = Ok n /\ uint_from_nbits n = Some t /\ inty t v /\
  forall u, std_ity u -> sgn u = false -> inty u v -> bits t <= bits u.
Proof. exact value_type. Qed.
Print Assumptions C152_value_type.

(** An unsigned type is the one picked for its own number of bits and of bytes. *)
Theorem C152_type_of_width : forall t, std_ity t -> sgn t = false ->
  uint_from_nbits (bits t) = Some t /\ uint_from_nbytes (bits t / 8) = Some t.
Proof. exact type_of_width. Qed.
Print Assumptions C152_type_of_width.

(** More bits never give a narrower type. *)
Theorem C152_type_monotone : forall n m t u, n <= m ->
  uint_from_nbits n = Some t -> uint_from_nbits m = Some u -> bits t <= bits u.
Proof. exact type_monotone. Qed.
Print Assumptions C152_type_monotone.

(** The size of one type is its size. *)
Theorem C152_sum_one : forall s, 0 <= s -> 8 * s < 2 ^ 64 -> sum_size [OOther s] = Some s.
Proof. exact sum_one. Qed.
Print Assumptions C152_sum_one.

(** The order of the types does not matter. *)
Theorem C152_sum_order : forall a b, a <> [] -> (forall s, In (OOther s) a -> 0 <= s) ->
  fold_right Z.add 0 (map (fun x => match x with OBool => 1 | OOther s => 8 * s end) a) < 2 ^ 64 ->
  Permutation a b -> sum_size b = sum_size a.
Proof. exact sum_order. Qed.
Print Assumptions C152_sum_order.

(** Types packed together need what they need apart; a byte can only be saved where both
    parts contain a bool. *)
Theorem C152_sum_join : forall a b, a <> [] -> b <> [] -> (forall s, In (OOther s) (a ++ b) -> 0 <= s) ->
  fold_right Z.add 0 (map (fun x => match x with OBool => 1 | OOther s => 8 * s end) (a ++ b)) < 2 ^ 64 ->
  exists i j k, sum_size a = Some i /\ sum_size b = Some j /\ sum_size (a ++ b) = Some k /\
    i + j - 1 <= k <= i + j /\ (~ In OBool a \/ ~ In OBool b -> k = i + j).
Proof. exact sum_join. Qed.
Print Assumptions C152_sum_join.

(** Dividing an unsigned value by a power of two is shifting it: always in constant
    evaluation; at run time exactly for values below 2^63, the divisor 1 and equal operands
    when the type has 64 bits (C15). *)
Theorem C152_div_power : forall dbg t v n, std_ity t -> sgn t = false -> inty t v -> 0 <= n < bits t -> exists s,
  shift_right dbg t v n = Ok s /\ div_constant dbg t t v (2 ^ n) = Ok (s, v mod 2 ^ n) /\
  (div_runtime dbg t t v (2 ^ n) = Ok (s, v mod 2 ^ n) <->
   bits t < 64 \/ v < 2 ^ 63 \/ n = 0 \/ v = 2 ^ n).
Proof. exact div_power. Qed.
Print Assumptions C152_div_power.

(** div finds the quotient and remainder a number was put together from. *)
Theorem C152_div_again : forall dbg t d q r, std_ity t -> 0 < d -> 0 <= r < d -> 0 <= q ->
  inty t (q * d + r) -> inty i64 (q * d + r) -> inty t d -> inty i64 d ->
  div_constant dbg t t (q * d + r) d = Ok (q, r) /\ div_runtime dbg t t (q * d + r) d = Ok (q, r).
Proof. exact div_again. Qed.
Print Assumptions C152_div_again.

(** Neighbouring ranges join to the whole range. *)
Theorem C152_ranges_join : forall t a b c, std_ity t -> inty t a -> inty t c -> a <= b -> b < c ->
  c - a + 1 <= maxv t -> (sgn t = true -> 32 <= bits t -> c < maxv t) ->
  exists l l' l'', values_in_range t t a b = Some l /\ values_in_range t t (b + 1) c = Some l' /\
    values_in_range t t a c = Some l'' /\ l'' = l ++ l'.
Proof. exact ranges_join. Qed.
Print Assumptions C152_ranges_join.

(** The range of one value is that value. *)
Theorem C152_range_single : forall t v, std_ity t -> inty t v -> (sgn t = true -> 32 <= bits t -> v < maxv t) ->
  values_in_range t t v v = Some [v].
Proof. exact range_single. Qed.
Print Assumptions C152_range_single.

(** make_array_from_range with step 1 and values_in_range list the same values. *)
Theorem C152_ranges_agree : forall t b e, std_ity t -> inty t b -> inty t e -> b <= e -> e < maxv t ->
  e - b + 1 <= maxv t -> (0 <= b \/ sgn (usual t i32) = true) ->
  exists l n, values_in_range t t b e = Some l /\
    forall fuel, (n <= fuel)%nat -> make_array_from_range fuel t i32 b e 1 = Some (Ok l).
Proof. exact ranges_agree. Qed.
Print Assumptions C152_ranges_agree.

(** 300 needs 9 bits, which is uint16_t; two lists with a bool each save a byte when packed
    together; 1000 / 8 in uint16_t; 2^63 / 8 in uint64_t at run time is not the shift;
    2..5 and 6..9 join to 2..9. *)
Example C152_instance :
  bits_count 300 = Ok 9 /\ uint_from_nbits 9 = Some u16 /\
  sum_size [OBool; OOther 2] = Some 3 /\ sum_size [OOther 1; OBool] = Some 2 /\
  sum_size [OBool; OOther 2; OOther 1; OBool] = Some 4 /\
  shift_right true u16 1000 3 = Ok 125 /\ div_constant true u16 u16 1000 8 = Ok (125, 0) /\
  div_runtime true u16 u16 1000 8 = Ok (125, 0) /\
  shift_right true u64 (2 ^ 63) 3 = Ok (2 ^ 60) /\
  div_runtime true u64 u64 (2 ^ 63) 8 <> Ok (2 ^ 60, 0) /\
  values_in_range i32 i32 2 5 = Some [2; 3; 4; 5] /\ values_in_range i32 i32 6 9 = Some [6; 7; 8; 9] /\
  make_array_from_range 20 i32 i32 2 9 1 = Some (Ok [2; 3; 4; 5; 6; 7; 8; 9]).
Proof. vm_compute. repeat split; discriminate. Qed.
