(** Properties C15-C21: integer helpers of common.h. *)

Require Import ZArith List Lia Bool.
Require Import Verif.Outcome Verif.Machine Verif.BitsSpec
  Verif.ArithModel Verif.ArithSpec Verif.ArithProofs Verif.ArithModeProofs Verif.ArithRangeProofs Verif.DivProofs Verif.DivModeProofs.
Import ListNotations.
Open Scope Z_scope.

(** C15.  Full statement: for all integral types and operands with d <> 0 and no
    overflow, both evaluation modes give the truncating quotient and remainder
    of the operands converted to the common type.  True of constant
    evaluation: *)
Theorem C15_div_constant_partial : forall dbg t u n d, std_ity t -> std_ity u ->
  inty t n -> inty u d -> d <> 0 ->
  let c := common t u in
  (sgn c = true -> conv c n = minv c -> conv c d <> -1) ->
  exists q r, div_constant dbg t u n d = Ok (q, r) /\ division (conv c n) (conv c d) q r /\
    inty c q /\ inty c r.
Proof. exact div_constant_correct. Qed.
Print Assumptions C15_div_constant_partial.

(** at run time, only when no operand changes value on its way to the common
    type and to long long *)
Theorem C15_div_runtime_partial : forall dbg t u n d q r, std_ity t -> std_ity u ->
  inty t n -> inty u d -> d <> 0 ->
  let c := common t u in
  inty c n -> inty c d -> inty i64 n -> inty i64 d ->
  div_constant dbg t u n d = Ok (q, r) -> div_runtime dbg t u n d = Ok (q, r).
Proof. exact div_runtime_agrees. Qed.
Print Assumptions C15_div_runtime_partial.

(** what the run-time branch computes for all operands: 64-bit signed division *)
Theorem C15_div_runtime_is_64bit_partial : forall dbg t u n d, std_ity t -> std_ity u -> d <> 0 ->
  conv i64 d <> 0 -> (conv i64 n = - 2 ^ 63 -> conv i64 d <> -1) ->
  exists q r, division (conv i64 n) (conv i64 d) q r /\
    div_runtime dbg t u n d = Ok (conv (common t u) q, conv (common t u) r).
Proof. exact div_runtime_i64. Qed.
Print Assumptions C15_div_runtime_is_64bit_partial.

(** the specification determines quotient and remainder *)
Theorem C15_division_unique : forall n d q r q' r',
  division n d q r -> division n d q' r' -> q = q' /\ r = r'.
Proof. exact division_unique. Qed.
Print Assumptions C15_division_unique.

(** exactly which pairs of types are safe: the two modes agree on all operands if and
    only if the common type is signed, or both types are unsigned and the common type has
    fewer than 64 bits *)
Theorem C15_safe_types_partial : forall dbg t u, std_ity t -> std_ity u ->
  ((forall n d q r, inty t n -> inty u d -> d <> 0 ->
      div_constant dbg t u n d = Ok (q, r) -> div_runtime dbg t u n d = Ok (q, r)) <->
   sgn (common t u) = true \/ (sgn t = false /\ sgn u = false /\ bits (common t u) < 64)).
Proof. exact type_modes_exact. Qed.
Print Assumptions C15_safe_types_partial.

(** and for two uint64_t exactly which operands *)
Theorem C15_uint64_operands_partial : forall dbg n d, inty u64 n -> inty u64 d -> d <> 0 ->
  (div_runtime dbg u64 u64 n d = div_constant dbg u64 u64 n d <->
   n < 2 ^ 63 /\ n + d < 2 ^ 64 \/ d = 1 \/ n = d).
Proof. exact u64_modes_exact. Qed.
Print Assumptions C15_uint64_operands_partial.

(** exactly which operands, for every pair of types with an unsigned common type.  For a
    64-bit one the condition is on the operands converted to it; below that the modes can
    only differ for a negative operand *)
Theorem C15_operands_exact_partial : forall dbg t u n d, std_ity t -> std_ity u -> inty t n -> inty u d -> d <> 0 ->
  sgn (common t u) = false ->
  (div_runtime dbg t u n d = div_constant dbg t u n d <->
   if bits (common t u) =? 64 then
     let n' := n mod 2 ^ 64 in let d' := d mod 2 ^ 64 in
     n' < 2 ^ 63 /\ n' + d' < 2 ^ 64 \/ d' = 1 \/ n' = d'
   else (0 <= n /\ 0 < d) \/ d = 1 \/ 2 ^ 32 < d - n \/ 0 <= n < - d \/ (n = 2 ^ 32 - 1 /\ d = -1)).
Proof. exact operands_modes. Qed.
Print Assumptions C15_operands_exact_partial.

Example C15_operands_instance :
  div_runtime true i8 u64 (-1) 3 <> div_constant true i8 u64 (-1) 3 /\
  div_runtime true i16 u64 (-1) 1 = div_constant true i16 u64 (-1) 1 /\
  div_runtime true i32 u32 (-5) (2 ^ 32 - 4) = div_constant true i32 u32 (-5) (2 ^ 32 - 4) /\
  div_runtime true i32 u32 (-4) (2 ^ 32 - 4) <> div_constant true i32 u32 (-4) (2 ^ 32 - 4) /\
  div_runtime true u32 i8 6 (-7) = div_constant true u32 i8 6 (-7) /\
  div_runtime true u32 i8 7 (-7) <> div_constant true u32 i8 7 (-7) /\
  div_runtime true u32 i8 (2 ^ 32 - 1) (-1) = div_constant true u32 i8 (2 ^ 32 - 1) (-1).
Proof. repeat split; vm_compute; congruence. Qed.

(** div(2^63 as uint64_t, 2 as uint64_t) and div(-1, 2u) differ between compile
    time and run time *)
Theorem C15_div_modes_differ_refuted :
  (exists n d q r q' r', inty u64 n /\ inty u64 d /\ d <> 0 /\
     div_constant true u64 u64 n d = Ok (q, r) /\ division n d q r /\
     div_runtime true u64 u64 n d = Ok (q', r') /\ q <> q') /\
  (exists n d q r q' r', inty i32 n /\ inty u32 d /\ d <> 0 /\
     div_constant true i32 u32 n d = Ok (q, r) /\
     div_runtime true i32 u32 n d = Ok (q', r') /\ q <> q').
Proof.
  split.
  - exists (2 ^ 63), 2, (2 ^ 62), 0, (2 ^ 64 - 2 ^ 62), 0.
    repeat split; try (vm_compute; congruence).
  - exists (-1), 2, 2147483647, 1, 0, 4294967295.
    repeat split; try (vm_compute; congruence).
Qed.
Print Assumptions C15_div_modes_differ_refuted.

(** a bool operand counts as the int it is promoted to, so the theorems above apply; two
    bools give the first one and no remainder *)
Theorem C15_bool_operand : forall dbg u n d, std_ity u ->
  (div_constant dbg bool_t u n d = div_constant dbg i32 u n d /\
   div_runtime dbg bool_t u n d = div_runtime dbg i32 u n d) /\
  (div_constant dbg u bool_t n d = div_constant dbg u i32 n d /\
   div_runtime dbg u bool_t n d = div_runtime dbg u i32 n d).
Proof. exact div_bool_is_int. Qed.
Print Assumptions C15_bool_operand.

Theorem C15_two_bools : forall dbg n d, inty bool_t n -> inty bool_t d -> d <> 0 ->
  div_constant dbg bool_t bool_t n d = Ok (n, 0) /\ div_runtime dbg bool_t bool_t n d = Ok (n, 0).
Proof. exact div_two_bools. Qed.
Print Assumptions C15_two_bools.

Example C15_instance :
  div_constant true i32 i64 (-7) 2 = Ok (-3, -1) /\ div_runtime true i32 i64 (-7) 2 = Ok (-3, -1) /\
  common i32 i64 = i64 /\ inty i32 (-7) /\ inty i64 (-7).
Proof. repeat split; vm_compute; congruence. Qed.

(** C16.  Full statement: for all R, n, d with R(d) <> 0 and no overflow both
    modes return the quotient and remainder of R(n), R(d).  Proved for every R
    except 64-bit unsigned, and for that one when both operands are below 2^63. *)
Theorem C16_div_as_partial : forall dbg rt n d, std_ity rt ->
  conv rt d <> 0 ->
  (sgn rt = true -> conv rt n = minv rt -> conv rt d <> -1) ->
  (sgn rt = true \/ bits rt < 64 \/ (conv rt n < 2 ^ 63 /\ conv rt d < 2 ^ 63)) ->
  exists q r, div_as_constant dbg rt n d = Ok (q, r) /\ div_as_runtime dbg rt n d = Ok (q, r) /\
    division (conv rt n) (conv rt d) q r.
Proof. exact div_as_agrees. Qed.
Print Assumptions C16_div_as_partial.

(** and for R = uint64_t exactly when the two modes agree *)
Theorem C16_div_as_uint64_partial : forall dbg n d, conv u64 d <> 0 ->
  (div_as_runtime dbg u64 n d = div_as_constant dbg u64 n d <->
   n mod 2 ^ 64 < 2 ^ 63 /\ n mod 2 ^ 64 + d mod 2 ^ 64 < 2 ^ 64 \/
   d mod 2 ^ 64 = 1 \/ n mod 2 ^ 64 = d mod 2 ^ 64).
Proof. exact div_as_u64_exact. Qed.
Print Assumptions C16_div_as_uint64_partial.

Theorem C16_div_as_uint64_refuted : exists n d q r q' r',
  inty u64 n /\ inty u64 d /\ d <> 0 /\
  div_as_constant true u64 n d = Ok (q, r) /\ division n d q r /\
  div_as_runtime true u64 n d = Ok (q', r') /\ q <> q'.
Proof.
  exists (2 ^ 64 - 1), 10, 1844674407370955161, 5, 0, (2 ^ 64 - 1).
  repeat split; vm_compute; congruence.
Qed.
Print Assumptions C16_div_as_uint64_refuted.

(** R = bool: whether n is 0, and no remainder, in both modes *)
Theorem C16_bool : forall dbg n d, d <> 0 ->
  div_as_bool_constant dbg n d = Ok (if n =? 0 then 0 else 1, 0) /\
  div_as_bool_runtime dbg n d = Ok (if n =? 0 then 0 else 1, 0).
Proof. exact div_as_bool. Qed.
Print Assumptions C16_bool.

(** C08 for bool: the greatest power of two dividing true is 1; for 0, too, the greatest the type has *)
Theorem C08_bool : forall v, inty bool_t v -> greatest_divisor_bool v = Ok 1.
Proof. exact greatest_divisor_of_bool. Qed.
Print Assumptions C08_bool.
Example C08_bool_instance : inty bool_t 0 /\ inty bool_t 1 /\ ~ inty bool_t 2.
Proof. unfold inty, minv, maxv; cbn; lia. Qed.

Example C16_instance :
  div_as_constant true i16 100000 7 = Ok (conv i16 100000 / 7 + 1, Z.rem (conv i16 100000) 7) /\
  div_as_runtime true i16 100000 7 = div_as_constant true i16 100000 7 /\
  div_as_runtime true u32 (-1) 10 = Ok (429496729, 5).
Proof. repeat split; vm_compute; reflexivity. Qed.

(** C17 *)
Theorem C17_uint_from_nbits : forall n,
  (1 <= n <= 64 -> exists t, uint_from_nbits n = Some t /\ sgn t = false /\
     narrowest [8; 16; 32; 64] n (bits t)) /\
  (n <= 0 \/ 64 < n -> uint_from_nbits n = None).
Proof. exact uint_from_nbits_spec. Qed.
Print Assumptions C17_uint_from_nbits.

Theorem C17_uint_from_nbytes : forall k,
  (1 <= k <= 8 <-> exists t, uint_from_nbytes k = Some t) /\
  (1 <= k <= 8 -> uint_from_nbytes k = uint_from_nbits (8 * k)).
Proof. exact uint_from_nbytes_spec. Qed.
Print Assumptions C17_uint_from_nbytes.

(** the fast variants take the uint_fastN_t of that width, and reject the same arguments *)
Theorem C17_fast_variant : forall f8 f16 f32 f64 n,
  (1 <= n <= 64 -> exists w t, fast_uint_from_nbits f8 f16 f32 f64 n = Some t /\
     narrowest [8; 16; 32; 64] n w /\ In (w, t) [(8, f8); (16, f16); (32, f32); (64, f64)]) /\
  (n < 1 \/ 64 < n -> fast_uint_from_nbits f8 f16 f32 f64 n = None).
Proof.
  intros f8 f16 f32 f64 n. exact (conj (fast_uint_exact f8 f16 f32 f64 n) (fast_uint_rejects f8 f16 f32 f64 n)).
Qed.
Print Assumptions C17_fast_variant.

Theorem C17_fast_nbytes : forall f8 f16 f32 f64 k,
  (1 <= k <= 8 -> fast_uint_from_nbytes f8 f16 f32 f64 k = fast_uint_from_nbits f8 f16 f32 f64 (8 * k)) /\
  (k < 1 \/ 8 < k -> fast_uint_from_nbytes f8 f16 f32 f64 k = None).
Proof. exact fast_nbytes. Qed.
Print Assumptions C17_fast_nbytes.

Example C17_instance :
  uint_from_nbits 17 = Some u32 /\ uint_from_nbits 0 = None /\ uint_from_nbits 65 = None /\
  uint_from_nbytes 3 = Some u32 /\ uint_from_nbytes 40 = None.
Proof. repeat split. Qed.

(** C18 *)
Theorem C18_sum_size : forall ts, ts <> [] ->
  (forall x, In x ts -> 0 <= (match x with OBool => 1 | OOther s => 8 * s end)) ->
  fold_right Z.add 0 (map (fun x => match x with OBool => 1 | OOther s => 8 * s end) ts) < 2 ^ 64 ->
  exists k, sum_size ts = Some k /\
    bytes_for (fold_right Z.add 0 (map (fun x => match x with OBool => 1 | OOther s => 8 * s end) ts)) k.
Proof. exact sum_size_correct. Qed.
Print Assumptions C18_sum_size.

Example C18_instance :
  sum_size [OBool; OBool; OOther 4] = Some 5 /\ sum_size [OOther 4; OOther 8] = Some 12 /\
  sum_size [] = None.
Proof. repeat split. Qed.

(** C19 *)
Theorem C19_enum_properties : forall count, 1 <= count < 2 ^ 64 ->
  exists n t, enum_num_bits count = Ok n /\ bit_length count n /\
    enum_serialize_t count = Some t /\ forall v, 0 <= v <= count -> inty t v.
Proof. exact enum_correct. Qed.
Print Assumptions C19_enum_properties.

Example C19_instance :
  enum_serialize_t 255 = Some u8 /\ enum_serialize_t 256 = Some u16 /\ enum_serialize_t 0 = None.
Proof. repeat split. Qed.

(** C20.  Full statement: for all first <= last of every integral type the list
    is first, ..., last.  Proved when the number of values is representable in
    the type and last+1 does not overflow a signed type. *)
Theorem C20_values_in_range_partial : forall t first last, std_ity t -> inty t first -> inty t last ->
  first <= last -> last - first + 1 <= maxv t ->
  (sgn t = true -> 32 <= bits t -> last < maxv t) ->
  exists l, values_in_range t t first last = Some l /\ interval first last l.
Proof. exact values_in_range_same. Qed.
Print Assumptions C20_values_in_range_partial.

Theorem C20_values_in_range_mixed_partial : forall tf tl first last, std_ity tf -> std_ity tl ->
  inty tf first -> inty tl last ->
  let c := common tf tl in
  inty c first -> inty c last -> first <= last -> last - first + 1 <= maxv c ->
  last < maxv (promote tl) ->
  exists l, values_in_range tf tl first last = Some l /\ interval first last l.
Proof. exact values_in_range_mixed. Qed.
Print Assumptions C20_values_in_range_mixed_partial.

(** these bounds are exact *)
Theorem C20_exact_partial : forall t first last, std_ity t -> inty t first -> inty t last -> first <= last ->
  ((exists l, values_in_range t t first last = Some l /\ interval first last l) <->
   last - first + 1 <= maxv t /\ (sgn t = true -> 32 <= bits t -> last < maxv t)).
Proof. exact values_in_range_exact. Qed.
Print Assumptions C20_exact_partial.

(** and for bounds of any two types: both must be values of the common type, their number, too,
    and last+1 must be a value of last's (promoted) type, unless that type is unsigned and
    as wide as the common one *)
Theorem C20_mixed_exact_partial : forall tf tl first last, std_ity tf -> std_ity tl ->
  inty tf first -> inty tl last -> first <= last ->
  let c := common tf tl in
  ((exists l, values_in_range tf tl first last = Some l /\ interval first last l) <->
   inty c first /\ inty c last /\ last - first + 1 <= maxv c /\
   (last < maxv (promote tl) \/ (sgn (promote tl) = false /\ bits c <= bits (promote tl)))).
Proof. exact values_in_range_mixed_exact. Qed.
Print Assumptions C20_mixed_exact_partial.

(** values_in_range_t<-3ll, 4294967295u> is not rejected: it is -3, -2, -1 *)
Theorem C20_cut_refuted : forall first, - 2 ^ 63 < first < 0 ->
  exists l, values_in_range i64 u32 first (2 ^ 32 - 1) = Some l /\ interval first (-1) l.
Proof. exact values_in_range_cut. Qed.
Print Assumptions C20_cut_refuted.

(** outside those bounds a program is rejected or, for the complete range of the
    type only, gets the empty list *)
Theorem C20_values_in_range_sound_partial : forall t first last l,
  std_ity t -> inty t first -> inty t last ->
  first <= last -> values_in_range t t first last = Some l ->
  interval first last l \/ (l = [] /\ last - first + 1 = 2 ^ bits t).
Proof. exact values_in_range_sound. Qed.
Print Assumptions C20_values_in_range_sound_partial.

Theorem C20_full_range_refuted : forall t, std_ity t -> sgn t = false ->
  values_in_range t t 0 (maxv t) = Some [].
Proof. exact values_in_range_full. Qed.
Print Assumptions C20_full_range_refuted.

Example C20_instance :
  values_in_range i32 i32 (-2) 1 = Some [-2; -1; 0; 1] /\
  values_in_range u8 i32 250 256 = Some [250; 251; 252; 253; 254; 255; 256] /\
  values_in_range i32 i32 0 (2 ^ 31 - 1) = None /\
  values_in_range u8 u8 0 255 = Some [] /\
  values_in_range i64 u32 0 (2 ^ 32 - 1) = Some [] /\
  values_in_range i64 u32 (-3) (2 ^ 32 - 1) = Some [-3; -2; -1].
Proof. repeat split; vm_compute; reflexivity. Qed.

(** C21.  Full statement: for all Begin, End and Step > 0 the result is the
    longest progression from Begin by Step inside [min, max].  Proved for
    Begin <= End when End + Step does not overflow. *)
Theorem C21_ascending_partial : forall t ts b e st, std_ity t -> std_ity ts ->
  inty t b -> inty t e -> inty ts st -> 0 < st -> b <= e -> inty t (e + st) ->
  (0 <= b \/ sgn (usual t ts) = true) ->
  exists l n, (forall fuel, (n <= fuel)%nat ->
      make_array_from_range fuel t ts b e st = Some (Ok l)) /\
    progression b st b e l.
Proof. exact make_array_from_range_correct. Qed.
Print Assumptions C21_ascending_partial.

(** Begin > End: values outside the range *)
Theorem C21_descending_refuted : forall t ts b e st, std_ity t -> std_ity ts ->
  inty t b -> inty t e -> inty ts st -> 0 < st -> st <= b - e ->
  inty t (b + (b - e) + st) ->
  (0 <= e \/ sgn (usual t ts) = true) ->
  exists l n, (forall fuel, (n <= fuel)%nat ->
      make_array_from_range fuel t ts b e st = Some (Ok l)) /\
    exists x, In x l /\ Z.max b e < x.
Proof. exact make_array_descending. Qed.
Print Assumptions C21_descending_refuted.

(** End = greatest value of an unsigned type: the counting loop never ends *)
Theorem C21_max_end_diverges_refuted : forall t st b, std_ity t -> sgn t = false -> 0 < st < 2 ^ 30 ->
  inty t b -> b = maxv t \/ is_valid_range t i32 b (maxv t) st = Some true ->
  forall fuel, make_array_from_range fuel t i32 b (maxv t) st = Some Hang.
Proof. exact make_array_hangs. Qed.
Print Assumptions C21_max_end_diverges_refuted.

(** The exact conditions.  Begin <= End: the static_assert accepts, the first value
    past End does not overflow, and is past End after conversion to the type *)
Theorem C21_ascending_exact_partial : forall t ts b e st, std_ity t -> std_ity ts ->
  inty t b -> inty t e -> inty ts st -> 0 < st -> b <= e ->
  let u := usual t ts in
  let next := b + ((e - b) / st + 1) * st in
  ((exists l n, (forall fuel, (n <= fuel)%nat -> make_array_from_range fuel t ts b e st = Some (Ok l)) /\
      progression b st b e l) <->
   (b = e \/ conv u b < conv u (b + st)) /\ (sgn u = true -> next <= maxv u) /\ e < conv t next).
Proof. exact range_ascending. Qed.
Print Assumptions C21_ascending_exact_partial.

(** Begin > End: besides, only one value must be counted *)
Theorem C21_descending_exact_partial : forall t ts b e st, std_ity t -> std_ity ts ->
  inty t b -> inty t e -> inty ts st -> 0 < st -> e < b ->
  let u := usual t ts in
  ((exists l n, (forall fuel, (n <= fuel)%nat -> make_array_from_range fuel t ts b e st = Some (Ok l)) /\
      progression b st e b l) <->
   conv u e < conv u (e + st) /\ b < e + st /\ (sgn u = true -> b + st <= maxv u) /\ b < conv t (e + st)).
Proof. exact range_descending. Qed.
Print Assumptions C21_descending_exact_partial.

(** 0, 3, ..., 252 in uint8_t: 255 is past 254 and a uint8_t *)
Example C21_exact_instance :
  (0 = 254 \/ conv i32 0 < conv i32 (0 + 3)) /\ 254 < conv u8 (0 + ((254 - 0) / 3 + 1) * 3) /\
  ~ (255 < conv u8 (0 + ((255 - 0) / 3 + 1) * 3)).
Proof. vm_compute. split; [right; reflexivity|split; [reflexivity|discriminate]]. Qed.

Example C21_instance :
  make_array_from_range 10 i32 i32 1 10 3 = Some (Ok [1; 4; 7; 10]) /\
  make_array_from_range 10 i32 i32 5 1 1 = Some (Ok [5; 6; 7; 8; 9]) /\
  make_array_from_range 1000 u8 i32 0 255 1 = Some Hang /\
  is_valid_range u8 i32 0 255 1 = Some true.
Proof. repeat split; vm_compute; reflexivity. Qed.

(** C114: div_t{q, r} is accepted for integers whose values are kept by the conversion to
    the common type; it has that type and holds the two values *)
Theorem C114_exact : forall a b t u, otype a = Some t -> otype b = Some u ->
  operand_ity t -> operand_ity u -> inty t (ovalue a) -> inty u (ovalue b) ->
  forall r, make_div_t a b = Some r <->
    keeps_value t (common t u) (oconst a) (ovalue a) /\ keeps_value u (common t u) (oconst b) (ovalue b) /\
    r = (common t u, ovalue a, ovalue b).
Proof. exact make_div_t_exact. Qed.
Print Assumptions C114_exact.

(** nothing but integers is accepted *)
Theorem C114_integers : forall a b r, make_div_t a b = Some r ->
  exists t u, otype a = Some t /\ otype b = Some u.
Proof. exact make_div_t_integers. Qed.
Print Assumptions C114_integers.

(** values known at run time only: rejected exactly when the common type is unsigned and
    one of the operands is signed *)
Theorem C114_values : forall t u n d, operand_ity t -> operand_ity u -> inty t n -> inty u d ->
  (make_div_t (Operand (Some t) n false) (Operand (Some u) d false) = Some (common t u, n, d) <->
   sgn (common t u) = true \/ (sgn t = false /\ sgn u = false)) /\
  (make_div_t (Operand (Some t) n false) (Operand (Some u) d false) = None <->
   sgn (common t u) = false /\ (sgn t = true \/ sgn u = true)).
Proof. exact make_div_t_values. Qed.
Print Assumptions C114_values.

(** div_t{uint8_t, uint16_t}, div_t{1_u64, 1_i32} with constants, and the same with
    values; div_t{bool, bool}; div_t{1.0, 2} *)
Example C114_instance :
  make_div_t (Operand (Some u8) 200 false) (Operand (Some u16) 7 false) = Some (i32, 200, 7) /\
  make_div_t (Operand (Some u64) 1 true) (Operand (Some i32) 1 true) = Some (u64, 1, 1) /\
  make_div_t (Operand (Some u64) 1 false) (Operand (Some i32) 1 false) = None /\
  make_div_t (Operand (Some bool_t) 1 false) (Operand (Some bool_t) 0 false) = Some (bool_t, 1, 0) /\
  make_div_t (Operand None 1 false) (Operand (Some i32) 2 false) = None.
Proof. repeat split; vm_compute; reflexivity. Qed.
