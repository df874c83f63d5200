(** The theorems about is_valid_range_v<Begin, End, Step>. *)

Require Import ZArith Bool.
Require Import Verif.Outcome Verif.Machine Verif.ArithModel Verif.ValidSpec Verif.ValidModel Verif.ValidProofs.
Open Scope Z_scope.

(** * C120: the answer is yes exactly for an empty range or one walked upwards *)

(** True if no comparison and no sum changes a value, with the three arguments of any types: *)
Theorem C120_valid_partial : forall tb te ts b e st, std_ity tb -> std_ity te -> std_ity ts ->
  inty (usual tb te) b -> inty (usual tb te) e ->
  inty (usual tb ts) b -> inty (usual tb ts) st -> inty (usual tb ts) (b + st) ->
  exists v, valid_range tb te ts b e st = Some v /\ (v = true <-> steps_toward b e st).
Proof. exact valid_right. Qed.
Print Assumptions C120_valid_partial.

(** 200 (unsigned char), 70000 (long), 100 (signed char): the sum is 300; steps of -1; upside down *)
Example C120_instance : valid_range u8 i64 i8 200 70000 100 = Some true /\ steps_toward 200 70000 100 /\
  valid_range i32 i64 i32 5 70000 (-1) = Some false /\ valid_range i32 i32 i32 9 5 1 = Some false /\
  valid_range i32 i32 i32 5 5 (-1) = Some true.
Proof. repeat split; try reflexivity. right. split; reflexivity. Qed.

(** With one type: exactly which ranges are valid, and which do not compile. *)
Theorem C120_exact_partial : forall t b e st, std_ity t -> inty t b -> inty t e -> inty t st ->
  (valid_range t t t b e st = Some true <-> b = e \/ (b < e /\ 0 < st /\ b + st <= maxv (promote t))) /\
  (valid_range t t t b e st = None <-> b < e /\ sgn (promote t) = true /\ ~ inty (promote t) (b + st)).
Proof. exact valid_exact. Qed.
Print Assumptions C120_exact_partial.

(** Not in general.  A negative Begin with an unsigned End of int's size or wider: every such
    range is refused. *)
Theorem C120_negative_begin_refuted : forall tb te ts b e st, std_ity tb -> std_ity te -> sgn tb = true -> sgn te = false ->
  32 <= bits te -> bits tb <= bits te -> inty tb b -> inty te e -> b < 0 -> e < b + 2 ^ bits te -> 0 < st ->
  steps_toward b e st /\ valid_range tb te ts b e st = Some false.
Proof. exact refuse_negative_begin. Qed.
Print Assumptions C120_negative_begin_refuted.

Example C120_negative_begin_instance : valid_range i32 u64 i32 (-3) 10 1 = Some false /\ steps_toward (-3) 10 1.
Proof. split; [reflexivity|right; split; reflexivity]. Qed.

(** An unsigned Begin with a negative End: accepted, although Begin lies above End. *)
Theorem C120_negative_end_refuted : forall tb te ts b e st, std_ity tb -> std_ity te -> std_ity ts ->
  sgn tb = false -> sgn te = true ->
  32 <= bits tb -> bits te <= bits tb -> inty tb b -> inty te e -> e < 0 -> b < e + 2 ^ bits tb ->
  bits ts <= bits tb -> inty ts st -> 0 < st -> b + st < 2 ^ bits tb ->
  ~ steps_toward b e st /\ valid_range tb te ts b e st = Some true.
Proof. exact accept_negative_end. Qed.
Print Assumptions C120_negative_end_refuted.

Example C120_negative_end_instance : valid_range u32 i32 i32 5 (-1) 1 = Some true /\ ~ steps_toward 5 (-1) 1.
Proof. split; [reflexivity|]. intros [H|[H _]]; discriminate H. Qed.

(** A first step over the end of an unsigned type: refused; over the end of a signed one:
    does not compile. *)
Theorem C120_step_wraps_refuted : forall t b e st, std_ity t -> sgn t = false -> 32 <= bits t ->
  inty t b -> inty t e -> inty t st -> b < e -> 2 ^ bits t <= b + st ->
  steps_toward b e st /\ valid_range t t t b e st = Some false.
Proof. exact refuse_wraps. Qed.
Print Assumptions C120_step_wraps_refuted.

Theorem C120_step_overflows_refuted : forall t b e st, std_ity t -> sgn t = true -> 32 <= bits t ->
  inty t b -> inty t e -> inty t st -> b < e -> maxv t < b + st ->
  steps_toward b e st /\ valid_range t t t b e st = None.
Proof. exact reject_overflows. Qed.
Print Assumptions C120_step_overflows_refuted.

Example C120_step_instance : valid_range u32 u32 u32 4294967290 4294967295 6 = Some false /\
  steps_toward 4294967290 4294967295 6 /\ valid_range i32 i32 i32 2147483640 2147483647 8 = None.
Proof. repeat split; try reflexivity. right. split; reflexivity. Qed.

(** The definition make_array_from_range uses (C21) is this one at one type. *)
Theorem C120_same_type : forall t ts b e st, std_ity t -> inty t b -> inty t e ->
  valid_range t t ts b e st = is_valid_range t ts b e st.
Proof. exact valid_same. Qed.
Print Assumptions C120_same_type.

Example C120_same_type_instance : is_valid_range u8 u8 3 250 10 = Some true.
Proof. reflexivity. Qed.
