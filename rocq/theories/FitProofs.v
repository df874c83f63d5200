(** Lemmas about how the bit and alignment functions fit together (C150). *)

Require Import ZArith List Lia Bool.
Require Import Verif.Outcome Verif.Machine Verif.TypeListModel Verif.BitsModel
  Verif.BitsSpec Verif.BitsProofs Verif.BitsProps.
Import ListNotations.
Open Scope Z_scope.

Lemma pow2_positive : forall a, pow2 a -> 0 < a.
Proof. intros a [k [K ->]]. apply Z.pow_pos_nonneg; lia. Qed.

Lemma pow2_divides : forall a b, pow2 a -> pow2 b -> (a <= b <-> (a | b)).
Proof.
  intros a b [i [Hi ->]] [j [Hj ->]]. split.
  - intros L. assert (i <= j) by (apply Z.pow_le_mono_r_iff with (a := 2); lia).
    exists (2 ^ (j - i)). rewrite <- Z.pow_add_r by lia. f_equal. lia.
  - intros D. apply Z.divide_pos_le; [apply Z.pow_pos_nonneg; lia|exact D].
Qed.

(** the exponent is determined *)
Lemma pow2_inj : forall a b, 0 <= a -> 0 <= b -> 2 ^ a = 2 ^ b -> a = b.
Proof. intros a b A B E. apply Z.pow_inj_r with 2; lia. Qed.

(** * counts of zeros *)

Definition width_of (t : ty) : Z := 8 * Z.of_nat (sizeof t).

Lemma leading_length : forall w v n m, 0 < v -> leading_zeros w v n -> bit_length v m -> n + m = w.
Proof.
  intros w v n m V [[N1 N2] [L1 L2]] [M0 [M1 M2]].
  assert (A := M2 (w - n) ltac:(lia) L2).
  assert (B : w - 1 - n < m).
  { apply Z.pow_lt_mono_r_iff with (a := 2); lia. }
  lia.
Qed.

Lemma clz_bits : forall dbg t v, (0 < sizeof t <= 8)%nat -> 0 < v < 2 ^ width_of t ->
  exists n m, clz dbg 100 gcc_types t v = Some (Ok n) /\ bits_count v = Ok m /\ n + m = width_of t.
Proof.
  intros dbg t v S V. destruct (C10_platforms dbg t v V) as [C _]. destruct (C ltac:(lia)) as [n [_ [L [_ [E _]]]]].
  destruct (C07_bit_length 65 u64 v) as [m [B [_ BL]]]; auto.
  - unfold std_ity. cbn [bits u64]. lia.
  - unfold inty, minv, maxv. cbn [sgn bits u64]. 
    assert (2 ^ width_of t <= 2 ^ 64) by (apply Z.pow_le_mono_r; unfold width_of; lia). lia.
  - exists n, m. split; [exact E|]. split; [exact B|]. eapply leading_length; eauto. lia.
Qed.

Lemma trailing_unique : forall v n m, trailing_zero_count v n -> trailing_zero_count v m -> n = m.
Proof.
  assert (A : forall v n m, trailing_zero_count v n -> trailing_zero_count v m -> n <= m).
  { intros v n m [N0 [N1 N2]] [M0 [M1 M2]]. destruct (Z_le_gt_dec n m); [assumption|]. exfalso. apply M2.
    apply Z.divide_trans with (2 ^ n); [|exact N1]. exists (2 ^ (n - (m + 1))). rewrite <- Z.pow_add_r by lia. f_equal. lia. }
  intros v n m N M. assert (X := A v n m N M). assert (Y := A v m n M N). lia.
Qed.

Lemma power_counts : forall dbg t v, (0 < sizeof t <= 8)%nat -> 0 < v < 2 ^ width_of t ->
  exists n m, clz dbg 100 gcc_types t v = Some (Ok n) /\ ctz dbg 100 gcc_types t v = Some (Ok m) /\
    (is_power_of_2 v = true <-> n + m = width_of t - 1).
Proof.
  intros dbg t v S V. destruct (C10_platforms dbg t v V) as [C _]. destruct (C ltac:(lia)) as [n [_ [[[L1 L2] [L3 L4]] [_ [E _]]]]].
  destruct (C11_platforms dbg t v V) as [D _]. destruct (D ltac:(lia)) as [m [_ [[T1 [T2 T3]] [_ [F _]]]]].
  fold (width_of t) in *.
  exists n, m. split; [exact E|]. split; [exact F|].
  assert (V64 : 0 <= v < 2 ^ 64).
  { assert (2 ^ width_of t <= 2 ^ 64) by (apply Z.pow_le_mono_r; unfold width_of; lia). lia. }
  rewrite (C01_is_power_of_2 v V64). split.
  - intros [k [K ->]].
    assert (m = k).
    { apply (trailing_unique (2 ^ k)); [split; [lia|split; assumption]|]. split; [lia|]. split; [apply Z.divide_refl|].
      intros Q. apply Z.divide_pos_le in Q; [|apply Z.pow_pos_nonneg; lia].
      assert (k + 1 <= k) by (apply Z.pow_le_mono_r_iff with (a := 2); lia). lia. }
    subst m. assert (width_of t - 1 - n <= k) by (apply Z.pow_le_mono_r_iff with (a := 2); lia).
    assert (k < width_of t - n) by (apply Z.pow_lt_mono_r_iff with (a := 2); lia). lia.
  - intros Q. replace (width_of t - 1 - n) with m in L3 by lia. replace (width_of t - n) with (m + 1) in L4 by lia.
    exists m. split; [unfold width_of in *; lia|]. destruct T2 as [q ->]. rewrite Z.pow_add_r in L4 by lia.
    change (2 ^ 1) with 2 in L4. assert (0 < 2 ^ m) by (apply Z.pow_pos_nonneg; lia). assert (q = 1) by nia. subst q. lia.
Qed.

(** the divisor is the one bit that ctz counts up to, and the alignment of the address *)
Lemma divisor_ctz : forall dbg t u v, std_ity u -> sgn u = false -> bits u = width_of t -> (0 < sizeof t <= 8)%nat -> 0 < v -> inty u v ->
  exists n, ctz dbg 100 gcc_types t v = Some (Ok n) /\ greatest_divisor u v = Ok (2 ^ n).
Proof.
  intros dbg t u v SU SG BU S V I.
  assert (V2 : 0 < v < 2 ^ (8 * Z.of_nat (sizeof t))).
  { unfold inty, minv, maxv in I. rewrite SG, BU in I. unfold width_of in I. lia. }
  destruct (C11_platforms dbg t v V2) as [D _]. destruct (D ltac:(lia)) as [n [_ [T [_ [F _]]]]].
  destruct (C08_greatest_divisor u v SU SG I) as [G _]. destruct (G V) as [d [E [[k [K ->]] [D1 D2]]]].
  exists n. split; [exact F|]. rewrite E. f_equal. f_equal. apply (trailing_unique v); [|exact T].
  split; [exact K|]. split; [exact D1|]. rewrite Z.pow_add_r by lia. change (2 ^ 1) with 2. rewrite Z.mul_comm. exact D2.
Qed.

Lemma alignment_divisor : forall dbg t p, sizeof t = 8%nat -> 0 < p < 2 ^ 64 -> exists a,
  get_alignment dbg 100 gcc_types t p = Some (Ok a) /\ greatest_divisor u64 p = Ok a.
Proof.
  intros dbg t p S P.
  destruct (C13_get_alignment dbg 100 gcc_types t p) as [a [E [A1 [A2 A3]]]]; auto.
  - cbn. lia.
  - exists (TAtom 1 8). split; [right; left; reflexivity|cbn; lia].
  - exists a. split; [exact E|].
    destruct (C08_greatest_divisor u64 p) as [G _]; [unfold std_ity; cbn [bits u64]; lia|reflexivity|unfold inty, minv, maxv; cbn [sgn bits u64]; lia|].
    destruct (G ltac:(lia)) as [d [E' [D1 [D2 D3]]]]. rewrite E'. f_equal.
    assert (X := A3 d D1 D2). destruct (Z_le_lt_eq_dec _ _ X) as [L|L]; [|exact L]. exfalso. apply D3.
    apply Z.divide_trans with a; [|exact A2]. apply pow2_divides; auto.
    + destruct D1 as [k [K ->]]. exists (k + 1). split; [lia|]. rewrite Z.pow_add_r by lia. change (2 ^ 1) with 2. lia.
    + destruct D1 as [i [I ->]]. destruct A1 as [j [J ->]].
      assert (i < j) by (apply Z.pow_lt_mono_r_iff with (a := 2); lia).
      replace (2 * 2 ^ i) with (2 ^ (i + 1)) by (rewrite Z.pow_add_r by lia; change (2 ^ 1) with 2; lia).
      apply Z.pow_le_mono_r; lia.
Qed.

(** an address is aligned to exactly the powers of two up to its alignment *)
Lemma aligned_up_to : forall dbg t p a, sizeof t = 8%nat -> 0 < p < 2 ^ 64 -> pow2 a -> a < 2 ^ 64 ->
  exists m, get_alignment dbg 100 gcc_types t p = Some (Ok m) /\ (is_aligned dbg p a = Ok true <-> a <= m).
Proof.
  intros dbg t p a S P A AL.
  destruct (C13_get_alignment dbg 100 gcc_types t p) as [m [E [A1 [A2 A3]]]]; auto.
  { cbn. lia. }
  { exists (TAtom 1 8). split; [right; left; reflexivity|cbn; lia]. }
  exists m. split; [exact E|]. destruct (C05_is_aligned dbg p a A AL ltac:(lia)) as [b [-> B]].
  split.
  - intros H. injection H as ->. apply A3; [exact A|]. apply B. reflexivity.
  - intros H. assert (b = true); [|subst; reflexivity]. apply B. apply Z.divide_trans with m; [|exact A2]. apply pow2_divides; auto.
Qed.

(** * rounding up *)

Lemma round_up : forall dbg a p, pow2 a -> a < 2 ^ 64 -> 0 <= p -> p + a <= 2 ^ 64 ->
  exists q k, next_multiple_of dbg a p = Ok q /\ skip_to_align dbg p a = Ok k /\ q = p + k /\ 0 <= k < a /\
    is_aligned dbg q a = Ok true /\ next_multiple_of dbg a q = Ok q /\ skip_to_align dbg q a = Ok 0 /\
    (is_aligned dbg p a = Ok true <-> k = 0) /\ (is_aligned dbg p a = Ok true <-> q = p).
Proof.
  intros dbg a p A AL P0 P1. assert (A0 := pow2_positive a A).
  assert (PL : 0 <= p < 2 ^ 64) by lia.
  destruct (C02_next_multiple_of dbg a p A AL PL) as [q [[Q1 [Q2 Q3]] [E1 _]]].
  assert (QB : q < p + a).
  { destruct (Z_lt_le_dec q (p + a)); [assumption|]. exfalso.
    assert (q <= q - a) by (apply Q3; [apply Z.divide_sub_r; [exact Q1|apply Z.divide_refl]|lia]). lia. }
  assert (QL : 0 <= q < 2 ^ 64) by lia. specialize (E1 ltac:(lia)).
  assert (R : forall x, 0 <= x < 2 ^ 64 -> skip_to_align dbg x a = bind (next_multiple_of dbg a x) (fun n => Ok (wrap 64 (n - x)))).
  { intros x X. destruct (C02_next_multiple_of dbg a x A AL X) as [r [_ [X1 X2]]].
    unfold skip_to_align. assert (I : is_power_of_2 a = true).
    { apply C01_is_power_of_2; [lia|]. destruct A as [k [K ->]]. exists k. split; [|reflexivity].
      split; [exact K|]. apply Z.pow_lt_mono_r_iff with (a := 2); lia. }
    rewrite I. unfold cassert. destruct dbg; reflexivity. }
  destruct (C02_next_multiple_of dbg a q A AL QL) as [q' [[Q1' [Q2' Q3']] [E1' _]]].
  assert (q' = q) by (assert (q' <= q) by (apply Q3'; [exact Q1|lia]); lia). subst q'. specialize (E1' ltac:(lia)).
  exists q, (q - p). split; [exact E1|]. split.
  { rewrite R by lia. rewrite E1. cbn [bind]. unfold wrap. rewrite Z.mod_small by lia. reflexivity. }
  split; [lia|]. split; [lia|].
  destruct (C05_is_aligned dbg q a A AL QL) as [b [E5 B]].
  assert (b = true) by (apply B; exact Q1). subst b. split; [exact E5|]. split; [exact E1'|]. split.
  { rewrite R by lia. rewrite E1'. cbn [bind]. rewrite Z.sub_diag. reflexivity. }
  destruct (C05_is_aligned dbg p a A AL PL) as [b [E6 B']]. rewrite E6.
  assert (Z : (a | p) <-> q = p).
  { split; [|intros ->; exact Q1]. intros D. assert (q <= p) by (apply Q3; [exact D|lia]). lia. }
  assert (Y : Ok b = Ok true <-> q = p).
  { rewrite <- Z, <- B'. split; [intros H; injection H as ->; reflexivity|intros ->; reflexivity]. }
  split; [|exact Y]. rewrite Y. lia.
Qed.

(** it keeps the order *)
Lemma round_monotone : forall dbg a p p', pow2 a -> a < 2 ^ 64 -> 0 <= p <= p' -> p' + a <= 2 ^ 64 ->
  exists q q', next_multiple_of dbg a p = Ok q /\ next_multiple_of dbg a p' = Ok q' /\ q <= q'.
Proof.
  intros dbg a p p' A AL P P1. assert (A0 := pow2_positive a A).
  destruct (round_up dbg a p A AL ltac:(lia) ltac:(lia)) as [q [k [E [_ [Q [K _]]]]]].
  destruct (round_up dbg a p' A AL ltac:(lia) ltac:(lia)) as [q' [k' [E' [_ [Q' [K' _]]]]]].
  exists q, q'. split; [exact E|]. split; [exact E'|].
  destruct (C02_next_multiple_of dbg a p A AL ltac:(lia)) as [r [[R1 [R2 R3]] [X _]]].
  destruct (C02_next_multiple_of dbg a p' A AL ltac:(lia)) as [r' [[R1' [R2' R3']] [X' X'']]].
  assert (r <= q').
  { destruct (Z_lt_le_dec r' (2 ^ 64)) as [L|L].
    - specialize (X' L). rewrite E' in X'. injection X' as ->. apply R3; [exact R1'|lia].
    - specialize (X'' L). rewrite E' in X''. injection X'' as ->.
      assert (p' = 0) by lia. assert (p = 0) by lia. subst. apply R3; [apply Z.divide_0_r|lia]. }
  assert (r < 2 ^ 64) by lia. specialize (X H0). rewrite E in X. injection X as ->. exact H.
Qed.

(** the two forms of next_multiple_of *)
Lemma round_forms : forall dbg a p, pow2 a -> a < 2 ^ 64 -> 0 <= p < 2 ^ 64 -> exists q,
  next_multiple_of dbg a p = Ok q /\ next_multiple_of_t a u64 p = Some (Ok q).
Proof.
  intros dbg a p A AL P. assert (A0 := pow2_positive a A).
  destruct (C02_next_multiple_of dbg a p A AL P) as [r [R [X1 X2]]].
  destruct (C03_unsigned u64 a p) as [r' [R' E]]; auto; try (unfold inty, minv, maxv; cbn [sgn bits u64]; lia).
  { unfold std_ity. cbn [bits u64]. lia. }
  assert (r' = r) by (eapply least_multiple_unique; eauto). subst r'. cbn [bits u64] in E.
  destruct R as [R1 [R2 R3]].
  destruct (Z_lt_le_dec r (2 ^ 64)) as [L|L].
  - exists r. split; [auto|]. rewrite E. rewrite Z.mod_small by lia. reflexivity.
  - exists 0. split; [auto|]. rewrite E. f_equal. f_equal.
    assert (r <= 2 ^ 64).
    { apply R3; [|lia]. destruct A as [k [K ->]]. exists (2 ^ (64 - k)). rewrite <- Z.pow_add_r; [f_equal; lia| |lia].
      assert (k < 64) by (apply Z.pow_lt_mono_r_iff with (a := 2); lia). lia. }
    replace r with (2 ^ 64) by lia. reflexivity.
Qed.

(** what is aligned to more is aligned to less *)
Lemma aligned_less : forall dbg p a b, pow2 a -> pow2 b -> a <= b -> b < 2 ^ 64 -> 0 <= p < 2 ^ 64 ->
  is_aligned dbg p b = Ok true -> is_aligned dbg p a = Ok true.
Proof.
  intros dbg p a b A B L BL P H.
  destruct (C05_is_aligned dbg p b B BL P) as [x [E X]]. rewrite E in H. injection H as ->.
  destruct (C05_is_aligned dbg p a A ltac:(lia) P) as [y [E' Y]]. rewrite E'. f_equal. apply Y.
  apply Z.divide_trans with b; [apply pow2_divides; auto|]. apply X. reflexivity.
Qed.

(** * shifts *)

Lemma shift_back : forall dbg t v n, std_ity t -> sgn t = false -> inty t v -> 0 <= n < bits t ->
  exists l r, shift_left dbg t v n = Ok l /\ shift_right dbg t l n = Ok r /\ (r = v <-> v < 2 ^ (bits t - n)).
Proof.
  intros dbg t v n S G I N. rewrite (C14_shift_left_unsigned dbg t v n S G I N).
  assert (IV : 0 <= v < 2 ^ bits t) by (unfold inty, minv, maxv in I; rewrite G in I; lia).
  assert (P1 : 0 < 2 ^ bits t) by (apply Z.pow_pos_nonneg; lia).
  assert (P2 : 0 < 2 ^ n) by (apply Z.pow_pos_nonneg; lia).
  assert (PE : 2 ^ bits t = 2 ^ (bits t - n) * 2 ^ n) by (rewrite <- Z.pow_add_r by lia; f_equal; lia).
  assert (MB := Z.mod_pos_bound (v * 2 ^ n) (2 ^ bits t) P1).
  eexists. eexists. split; [reflexivity|]. rewrite C14_shift_right; auto.
  2: { unfold inty, minv, maxv. rewrite G. lia. }
  split; [reflexivity|]. rewrite PE, Z.mul_mod_distr_r by (try lia; apply Z.pow_nonzero; lia).
  rewrite Z.div_mul by lia. split.
  - intros H. rewrite <- H. apply Z.mod_pos_bound. apply Z.pow_pos_nonneg; lia.
  - intros H. apply Z.mod_small. lia.
Qed.

Lemma shift_clears : forall dbg t v n, std_ity t -> sgn t = false -> inty t v -> 0 <= n < bits t ->
  exists r l, shift_right dbg t v n = Ok r /\ shift_left dbg t r n = Ok l /\ l = v - v mod 2 ^ n.
Proof.
  intros dbg t v n S G I N.
  assert (IV : 0 <= v < 2 ^ bits t) by (unfold inty, minv, maxv in I; rewrite G in I; lia).
  assert (P2 : 0 < 2 ^ n) by (apply Z.pow_pos_nonneg; lia).
  rewrite C14_shift_right by auto. eexists. eexists. split; [reflexivity|].
  assert (DM := Z.div_mod v (2 ^ n) ltac:(lia)). assert (MB := Z.mod_pos_bound v (2 ^ n) P2).
  assert (D0 : 0 <= v / 2 ^ n) by (apply Z.div_pos; lia).
  rewrite C14_shift_left_unsigned; auto.
  2: { unfold inty, minv, maxv. rewrite G. nia. }
  split; [reflexivity|]. rewrite Z.mod_small by nia. lia.
Qed.

(** shifting one bit gives the powers of two *)
Lemma shift_power : forall dbg t v n, std_ity t -> sgn t = false -> 0 <= n < bits t -> inty t v ->
  (shift_left dbg t 1 n = Ok v <-> v = 2 ^ n) /\ (v = 2 ^ n -> is_power_of_2 v = true /\ greatest_divisor t v = Ok v).
Proof.
  intros dbg t v n S G N I.
  assert (B := std_bits_pos t S). assert (BL : bits t <= 64) by (unfold std_ity in S; lia).
  assert (IV : 0 <= v < 2 ^ bits t) by (unfold inty, minv, maxv in I; rewrite G in I; lia).
  assert (PN : 0 < 2 ^ n < 2 ^ bits t) by (split; [apply Z.pow_pos_nonneg; lia|apply Z.pow_lt_mono_r; lia]).
  assert (I1 : inty t 1) by (unfold inty, minv, maxv; rewrite G; lia).
  split.
  - rewrite (C14_shift_left_unsigned dbg t 1 n S G I1 N), Z.mul_1_l, Z.mod_small by lia.
    split; [intros H; injection H as ->; reflexivity|intros ->; reflexivity].
  - intros ->. split.
    + apply C01_is_power_of_2.
      * assert (2 ^ bits t <= 2 ^ 64) by (apply Z.pow_le_mono_r; lia). lia.
      * exists n. split; [lia|reflexivity].
    + destruct (C08_greatest_divisor t (2 ^ n) S G I) as [H _]. destruct (H ltac:(lia)) as [d [E [[k [K ->]] [D1 D2]]]].
      rewrite E. f_equal. f_equal. apply (trailing_unique (2 ^ n)).
      * split; [exact K|]. split; [exact D1|]. rewrite Z.pow_add_r by lia. change (2 ^ 1) with 2. rewrite Z.mul_comm. exact D2.
      * split; [lia|]. split; [apply Z.divide_refl|]. intros Q. apply Z.divide_pos_le in Q; [|lia].
        assert (n + 1 <= n) by (apply Z.pow_le_mono_r_iff with (a := 2); lia). lia.
Qed.

(** the table of one bits: one for each power of two, one less without the lowest bit *)
Lemma table_powers : forall b, 0 <= b < 256 ->
  (is_power_of_2 b = true <-> nth_error k_num_bits_table (Z.to_nat b) = Some 1).
Proof.
  assert (A : forallb (fun i => Bool.eqb (is_power_of_2 (Z.of_nat i))
    (match nth_error k_num_bits_table i with Some x => x =? 1 | None => false end)) (seq 0 256) = true) by (vm_compute; reflexivity).
  rewrite forallb_forall in A. intros b B. specialize (A (Z.to_nat b) ltac:(apply in_seq; lia)).
  apply Bool.eqb_prop in A. rewrite Z2Nat.id in A by lia. rewrite A.
  destruct (nth_error k_num_bits_table (Z.to_nat b)) as [x|]; [|split; discriminate].
  rewrite Z.eqb_eq. split; [intros ->; reflexivity|intros H; injection H as ->; reflexivity].
Qed.
