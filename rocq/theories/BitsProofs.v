(** Lemmas about the bit and alignment arithmetic. *)

Require Import ZArith Lia List Bool Znumtheory Sorted Permutation.
Require Import Verif.Outcome Verif.Machine Verif.TypeListModel Verif.ListSpec
  Verif.TypeListProofs Verif.BitsModel Verif.BitsSpec.
Import ListNotations.
Open Scope Z_scope.
Open Scope res_scope.

(** * Powers of two and masks *)

Lemma pow2_pos : forall k, 0 <= k -> 0 < 2 ^ k.
Proof. intros; apply Z.pow_pos_nonneg; lia. Qed.

Lemma pow2_le : forall a b, 0 <= a <= b -> 2 ^ a <= 2 ^ b.
Proof. intros; apply Z.pow_le_mono_r; lia. Qed.

Lemma pow2_divide : forall a b, 0 <= a <= b -> (2 ^ a | 2 ^ b).
Proof.
  intros a b H. exists (2 ^ (b - a)). rewrite <- Z.pow_add_r by lia. f_equal; lia.
Qed.

Lemma pow2_lt_inv : forall a b, 0 <= b -> 2 ^ a < 2 ^ b -> a < b.
Proof. intros a b Hb H. apply Z.pow_lt_mono_r_iff in H; lia. Qed.

Lemma pow2_cases : forall x w, 0 <= w -> pow2 x -> x < 2 ^ w ->
  exists k, 0 <= k < w /\ x = 2 ^ k.
Proof.
  intros x w Hw [k [Hk E]] H. exists k. split; auto. split; auto.
  apply pow2_lt_inv; subst; auto.
Qed.

Lemma land_neg_pow2 : forall x k, 0 <= k -> Z.land x (- 2 ^ k) = x - x mod 2 ^ k.
Proof.
  intros x k Hk.
  replace (- 2 ^ k) with (Z.lnot (Z.ones k)).
  - change (Z.land x (Z.lnot (Z.ones k))) with (Z.land x (Z.lnot (Z.ones k))).
    rewrite <- Z.ldiff_land. rewrite Z.ldiff_ones_r by lia.
    rewrite Z.shiftl_mul_pow2, Z.shiftr_div_pow2 by lia.
    pose proof (pow2_pos k Hk). pose proof (Z.div_mod x (2 ^ k)). lia.
  - rewrite Z.ones_equiv. unfold Z.lnot. lia.
Qed.

Lemma land_wrap_r : forall w x y, 0 <= w -> 0 <= x < 2 ^ w ->
  Z.land x (wrap w y) = Z.land x y.
Proof.
  intros w x y Hw Hx. unfold wrap. rewrite <- Z.land_ones by lia.
  rewrite (Z.land_comm y), Z.land_assoc. rewrite Z.land_ones by lia.
  rewrite Z.mod_small by lia. reflexivity.
Qed.

Lemma land_even_odd : forall a b, Z.land (2 * a) (2 * b + 1) = 2 * Z.land a b.
Proof.
  intros. apply Z.bits_inj'. intros n Hn. rewrite Z.land_spec.
  destruct (Z.eq_dec n 0) as [->|Hz].
  - rewrite !Z.testbit_even_0. reflexivity.
  - replace n with (Z.succ (n - 1)) by lia.
    rewrite !Z.testbit_even_succ, Z.testbit_odd_succ by lia. rewrite Z.land_spec. reflexivity.
Qed.

Lemma land_odd_even : forall a b, Z.land (2 * a + 1) (2 * b) = 2 * Z.land a b.
Proof. intros. rewrite Z.land_comm, land_even_odd, Z.land_comm. reflexivity. Qed.

Lemma land_even_even : forall a b, Z.land (2 * a) (2 * b) = 2 * Z.land a b.
Proof.
  intros. apply Z.bits_inj'. intros n Hn. rewrite Z.land_spec.
  destruct (Z.eq_dec n 0) as [->|Hz].
  - rewrite !Z.testbit_even_0. reflexivity.
  - replace n with (Z.succ (n - 1)) by lia.
    rewrite !Z.testbit_even_succ by lia. rewrite Z.land_spec. reflexivity.
Qed.

Lemma land_odd_odd : forall a b, Z.land (2 * a + 1) (2 * b + 1) = 2 * Z.land a b + 1.
Proof.
  intros. apply Z.bits_inj'. intros n Hn. rewrite Z.land_spec.
  destruct (Z.eq_dec n 0) as [->|Hz].
  - rewrite !Z.testbit_odd_0. reflexivity.
  - replace n with (Z.succ (n - 1)) by lia.
    rewrite !Z.testbit_odd_succ by lia. rewrite Z.land_spec. reflexivity.
Qed.

(** x & (x-1) clears the lowest set bit *)
Lemma land_pred_pow2 : forall p, Z.land (Zpos p) (Zpos p - 1) = 0 <-> pow2 (Zpos p).
Proof.
  induction p as [p IH|p IH|].
  - rewrite Pos2Z.inj_xI. replace (2 * Z.pos p + 1 - 1) with (2 * Z.pos p) by lia.
    rewrite land_odd_even, Z.land_diag. split.
    + intros; lia.
    + intros [k [Hk E]]. destruct (Z.eq_dec k 0) as [->|N]; [simpl in E; lia|].
      rewrite pow_split in E by lia. lia.
  - rewrite Pos2Z.inj_xO. replace (2 * Z.pos p - 1) with (2 * (Z.pos p - 1) + 1) by lia.
    rewrite land_even_odd. split.
    + intros H. assert (H' : Z.land (Z.pos p) (Z.pos p - 1) = 0) by lia.
      apply IH in H'. destruct H' as [k [Hk E]]. exists (k + 1). split; [lia|].
      rewrite Z.pow_add_r by lia. change (2 ^ 1) with 2. lia.
    + intros [k [Hk E]]. destruct (Z.eq_dec k 0) as [->|N]; [simpl in E; lia|].
      rewrite pow_split in E by lia. assert (pow2 (Z.pos p)) by (exists (k - 1); split; lia).
      apply IH in H. lia.
  - simpl. split; [|reflexivity]. intros _. exists 0. split; [lia|reflexivity].
Qed.

Lemma is_power_of_2_spec : forall v, 0 <= v < 2 ^ 64 ->
  (is_power_of_2 v = true <-> exists k, 0 <= k < 64 /\ v = 2 ^ k).
Proof.
  intros v Hv. unfold is_power_of_2.
  rewrite land_wrap_r by lia.
  destruct v as [|p|p]; [| |lia].
  - simpl. split; [discriminate|]. intros [k [Hk E]]. pose proof (pow2_pos k). lia.
  - change (negb (Z.pos p =? 0)) with true. rewrite andb_true_l. rewrite Z.eqb_eq, land_pred_pow2.
    split.
    + intros H. apply (pow2_cases _ 64) in H; [exact H|lia|lia].
    + intros [k [Hk E]]. exists k. split; lia.
Qed.

Lemma is_power_of_2_pow : forall k, 0 <= k < 64 -> is_power_of_2 (2 ^ k) = true.
Proof.
  intros k Hk. apply is_power_of_2_spec.
  - split; [pose proof (pow2_pos k); lia|]. apply Z.pow_lt_mono_r; lia.
  - exists k; auto.
Qed.

(** * Rounding *)

Lemma least_multiple_round : forall k v, 0 <= k ->
  least_multiple (2 ^ k) v (v + 2 ^ k - 1 - (v + 2 ^ k - 1) mod 2 ^ k).
Proof.
  intros k v Hk. pose proof (pow2_pos k Hk) as P.
  set (m := 2 ^ k) in *. pose proof (Z.mod_pos_bound (v + m - 1) m P).
  split; [|split].
  - exists ((v + m - 1) / m). pose proof (Z.div_mod (v + m - 1) m). lia.
  - lia.
  - intros s [q Hs] Hv. subst s.
    pose proof (Z.div_mod (v + m - 1) m ltac:(lia)).
    assert ((v + m - 1) / m < q + 1).
    { apply Z.div_lt_upper_bound; [lia|]. nia. }
    nia.
Qed.

Lemma least_multiple_unique : forall m v r r',
  least_multiple m v r -> least_multiple m v r' -> r = r'.
Proof.
  intros m v r r' [H1 [H2 H3]] [H4 [H5 H6]]. apply Z.le_antisymm; auto.
Qed.

Lemma mod_sub_multiple : forall a k w, 0 <= k <= w ->
  (a mod 2 ^ w) mod 2 ^ k = a mod 2 ^ k.
Proof.
  intros a k w H. pose proof (pow2_pos k). pose proof (pow2_pos w).
  symmetry. apply Zmod_div_mod; try lia. apply pow2_divide; lia.
Qed.

Lemma next_multiple_value : forall dbg k v, 0 <= k < 64 -> 0 <= v < 2 ^ 64 ->
  next_multiple_of dbg (2 ^ k) v =
  Ok ((v + 2 ^ k - 1 - (v + 2 ^ k - 1) mod 2 ^ k) mod 2 ^ 64).
Proof.
  intros dbg k v Hk Hv. unfold next_multiple_of, cassert.
  rewrite is_power_of_2_pow by lia.
  assert (E : Z.land (wrap 64 (wrap 64 (v + 2 ^ k) - 1)) (wrap 64 (- 2 ^ k)) =
    (v + 2 ^ k - 1 - (v + 2 ^ k - 1) mod 2 ^ k) mod 2 ^ 64).
  { rewrite land_wrap_r by (try apply wrap_range; lia).
    rewrite land_neg_pow2 by lia.
    assert (E1 : wrap 64 (wrap 64 (v + 2 ^ k) - 1) = (v + 2 ^ k - 1) mod 2 ^ 64).
    { unfold wrap. rewrite Zminus_mod_idemp_l. reflexivity. }
    rewrite E1. rewrite mod_sub_multiple by lia.
    set (x := v + 2 ^ k - 1).
    pose proof (pow2_pos k ltac:(lia)) as P.
    pose proof (Z.mod_pos_bound x (2 ^ k) P).
    assert (Hle : (x mod 2 ^ 64) mod 2 ^ k <= x mod 2 ^ 64).
    { apply Z.mod_le; [|lia]. apply Z.mod_pos_bound. lia. }
    rewrite mod_sub_multiple in Hle by lia.
    rewrite <- Zminus_mod_idemp_l. symmetry. apply Z.mod_small.
    pose proof (Z.mod_pos_bound x (2 ^ 64)). lia. }
  rewrite E. destruct dbg; reflexivity.
Qed.

Lemma next_multiple_of_correct : forall dbg m v, pow2 m -> m < 2 ^ 64 -> 0 <= v < 2 ^ 64 ->
  exists r, least_multiple m v r /\
    (r < 2 ^ 64 -> next_multiple_of dbg m v = Ok r) /\
    (2 ^ 64 <= r -> next_multiple_of dbg m v = Ok 0).
Proof.
  intros dbg m v Hm Hlt Hv.
  destruct (pow2_cases m 64 ltac:(lia) Hm Hlt) as [k [Hk ->]].
  exists (v + 2 ^ k - 1 - (v + 2 ^ k - 1) mod 2 ^ k).
  pose proof (least_multiple_round k v ltac:(lia)) as L.
  split; auto. rewrite next_multiple_value by lia.
  set (r := v + 2 ^ k - 1 - (v + 2 ^ k - 1) mod 2 ^ k) in *.
  destruct L as [L1 [L2 L3]]. split; intros H; f_equal.
  - apply Z.mod_small. lia.
  - assert (r <= 2 ^ 64) by (apply L3; [apply pow2_divide; lia|lia]).
    replace r with (2 ^ 64) by lia. apply Z.mod_same. lia.
Qed.

Lemma skip_value : forall dbg k p, 0 <= k < 64 -> 0 <= p < 2 ^ 64 ->
  skip_to_align dbg p (2 ^ k) = Ok ((- p) mod 2 ^ k).
Proof.
  intros dbg k p Hk Hp. unfold skip_to_align.
  rewrite is_power_of_2_pow by lia. rewrite next_multiple_value by lia.
  cbn [bind]. unfold cassert, wrap.
  pose proof (pow2_pos k ltac:(lia)) as P.
  assert (E : (((p + 2 ^ k - 1 - (p + 2 ^ k - 1) mod 2 ^ k) mod 2 ^ 64 - p) mod 2 ^ 64)
    = (- p) mod 2 ^ k).
  { rewrite Zminus_mod_idemp_l.
    replace (p + 2 ^ k - 1 - (p + 2 ^ k - 1) mod 2 ^ k - p)
      with (2 ^ k - 1 - (p + 2 ^ k - 1) mod 2 ^ k) by lia.
    pose proof (Z.mod_pos_bound (p + 2 ^ k - 1) (2 ^ k) P).
    assert (2 ^ k <= 2 ^ 64) by (apply pow2_le; lia).
    rewrite Z.mod_small by lia.
    apply Z.mod_unique with (q := - ((p + 2 ^ k - 1) / 2 ^ k)); [left; lia|].
    pose proof (Z.div_mod (p + 2 ^ k - 1) (2 ^ k)). lia. }
  rewrite E. destruct dbg; reflexivity.
Qed.

Lemma divide_mod_pow : forall a k x, 0 <= k <= a -> ((2 ^ k | x mod 2 ^ a) <-> (2 ^ k | x)).
Proof.
  intros a k x H. pose proof (pow2_pos k ltac:(lia)).
  rewrite <- !Z.mod_divide by lia. rewrite mod_sub_multiple by lia. tauto.
Qed.

Lemma skip_to_align_correct : forall dbg p a, pow2 a -> a < 2 ^ 64 -> 0 <= p < 2 ^ 64 ->
  exists k, skip_to_align dbg p a = Ok k /\ least_skip a p k /\ k < a /\ (k = 0 <-> (a | p)).
Proof.
  intros dbg p a Ha Hlt Hp.
  destruct (pow2_cases a 64 ltac:(lia) Ha Hlt) as [k [Hk ->]].
  exists ((- p) mod 2 ^ k). split; [apply skip_value; lia|].
  pose proof (pow2_pos k ltac:(lia)) as P.
  pose proof (Z.mod_pos_bound (- p) (2 ^ k) P) as B.
  assert (D : forall j, (2 ^ k | (p + j) mod 2 ^ 64) <-> (2 ^ k | p + j)).
  { intros j. apply divide_mod_pow. lia. }
  assert (K : (2 ^ k | p + (- p) mod 2 ^ k)).
  { apply Z.mod_divide; [lia|]. rewrite Zplus_mod_idemp_r. rewrite Z.add_opp_diag_r.
    apply Z.mod_0_l. lia. }
  repeat split.
  - lia.
  - apply D. exact K.
  - intros j Hj Hd. apply D in Hd.
    assert (Hd2 : (2 ^ k | (- p) mod 2 ^ k - j)).
    { replace ((- p) mod 2 ^ k - j) with (p + (- p) mod 2 ^ k - (p + j)) by lia.
      apply Z.divide_sub_r; auto. }
    apply Z.divide_pos_le in Hd2; lia.
  - lia.
  - intros E. rewrite E in K. rewrite Z.add_0_r in K. exact K.
  - intros Hd. apply Z.mod_divide; [lia|].
    apply Z.divide_opp_r. exact Hd.
Qed.

Lemma is_aligned_value : forall dbg k p, 0 <= k < 64 -> 0 <= p < 2 ^ 64 ->
  is_aligned dbg p (2 ^ k) = Ok (p mod 2 ^ k =? 0).
Proof.
  intros dbg k p Hk Hp. unfold is_aligned. rewrite is_power_of_2_pow by lia.
  unfold cassert. rewrite land_wrap_r by lia.
  replace (2 ^ k - 1) with (Z.ones k) by (rewrite Z.ones_equiv; lia).
  rewrite Z.land_ones by lia. destruct dbg; reflexivity.
Qed.

Lemma is_aligned_correct : forall dbg p a, pow2 a -> a < 2 ^ 64 -> 0 <= p < 2 ^ 64 ->
  exists b, is_aligned dbg p a = Ok b /\ (b = true <-> (a | p)).
Proof.
  intros dbg p a Ha Hlt Hp.
  destruct (pow2_cases a 64 ltac:(lia) Ha Hlt) as [k [Hk ->]].
  rewrite is_aligned_value by lia. eexists. split; [reflexivity|].
  rewrite Z.eqb_eq. apply Z.mod_divide. pose proof (pow2_pos k). lia.
Qed.

(** alignment 0 or a non power of two aborts in debug builds *)
Lemma not_power_asserts : forall m v, 0 <= m < 2 ^ 64 -> ~ pow2 m ->
  next_multiple_of true m v = Abort /\ skip_to_align true v m = Abort /\
  is_aligned true v m = Abort.
Proof.
  intros m v Hm H.
  assert (E : is_power_of_2 m = false).
  { destruct (is_power_of_2 m) eqn:E; auto. apply is_power_of_2_spec in E; auto.
    destruct E as [k [Hk E]]. exfalso. apply H. exists k. split; [lia|auto]. }
  unfold next_multiple_of, skip_to_align, is_aligned, cassert. rewrite E. auto.
Qed.

(** * The templated next_multiple_of *)

Lemma maxv_le_pow : forall t, 0 < bits t -> maxv t < 2 ^ bits t.
Proof.
  intros [w s] H. unfold maxv; simpl in *. destruct s; [|lia].
  rewrite (pow_split w H). pose proof (pow2_pos (w - 1)). lia.
Qed.

Lemma next_multiple_t_unsigned : forall u p v, std_ity u -> sgn u = false ->
  pow2 p -> inty u p -> inty u v ->
  exists r, least_multiple p v r /\
    next_multiple_of_t p u v = Some (Ok (r mod 2 ^ bits u)).
Proof.
  intros u p v Hu Hs Hp Hip Hiv.
  assert (Hb := std_bits_pos u Hu).
  assert (Hpm : p < 2 ^ bits u) by (pose proof (maxv_le_pow u Hb); unfold inty in Hip; lia).
  assert (Hb64 : bits u <= 64) by (unfold std_ity in Hu; lia).
  destruct (pow2_cases p (bits u) ltac:(lia) Hp Hpm) as [k [Hk ->]].
  pose proof (pow2_pos k ltac:(lia)) as P.
  exists (v + 2 ^ k - 1 - (v + 2 ^ k - 1) mod 2 ^ k).
  split; [apply least_multiple_round; lia|].
  unfold next_multiple_of_t. rewrite is_power_of_2_pow by lia. f_equal.
  rewrite (conv_id u (2 ^ k)) by auto.
  assert (Hpm1 : inty u (2 ^ k - 1)).
  { unfold inty, minv in *. rewrite Hs in *. lia. }
  rewrite (conv_id u (2 ^ k - 1)) by auto.
  replace (v + (2 ^ k - 1)) with (v + 2 ^ k - 1) by lia.
  unfold inty, minv, maxv in Hiv; rewrite Hs in Hiv.
  set (x := v + 2 ^ k - 1).
  assert (Hx : 0 <= x) by (unfold x; lia).
  assert (Hmodle : x mod 2 ^ k <= x) by (apply Z.mod_le; lia).
  unfold promote. destruct (Z.ltb_spec (bits u) 32).
  - (* computed in int *)
    assert (B : 2 ^ bits u <= 2 ^ 16) by (apply pow2_le; unfold std_ity in Hu; lia).
    assert (x < 2 ^ 17) by (unfold x; change (2 ^ 17) with (2 * 2 ^ 16); lia).
    unfold arith. simpl sgn. cbv iota.
    assert (I1 : intyb i32 x = true).
    { apply intyb_spec. unfold inty, minv, maxv; simpl. lia. }
    rewrite I1. cbn [bind]. unfold neg, arith. simpl sgn. cbv iota.
    assert (I2 : intyb i32 (- 2 ^ k) = true).
    { apply intyb_spec. unfold inty, minv, maxv; simpl. lia. }
    rewrite I2. cbn [bind]. rewrite land_neg_pow2 by lia.
    unfold conv. rewrite Hs. reflexivity.
  - unfold arith. rewrite Hs. cbn [bind]. unfold neg, arith. rewrite Hs. cbn [bind].
    rewrite land_wrap_r by (try apply wrap_range; lia).
    rewrite land_neg_pow2 by lia. unfold conv. rewrite Hs. unfold wrap.
    rewrite mod_sub_multiple by lia. rewrite Zminus_mod_idemp_l. reflexivity.
Qed.

Lemma next_multiple_t_signed : forall u p v, std_ity u -> sgn u = true ->
  pow2 p -> inty u p -> inty u v ->
  exists r, least_multiple p v r /\
    next_multiple_of_t p u v =
      Some (if (32 <=? bits u) && (maxv u <? v + p - 1) then UB else Ok (conv u r)).
Proof.
  intros u p v Hu Hs Hp Hip Hiv.
  assert (Hb := std_bits_pos u Hu).
  assert (Hb64 : bits u <= 64) by (unfold std_ity in Hu; lia).
  assert (Hpm : p < 2 ^ (bits u - 1)) by (unfold inty, maxv in Hip; rewrite Hs in Hip; lia).
  destruct (pow2_cases p (bits u - 1) ltac:(lia) Hp Hpm) as [k [Hk ->]].
  pose proof (pow2_pos k ltac:(lia)) as P.
  exists (v + 2 ^ k - 1 - (v + 2 ^ k - 1) mod 2 ^ k).
  split; [apply least_multiple_round; lia|].
  unfold next_multiple_of_t. rewrite is_power_of_2_pow by lia. f_equal.
  rewrite (conv_id u (2 ^ k)) by auto.
  assert (Hpm1 : inty u (2 ^ k - 1)).
  { unfold inty, minv, maxv in *. rewrite Hs in *. pose proof (pow2_pos (bits u - 1)). lia. }
  rewrite (conv_id u (2 ^ k - 1)) by auto.
  replace (v + (2 ^ k - 1)) with (v + 2 ^ k - 1) by lia.
  unfold inty, minv, maxv in Hiv; rewrite Hs in Hiv.
  set (x := v + 2 ^ k - 1).
  unfold promote. destruct (Z.ltb_spec (bits u) 32).
  - assert (B : 2 ^ (bits u - 1) <= 2 ^ 15) by (apply pow2_le; unfold std_ity in Hu; lia).
    destruct (Z.leb_spec 32 (bits u)); [lia|]. simpl andb. cbv iota.
    unfold arith. simpl sgn. cbv iota.
    assert (Hx : - 2 ^ 15 <= x < 2 ^ 16)
      by (unfold x; change (2 ^ 16) with (2 * 2 ^ 15); lia).
    assert (I1 : intyb i32 x = true).
    { apply intyb_spec. unfold inty, minv, maxv; simpl. lia. }
    rewrite I1. cbn [bind]. unfold neg, arith. simpl sgn. cbv iota.
    assert (I2 : intyb i32 (- 2 ^ k) = true).
    { apply intyb_spec. unfold inty, minv, maxv; simpl. lia. }
    rewrite I2. cbn [bind]. rewrite land_neg_pow2 by lia. reflexivity.
  - destruct (Z.leb_spec 32 (bits u)); [|lia]. simpl andb.
    unfold arith. rewrite Hs.
    destruct (Z.ltb_spec (maxv u) x) as [O|O].
    + assert (I1 : intyb u x = false).
      { destruct (intyb u x) eqn:E; auto. apply intyb_spec in E. unfold inty in E. lia. }
      rewrite I1. reflexivity.
    + assert (I1 : intyb u x = true).
      { apply intyb_spec. unfold inty, minv. rewrite Hs. split; [unfold x; lia|exact O]. }
      rewrite I1. cbn [bind]. unfold neg, arith. rewrite Hs.
      assert (I2 : intyb u (- 2 ^ k) = true).
      { apply intyb_spec. unfold inty, minv, maxv. rewrite Hs. lia. }
      rewrite I2. cbn [bind]. rewrite land_neg_pow2 by lia. reflexivity.
Qed.

(** when no overflow happens the signed result is the least multiple itself *)
Lemma least_multiple_upper : forall p v r, 0 < p -> least_multiple p v r -> v <= r <= v + p - 1.
Proof.
  intros p v r Hp [H1 [H2 H3]]. split; auto.
  assert (r <= v + p - 1 - (v + p - 1) mod p).
  { apply H3.
    - exists ((v + p - 1) / p). pose proof (Z.div_mod (v + p - 1) p). lia.
    - pose proof (Z.mod_pos_bound (v + p - 1) p). lia. }
  pose proof (Z.mod_pos_bound (v + p - 1) p). lia.
Qed.

(** * Bit length *)

Lemma inty_u8 : forall x, 0 <= x <= 255 -> inty u8 x.
Proof. intros x H. exact H. Qed.

Lemma bits_count_rec_value : forall fuel v, 0 <= v < 2 ^ 64 -> v < 2 ^ (Z.of_nat fuel - 1) ->
  (0 < fuel)%nat ->
  bits_count_rec fuel v = Ok (if v =? 0 then 0 else Z.log2 v + 1).
Proof.
  induction fuel as [|fuel IH]; intros v Hv Hf Hpos; [lia|].
  cbn [bits_count_rec]. destruct (Z.eqb_spec v 0) as [->|N]; [reflexivity|].
  assert (Hd : 0 <= v / 2 < v) by (split; [apply Z.div_pos; lia|apply Z.div_lt; lia]).
  destruct fuel as [|fuel].
  - simpl in Hf. lia.
  - rewrite IH; [|lia| |lia].
    + cbn [bind]. destruct (Z.eqb_spec (v / 2) 0) as [E|E].
      * assert (v = 1) by (pose proof (Z.div_mod v 2); pose proof (Z.mod_pos_bound v 2); lia).
        subst v. reflexivity.
      * assert (L : Z.log2 v = Z.log2 (v / 2) + 1).
        { pose proof (Z.div_mod v 2 ltac:(lia)). pose proof (Z.mod_pos_bound v 2 ltac:(lia)).
          set (h := v / 2) in *; clearbody h. assert (v = 2 * h \/ v = 2 * h + 1) as [->| ->] by lia.
          - rewrite Z.log2_double by lia. lia.
          - rewrite Z.log2_succ_double by lia. lia. }
        rewrite L. f_equal. rewrite conv_id; [lia|reflexivity|].
        assert (Z.log2 v < 64) by (apply Z.log2_lt_pow2; lia).
        pose proof (Z.log2_nonneg (v / 2)).
        apply inty_u8. lia.
    + replace (Z.of_nat (S fuel) - 1) with (Z.of_nat (S (S fuel)) - 1 - 1) by lia.
      apply Z.div_lt_upper_bound; [lia|].
      rewrite <- pow_split; [exact Hf|lia].
Qed.

Lemma bits_count_value : forall v, 0 <= v < 2 ^ 64 ->
  bits_count v = Ok (if v =? 0 then 0 else Z.log2 v + 1).
Proof. intros v Hv. apply bits_count_rec_value; [lia| |lia]. exact (proj2 Hv). Qed.

Lemma bit_length_log2 : forall v, 0 <= v ->
  bit_length v (if v =? 0 then 0 else Z.log2 v + 1).
Proof.
  intros v Hv. destruct (Z.eqb_spec v 0) as [->|N].
  - split; [lia|]. split; [reflexivity|]. intros; lia.
  - pose proof (Z.log2_spec v ltac:(lia)) as [L1 L2]. pose proof (Z.log2_nonneg v).
    split; [lia|]. split; [exact L2|].
    intros m Hm Hlt. assert (Z.log2 v < m) by (apply pow2_lt_inv; lia). lia.
Qed.

Lemma bit_length_unique : forall v n m, bit_length v n -> bit_length v m -> n = m.
Proof. intros v n m [H1 [H2 H3]] [H4 [H5 H6]]. apply Z.le_antisymm; auto. Qed.

Lemma shr1_value : forall t v, std_ity t -> inty t v ->
  shr (promote t) v 1 = Ok (v / 2).
Proof.
  intros t v Ht Hv. unfold shr, promote.
  destruct (Z.ltb_spec (bits t) 32); simpl bits.
  - reflexivity.
  - destruct (Z.leb_spec (bits t) 1); [lia|]. simpl. reflexivity.
Qed.

Lemma unsigned_half : forall t v, std_ity t -> sgn t = false -> inty t v ->
  inty t (v / 2) /\ conv t (v / 2) = v / 2.
Proof.
  intros t v Ht Hs Hv.
  assert (I : inty t (v / 2)).
  { unfold inty, minv, maxv in *. rewrite Hs in *. split; [apply Z.div_pos; lia|].
    assert (v / 2 <= v) by (apply Z.div_le_upper_bound; lia). lia. }
  split; auto. apply conv_id; auto. apply std_bits_pos; auto.
Qed.

Lemma nbits_loop_value : forall fuel t v n, std_ity t -> sgn t = false -> inty t v ->
  v < 2 ^ (Z.of_nat fuel - 1) -> (0 < fuel)%nat -> 0 <= n -> n + bits t < 2 ^ 64 ->
  v < 2 ^ (bits t - n) -> n <= bits t ->
  nbits_occupied_loop fuel t v n = Ok (n + if v =? 0 then 0 else Z.log2 v + 1).
Proof.
  induction fuel as [|fuel IH]; intros t v n Ht Hs Hv Hf Hpos Hn0 Hn Hvn Hnb; [lia|].
  cbn [nbits_occupied_loop]. destruct (Z.eqb_spec v 0) as [->|N]; [f_equal; lia|].
  assert (V0 : 0 <= v) by (unfold inty, minv in Hv; rewrite Hs in Hv; lia).
  rewrite shr1_value by auto. cbn [bind].
  destruct (unsigned_half t v Ht Hs Hv) as [I1 I2]. rewrite I2.
  assert (Hb := std_bits_pos t Ht).
  assert (NB : n < bits t).
  { destruct (Z.eq_dec n (bits t)); [|lia]. subst n. rewrite Z.sub_diag in Hvn. simpl in Hvn. lia. }
  destruct fuel as [|fuel].
  - simpl in Hf. lia.
  - rewrite IH; auto; try lia.
    + f_equal. rewrite wrap_id by lia.
      destruct (Z.eqb_spec (v / 2) 0) as [E|E].
      * assert (v = 1) by (pose proof (Z.div_mod v 2); pose proof (Z.mod_pos_bound v 2); lia).
        subst v. change (Z.log2 1) with 0; lia.
      * assert (0 <= v / 2) by (apply Z.div_pos; lia).
        assert (L : Z.log2 v = Z.log2 (v / 2) + 1); [|lia].
        pose proof (Z.div_mod v 2 ltac:(lia)). pose proof (Z.mod_pos_bound v 2 ltac:(lia)).
        set (h := v / 2) in *; clearbody h. assert (v = 2 * h \/ v = 2 * h + 1) as [->| ->] by lia.
        -- rewrite Z.log2_double by lia. lia.
        -- rewrite Z.log2_succ_double by lia. lia.
    + replace (Z.of_nat (S fuel) - 1) with (Z.of_nat (S (S fuel)) - 1 - 1) by lia.
      apply Z.div_lt_upper_bound; [lia|]. rewrite <- pow_split; [exact Hf|lia].
    + rewrite wrap_id by lia. lia.
    + rewrite wrap_id by lia. unfold std_ity in Ht. lia.
    + rewrite wrap_id by lia. apply Z.div_lt_upper_bound; [lia|].
      replace (bits t - (n + 1)) with (bits t - n - 1) by lia.
      rewrite <- pow_split; [exact Hvn|lia].
    + rewrite wrap_id by lia. lia.
Qed.

Lemma nbits_occupied_value : forall fuel t v, std_ity t -> sgn t = false -> inty t v ->
  (65 <= fuel)%nat ->
  nbits_occupied fuel t v = Ok (if v =? 0 then 0 else Z.log2 v + 1).
Proof.
  intros fuel t v Ht Hs Hv Hf. unfold nbits_occupied.
  assert (Hb := std_bits_pos t Ht).
  assert (B : v < 2 ^ bits t) by (unfold inty, maxv in Hv; rewrite Hs in Hv; lia).
  assert (bits t <= 64) by (unfold std_ity in Ht; lia).
  assert (2 ^ bits t <= 2 ^ (Z.of_nat fuel - 1)) by (apply pow2_le; lia).
  assert (128 < 2 ^ 64) by reflexivity.
  rewrite nbits_loop_value; try assumption; try lia.
  - rewrite Z.add_0_l. reflexivity.
  - rewrite Z.sub_0_r. exact B.
Qed.

Lemma bit_length_functions : forall fuel t v, std_ity t -> sgn t = false -> inty t v ->
  (65 <= fuel)%nat ->
  exists n, bits_count v = Ok n /\ nbits_occupied fuel t v = Ok n /\ bit_length v n.
Proof.
  intros fuel t v Ht Hs Hv Hf.
  assert (V0 : 0 <= v) by (unfold inty, minv in Hv; rewrite Hs in Hv; lia).
  assert (V1 : v < 2 ^ 64).
  { assert (B : v < 2 ^ bits t) by (unfold inty, maxv in Hv; rewrite Hs in Hv; lia).
    assert (2 ^ bits t <= 2 ^ 64) by (apply pow2_le; unfold std_ity in Ht; lia). lia. }
  exists (if v =? 0 then 0 else Z.log2 v + 1).
  split; [apply bits_count_value; lia|].
  split; [apply nbits_occupied_value; auto|apply bit_length_log2; auto].
Qed.

(** * Lowest set bit *)

Lemma tz_nonneg : forall p, 0 <= trailing_zeros p.
Proof. induction p; cbn [trailing_zeros]; lia. Qed.

Lemma tz_odd_part : forall p, exists j, 0 <= j /\ Zpos p = 2 ^ trailing_zeros p * (2 * j + 1).
Proof.
  induction p as [p IH|p IH|].
  - exists (Z.pos p). cbn [trailing_zeros]. rewrite Z.pow_0_r. lia.
  - destruct IH as [j [Hj E]]. exists j. split; auto. cbn [trailing_zeros].
    rewrite Z.pow_add_r by (try apply tz_nonneg; lia). change (2 ^ 1) with 2.
    rewrite Pos2Z.inj_xO, E. ring.
  - exists 0. split; [lia|reflexivity].
Qed.

Lemma tz_spec : forall p, trailing_zero_count (Zpos p) (trailing_zeros p).
Proof.
  intros p. destruct (tz_odd_part p) as [j [Hj E]].
  pose proof (tz_nonneg p) as N. pose proof (pow2_pos _ N) as P.
  split; auto. rewrite E. split.
  - exists (2 * j + 1). ring.
  - intros [q Hq]. rewrite Z.pow_add_r in Hq by lia. change (2 ^ 1) with 2 in Hq.
    assert (2 * j + 1 = q * 2) by nia. lia.
Qed.

Lemma tz_bound : forall p w, 0 <= w -> Zpos p < 2 ^ w -> trailing_zeros p < w.
Proof.
  intros p w Hw H. destruct (tz_odd_part p) as [j [Hj E]].
  pose proof (tz_nonneg p) as N. pose proof (pow2_pos _ N) as P.
  apply pow2_lt_inv; [lia|]. nia.
Qed.

Lemma trailing_unique : forall v n m, trailing_zero_count v n -> trailing_zero_count v m -> n = m.
Proof.
  assert (G : forall v n m, trailing_zero_count v n -> trailing_zero_count v m -> m <= n).
  { intros v n m [H1 [H2 H3]] [H4 [H5 H6]].
    destruct (Z_le_gt_dec m n); auto. exfalso. apply H3.
    apply Z.divide_trans with (2 ^ m); auto. apply pow2_divide. lia. }
  intros. apply Z.le_antisymm; eauto.
Qed.

Lemma land_neg_self : forall p, Z.land (Zpos p) (- Zpos p) = 2 ^ trailing_zeros p.
Proof.
  induction p as [p IH|p IH|].
  - rewrite Pos2Z.inj_xI. replace (- (2 * Z.pos p + 1)) with (2 * (- Z.pos p - 1) + 1) by lia.
    rewrite land_odd_odd. replace (- Z.pos p - 1) with (Z.lnot (Z.pos p)) by (unfold Z.lnot; lia).
    rewrite Z.land_lnot_diag. reflexivity.
  - rewrite Pos2Z.inj_xO. replace (- (2 * Z.pos p)) with (2 * (- Z.pos p)) by lia.
    rewrite land_even_even, IH. cbn [trailing_zeros].
    rewrite Z.pow_add_r by (try apply tz_nonneg; lia). reflexivity.
  - reflexivity.
Qed.

Lemma greatest_divisor_pos : forall t p, std_ity t -> sgn t = false -> inty t (Zpos p) ->
  greatest_divisor t (Zpos p) = Ok (2 ^ trailing_zeros p).
Proof.
  intros t p Ht Hs Hv. unfold greatest_divisor.
  assert (Hb := std_bits_pos t Ht).
  assert (B : Zpos p < 2 ^ bits t) by (unfold inty, maxv in Hv; rewrite Hs in Hv; lia).
  destruct (Z.eqb_spec (Zpos p) 0); [lia|].
  assert (TB : 0 <= 2 ^ trailing_zeros p < 2 ^ bits t).
  { pose proof (tz_nonneg p). pose proof (pow2_pos (trailing_zeros p) ltac:(lia)).
    split; [lia|]. apply Z.pow_lt_mono_r; try lia. apply tz_bound; lia. }
  assert (C : conv t (2 ^ trailing_zeros p) = 2 ^ trailing_zeros p).
  { apply conv_id; auto. unfold inty, minv, maxv. rewrite Hs. lia. }
  unfold promote. destruct (Z.ltb_spec (bits t) 32) as [L|L].
  - assert (P16 : 2 ^ bits t <= 2 ^ 16) by (apply pow2_le; unfold std_ity in Ht; lia).
    unfold arith. simpl sgn. cbv iota.
    assert (I1 : intyb i32 (Z.pos p - 1) = true).
    { apply intyb_spec. unfold inty, minv, maxv; simpl bits; simpl sgn; cbv iota.
      change (2 ^ (32 - 1)) with (32768 * 2 ^ 16). lia. }
    rewrite I1. cbn [bind].
    replace (Z.lnot (Z.pos p - 1)) with (- Z.pos p) by (unfold Z.lnot; lia).
    rewrite (conv_id i32 (- Z.pos p)).
    + rewrite land_neg_self. f_equal. exact C.
    + reflexivity.
    + unfold inty, minv, maxv; simpl bits; simpl sgn; cbv iota.
      change (2 ^ (32 - 1)) with (32768 * 2 ^ 16). lia.
  - unfold arith. rewrite Hs. cbn [bind]. f_equal.
    rewrite wrap_id by lia.
    replace (Z.lnot (Z.pos p - 1)) with (- Z.pos p) by (unfold Z.lnot; lia).
    unfold conv at 2. rewrite Hs. rewrite land_wrap_r by lia. rewrite land_neg_self. exact C.
Qed.

Lemma greatest_divisor_zero : forall t, std_ity t -> sgn t = false ->
  greatest_divisor t 0 = Ok (2 ^ (bits t - 1)).
Proof.
  intros [w s] Ht Hs. unfold std_ity in Ht; simpl in *. subst s.
  destruct Ht as [->|[->|[->| ->]]]; reflexivity.
Qed.

Lemma greatest_divisor_correct : forall t v, std_ity t -> sgn t = false -> inty t v ->
  (0 < v -> exists d, greatest_divisor t v = Ok d /\ pow2 d /\ (d | v) /\ ~ (2 * d | v)) /\
  (v = 0 -> greatest_divisor t v = Ok (2 ^ (bits t - 1)) /\ inty t (2 ^ (bits t - 1)) /\
            ~ inty t (2 ^ bits t)).
Proof.
  intros t v Ht Hs Hv. split.
  - intros Hpos. destruct v as [|p|p]; try lia. exists (2 ^ trailing_zeros p).
    split; [apply greatest_divisor_pos; auto|].
    pose proof (tz_spec p) as [N [D1 D2]]. split; [exists (trailing_zeros p); auto|].
    split; auto. rewrite Z.pow_add_r in D2 by lia. change (2 ^ 1) with 2 in D2.
    rewrite Z.mul_comm. exact D2.
  - intros ->. split; [apply greatest_divisor_zero; auto|].
    assert (Hb := std_bits_pos t Ht). pose proof (pow_split (bits t) Hb).
    pose proof (pow2_pos (bits t - 1) ltac:(lia)).
    unfold inty, minv, maxv. rewrite Hs. lia.
Qed.

Lemma shl_unfold : forall t a n, 0 <= n < bits t ->
  shl t a n = if sgn t then
    if (a <? 0) || (2 ^ bits t <=? a * 2 ^ n) then UB else Ok (conv t (a * 2 ^ n))
  else Ok (wrap (bits t) (a * 2 ^ n)).
Proof.
  intros t a n Hn. unfold shl. destruct (Z.ltb_spec n 0); [lia|].
  destruct (Z.leb_spec (bits t) n); [lia|]. reflexivity.
Qed.

Lemma shl_i32_one : forall n, 0 <= n < 31 -> shl i32 1 n = Ok (2 ^ n).
Proof.
  intros n Hn. rewrite shl_unfold by (change (bits i32) with 32; lia).
  change (sgn i32) with true. change (bits i32) with 32. cbv iota.
  change (1 <? 0) with false. rewrite orb_false_l. rewrite Z.mul_1_l.
  assert (P : 2 ^ n < 2 ^ 31) by (apply Z.pow_lt_mono_r; lia).
  assert (P32 : 2 ^ 31 < 2 ^ 32) by reflexivity.
  pose proof (pow2_pos n ltac:(lia)).
  destruct (Z.leb_spec (2 ^ 32) (2 ^ n)); [lia|].
  rewrite conv_id; [reflexivity|reflexivity|].
  unfold inty, minv, maxv. change (sgn i32) with true. change (bits i32 - 1) with 31. cbv iota. lia.
Qed.

Lemma conv_u64_id : forall x, 0 <= x < 2 ^ 64 -> conv u64 x = x.
Proof. intros x H. apply wrap_id. exact H. Qed.

(** * max_alignment_inside_block *)

Lemma max_align_value : forall dbg k n, 0 <= k < 64 -> 0 < n -> 2 ^ k + n - 1 < 2 ^ 31 ->
  max_alignment_inside_block dbg (2 ^ k) n = Ok (2 ^ Z.log2 (2 ^ k + n - 1)).
Proof.
  intros dbg k n Hk Hn Hs. unfold max_alignment_inside_block.
  rewrite is_power_of_2_pow by lia.
  destruct (Z.ltb_spec 0 n); [|lia].
  pose proof (pow2_pos k ltac:(lia)) as P.
  assert (P31 : 2 ^ 31 < 2 ^ 63) by reflexivity.
  assert (P63 : 2 ^ 64 = 2 * 2 ^ 63) by reflexivity.
  rewrite (wrap_id 64 (2 ^ k + n)) by lia. rewrite wrap_id by lia.
  rewrite bits_count_value by lia.
  destruct (Z.eqb_spec (2 ^ k + n - 1) 0); [lia|].
  set (L := Z.log2 (2 ^ k + n - 1)).
  assert (HL : 0 <= L < 31).
  { unfold L. split; [apply Z.log2_nonneg|]. apply Z.log2_lt_pow2; lia. }
  assert (E : forall (A : Type) (x : res A), cassert dbg true x = x) by (intros; destruct dbg; reflexivity).
  cbv zeta. rewrite !E. unfold bind at 1.
  replace (L + 1 - 1) with L by lia. rewrite wrap_id by lia.
  assert (PL : 2 ^ L < 2 ^ 31) by (apply Z.pow_lt_mono_r; lia).
  pose proof (pow2_pos L ltac:(lia)) as PL0.
  rewrite shl_i32_one by lia. cbn [bind]. rewrite conv_u64_id by lia. reflexivity.
Qed.

Lemma best_alignment_log2 : forall k n, 0 <= k < 64 -> 0 < n -> 2 ^ k + n <= 2 ^ 64 ->
  best_alignment (2 ^ k) n (2 ^ Z.log2 (2 ^ k + n - 1)).
Proof.
  intros k n Hk Hn Hlt. pose proof (pow2_pos k ltac:(lia)) as P.
  pose proof (Z.log2_spec (2 ^ k + n - 1) ltac:(lia)) as [L1 L2].
  pose proof (Z.log2_nonneg (2 ^ k + n - 1)) as LN.
  set (L := Z.log2 (2 ^ k + n - 1)) in *.
  assert (KL : k <= L).
  { unfold L. rewrite <- (Z.log2_pow2 k) at 1 by lia. apply Z.log2_le_mono. lia. }
  split; [exists L; auto|]. split.
  - (* every block contains a multiple of 2^L *)
    intros p Hp [j Hj] Hend.
    set (q := p + (- p) mod 2 ^ L).
    pose proof (pow2_pos L LN) as PL. pose proof (Z.mod_pos_bound (- p) (2 ^ L) PL).
    exists q. assert (D : (2 ^ L | q)).
    { unfold q. apply Z.mod_divide; [lia|]. rewrite Zplus_mod_idemp_r, Z.add_opp_diag_r.
      apply Z.mod_0_l. lia. }
    split; auto. split; [unfold q; lia|].
    (* (-p) mod 2^L is a multiple of 2^k below 2^L, so at most 2^L - 2^k *)
    assert (Dk : (2 ^ k | (- p) mod 2 ^ L)).
    { apply Z.mod_divide; [lia|]. rewrite mod_sub_multiple by lia. apply Z.mod_divide; [lia|].
      apply Z.divide_opp_r. exists j. exact Hj. }
    assert ((- p) mod 2 ^ L <= 2 ^ L - 2 ^ k).
    { destruct Dk as [c Hc]. destruct (pow2_divide k L ltac:(lia)) as [d Hd].
      rewrite Hc, Hd in *. assert (c < d) by nia. nia. }
    unfold q. lia.
  - (* the block at 2^k shows that nothing greater is guaranteed *)
    intros m' [k' [Hk' ->]] G.
    destruct (Z_le_gt_dec k' L) as [LE|GT]; [apply pow2_le; lia|]. exfalso.
    destruct (G (2 ^ k)) as [q [Hq [c Hc]]]; [lia|exists 1; lia|lia|].
    assert (2 ^ (L + 1) <= 2 ^ k') by (apply pow2_le; lia).
    replace (Z.succ L) with (L + 1) in L2 by lia.
    assert (0 < c) by nia. nia.
Qed.

Lemma max_align_correct : forall dbg a n, pow2 a -> 0 < n -> a + n - 1 < 2 ^ 31 ->
  exists m, max_alignment_inside_block dbg a n = Ok m /\ best_alignment a n m.
Proof.
  intros dbg a n Ha Hn Hs. destruct (pow2_cases a 64 ltac:(lia) Ha) as [k [Hk ->]].
  - assert (2 ^ 31 < 2 ^ 64) by reflexivity. lia.
  - exists (2 ^ Z.log2 (2 ^ k + n - 1)). split; [apply max_align_value; lia|].
    apply best_alignment_log2; auto. assert (2 ^ 31 < 2 ^ 64) by reflexivity. lia.
Qed.

(** from 4 GiB on the shift is undefined *)
Lemma max_align_ub : forall dbg a n, pow2 a -> 0 < n -> 2 ^ 32 <= a + n - 1 < 2 ^ 64 ->
  max_alignment_inside_block dbg a n = UB.
Proof.
  intros dbg a n Ha Hn Hs. destruct (pow2_cases a 64 ltac:(lia) Ha ltac:(lia)) as [k [Hk ->]].
  pose proof (pow2_pos k ltac:(lia)) as P.
  unfold max_alignment_inside_block. rewrite is_power_of_2_pow by lia.
  destruct (Z.ltb_spec 0 n); [|lia].
  replace (wrap 64 (wrap 64 (2 ^ k + n) - 1)) with (2 ^ k + n - 1)
    by (unfold wrap; rewrite Zminus_mod_idemp_l; symmetry; apply Z.mod_small; lia).
  rewrite bits_count_value by lia.
  destruct (Z.eqb_spec (2 ^ k + n - 1) 0); [lia|].
  set (L := Z.log2 (2 ^ k + n - 1)).
  assert (HL : 32 <= L < 64).
  { unfold L. split; [apply Z.log2_le_pow2; lia|apply Z.log2_lt_pow2; lia]. }
  assert (E : forall (A : Type) (x : res A), cassert dbg true x = x) by (intros; destruct dbg; reflexivity).
  cbv zeta. rewrite !E. unfold bind at 1.
  replace (L + 1 - 1) with L by lia. rewrite wrap_id by lia.
  unfold shl. change (bits i32) with 32. destruct (Z.leb_spec 32 L); [|lia].
  rewrite orb_true_r. reflexivity.
Qed.

(** between 2 GiB and 4 GiB the int shift yields INT_MIN, converted to size_t *)
Lemma max_align_intmin : forall dbg a n, pow2 a -> 0 < n -> 2 ^ 31 <= a + n - 1 < 2 ^ 32 ->
  max_alignment_inside_block dbg a n = Ok (2 ^ 64 - 2 ^ 31).
Proof.
  intros dbg a n Ha Hn Hs.
  assert (2 ^ 32 < 2 ^ 64) by reflexivity.
  destruct (pow2_cases a 64 ltac:(lia) Ha ltac:(lia)) as [k [Hk ->]].
  pose proof (pow2_pos k ltac:(lia)) as P.
  unfold max_alignment_inside_block. rewrite is_power_of_2_pow by lia.
  destruct (Z.ltb_spec 0 n); [|lia].
  assert (P33 : 2 ^ 32 + 1 < 2 ^ 64) by reflexivity.
  rewrite (wrap_id 64 (2 ^ k + n)) by lia. rewrite wrap_id by lia.
  rewrite bits_count_value by lia.
  destruct (Z.eqb_spec (2 ^ k + n - 1) 0); [lia|].
  assert (HL : Z.log2 (2 ^ k + n - 1) = 31).
  { apply Z.log2_unique; [lia|]. change (Z.succ 31) with 32. lia. }
  rewrite HL. destruct dbg; reflexivity.
Qed.

(** * Population count *)

Lemma bit_value : forall v i, Z.land (v / 2 ^ Z.of_nat i) 1 = Z.b2z (Z.testbit v (Z.of_nat i)).
Proof.
  intros v i. change 1 with (Z.ones 1). rewrite Z.land_ones by lia. change (2 ^ 1) with 2.
  rewrite Z.testbit_spec' by lia. reflexivity.
Qed.

Lemma sum_bits : forall v is acc,
  fold_left (fun acc i => acc + Z.land (v / 2 ^ Z.of_nat i) 1) is acc =
  acc + Z.of_nat (length (filter (fun i => Z.testbit v (Z.of_nat i)) is)).
Proof.
  intros v is; induction is as [|i is IH]; intros acc; cbn [fold_left filter].
  - simpl. lia.
  - rewrite IH, bit_value. destruct (Z.testbit v (Z.of_nat i)); simpl length; simpl Z.b2z; lia.
Qed.

Lemma get_num_bits_value : forall v, get_num_bits v = Z.of_nat (ones 8 v).
Proof.
  intros v. unfold get_num_bits, num_bit_set, ones. rewrite sum_bits. rewrite Z.add_0_l.
  apply conv_id; [reflexivity|].
  assert (L : (length (filter (fun i => Z.testbit v (Z.of_nat i)) (seq 0 8)) <= 8)%nat).
  { transitivity (length (seq 0 8)); [|simpl; lia].
    generalize (seq 0 8) as l. induction l as [|x l IH]; [simpl; lia|].
    cbn [filter]. destruct (Z.testbit v (Z.of_nat x)); cbn [length]; lia. }
  apply inty_u8. lia.
Qed.

Lemma table_value : forall b, (b < 256)%nat ->
  nth_error k_num_bits_table b = Some (Z.of_nat (ones 8 (Z.of_nat b))).
Proof.
  intros b Hb. unfold k_num_bits_table. rewrite nth_error_map.
  assert (E : nth_error (seq 0 256) b = Some b).
  { rewrite nth_error_nth' with (d := O) by (rewrite seq_length; lia).
    rewrite seq_nth by lia. reflexivity. }
  rewrite E. simpl. f_equal. apply get_num_bits_value.
Qed.

Lemma table_length : length k_num_bits_table = 256%nat.
Proof. unfold k_num_bits_table. rewrite map_length, seq_length. reflexivity. Qed.

(** * clz / ctz dispatch *)

Lemma is_equal_sizes_spec : forall u t, is_equal_sizes u t = true <-> sizeof u = sizeof t.
Proof.
  intros u t. unfold is_equal_sizes. cbn [v_is_all_same forallb]. rewrite andb_true_r.
  rewrite v_is_same_eq. split.
  - intros H; injection H; intros; lia.
  - intros ->; reflexivity.
Qed.

Lemma leading_zeros_log2 : forall w v, 0 < v < 2 ^ w -> leading_zeros w v (w - 1 - Z.log2 v).
Proof.
  intros w v Hv. pose proof (Z.log2_spec v ltac:(lia)) as [L1 L2].
  pose proof (Z.log2_nonneg v). assert (Z.log2 v < w).
  { apply Z.log2_lt_pow2; lia. }
  split; [lia|].
  replace (w - 1 - (w - 1 - Z.log2 v)) with (Z.log2 v) by lia.
  replace (w - (w - 1 - Z.log2 v)) with (Z.succ (Z.log2 v)) by lia. lia.
Qed.

Lemma leading_unique : forall w v n m, leading_zeros w v n -> leading_zeros w v m -> n = m.
Proof.
  assert (G : forall w v n m, leading_zeros w v n -> leading_zeros w v m -> m <= n).
  { intros w v n m [H1 H2] [H3 H4]. destruct (Z_le_gt_dec m n); auto. exfalso.
    assert (2 ^ (w - m) <= 2 ^ (w - 1 - n)) by (apply pow2_le; lia). lia. }
  intros. apply Z.le_antisymm; eauto.
Qed.

(** what the selection of an intrinsic does, for clz and ctz alike *)
Lemma dispatch : forall sz supported t, (length supported < sz)%nat ->
  exists sorted, sort_sizeof_ascending sz supported = Some sorted /\
    (forall u, In u sorted <-> In u supported) /\
    (filter (fun u => is_equal_sizes u t) sorted = [] ->
     forall i u, index_of (fun u => less_eq_pred u t) sorted = i -> nth_error sorted i = Some u ->
       (sizeof t < sizeof u)%nat) /\
    (index_of (fun u => less_eq_pred u t) sorted = length sorted ->
     forall u, In u supported -> (sizeof u < sizeof t)%nat).
Proof.
  intros sz supported t Hsz. destruct (sort_asc_spec sz supported Hsz) as [sorted [E [HP [HS HF]]]].
  exists sorted. split; auto.
  assert (IFF : forall u, In u sorted <-> In u supported).
  { intros u. split; apply Permutation_in; [symmetry|]; auto. }
  split; auto.
  assert (PS : forall x, (fun u => less_eq_pred u t) x = true <-> (sizeof t <= sizeof x)%nat).
  { intros x. unfold less_eq_pred. apply Nat.leb_le. }
  pose proof (index_of_spec _ _ sorted PS) as FP. split.
  - intros Hn i u <- Hu. destruct FP as [F1 F2].
    destruct F2 as [[x [Hx1 Hx2]]|F2].
    + rewrite Hu in Hx1. injection Hx1; intros; subst x.
      assert (sizeof u <> sizeof t).
      { intros Q. apply is_equal_sizes_spec in Q.
        assert (In u (filter (fun u => is_equal_sizes u t) sorted)).
        { apply filter_In. split; auto. eapply nth_error_In; eauto. }
        rewrite Hn in H. contradiction. }
      lia.
    + assert (nth_error sorted (index_of (fun u0 => less_eq_pred u0 t) sorted) = None)
        by (apply nth_error_None; lia). congruence.
  - intros El u Hu. rewrite (first_position_end _ _ _ _ FP) in El.
    apply IFF in Hu. specialize (El u Hu). lia.
Qed.

Lemma wrap_wider : forall a b v, 0 <= v < 2 ^ (8 * Z.of_nat a) -> (a <= b)%nat ->
  wrap (8 * Z.of_nat b) v = v.
Proof.
  intros a b v Hv Hab. apply wrap_id. split; [lia|].
  assert (2 ^ (8 * Z.of_nat a) <= 2 ^ (8 * Z.of_nat b)) by (apply pow2_le; lia). lia.
Qed.

Lemma clz_correct : forall dbg sz supported t v, (length supported < sz)%nat ->
  0 < v < 2 ^ (8 * Z.of_nat (sizeof t)) ->
  ((exists u, In u supported /\ (sizeof t <= sizeof u)%nat) ->
   exists n, clz dbg sz supported t v = Some (Ok n) /\
     leading_zeros (8 * Z.of_nat (sizeof t)) v n) /\
  ((forall u, In u supported -> (sizeof u < sizeof t)%nat) -> clz dbg sz supported t v = None).
Proof.
  intros dbg sz supported t v Hsz Hv. unfold clz.
  destruct (dispatch sz supported t Hsz) as [sorted [E [IFF [D1 D2]]]]. rewrite E.
  rewrite list_of_pred_filter.
  assert (CC : forall s x, 0 < x -> calc_clz dbg s x = Ok (8 * Z.of_nat s - 1 - Z.log2 x)).
  { intros s x Hx. unfold calc_clz, cassert. destruct (Z.ltb_spec 0 x); [|lia].
    destruct (Z.eqb_spec x 0); [lia|]. destruct dbg; reflexivity. }
  destruct (filter (fun u => is_equal_sizes u t) sorted) as [|u0 us] eqn:Ef.
  - cbn [length Nat.eqb negb].
    set (i := index_of (fun u => less_eq_pred u t) sorted) in *.
    destruct (Nat.ltb_spec i (length sorted)) as [L|L].
    + rewrite at_impl_nth. destruct (nth_error sorted i) as [u|] eqn:Eu;
        [|apply nth_error_None in Eu; lia].
      assert (SU := D1 eq_refl i u eq_refl Eu). split.
      * intros _. exists (8 * Z.of_nat (sizeof t) - 1 - Z.log2 v). split.
        -- rewrite (wrap_wider (sizeof t)) by lia. rewrite CC by lia. cbn [bind]. do 2 f_equal. lia.
        -- apply leading_zeros_log2; auto.
      * intros H. exfalso. apply nth_error_In in Eu. apply IFF in Eu. specialize (H u Eu). lia.
    + split; [|reflexivity]. intros [u [Hu1 Hu2]]. exfalso.
      assert (i = length sorted).
      { pose proof (index_of_spec (fun u => less_eq_pred u t)
          (fun x => (sizeof t <= sizeof x)%nat) sorted) as FP.
        destruct FP as [_ [[x [Hx _]]|F]]; [intros; apply Nat.leb_le| |exact F].
        assert (index_of (fun u => less_eq_pred u t) sorted < length sorted)%nat
          by (apply nth_error_Some; congruence). unfold i in L. lia. }
      specialize (D2 H u Hu1). lia.
  - cbn [length Nat.eqb negb]. cbn [at_impl].
    assert (Hu0 : In u0 (filter (fun u => is_equal_sizes u t) sorted)) by (rewrite Ef; left; auto).
    apply filter_In in Hu0. destruct Hu0 as [I0 S0]. apply is_equal_sizes_spec in S0. split.
    + intros _. exists (8 * Z.of_nat (sizeof t) - 1 - Z.log2 v). split.
      * rewrite (wrap_wider (sizeof t)) by lia. rewrite CC by lia. rewrite S0. reflexivity.
      * apply leading_zeros_log2; auto.
    + intros H. exfalso. apply IFF in I0. specialize (H u0 I0). lia.
Qed.

Lemma ctz_correct : forall dbg sz supported t v, (length supported < sz)%nat ->
  0 < v < 2 ^ (8 * Z.of_nat (sizeof t)) ->
  ((exists u, In u supported /\ (sizeof t <= sizeof u)%nat) ->
   exists n, ctz dbg sz supported t v = Some (Ok n) /\ trailing_zero_count v n /\
     n < 8 * Z.of_nat (sizeof t)) /\
  ((forall u, In u supported -> (sizeof u < sizeof t)%nat) -> ctz dbg sz supported t v = None).
Proof.
  intros dbg sz supported t v Hsz Hv. unfold ctz.
  destruct (dispatch sz supported t Hsz) as [sorted [E [IFF [D1 D2]]]]. rewrite E.
  rewrite list_of_pred_filter.
  destruct v as [|p|p]; try lia.
  assert (CC : calc_ctz dbg (Z.pos p) = Ok (trailing_zeros p)).
  { unfold calc_ctz, cassert. destruct dbg; reflexivity. }
  assert (TB : trailing_zeros p < 8 * Z.of_nat (sizeof t)) by (apply tz_bound; lia).
  destruct (filter (fun u => is_equal_sizes u t) sorted) as [|u0 us] eqn:Ef.
  - cbn [length Nat.eqb negb].
    set (i := index_of (fun u => less_eq_pred u t) sorted) in *.
    destruct (Nat.ltb_spec i (length sorted)) as [L|L].
    + rewrite at_impl_nth. destruct (nth_error sorted i) as [u|] eqn:Eu;
        [|apply nth_error_None in Eu; lia].
      assert (SU := D1 eq_refl i u eq_refl Eu). split.
      * intros _. exists (trailing_zeros p). split.
        -- rewrite (wrap_wider (sizeof t)) by lia. rewrite CC. reflexivity.
        -- split; [apply tz_spec|auto].
      * intros H. exfalso. apply nth_error_In in Eu. apply IFF in Eu. specialize (H u Eu). lia.
    + split; [|reflexivity]. intros [u [Hu1 Hu2]]. exfalso.
      assert (i = length sorted).
      { pose proof (index_of_spec (fun u => less_eq_pred u t)
          (fun x => (sizeof t <= sizeof x)%nat) sorted) as FP.
        destruct FP as [_ [[x [Hx _]]|F]]; [intros; apply Nat.leb_le| |exact F].
        assert (index_of (fun u => less_eq_pred u t) sorted < length sorted)%nat
          by (apply nth_error_Some; congruence). unfold i in L. lia. }
      specialize (D2 H u Hu1). lia.
  - cbn [length Nat.eqb negb]. cbn [at_impl].
    assert (Hu0 : In u0 (filter (fun u => is_equal_sizes u t) sorted)) by (rewrite Ef; left; auto).
    apply filter_In in Hu0. destruct Hu0 as [I0 S0]. apply is_equal_sizes_spec in S0. split.
    + intros _. exists (trailing_zeros p). split.
      * rewrite (wrap_wider (sizeof t)) by lia. rewrite CC. reflexivity.
      * split; [apply tz_spec|auto].
    + intros H. exfalso. apply IFF in I0. specialize (H u0 I0). lia.
Qed.

(** * Hand-written versions *)

Lemma testbit_pow_land : forall v n, 0 <= n -> 0 <= v ->
  (Z.land v (2 ^ n) =? 0) = negb (Z.testbit v n).
Proof.
  intros v n Hn Hv. destruct (Z.testbit v n) eqn:E; simpl.
  - apply Z.eqb_neq. intros H.
    assert (T : Z.testbit (Z.land v (2 ^ n)) n = true).
    { rewrite Z.land_spec, E, Z.pow2_bits_true by lia. reflexivity. }
    rewrite H, Z.bits_0 in T. discriminate.
  - apply Z.eqb_eq. apply Z.bits_inj'. intros m Hm. rewrite Z.land_spec, Z.bits_0.
    destruct (Z.eq_dec m n) as [->|N]; [rewrite E; reflexivity|].
    rewrite Z.pow2_bits_false by lia. apply andb_false_r.
Qed.

Lemma top_mask : forall t, std_ity t -> sgn t = false ->
  shl (promote t) 1 (bits t - 1) = Ok (2 ^ (bits t - 1)) /\
  conv t (2 ^ (bits t - 1)) = 2 ^ (bits t - 1).
Proof.
  intros [w s] Ht Hs. unfold std_ity in Ht; simpl in *. subst s.
  destruct Ht as [->|[->|[->| ->]]]; split; reflexivity.
Qed.

Lemma crafted_clz_loop_value : forall fuel t v n, std_ity t -> sgn t = false ->
  0 < v < 2 ^ (bits t - n) -> 0 <= n <= bits t - 1 -> bits t - n <= Z.of_nat fuel ->
  crafted_clz_loop fuel t v (2 ^ (bits t - 1 - n)) n = Ok (bits t - 1 - Z.log2 v).
Proof.
  induction fuel as [|fuel IH]; intros t v n Ht Hs Hv Hn Hf; [lia|].
  cbn [crafted_clz_loop].
  pose proof (Z.log2_nonneg v) as LN.
  assert (LL : Z.log2 v < bits t - n) by (apply Z.log2_lt_pow2; lia).
  rewrite testbit_pow_land by lia.
  destruct (Z.ltb_spec n (bits t - 1)) as [A|A]; simpl andb.
  - destruct (Z.testbit v (bits t - 1 - n)) eqn:E; simpl negb; cbv iota.
    + f_equal. assert (bits t - 1 - n <= Z.log2 v).
      { destruct (Z_le_gt_dec (bits t - 1 - n) (Z.log2 v)); auto.
        rewrite Z.bits_above_log2 in E by lia. discriminate. }
      lia.
    + assert (Z.log2 v <> bits t - 1 - n).
      { intros Q. rewrite <- Q in E. rewrite Z.bit_log2 in E by lia. discriminate. }
      assert (I : inty t (2 ^ (bits t - 1 - n))).
      { unfold inty, minv, maxv. rewrite Hs. pose proof (pow2_pos (bits t - 1 - n) ltac:(lia)).
        assert (2 ^ (bits t - 1 - n) <= 2 ^ (bits t - 1)) by (apply pow2_le; lia).
        pose proof (pow_split (bits t) ltac:(lia)). lia. }
      rewrite shr1_value by auto. cbn [bind].
      destruct (unsigned_half t _ Ht Hs I) as [_ C]. rewrite C.
      rewrite (pow_split (bits t - 1 - n)) by lia. rewrite Z.mul_comm, Z.div_mul by lia.
      replace (bits t - 1 - n - 1) with (bits t - 1 - (n + 1)) by lia.
      apply IH; auto; try lia. split; [lia|].
      apply Z.log2_lt_pow2; lia.
  - cbv iota. f_equal. clear - A LN LL Hn; lia.
Qed.

Lemma crafted_clz_value : forall dbg fuel t v, std_ity t -> sgn t = false ->
  0 < v < 2 ^ bits t -> (64 <= fuel)%nat ->
  crafted_clz dbg fuel t v = Ok (bits t - 1 - Z.log2 v).
Proof.
  intros dbg fuel t v Ht Hs Hv Hf. unfold crafted_clz, cassert.
  destruct (Z.ltb_spec 0 v); [|lia]. destruct (top_mask t Ht Hs) as [E1 E2]. rewrite E1.
  cbn [bind]. rewrite E2.
  assert (bits t <= 64) by (unfold std_ity in Ht; lia).
  assert (Hb := std_bits_pos t Ht).
  assert (G : crafted_clz_loop fuel t v (2 ^ (bits t - 1)) 0 = Ok (bits t - 1 - Z.log2 v)).
  { replace (bits t - 1) with (bits t - 1 - 0) at 1 by lia.
    apply crafted_clz_loop_value; auto; try lia. rewrite Z.sub_0_r. auto. }
  rewrite G. destruct dbg; reflexivity.
Qed.

Lemma crafted_ctz_loop_value : forall fuel t p n, std_ity t -> sgn t = false ->
  Zpos p < 2 ^ (bits t - n) -> 0 <= n <= bits t - 1 -> bits t - n <= Z.of_nat fuel ->
  crafted_ctz_loop fuel t (Zpos p) n = Ok (n + trailing_zeros p).
Proof.
  induction fuel as [|fuel IH]; intros t p n Ht Hs Hv Hn Hf; [lia|].
  cbn [crafted_ctz_loop].
  assert (I : inty t (Zpos p)).
  { unfold inty, minv, maxv. rewrite Hs. assert (2 ^ (bits t - n) <= 2 ^ bits t) by (apply pow2_le; lia). lia. }
  destruct p as [p|p|].
  - replace (Z.land (Z.pos p~1) 1 =? 0) with false.
    + rewrite andb_false_r. f_equal. cbn [trailing_zeros]. lia.
    + symmetry. apply Z.eqb_neq. rewrite Pos2Z.inj_xI.
      change 1 with (2 * 0 + 1) at 2. rewrite land_odd_odd, Z.land_0_r. lia.
  - replace (Z.land (Z.pos p~0) 1 =? 0) with true.
    + destruct (Z.ltb_spec n (bits t - 1)) as [A|A]; simpl andb; cbv iota.
      * rewrite shr1_value by auto. cbn [bind].
        destruct (unsigned_half t _ Ht Hs I) as [_ C]. rewrite C.
        rewrite Pos2Z.inj_xO, Z.mul_comm, Z.div_mul by lia.
        rewrite IH; auto; try lia.
        -- f_equal. cbn [trailing_zeros]. lia.
        -- rewrite Pos2Z.inj_xO in Hv. rewrite (pow_split (bits t - n)) in Hv by lia.
           replace (bits t - (n + 1)) with (bits t - n - 1) by lia. lia.
      * exfalso. replace (bits t - n) with 1 in Hv by lia. change (2 ^ 1) with 2 in Hv.
        rewrite Pos2Z.inj_xO in Hv. lia.
    + symmetry. apply Z.eqb_eq. rewrite Pos2Z.inj_xO.
      change 1 with (2 * 0 + 1). rewrite land_even_odd, Z.land_0_r. lia.
  - change (Z.land 1 1 =? 0) with false. rewrite andb_false_r. f_equal. cbn [trailing_zeros]. lia.
Qed.

Lemma crafted_ctz_value : forall dbg fuel t p, std_ity t -> sgn t = false ->
  Zpos p < 2 ^ bits t -> (64 <= fuel)%nat ->
  crafted_ctz dbg fuel t (Zpos p) = Ok (trailing_zeros p).
Proof.
  intros dbg fuel t p Ht Hs Hv Hf. unfold crafted_ctz, cassert.
  assert (bits t <= 64) by (unfold std_ity in Ht; lia).
  assert (Hb := std_bits_pos t Ht).
  assert (G : crafted_ctz_loop fuel t (Zpos p) 0 = Ok (trailing_zeros p)).
  { rewrite crafted_ctz_loop_value; auto; try lia. rewrite Z.sub_0_r. auto. }
  rewrite G. destruct dbg; reflexivity.
Qed.

(** the hand-written functions agree with the intrinsic of the type's size *)
Lemma crafted_agree : forall dbg fuel t (s : nat) v, std_ity t -> sgn t = false ->
  bits t = 8 * Z.of_nat s -> 0 < v < 2 ^ bits t -> (64 <= fuel)%nat ->
  exists n m,
    crafted_clz dbg fuel t v = Ok n /\ calc_clz dbg s v = Ok n /\ leading_zeros (bits t) v n /\
    crafted_ctz dbg fuel t v = Ok m /\ calc_ctz dbg v = Ok m /\ trailing_zero_count v m.
Proof.
  intros dbg fuel t s v Ht Hs Hb Hv Hf. destruct v as [|p|p]; try lia.
  exists (bits t - 1 - Z.log2 (Zpos p)), (trailing_zeros p).
  split; [apply crafted_clz_value; auto|]. split.
  { unfold calc_clz, cassert. rewrite Hb. destruct dbg; reflexivity. }
  split; [apply leading_zeros_log2; auto|].
  split; [apply crafted_ctz_value; auto; lia|]. split.
  { unfold calc_ctz, cassert. destruct dbg; reflexivity. }
  apply tz_spec.
Qed.

(** * get_alignment *)

Lemma get_alignment_correct : forall dbg sz supported t ptr, (length supported < sz)%nat ->
  sizeof t = 8%nat -> (exists u, In u supported /\ (8 <= sizeof u)%nat) ->
  0 < ptr < 2 ^ 64 ->
  exists a, get_alignment dbg sz supported t ptr = Some (Ok a) /\
    pow2 a /\ (a | ptr) /\ forall b, pow2 b -> (b | ptr) -> b <= a.
Proof.
  intros dbg sz supported t ptr Hsz Ht Hu Hp.
  destruct (ctz_correct dbg sz supported t ptr Hsz) as [C _]; [rewrite Ht; exact Hp|].
  destruct C as [n [E [[N [D1 D2]] B]]].
  { destruct Hu as [u [Hu1 Hu2]]. exists u. rewrite Ht. auto. }
  rewrite Ht in B. change (8 * Z.of_nat 8) with 64 in B.
  exists (2 ^ n). split; [|split; [exists n; auto|split; auto]].
  - unfold get_alignment. rewrite E. f_equal. unfold cassert.
    destruct (Z.eqb_spec ptr 0); [lia|]. simpl negb. cbn [bind].
    assert (S : shl u64 1 n = Ok (2 ^ n)).
    { unfold shl. simpl bits. simpl sgn. destruct (Z.ltb_spec n 0); [lia|].
      destruct (Z.leb_spec 64 n); [lia|]. simpl orb. cbv iota. f_equal. rewrite Z.mul_1_l.
      apply wrap_id. split; [pose proof (pow2_pos n N); lia|]. apply Z.pow_lt_mono_r; lia. }
    rewrite S. destruct dbg; reflexivity.
  - intros b [k [Hk ->]] Hd. destruct (Z_le_gt_dec k n); [apply pow2_le; lia|].
    exfalso. apply D2. apply Z.divide_trans with (2 ^ k); auto. apply pow2_divide. lia.
Qed.

(** * Shifts *)

Lemma shift_right_correct : forall dbg t v n, std_ity t -> inty t v -> 0 <= n < bits t ->
  shift_right dbg t v n = Ok (v / 2 ^ n).
Proof.
  intros dbg t v n Ht Hv Hn. unfold shift_right, cassert.
  destruct (Z.ltb_spec n (bits t)); [|lia].
  assert (E : shr (promote t) v n = Ok (v / 2 ^ n)).
  { unfold shr, promote. destruct (Z.ltb_spec n 0); [lia|].
    destruct (Z.ltb_spec (bits t) 32); simpl bits.
    - destruct (Z.leb_spec 32 n); [lia|reflexivity].
    - destruct (Z.leb_spec (bits t) n); [lia|reflexivity]. }
  rewrite E. cbn [bind].
  assert (C : conv t (v / 2 ^ n) = v / 2 ^ n).
  { apply conv_id; [apply std_bits_pos; auto|].
    pose proof (pow2_pos n ltac:(lia)).
    assert (B : forall m, 0 <= m -> - m <= v -> - m <= v / 2 ^ n).
    { intros m Hm Hmv. apply Z.div_le_lower_bound; nia. }
    assert (B2 : forall m, 0 <= m -> v <= m -> v / 2 ^ n <= m).
    { intros m Hm Hmv. apply Z.div_le_upper_bound; nia. }
    pose proof (pow2_pos (bits t - 1)). pose proof (pow2_pos (bits t)).
    unfold inty, minv, maxv in *. destruct (sgn t); split.
    - apply B; lia.
    - apply B2; lia.
    - apply Z.div_pos; lia.
    - apply B2; lia. }
  rewrite C. destruct dbg; reflexivity.
Qed.

Lemma narrow_left : forall v n k m, 0 <= v < 2 ^ k -> 0 <= n <= m -> 0 <= k -> k + m <= 31 ->
  0 <= v * 2 ^ n < 2 ^ 31.
Proof.
  intros v n k m Hv Hn Hk Hkm. pose proof (pow2_pos n ltac:(lia)).
  assert (2 ^ n <= 2 ^ m) by (apply pow2_le; lia).
  assert (2 ^ (k + m) <= 2 ^ 31) by (apply pow2_le; lia).
  rewrite Z.pow_add_r in H1 by lia. nia.
Qed.

Lemma narrow_shl : forall v n k m, 0 <= v < 2 ^ k -> 0 <= n <= m -> 0 <= k -> k + m <= 31 ->
  0 <= m < 32 -> shl i32 v n = Ok (v * 2 ^ n).
Proof.
  intros v n k m Hv Hn Hk Hkm Hm.
  pose proof (narrow_left v n k m Hv Hn Hk Hkm) as B.
  rewrite shl_unfold by (change (bits i32) with 32; lia).
  change (sgn i32) with true. change (bits i32) with 32. cbv iota.
  assert (P32 : 2 ^ 31 < 2 ^ 32) by reflexivity.
  destruct (Z.ltb_spec v 0); [lia|]. destruct (Z.leb_spec (2 ^ 32) (v * 2 ^ n)); [lia|].
  cbn [orb]. rewrite conv_id; [reflexivity|reflexivity|].
  unfold inty, minv, maxv. change (sgn i32) with true. change (bits i32 - 1) with 31. cbv iota. lia.
Qed.

Lemma shift_left_unsigned : forall dbg t v n, std_ity t -> sgn t = false -> inty t v ->
  0 <= n < bits t ->
  shift_left dbg t v n = Ok ((v * 2 ^ n) mod 2 ^ bits t).
Proof.
  intros dbg t v n Ht Hs Hv Hn. unfold shift_left, cassert.
  destruct (Z.ltb_spec n (bits t)); [|lia].
  assert (V : 0 <= v < 2 ^ bits t) by (unfold inty, minv, maxv in Hv; rewrite Hs in Hv; lia).
  assert (E : (s <- shl (promote t) v n;; Ok (conv t s)) = Ok ((v * 2 ^ n) mod 2 ^ bits t)).
  { unfold promote. destruct (Z.ltb_spec (bits t) 32) as [L|L].
    - rewrite (narrow_shl v n (bits t) 15); auto; try (unfold std_ity in Ht; lia).
      cbn [bind]. unfold conv. rewrite Hs. reflexivity.
    - rewrite shl_unfold by auto. rewrite Hs. cbn [bind].
      unfold conv. rewrite Hs. unfold wrap. rewrite Z.mod_mod; [reflexivity|].
      pose proof (pow2_pos (bits t)). lia. }
  rewrite E. destruct dbg; reflexivity.
Qed.

Lemma shift_left_signed : forall dbg t v n, std_ity t -> sgn t = true -> inty t v ->
  0 <= n < bits t ->
  shift_left dbg t v n =
    if (v <? 0) || ((32 <=? bits t) && (2 ^ bits t <=? v * 2 ^ n)) then UB
    else Ok (conv t (v * 2 ^ n)).
Proof.
  intros dbg t v n Ht Hs Hv Hn. unfold shift_left, cassert.
  destruct (Z.ltb_spec n (bits t)); [|lia].
  assert (V : - 2 ^ (bits t - 1) <= v < 2 ^ (bits t - 1))
    by (unfold inty, minv, maxv in Hv; rewrite Hs in Hv; lia).
  assert (E : (s <- shl (promote t) v n;; Ok (conv t s)) =
    if (v <? 0) || ((32 <=? bits t) && (2 ^ bits t <=? v * 2 ^ n)) then UB
    else Ok (conv t (v * 2 ^ n))).
  { unfold promote. destruct (Z.ltb_spec (bits t) 32) as [L|L].
    - destruct (Z.leb_spec 32 (bits t)); [lia|]. rewrite andb_false_l, orb_false_r.
      destruct (Z.ltb_spec v 0).
      + rewrite shl_unfold by (change (bits i32) with 32; lia).
        change (sgn i32) with true. cbv iota. destruct (Z.ltb_spec v 0); [|lia]. reflexivity.
      + rewrite (narrow_shl v n (bits t - 1) 15); try (unfold std_ity in Ht; lia). reflexivity.
    - rewrite shl_unfold by auto. rewrite Hs.
      destruct (Z.leb_spec 32 (bits t)); [|lia]. rewrite andb_true_l.
      destruct ((v <? 0) || (2 ^ bits t <=? v * 2 ^ n)); [reflexivity|]. cbn [bind].
      f_equal. apply conv_id; [apply std_bits_pos; auto|]. apply conv_inty. apply std_bits_pos; auto. }
  rewrite E. destruct dbg; reflexivity.
Qed.

Lemma excess_shift : forall t v n, bits t <= n ->
  shift_left true t v n = Abort /\ shift_right true t v n = Abort.
Proof.
  intros t v n H. unfold shift_left, shift_right, cassert.
  destruct (Z.ltb_spec n (bits t)); [lia|]. auto.
Qed.

Lemma next_multiple_t_signed_fits : forall u p v, std_ity u -> sgn u = true ->
  pow2 p -> inty u p -> inty u v -> v + p - 1 <= maxv u ->
  exists r, least_multiple p v r /\ next_multiple_of_t p u v = Some (Ok r).
Proof.
  intros u p v Hu Hs Hp Hip Hiv Hfit.
  destruct (next_multiple_t_signed u p v Hu Hs Hp Hip Hiv) as [r [L E]].
  exists r. split; auto. rewrite E. destruct (Z.ltb_spec (maxv u) (v + p - 1)); [lia|].
  rewrite andb_false_r. rewrite conv_id; auto; [apply std_bits_pos; auto|].
  assert (0 < p) by (destruct Hp as [k [Hk ->]]; apply pow2_pos; auto).
  pose proof (least_multiple_upper p v r H0 L). unfold inty in *. lia.
Qed.

Lemma max_align_wrong : forall dbg a n, pow2 a -> 0 < n -> 2 ^ 31 <= a + n - 1 < 2 ^ 32 ->
  max_alignment_inside_block dbg a n = Ok (2 ^ 64 - 2 ^ 31) /\
  ~ best_alignment a n (2 ^ 64 - 2 ^ 31).
Proof.
  intros dbg a n Ha Hn H. split; [apply max_align_intmin; auto|].
  intros [[k [Hk E]] _]. destruct (Z_lt_le_dec k 64) as [L|L].
  - assert (2 ^ k <= 2 ^ 63) by (apply pow2_le; lia).
    assert (2 ^ 63 < 2 ^ 64 - 2 ^ 31) by reflexivity. lia.
  - assert (2 ^ 64 <= 2 ^ k) by (apply pow2_le; lia).
    assert (0 < 2 ^ 31) by reflexivity. lia.
Qed.

(** * The alignment of a type *)

Lemma alignment_of_type : forall dbg al p, pow2 al -> al < 2 ^ 64 -> 0 <= p < 2 ^ 64 ->
  (exists k, skip_to_align_for dbg al p = Some (Ok k) /\ least_skip al p k /\ k < al) /\
  (exists b, is_aligned_for dbg al p = Ok b /\ (b = true <-> (al | p))) /\
  (skip_to_align_for dbg al p = Some (Ok 0) <-> is_aligned_for dbg al p = Ok true).
Proof.
  intros dbg al p Ha Hl Hp.
  destruct (skip_to_align_correct dbg p al Ha Hl Hp) as (k & E & L & B & Z0).
  destruct (is_aligned_correct dbg p al Ha Hl Hp) as (b & F & D).
  assert (Q : skip_to_align_for dbg al p = Some (Ok k)).
  { unfold skip_to_align_for. destruct Ha as (j & Hj & ->).
    rewrite is_power_of_2_pow by (split; [lia|apply pow2_lt_inv; lia]). rewrite E. reflexivity. }
  unfold is_aligned_for. split; [exists k; auto|split; [exists b; auto|]].
  rewrite Q, F. split; intros H; injection H as H.
  - f_equal. apply D. apply Z0. exact H.
  - do 2 f_equal. apply Z0. apply D. exact H.
Qed.

(** * Enumerations *)

Lemma underlying_values : forall u e, std_ity u -> inty u e ->
  to_underlying u e = e /\ inty u (to_underlying u e) /\ enum_of u (to_underlying u e) = e.
Proof.
  intros u e Hu He. assert (E : conv u e = e) by (apply conv_id; auto; destruct Hu as [E|[E|[E|E]]]; lia).
  unfold to_underlying, enum_of. rewrite !E. auto.
Qed.

Lemma underlying_order : forall u e f, std_ity u -> inty u e -> inty u f ->
  (to_underlying u e = to_underlying u f <-> e = f) /\ (to_underlying u e < to_underlying u f <-> e < f).
Proof.
  intros u e f Hu He Hf.
  destruct (underlying_values u e Hu He) as (-> & _). destruct (underlying_values u f Hu Hf) as (-> & _).
  split; reflexivity.
Qed.

(** clz and ctz with the lists of the supported compilers *)
Lemma widest : forall (l : list ty) w t, l <> [] -> (forall u, In u l -> (sizeof u <= w)%nat) ->
  (exists u, In u l /\ sizeof u = w) ->
  ((sizeof t <= w)%nat -> exists u, In u l /\ (sizeof t <= sizeof u)%nat) /\
  ((w < sizeof t)%nat -> forall u, In u l -> (sizeof u < sizeof t)%nat).
Proof.
  intros l w t _ H (u & Hu & E). split.
  - intros K. exists u. split; [exact Hu|lia].
  - intros K v Hv. specialize (H v Hv). lia.
Qed.

Lemma platform_widths : forall t,
  (((sizeof t <= 8)%nat -> exists u, In u gcc_types /\ (sizeof t <= sizeof u)%nat) /\
   ((8 < sizeof t)%nat -> forall u, In u gcc_types -> (sizeof u < sizeof t)%nat)) /\
  (((sizeof t <= 8)%nat -> exists u, In u msvc64_types /\ (sizeof t <= sizeof u)%nat) /\
   ((8 < sizeof t)%nat -> forall u, In u msvc64_types -> (sizeof u < sizeof t)%nat)) /\
  (((sizeof t <= 4)%nat -> exists u, In u msvc32_types /\ (sizeof t <= sizeof u)%nat) /\
   ((4 < sizeof t)%nat -> forall u, In u msvc32_types -> (sizeof u < sizeof t)%nat)).
Proof.
  intros t. split; [|split]; (apply widest; [discriminate| |]).
  - intros u [<-|[<-|[<-|[]]]]; cbn; lia.
  - exists (TAtom 1 8). split; [right; left; reflexivity|reflexivity].
  - intros u [<-|[<-|[]]]; cbn; lia.
  - exists (TAtom 2 8). split; [right; left; reflexivity|reflexivity].
  - intros u [<-|[]]; cbn; lia.
  - exists (TAtom 1 4). split; [left; reflexivity|reflexivity].
Qed.

Lemma clz_platforms : forall dbg t v, 0 < v < 2 ^ (8 * Z.of_nat (sizeof t)) ->
  ((sizeof t <= 8)%nat ->
   exists n m, leading_zeros (8 * Z.of_nat (sizeof t)) v n /\ leading_zeros (8 * Z.of_nat (sizeof t)) v m /\
     clz dbg 100 gcc_types t v = Some (Ok n) /\ clz dbg 100 msvc64_types t v = Some (Ok m)) /\
  ((sizeof t <= 4)%nat ->
   exists n, leading_zeros (8 * Z.of_nat (sizeof t)) v n /\ clz dbg 100 msvc32_types t v = Some (Ok n)) /\
  ((4 < sizeof t)%nat -> clz dbg 100 msvc32_types t v = None) /\
  ((8 < sizeof t)%nat -> clz dbg 100 gcc_types t v = None /\ clz dbg 100 msvc64_types t v = None).
Proof.
  intros dbg t v Hv.
  destruct (platform_widths t) as ((G & G') & (M & M') & N & N').
  destruct (clz_correct dbg 100 gcc_types t v) as (g & g'); [cbn; lia|exact Hv|].
  destruct (clz_correct dbg 100 msvc64_types t v) as (m & m'); [cbn; lia|exact Hv|].
  destruct (clz_correct dbg 100 msvc32_types t v) as (n & n'); [cbn; lia|exact Hv|].
  split; [|split; [|split]].
  - intros K. destruct (g (G K)) as (a & A & A'). destruct (m (M K)) as (b & B & B').
    exists a, b. split; [exact A'|split; [exact B'|split; assumption]].
  - intros K. destruct (n (N K)) as (a & A & A'). exists a. split; assumption.
  - intros K. exact (n' (N' K)).
  - intros K. split; [exact (g' (G' K))|exact (m' (M' K))].
Qed.

Lemma ctz_platforms : forall dbg t v, 0 < v < 2 ^ (8 * Z.of_nat (sizeof t)) ->
  ((sizeof t <= 8)%nat ->
   exists n m, trailing_zero_count v n /\ trailing_zero_count v m /\
     ctz dbg 100 gcc_types t v = Some (Ok n) /\ ctz dbg 100 msvc64_types t v = Some (Ok m)) /\
  ((sizeof t <= 4)%nat ->
   exists n, trailing_zero_count v n /\ ctz dbg 100 msvc32_types t v = Some (Ok n)) /\
  ((4 < sizeof t)%nat -> ctz dbg 100 msvc32_types t v = None) /\
  ((8 < sizeof t)%nat -> ctz dbg 100 gcc_types t v = None /\ ctz dbg 100 msvc64_types t v = None).
Proof.
  intros dbg t v Hv.
  destruct (platform_widths t) as ((G & G') & (M & M') & N & N').
  destruct (ctz_correct dbg 100 gcc_types t v) as (g & g'); [cbn; lia|exact Hv|].
  destruct (ctz_correct dbg 100 msvc64_types t v) as (m & m'); [cbn; lia|exact Hv|].
  destruct (ctz_correct dbg 100 msvc32_types t v) as (n & n'); [cbn; lia|exact Hv|].
  split; [|split; [|split]].
  - intros K. destruct (g (G K)) as (a & A & A' & _). destruct (m (M K)) as (b & B & B' & _).
    exists a, b. split; [exact A'|split; [exact B'|split; assumption]].
  - intros K. destruct (n (N K)) as (a & A & A' & _). exists a. split; assumption.
  - intros K. exact (n' (N' K)).
  - intros K. split; [exact (g' (G' K))|exact (m' (M' K))].
Qed.

(** a block so large that it only fits at address 0 contains 0, a multiple of everything *)
Lemma no_best_alignment : forall a n m, 0 < a -> 0 < n -> 2 ^ 64 < a + n -> ~ best_alignment a n m.
Proof.
  intros a n m Ha Hn H [[k [Hk ->]] [_ Best]].
  assert (G : guaranteed_alignment a n (2 ^ (k + 1))).
  { intros p Hp [c Hc] Hend. assert (p < a) by lia. assert (c = 0) by nia. subst c. subst p. exists 0. split; [lia|]. apply Z.divide_0_r. }
  assert (P1 : pow2 (2 ^ (k + 1))) by (exists (k + 1); split; [lia|reflexivity]).
  specialize (Best _ P1 G).
  rewrite Z.pow_add_r in Best by lia. pose proof (pow2_pos k Hk). change (2 ^ 1) with 2 in Best. lia.
Qed.

Lemma max_align_exact : forall dbg a n, pow2 a -> 0 < n ->
  ((exists m, max_alignment_inside_block dbg a n = Ok m /\ best_alignment a n m) <-> a + n - 1 < 2 ^ 31).
Proof.
  intros dbg a n Ha Hn. split; [|apply max_align_correct; auto].
  intros [m [E B]]. destruct (Z_lt_le_dec (a + n - 1) (2 ^ 31)) as [L|L]; [exact L|exfalso].
  assert (P : 0 < a) by (destruct Ha as [k [Hk ->]]; now apply pow2_pos).
  destruct (Z_lt_le_dec (a + n - 1) (2 ^ 32)) as [L2|L2].
  - destruct (max_align_wrong dbg a n Ha Hn (conj L L2)) as [E' W]. rewrite E' in E.
    apply W. assert (m = 2 ^ 64 - 2 ^ 31) as <- by congruence. exact B.
  - destruct (Z_lt_le_dec (a + n - 1) (2 ^ 64)) as [L3|L3].
    + rewrite (max_align_ub dbg a n Ha Hn (conj L2 L3)) in E. discriminate E.
    + eapply no_best_alignment; [| | |exact B]; lia.
Qed.
