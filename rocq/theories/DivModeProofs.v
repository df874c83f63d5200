(** Exactly which operands div treats alike at compile time and at run time. *)

Require Import ZArith List Bool Lia.
Require Import Verif.Outcome Verif.Machine Verif.BitsSpec Verif.ArithModel Verif.ArithSpec Verif.ArithProofs
  Verif.ArithModeProofs.
Open Scope Z_scope.
Open Scope res_scope.

Lemma swrap_mod : forall w x, 0 < w -> swrap w (x mod 2 ^ w) = swrap w x.
Proof. intros w x H. unfold swrap, wrap. rewrite Z.mod_mod by (apply Z.pow_nonzero; lia). reflexivity. Qed.

Lemma as_u64 : forall dbg t u n d, common t u = u64 -> d <> 0 -> - 2 ^ 64 < d < 2 ^ 64 ->
  div_constant dbg t u n d = div_constant dbg u64 u64 (n mod 2 ^ 64) (d mod 2 ^ 64) /\
  div_runtime dbg t u n d = div_runtime dbg u64 u64 (n mod 2 ^ 64) (d mod 2 ^ 64).
Proof.
  intros dbg t u n d C Hz Hd. unfold div_constant, div_runtime. rewrite C. change (common u64 u64) with u64.
  change (work_t u64) with i64.
  assert (D0 : d mod 2 ^ 64 <> 0).
  { intros E. apply Z.mod_divide in E; [|discriminate]. destruct E as [k E]. assert (k = 0) by nia. lia. }
  rewrite (proj2 (Z.eqb_neq d 0) Hz), (proj2 (Z.eqb_neq _ 0) D0).
  assert (U : forall x, conv u64 (x mod 2 ^ 64) = conv u64 x).
  { intros x. unfold conv. change (sgn u64) with false. cbv iota. change (bits u64) with 64. unfold wrap.
    apply Z.mod_mod. discriminate. }
  assert (I : forall x, conv i64 (x mod 2 ^ 64) = conv i64 x) by (intros x; apply swrap_mod; reflexivity).
  rewrite !U, !I. split; reflexivity.
Qed.

Lemma quot_rem_in : forall n d, d <> 0 -> - 2 ^ 32 < n < 2 ^ 32 -> intyb i64 (Z.quot n d) = true.
Proof.
  intros n d Hz Hn. unfold intyb. change (minv i64) with (- 2 ^ 63). change (maxv i64) with (2 ^ 63 - 1).
  assert (A : Z.abs (Z.quot n d) <= Z.abs n).
  { rewrite <- Z.quot_abs by auto. rewrite Z.quot_div_nonneg by lia.
    apply Z.div_le_upper_bound; [lia|]. nia. }
  assert (2 ^ 32 < 2 ^ 63) by reflexivity. apply andb_true_iff. rewrite !Z.leb_le. lia.
Qed.

Lemma u32_values : forall dbg t u n d, common t u = u32 -> d <> 0 ->
  - 2 ^ 31 <= n < 2 ^ 32 -> - 2 ^ 31 <= d < 2 ^ 32 ->
  div_constant dbg t u n d = Ok ((n mod 2 ^ 32) / (d mod 2 ^ 32), (n mod 2 ^ 32) mod (d mod 2 ^ 32)) /\
  div_runtime dbg t u n d = Ok (Z.quot n d mod 2 ^ 32, Z.rem n d mod 2 ^ 32).
Proof.
  intros dbg t u n d C Hz Hn Hd. unfold div_constant, div_runtime. rewrite C. change (work_t u32) with i64.
  change (promote u32) with u32. rewrite (proj2 (Z.eqb_neq d 0) Hz). cbn [negb].
  assert (P : 2 ^ 32 = 2 * 2 ^ 31) by reflexivity. assert (P0 : 0 < 2 ^ 31) by reflexivity.
  assert (P2 : 2 ^ 32 < 2 ^ 63) by reflexivity.
  assert (D0 : d mod 2 ^ 32 <> 0).
  { intros E. apply Z.mod_divide in E; [|discriminate]. destruct E as [k E]. assert (k = 0) by nia. lia. }
  assert (U : forall x, conv u32 x = x mod 2 ^ 32) by reflexivity.
  assert (I : forall x, - 2 ^ 31 <= x < 2 ^ 32 -> conv i64 x = x).
  { intros x H. apply conv_id; [reflexivity|]. unfold inty. change (minv i64) with (- 2 ^ 63).
    change (maxv i64) with (2 ^ 63 - 1). lia. }
  rewrite (I n), (I d) by lia. unfold quotrem. rewrite !U.
  rewrite (proj2 (Z.eqb_neq d 0) Hz), (proj2 (Z.eqb_neq _ 0) D0), quot_rem_in by lia.
  pose proof (Z.mod_pos_bound n (2 ^ 32) ltac:(lia)) as BN. pose proof (Z.mod_pos_bound d (2 ^ 32) ltac:(lia)) as BD.
  rewrite Z.quot_div_nonneg, Z.rem_mod_nonneg by lia.
  set (N := n mod 2 ^ 32) in *. set (D := d mod 2 ^ 32) in *.
  assert (QB : 0 <= N / D <= N) by (split; [apply Z.div_pos; lia|apply Z.div_le_upper_bound; nia]).
  pose proof (Z.mod_pos_bound N D ltac:(lia)) as RB.
  unfold intyb. change (minv u32) with 0. change (maxv u32) with (2 ^ 32 - 1).
  destruct (Z.leb_spec 0 (N / D)); [|lia]. destruct (Z.leb_spec (N / D) (2 ^ 32 - 1)); [|lia]. cbn [andb].
  unfold cassert. destruct dbg; cbn [bind]; rewrite !U, (Z.mod_small (N / D)), (Z.mod_small (N mod D)) by lia; auto.
Qed.

Lemma ok_inj : forall x y : Z * Z, Ok x = Ok y -> x = y.
Proof. intros x y E. exact (f_equal (fun r => match r with Ok z => z | _ => x end) E). Qed.

Lemma neg_mod32 : forall x, 0 < x <= 2 ^ 32 -> (- x) mod 2 ^ 32 = 2 ^ 32 - x.
Proof.
  intros x H. destruct (Z.eq_dec x (2 ^ 32)) as [->|N]; [reflexivity|].
  rewrite <- (Z.mod_add (- x) 1) by discriminate. rewrite Z.mod_small; lia.
Qed.

Lemma u32_modes : forall n d, d <> 0 -> - 2 ^ 31 <= n < 2 ^ 32 -> - 2 ^ 31 <= d < 2 ^ 32 -> (0 <= n \/ 0 <= d) ->
  ((n mod 2 ^ 32) / (d mod 2 ^ 32), (n mod 2 ^ 32) mod (d mod 2 ^ 32)) = (Z.quot n d mod 2 ^ 32, Z.rem n d mod 2 ^ 32) <->
  (0 <= n /\ 0 < d) \/ d = 1 \/ 2 ^ 32 < d - n \/ 0 <= n < - d \/ (n = 2 ^ 32 - 1 /\ d = -1).
Proof.
  intros n d Hz Hn Hd S.
  assert (P : 2 ^ 32 = 2 * 2 ^ 31) by reflexivity. assert (P0 : 1 < 2 ^ 31) by reflexivity.
  destruct (Z_lt_le_dec n 0) as [Ln|Ln]; destruct (Z_lt_le_dec d 0) as [Ld|Ld]; try lia.
  - (* a negative dividend *)
    set (a := - n). assert (A : 0 < a <= 2 ^ 31) by (unfold a; lia).
    replace n with (- a) by (unfold a; lia). rewrite neg_mod32 by lia. rewrite (Z.mod_small d) by lia.
    rewrite Z.quot_opp_l, Z.rem_opp_l by lia. rewrite Z.quot_div_nonneg, Z.rem_mod_nonneg by lia.
    pose proof (Z.div_mod a d ltac:(lia)) as DA. pose proof (Z.mod_pos_bound a d ltac:(lia)) as BA.
    pose proof (Z.div_mod (2 ^ 32 - a) d ltac:(lia)) as DN. pose proof (Z.mod_pos_bound (2 ^ 32 - a) d ltac:(lia)) as BN.
    destruct (Z.eq_dec d 1) as [->|D1].
    { rewrite !Z.div_1_r, !Z.mod_1_r, neg_mod32 by lia. split; [tauto|reflexivity]. }
    destruct (Z_lt_le_dec (2 ^ 32) (d + a)) as [L|L].
    { rewrite (Z.div_small (2 ^ 32 - a)), (Z.mod_small (2 ^ 32 - a) d) by lia.
      rewrite (Z.div_small a d), (Z.mod_small a d) by lia. rewrite (neg_mod32 a) by lia. change ((- 0) mod 2 ^ 32) with 0.
      split; [intros _; lia|reflexivity]. }
    split; [|lia]. intros E. apply pair_equal_spec in E. destruct E as [EQ ER]. exfalso.
    assert (1 <= (2 ^ 32 - a) / d) by (apply Z.div_le_lower_bound; lia).
    assert ((2 ^ 32 - a) / d < 2 ^ 31) by (apply Z.div_lt_upper_bound; nia).
    assert (0 <= a / d <= a) by (split; [apply Z.div_pos; lia|apply Z.div_le_upper_bound; nia]).
    destruct (Z.eq_dec (a / d) 0) as [Q0|Q0].
    + rewrite Q0 in EQ. change ((- 0) mod 2 ^ 32) with 0 in EQ. lia.
    + rewrite neg_mod32 in EQ by lia. assert (a / d <= 2 ^ 30) by (apply Z.div_le_upper_bound; [lia|]; assert (2 ^ 31 = 2 * 2 ^ 30) by reflexivity; nia).
      assert (2 ^ 31 = 2 * 2 ^ 30) by reflexivity. lia.
  - (* a negative divisor *)
    set (e := - d). assert (E0 : 0 < e <= 2 ^ 31) by (unfold e; lia).
    replace d with (- e) by (unfold e; lia). rewrite neg_mod32 by lia. rewrite (Z.mod_small n) by lia.
    rewrite Z.quot_opp_r, Z.rem_opp_r by lia. rewrite Z.quot_div_nonneg, Z.rem_mod_nonneg by lia.
    assert (QB : 0 <= n / e <= n) by (split; [apply Z.div_pos; lia|apply Z.div_le_upper_bound; nia]).
    destruct (Z_lt_le_dec n e) as [L|L].
    { rewrite (Z.div_small n e), (Z.mod_small n e), (Z.div_small n), (Z.mod_small n (2 ^ 32 - e)) by lia.
      rewrite (Z.mod_small n) by lia. split; [intros _; lia|reflexivity]. }
    assert (1 <= n / e) by (apply Z.div_le_lower_bound; lia). rewrite neg_mod32 by lia.
    split.
    + intros E. apply pair_equal_spec in E. destruct E as [EQ ER].
      destruct (Z_lt_le_dec n (2 ^ 32 - e)) as [L2|L2].
      { rewrite Z.div_small in EQ by lia. lia. }
      assert (Q1 : n / (2 ^ 32 - e) < 2).
      { apply Z.div_lt_upper_bound; lia. }
      assert (n / e >= 2 ^ 32 - 1) by lia. assert (n = 2 ^ 32 - 1) by lia.
      assert (e = 1); [|lia].
      destruct (Z.eq_dec e 1); auto. assert (n / e < 2 ^ 31); [|lia]. apply Z.div_lt_upper_bound; nia.
    + intros H'. assert (n = 2 ^ 32 - 1 /\ e = 1) as [-> ->] by (unfold e in *; lia). reflexivity.
  - (* neither *)
    rewrite Z.quot_div_nonneg, Z.rem_mod_nonneg by lia. rewrite !(Z.mod_small _ (2 ^ 32)) by
      (try lia; pose proof (Z.mod_pos_bound n d ltac:(lia)); split; try apply Z.div_pos; try lia; apply Z.div_lt_upper_bound; nia).
    split; [left; lia|reflexivity].
Qed.

Lemma operands_modes : forall dbg t u n d, std_ity t -> std_ity u -> inty t n -> inty u d -> d <> 0 ->
  sgn (common t u) = false ->
  (div_runtime dbg t u n d = div_constant dbg t u n d <->
   if bits (common t u) =? 64 then
     let n' := n mod 2 ^ 64 in let d' := d mod 2 ^ 64 in
     n' < 2 ^ 63 /\ n' + d' < 2 ^ 64 \/ d' = 1 \/ n' = d'
   else (0 <= n /\ 0 < d) \/ d = 1 \/ 2 ^ 32 < d - n \/ 0 <= n < - d \/ (n = 2 ^ 32 - 1 /\ d = -1)).
Proof.
  intros dbg t u n d Ht Hu Hn Hd Hz Sg.
  assert (C : common t u = u64 \/ (common t u = u32 /\ - 2 ^ 31 <= n < 2 ^ 32 /\ - 2 ^ 31 <= d < 2 ^ 32 /\ (0 <= n \/ 0 <= d)) \/
    (bits (common t u) =? 64 = false /\ sgn t = false /\ sgn u = false)).
  { clear Hz. destruct t as [b s], u as [b' s']. unfold std_ity in *. cbn [bits sgn] in *.
    assert (P : 2 ^ 7 < 2 ^ 8 < 2 ^ 15 /\ 2 ^ 15 < 2 ^ 16 < 2 ^ 31 /\ 2 ^ 31 < 2 ^ 32 < 2 ^ 63) by (vm_compute; auto).
    widths Ht; widths Hu; subst b b'; destruct s, s'; vm_compute in Sg; try discriminate Sg;
      first [ left; reflexivity | right; right; repeat split; reflexivity
            | right; left; split; [reflexivity|]; unfold inty, minv, maxv in *; cbn [sgn bits] in *;
              change (8 - 1) with 7 in *; change (16 - 1) with 15 in *; change (32 - 1) with 31 in *; lia ]. }
  destruct C as [C|[[C [B1 [B2 B3]]]|[C [S1 S2]]]].
  - assert (D : - 2 ^ 64 < d < 2 ^ 64).
    { clear - Hu Hd. destruct u as [b s]. unfold std_ity, inty, minv, maxv in *. cbn [bits sgn] in *.
      assert (P : 2 ^ 7 < 2 ^ 8 < 2 ^ 15 /\ 2 ^ 15 < 2 ^ 16 < 2 ^ 31 /\ 2 ^ 31 < 2 ^ 32 < 2 ^ 63 /\ 2 ^ 63 < 2 ^ 64) by (vm_compute; auto).
      widths Hu; subst b; destruct s; change (8 - 1) with 7 in *; change (16 - 1) with 15 in *;
        change (32 - 1) with 31 in *; change (64 - 1) with 63 in *; lia. }
    destruct (as_u64 dbg t u n d C Hz D) as [-> ->]. rewrite C. change (bits u64 =? 64) with true. cbv iota zeta.
    assert (W : forall x, inty u64 (x mod 2 ^ 64)).
    { intros x. pose proof (Z.mod_pos_bound x (2 ^ 64) eq_refl). unfold inty. change (minv u64) with 0.
      change (maxv u64) with (2 ^ 64 - 1). lia. }
    apply u64_modes_exact; auto.
    intros E. apply Z.mod_divide in E; [|discriminate]. destruct E as [k E]. assert (k = 0) by nia. lia.
  - destruct (u32_values dbg t u n d C Hz B1 B2) as [-> ->]. rewrite C. change (bits u32 =? 64) with false. cbv iota.
    rewrite <- u32_modes by auto. split; [intros E; symmetry; exact (ok_inj _ _ E)|intros E; rewrite E; reflexivity].
  - rewrite C. assert (N0 : 0 <= n) by (unfold inty, minv in Hn; rewrite S1 in Hn; lia).
    assert (D0 : 0 < d) by (unfold inty, minv in Hd; rewrite S2 in Hd; lia).
    split; [left; lia|]. intros _.
    assert (X : exists q r, div_constant dbg t u n d = Ok (q, r)).
    { destruct (div_constant_correct dbg t u n d Ht Hu Hn Hd Hz) as [q [r [E _]]]; [congruence|eauto]. }
    destruct X as [q [r E]]. rewrite E.
    apply (proj2 (type_modes_exact dbg t u Ht Hu)); auto. right. split; auto. split; auto.
    clear - C Ht Hu. destruct t as [b s], u as [b' s']. unfold std_ity in *. cbn [bits sgn] in *.
    widths Ht; widths Hu; subst b b'; destruct s, s'; vm_compute in C; try discriminate C; reflexivity.
Qed.
