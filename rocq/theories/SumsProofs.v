(** Proofs of the laws by which the integer helpers combine. *)

Require Import ZArith List Lia Bool Permutation.
Require Import Verif.Outcome Verif.Machine Verif.BitsModel Verif.BitsSpec Verif.BitsProofs
  Verif.ArithModel Verif.ArithSpec Verif.ArithProofs Verif.ArithRangeProofs Verif.DivModeProofs Verif.ArithModeProofs.
Import ListNotations.
Open Scope Z_scope.

(** * Types for values *)

Lemma value_type : forall v, 1 <= v < 2 ^ 64 -> exists n t,
  bits_count v = Ok n /\ uint_from_nbits n = Some t /\ inty t v /\
  forall u, std_ity u -> sgn u = false -> inty u v -> bits t <= bits u.
Proof.
  intros v Hv. rewrite bits_count_value by lia. destruct (Z.eqb_spec v 0); [lia|].
  assert (BL := bit_length_log2 v ltac:(lia)). destruct (Z.eqb_spec v 0); [lia|].
  assert (L : 0 <= Z.log2 v < 64).
  { split; [apply Z.log2_nonneg|apply Z.log2_lt_pow2; lia]. }
  destruct (uint_from_nbits_spec (Z.log2 v + 1)) as [S _].
  destruct S as [t [E [Hs [Hin [Hle Hmin]]]]]; [lia|].
  exists (Z.log2 v + 1), t. split; auto. split; auto. destruct BL as [_ [B M]]. split.
  - unfold inty, minv, maxv. rewrite Hs.
    assert (2 ^ (Z.log2 v + 1) <= 2 ^ bits t) by (apply pow2_le; lia). lia.
  - intros u Hu Su I. unfold inty, minv, maxv in I. rewrite Su in I. apply Hmin.
    + unfold std_ity in Hu. cbn [In]. lia.
    + apply M; [unfold std_ity in Hu; lia | lia].
Qed.

Lemma type_of_width : forall t, std_ity t -> sgn t = false ->
  uint_from_nbits (bits t) = Some t /\ uint_from_nbytes (bits t / 8) = Some t.
Proof.
  intros [b s] Ht Hs. cbn [sgn] in Hs. subst s. unfold std_ity in Ht. cbn [bits] in *.
  destruct Ht as [->|[->|[->| ->]]]; split; reflexivity.
Qed.

Lemma type_monotone : forall n m t u, n <= m ->
  uint_from_nbits n = Some t -> uint_from_nbits m = Some u -> bits t <= bits u.
Proof.
  intros n m t u H A B.
  destruct (uint_from_nbits_spec n) as [S R]. destruct (uint_from_nbits_spec m) as [S' R'].
  destruct (Z.le_gt_cases n 0); [rewrite R in A by lia; discriminate|].
  destruct (Z.lt_ge_cases 64 n); [rewrite R in A by lia; discriminate|].
  destruct (Z.lt_ge_cases 64 m); [rewrite R' in B by lia; discriminate|].
  destruct S as [t' [E [_ [_ [_ M]]]]]; [lia|]. destruct S' as [u' [E' [_ [I [L _]]]]]; [lia|].
  assert (t' = t) by congruence. assert (u' = u) by congruence. subst. apply M; auto. lia.
Qed.

(** * Sizes *)

Definition bits_of (x : object_type) : Z := match x with OBool => 1 | OOther s => 8 * s end.
Definition all_bits (ts : list object_type) : Z := fold_right Z.add 0 (map bits_of ts).

Lemma all_bits_app : forall a b, all_bits (a ++ b) = all_bits a + all_bits b.
Proof.
  intros a b; induction a as [|x a IH]; [reflexivity|].
  change (all_bits ((x :: a) ++ b)) with (bits_of x + all_bits (a ++ b)).
  change (all_bits (x :: a)) with (bits_of x + all_bits a). lia.
Qed.

Lemma all_bits_perm : forall a b, Permutation a b -> all_bits a = all_bits b.
Proof.
  intros a b P; induction P; auto.
  - change (all_bits (x :: l)) with (bits_of x + all_bits l).
    change (all_bits (x :: l')) with (bits_of x + all_bits l'). lia.
  - change (all_bits (y :: x :: l)) with (bits_of y + (bits_of x + all_bits l)).
    change (all_bits (x :: y :: l)) with (bits_of x + (bits_of y + all_bits l)). lia.
  - lia.
Qed.

Lemma all_bits_nonneg : forall a, (forall s, In (OOther s) a -> 0 <= s) -> 0 <= all_bits a.
Proof.
  intros a; induction a as [|x a IH]; intros H; [cbn; lia|].
  change (all_bits (x :: a)) with (bits_of x + all_bits a).
  assert (0 <= all_bits a) by (apply IH; intros; apply H; right; auto).
  destruct x; cbn [bits_of]; [lia|]. specialize (H size (or_introl eq_refl)). lia.
Qed.

Lemma sum_known : forall ts, ts <> [] -> (forall s, In (OOther s) ts -> 0 <= s) -> all_bits ts < 2 ^ 64 ->
  exists k, sum_size ts = Some k /\ 8 * k - 7 <= all_bits ts <= 8 * k.
Proof.
  intros ts N P S. destruct (sum_size_correct ts N) as [k [E [L M]]].
  - intros x I. destruct x; cbn [true_bits]; [lia|]. specialize (P size I). lia.
  - exact S.
  - exists k. split; auto. change (fold_right Z.add 0 (map true_bits ts)) with (all_bits ts) in *.
    split; [|lia]. destruct (Z.lt_ge_cases (all_bits ts) (8 * k - 7)); [|lia].
    specialize (M (k - 1) ltac:(lia)). lia.
Qed.

Lemma sum_one : forall s, 0 <= s -> 8 * s < 2 ^ 64 -> sum_size [OOther s] = Some s.
Proof.
  intros s P S. destruct (sum_known [OOther s]) as [k [E B]].
  - discriminate.
  - intros x [I|[]]. injection I as <-. auto.
  - unfold all_bits. cbn [map fold_right bits_of]. lia.
  - rewrite E. f_equal. unfold all_bits in B. cbn [map fold_right bits_of] in B. lia.
Qed.

Lemma sum_order : forall a b, a <> [] -> (forall s, In (OOther s) a -> 0 <= s) ->
  fold_right Z.add 0 (map (fun x => match x with OBool => 1 | OOther s => 8 * s end) a) < 2 ^ 64 ->
  Permutation a b -> sum_size b = sum_size a.
Proof.
  intros a b N P S H. change (all_bits a < 2 ^ 64) in S. destruct (sum_known a N P S) as [k [E B]].
  destruct (sum_known b) as [j [F C]].
  - intros ->. apply N. apply Permutation_nil. symmetry. auto.
  - intros s I. apply P. eapply Permutation_in; [symmetry; eassumption|auto].
  - rewrite <- (all_bits_perm a b H). auto.
  - rewrite E, F. f_equal. rewrite <- (all_bits_perm a b H) in C. lia.
Qed.

(** two lists together need at most what they need apart, and at most a byte less *)
Lemma sum_join : forall a b, a <> [] -> b <> [] -> (forall s, In (OOther s) (a ++ b) -> 0 <= s) ->
  fold_right Z.add 0 (map (fun x => match x with OBool => 1 | OOther s => 8 * s end) (a ++ b)) < 2 ^ 64 ->
  exists i j k, sum_size a = Some i /\ sum_size b = Some j /\ sum_size (a ++ b) = Some k /\
    i + j - 1 <= k <= i + j /\ (~ In OBool a \/ ~ In OBool b -> k = i + j).
Proof.
  intros a b Na Nb P S. change (all_bits (a ++ b) < 2 ^ 64) in S. rewrite all_bits_app in S.
  assert (Pa : forall s, In (OOther s) a -> 0 <= s) by (intros; apply P; apply in_or_app; auto).
  assert (Pb : forall s, In (OOther s) b -> 0 <= s) by (intros; apply P; apply in_or_app; auto).
  pose proof (all_bits_nonneg a Pa). pose proof (all_bits_nonneg b Pb).
  destruct (sum_known a Na Pa ltac:(lia)) as [i [Ei Bi]].
  destruct (sum_known b Nb Pb ltac:(lia)) as [j [Ej Bj]].
  destruct (sum_known (a ++ b)) as [k [Ek Bk]]; auto.
  { intros X. apply app_eq_nil in X. tauto. }
  { rewrite all_bits_app. lia. }
  rewrite all_bits_app in Bk. exists i, j, k. repeat (split; auto); try lia.
  assert (W : forall l, ~ In OBool l -> exists q, all_bits l = 8 * q).
  { induction l as [|x l IH]; intros N; [exists 0; reflexivity|].
    destruct IH as [q Q]; [intros X; apply N; right; auto|].
    change (all_bits (x :: l)) with (bits_of x + all_bits l).
    destruct x; [exfalso; apply N; left; auto|]. cbn [bits_of]. exists (size + q). lia. }
  intros [N|N]; destruct (W _ N) as [q Q]; lia.
Qed.

(** * Division *)

Lemma div_power : forall dbg t v n, std_ity t -> sgn t = false -> inty t v -> 0 <= n < bits t -> exists s,
  shift_right dbg t v n = Ok s /\ div_constant dbg t t v (2 ^ n) = Ok (s, v mod 2 ^ n) /\
  (div_runtime dbg t t v (2 ^ n) = Ok (s, v mod 2 ^ n) <->
   bits t < 64 \/ v < 2 ^ 63 \/ n = 0 \/ v = 2 ^ n).
Proof.
  intros dbg t v n Ht Hs Hv Hn. exists (v / 2 ^ n). split; [apply shift_right_correct; auto|].
  assert (Hb := std_bits_pos t Ht). assert (0 < 2 ^ n) by (apply Z.pow_pos_nonneg; lia).
  assert (Hp : 2 ^ n < 2 ^ bits t) by (apply Z.pow_lt_mono_r; lia).
  assert (Hd : inty t (2 ^ n)) by (unfold inty, minv, maxv; rewrite Hs; lia).
  assert (Hc : common t t = t).
  { unfold common, ity_eqb. rewrite Z.eqb_refl, Bool.eqb_reflx. reflexivity. }
  assert (D : div_constant dbg t t v (2 ^ n) = Ok (v / 2 ^ n, v mod 2 ^ n)).
  { destruct (div_constant_correct dbg t t v (2 ^ n) Ht Ht Hv Hd) as [q [r [E [F _]]]];
      [lia | cbv zeta; rewrite ?Hc; intros X; congruence |].
    rewrite Hc, !conv_id in F by (auto; lia). rewrite E.
    unfold inty, minv in Hv. rewrite Hs in Hv.
    destruct (division_unique v (2 ^ n) q r (v / 2 ^ n) (v mod 2 ^ n) F) as [-> ->]; auto.
    pose proof (Z.div_mod v (2 ^ n) ltac:(lia)). pose proof (Z.mod_pos_bound v (2 ^ n) ltac:(lia)).
    unfold division. repeat split; nia. }
  split; auto.
  destruct (Z.eq_dec (bits t) 64) as [W|W].
  - assert (t = u64) by (destruct t as [w s0]; cbn [bits sgn] in *; subst; reflexivity). subst t.
    rewrite <- D, (u64_modes_exact dbg v (2 ^ n)) by (auto; lia).
    unfold inty, minv, maxv in Hv. cbn [sgn bits u64] in *.
    assert (2 ^ n <= 2 ^ 63) by (apply pow2_le; lia).
    assert (P : 2 ^ 64 = 2 * 2 ^ 63) by reflexivity.
    assert (Q : 2 ^ n = 1 <-> n = 0).
    { split; [|intros ->; reflexivity]. intros Q. destruct (Z.eq_dec n 0); auto.
      assert (2 ^ 1 <= 2 ^ n) by (apply pow2_le; lia). change (2 ^ 1) with 2 in *. lia. }
    split; intros G; lia.
  - assert (I : inty i64 v /\ inty i64 (2 ^ n)).
    { unfold inty, minv, maxv in *. rewrite Hs in *. cbn [sgn bits i64].
      assert (2 ^ bits t <= 2 ^ 63) by (apply pow2_le; unfold std_ity in Ht; lia).
      change (64 - 1) with 63. lia. }
    split; [intros _; left; unfold std_ity in Ht; lia|]. intros _.
    apply div_runtime_agrees; rewrite ?Hc; auto; try tauto; lia.
Qed.

(** what div takes apart can be put together again and taken apart with the same result *)
Lemma div_again : forall dbg t d q r, std_ity t -> 0 < d -> 0 <= r < d -> 0 <= q ->
  inty t (q * d + r) -> inty i64 (q * d + r) -> inty t d -> inty i64 d ->
  div_constant dbg t t (q * d + r) d = Ok (q, r) /\ div_runtime dbg t t (q * d + r) d = Ok (q, r).
Proof.
  intros dbg t d q r Ht Hd Hr Hq Hn Hn6 Hdt Hd6. assert (Hb := std_bits_pos t Ht).
  assert (Hc : common t t = t).
  { unfold common, ity_eqb. rewrite Z.eqb_refl, Bool.eqb_reflx. reflexivity. }
  assert (D : div_constant dbg t t (q * d + r) d = Ok (q, r)).
  { destruct (div_constant_correct dbg t t (q * d + r) d Ht Ht Hn Hdt) as [q' [r' [E [F _]]]];
      [lia | cbv zeta; rewrite ?Hc; intros _ _; rewrite conv_id by (auto; lia); lia |].
    rewrite Hc, !conv_id in F by (auto; lia). rewrite E.
    destruct (division_unique _ _ q' r' q r F) as [-> ->]; auto.
    unfold division. repeat split; nia. }
  split; auto. apply div_runtime_agrees; rewrite ?Hc; auto; lia.
Qed.

(** * Ranges *)

Lemma interval_unique : forall a b l l', interval a b l -> interval a b l' -> l = l'.
Proof.
  intros a b l l' [L H] [L' H'].
  assert (E : length l = length l') by lia.
  apply nth_ext with (d := 0) (d' := 0); auto. intros i Hi.
  destruct (nth_error l i) eqn:X; [|apply nth_error_None in X; lia].
  destruct (nth_error l' i) eqn:Y; [|apply nth_error_None in Y; lia].
  rewrite (nth_error_nth _ _ 0 X), (nth_error_nth _ _ 0 Y).
  rewrite (H _ _ X), (H' _ _ Y). reflexivity.
Qed.

Lemma interval_app : forall a b c l l', a <= b + 1 -> b <= c -> interval a b l -> interval (b + 1) c l' ->
  interval a c (l ++ l').
Proof.
  intros a b c l l' H1 H2 [L H] [L' H']. split; [rewrite app_length; lia|].
  intros i x X. destruct (Nat.lt_ge_cases i (length l)).
  - rewrite nth_error_app1 in X by auto. apply H; auto.
  - rewrite nth_error_app2 in X by auto. apply H' in X. lia.
Qed.

(** neighbouring ranges join *)
Lemma ranges_join : forall t a b c, std_ity t -> inty t a -> inty t c -> a <= b -> b < c ->
  c - a + 1 <= maxv t -> (sgn t = true -> 32 <= bits t -> c < maxv t) ->
  exists l l' l'', values_in_range t t a b = Some l /\ values_in_range t t (b + 1) c = Some l' /\
    values_in_range t t a c = Some l'' /\ l'' = l ++ l'.
Proof.
  intros t a b c Ht Ha Hc H1 H2 N O.
  assert (Hb : inty t b) by (unfold inty in *; lia).
  assert (Hb1 : inty t (b + 1)) by (unfold inty in *; lia).
  destruct (values_in_range_same t a b) as [l [E I]]; auto; try (intros S W; specialize (O S W)); try lia.
  destruct (values_in_range_same t (b + 1) c) as [l' [E' I']]; auto; try lia.
  destruct (values_in_range_same t a c) as [l'' [E'' I'']]; auto; try lia.
  exists l, l', l''. repeat (split; auto).
  eapply interval_unique; [eassumption|]. apply interval_app with (b := b); auto; lia.
Qed.

Lemma range_single : forall t v, std_ity t -> inty t v -> (sgn t = true -> 32 <= bits t -> v < maxv t) ->
  values_in_range t t v v = Some [v].
Proof.
  intros t v Ht Hv O. destruct (values_in_range_same t v v) as [l [E I]]; auto; try lia.
  - assert (Hb := std_bits_pos t Ht). unfold maxv.
    assert (2 ^ 7 <= 2 ^ (bits t - 1)) by (apply pow2_le; unfold std_ity in Ht; lia).
    assert (2 ^ 7 <= 2 ^ bits t) by (apply pow2_le; unfold std_ity in Ht; lia).
    change (2 ^ 7) with 128 in *. destruct (sgn t); lia.
  - rewrite E. f_equal. eapply interval_unique; [eassumption|]. split; [cbn [length]; lia|].
    intros [|i] x X; cbn [nth_error] in X; [injection X as <-; lia | destruct i; discriminate].
Qed.

(** with step 1 make_array_from_range is values_in_range *)
Lemma ranges_agree : forall t b e, std_ity t -> inty t b -> inty t e -> b <= e -> e < maxv t ->
  e - b + 1 <= maxv t -> (0 <= b \/ sgn (usual t i32) = true) ->
  exists l n, values_in_range t t b e = Some l /\
    forall fuel, (n <= fuel)%nat -> make_array_from_range fuel t i32 b e 1 = Some (Ok l).
Proof.
  intros t b e Ht Hb He H M N S.
  destruct (values_in_range_same t b e) as [l [E I]]; auto.
  destruct (make_array_from_range_correct t i32 b e 1) as [l' [n [F [P1 P2]]]]; auto; try lia.
  - unfold std_ity; cbn [bits i32]; lia.
  - vm_compute; split; discriminate.
  - unfold inty in *. lia.
  - exists l, n. split; auto. replace l with l'; auto.
    apply (interval_unique b e); auto. split.
    + assert (L : Z.of_nat (length l') <= e - b + 1).
      { destruct (Nat.eq_dec (length l') 0); [lia|].
        destruct (nth_error l' (length l' - 1)) eqn:X; [|apply nth_error_None in X; lia].
        apply P1 in X. lia. }
      destruct (Z.eq_dec (Z.of_nat (length l')) (e - b + 1)); auto.
      exfalso. apply P2. lia.
    + intros i x X. apply P1 in X. lia.
Qed.
