(** Lemmas about the integer helpers. *)

Require Import ZArith Lia List Bool.
Require Import Verif.Outcome Verif.Machine Verif.BitsModel Verif.BitsSpec Verif.BitsProofs
  Verif.ArithModel Verif.ArithSpec.
Import ListNotations.
Open Scope Z_scope.
Open Scope res_scope.

(** * Types *)

Lemma promote_std : forall t, std_ity t -> std_ity (promote t).
Proof.
  intros t H. unfold promote. destruct (bits t <? 32); auto. right; right; left; reflexivity.
Qed.

Lemma promote_ge : forall t, std_ity t -> 32 <= bits (promote t) /\ bits t <= bits (promote t).
Proof.
  intros t H. unfold promote. destruct (Z.ltb_spec (bits t) 32); simpl; lia.
Qed.

Lemma promote_idem : forall t, promote (promote t) = promote t.
Proof.
  intros t. unfold promote. destruct (Z.ltb_spec (bits t) 32); [reflexivity|].
  destruct (Z.ltb_spec (bits t) 32); [lia|reflexivity].
Qed.

Lemma usual_std : forall a b, std_ity a -> std_ity b -> std_ity (usual a b).
Proof.
  intros a b Ha Hb. unfold usual. cbv zeta.
  destruct (bits (promote a) <? bits (promote b)); [apply promote_std; auto|].
  destruct (bits (promote b) <? bits (promote a)); [apply promote_std; auto|].
  destruct (sgn (promote a)); apply promote_std; auto.
Qed.

Lemma ity_eqb_eq : forall a b, ity_eqb a b = true <-> a = b.
Proof.
  intros [w s] [w' s']. unfold ity_eqb; cbn [bits sgn].
  rewrite andb_true_iff, Z.eqb_eq, eqb_true_iff. split; [intros [-> ->]; auto|].
  intros E; injection E; auto.
Qed.

Lemma common_std : forall a b, std_ity a -> std_ity b -> std_ity (common a b).
Proof.
  intros a b Ha Hb. unfold common. destruct (ity_eqb a b); auto. apply usual_std; auto.
Qed.

Lemma common_same : forall t, common t t = t.
Proof. intros t. unfold common. replace (ity_eqb t t) with true; auto. symmetry; apply ity_eqb_eq; auto. Qed.

Lemma inty_promote : forall t x, std_ity t -> inty t x -> inty (promote t) x.
Proof.
  intros t x Ht Hx. unfold promote. destruct (Z.ltb_spec (bits t) 32) as [L|L]; auto.
  unfold inty, minv, maxv in *. change (sgn i32) with true. change (bits i32 - 1) with 31. cbv iota.
  assert (2 ^ bits t <= 2 ^ 16) by (apply pow2_le; unfold std_ity in Ht; lia).
  assert (2 ^ (bits t - 1) <= 2 ^ 15) by (apply pow2_le; unfold std_ity in Ht; lia).
  assert (2 ^ 16 < 2 ^ 31) by reflexivity. assert (2 ^ 15 < 2 ^ 31) by reflexivity.
  destruct (sgn t); lia.
Qed.

Lemma usual_self : forall t, usual t t = promote t.
Proof.
  intros t. unfold usual. cbv zeta. rewrite Z.ltb_irrefl. destruct (sgn (promote t)); reflexivity.
Qed.

(** std types by cases *)
Ltac std_cases t Ht :=
  let w := fresh "w" in let s := fresh "s" in
  destruct t as [w s]; unfold std_ity in Ht; cbn [bits] in Ht;
  destruct Ht as [->|[->|[->| ->]]]; destruct s.

Lemma work_t_i64 : forall c, std_ity c -> work_t c = i64.
Proof. intros c Hc. std_cases c Hc; reflexivity. Qed.

(** * Division *)

Lemma division_quotrem : forall n d, d <> 0 -> division n d (Z.quot n d) (Z.rem n d).
Proof.
  intros n d Hd. split; [|split].
  - pose proof (Z.quot_rem' n d). lia.
  - apply Z.rem_bound_abs; auto.
  - apply Z.rem_sign_mul; auto.
Qed.

Lemma division_unique : forall n d q r q' r',
  division n d q r -> division n d q' r' -> q = q' /\ r = r'.
Proof.
  intros n d q r q' r' [E [B S]] [E' [B' S']].
  assert (Hd : d <> 0) by lia.
  assert (D : (q - q') * d = r' - r) by lia.
  assert (Hs : Z.abs (r' - r) < Z.abs d).
  { destruct (Z.lt_trichotomy n 0) as [N|[N|N]].
    - assert (r <= 0) by nia. assert (r' <= 0) by nia. lia.
    - subst n. assert (q * d = - r) by lia. assert (q' * d = - r') by lia.
      assert (q = 0) by (destruct (Z.eq_dec q 0); auto; exfalso;
        assert (Z.abs d <= Z.abs (q * d)) by (rewrite Z.abs_mul; nia); lia).
      assert (q' = 0) by (destruct (Z.eq_dec q' 0); auto; exfalso;
        assert (Z.abs d <= Z.abs (q' * d)) by (rewrite Z.abs_mul; nia); lia).
      subst. lia.
    - assert (0 <= r) by nia. assert (0 <= r') by nia. lia. }
  assert (q - q' = 0).
  { destruct (Z.eq_dec (q - q') 0) as [|NZ]; auto. exfalso.
    assert (Z.abs d <= Z.abs ((q - q') * d)) by (rewrite Z.abs_mul; nia). lia. }
  split; nia.
Qed.

Lemma quot_abs_le : forall n d, d <> 0 -> Z.abs (Z.quot n d) <= Z.abs n.
Proof.
  intros n d Hd. rewrite <- Z.quot_abs by auto.
  destruct (Z.eq_dec (Z.abs d) 1) as [E|E].
  - rewrite E, Z.quot_1_r. lia.
  - destruct (Z.eq_dec n 0) as [->|N]; [rewrite Z.quot_0_l; lia|].
    apply Z.lt_le_incl, Z.quot_lt; lia.
Qed.

Lemma rem_abs_le : forall n d, d <> 0 -> Z.abs (Z.rem n d) <= Z.abs n.
Proof. intros n d Hd. rewrite <- Z.rem_abs by auto. apply Z.rem_le; lia. Qed.

(** a quotient fits its operands' type unless it is MIN / -1 *)
Lemma quot_fits : forall t n d, 0 < bits t -> inty t n -> inty t d -> d <> 0 ->
  (sgn t = true -> n = minv t -> d <> -1) -> inty t (Z.quot n d).
Proof.
  intros t n d Hb Hn Hd Hz Hov.
  pose proof (quot_abs_le n d Hz) as A. pose proof (pow2_pos (bits t - 1) ltac:(lia)).
  unfold inty, minv, maxv in *. destruct (sgn t).
  - destruct (Z.eq_dec n (- 2 ^ (bits t - 1))) as [E|E]; [|lia].
    specialize (Hov eq_refl E).
    destruct (Z.eq_dec d 1) as [->|D1]; [rewrite Z.quot_1_r; lia|].
    assert (Z.abs (Z.quot n d) < Z.abs n).
    { rewrite <- Z.quot_abs by auto. apply Z.quot_lt; lia. }
    lia.
  - split; [apply Z.quot_pos; lia|]. lia.
Qed.

Lemma rem_fits : forall t n d, 0 < bits t -> inty t n -> d <> 0 -> inty t (Z.rem n d).
Proof.
  intros t n d Hb Hn Hz. pose proof (rem_abs_le n d Hz) as A.
  pose proof (Z.rem_sign_mul n d Hz) as S. pose proof (pow2_pos (bits t - 1) ltac:(lia)).
  unfold inty, minv, maxv in *. destruct (sgn t).
  - destruct (Z.eq_dec n (- 2 ^ (bits t - 1))) as [E|E]; [|lia].
    assert (Z.rem n d <= 0) by nia. lia.
  - destruct (Z.eq_dec n 0) as [->|N]; [rewrite Z.rem_0_l by auto; lia|].
    assert (0 <= Z.rem n d) by nia. lia.
Qed.

Lemma conv_nonzero : forall t u d, std_ity t -> std_ity u -> inty u d -> d <> 0 ->
  conv (common t u) d <> 0.
Proof.
  intros t u d Ht Hu Hd Hz E.
  assert (Hc := common_std t u Ht Hu). assert (Hb := std_bits_pos _ Hc).
  pose proof (conv_congr (common t u) d Hb) as C. rewrite E in C.
  rewrite Z.mod_0_l in C by (pose proof (pow2_pos (bits (common t u))); lia).
  symmetry in C. apply Z.mod_divide in C; [|pose proof (pow2_pos (bits (common t u))); lia].
  assert (W : bits u <= bits (common t u)).
  { unfold common. destruct (ity_eqb t u) eqn:Q.
    - apply ity_eqb_eq in Q. subst. lia.
    - unfold usual. cbv zeta. pose proof (promote_ge u Hu).
      destruct (Z.ltb_spec (bits (promote t)) (bits (promote u))); [lia|].
      destruct (Z.ltb_spec (bits (promote u)) (bits (promote t))); [lia|].
      destruct (sgn (promote t)); lia. }
  assert (2 ^ bits u <= 2 ^ bits (common t u)) by (apply pow2_le; pose proof (std_bits_pos u Hu); lia).
  pose proof (pow_split (bits u) (std_bits_pos u Hu)).
  assert (B : Z.abs d < 2 ^ bits u).
  { pose proof (pow2_pos (bits u - 1) ltac:(pose proof (std_bits_pos u Hu); lia)).
    unfold inty, minv, maxv in Hd. destruct (sgn u); lia. }
  apply Z.divide_abs_r in C. apply Z.divide_pos_le in C; lia.
Qed.

Lemma div_constant_value : forall dbg t u n d, std_ity t -> std_ity u -> inty u d -> d <> 0 ->
  let c := common t u in
  div_constant dbg t u n d =
    if intyb (promote c) (Z.quot (conv c n) (conv c d))
    then Ok (conv c (Z.quot (conv c n) (conv c d)), Z.rem (conv c n) (conv c d)) else UB.
Proof.
  intros dbg t u n d Ht Hu Hd Hz c. unfold div_constant, cassert.
  assert (Hc := common_std t u Ht Hu). assert (Hb := std_bits_pos _ Hc). fold c in Hc, Hb.
  assert (Nz := conv_nonzero t u d Ht Hu Hd Hz). fold c in Nz.
  destruct (Z.eqb_spec d 0); [contradiction|]. cbn [negb]. fold c. unfold quotrem.
  destruct (Z.eqb_spec (conv c d) 0); [contradiction|].
  destruct (intyb (promote c) (Z.quot (conv c n) (conv c d))); cbn [bind]; [|destruct dbg; reflexivity].
  rewrite (conv_id c (Z.rem (conv c n) (conv c d))); auto.
  - destruct dbg; reflexivity.
  - apply rem_fits; auto. apply conv_inty; auto.
Qed.

Lemma div_constant_correct : forall dbg t u n d, std_ity t -> std_ity u ->
  inty t n -> inty u d -> d <> 0 ->
  let c := common t u in
  (sgn c = true -> conv c n = minv c -> conv c d <> -1) ->
  exists q r, div_constant dbg t u n d = Ok (q, r) /\ division (conv c n) (conv c d) q r /\
    inty c q /\ inty c r.
Proof.
  intros dbg t u n d Ht Hu Hn Hd Hz c Hov.
  assert (Hc := common_std t u Ht Hu). assert (Hb := std_bits_pos _ Hc). fold c in Hc, Hb.
  assert (Nz := conv_nonzero t u d Ht Hu Hd Hz). fold c in Nz.
  assert (F : inty c (Z.quot (conv c n) (conv c d))).
  { apply quot_fits; auto; apply conv_inty; auto. }
  exists (Z.quot (conv c n) (conv c d)), (Z.rem (conv c n) (conv c d)).
  rewrite div_constant_value by auto. fold c.
  assert (I : intyb (promote c) (Z.quot (conv c n) (conv c d)) = true).
  { apply intyb_spec. apply inty_promote; auto. }
  rewrite I. rewrite conv_id by auto. split; auto.
  split; [apply division_quotrem; auto|]. split; auto. apply rem_fits; auto. apply conv_inty; auto.
Qed.

Lemma i64_pos : 0 < bits i64. Proof. reflexivity. Qed.

Lemma div_runtime_value : forall dbg t u n d, std_ity t -> std_ity u -> d <> 0 ->
  conv i64 d <> 0 ->
  let c := common t u in
  div_runtime dbg t u n d =
    if intyb i64 (Z.quot (conv i64 n) (conv i64 d))
    then Ok (conv c (Z.quot (conv i64 n) (conv i64 d)), conv c (Z.rem (conv i64 n) (conv i64 d)))
    else UB.
Proof.
  intros dbg t u n d Ht Hu Hz Hz' c. unfold div_runtime, cassert.
  destruct (Z.eqb_spec d 0); [contradiction|]. cbn [negb]. fold c.
  rewrite work_t_i64 by (apply common_std; auto). unfold quotrem.
  destruct (Z.eqb_spec (conv i64 d) 0); [contradiction|].
  destruct (intyb i64 (Z.quot (conv i64 n) (conv i64 d))); destruct dbg; reflexivity.
Qed.

Lemma div_runtime_agrees : forall dbg t u n d q r, std_ity t -> std_ity u ->
  inty t n -> inty u d -> d <> 0 ->
  let c := common t u in
  inty c n -> inty c d -> inty i64 n -> inty i64 d ->
  div_constant dbg t u n d = Ok (q, r) -> div_runtime dbg t u n d = Ok (q, r).
Proof.
  intros dbg t u n d q r Ht Hu Hn Hd Hz c Icn Icd I6n I6d.
  assert (Hc := common_std t u Ht Hu). assert (Hb := std_bits_pos _ Hc). fold c in Hc, Hb.
  rewrite div_constant_value by auto. fold c.
  rewrite (conv_id c n), (conv_id c d) by auto.
  destruct (intyb (promote c) (Z.quot n d)) eqn:I; [|discriminate]. intros E.
  rewrite div_runtime_value; auto; rewrite ?(conv_id i64 d); auto using i64_pos.
  rewrite (conv_id i64 n) by auto using i64_pos. fold c.
  assert (I6 : intyb i64 (Z.quot n d) = true).
  { apply intyb_spec. apply quot_fits; auto using i64_pos. intros _ En Ed.
    (* MIN/-1 at 64 bits: then c is 64-bit signed and the constant evaluation is undefined *)
    apply intyb_spec in I. subst d.
    assert (En' : n = - 2 ^ 63) by exact En. rewrite En' in *.
    change (Z.quot (- 2 ^ 63) (-1)) with (2 ^ 63) in I.
    assert (S : sgn c = true).
    { destruct (sgn c) eqn:S; auto. unfold inty, minv in Icd. rewrite S in Icd. lia. }
    assert (promote c = c).
    { unfold promote. destruct (Z.ltb_spec (bits c) 32) as [L|L]; auto. exfalso.
      unfold inty, minv in Icn. rewrite S in Icn.
      assert (2 ^ (bits c - 1) <= 2 ^ 31) by (apply pow2_le; lia).
      assert (2 ^ 31 < 2 ^ 63) by reflexivity. lia. }
    rewrite H in I. unfold inty, maxv in I. rewrite S in I.
    assert (2 ^ (bits c - 1) <= 2 ^ 63) by (apply pow2_le; unfold std_ity in Hc; lia). lia. }
  rewrite I6. rewrite (conv_id c (Z.rem n d)); auto. apply rem_fits; auto.
Qed.

Lemma div_as_agrees : forall dbg rt n d, std_ity rt ->
  conv rt d <> 0 ->
  (sgn rt = true -> conv rt n = minv rt -> conv rt d <> -1) ->
  (sgn rt = true \/ bits rt < 64 \/ (conv rt n < 2 ^ 63 /\ conv rt d < 2 ^ 63)) ->
  exists q r, div_as_constant dbg rt n d = Ok (q, r) /\ div_as_runtime dbg rt n d = Ok (q, r) /\
    division (conv rt n) (conv rt d) q r.
Proof.
  intros dbg rt n d Ht Hz Hov Hfit. assert (Hb := std_bits_pos _ Ht).
  assert (C : forall x, conv rt (conv rt x) = conv rt x).
  { intros x. apply conv_id; auto. apply conv_inty; auto. }
  destruct (div_constant_correct dbg rt rt (conv rt n) (conv rt d)) as [q [r [E [D _]]]]; auto.
  - apply conv_inty; auto.
  - apply conv_inty; auto.
  - rewrite common_same, !C. auto.
  - rewrite common_same, !C in D. exists q, r. split; [exact E|]. split; [|exact D].
    assert (I : forall x, (sgn rt = true \/ bits rt < 64 \/ conv rt x < 2 ^ 63) -> inty i64 (conv rt x)).
    { intros x Hx. pose proof (conv_inty rt x Hb) as I. unfold inty, minv, maxv in I |- *.
      change (sgn i64) with true. change (bits i64 - 1) with 63. cbv iota.
      assert (bits rt <= 64) by (unfold std_ity in Ht; lia).
      destruct (sgn rt).
      - assert (2 ^ (bits rt - 1) <= 2 ^ 63) by (apply pow2_le; lia). lia.
      - destruct Hx as [Hx|[Hx|Hx]]; [discriminate| |lia].
        assert (2 ^ bits rt <= 2 ^ 63) by (apply pow2_le; lia). lia. }
    unfold div_as_runtime. apply div_runtime_agrees; auto; rewrite ?common_same;
      try (apply conv_inty; auto); apply I; tauto.
Qed.

(** run time: always 64-bit signed division *)
Lemma div_runtime_i64 : forall dbg t u n d, std_ity t -> std_ity u -> d <> 0 ->
  conv i64 d <> 0 -> (conv i64 n = - 2 ^ 63 -> conv i64 d <> -1) ->
  exists q r, division (conv i64 n) (conv i64 d) q r /\
    div_runtime dbg t u n d = Ok (conv (common t u) q, conv (common t u) r).
Proof.
  intros dbg t u n d Ht Hu Hz Hz' Hov.
  exists (Z.quot (conv i64 n) (conv i64 d)), (Z.rem (conv i64 n) (conv i64 d)).
  split; [apply division_quotrem; auto|].
  rewrite div_runtime_value by auto.
  assert (I : intyb i64 (Z.quot (conv i64 n) (conv i64 d)) = true).
  { apply intyb_spec. apply quot_fits; auto using i64_pos, conv_inty. }
  rewrite I. reflexivity.
Qed.

(** * uint_from_nbits *)

Lemma uint_from_nbits_spec : forall n,
  (1 <= n <= 64 -> exists t, uint_from_nbits n = Some t /\ sgn t = false /\
     narrowest [8; 16; 32; 64] n (bits t)) /\
  (n <= 0 \/ 64 < n -> uint_from_nbits n = None).
Proof.
  intros n. unfold uint_from_nbits.
  destruct (Z.ltb_spec 0 n); destruct (Z.leb_spec n 8); cbn [andb];
  try (split; [intros _; exists u8; split; [reflexivity|]; split; [reflexivity|];
     split; [simpl; tauto|]; split; [simpl; lia|]; simpl; intros; lia | intros; lia]).
  - change (8 * 2) with 16. change (8 * 4) with 32. change (8 * 8) with 64.
    destruct (Z.ltb_spec 8 n); [|lia]. destruct (Z.leb_spec n 16); cbn [andb].
    + split; [intros _; exists u16; split; [reflexivity|]; split; [reflexivity|];
       split; [simpl; tauto|]; split; [simpl; lia|]; simpl; intros; lia | intros; lia].
    + destruct (Z.ltb_spec 16 n); [|lia]. destruct (Z.leb_spec n 32); cbn [andb].
      * split; [intros _; exists u32; split; [reflexivity|]; split; [reflexivity|];
         split; [simpl; tauto|]; split; [simpl; lia|]; simpl; intros; lia | intros; lia].
      * destruct (Z.ltb_spec 32 n); [|lia]. destruct (Z.leb_spec n 64); cbn [andb].
        -- split; [intros _; exists u64; split; [reflexivity|]; split; [reflexivity|];
            split; [simpl; tauto|]; split; [simpl; lia|]; simpl; intros; lia | intros; lia].
        -- split; [lia|reflexivity].
  - change (8 * 2) with 16. change (8 * 4) with 32. change (8 * 8) with 64.
    destruct (Z.ltb_spec 8 n); [lia|]. destruct (Z.ltb_spec 16 n); [lia|].
    destruct (Z.ltb_spec 32 n); [lia|]. cbn [andb]. split; [lia|reflexivity].
  - lia.
Qed.

Lemma uint_from_nbytes_spec : forall k,
  (1 <= k <= 8 <-> exists t, uint_from_nbytes k = Some t) /\
  (1 <= k <= 8 -> uint_from_nbytes k = uint_from_nbits (8 * k)).
Proof.
  intros k. unfold uint_from_nbytes, template_u8.
  assert (I : forall x, intyb u8 x = (0 <=? x) && (x <=? 255)) by reflexivity.
  assert (Small : 1 <= k <= 8 -> (if intyb u8 k then Some k else None) = Some k /\
     (if intyb u8 (k * 8) then Some (k * 8) else None) = Some (k * 8)).
  { intros Hk. rewrite !I.
    destruct (Z.leb_spec 0 k); [|lia]. destruct (Z.leb_spec k 255); [|lia].
    destruct (Z.leb_spec 0 (k * 8)); [|lia]. destruct (Z.leb_spec (k * 8) 255); [|lia]. auto. }
  split.
  - split.
    + intros Hk. destruct (Small Hk) as [-> ->].
      destruct (uint_from_nbits_spec (k * 8)) as [S _]. destruct S as [t [E _]]; [lia|].
      exists t; auto.
    + intros [t E].
      destruct (intyb u8 k); [|discriminate].
      destruct (intyb u8 (k * 8)); [|discriminate].
      destruct (uint_from_nbits_spec (k * 8)) as [_ S].
      destruct (Z_le_gt_dec 1 k); [destruct (Z_le_gt_dec k 8); [lia|]|];
        rewrite S in E by lia; discriminate.
  - intros Hk. destruct (Small Hk) as [-> ->]. f_equal. lia.
Qed.

Lemma fast_uint_spec : forall f8 f16 f32 f64 n,
  8 <= bits f8 -> 16 <= bits f16 -> 32 <= bits f32 -> 64 <= bits f64 ->
  (1 <= n <= 64 <-> exists t, fast_uint_from_nbits f8 f16 f32 f64 n = Some t) /\
  (forall t, fast_uint_from_nbits f8 f16 f32 f64 n = Some t -> n <= bits t).
Proof.
  intros f8 f16 f32 f64 n H8 H16 H32 H64. unfold fast_uint_from_nbits.
  change (8 * 2) with 16. change (8 * 4) with 32. change (8 * 8) with 64.
  destruct (Z.ltb_spec 0 n); destruct (Z.leb_spec n 8); cbn [andb];
    destruct (Z.ltb_spec 8 n); destruct (Z.leb_spec n 16); cbn [andb]; try lia;
    destruct (Z.ltb_spec 16 n); destruct (Z.leb_spec n 32); cbn [andb]; try lia;
    destruct (Z.ltb_spec 32 n); destruct (Z.leb_spec n 64); cbn [andb]; try lia;
    (split; [split; [intros; try lia; eexists; reflexivity
                    |intros [t E]; try discriminate; lia]
            |intros t E; try discriminate; injection E; intros; subst; lia]).
Qed.

(** * sum_size *)

Definition true_bits (t : object_type) : Z := match t with OBool => 1 | OOther s => 8 * s end.

Lemma bits_fold_value : forall ts t,
  (forall x, In x (t :: ts) -> 0 <= true_bits x) ->
  fold_right Z.add 0 (map true_bits (t :: ts)) < 2 ^ 64 ->
  0 <= fold_right Z.add 0 (map true_bits (t :: ts)) /\
  bits_fold t ts = fold_right Z.add 0 (map true_bits (t :: ts)).
Proof.
  assert (NB : forall x, 0 <= true_bits x < 2 ^ 64 -> num_bits x = true_bits x).
  { intros [|s] H; [reflexivity|]. unfold num_bits, true_bits in *. apply wrap_id; auto. }
  induction ts as [|t' ts IH]; intros t Hp Hs.
  - cbn [map fold_right bits_fold] in *. assert (0 <= true_bits t) by (apply Hp; left; auto).
    rewrite NB by lia. lia.
  - cbn [bits_fold]. change (map true_bits (t :: t' :: ts)) with (true_bits t :: map true_bits (t' :: ts)) in *.
    cbn [fold_right] in *.
    change (true_bits t' + fold_right Z.add 0 (map true_bits ts))
      with (fold_right Z.add 0 (map true_bits (t' :: ts))) in *.
    assert (H0 : 0 <= true_bits t) by (apply Hp; left; auto).
    destruct (IH t') as [A B].
    + intros x Hx. apply Hp. right; auto.
    + cbn [map fold_right] in *. lia.
    + rewrite B. cbn [map fold_right] in *. rewrite NB by lia. rewrite wrap_id by lia. lia.
Qed.

Lemma sum_size_correct : forall ts, ts <> [] ->
  (forall x, In x ts -> 0 <= true_bits x) ->
  fold_right Z.add 0 (map true_bits ts) < 2 ^ 64 ->
  exists k, sum_size ts = Some k /\ bytes_for (fold_right Z.add 0 (map true_bits ts)) k.
Proof.
  intros [|t ts] Hne Hp Hs; [congruence|].
  destruct (bits_fold_value ts t Hp Hs) as [A B]. cbn [sum_size]. rewrite B.
  set (b := fold_right Z.add 0 (map true_bits (t :: ts))) in *.
  eexists. split; [reflexivity|].
  pose proof (Z.div_mod b 8 ltac:(lia)). pose proof (Z.mod_pos_bound b 8 ltac:(lia)).
  assert (P : 2 ^ 64 = 8 * 2 ^ 61) by reflexivity.
  rewrite wrap_id.
  - destruct (Z.eqb_spec (b mod 8) 0); split; intros; lia.
  - destruct (Z.eqb_spec (b mod 8) 0); assert (1 < 2 ^ 61) by reflexivity; lia.
Qed.

(** * enum_properties *)

Lemma enum_correct : forall count, 1 <= count < 2 ^ 64 ->
  exists n t, enum_num_bits count = Ok n /\ bit_length count n /\
    enum_serialize_t count = Some t /\ forall v, 0 <= v <= count -> inty t v.
Proof.
  intros count Hc. unfold enum_serialize_t, enum_num_bits. rewrite bits_count_value by lia.
  destruct (Z.eqb_spec count 0); [lia|].
  assert (BL := bit_length_log2 count ltac:(lia)). destruct (Z.eqb_spec count 0); [lia|].
  assert (L : 0 <= Z.log2 count < 64).
  { split; [apply Z.log2_nonneg|apply Z.log2_lt_pow2; lia]. }
  destruct (uint_from_nbits_spec (Z.log2 count + 1)) as [S _].
  destruct S as [t [E [Hs [Hin [Hle _]]]]]; [lia|].
  exists (Z.log2 count + 1), t. split; auto. split; auto. split; auto.
  intros v Hv. unfold inty, minv, maxv. rewrite Hs.
  destruct BL as [_ [BL _]]. assert (2 ^ (Z.log2 count + 1) <= 2 ^ bits t) by (apply pow2_le; lia). lia.
Qed.

(** * values_in_range *)

Lemma all_ok_map : forall A B (f : A -> option B) (g : A -> B) l,
  (forall x, In x l -> f x = Some (g x)) -> all_ok (map f l) = Some (map g l).
Proof.
  intros A B f g l; induction l as [|a l IH]; intros H; [reflexivity|].
  cbn [map all_ok]. rewrite H by (left; auto). rewrite IH by (intros; apply H; right; auto). reflexivity.
Qed.

Lemma interval_map : forall first n, 0 <= n ->
  interval first (first + n - 1) (map (fun i => i + first) (map Z.of_nat (seq 0 (Z.to_nat n)))).
Proof.
  intros first n Hn. split.
  - rewrite !map_length, seq_length. lia.
  - intros i x H. rewrite !nth_error_map in H.
    destruct (nth_error (seq 0 (Z.to_nat n)) i) as [j|] eqn:E; [|discriminate].
    cbn [option_map] in H. injection H; intros <-.
    assert (Hi : (i < length (seq 0 (Z.to_nat n)))%nat) by (apply nth_error_Some; congruence).
    rewrite seq_length in Hi.
    rewrite nth_error_nth' with (d := O) in E by (rewrite seq_length; auto).
    rewrite seq_nth in E by auto. injection E; intros; subst. lia.
Qed.

Lemma usual_ge : forall a b, std_ity a -> std_ity b ->
  bits a <= bits (usual a b) /\ bits b <= bits (usual a b) /\ 32 <= bits (usual a b).
Proof.
  intros a b Ha Hb. unfold usual; cbv zeta.
  pose proof (promote_ge a Ha). pose proof (promote_ge b Hb).
  destruct (Z.ltb_spec (bits (promote a)) (bits (promote b))); [lia|].
  destruct (Z.ltb_spec (bits (promote b)) (bits (promote a))); [lia|].
  destruct (sgn (promote a)); lia.
Qed.

Lemma usual_i32 : forall t, std_ity t -> usual t i32 = promote t.
Proof. intros t Ht. std_cases t Ht; reflexivity. Qed.

Lemma usual_promote_l : forall a b, usual (promote a) b = usual a b.
Proof. intros a b. unfold usual. cbv zeta. rewrite promote_idem. reflexivity. Qed.

Lemma shifted_ok : forall t is first, std_ity t -> inty t first ->
  (forall i, In i is -> inty t i /\ inty t (i + first)) ->
  shifted_sequence t is first = Some (map (fun i => i + first) is).
Proof.
  intros t is first Ht Hf H. unfold shifted_sequence. apply all_ok_map.
  intros i Hi. destruct (H i Hi) as [I1 I2]. unfold add. rewrite usual_self.
  assert (Hp := promote_std t Ht). assert (Hpb := std_bits_pos _ Hp).
  rewrite !(conv_id (promote t)) by (auto; apply inty_promote; auto).
  assert (J := inty_promote t _ Ht I2). unfold arith, const.
  destruct (sgn (promote t)) eqn:S.
  - replace (intyb (promote t) (i + first)) with true by (symmetry; apply intyb_spec; auto).
    replace (intyb t (i + first)) with true by (symmetry; apply intyb_spec; auto). reflexivity.
  - rewrite wrap_id.
    + replace (intyb t (i + first)) with true by (symmetry; apply intyb_spec; auto). reflexivity.
    + unfold inty, minv, maxv in J. rewrite S in J. lia.
Qed.

(** the generic end of values_in_range: a correct count gives the interval *)
Lemma range_tail : forall t first last, std_ity t -> inty t first -> inty t last ->
  first <= last ->
  last - first + 1 <= maxv t ->
  exists l, (match make_integer_sequence (last - first + 1) with
             | None => None
             | Some is => shifted_sequence t is first
             end) = Some l /\ interval first last l.
Proof.
  intros t first last Ht Hf Hl Hle Hn. unfold make_integer_sequence.
  destruct (Z.ltb_spec (last - first + 1) 0); [lia|].
  exists (map (fun i => i + first) (map Z.of_nat (seq 0 (Z.to_nat (last - first + 1))))).
  split.
  - apply shifted_ok; auto. intros i Hi. apply in_map_iff in Hi. destruct Hi as [j [<- Hj]].
    apply in_seq in Hj. unfold inty in *.
    assert (minv t <= 0) by (unfold minv; destruct (sgn t); [pose proof (pow2_pos (bits t - 1) ltac:(pose proof (std_bits_pos t Ht); lia))|]; lia).
    lia.
  - replace last with (first + (last - first + 1) - 1) at 1 by lia. apply interval_map. lia.
Qed.

(** same type on both sides *)
Lemma values_in_range_same : forall t first last, std_ity t -> inty t first -> inty t last ->
  first <= last -> last - first + 1 <= maxv t ->
  (sgn t = true -> 32 <= bits t -> last < maxv t) ->
  exists l, values_in_range t t first last = Some l /\ interval first last l.
Proof.
  intros t first last Ht Hf Hl Hle Hn Hov. unfold values_in_range, cmp_le.
  assert (Hp := promote_std t Ht). assert (Hpb := std_bits_pos _ Hp). assert (Hb := std_bits_pos t Ht).
  assert (Jf := inty_promote t _ Ht Hf). assert (Jl := inty_promote t _ Ht Hl).
  rewrite usual_self, common_same, usual_i32 by auto.
  rewrite !(conv_id (promote t)) by auto.
  destruct (Z.leb_spec first last); [|lia].
  assert (In1 : inty t (last - first + 1)).
  { unfold inty, minv in *. destruct (sgn t); [pose proof (pow2_pos (bits t - 1) ltac:(lia))|]; lia. }
  assert (E : (l1 <- add t i32 last 1;; sub (promote t) t l1 first) = Ok (last - first + 1)).
  { unfold add, sub. rewrite usual_i32 by auto. rewrite usual_promote_l, usual_self.
    rewrite (conv_id (promote t) last), (conv_id (promote t) first) by auto.
    assert (J1 : inty (promote t) 1).
    { pose proof (promote_ge t Ht) as [P32 _].
      assert (2 ^ 31 <= 2 ^ (bits (promote t) - 1)) by (apply pow2_le; lia).
      assert (1 < 2 ^ 31) by reflexivity. assert (H3 := pow_split (bits (promote t)) Hpb).
      unfold inty, minv, maxv. destruct (sgn (promote t)); lia. }
    rewrite (conv_id (promote t) 1) by auto.
    assert (Jn := inty_promote t _ Ht In1).
    unfold arith. destruct (sgn (promote t)) eqn:S.
    - assert (K : inty (promote t) (last + 1)).
      { unfold promote in *. destruct (Z.ltb_spec (bits t) 32) as [L|L].
        - assert (2 ^ bits t <= 2 ^ 16) by (apply pow2_le; unfold std_ity in Ht; lia).
          assert (2 ^ (bits t - 1) <= 2 ^ 15) by (apply pow2_le; unfold std_ity in Ht; lia).
          assert (2 ^ 16 + 1 < 2 ^ 31) by reflexivity. assert (2 ^ 15 < 2 ^ 31) by reflexivity.
          unfold inty, minv, maxv in Hl |- *. change (sgn i32) with true. change (bits i32 - 1) with 31. cbv iota.
          destruct (sgn t); lia.
        - specialize (Hov S L). unfold inty in *. lia. }
      replace (intyb (promote t) (last + 1)) with true by (symmetry; apply intyb_spec; auto).
      cbn [bind]. rewrite (conv_id (promote t) (last + 1)) by auto.
      replace (last + 1 - first) with (last - first + 1) by lia.
      replace (intyb (promote t) (last - first + 1)) with true by (symmetry; apply intyb_spec; auto).
      reflexivity.
    - cbn [bind]. f_equal. unfold conv. rewrite S. unfold wrap.
      rewrite Z.mod_mod by (pose proof (pow2_pos (bits (promote t))); lia).
      rewrite Zminus_mod_idemp_l. replace (last + 1 - first) with (last - first + 1) by lia.
      apply Z.mod_small. unfold inty, minv, maxv in Jn. rewrite S in Jn. lia. }
  rewrite E. cbn [const]. rewrite (conv_id t (last - first + 1)) by auto.
  rewrite (conv_id t first) by auto. apply range_tail; auto.
Qed.

(** different types: no conversion may change a bound, and last+1 must not overflow *)
Lemma values_in_range_mixed : forall tf tl first last, std_ity tf -> std_ity tl ->
  inty tf first -> inty tl last ->
  let c := common tf tl in
  inty c first -> inty c last -> first <= last -> last - first + 1 <= maxv c ->
  last < maxv (promote tl) ->
  exists l, values_in_range tf tl first last = Some l /\ interval first last l.
Proof.
  intros tf tl first last Hf Hl If Il c Cf Cl Hle Hn Hov.
  destruct (ity_eqb tf tl) eqn:Q.
  { apply ity_eqb_eq in Q. subst tl. unfold c in *. rewrite common_same in *.
    apply values_in_range_same; auto. intros S B. unfold promote in Hov.
    destruct (Z.ltb_spec (bits tf) 32); [lia|auto]. }
  assert (Ec : c = usual tf tl) by (unfold c, common; rewrite Q; reflexivity).
  unfold values_in_range, cmp_le. fold c.
  assert (Hc : std_ity c) by (apply common_std; auto). assert (Hb := std_bits_pos _ Hc).
  rewrite <- Ec. rewrite !(conv_id c) by auto.
  destruct (Z.leb_spec first last); [|lia].
  assert (Esym : usual (usual tl i32) tf = c \/ usual (usual tl i32) tf = c) by
    (left; rewrite usual_i32, usual_promote_l by auto; rewrite Ec;
     clear - Hf Hl; std_cases tf Hf; std_cases tl Hl; reflexivity).
  assert (E2 : usual (usual tl i32) tf = c) by tauto.
  assert (In1 : inty c (last - first + 1)).
  { unfold inty, minv in *. destruct (sgn c); [pose proof (pow2_pos (bits c - 1) ltac:(lia))|]; lia. }
  assert (E : (l1 <- add tl i32 last 1;; sub (usual tl i32) tf l1 first) = Ok (last - first + 1)).
  { unfold add, sub. rewrite E2. rewrite usual_i32 by auto.
    assert (Hp := promote_std tl Hl). assert (Hpb := std_bits_pos _ Hp).
    assert (Jl := inty_promote tl _ Hl Il).
    assert (J1 : inty (promote tl) 1).
    { pose proof (promote_ge tl Hl) as [P32 _].
      assert (2 ^ 31 <= 2 ^ (bits (promote tl) - 1)) by (apply pow2_le; lia).
      assert (1 < 2 ^ 31) by reflexivity. assert (H3 := pow_split (bits (promote tl)) Hpb).
      unfold inty, minv, maxv. destruct (sgn (promote tl)); lia. }
    rewrite !(conv_id (promote tl)) by auto.
    assert (K : inty (promote tl) (last + 1)) by (unfold inty in *; lia).
    assert (A1 : arith (promote tl) (last + 1) = Ok (last + 1)).
    { unfold arith. replace (intyb (promote tl) (last + 1)) with true by (symmetry; apply intyb_spec; auto).
      destruct (sgn (promote tl)) eqn:S; auto. f_equal. apply wrap_id.
      unfold inty, minv, maxv in K. rewrite S in K. lia. }
    rewrite A1. cbn [bind]. rewrite (conv_id c first) by auto.
    unfold arith. destruct (sgn c) eqn:S.
    - (* the wider signed type represents last + 1 *)
      assert (K2 : inty c (last + 1)).
      { unfold inty in Cl |- *. split; [lia|].
        assert (M : maxv (promote tl) <= maxv c).
        { rewrite Ec in S |- *. clear - Hf Hl S.
          std_cases tf Hf; std_cases tl Hl; try discriminate S; vm_compute; discriminate. }
        lia. }
      rewrite (conv_id c (last + 1)) by auto.
      replace (last + 1 - first) with (last - first + 1) by lia.
      replace (intyb c (last - first + 1)) with true by (symmetry; apply intyb_spec; auto). reflexivity.
    - f_equal. unfold conv. rewrite S. unfold wrap. rewrite Zminus_mod_idemp_l.
      replace (last + 1 - first) with (last - first + 1) by lia.
      apply Z.mod_small. unfold inty, minv, maxv in In1. rewrite S in In1. lia. }
  rewrite E. cbn [const]. rewrite (conv_id c (last - first + 1)) by auto.
  apply range_tail; auto.
Qed.

(** the full range of an unsigned type gives the empty list *)
Lemma values_in_range_full : forall t, std_ity t -> sgn t = false ->
  values_in_range t t 0 (maxv t) = Some [].
Proof. intros t Ht Hs. std_cases t Ht; try discriminate Hs; vm_compute; reflexivity. Qed.

(** * make_array_from_range *)

Lemma add_ok : forall t ts b st, std_ity t -> std_ity ts ->
  inty (usual t ts) b -> inty (usual t ts) st -> inty (usual t ts) (b + st) ->
  add t ts b st = Ok (b + st).
Proof.
  intros t ts b st Ht Hts Hb Hst Hs. unfold add.
  assert (P := std_bits_pos _ (usual_std _ _ Ht Hts)).
  rewrite !conv_id by auto. unfold arith. destruct (sgn (usual t ts)) eqn:S.
  - replace (intyb (usual t ts) (b + st)) with true by (symmetry; apply intyb_spec; auto). reflexivity.
  - f_equal. apply wrap_id. unfold inty, minv, maxv in Hs. rewrite S in Hs. lia.
Qed.

(** values of t between 0-ish bounds live in the usual type *)
Lemma usual_nonneg : forall t ts x, std_ity t -> std_ity ts -> inty t x ->
  (0 <= x \/ sgn (usual t ts) = true) -> inty (usual t ts) x.
Proof.
  intros t ts x Ht Hts Hx Hn.
  assert (minv (usual t ts) <= minv t \/ sgn (usual t ts) = false).
  { clear - Ht Hts. std_cases t Ht; std_cases ts Hts;
      first [right; reflexivity | left; vm_compute; discriminate]. }
  assert (maxv t <= maxv (usual t ts)).
  { clear - Ht Hts. std_cases t Ht; std_cases ts Hts; vm_compute; discriminate. }
  unfold inty in *. destruct H as [H|H]; [lia|].
  destruct Hn as [Hn|Hn]; [|congruence]. unfold minv. rewrite H. lia.
Qed.

Lemma usual_sym : forall a b, std_ity a -> std_ity b -> usual a b = usual b a.
Proof. intros a b Ha Hb. std_cases a Ha; std_cases b Hb; reflexivity. Qed.

Lemma step_count_value : forall k fuel t ts b e st, std_ity t -> std_ity ts ->
  inty t b -> inty t e -> inty ts st -> 0 < st -> inty t (e + st) ->
  (0 <= b \/ sgn (usual t ts) = true) ->
  e < b + Z.of_nat k * st -> (k = O \/ b + (Z.of_nat k - 1) * st <= e) ->
  (k < fuel)%nat ->
  step_count fuel t ts b e st = Ok k.
Proof.
  induction k as [|k IH]; intros fuel t ts b e st Ht Hts Hb He Hst Hpos Hes Hsg Hk1 Hk2 Hf.
  - destruct fuel as [|fuel]; [lia|]. cbn [step_count].
    destruct (Z.leb_spec b e); [lia|reflexivity].
  - destruct fuel as [|fuel]; [lia|]. cbn [step_count].
    destruct Hk2 as [Hk2|Hk2]; [discriminate|].
    assert (b <= e) by nia. destruct (Z.leb_spec b e); [|lia].
    assert (Ibs : inty t (b + st)) by (unfold inty in *; lia).
    rewrite add_ok; auto.
    + cbn [bind]. rewrite conv_id by (auto; apply std_bits_pos; auto).
      assert (Hsg' : 0 <= b + st \/ sgn (usual t ts) = true)
        by (destruct Hsg; [left; lia|right; auto]).
      assert (Hk' : k = O \/ b + st + (Z.of_nat k - 1) * st <= e)
        by (destruct k as [|k]; [left; reflexivity|right; lia]).
      rewrite (IH fuel t ts (b + st) e st); auto; lia.
    + apply usual_nonneg; auto.
    + rewrite usual_sym by auto. apply usual_nonneg; auto. left; lia.
    + apply usual_nonneg; auto. destruct Hsg; [left; lia|right; auto].
Qed.

Lemma fill_range_value : forall k t ts b e st, std_ity t -> std_ity ts ->
  inty t b -> inty t e -> inty ts st -> 0 < st -> inty t (e + st) ->
  (0 <= b \/ sgn (usual t ts) = true) ->
  (k = O \/ b + (Z.of_nat k - 1) * st <= e) ->
  fill_range k t ts b st = Ok (map (fun i => b + Z.of_nat i * st) (seq 0 k)).
Proof.
  induction k as [|k IH]; intros t ts b e st Ht Hts Hb He Hst Hpos Hes Hsg Hk; [reflexivity|].
  cbn [fill_range]. destruct Hk as [Hk|Hk]; [discriminate|].
  assert (b <= e) by nia.
  assert (Ibs : inty t (b + st)) by (unfold inty in *; lia).
  rewrite add_ok; auto.
  - cbn [bind]. rewrite conv_id by (auto; apply std_bits_pos; auto).
    rewrite (IH t ts (b + st) e st); auto.
    + cbn [bind seq map]. f_equal. f_equal; [lia|]. rewrite <- seq_shift, map_map.
      apply map_ext. intros i. lia.
    + destruct Hsg; [left; lia|right; auto].
    + destruct k as [|k]; [left; reflexivity|right; lia].
  - apply usual_nonneg; auto.
  - rewrite usual_sym by auto. apply usual_nonneg; auto. left; lia.
  - apply usual_nonneg; auto. destruct Hsg; [left; lia|right; auto].
Qed.

Lemma make_array_from_range_correct : forall t ts b e st, std_ity t -> std_ity ts ->
  inty t b -> inty t e -> inty ts st -> 0 < st -> b <= e -> inty t (e + st) ->
  (0 <= b \/ sgn (usual t ts) = true) ->
  exists l n, (forall fuel, (n <= fuel)%nat ->
      make_array_from_range fuel t ts b e st = Some (Ok l)) /\
    progression b st b e l.
Proof.
  intros t ts b e st Ht Hts Hb He Hst Hpos Hbe Hes Hsg.
  set (k := Z.to_nat ((e - b) / st + 1)).
  assert (Q : 0 <= (e - b) / st) by (apply Z.div_pos; lia).
  assert (Ek : Z.of_nat k = (e - b) / st + 1) by (unfold k; lia).
  pose proof (Z.div_mod (e - b) st ltac:(lia)) as DM.
  pose proof (Z.mod_pos_bound (e - b) st ltac:(lia)) as MB.
  assert (K1 : e < b + Z.of_nat k * st) by nia.
  assert (K2 : b + (Z.of_nat k - 1) * st <= e) by nia.
  exists (map (fun i => b + Z.of_nat i * st) (seq 0 k)), (S k).
  split.
  - intros fuel Hf. unfold make_array_from_range, is_valid_range.
    rewrite Z.min_l, Z.max_r by lia.
    assert (C1 : inty (usual t ts) b) by (apply usual_nonneg; auto).
    assert (C2 : inty (usual t ts) st)
      by (rewrite usual_sym by auto; apply usual_nonneg; auto; left; lia).
    assert (C3 : inty (usual t ts) (b + st)).
    { apply usual_nonneg; auto; [unfold inty in *; lia|]. destruct Hsg; [left; lia|right; auto]. }
    assert (V : (if b <? e then match const (add t ts b st) with
          | Some s => Some (cmp_lt t (usual t ts) b s || (b =? e)) | None => None end
        else Some (b =? e)) = Some true).
    { destruct (Z.ltb_spec b e).
      - rewrite add_ok by auto. cbn [const]. unfold cmp_lt.
        assert (U : usual t (usual t ts) = usual t ts)
          by (clear - Ht Hts; std_cases t Ht; std_cases ts Hts; reflexivity).
        assert (P := std_bits_pos _ (usual_std _ _ Ht Hts)).
        rewrite U. rewrite !conv_id by auto. destruct (Z.ltb_spec b (b + st)); [reflexivity|lia].
      - f_equal. apply Z.eqb_eq. lia. }
    rewrite V. rewrite (step_count_value k) by (auto; lia). cbn [bind].
    rewrite (fill_range_value k t ts b e st) by auto. reflexivity.
  - split.
    + intros i x H. rewrite nth_error_map in H.
      destruct (nth_error (seq 0 k) i) as [j|] eqn:E; [|discriminate].
      assert (Hi : (i < k)%nat)
        by (rewrite <- (seq_length k 0); apply nth_error_Some; congruence).
      rewrite nth_error_nth' with (d := O) in E by (rewrite seq_length; auto).
      rewrite seq_nth in E by auto. injection E; intros; subst j.
      cbn [option_map] in H. injection H; intros <-. cbn [Nat.add]. split; [reflexivity|].
      assert (Z.of_nat i <= Z.of_nat k - 1) by lia. nia.
    + rewrite map_length, seq_length. lia.
Qed.

(** a loop up to the greatest value of its type never stops *)
Lemma step_count_hangs : forall t, std_ity t -> sgn t = false ->
  forall st, 0 < st < 2 ^ 30 -> forall fuel b, inty t b ->
  step_count fuel t i32 b (maxv t) st = Hang.
Proof.
  intros t Ht Hs st Hst. induction fuel as [|fuel IH]; intros b Hb; [reflexivity|].
  cbn [step_count]. assert (Hle : b <= maxv t) by (unfold inty in Hb; lia).
  destruct (Z.leb_spec b (maxv t)); [|lia].
  assert (A : exists s, add t i32 b st = Ok s).
  { unfold add. rewrite usual_i32 by auto. unfold arith.
    destruct (sgn (promote t)) eqn:S; [|eexists; reflexivity].
    unfold promote in *. destruct (Z.ltb_spec (bits t) 32) as [L|L]; [|congruence].
    assert (2 ^ bits t <= 2 ^ 16) by (apply pow2_le; unfold std_ity in Ht; lia).
    assert (P : 2 ^ 16 + 2 ^ 30 < 2 ^ 31) by reflexivity.
    assert (P16 : 0 < 2 ^ 16) by reflexivity.
    unfold inty, minv, maxv in Hb; rewrite Hs in Hb.
    assert (I : forall x, 0 <= x < 2 ^ 31 -> inty i32 x).
    { intros x Hx. unfold inty, minv, maxv. change (sgn i32) with true. change (bits i32 - 1) with 31. cbv iota. lia. }
    rewrite !(conv_id i32) by (first [reflexivity | apply I; lia]).
    replace (intyb i32 (b + st)) with true by (symmetry; apply intyb_spec; apply I; lia).
    eexists; reflexivity. }
  destruct A as [s ->]. cbn [bind]. rewrite IH; [reflexivity|].
  apply conv_inty. apply std_bits_pos; auto.
Qed.

Lemma make_array_hangs : forall t st b, std_ity t -> sgn t = false -> 0 < st < 2 ^ 30 ->
  inty t b -> b = maxv t \/ is_valid_range t i32 b (maxv t) st = Some true ->
  forall fuel, make_array_from_range fuel t i32 b (maxv t) st = Some Hang.
Proof.
  intros t st b Ht Hs Hst Hb Hv fuel. unfold make_array_from_range.
  assert (b <= maxv t) by (unfold inty in Hb; lia).
  rewrite Z.min_l, Z.max_r by lia.
  assert (V : is_valid_range t i32 b (maxv t) st = Some true).
  { destruct Hv as [->|V]; auto. unfold is_valid_range. rewrite Z.ltb_irrefl, Z.eqb_refl. reflexivity. }
  rewrite V. rewrite step_count_hangs by auto. reflexivity.
Qed.

(** whatever the bounds, a program that compiles gets the interval, except for
    the complete range of the type, for which it gets the empty list *)
Lemma values_in_range_sound : forall t first last l, std_ity t -> inty t first -> inty t last ->
  first <= last -> values_in_range t t first last = Some l ->
  interval first last l \/ (l = [] /\ last - first + 1 = 2 ^ bits t).
Proof.
  intros t first last l Ht Hf Hl Hle.
  unfold values_in_range, cmp_le.
  assert (Hp := promote_std t Ht). assert (Hpb := std_bits_pos _ Hp). assert (Hb := std_bits_pos t Ht).
  assert (Jf := inty_promote t _ Ht Hf). assert (Jl := inty_promote t _ Ht Hl).
  rewrite usual_self, common_same, usual_i32 by auto.
  rewrite !(conv_id (promote t)) by auto.
  destruct (Z.leb_spec first last); [|lia].
  destruct (const (l1 <- add t i32 last 1;; sub (promote t) t l1 first)) as [n|] eqn:E; [|discriminate].
  assert (Cn : conv t n = conv t (last - first + 1)).
  { unfold add, sub in E. rewrite usual_i32 in E by auto. rewrite usual_promote_l, usual_self in E.
    assert (J1 : inty (promote t) 1).
    { pose proof (promote_ge t Ht) as [P32 _].
      assert (2 ^ 31 <= 2 ^ (bits (promote t) - 1)) by (apply pow2_le; lia).
      assert (1 < 2 ^ 31) by reflexivity. assert (H3 := pow_split (bits (promote t)) Hpb).
      unfold inty, minv, maxv. destruct (sgn (promote t)); lia. }
    rewrite (conv_id (promote t) last), (conv_id (promote t) first), (conv_id (promote t) 1) in E by auto.
    unfold arith in E. destruct (sgn (promote t)) eqn:S.
    - destruct (intyb (promote t) (last + 1)) eqn:I1; cbn [bind const] in E; [|discriminate].
      apply intyb_spec in I1. rewrite (conv_id (promote t) (last + 1)) in E by auto.
      destruct (intyb (promote t) (last + 1 - first)) eqn:I2; cbn [const] in E; [|discriminate].
      injection E; intros <-. f_equal. lia.
    - cbn [bind const] in E. injection E; intros <-. apply conv_ext.
      assert (promote t = t).
      { unfold promote in S |- *. destruct (bits t <? 32); [discriminate S|reflexivity]. }
      rewrite H0 in S |- *. unfold conv. rewrite S. unfold wrap.
      rewrite Z.mod_mod by (pose proof (pow2_pos (bits t)); lia).
      rewrite Z.mod_mod by (pose proof (pow2_pos (bits t)); lia).
      rewrite Zminus_mod_idemp_l. f_equal. lia. }
  rewrite Cn. rewrite (conv_id t first) by auto.
  pose proof (pow_split (bits t) Hb) as P2. pose proof (pow2_pos (bits t - 1) ltac:(lia)) as PP.
  destruct (Z_le_gt_dec (last - first + 1) (maxv t)) as [L|L].
  - rewrite conv_id; auto.
    + intros Q. destruct (range_tail t first last Ht Hf Hl Hle L) as [l' [E' I']].
      rewrite Q in E'. injection E'; intros <-. left; auto.
    + unfold inty, minv. destruct (sgn t); lia.
  - intros Q. right. unfold make_integer_sequence in Q.
    assert (M : conv t (last - first + 1) = last - first + 1 - 2 ^ bits t /\ last - first + 1 <= 2 ^ bits t).
    { unfold inty, minv, maxv in *. unfold conv, swrap, wrap. destruct (sgn t).
      - destruct (Z.eq_dec (last - first + 1) (2 ^ bits t)) as [W|W].
        + rewrite W, Z.mod_same by lia. destruct (Z.ltb_spec 0 (2 ^ (bits t - 1))); lia.
        + rewrite Z.mod_small by lia. destruct (Z.ltb_spec (last - first + 1) (2 ^ (bits t - 1))); lia.
      - assert (W : last - first + 1 = 2 ^ bits t) by lia. rewrite W, Z.mod_same by lia. lia. }
    destruct M as [M1 M2]. rewrite M1 in Q.
    destruct (Z.ltb_spec (last - first + 1 - 2 ^ bits t) 0); [discriminate|].
    assert (W : last - first + 1 = 2 ^ bits t) by lia.
    replace (last - first + 1 - 2 ^ bits t) with 0 in Q by lia.
    cbn in Q. injection Q; intros <-. auto.
Qed.

(** Begin > End: the values run upwards from Begin, away from End *)
Lemma make_array_descending : forall t ts b e st, std_ity t -> std_ity ts ->
  inty t b -> inty t e -> inty ts st -> 0 < st -> st <= b - e ->
  inty t (b + (b - e) + st) ->
  (0 <= e \/ sgn (usual t ts) = true) ->
  exists l n, (forall fuel, (n <= fuel)%nat ->
      make_array_from_range fuel t ts b e st = Some (Ok l)) /\
    exists x, In x l /\ Z.max b e < x.
Proof.
  intros t ts b e st Ht Hts Hb He Hst Hpos Hbe Hes Hsg.
  set (k := Z.to_nat ((b - e) / st + 1)).
  assert (Q : 1 <= (b - e) / st) by (apply Z.div_le_lower_bound; lia).
  assert (Ek : Z.of_nat k = (b - e) / st + 1) by (unfold k; lia).
  pose proof (Z.div_mod (b - e) st ltac:(lia)) as DM.
  pose proof (Z.mod_pos_bound (b - e) st ltac:(lia)) as MB.
  assert (K1 : b < e + Z.of_nat k * st) by nia.
  assert (K2 : e + (Z.of_nat k - 1) * st <= b) by nia.
  exists (map (fun i => b + Z.of_nat i * st) (seq 0 k)), (S k).
  split.
  - intros fuel Hf. unfold make_array_from_range, is_valid_range.
    rewrite Z.min_r, Z.max_l by lia.
    assert (C1 : inty (usual t ts) e) by (apply usual_nonneg; auto).
    assert (C2 : inty (usual t ts) st)
      by (rewrite usual_sym by auto; apply usual_nonneg; auto; left; lia).
    assert (C3 : inty (usual t ts) (e + st)).
    { apply usual_nonneg; auto; [unfold inty in *; lia|]. destruct Hsg; [left; lia|right; auto]. }
    assert (V : (if e <? b then match const (add t ts e st) with
          | Some s => Some (cmp_lt t (usual t ts) e s || (e =? b)) | None => None end
        else Some (e =? b)) = Some true).
    { destruct (Z.ltb_spec e b); [|lia].
      rewrite add_ok by auto. cbn [const]. unfold cmp_lt.
      assert (U : usual t (usual t ts) = usual t ts)
        by (clear - Ht Hts; std_cases t Ht; std_cases ts Hts; reflexivity).
      assert (P := std_bits_pos _ (usual_std _ _ Ht Hts)).
      rewrite U. rewrite !conv_id by auto. destruct (Z.ltb_spec e (e + st)); [reflexivity|lia]. }
    assert (Ib : inty t (b + st)) by (unfold inty in *; lia).
    rewrite V. rewrite (step_count_value k) by (auto; lia). cbn [bind].
    assert (G : fill_range k t ts b st = Ok (map (fun i => b + Z.of_nat i * st) (seq 0 k))).
    { apply (fill_range_value k t ts b (b + (b - e)) st); auto.
      - unfold inty in *. lia.
      - destruct Hsg; [left; lia|right; auto].
      - right. nia. }
    rewrite G. reflexivity.
  - exists (b + Z.of_nat 1 * st). split.
    + apply in_map_iff. exists 1%nat. split; auto. apply in_seq. lia.
    + lia.
Qed.

Lemma div_as_bool : forall dbg n d, d <> 0 ->
  div_as_bool_constant dbg n d = Ok (if n =? 0 then 0 else 1, 0) /\
  div_as_bool_runtime dbg n d = Ok (if n =? 0 then 0 else 1, 0).
Proof.
  intros dbg n d H. unfold div_as_bool_constant, div_as_bool_runtime, to_bool. apply Z.eqb_neq in H. rewrite H.
  destruct dbg, (n =? 0); split; reflexivity.
Qed.

Lemma greatest_divisor_of_bool : forall v, inty bool_t v -> greatest_divisor_bool v = Ok 1.
Proof.
  intros v H. assert (v = 0 \/ v = 1) as [-> | ->] by (unfold inty, minv, maxv in H; cbn in H; lia); reflexivity.
Qed.
