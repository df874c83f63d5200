(** Exactly when the two evaluation modes of div agree, and exactly when
    values_in_range is the interval. *)

Require Import ZArith List Bool Lia.
Require Import Verif.Outcome Verif.Machine Verif.BitsModel Verif.ArithSpec Verif.ArithModel Verif.ArithProofs.
Import ListNotations.
Open Scope Z_scope.

(** ** uint64_t operands *)

Lemma conv_i64_of_u64 : forall n, inty u64 n ->
  conv i64 n = if n <? 2 ^ 63 then n else n - 2 ^ 64.
Proof.
  intros n H. unfold inty, minv, maxv in H. change (sgn u64) with false in H. change (bits u64) with 64 in H.
  cbv iota in H. unfold conv, swrap. change (sgn i64) with true. change (bits i64) with 64. cbv iota zeta.
  change (64 - 1) with 63. rewrite Z.mod_small by lia. reflexivity.
Qed.

Lemma conv_u64 : forall n, conv u64 n = n mod 2 ^ 64.
Proof. reflexivity. Qed.

(** div on uint64_t in constant expressions *)
Lemma div_constant_u64 : forall dbg n d, inty u64 n -> inty u64 d -> d <> 0 ->
  div_constant dbg u64 u64 n d = Ok (n / d, n mod d).
Proof.
  intros dbg n d Hn Hd Hz.
  destruct (div_constant_correct dbg u64 u64 n d) as (q & r & E & D & _); auto;
    try (right; right; right; reflexivity).
  { intros S. exfalso. vm_compute in S. discriminate S. }
  rewrite E. rewrite common_same in D. rewrite !conv_id in D by (reflexivity || auto).
  destruct (division_unique _ _ _ _ _ _ D (division_quotrem n d Hz)) as [-> ->].
  unfold inty, minv, maxv in *. change (sgn u64) with false in *. cbv iota in *.
  rewrite Z.quot_div_nonneg, Z.rem_mod_nonneg by lia. reflexivity.
Qed.

(** and at run time *)
Lemma div_runtime_u64 : forall dbg n d, inty u64 n -> inty u64 d -> d <> 0 ->
  div_runtime dbg u64 u64 n d =
    let n' := if n <? 2 ^ 63 then n else n - 2 ^ 64 in
    let d' := if d <? 2 ^ 63 then d else d - 2 ^ 64 in
    if intyb i64 (Z.quot n' d') then Ok (Z.quot n' d' mod 2 ^ 64, Z.rem n' d' mod 2 ^ 64) else UB.
Proof.
  intros dbg n d Hn Hd Hz.
  assert (conv i64 d <> 0) as Hz'.
  { rewrite conv_i64_of_u64 by auto. unfold inty, minv, maxv in Hd. change (sgn u64) with false in Hd.
    cbv iota in Hd. change (bits u64) with 64 in Hd. destruct (d <? 2 ^ 63); lia. }
  rewrite div_runtime_value by (auto; right; right; right; reflexivity).
  rewrite common_same, !conv_i64_of_u64 by auto. reflexivity.
Qed.

Lemma neg_mod : forall x, 0 < x <= 2 ^ 64 -> (- x) mod 2 ^ 64 = 2 ^ 64 - x.
Proof.
  intros x H. destruct (Z.eq_dec x (2 ^ 64)) as [->|].
  - reflexivity.
  - symmetry. apply (Z.mod_unique_pos _ _ (-1)); lia.
Qed.

Lemma ok_fst : forall a b c d : Z, Ok (a, b) = Ok (c, d) -> a = c.
Proof. intros a b c d H. injection H. auto. Qed.

Lemma u64_modes_exact : forall dbg n d, inty u64 n -> inty u64 d -> d <> 0 ->
  (div_runtime dbg u64 u64 n d = div_constant dbg u64 u64 n d <->
   n < 2 ^ 63 /\ n + d < 2 ^ 64 \/ d = 1 \/ n = d).
Proof.
  intros dbg n d Hn Hd Hz. rewrite div_runtime_u64, div_constant_u64 by auto. cbv zeta.
  unfold inty, minv, maxv in Hn, Hd. change (sgn u64) with false in Hn, Hd. cbv iota in Hn, Hd.
  change (bits u64) with 64 in Hn, Hd.
  assert (P : 2 ^ 64 = 2 * 2 ^ 63) by reflexivity. assert (P0 : 0 < 2 ^ 63) by reflexivity.
  assert (I : forall x, intyb i64 x = (- 2 ^ 63 <=? x) && (x <=? 2 ^ 63 - 1)) by reflexivity.
  pose proof (Z.div_mod n d ltac:(lia)) as DM. pose proof (Z.mod_pos_bound n d ltac:(lia)) as MB.
  destruct (Z.ltb_spec n (2 ^ 63)) as [Ln|Ln]; destruct (Z.ltb_spec d (2 ^ 63)) as [Ld|Ld].
  - (* both fit *)
    rewrite Z.quot_div_nonneg, Z.rem_mod_nonneg by lia.
    assert (0 <= n / d <= n) by (split; [apply Z.div_pos; lia|apply Z.div_le_upper_bound; nia]).
    rewrite I. destruct (Z.leb_spec (- 2 ^ 63) (n / d)); [|lia].
    destruct (Z.leb_spec (n / d) (2 ^ 63 - 1)); [|lia]. cbn [andb].
    rewrite !(Z.mod_small _ (2 ^ 64)) by lia. split; [left; lia|reflexivity].
  - (* the divisor does not fit *)
    assert (n / d = 0) as Q by (apply Z.div_small; lia). assert (n mod d = n) as R by (apply Z.mod_small; lia).
    rewrite Q, R. set (e := 2 ^ 64 - d). assert (0 < e <= 2 ^ 63) by (unfold e; lia).
    replace (d - 2 ^ 64) with (- e) by (unfold e; lia).
    rewrite Z.quot_opp_r, Z.rem_opp_r by lia. rewrite Z.quot_div_nonneg, Z.rem_mod_nonneg by lia.
    assert (0 <= n / e <= n) by (split; [apply Z.div_pos; lia|apply Z.div_le_upper_bound; nia]).
    rewrite I. destruct (Z.leb_spec (- 2 ^ 63) (- (n / e))); [|lia].
    destruct (Z.leb_spec (- (n / e)) (2 ^ 63 - 1)); [|lia]. cbn [andb].
    destruct (Z_lt_le_dec n e) as [L|L].
    + rewrite (Z.div_small n e), (Z.mod_small n e) by lia.
      change (- 0) with 0. rewrite !Z.mod_small by lia. split; [left; unfold e in L; lia|reflexivity].
    + assert (1 <= n / e) by (apply Z.div_le_lower_bound; lia).
      rewrite neg_mod by lia. split; [|unfold e in L; lia].
      intros E; apply ok_fst in E. exfalso. lia.
  - (* the dividend does not fit *)
    set (m := 2 ^ 64 - n). assert (0 < m <= 2 ^ 63) by (unfold m; lia).
    replace (n - 2 ^ 64) with (- m) by (unfold m; lia).
    rewrite Z.quot_opp_l, Z.rem_opp_l by lia. rewrite Z.quot_div_nonneg, Z.rem_mod_nonneg by lia.
    assert (0 <= m / d <= m) by (split; [apply Z.div_pos; lia|apply Z.div_le_upper_bound; nia]).
    rewrite I. destruct (Z.leb_spec (- 2 ^ 63) (- (m / d))); [|lia].
    destruct (Z.leb_spec (- (m / d)) (2 ^ 63 - 1)); [|lia]. cbn [andb].
    destruct (Z.eq_dec d 1) as [->|D1].
    + rewrite !Z.div_1_r, !Z.mod_1_r, neg_mod by lia.
      split; [auto|]. intros _. f_equal. f_equal; unfold m; lia.
    + split; [|lia]. intros E; apply ok_fst in E. exfalso.
      assert (1 <= n / d) by (apply Z.div_le_lower_bound; lia).
      assert (n / d < 2 ^ 63) by (apply Z.div_lt_upper_bound; nia).
      assert (m / d <= 2 ^ 62) by (apply Z.div_le_upper_bound; [lia|]; assert (2 ^ 63 = 2 * 2 ^ 62) by reflexivity; nia).
      assert (2 ^ 63 = 2 * 2 ^ 62) by reflexivity.
      destruct (Z.eq_dec (m / d) 0) as [Z0|Z0].
      * rewrite Z0 in E. change ((- 0) mod 2 ^ 64) with 0 in E. lia.
      * rewrite neg_mod in E by lia. lia.
  - (* neither fits *)
    set (m := 2 ^ 64 - n). set (e := 2 ^ 64 - d).
    assert (0 < m <= 2 ^ 63) by (unfold m; lia). assert (0 < e <= 2 ^ 63) by (unfold e; lia).
    replace (n - 2 ^ 64) with (- m) by (unfold m; lia). replace (d - 2 ^ 64) with (- e) by (unfold e; lia).
    rewrite Z.quot_opp_opp, Z.rem_opp_opp by lia. rewrite Z.quot_div_nonneg, Z.rem_mod_nonneg by lia.
    assert (0 <= m / e <= m) by (split; [apply Z.div_pos; lia|apply Z.div_le_upper_bound; nia]).
    rewrite I. destruct (Z.leb_spec (- 2 ^ 63) (m / e)); [|lia].
    destruct (Z.leb_spec (m / e) (2 ^ 63 - 1)); cbn [andb].
    + rewrite (Z.mod_small (m / e)) by lia.
      destruct (Z.eq_dec n d) as [->|Nd].
      * subst m e. rewrite !Z.div_same, !Z.mod_same by lia. change ((- 0) mod 2 ^ 64) with 0. split; auto.
      * split; [|lia]. intros E; apply ok_fst in E. exfalso.
        destruct (Z_lt_le_dec n d).
        -- rewrite (Z.div_small n d) in E by lia.
           assert (1 <= m / e) by (apply Z.div_le_lower_bound; unfold m, e; lia). lia.
        -- assert (1 <= n / d) by (apply Z.div_le_lower_bound; lia).
           rewrite (Z.div_small m e) in E by (unfold m, e; lia). lia.
    + split; [discriminate|]. intros H'. exfalso.
      assert (m = 2 ^ 63) by lia. assert (e = 1).
      { destruct (Z.eq_dec e 1); auto. assert (m / e < 2 ^ 63); [|lia]. apply Z.div_lt_upper_bound; nia. }
      unfold m, e in *. lia.
Qed.

(** ** Which types are safe *)

Ltac widths Ht := destruct Ht as [Ht|[Ht|[Ht|Ht]]].

Lemma safe_types_fit : forall t u, std_ity t -> std_ity u ->
  sgn (common t u) = true \/ (sgn t = false /\ sgn u = false /\ bits (common t u) < 64) ->
  forall x, (inty t x \/ inty u x) -> inty (common t u) x /\ inty i64 x.
Proof.
  intros [b s] [b' s'] Ht Hu H x Hx. unfold std_ity in *. cbn [bits sgn] in *.
  assert (P : 2 ^ 7 < 2 ^ 8 < 2 ^ 15 /\ 2 ^ 15 < 2 ^ 16 < 2 ^ 31 /\ 2 ^ 31 < 2 ^ 32 < 2 ^ 63) by (vm_compute; auto).
  widths Ht; widths Hu; subst b b'; destruct s, s';
  match goal with |- context [common ?a ?b] => let c := eval vm_compute in (common a b) in
    change (common a b) with c in * end;
  cbn [sgn bits] in H; try (exfalso; destruct H as [H|(? & ? & H)]; (discriminate || lia));
  unfold inty, minv, maxv in *; cbn [sgn bits] in *;
  change (sgn i64) with true; change (bits i64) with 64; cbv iota;
  change (8 - 1) with 7 in *; change (16 - 1) with 15 in *; change (32 - 1) with 31 in *; change (64 - 1) with 63 in *;
  try lia.
Qed.

Lemma type_modes_exact : forall dbg t u, std_ity t -> std_ity u ->
  ((forall n d q r, inty t n -> inty u d -> d <> 0 ->
      div_constant dbg t u n d = Ok (q, r) -> div_runtime dbg t u n d = Ok (q, r)) <->
   sgn (common t u) = true \/ (sgn t = false /\ sgn u = false /\ bits (common t u) < 64)).
Proof.
  intros dbg t u Ht Hu. split.
  - intros H.
    destruct (sgn (common t u)) eqn:S; [auto|]. right.
    assert (forall n d q r q' r', inty t n -> inty u d -> d <> 0 -> div_constant dbg t u n d = Ok (q, r) ->
      div_runtime dbg t u n d = Ok (q', r') -> q <> q' -> False) as K.
    { intros n d q r q' r' h1 h2 h3 h4 h5 h6. rewrite (H n d q r h1 h2 h3 h4) in h5. congruence. }
    clear H. destruct t as [b s], u as [b' s']. unfold std_ity in *. cbn [bits sgn] in *.
    widths Ht; widths Hu; subst b b'; destruct s, s'; vm_compute in S; try discriminate S;
      first [ (split; [reflexivity|split; [reflexivity|vm_compute; reflexivity]])
            | exfalso; eapply (K (-1) 3);
              [ vm_compute; split; discriminate | vm_compute; split; discriminate | discriminate
              | destruct dbg; vm_compute; reflexivity | destruct dbg; vm_compute; reflexivity | discriminate ]
            | exfalso; eapply (K 5 (-1));
              [ vm_compute; split; discriminate | vm_compute; split; discriminate | discriminate
              | destruct dbg; vm_compute; reflexivity | destruct dbg; vm_compute; reflexivity | discriminate ]
            | exfalso; eapply (K (2 ^ 64 - 1) 3);
              [ vm_compute; split; discriminate | vm_compute; split; discriminate | discriminate
              | destruct dbg; vm_compute; reflexivity | destruct dbg; vm_compute; reflexivity | discriminate ]
            | exfalso; eapply (K 5 (2 ^ 64 - 1));
              [ vm_compute; split; discriminate | vm_compute; split; discriminate | discriminate
              | destruct dbg; vm_compute; reflexivity | destruct dbg; vm_compute; reflexivity | discriminate ] ].
  - intros H n d q r Hn Hd Hz E. pose proof (safe_types_fit t u Ht Hu H) as F.
    destruct (F n (or_introl Hn)), (F d (or_intror Hd)).
    apply div_runtime_agrees; auto.
Qed.

Lemma div_as_u64_exact : forall dbg n d, conv u64 d <> 0 ->
  (div_as_runtime dbg u64 n d = div_as_constant dbg u64 n d <->
   n mod 2 ^ 64 < 2 ^ 63 /\ n mod 2 ^ 64 + d mod 2 ^ 64 < 2 ^ 64 \/ d mod 2 ^ 64 = 1 \/ n mod 2 ^ 64 = d mod 2 ^ 64).
Proof.
  intros dbg n d Hz. unfold div_as_runtime, div_as_constant.
  pose proof (conv_inty u64 n eq_refl) as Hn. pose proof (conv_inty u64 d eq_refl) as Hd.
  rewrite (u64_modes_exact dbg (conv u64 n) (conv u64 d) Hn Hd Hz), !conv_u64. reflexivity.
Qed.

(** ** values_in_range *)

Lemma values_in_range_exact : forall t first last, std_ity t -> inty t first -> inty t last -> first <= last ->
  ((exists l, values_in_range t t first last = Some l /\ interval first last l) <->
   last - first + 1 <= maxv t /\ (sgn t = true -> 32 <= bits t -> last < maxv t)).
Proof.
  intros t first last Ht Hf Hl Hle. split; [|intros [A B]; apply values_in_range_same; auto].
  intros (l & E & Il). unfold values_in_range, cmp_le in E.
  assert (Hp := promote_std t Ht). assert (Hpb := std_bits_pos _ Hp). assert (Hb := std_bits_pos t Ht).
  assert (Jf := inty_promote t _ Ht Hf). assert (Jl := inty_promote t _ Ht Hl).
  rewrite usual_self, common_same in E.
  rewrite !(conv_id (promote t)) in E by auto.
  destruct (Z.leb_spec first last); [|lia].
  destruct (const (l1 <- add t i32 last 1;; sub (usual t i32) t l1 first)%res) as [n|] eqn:En; [|discriminate].
  destruct (make_integer_sequence (conv t n)) as [is|] eqn:Es; [|discriminate].
  assert (length l = length is) as Len.
  { clear -E. unfold shifted_sequence in E. revert l E. induction is as [|i is IH]; cbn [map all_ok]; intros l E.
    - injection E as <-. reflexivity.
    - destruct (match const _ with Some s => _ | None => _ end); [|discriminate].
      destruct (all_ok _) as [k|] eqn:Ek; [|discriminate]. injection E as <-. cbn. f_equal. apply IH; auto. }
  unfold make_integer_sequence in Es. destruct (Z.ltb_spec (conv t n) 0); [discriminate|].
  injection Es as <-. rewrite map_length, seq_length in Len. destruct Il as [Il _].
  rewrite Len, Z2Nat.id in Il by lia.
  pose proof (conv_inty t n Hb) as Jn. unfold inty in Jn. split; [lia|].
  intros S B. destruct (Z.eq_dec last (maxv t)) as [->|]; [|unfold inty in Hl; lia]. exfalso.
  assert (promote t = t) as Pt by (unfold promote; destruct (Z.ltb_spec (bits t) 32); [lia|reflexivity]).
  unfold add in En. rewrite usual_i32, Pt in En by auto.
  rewrite (conv_id t (maxv t)) in En by auto.
  assert (J1 : inty t 1).
  { unfold inty, minv, maxv. rewrite S. assert (2 ^ 31 <= 2 ^ (bits t - 1)) by (apply Z.pow_le_mono_r; lia).
    assert (1 < 2 ^ 31) by reflexivity. lia. }
  rewrite (conv_id t 1) in En by auto. unfold arith at 1 in En. rewrite S in En.
  destruct (intyb t (maxv t + 1)) eqn:I1; [|discriminate]. apply intyb_spec in I1. unfold inty in I1. lia.
Qed.

Lemma all_ok_In : forall A (l : list (option A)) r x, all_ok l = Some r -> In x r -> In (Some x) l.
Proof.
  intros A l. induction l as [|[a|] l IH]; cbn [all_ok]; intros r x E I; [|destruct (all_ok l) as [k|] eqn:Ek|]; try discriminate E.
  - injection E as <-. destruct I.
  - injection E as <-. destruct I as [->|I]; [left; reflexivity|right; eauto].
Qed.
Lemma shifted_inty : forall t is n l x, shifted_sequence t is n = Some l -> In x l -> inty t x.
Proof.
  intros t is n l x E I. unfold shifted_sequence in E. apply (all_ok_In _ _ _ _ E) in I.
  apply in_map_iff in I. destruct I as (i & Q & _). destruct (const (add t t i n)) as [s|]; [|discriminate Q].
  destruct (intyb t s) eqn:K; [|discriminate Q]. injection Q as <-. apply intyb_spec; auto.
Qed.
Lemma shifted_length : forall t is n l, shifted_sequence t is n = Some l -> length l = length is.
Proof.
  intros t is n l E. unfold shifted_sequence in E. revert l E.
  induction is as [|i is IH]; cbn [map all_ok]; intros l E.
  - injection E as <-. reflexivity.
  - destruct (match const _ with Some s => _ | None => _ end); [|discriminate].
    destruct (all_ok _) as [k|] eqn:Ek; [|discriminate]. injection E as <-. cbn. f_equal. apply IH; auto.
Qed.

(** any two types of the bounds *)
Lemma values_in_range_mixed_exact : forall tf tl first last, std_ity tf -> std_ity tl ->
  inty tf first -> inty tl last -> first <= last ->
  let c := common tf tl in
  ((exists l, values_in_range tf tl first last = Some l /\ interval first last l) <->
   inty c first /\ inty c last /\ last - first + 1 <= maxv c /\
   (last < maxv (promote tl) \/ (sgn (promote tl) = false /\ bits c <= bits (promote tl)))).
Proof.
  intros tf tl first last Hf Hl If Il Hle c.
  assert (Hc : std_ity c) by (apply common_std; auto). assert (Hb := std_bits_pos _ Hc).
  assert (Hp := promote_std tl Hl). assert (Hpb := std_bits_pos _ Hp).
  assert (Jl := inty_promote tl _ Hl Il).
  assert (J1 : inty (promote tl) 1).
  { pose proof (promote_ge tl Hl) as [P32 _].
    assert (2 ^ 31 <= 2 ^ (bits (promote tl) - 1)) by (apply Z.pow_le_mono_r; lia).
    assert (1 < 2 ^ 31) by reflexivity. assert (H3 := pow_split (bits (promote tl)) Hpb).
    unfold inty, minv, maxv. destruct (sgn (promote tl)); lia. }
  destruct (ity_eqb tf tl) eqn:Q.
  { apply ity_eqb_eq in Q. subst tl.
    assert (c = tf) as -> by (unfold c; apply common_same).
    rewrite (values_in_range_exact tf first last Hf If Il Hle). unfold promote in *.
    destruct (Z.ltb_spec (bits tf) 32) as [L|L].
    - split; intros H; intuition (try lia). left.
      assert (2 ^ bits tf <= 2 ^ 16) by (apply Z.pow_le_mono_r; unfold std_ity in Hf; lia).
      assert (2 ^ (bits tf - 1) <= 2 ^ 15) by (apply Z.pow_le_mono_r; unfold std_ity in Hf; lia).
      assert (2 ^ 16 + 1 < 2 ^ 31) by reflexivity. assert (2 ^ 15 < 2 ^ 31) by reflexivity.
      unfold inty, maxv in Il |- *. change (sgn i32) with true. change (bits i32 - 1) with 31. cbv iota.
      destruct (sgn tf); lia.
    - split.
      + intros [A B]. repeat (split; [assumption|]). destruct (sgn tf); [left; apply B; auto|right; split; [reflexivity|lia]].
      + intros (_ & _ & A & [B|[B _]]); (split; [assumption|]); intros S _; [assumption|congruence]. }
  assert (Ec : c = usual tf tl) by (unfold c, common; rewrite Q; reflexivity).
  assert (E2 : usual (usual tl i32) tf = c).
  { rewrite usual_i32, usual_promote_l by auto. rewrite Ec.
    clear - Hf Hl. std_cases tf Hf; std_cases tl Hl; reflexivity. }
  split.
  - intros (l & E & Iv). unfold values_in_range, cmp_le in E. fold c in E.
    destruct (_ <=? _) in E; [|discriminate].
    destruct (const (l1 <- add tl i32 last 1;; sub (usual tl i32) tf l1 first)%res) as [n|] eqn:En; [|discriminate].
    destruct (make_integer_sequence (conv c n)) as [is|] eqn:Es; [|discriminate].
    pose proof (shifted_length _ _ _ _ E) as Len.
    unfold make_integer_sequence in Es. destruct (Z.ltb_spec (conv c n) 0) as [|Ps]; [discriminate|].
    injection Es as <-. rewrite map_length, seq_length in Len. destruct Iv as [Ln Nth].
    rewrite Len, Z2Nat.id in Ln by lia.
    assert (forall k, (k < length l)%nat -> inty c (first + Z.of_nat k)) as Fits.
    { intros k Hk. destruct (nth_error l k) as [x|] eqn:Ek; [|apply nth_error_None in Ek; lia].
      rewrite <- (Nth _ _ Ek). apply (shifted_inty _ _ _ _ _ E). eapply nth_error_In; eauto. }
    pose proof (conv_inty c n Hb) as Jn. unfold inty in Jn.
    split; [|split; [|split]].
    + replace first with (first + Z.of_nat 0) by lia. apply Fits. lia.
    + replace last with (first + Z.of_nat (length l - 1)) by lia. apply Fits. lia.
    + lia.
    + destruct (Z.eq_dec last (maxv (promote tl))) as [El|]; [|left; unfold inty in Jl; lia].
      right. unfold add in En. rewrite usual_i32 in En by auto.
      rewrite !(conv_id (promote tl)) in En by auto. unfold arith at 1 in En.
      destruct (sgn (promote tl)) eqn:S.
      { destruct (intyb (promote tl) (last + 1)) eqn:I1; [|discriminate]. apply intyb_spec in I1. unfold inty in I1. lia. }
      split; [reflexivity|]. destruct (Z.le_gt_cases (bits c) (bits (promote tl))) as [|Gt]; [assumption|exfalso].
      cbn [bind] in En. unfold sub in En. rewrite usual_i32 in E2 by auto. rewrite E2 in En.
      assert (wrap (bits (promote tl)) (last + 1) = 0) as W0.
      { rewrite El. unfold maxv. rewrite S. replace (2 ^ bits (promote tl) - 1 + 1) with (2 ^ bits (promote tl)) by lia.
        unfold wrap. apply Z.mod_same. pose proof (Z.pow_pos_nonneg 2 (bits (promote tl)) eq_refl ltac:(lia)); lia. }
      rewrite W0 in En. clear W0.
      assert (inty c 0) as J0 by (clear -Hc; unfold inty; std_cases c Hc; vm_compute; split; discriminate).
      assert (inty c first) as Jf by (replace first with (first + Z.of_nat 0) by lia; apply Fits; lia).
      rewrite !(conv_id c) in En by auto. unfold arith in En.
      assert (0 < last + 1) as Pl by (unfold maxv in El; rewrite S in El; pose proof (Z.pow_pos_nonneg 2 (bits (promote tl)) eq_refl ltac:(lia)); lia).
      assert (last + 1 < 2 ^ bits c) as Wide.
      { rewrite El. unfold maxv. rewrite S. assert (2 ^ bits (promote tl) < 2 ^ bits c) by (apply Z.pow_lt_mono_r; lia). lia. }
      destruct (sgn c) eqn:Sc.
      * destruct (intyb c (0 - first)) eqn:I0; [|discriminate]. injection En as <-.
        rewrite conv_id in Ln by (auto; apply intyb_spec; auto). lia.
      * injection En as <-. unfold conv in Ln. rewrite Sc in Ln. unfold wrap in Ln.
        rewrite Z.mod_mod in Ln by lia.
        unfold inty, minv, maxv in Jf. rewrite Sc in Jf.
        destruct (Z.eq_dec first 0) as [->|]; [rewrite Z.mod_0_l in Ln by lia; lia|].
        change (0 - first) with (- first) in Ln. replace (- first) with (2 ^ bits c - first + (-1) * 2 ^ bits c) in Ln by lia.
        rewrite Z.mod_add, Z.mod_small in Ln by lia. lia.
  - intros (A & B & D & [F|[S F]]); [apply values_in_range_mixed; auto|].
    destruct (Z.eq_dec last (maxv (promote tl))) as [El|]; [|apply values_in_range_mixed; auto; unfold inty in Jl; lia].
    assert (c = promote tl) as Ecp.
    { rewrite Ec in F |- *. clear - Hf Hl S F. std_cases tf Hf; std_cases tl Hl; try discriminate S; try reflexivity; vm_compute in F; exfalso; apply F; reflexivity. }
    unfold values_in_range, cmp_le. fold c. rewrite <- Ec. rewrite !(conv_id c) by auto.
    destruct (Z.leb_spec first last); [|lia].
    assert ((l1 <- add tl i32 last 1;; sub (usual tl i32) tf l1 first)%res = Ok (last - first + 1)) as E.
    { unfold add, sub. rewrite E2, usual_i32, <- Ecp by auto. rewrite <- Ecp in S, J1.
      rewrite !(conv_id c) by auto. unfold arith. rewrite S. cbn [bind]. f_equal. unfold conv. rewrite S. unfold wrap.
      rewrite Z.mod_mod by (pose proof (Z.pow_pos_nonneg 2 (bits c) eq_refl ltac:(lia)); lia).
      rewrite Zminus_mod_idemp_l. replace (last + 1 - first) with (last - first + 1) by lia.
      unfold maxv in D. rewrite S in D. apply Z.mod_small. lia. }
    rewrite E. cbn [const].
    rewrite (conv_id c (last - first + 1)).
    + apply range_tail; auto.
    + auto.
    + unfold inty, minv. rewrite <- Ecp in S. rewrite S. lia.
Qed.

(** a negative 64-bit first and the greatest 32-bit unsigned last *)
Lemma values_in_range_cut : forall first, - 2 ^ 63 < first < 0 ->
  exists l, values_in_range i64 u32 first (2 ^ 32 - 1) = Some l /\ interval first (-1) l.
Proof.
  intros first H. unfold values_in_range, cmp_le.
  change (usual i64 u32) with i64. change (common i64 u32) with i64.
  assert (inty i64 first) as If by (unfold inty, minv, maxv; cbn [sgn bits i64]; change (64 - 1) with 63; lia).
  rewrite (conv_id i64 first) by (reflexivity || auto).
  change (conv i64 (2 ^ 32 - 1)) with (2 ^ 32 - 1).
  destruct (Z.leb_spec first (2 ^ 32 - 1)); [|lia].
  change (add u32 i32 (2 ^ 32 - 1) 1) with (Ok 0). cbn [bind].
  assert (sub (usual u32 i32) i64 0 first = Ok (- first)) as ->.
  { unfold sub. change (usual (usual u32 i32) i64) with i64. rewrite (conv_id i64 first) by (reflexivity || auto).
    change (conv i64 0) with 0. unfold arith. change (sgn i64) with true. cbv iota.
    change (0 - first) with (- first).
    replace (intyb i64 (- first)) with true; [reflexivity|]. symmetry. apply intyb_spec.
    unfold inty, minv, maxv; cbn [sgn bits i64]; change (64 - 1) with 63; lia. }
  cbn [const]. rewrite conv_id.
  - replace (- first) with (-1 - first + 1) by lia. apply range_tail; auto; try lia.
    + unfold std_ity. cbn [bits i64]. auto 6.
    + unfold inty, minv, maxv; cbn [sgn bits i64]; change (64 - 1) with 63; lia.
    + unfold maxv; cbn [sgn bits i64]; change (64 - 1) with 63; lia.
  - reflexivity.
  - unfold inty, minv, maxv; cbn [sgn bits i64]; change (64 - 1) with 63; lia.
Qed.

(** ** Fast unsigned types *)

Lemma fast_uint_exact : forall f8 f16 f32 f64 n, 1 <= n <= 64 ->
  exists w t, fast_uint_from_nbits f8 f16 f32 f64 n = Some t /\ narrowest [8; 16; 32; 64] n w /\
    In (w, t) [(8, f8); (16, f16); (32, f32); (64, f64)].
Proof.
  intros f8 f16 f32 f64 n Hn. unfold fast_uint_from_nbits.
  change (8 * 2) with 16. change (8 * 4) with 32. change (8 * 8) with 64.
  destruct (Z.ltb_spec 0 n); [|lia]. destruct (Z.leb_spec n 8); cbn [andb].
  { exists 8, f8. split; auto. split; [split; [cbn; auto 6|split; [lia|intros v [<-|[<-|[<-|[<-|[]]]]] Hv; lia]]|cbn; auto 6]. }
  destruct (Z.ltb_spec 8 n); [|lia]. destruct (Z.leb_spec n 16); cbn [andb].
  { exists 16, f16. split; auto. split; [split; [cbn; auto 6|split; [lia|intros v [<-|[<-|[<-|[<-|[]]]]] Hv; lia]]|cbn; auto 6]. }
  destruct (Z.ltb_spec 16 n); [|lia]. destruct (Z.leb_spec n 32); cbn [andb].
  { exists 32, f32. split; auto. split; [split; [cbn; auto 6|split; [lia|intros v [<-|[<-|[<-|[<-|[]]]]] Hv; lia]]|cbn; auto 6]. }
  destruct (Z.ltb_spec 32 n); [|lia]. destruct (Z.leb_spec n 64); cbn [andb]; [|lia].
  { exists 64, f64. split; auto. split; [split; [cbn; auto 6|split; [lia|intros v [<-|[<-|[<-|[<-|[]]]]] Hv; lia]]|cbn; auto 6]. }
Qed.

Lemma fast_uint_rejects : forall f8 f16 f32 f64 n, n < 1 \/ 64 < n ->
  fast_uint_from_nbits f8 f16 f32 f64 n = None.
Proof.
  intros f8 f16 f32 f64 n Hn. unfold fast_uint_from_nbits.
  change (8 * 2) with 16. change (8 * 4) with 32. change (8 * 8) with 64.
  destruct (Z.ltb_spec 0 n), (Z.leb_spec n 8), (Z.ltb_spec 8 n), (Z.leb_spec n 16), (Z.ltb_spec 16 n), (Z.leb_spec n 32),
    (Z.ltb_spec 32 n), (Z.leb_spec n 64); cbn [andb]; try lia; reflexivity.
Qed.

Lemma fast_nbytes : forall f8 f16 f32 f64 k,
  (1 <= k <= 8 -> fast_uint_from_nbytes f8 f16 f32 f64 k = fast_uint_from_nbits f8 f16 f32 f64 (8 * k)) /\
  (k < 1 \/ 8 < k -> fast_uint_from_nbytes f8 f16 f32 f64 k = None).
Proof.
  intros f8 f16 f32 f64 k. unfold fast_uint_from_nbytes, template_u8.
  assert (I : forall x, intyb u8 x = (0 <=? x) && (x <=? 255)) by reflexivity.
  split; intros Hk.
  - rewrite (I k). destruct (Z.leb_spec 0 k); [|lia]. destruct (Z.leb_spec k 255); [|lia]. cbn [andb].
    rewrite (I (k * 8)). destruct (Z.leb_spec 0 (k * 8)); [|lia]. destruct (Z.leb_spec (k * 8) 255); [|lia]. cbn [andb].
    f_equal. lia.
  - destruct (intyb u8 k); [|reflexivity]. destruct (intyb u8 (k * 8)); [|reflexivity].
    apply fast_uint_rejects. lia.
Qed.
