(** make_array_from_range: for which arguments it is right. *)

Require Import ZArith List Lia Bool.
Require Import Verif.Outcome Verif.Machine Verif.BitsSpec
  Verif.ArithModel Verif.ArithSpec Verif.ArithProofs.
Import ListNotations.
Open Scope Z_scope.

Lemma conv_conv : forall t ts x, std_ity t -> std_ity ts -> conv t (conv (usual t ts) x) = conv t x.
Proof.
  intros t ts x Ht Hts. apply conv_ext.
  assert (G : bits t <= bits (usual t ts)) by (clear - Ht Hts; std_cases t Ht; std_cases ts Hts; vm_compute; discriminate).
  assert (P := std_bits_pos _ Ht). assert (PU := std_bits_pos _ (usual_std _ _ Ht Hts)).
  assert (D : (2 ^ bits t | 2 ^ bits (usual t ts))).
  { exists (2 ^ (bits (usual t ts) - bits t)). rewrite <- Z.pow_add_r by lia. f_equal. lia. }
  destruct D as [k D].
  pose proof (conv_congr (usual t ts) x PU) as C.
  assert (0 < 2 ^ bits t) by (apply Z.pow_pos_nonneg; lia).
  assert (0 < 2 ^ bits (usual t ts)) by (apply Z.pow_pos_nonneg; lia).
  assert (E : exists j, conv (usual t ts) x = x + j * 2 ^ bits (usual t ts)).
  { exists (conv (usual t ts) x / 2 ^ bits (usual t ts) - x / 2 ^ bits (usual t ts)).
    pose proof (Z.div_mod (conv (usual t ts) x) (2 ^ bits (usual t ts)) ltac:(lia)).
    pose proof (Z.div_mod x (2 ^ bits (usual t ts)) ltac:(lia)). lia. }
  destruct E as [j ->]. rewrite D. rewrite Z.mul_assoc, Z.mod_add by lia. reflexivity.
Qed.

(** the sum in the usual type *)
Lemma add_value : forall t ts b st, std_ity t -> std_ity ts -> inty t b -> inty ts st -> 0 < st ->
  add t ts b st = if sgn (usual t ts) && (maxv (usual t ts) <? b + st) then UB else Ok (conv (usual t ts) (b + st)).
Proof.
  intros t ts b st Ht Hts Hb Hst Hpos. unfold add.
  assert (PU := std_bits_pos _ (usual_std _ _ Ht Hts)).
  unfold arith. destruct (sgn (usual t ts)) eqn:S; cbn [andb].
  - assert (Ib : inty (usual t ts) b) by (apply usual_nonneg; auto).
    assert (Is : inty (usual t ts) st) by (rewrite usual_sym by auto; apply usual_nonneg; auto; left; lia).
    rewrite !conv_id by auto. unfold intyb.
    replace (minv (usual t ts) <=? b + st) with true by (symmetry; apply Z.leb_le; unfold inty in Ib; lia).
    cbn [andb]. rewrite Z.leb_antisym. destruct (Z.ltb_spec (maxv (usual t ts)) (b + st)); cbn [negb]; [reflexivity|].
    rewrite conv_id; auto. unfold inty in *. lia.
  - f_equal. unfold conv. rewrite S. unfold wrap. rewrite <- Zplus_mod. reflexivity.
Qed.

Section Range.
Variables (t ts : ity) (e st : Z).
Hypothesis Ht : std_ity t.
Hypothesis Hts : std_ity ts.
Hypothesis He : inty t e.
Hypothesis Hst : inty ts st.
Hypothesis Hpos : 0 < st.

Definition overflows (x : Z) : Prop := sgn (usual t ts) = true /\ maxv (usual t ts) < x.

Lemma add_next : forall b, inty t b -> ~ overflows (b + st) ->
  exists s, add t ts b st = Ok s /\ conv t s = conv t (b + st).
Proof.
  intros b Hb N. rewrite add_value by auto. unfold overflows in N.
  destruct (sgn (usual t ts)); cbn [andb].
  - destruct (Z.ltb_spec (maxv (usual t ts)) (b + st)); [exfalso; auto|].
    eexists. split; [reflexivity|]. apply conv_conv; auto.
  - eexists. split; [reflexivity|]. apply conv_conv; auto.
Qed.

Lemma add_over : forall b, inty t b -> overflows (b + st) -> add t ts b st = UB.
Proof.
  intros b Hb [S N]. rewrite add_value by auto. rewrite S. cbn [andb].
  destruct (Z.ltb_spec (maxv (usual t ts)) (b + st)); [reflexivity|lia].
Qed.

(** the first [k] rounds of the counting loop *)
Lemma count_rounds : forall k fuel b, inty t b ->
  (k = O \/ b + (Z.of_nat k - 1) * st <= e) -> ~ overflows (b + Z.of_nat k * st) ->
  step_count (k + fuel) t ts b e st =
    bind (step_count fuel t ts (conv t (b + Z.of_nat k * st)) e st) (fun n => Ok (k + n)%nat).
Proof.
  induction k as [|k IH]; intros fuel b Hb Hk Ho.
  - replace (b + Z.of_nat 0 * st) with b by lia. rewrite conv_id by (auto; apply std_bits_pos; auto).
    cbn [Nat.add]. destruct (step_count fuel t ts b e st); reflexivity.
  - destruct Hk as [Hk|Hk]; [discriminate|]. cbn [Nat.add step_count].
    assert (b <= e) by nia. destruct (Z.leb_spec b e); [|lia].
    destruct (add_next b Hb) as [s [-> Es]].
    { intros [S O]. apply Ho. split; auto. nia. }
    cbn [bind]. rewrite Es. destruct k as [|k].
    + cbn [Nat.add]. replace (b + Z.of_nat 1 * st) with (b + st) by lia. reflexivity.
    + assert (Hbs : inty t (b + st)) by (unfold inty in *; nia).
      rewrite conv_id by (auto; apply std_bits_pos; auto).
      rewrite IH; auto; [|right; lia|intros [S O]; apply Ho; split; auto; lia].
      replace (b + st + Z.of_nat (S k) * st) with (b + Z.of_nat (S (S k)) * st) by lia.
      destruct (step_count fuel t ts (conv t (b + Z.of_nat (S (S k)) * st)) e st); reflexivity.
Qed.

Lemma fill_rounds : forall k b, inty t b -> (k = O \/ inty t (b + (Z.of_nat k - 1) * st)) ->
  (k = O \/ ~ overflows (b + Z.of_nat k * st)) ->
  fill_range k t ts b st = Ok (map (fun i => b + Z.of_nat i * st) (seq 0 k)).
Proof.
  induction k as [|k IH]; intros b Hb Hk Ho; [reflexivity|].
  destruct Hk as [Hk|Hk]; [discriminate|]. destruct Ho as [Ho|Ho]; [discriminate|]. cbn [fill_range].
  destruct (add_next b Hb) as [s [-> Es]].
  { intros [S O]. apply Ho. split; auto. nia. }
  cbn [bind]. rewrite Es. destruct k as [|k].
  - cbn [fill_range bind seq map]. f_equal. f_equal. lia.
  - assert (Hbs : inty t (b + st)) by (unfold inty in *; nia).
    rewrite conv_id by (auto; apply std_bits_pos; auto). rewrite IH.
    + cbn [bind]. f_equal. cbn [seq map]. f_equal; [lia|]. f_equal; [lia|].
      rewrite <- !seq_shift, !map_map. apply map_ext. intros i. lia.
    + auto.
    + right. replace (b + st + (Z.of_nat (S k) - 1) * st) with (b + (Z.of_nat (S (S k)) - 1) * st) by lia. auto.
    + right. replace (b + st + Z.of_nat (S k) * st) with (b + Z.of_nat (S (S k)) * st) by lia. auto.
Qed.

Lemma fill_length : forall n b l, fill_range n t ts b st = Ok l -> length l = n.
Proof.
  induction n as [|n IH]; intros b l H; cbn [fill_range] in H.
  - injection H as <-. reflexivity.
  - apply bind_ok in H. destruct H as [s [_ H]]. apply bind_ok in H. destruct H as [l' [H1 H2]].
    injection H2 as <-. cbn. f_equal. eapply IH; eauto.
Qed.

(** the number of elements of the progression from [b] *)
Definition rounds (b : Z) : Z := (e - b) / st + 1.

Lemma rounds_bounds : forall b, b <= e -> 1 <= rounds b /\ b + (rounds b - 1) * st <= e < b + rounds b * st.
Proof.
  intros b H. unfold rounds. pose proof (Z.div_mod (e - b) st ltac:(lia)) as DM.
  pose proof (Z.mod_pos_bound (e - b) st ltac:(lia)) as MB.
  assert (0 <= (e - b) / st) by (apply Z.div_pos; lia). nia.
Qed.

(** what the counting loop does *)
Lemma count_right : forall b, inty t b -> b <= e -> ~ overflows (b + rounds b * st) ->
  e < conv t (b + rounds b * st) ->
  forall fuel, (S (Z.to_nat (rounds b)) <= fuel)%nat -> step_count fuel t ts b e st = Ok (Z.to_nat (rounds b)).
Proof.
  intros b Hb Hbe Ho Hc fuel Hf. destruct (rounds_bounds b Hbe) as [R1 R2].
  assert (E : Z.of_nat (Z.to_nat (rounds b)) = rounds b) by lia.
  replace fuel with (Z.to_nat (rounds b) + S (fuel - S (Z.to_nat (rounds b))))%nat by lia.
  rewrite count_rounds; auto; rewrite E; auto; [|right; lia].
  cbn [step_count]. destruct (Z.leb_spec (conv t (b + rounds b * st)) e); [lia|]. cbn [bind]. f_equal. lia.
Qed.

Lemma count_over : forall b, inty t b -> b <= e -> overflows (b + rounds b * st) ->
  forall fuel n, step_count fuel t ts b e st <> Ok n.
Proof.
  intros b Hb Hbe Ho fuel n. destruct (rounds_bounds b Hbe) as [R1 R2].
  remember (Z.to_nat (rounds b) - 1)%nat as k eqn:Ek.
  assert (K : rounds b = Z.of_nat k + 1) by lia. rewrite K in Ho, R2. clear Ek K R1.
  revert fuel n b Hb Hbe Ho R2. induction k as [|k IH]; intros fuel n b Hb Hbe Ho R2.
  - destruct fuel as [|fuel]; [discriminate|]. cbn [step_count]. destruct (Z.leb_spec b e); [|lia].
    rewrite add_over; auto; [discriminate|]. destruct Ho as [S O]. split; auto. lia.
  - destruct fuel as [|fuel]; [discriminate|]. cbn [step_count]. destruct (Z.leb_spec b e); [|lia].
    assert (Hbs : inty t (b + st)) by (unfold inty in *; nia).
    destruct (sgn (usual t ts) && (maxv (usual t ts) <? b + st)) eqn:OV.
    + apply andb_prop in OV. destruct OV as [S O]. apply Z.ltb_lt in O. rewrite add_over; auto; [discriminate|split; auto].
    + destruct (add_next b Hb) as [s [-> Es]].
      { intros [S O]. rewrite S in OV. cbn [andb] in OV. apply Z.ltb_ge in OV. lia. }
      cbn [bind]. rewrite Es, conv_id by (auto; apply std_bits_pos; auto).
      intros W. apply bind_ok in W. destruct W as [n' [W _]]. revert W. apply IH; auto; try nia.
      destruct Ho as [S O]. split; auto. lia.
Qed.

Lemma count_more : forall b, inty t b -> b <= e -> ~ overflows (b + rounds b * st) ->
  conv t (b + rounds b * st) <= e ->
  forall fuel n, step_count fuel t ts b e st = Ok n -> (Z.to_nat (rounds b) < n)%nat.
Proof.
  intros b Hb Hbe Ho Hc fuel n H. destruct (rounds_bounds b Hbe) as [R1 R2].
  assert (E : Z.of_nat (Z.to_nat (rounds b)) = rounds b) by lia.
  assert (Up : forall f g, step_count f t ts b e st = Ok n -> step_count (g + f) t ts b e st = Ok n).
  { clear H Ho Hc Hb Hbe R1 R2 E. intros f g. revert b n. induction f as [|f IH]; intros b n H; [discriminate|].
    rewrite Nat.add_succ_r. cbn [step_count] in *. destruct (b <=? e); auto.
    apply bind_ok in H. destruct H as [s [H1 H2]]. rewrite H1. cbn [bind].
    apply bind_ok in H2. destruct H2 as [n' [H2 H3]]. rewrite (IH _ _ H2). exact H3. }
  apply (Up fuel (Z.to_nat (rounds b))) in H.
  rewrite count_rounds in H; auto; rewrite E in *; auto; [|right; lia].
  apply bind_ok in H. destruct H as [n' [H1 H2]]. injection H2 as <-.
  destruct fuel as [|fuel]; [discriminate|]. cbn [step_count] in H1.
  destruct (Z.leb_spec (conv t (b + rounds b * st)) e); [|lia].
  apply bind_ok in H1. destruct H1 as [s [_ H1]]. apply bind_ok in H1. destruct H1 as [n'' [_ H1]].
  injection H1 as <-. lia.
Qed.

(** the static_assert *)
Lemma valid_value : forall b, inty t b -> b <= e ->
  is_valid_range t ts b e st = Some true <->
  b = e \/ ~ overflows (b + st) /\ conv (usual t ts) b < conv (usual t ts) (b + st).
Proof.
  intros b Hb Hbe. unfold is_valid_range. destruct (Z.ltb_spec b e) as [L|L].
  - rewrite add_value by auto.
    assert (U : usual t (usual t ts) = usual t ts)
      by (clear - Ht Hts; std_cases t Ht; std_cases ts Hts; reflexivity).
    assert (PU := std_bits_pos _ (usual_std _ _ Ht Hts)).
    assert (B : (b =? e) = false) by (apply Z.eqb_neq; lia). rewrite B.
    unfold overflows. destruct (sgn (usual t ts)) eqn:S; cbn [andb].
    + destruct (Z.ltb_spec (maxv (usual t ts)) (b + st)); cbn [const].
      * split; [discriminate|]. intros [->|[N _]]; [lia|]. exfalso. auto.
      * unfold cmp_lt. rewrite U. rewrite (conv_id _ (conv (usual t ts) (b + st))) by (auto; apply conv_inty; auto).
        rewrite orb_false_r. split.
        -- intros V. injection V as V. apply Z.ltb_lt in V. right. split; auto. lia.
        -- intros [->|[_ V]]; [lia|]. f_equal. apply Z.ltb_lt. exact V.
    + cbn [const]. unfold cmp_lt. rewrite U. rewrite (conv_id _ (conv (usual t ts) (b + st))) by (auto; apply conv_inty; auto).
      rewrite orb_false_r. split.
      * intros V. injection V as V. apply Z.ltb_lt in V. right. split; auto. intros [N _]. discriminate.
      * intros [->|[_ V]]; [lia|]. f_equal. apply Z.ltb_lt. exact V.
  - assert (b = e) as <- by lia. rewrite Z.eqb_refl. tauto.
Qed.

Lemma progression_from : forall b k, b <= e -> Z.of_nat k = rounds b ->
  progression b st b e (map (fun i => b + Z.of_nat i * st) (seq 0 k)).
Proof.
  intros b k Hbe Ek. destruct (rounds_bounds b Hbe) as [R1 R2]. split.
  - intros i x H. rewrite nth_error_map in H.
    destruct (nth_error (seq 0 k) i) as [j|] eqn:E; [|discriminate].
    assert (Hi : (i < k)%nat) by (rewrite <- (seq_length k 0); apply nth_error_Some; congruence).
    rewrite nth_error_nth' with (d := O) in E by (rewrite seq_length; auto).
    rewrite seq_nth in E by auto. injection E; intros; subst j.
    cbn [option_map] in H. injection H; intros <-. cbn [Nat.add]. split; [reflexivity|].
    assert (Z.of_nat i <= rounds b - 1) by lia. nia.
  - rewrite map_length, seq_length. rewrite Ek. lia.
Qed.

Lemma progression_length : forall b l, b <= e -> progression b st b e l -> Z.of_nat (length l) = rounds b.
Proof.
  intros b l Hbe [P1 P2]. destruct (rounds_bounds b Hbe) as [R1 R2].
  destruct (length l) as [|n] eqn:L.
  - exfalso. apply P2. lia.
  - destruct (nth_error l n) as [x|] eqn:E.
    + destruct (P1 n x E) as [-> B]. assert (~ b + Z.of_nat (S n) * st <= e) by (intros H; apply P2; nia). nia.
    + apply nth_error_None in E. lia.
Qed.
End Range.

(** Begin <= End *)
Theorem range_ascending : forall t ts b e st, std_ity t -> std_ity ts ->
  inty t b -> inty t e -> inty ts st -> 0 < st -> b <= e ->
  let u := usual t ts in
  let next := b + ((e - b) / st + 1) * st in
  ((exists l n, (forall fuel, (n <= fuel)%nat -> make_array_from_range fuel t ts b e st = Some (Ok l)) /\
      progression b st b e l) <->
   (b = e \/ conv u b < conv u (b + st)) /\ (sgn u = true -> next <= maxv u) /\ e < conv t next).
Proof.
  intros t ts b e st Ht Hts Hb He Hst Hpos Hbe u next.
  assert (Hn : next = b + rounds e st b * st) by reflexivity. clearbody next. subst next.
  destruct (rounds_bounds e st Hpos b Hbe) as [R1 R2].
  unfold make_array_from_range. rewrite Z.min_l, Z.max_r by lia.
  pose proof (valid_value t ts e st Ht Hts He Hst Hpos b Hb Hbe) as V. fold u in V.
  assert (Ekn : Z.of_nat (Z.to_nat (rounds e st b)) = rounds e st b) by lia.
  split.
  - intros [l [n [H P]]]. specialize (H n (le_n n)).
    destruct (is_valid_range t ts b e st) as [[]|] eqn:VE; try discriminate.
    assert (V' := proj1 V eq_refl). split; [tauto|].
    injection H as H. apply bind_ok in H. destruct H as [k [C F]].
    assert (Hk : (k = Z.to_nat (rounds e st b))%nat).
    { apply fill_length in F. apply (progression_length e st Hpos b l Hbe) in P. lia. }
    assert (NO : ~ overflows t ts (b + rounds e st b * st)).
    { intros O. exact (count_over t ts e st Ht Hts He Hst Hpos b Hb Hbe O n k C). }
    split.
    + intros S. destruct (Z_le_gt_dec (b + rounds e st b * st) (maxv u)); auto. exfalso. apply NO. split; auto. fold u. lia.
    + destruct (Z_lt_le_dec e (conv t (b + rounds e st b * st))) as [|L]; auto.
      pose proof (count_more t ts e st Ht Hts He Hst Hpos b Hb Hbe NO L n k C). lia.
  - intros [V1 [O L]]. assert (NO : ~ overflows t ts (b + rounds e st b * st)) by (intros [S N]; fold u in S, N; specialize (O S); lia).
    assert (NO1 : ~ overflows t ts (b + st)) by (intros [S N]; apply NO; split; auto; nia).
    assert (V' : is_valid_range t ts b e st = Some true) by (apply V; tauto). rewrite V'.
    eexists. exists (S (Z.to_nat (rounds e st b))). split.
    + intros fuel Hf. rewrite (count_right t ts e st) by auto. cbn [bind]. f_equal. apply fill_rounds; auto.
      * right. rewrite Ekn. unfold inty in *. nia.
      * right. rewrite Ekn. exact NO.
    + apply progression_from; auto.
Qed.

(** Begin > End: only Begin itself is inside, so the program is right exactly if End +
    Step is beyond Begin *)
Theorem range_descending : forall t ts b e st, std_ity t -> std_ity ts ->
  inty t b -> inty t e -> inty ts st -> 0 < st -> e < b ->
  let u := usual t ts in
  ((exists l n, (forall fuel, (n <= fuel)%nat -> make_array_from_range fuel t ts b e st = Some (Ok l)) /\
      progression b st e b l) <->
   conv u e < conv u (e + st) /\ b < e + st /\ (sgn u = true -> b + st <= maxv u) /\ b < conv t (e + st)).
Proof.
  intros t ts b e st Ht Hts Hb He Hst Hpos Hbe u.
  unfold make_array_from_range. rewrite Z.min_r, Z.max_l by lia.
  destruct (rounds_bounds b st Hpos e ltac:(lia)) as [R1 R2].
  pose proof (valid_value t ts b st Ht Hts Hb Hst Hpos e He ltac:(lia)) as V. fold u in V.
  assert (Ekn : Z.of_nat (Z.to_nat (rounds b st e)) = rounds b st e) by lia.
  split.
  - intros [l [n [H P]]]. specialize (H n (le_n n)).
    destruct (is_valid_range t ts e b st) as [[]|] eqn:VE; try discriminate.
    assert (V' := proj1 V eq_refl). split; [destruct V' as [V'|V']; [lia|tauto]|].
    injection H as H. apply bind_ok in H. destruct H as [k [C F]].
    assert (L1 : length l = 1%nat).
    { destruct P as [P1 P2]. destruct l as [|x [|y l]]; auto.
      - exfalso. apply P2. cbn. lia.
      - exfalso. destruct (P1 1%nat y eq_refl). lia. }
    assert (K1 : k = 1%nat) by (apply fill_length in F; lia). subst k.
    assert (NO : ~ overflows t ts (e + rounds b st e * st)).
    { intros O. exact (count_over t ts b st Ht Hts Hb Hst Hpos e He ltac:(lia) O n 1%nat C). }
    assert (G : b < e + st).
    { destruct (Z_lt_le_dec b (e + st)) as [|Q]; auto. exfalso.
      assert (2 <= rounds b st e) by nia.
      destruct (Z_lt_le_dec b (conv t (e + rounds b st e * st))) as [L|L].
      - pose proof (count_right t ts b st Ht Hts Hb Hst Hpos e He ltac:(lia) NO L (S (Z.to_nat (rounds b st e)) + n)%nat ltac:(lia)) as C'.
        assert (Up : forall f g x m, step_count f t ts x b st = Ok m -> step_count (g + f) t ts x b st = Ok m).
        { clear. intros f g. induction f as [|f IH]; intros x m H; [discriminate|].
          rewrite Nat.add_succ_r. cbn [step_count] in *. destruct (x <=? b); auto.
          apply bind_ok in H. destruct H as [s [H1 H2]]. rewrite H1. cbn [bind].
          apply bind_ok in H2. destruct H2 as [n' [H2 H3]]. rewrite (IH _ _ H2). exact H3. }
        rewrite (Up n (S (Z.to_nat (rounds b st e))) e 1%nat C) in C'. injection C' as C'. lia.
      - pose proof (count_more t ts b st Ht Hts Hb Hst Hpos e He ltac:(lia) NO L n 1%nat C). lia. }
    split; [exact G|]. assert (RE : rounds b st e = 1) by nia. rewrite RE in NO. split.
    + intros S. cbn [fill_range] in F. apply bind_ok in F. destruct F as [s [A _]].
      destruct (Z_le_gt_dec (b + st) (maxv u)); auto. exfalso.
      rewrite add_over in A; auto; [discriminate|split; auto; fold u; lia].
    + destruct (Z_lt_le_dec b (conv t (e + st))) as [|L]; auto.
      pose proof (count_more t ts b st Ht Hts Hb Hst Hpos e He ltac:(lia)) as M. rewrite RE in M.
      rewrite Z.mul_1_l in *. specialize (M NO L n 1%nat C). cbn in M. lia.
  - intros [V1 [G [O L]]]. assert (RE : rounds b st e = 1) by nia.
    assert (NOb : ~ overflows t ts (b + st)) by (intros [S N]; fold u in S, N; specialize (O S); lia).
    assert (NO : ~ overflows t ts (e + st)) by (intros [S N]; apply NOb; split; auto; lia).
    assert (V' : is_valid_range t ts e b st = Some true) by (apply V; tauto). rewrite V'.
    exists [b], 2%nat. split.
    + intros fuel Hf. assert (C := count_right t ts b st Ht Hts Hb Hst Hpos e He ltac:(lia)). rewrite RE, Z.mul_1_l in C.
      rewrite (C NO L fuel Hf). cbn [bind]. f_equal. change (Z.to_nat 1) with 1%nat.
      assert (F : fill_range 1 t ts b st = Ok (map (fun i => b + Z.of_nat i * st) (seq 0 1))).
      { apply fill_rounds; auto.
        - right. replace (b + (Z.of_nat 1 - 1) * st) with b by lia. exact Hb.
        - right. replace (b + Z.of_nat 1 * st) with (b + st) by lia. exact NOb. }
      rewrite F. cbn [seq map]. repeat f_equal. lia.
    + split; [|change (Z.of_nat (length [b])) with 1; lia].
      intros [|i] x H; [injection H as <-; change (Z.of_nat 0) with 0; lia|destruct i; discriminate].
Qed.
