(** Proofs of the laws by which the memory functions combine. *)

Require Import ZArith List Bool Lia.
Require Import Verif.Outcome Verif.Machine Verif.MemModel Verif.MemSpec Verif.MemProofs Verif.MemEdgeProofs.
Import ListNotations.
Open Scope Z_scope.
Open Scope res_scope.

Lemma replaced_known : forall m m' d n f, range_replaced m m' d n f ->
  forall a, m' a = if (d <=? a) && (a <? d + Z.of_nat n) then f (a - d) else m a.
Proof.
  intros m m' d n f [I O] a.
  destruct (Z.leb_spec d a); cbn [andb].
  - destruct (Z.ltb_spec a (d + Z.of_nat n)).
    + replace a with (d + (a - d)) at 1 by lia. apply I. lia.
    + apply O. lia.
  - apply O. lia.
Qed.

Lemma accessible_kept : forall m m' d n f p k, range_replaced m m' d n f ->
  (forall i, 0 <= i < Z.of_nat n -> f i <> None) ->
  accessible m p k -> accessible m' p k.
Proof.
  intros m m' d n f p k R F A i Hi. rewrite (replaced_known _ _ _ _ _ R).
  destruct (Z.leb_spec d (p + i)); cbn [andb]; [|apply A; lia].
  destruct (Z.ltb_spec (p + i) (d + Z.of_nat n)); [apply F; lia | apply A; lia].
Qed.

(** zeroed memory compares equal to zero *)
Lemma zero_then_compare : forall m p size, p <> 0 -> (0 < size)%nat -> accessible m p size ->
  exists m', secure_zero_memory m p size = Ok m' /\ memvcmp m' p 0 size = Ok true.
Proof.
  intros m p size Np Hs A. destruct (secure_zero_correct m p size A) as [m' [E R]].
  exists m'. split; auto.
  assert (A' : accessible m' p size) by (eapply accessible_kept; eauto; discriminate).
  destruct (memvcmp_correct m' p 0 size A') as [b [Eb Hb]]. rewrite Eb. f_equal.
  apply Hb. split; auto. split; auto. intros i Hi. apply (proj1 R); auto.
Qed.

Lemma zero_twice : forall m p size, accessible m p size ->
  exists m1 m2, secure_zero_memory m p size = Ok m1 /\ secure_zero_memory m1 p size = Ok m2 /\
    forall a, m2 a = m1 a.
Proof.
  intros m p size A. destruct (secure_zero_correct m p size A) as [m1 [E1 R1]].
  assert (A1 : accessible m1 p size) by (eapply accessible_kept; eauto; discriminate).
  destruct (secure_zero_correct m1 p size A1) as [m2 [E2 R2]].
  exists m1, m2. split; auto. split; auto. intros a.
  rewrite (replaced_known _ _ _ _ _ R2), (replaced_known _ _ _ _ _ R1).
  destruct ((p <=? a) && (a <? p + Z.of_nat size)); reflexivity.
Qed.

(** two pieces, one call each, against one call for both *)
Lemma zero_pieces : forall m p a b, accessible m p (a + b) ->
  exists m1 m2 m3, secure_zero_memory m p a = Ok m1 /\
    secure_zero_memory m1 (p + Z.of_nat a) b = Ok m2 /\
    secure_zero_memory m p (a + b) = Ok m3 /\ forall x, m2 x = m3 x.
Proof.
  intros m p a b A.
  assert (Aa : accessible m p a) by (intros i Hi; apply A; lia).
  assert (Ab : accessible m (p + Z.of_nat a) b)
    by (intros i Hi; rewrite <- Z.add_assoc; apply A; lia).
  destruct (secure_zero_correct m p a Aa) as [m1 [E1 R1]].
  assert (A1 : accessible m1 (p + Z.of_nat a) b) by (eapply accessible_kept; eauto; discriminate).
  destruct (secure_zero_correct m1 _ b A1) as [m2 [E2 R2]].
  destruct (secure_zero_correct m p (a + b) A) as [m3 [E3 R3]].
  exists m1, m2, m3. repeat (split; auto). intros x.
  rewrite (replaced_known _ _ _ _ _ R2), (replaced_known _ _ _ _ _ R1), (replaced_known _ _ _ _ _ R3).
  rewrite Nat2Z.inj_add.
  destruct (Z.leb_spec (p + Z.of_nat a) x), (Z.ltb_spec x (p + Z.of_nat a + Z.of_nat b)),
    (Z.leb_spec p x), (Z.ltb_spec x (p + Z.of_nat a)), (Z.ltb_spec x (p + (Z.of_nat a + Z.of_nat b)));
    cbn [andb]; try reflexivity; lia.
Qed.

Lemma compare_pieces : forall m p v a b, p <> 0 -> p + Z.of_nat a <> 0 -> (0 < a)%nat -> (0 < b)%nat ->
  accessible m p (a + b) ->
  exists x y z, memvcmp m p v a = Ok x /\ memvcmp m (p + Z.of_nat a) v b = Ok y /\
    memvcmp m p v (a + b) = Ok z /\ z = x && y.
Proof.
  intros m p v a b Np Nq Ha Hb A.
  assert (Aa : accessible m p a) by (intros i Hi; apply A; lia).
  assert (Ab : accessible m (p + Z.of_nat a) b)
    by (intros i Hi; rewrite <- Z.add_assoc; apply A; lia).
  destruct (memvcmp_correct m p v a Aa) as [x [Ex Hx]].
  destruct (memvcmp_correct m _ v b Ab) as [y [Ey Hy]].
  destruct (memvcmp_correct m p v (a + b) A) as [z [Ez Hz]].
  exists x, y, z. repeat (split; auto).
  apply eq_true_iff_eq. rewrite andb_true_iff, Hx, Hy, Hz. split.
  - intros [_ [_ F]]. split; (split; [auto|split; [auto|]]).
    + intros i Hi. apply F. lia.
    + intros i Hi. rewrite <- Z.add_assoc. apply F. lia.
  - intros [[_ [_ F]] [_ [_ G]]]. split; auto. split; [lia|]. intros i Hi.
    destruct (Z.lt_ge_cases i (Z.of_nat a)); [apply F; lia|].
    replace (p + i) with (p + Z.of_nat a + (i - Z.of_nat a)) by lia. apply G. lia.
Qed.

(** a byte value is at most one *)
Lemma compare_one_value : forall m p v w size, accessible m p size ->
  memvcmp m p v size = Ok true -> memvcmp m p w size = Ok true -> v = w.
Proof.
  intros m p v w size A V W.
  destruct (memvcmp_correct m p v size A) as [x [Ex Hx]]. rewrite V in Ex.
  destruct (memvcmp_correct m p w size A) as [y [Ey Hy]]. rewrite W in Ey.
  assert (x = true) by congruence. assert (y = true) by congruence.
  destruct (proj1 Hx H) as [_ [S F]]. destruct (proj1 Hy H0) as [_ [_ G]].
  specialize (F 0 ltac:(lia)). specialize (G 0 ltac:(lia)). congruence.
Qed.

(** memmove *)
Lemma move_same : forall m p n, accessible m p n ->
  exists m', memmove_runtime m p p n = Ok (p, m') /\ forall a, m' a = m a.
Proof.
  intros m p n A. destruct (memmove_runtime_correct m p p n A A) as [m' [E R]].
  exists m'. split; auto. intros a. rewrite (replaced_known _ _ _ _ _ R).
  destruct ((p <=? a) && (a <? p + Z.of_nat n)); auto. f_equal. lia.
Qed.

(** moving away and back puts back every byte, whatever the overlap *)
Lemma move_back : forall m p q n, accessible m p n -> accessible m q n ->
  exists m1 m2, memmove_runtime m q p n = Ok (q, m1) /\ memmove_runtime m1 p q n = Ok (p, m2) /\
    (forall i, 0 <= i < Z.of_nat n -> m2 (p + i) = m (p + i)) /\
    (forall a, (a < p \/ p + Z.of_nat n <= a) -> m2 a = m1 a).
Proof.
  intros m p q n Ap Aq. destruct (memmove_runtime_correct m q p n Aq Ap) as [m1 [E1 R1]].
  assert (F : forall i, 0 <= i < Z.of_nat n -> m (p + i) <> None) by (intros; apply Ap; auto).
  assert (Ap1 : accessible m1 p n) by (eapply (accessible_kept m m1 q n); eauto).
  assert (Aq1 : accessible m1 q n) by (eapply (accessible_kept m m1 q n); eauto).
  destruct (memmove_runtime_correct m1 p q n Ap1 Aq1) as [m2 [E2 R2]].
  exists m1, m2. repeat (split; auto).
  - intros i Hi. rewrite (proj1 R2) by auto. apply (proj1 R1); auto.
  - apply (proj2 R2).
Qed.

(** in one step or in two *)
Lemma move_twice : forall m p q r n, accessible m p n -> accessible m q n -> accessible m r n ->
  exists m1 m2 m3, memmove_runtime m q p n = Ok (q, m1) /\ memmove_runtime m1 r q n = Ok (r, m2) /\
    memmove_runtime m r p n = Ok (r, m3) /\
    (forall i, 0 <= i < Z.of_nat n -> m2 (r + i) = m3 (r + i)).
Proof.
  intros m p q r n Ap Aq Ar. destruct (memmove_runtime_correct m q p n Aq Ap) as [m1 [E1 R1]].
  assert (F : forall i, 0 <= i < Z.of_nat n -> m (p + i) <> None) by (intros; apply Ap; auto).
  assert (Aq1 : accessible m1 q n) by (eapply (accessible_kept m m1 q n); eauto).
  assert (Ar1 : accessible m1 r n) by (eapply (accessible_kept m m1 q n); eauto).
  destruct (memmove_runtime_correct m1 r q n Ar1 Aq1) as [m2 [E2 R2]].
  destruct (memmove_runtime_correct m r p n Ar Ap) as [m3 [E3 R3]].
  exists m1, m2, m3. repeat (split; auto). intros i Hi.
  rewrite (proj1 R2), (proj1 R3), (proj1 R1) by auto. reflexivity.
Qed.

(** memmove and memcpy are the same function where memcpy is defined *)
Lemma move_copy : forall dbg m dst src n m', dst <> 0 -> src <> 0 ->
  memcpy_runtime dbg m dst src n = Ok m' ->
  exists m2, memmove_runtime m dst src n = Ok (dst, m2) /\ forall a, m2 a = m' a.
Proof.
  intros dbg m dst src n m' Nd Ns H.
  assert (N : ~ memcpy_runtime dbg m dst src n = UB) by (rewrite H; discriminate).
  unfold memcpy_runtime, std_memcpy in H.
  destruct (Z.eqb_spec dst 0); [contradiction|]. destruct (Z.eqb_spec src 0); [contradiction|].
  unfold cassert in H. cbn [negb] in H. rewrite !andb_false_r in H || idtac.
  destruct dbg; cbn in H;
  destruct (overlapping dst src (Z.of_nat n)); try discriminate;
  unfold memmove_runtime; destruct (load_range m src n); try discriminate; cbn [bind] in *;
  rewrite H; cbn [bind]; eauto.
Qed.

(** copying twice is copying once *)
Lemma copy_twice : forall dbg m dst src n, dst <> 0 -> src <> 0 ->
  accessible m dst n -> accessible m src n -> disjoint_ranges dst src n ->
  exists m1 m2, memcpy_runtime dbg m dst src n = Ok m1 /\ memcpy_runtime dbg m1 dst src n = Ok m2 /\
    forall a, m2 a = m1 a.
Proof.
  intros dbg m dst src n Nd Ns Ad As D.
  destruct (memcpy_runtime_correct dbg m dst src n) as [m1 [E1 R1]]; auto.
  assert (F : forall i, 0 <= i < Z.of_nat n -> m (src + i) <> None) by (intros; apply As; auto).
  assert (Ad1 : accessible m1 dst n) by (eapply (accessible_kept m m1 dst n); eauto).
  assert (As1 : accessible m1 src n) by (eapply (accessible_kept m m1 dst n); eauto).
  destruct (memcpy_runtime_correct dbg m1 dst src n) as [m2 [E2 R2]]; auto.
  exists m1, m2. split; auto. split; auto. intros a.
  rewrite (replaced_known _ _ _ _ _ R2). destruct (Z.leb_spec dst a); cbn [andb]; auto.
  destruct (Z.ltb_spec a (dst + Z.of_nat n)); auto.
  replace a with (dst + (a - dst)) at 2 by lia. rewrite (proj1 R1) by lia.
  apply (proj2 R1). unfold disjoint_ranges in D. lia.
Qed.

(** copies into disjoint ranges from ranges the other does not write commute *)
Lemma copies_commute : forall dbg m d1 s1 d2 s2 n1 n2,
  d1 <> 0 -> s1 <> 0 -> d2 <> 0 -> s2 <> 0 ->
  accessible m d1 n1 -> accessible m s1 n1 -> accessible m d2 n2 -> accessible m s2 n2 ->
  disjoint_ranges d1 s1 n1 -> disjoint_ranges d2 s2 n2 ->
  (d1 + Z.of_nat n1 <= d2 \/ d2 + Z.of_nat n2 <= d1) ->
  (d1 + Z.of_nat n1 <= s2 \/ s2 + Z.of_nat n2 <= d1) ->
  (d2 + Z.of_nat n2 <= s1 \/ s1 + Z.of_nat n1 <= d2) ->
  exists a b c d,
    memcpy_runtime dbg m d1 s1 n1 = Ok a /\ memcpy_runtime dbg a d2 s2 n2 = Ok b /\
    memcpy_runtime dbg m d2 s2 n2 = Ok c /\ memcpy_runtime dbg c d1 s1 n1 = Ok d /\
    forall x, b x = d x.
Proof.
  intros dbg m d1 s1 d2 s2 n1 n2 N1 N2 N3 N4 A1 A2 A3 A4 D1 D2 X1 X2 X3.
  destruct (memcpy_runtime_correct dbg m d1 s1 n1) as [a [Ea Ra]]; auto.
  destruct (memcpy_runtime_correct dbg m d2 s2 n2) as [c [Ec Rc]]; auto.
  assert (F1 : forall i, 0 <= i < Z.of_nat n1 -> m (s1 + i) <> None) by (intros; apply A2; auto).
  assert (F2 : forall i, 0 <= i < Z.of_nat n2 -> m (s2 + i) <> None) by (intros; apply A4; auto).
  destruct (memcpy_runtime_correct dbg a d2 s2 n2) as [b [Eb Rb]]; auto;
    try (eapply (accessible_kept m a d1 n1); eauto; fail).
  destruct (memcpy_runtime_correct dbg c d1 s1 n1) as [d [Ed Rd]]; auto;
    try (eapply (accessible_kept m c d2 n2); eauto; fail).
  exists a, b, c, d. repeat (split; auto). intros x.
  rewrite (replaced_known _ _ _ _ _ Rb), (replaced_known _ _ _ _ _ Rd).
  rewrite !(replaced_known _ _ _ _ _ Ra), !(replaced_known _ _ _ _ _ Rc).
  repeat match goal with
  | |- context [?u <=? ?v] => destruct (Z.leb_spec u v)
  | |- context [?u <? ?v] => destruct (Z.ltb_spec u v)
  end; cbn [andb]; try reflexivity; try lia; f_equal; lia.
Qed.

(** an object cast to bytes, moved anywhere and cast back *)
Lemma cast_copy : forall dbg m dst src n tmp1 tmp2, dst <> 0 -> src <> 0 ->
  accessible m dst n -> accessible m src n -> disjoint_ranges dst src n ->
  accessible m tmp1 n -> disjoint_ranges tmp1 src n ->
  exists m' l, memcpy_runtime dbg m dst src n = Ok m' /\
    bit_cast m tmp1 src n n = Some (Ok l) /\
    (accessible m' tmp2 n -> disjoint_ranges tmp2 dst n -> bit_cast m' tmp2 dst n n = Some (Ok l)).
Proof.
  intros dbg m dst src n tmp1 tmp2 Nd Ns Ad As D At Dt.
  destruct (memcpy_runtime_correct dbg m dst src n) as [m' [E R]]; auto.
  assert (F : forall i, 0 <= i < Z.of_nat n -> m (src + i) <> None) by (intros; apply As; auto).
  assert (Ad1 : accessible m' dst n) by (eapply (accessible_kept m m' dst n); eauto).
  destruct (bit_cast_correct m tmp1 src n At As Dt) as [l [El [E2 L]]].
  exists m', l. split; auto. split; auto. intros A2 D2.
  destruct (bit_cast_correct m' tmp2 dst n A2 Ad1 D2) as [l2 [El2 [E3 L2]]].
  rewrite El2. do 2 f_equal.
  destruct (load_range_ok n m src As) as [k [K1 [_ K]]]. assert (k = l) by congruence. subst k.
  destruct (load_range_ok n m' dst Ad1) as [k2 [K3 [_ K4]]]. assert (k2 = l2) by congruence. subst k2.
  apply nth_ext with (d := 0) (d' := 0); [congruence|]. intros i Hi. rewrite L2 in Hi.
  assert (nth_error l2 i = nth_error l i).
  { rewrite K, K4 by auto. apply (proj1 R). lia. }
  destruct (nth_error l i) eqn:X.
  - rewrite (nth_error_nth _ _ 0 X), (nth_error_nth _ _ 0 H). reflexivity.
  - apply nth_error_None in X. lia.
Qed.

(** arrays *)
Lemma cat_assoc : forall T (a b c : list T),
  match concatenate_arrays T [a; b], concatenate_arrays T [b; c] with
  | Some ab, Some bc =>
    concatenate_arrays T [ab; c] = concatenate_arrays T [a; bc] /\
    concatenate_arrays T [ab; c] = concatenate_arrays T [a; b; c]
  | _, _ => False
  end.
Proof.
  intros T a b c. rewrite !concatenate_arrays_correct by discriminate.
  cbn [concat]. rewrite !app_nil_r, <- app_assoc. auto.
Qed.

Lemma cat_empty : forall T (a : list T),
  concatenate_arrays T [a; []] = Some a /\ concatenate_arrays T [[]; a] = Some a /\
  concatenate_arrays T [a] = Some a.
Proof.
  intros T a. rewrite !concatenate_arrays_correct by discriminate.
  cbn [concat]. rewrite !app_nil_r. auto.
Qed.

(** splitting a view at [k] and joining the two arrays gives the array of the whole *)
Lemma cat_views : forall T dbg k n (sv : list T), (k <= n)%nat -> (n <= length sv)%nat ->
  exists a b c,
    make_array_sv T (fun x => x) dbg k sv = Ok a /\
    make_array_sv T (fun x => x) dbg (n - k) (skipn k sv) = Ok b /\
    make_array_sv T (fun x => x) dbg n sv = Ok c /\
    concatenate_arrays T [a; b] = Some c.
Proof.
  intros T dbg k n sv Hk Hn.
  rewrite !make_array_sv_correct by (rewrite ?skipn_length; lia).
  eexists _, _, _. repeat (split; [reflexivity|]).
  rewrite concatenate_arrays_correct by discriminate. cbn [concat]. rewrite !map_id, app_nil_r.
  f_equal. rewrite <- (firstn_skipn k (firstn n sv)), firstn_firstn, Nat.min_l by lia.
  rewrite skipn_firstn_comm. reflexivity.
Qed.
