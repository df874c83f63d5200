(** Lemmas about is_valid_range. *)

Require Import ZArith Lia Bool.
Require Import Verif.Outcome Verif.Machine Verif.ArithModel Verif.ArithProofs Verif.ValidSpec Verif.ValidModel.
Open Scope Z_scope.

Lemma usual_idem : forall a b, std_ity a -> std_ity b -> usual a (usual a b) = usual a b.
Proof. intros a b Ha Hb. std_cases a Ha; std_cases b Hb; reflexivity. Qed.

(** one type for Begin and End: the definition used by make_array_from_range *)
Lemma valid_same : forall t ts b e st, std_ity t -> inty t b -> inty t e ->
  valid_range t t ts b e st = is_valid_range t ts b e st.
Proof.
  intros t ts b e st Ht Hb He. unfold valid_range, is_valid_range, cmp_eq.
  assert (P := std_bits_pos _ (usual_std _ _ Ht Ht)).
  assert (K : forall x, inty t x -> conv (usual t t) x = x).
  { intros x Hx. apply conv_id; auto. clear - Ht Hx. std_cases t Ht; unfold inty, minv, maxv, usual, promote in *; cbn in *; lia. }
  unfold cmp_lt at 1. rewrite !K by auto. reflexivity.
Qed.

Lemma valid_right : forall tb te ts b e st, std_ity tb -> std_ity te -> std_ity ts ->
  inty (usual tb te) b -> inty (usual tb te) e ->
  inty (usual tb ts) b -> inty (usual tb ts) st -> inty (usual tb ts) (b + st) ->
  exists v, valid_range tb te ts b e st = Some v /\ (v = true <-> steps_toward b e st).
Proof.
  intros tb te ts b e st Hb He Hs B1 E1 B2 S2 BS2.
  assert (P1 := std_bits_pos _ (usual_std _ _ Hb He)). assert (P2 := std_bits_pos _ (usual_std _ _ Hb Hs)).
  unfold valid_range, cmp_lt, cmp_eq. rewrite (usual_idem tb ts) by auto. rewrite !(conv_id _ b), !(conv_id _ e) by auto.
  unfold add. rewrite !conv_id by auto. unfold steps_toward.
  assert (A : arith (usual tb ts) (b + st) = Ok (b + st)).
  { unfold arith. destruct (sgn (usual tb ts)) eqn:S.
    - unfold intyb. destruct BS2. replace (minv (usual tb ts) <=? b + st) with true by (symmetry; apply Z.leb_le; auto).
      replace (b + st <=? maxv (usual tb ts)) with true by (symmetry; apply Z.leb_le; auto). reflexivity.
    - f_equal. apply wrap_id. unfold inty, minv, maxv in BS2. rewrite S in BS2. lia. }
  rewrite A. cbn [const]. rewrite (conv_id _ (b + st)) by auto.
  destruct (Z.ltb_spec b e); eexists; (split; [reflexivity|]).
  - rewrite orb_true_iff, Z.ltb_lt, Z.eqb_eq. lia.
  - rewrite Z.eqb_eq. lia.
Qed.

(** a negative Begin and an unsigned End *)
Lemma valid_negative_begin : forall tb te ts b e st, std_ity tb -> std_ity te -> sgn tb = true -> sgn te = false ->
  32 <= bits te -> bits tb <= bits te -> inty tb b -> inty te e -> b < 0 -> e < b + 2 ^ bits te ->
  valid_range tb te ts b e st = Some false.
Proof.
  intros tb te ts b e st Hb He Sb Se W1 W2 Ib Ie N L.
  assert (U : usual tb te = te).
  { clear - Hb He Sb Se W1 W2. std_cases tb Hb; cbn in Sb; try discriminate Sb; std_cases te He; cbn in *; try discriminate Se; try lia; reflexivity. }
  assert (P := std_bits_pos te He). assert (PP : 0 < 2 ^ bits te) by (apply Z.pow_pos_nonneg; lia).
  assert (Mb : - 2 ^ bits te <= b).
  { unfold inty, minv in Ib. rewrite Sb in Ib. assert (2 ^ (bits tb - 1) <= 2 ^ bits te) by (apply Z.pow_le_mono_r; lia). lia. }
  assert (Cb : conv te b = b + 2 ^ bits te).
  { unfold conv. rewrite Se. unfold wrap. symmetry. apply Z.mod_unique with (-1); lia. }
  unfold valid_range, cmp_lt, cmp_eq. rewrite U, Cb. rewrite (conv_id te e) by auto.
  replace (b + 2 ^ bits te <? e) with false by (symmetry; apply Z.ltb_ge; lia).
  f_equal. apply Z.eqb_neq. lia.
Qed.

(** an unsigned Begin and a negative End *)
Lemma valid_negative_end : forall tb te ts b e st, std_ity tb -> std_ity te -> std_ity ts -> sgn tb = false -> sgn te = true ->
  32 <= bits tb -> bits te <= bits tb -> inty tb b -> inty te e -> e < 0 -> b < e + 2 ^ bits tb ->
  bits ts <= bits tb -> inty ts st -> 0 < st -> b + st < 2 ^ bits tb ->
  valid_range tb te ts b e st = Some true.
Proof.
  intros tb te ts b e st Hb He Hs Sb Se W1 W2 Ib Ie N L W3 Is St F.
  assert (U : usual tb te = tb).
  { clear - Hb He Sb Se W1 W2. std_cases tb Hb; cbn in Sb; try discriminate Sb; std_cases te He; cbn in *; try discriminate Se; try lia; reflexivity. }
  assert (U2 : usual tb ts = tb).
  { clear - Hb Hs Sb W1 W3. std_cases tb Hb; cbn in Sb; try discriminate Sb; std_cases ts Hs; cbn in *; try lia; reflexivity. }
  assert (U3 : usual tb tb = tb).
  { clear - Hb Sb W1. std_cases tb Hb; cbn in Sb; try discriminate Sb; cbn in *; try lia; reflexivity. }
  assert (P := std_bits_pos tb Hb). assert (PP : 0 < 2 ^ bits tb) by (apply Z.pow_pos_nonneg; lia).
  assert (Ib' : 0 <= b < 2 ^ bits tb) by (unfold inty, minv, maxv in Ib; rewrite Sb in Ib; lia).
  assert (Me : - 2 ^ bits tb <= e).
  { unfold inty, minv in Ie. rewrite Se in Ie. assert (2 ^ (bits te - 1) <= 2 ^ bits tb) by (apply Z.pow_le_mono_r; lia). lia. }
  assert (Ce : conv tb e = e + 2 ^ bits tb).
  { unfold conv. rewrite Sb. unfold wrap. symmetry. apply Z.mod_unique with (-1); lia. }
  assert (K : forall x, 0 <= x < 2 ^ bits tb -> conv tb x = x).
  { intros x Hx. unfold conv. rewrite Sb. apply wrap_id. exact Hx. }
  unfold valid_range, cmp_lt, cmp_eq, add, arith. rewrite !U, !U2, !U3, Sb, Ce, (K b), (K st) by lia.
  rewrite (wrap_id _ (b + st)) by lia. cbn [const]. rewrite (K (b + st)) by lia.
  replace (b <? e + 2 ^ bits tb) with true by (symmetry; apply Z.ltb_lt; lia).
  replace (b <? b + st) with true by (symmetry; apply Z.ltb_lt; lia). reflexivity.
Qed.

(** the first step of an unsigned range wraps around *)
Lemma valid_wraps : forall t b e st, std_ity t -> sgn t = false -> 32 <= bits t -> inty t b -> inty t e -> inty t st ->
  b < e -> 2 ^ bits t <= b + st -> valid_range t t t b e st = Some false.
Proof.
  intros t b e st Ht S W Ib Ie Is L F.
  assert (U : usual t t = t).
  { clear - Ht S W. std_cases t Ht; cbn in *; try discriminate S; try lia; reflexivity. }
  assert (P := std_bits_pos t Ht). unfold inty, minv, maxv in *. rewrite S in *.
  assert (K : forall x, 0 <= x < 2 ^ bits t -> conv t x = x).
  { intros x Hx. unfold conv. rewrite S. apply wrap_id. exact Hx. }
  unfold valid_range, cmp_lt, cmp_eq, add, arith. rewrite !U, S, (K b), (K e), (K st) by lia. cbn [const].
  assert (Wr : wrap (bits t) (b + st) = b + st - 2 ^ bits t).
  { unfold wrap. symmetry. apply Z.mod_unique with 1; lia. }
  rewrite Wr, K by lia. replace (b <? e) with true by (symmetry; apply Z.ltb_lt; lia).
  replace (b <? b + st - 2 ^ bits t) with false by (symmetry; apply Z.ltb_ge; lia).
  replace (b =? e) with false by (symmetry; apply Z.eqb_neq; lia). reflexivity.
Qed.

(** the first step of a signed range overflows *)
Lemma valid_overflows : forall t b e st, std_ity t -> sgn t = true -> 32 <= bits t -> inty t b -> inty t e -> inty t st ->
  b < e -> maxv t < b + st -> valid_range t t t b e st = None.
Proof.
  intros t b e st Ht S W Ib Ie Is L F.
  assert (U : usual t t = t).
  { clear - Ht S W. std_cases t Ht; cbn in *; try discriminate S; try lia; reflexivity. }
  assert (P := std_bits_pos t Ht).
  unfold valid_range, cmp_lt, cmp_eq, add, arith. rewrite !U, S, !conv_id by auto.
  replace (b <? e) with true by (symmetry; apply Z.ltb_lt; lia).
  unfold intyb. replace (b + st <=? maxv t) with false by (symmetry; apply Z.leb_gt; lia). rewrite andb_false_r. reflexivity.
Qed.

(** exactly which ranges are valid, with operands of one type *)
Lemma valid_exact : forall t b e st, std_ity t -> inty t b -> inty t e -> inty t st ->
  (valid_range t t t b e st = Some true <->
   b = e \/ (b < e /\ 0 < st /\ b + st <= maxv (promote t))) /\
  (valid_range t t t b e st = None <->
   b < e /\ sgn (promote t) = true /\ ~ inty (promote t) (b + st)).
Proof.
  intros t b e st Ht Ib Ie Is.
  assert (U : usual t t = promote t) by (clear - Ht; std_cases t Ht; reflexivity).
  assert (U2 : usual t (promote t) = promote t) by (clear - Ht; std_cases t Ht; reflexivity).
  assert (P : 0 < bits (promote t)) by (clear - Ht; std_cases t Ht; reflexivity).
  assert (K : forall x, inty t x -> inty (promote t) x).
  { clear - Ht. intros x Hx. std_cases t Ht; unfold inty, minv, maxv, promote in *; cbn in *; lia. }
  unfold valid_range, cmp_lt, cmp_eq, add, arith. rewrite !U, U2, !conv_id by auto.
  apply K in Ib as Jb. apply K in Ie as Je. apply K in Is as Js.
  destruct (Z.ltb_spec b e) as [L|L].
  2:{ split; [|split; [discriminate|lia]]. split; [intros H; injection H as H; apply Z.eqb_eq in H; auto|].
      intros [->|[H _]]; [rewrite Z.eqb_refl; reflexivity|lia]. }
  replace (b =? e) with false by (symmetry; apply Z.eqb_neq; lia).
  destruct (sgn (promote t)) eqn:S.
  - destruct (intyb (promote t) (b + st)) eqn:I.
    + cbn [const]. assert (IP : inty (promote t) (b + st)).
      { unfold intyb in I. apply andb_true_iff in I. rewrite !Z.leb_le in I. exact I. }
      rewrite conv_id by auto. rewrite orb_false_r. split.
      * split; [intros H; injection H as H; apply Z.ltb_lt in H; right; destruct IP; lia|].
        intros [H|[_ [H _]]]; [lia|]. f_equal. apply Z.ltb_lt. lia.
      * split; [discriminate|]. intros [_ [_ H]]. contradiction.
    + cbn [const]. assert (IP : ~ inty (promote t) (b + st)).
      { intros [H1 H2]. unfold intyb in I. apply Z.leb_le in H1. apply Z.leb_le in H2. rewrite H1, H2 in I. discriminate I. }
      split; [|split; auto]. split; [discriminate|]. intros [H|[_ [H1 H2]]]; [lia|].
      exfalso. apply IP. split; [|exact H2]. destruct Jb. lia.
  - cbn [const]. unfold inty, minv, maxv in Jb, Je, Js. rewrite S in *.
    assert (C : conv (promote t) (wrap (bits (promote t)) (b + st)) = wrap (bits (promote t)) (b + st)).
    { unfold conv. rewrite S. apply wrap_id. apply wrap_range. lia. }
    rewrite C, orb_false_r. split; [|split; [discriminate|intros [_ [H _]]; discriminate H]].
    unfold maxv. rewrite S. destruct (Z.lt_ge_cases (b + st) (2 ^ bits (promote t))) as [F|F].
    + rewrite wrap_id by lia. split; [intros H; injection H as H; apply Z.ltb_lt in H; right; lia|].
      intros [H|[_ [H _]]]; [lia|]. f_equal. apply Z.ltb_lt. lia.
    + assert (Wr : wrap (bits (promote t)) (b + st) = b + st - 2 ^ bits (promote t)).
      { unfold wrap. symmetry. apply Z.mod_unique with 1; lia. }
      rewrite Wr. split; [intros H; injection H as H; apply Z.ltb_lt in H; lia|].
      intros [H|[_ [_ H]]]; lia.
Qed.

(** the same with what the answer should have been *)
Lemma refuse_negative_begin : forall tb te ts b e st, std_ity tb -> std_ity te -> sgn tb = true -> sgn te = false ->
  32 <= bits te -> bits tb <= bits te -> inty tb b -> inty te e -> b < 0 -> e < b + 2 ^ bits te -> 0 < st ->
  steps_toward b e st /\ valid_range tb te ts b e st = Some false.
Proof.
  intros. split; [|apply valid_negative_begin; auto]. right.
  match goal with H : inty te e, S : sgn te = false |- _ => unfold inty, minv in H; rewrite S in H end. lia.
Qed.

Lemma accept_negative_end : forall tb te ts b e st, std_ity tb -> std_ity te -> std_ity ts -> sgn tb = false -> sgn te = true ->
  32 <= bits tb -> bits te <= bits tb -> inty tb b -> inty te e -> e < 0 -> b < e + 2 ^ bits tb ->
  bits ts <= bits tb -> inty ts st -> 0 < st -> b + st < 2 ^ bits tb ->
  ~ steps_toward b e st /\ valid_range tb te ts b e st = Some true.
Proof.
  intros. split; [|apply valid_negative_end; auto]. unfold steps_toward.
  match goal with H : inty tb b, S : sgn tb = false |- _ => unfold inty, minv in H; rewrite S in H end. lia.
Qed.

Lemma refuse_wraps : forall t b e st, std_ity t -> sgn t = false -> 32 <= bits t -> inty t b -> inty t e -> inty t st ->
  b < e -> 2 ^ bits t <= b + st -> steps_toward b e st /\ valid_range t t t b e st = Some false.
Proof.
  intros. split; [|apply valid_wraps; auto]. right.
  match goal with H : inty t b, S : sgn t = false |- _ => unfold inty, maxv in H; rewrite S in H end. lia.
Qed.

Lemma reject_overflows : forall t b e st, std_ity t -> sgn t = true -> 32 <= bits t -> inty t b -> inty t e -> inty t st ->
  b < e -> maxv t < b + st -> steps_toward b e st /\ valid_range t t t b e st = None.
Proof.
  intros. split; [|apply valid_overflows; auto]. right. unfold inty in *. lia.
Qed.
