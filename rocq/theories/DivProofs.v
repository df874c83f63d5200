(** div_t{q, r} and bool operands of div *)

Require Import ZArith List Bool Lia.
Require Import Verif.Outcome Verif.Machine Verif.BitsSpec Verif.ArithModel Verif.ArithSpec Verif.ArithProofs.
Open Scope Z_scope.

Lemma operand_bits : forall t, operand_ity t -> 0 < bits t.
Proof. intros t [H| ->]; [apply std_bits_pos; auto|reflexivity]. Qed.

Lemma range_order : forall t, operand_ity t -> minv t <= maxv t.
Proof.
  intros t H. pose proof (operand_bits t H). unfold minv, maxv.
  assert (1 <= 2 ^ (bits t - 1)) by (apply (Z.pow_le_mono_r 2 0); lia).
  assert (1 <= 2 ^ bits t) by (apply (Z.pow_le_mono_r 2 0); lia).
  destruct (sgn t); lia.
Qed.

Lemma no_narrowing_iff : forall t c, operand_ity t ->
  no_narrowing t c = true <-> forall x, inty t x -> inty c x.
Proof.
  intros t c H. pose proof (range_order t H) as R. unfold no_narrowing, inty.
  rewrite andb_true_iff, !Z.leb_le. split.
  - intros [A B] x Hx. lia.
  - intros F. pose proof (F (minv t) ltac:(lia)). pose proof (F (maxv t) ltac:(lia)). lia.
Qed.

Lemma ity_eqb_same : forall t u, ity_eqb t u = true -> t = u.
Proof.
  intros [b s] [b' s'] H. unfold ity_eqb in H. cbn in H. apply andb_true_iff in H. destruct H as [H1 H2].
  apply Z.eqb_eq in H1. apply eqb_prop in H2. congruence.
Qed.

Lemma deduced_common : forall a b t u, otype a = Some t -> otype b = Some u -> deduced a b = Some (common t u).
Proof.
  intros a b t u Ha Hb. unfold deduced, guide_same, guide_two, common. rewrite Ha, Hb.
  destruct (ity_eqb t u); reflexivity.
Qed.

Lemma common_operand : forall t u, operand_ity t -> operand_ity u -> operand_ity (common t u).
Proof.
  intros t u Ht Hu. unfold common. destruct (ity_eqb t u); auto. left.
  assert (P : forall x, operand_ity x -> std_ity (promote x) /\ bits (promote x) <> 8).
  { intros x [Hx| ->]; [|split; [right; right; left|]; cbv; congruence].
    unfold promote. destruct (Z.ltb_spec (bits x) 32).
    - split; [right; right; left; reflexivity|cbv; congruence].
    - split; auto; lia. }
  destruct (P t Ht) as [T _], (P u Hu) as [U _]. unfold usual. cbv zeta.
  destruct (bits (promote t) <? bits (promote u)); auto.
  destruct (bits (promote u) <? bits (promote t)); auto.
  destruct (sgn (promote t)); auto.
Qed.

Lemma initialises_iff : forall c o t, otype o = Some t -> operand_ity t ->
  list_initialises c o = true <-> keeps_value t c (oconst o) (ovalue o).
Proof.
  intros c o t E H. unfold list_initialises, keeps_value. rewrite E.
  destruct (oconst o); [unfold intyb, inty; rewrite andb_true_iff, !Z.leb_le; tauto|apply no_narrowing_iff; auto].
Qed.

Lemma kept_inty : forall c o t, keeps_value t c (oconst o) (ovalue o) -> inty t (ovalue o) -> inty c (ovalue o).
Proof. intros c o t K I. unfold keeps_value in K. destruct (oconst o); auto. Qed.

Lemma conv_bool : forall x, inty bool_t x -> conv bool_t x = x.
Proof. intros x H. unfold inty, minv, maxv in H. cbn in H. assert (x = 0 \/ x = 1) as [->| ->] by lia; reflexivity. Qed.

Lemma conv_operand : forall c x, operand_ity c -> inty c x -> conv c x = x.
Proof. intros c x [H| ->] I; [apply conv_id; auto using std_bits_pos|apply conv_bool; auto]. Qed.

Lemma make_div_t_exact : forall a b t u, otype a = Some t -> otype b = Some u ->
  operand_ity t -> operand_ity u -> inty t (ovalue a) -> inty u (ovalue b) ->
  forall r, make_div_t a b = Some r <->
    keeps_value t (common t u) (oconst a) (ovalue a) /\ keeps_value u (common t u) (oconst b) (ovalue b) /\
    r = (common t u, ovalue a, ovalue b).
Proof.
  intros a b t u Ea Eb Ht Hu Ia Ib r. unfold make_div_t. rewrite (deduced_common a b t u Ea Eb).
  pose proof (initialises_iff (common t u) a t Ea Ht) as Xa.
  pose proof (initialises_iff (common t u) b u Eb Hu) as Xb.
  pose proof (common_operand t u Ht Hu) as Hc.
  destruct (list_initialises (common t u) a) eqn:La; cbn [andb].
  2:{ split; [discriminate|]. intros (K & _). apply Xa in K. discriminate. }
  destruct (list_initialises (common t u) b) eqn:Lb.
  2:{ split; [discriminate|]. intros (_ & K & _). apply Xb in K. discriminate. }
  assert (Ka := proj1 Xa eq_refl). assert (Kb := proj1 Xb eq_refl).
  rewrite (conv_operand _ (ovalue a) Hc (kept_inty _ _ _ Ka Ia)), (conv_operand _ (ovalue b) Hc (kept_inty _ _ _ Kb Ib)).
  split; [intros E; injection E as <-; auto|]. intros (_ & _ & ->). reflexivity.
Qed.

Lemma make_div_t_integers : forall a b r, make_div_t a b = Some r ->
  exists t u, otype a = Some t /\ otype b = Some u.
Proof.
  intros a b r H. unfold make_div_t, deduced, guide_same, guide_two in H.
  destruct (otype a) as [t|], (otype b) as [u|]; try discriminate. eauto.
Qed.

Lemma operand_cases : forall t, operand_ity t ->
  t = u8 \/ t = u16 \/ t = u32 \/ t = u64 \/ t = i8 \/ t = i16 \/ t = i32 \/ t = i64 \/ t = bool_t.
Proof.
  intros [b s] [[H|[H|[H|H]]]|H]; cbn in H; [subst b; destruct s; tauto..|].
  injection H as -> ->. tauto.
Qed.

(** two values that are no constants: exactly which types go together *)
Lemma fits_common : forall t u, operand_ity t -> operand_ity u ->
  ((forall x, inty t x -> inty (common t u) x) <-> sgn (common t u) = true \/ sgn t = false).
Proof.
  intros t u Ht Hu. rewrite <- no_narrowing_iff by auto.
  destruct (operand_cases t Ht) as [->|[->|[->|[->|[->|[->|[->|[->| ->]]]]]]]];
  destruct (operand_cases u Hu) as [->|[->|[->|[->|[->|[->|[->|[->| ->]]]]]]]];
  vm_compute; intuition congruence.
Qed.

Lemma common_comm : forall t u, operand_ity t -> operand_ity u -> common t u = common u t.
Proof.
  intros t u Ht Hu.
  destruct (operand_cases t Ht) as [->|[->|[->|[->|[->|[->|[->|[->| ->]]]]]]]];
  destruct (operand_cases u Hu) as [->|[->|[->|[->|[->|[->|[->|[->| ->]]]]]]]]; reflexivity.
Qed.

Lemma make_div_t_values : forall t u n d, operand_ity t -> operand_ity u -> inty t n -> inty u d ->
  (make_div_t (Operand (Some t) n false) (Operand (Some u) d false) = Some (common t u, n, d) <->
   sgn (common t u) = true \/ (sgn t = false /\ sgn u = false)) /\
  (make_div_t (Operand (Some t) n false) (Operand (Some u) d false) = None <->
   sgn (common t u) = false /\ (sgn t = true \/ sgn u = true)).
Proof.
  intros t u n d Ht Hu In Id.
  pose proof (make_div_t_exact (Operand (Some t) n false) (Operand (Some u) d false) t u eq_refl eq_refl Ht Hu In Id) as X.
  pose proof (fits_common t u Ht Hu) as Fa. pose proof (fits_common u t Hu Ht) as Fb.
  rewrite (common_comm u t Hu Ht) in Fb. cbn [oconst ovalue keeps_value] in X.
  destruct (make_div_t (Operand (Some t) n false) (Operand (Some u) d false)) as [r|] eqn:E.
  - destruct (proj1 (X r) eq_refl) as (A & B & ->). apply Fa in A. apply Fb in B.
    split; split; intros; try discriminate; try reflexivity.
    + destruct A as [A|A]; auto. destruct B as [B|B]; auto.
    + destruct H as [C [D|D]]; destruct A as [A|A]; destruct B as [B|B]; congruence.
  - split; split; intros H; try discriminate; try reflexivity.
    + destruct (sgn (common t u)) eqn:S.
      * assert (None = Some (common t u, n, d)) by (apply X; split; [apply Fa; auto|split; [apply Fb; auto|reflexivity]]).
        discriminate.
      * destruct H as [H|[H1 H2]]; [discriminate|].
        assert (None = Some (common t u, n, d)) by (apply X; split; [apply Fa; auto|split; [apply Fb; auto|reflexivity]]).
        discriminate.
    + destruct (sgn (common t u)) eqn:S.
      * assert (None = Some (common t u, n, d)) by (apply X; split; [apply Fa; auto|split; [apply Fb; auto|reflexivity]]).
        discriminate.
      * split; auto. destruct (sgn t) eqn:St; auto. destruct (sgn u) eqn:Su; auto.
        assert (None = Some (common t u, n, d)) by (apply X; split; [apply Fa; auto|split; [apply Fb; auto|reflexivity]]).
        discriminate.
Qed.

(** bool operands of div *)
Lemma common_bool_l : forall u, std_ity u -> common bool_t u = common i32 u.
Proof.
  intros [b s] [H|[H|[H|H]]]; cbn in H; subst b; destruct s; reflexivity.
Qed.
Lemma common_bool_r : forall u, std_ity u -> common u bool_t = common u i32.
Proof.
  intros [b s] [H|[H|[H|H]]]; cbn in H; subst b; destruct s; reflexivity.
Qed.

Lemma div_bool_is_int : forall dbg u n d, std_ity u ->
  (div_constant dbg bool_t u n d = div_constant dbg i32 u n d /\
   div_runtime dbg bool_t u n d = div_runtime dbg i32 u n d) /\
  (div_constant dbg u bool_t n d = div_constant dbg u i32 n d /\
   div_runtime dbg u bool_t n d = div_runtime dbg u i32 n d).
Proof.
  intros dbg u n d H. unfold div_constant, div_runtime.
  rewrite common_bool_l, common_bool_r by auto. auto.
Qed.

Lemma div_two_bools : forall dbg n d, inty bool_t n -> inty bool_t d -> d <> 0 ->
  div_constant dbg bool_t bool_t n d = Ok (n, 0) /\ div_runtime dbg bool_t bool_t n d = Ok (n, 0).
Proof.
  intros dbg n d Hn Hd Hz. unfold inty, minv, maxv in *. cbn in Hn, Hd.
  assert (d = 1) as -> by lia. assert (n = 0 \/ n = 1) as [->| ->] by lia; destruct dbg; split; vm_compute; reflexivity.
Qed.
