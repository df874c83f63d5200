(** Lemmas about addresses and sizes of [w] bits. *)

Require Import ZArith Lia List Bool Znumtheory.
Require Import Verif.Outcome Verif.Machine Verif.TypeListModel Verif.BitsSpec Verif.BitsModel Verif.BitsProofs
  Verif.SimpleSpec Verif.MonoSpec Verif.MonoModel Verif.MonoProofs Verif.WordSpec Verif.WordModel.
Import ListNotations.
Open Scope Z_scope.

Lemma w_is_power_of_2_spec : forall w, 0 < w -> forall v, 0 <= v < 2 ^ w ->
  (w_is_power_of_2 w v = true <-> exists k, 0 <= k < w /\ v = 2 ^ k).
Proof.
  intros w W0; pose proof (pow2_pos w ltac:(lia)) as PW; intros v Hv. unfold w_is_power_of_2.
  rewrite land_wrap_r by lia.
  destruct v as [|p|p]; [| |lia].
  - simpl. split; [discriminate|]. intros [k [Hk E]]. pose proof (pow2_pos k). lia.
  - change (negb (Z.pos p =? 0)) with true. rewrite andb_true_l. rewrite Z.eqb_eq, land_pred_pow2.
    split.
    + intros H. apply (pow2_cases _ w) in H; [exact H|lia|lia].
    + intros [k [Hk E]]. exists k. split; lia.
Qed.

Lemma w_is_power_of_2_pow : forall w, 0 < w -> forall k, 0 <= k < w -> w_is_power_of_2 w (2 ^ k) = true.
Proof.
  intros w W0; pose proof (pow2_pos w ltac:(lia)) as PW; intros k Hk. apply (w_is_power_of_2_spec w W0).
  - split; [pose proof (pow2_pos k); lia|]. apply Z.pow_lt_mono_r; lia.
  - exists k; auto.
Qed.

Lemma w_next_multiple_value : forall w, 0 < w -> forall dbg k v, 0 <= k < w -> 0 <= v < 2 ^ w ->
  w_next_multiple_of w dbg (2 ^ k) v =
  Ok ((v + 2 ^ k - 1 - (v + 2 ^ k - 1) mod 2 ^ k) mod 2 ^ w).
Proof.
  intros w W0; pose proof (pow2_pos w ltac:(lia)) as PW; intros dbg k v Hk Hv. unfold w_next_multiple_of, cassert.
  rewrite (w_is_power_of_2_pow w W0) by lia.
  assert (E : Z.land (wrap w (wrap w (v + 2 ^ k) - 1)) (wrap w (- 2 ^ k)) =
    (v + 2 ^ k - 1 - (v + 2 ^ k - 1) mod 2 ^ k) mod 2 ^ w).
  { rewrite land_wrap_r by (try apply wrap_range; lia).
    rewrite land_neg_pow2 by lia.
    assert (E1 : wrap w (wrap w (v + 2 ^ k) - 1) = (v + 2 ^ k - 1) mod 2 ^ w).
    { unfold wrap. rewrite Zminus_mod_idemp_l. reflexivity. }
    rewrite E1. rewrite mod_sub_multiple by lia.
    set (x := v + 2 ^ k - 1).
    pose proof (pow2_pos k ltac:(lia)) as P.
    pose proof (Z.mod_pos_bound x (2 ^ k) P).
    assert (Hle : (x mod 2 ^ w) mod 2 ^ k <= x mod 2 ^ w).
    { apply Z.mod_le; [|lia]. apply Z.mod_pos_bound. lia. }
    rewrite mod_sub_multiple in Hle by lia.
    rewrite <- Zminus_mod_idemp_l. symmetry. apply Z.mod_small.
    pose proof (Z.mod_pos_bound x (2 ^ w)). lia. }
  rewrite E. destruct dbg; reflexivity.
Qed.

Lemma w_next_multiple_of_correct : forall w, 0 < w -> forall dbg m v, pow2 m -> m < 2 ^ w -> 0 <= v < 2 ^ w ->
  exists r, least_multiple m v r /\
    (r < 2 ^ w -> w_next_multiple_of w dbg m v = Ok r) /\
    (2 ^ w <= r -> w_next_multiple_of w dbg m v = Ok 0).
Proof.
  intros w W0; pose proof (pow2_pos w ltac:(lia)) as PW; intros dbg m v Hm Hlt Hv.
  destruct (pow2_cases m w ltac:(lia) Hm Hlt) as [k [Hk ->]].
  exists (v + 2 ^ k - 1 - (v + 2 ^ k - 1) mod 2 ^ k).
  pose proof (least_multiple_round k v ltac:(lia)) as L.
  split; auto. rewrite (w_next_multiple_value w W0) by lia.
  set (r := v + 2 ^ k - 1 - (v + 2 ^ k - 1) mod 2 ^ k) in *.
  destruct L as [L1 [L2 L3]]. split; intros H; f_equal.
  - apply Z.mod_small. lia.
  - assert (r <= 2 ^ w) by (apply L3; [apply pow2_divide; lia|lia]).
    replace r with (2 ^ w) by lia. apply Z.mod_same. lia.
Qed.

Lemma w_skip_value : forall w, 0 < w -> forall dbg k p, 0 <= k < w -> 0 <= p < 2 ^ w ->
  w_skip_to_align w dbg p (2 ^ k) = Ok ((- p) mod 2 ^ k).
Proof.
  intros w W0; pose proof (pow2_pos w ltac:(lia)) as PW; intros dbg k p Hk Hp. unfold w_skip_to_align.
  rewrite (w_is_power_of_2_pow w W0) by lia. rewrite (w_next_multiple_value w W0) by lia.
  cbn [bind]. unfold cassert, wrap.
  pose proof (pow2_pos k ltac:(lia)) as P.
  assert (E : (((p + 2 ^ k - 1 - (p + 2 ^ k - 1) mod 2 ^ k) mod 2 ^ w - p) mod 2 ^ w)
    = (- p) mod 2 ^ k).
  { rewrite Zminus_mod_idemp_l.
    replace (p + 2 ^ k - 1 - (p + 2 ^ k - 1) mod 2 ^ k - p)
      with (2 ^ k - 1 - (p + 2 ^ k - 1) mod 2 ^ k) by lia.
    pose proof (Z.mod_pos_bound (p + 2 ^ k - 1) (2 ^ k) P).
    assert (2 ^ k <= 2 ^ w) by (apply pow2_le; lia).
    rewrite Z.mod_small by lia.
    apply Z.mod_unique with (q := - ((p + 2 ^ k - 1) / 2 ^ k)); [left; lia|].
    pose proof (Z.div_mod (p + 2 ^ k - 1) (2 ^ k)). lia. }
  rewrite E. destruct dbg; reflexivity.
Qed.

Lemma w_skip_to_align_correct : forall w, 0 < w -> forall dbg p a, pow2 a -> a < 2 ^ w -> 0 <= p < 2 ^ w ->
  exists k, w_skip_to_align w dbg p a = Ok k /\ least_skip_in w a p k /\ k < a /\ (k = 0 <-> (a | p)).
Proof.
  intros w W0; pose proof (pow2_pos w ltac:(lia)) as PW; intros dbg p a Ha Hlt Hp.
  destruct (pow2_cases a w ltac:(lia) Ha Hlt) as [k [Hk ->]].
  exists ((- p) mod 2 ^ k). split; [apply (w_skip_value w W0); lia|].
  pose proof (pow2_pos k ltac:(lia)) as P.
  pose proof (Z.mod_pos_bound (- p) (2 ^ k) P) as B.
  assert (D : forall j, (2 ^ k | (p + j) mod 2 ^ w) <-> (2 ^ k | p + j)).
  { intros j. apply divide_mod_pow. lia. }
  assert (K : (2 ^ k | p + (- p) mod 2 ^ k)).
  { apply Z.mod_divide; [lia|]. rewrite Zplus_mod_idemp_r. rewrite Z.add_opp_diag_r.
    apply Z.mod_0_l. lia. }
  repeat split.
  - lia.
  - apply D. exact K.
  - intros j Hj Hd. apply D in Hd.
    assert (Hd2 : (2 ^ k | (- p) mod 2 ^ k - j)).
    { replace ((- p) mod 2 ^ k - j) with (p + (- p) mod 2 ^ k - (p + j)) by lia.
      apply Z.divide_sub_r; auto. }
    apply Z.divide_pos_le in Hd2; lia.
  - lia.
  - intros E. rewrite E in K. rewrite Z.add_0_r in K. exact K.
  - intros Hd. apply Z.mod_divide; [lia|].
    apply Z.divide_opp_r. exact Hd.
Qed.

Lemma w_is_aligned_value : forall w, 0 < w -> forall dbg k p, 0 <= k < w -> 0 <= p < 2 ^ w ->
  w_is_aligned w dbg p (2 ^ k) = Ok (p mod 2 ^ k =? 0).
Proof.
  intros w W0; pose proof (pow2_pos w ltac:(lia)) as PW; intros dbg k p Hk Hp. unfold w_is_aligned. rewrite (w_is_power_of_2_pow w W0) by lia.
  unfold cassert. rewrite land_wrap_r by lia.
  replace (2 ^ k - 1) with (Z.ones k) by (rewrite Z.ones_equiv; lia).
  rewrite Z.land_ones by lia. destruct dbg; reflexivity.
Qed.

Lemma w_is_aligned_correct : forall w, 0 < w -> forall dbg p a, pow2 a -> a < 2 ^ w -> 0 <= p < 2 ^ w ->
  exists b, w_is_aligned w dbg p a = Ok b /\ (b = true <-> (a | p)).
Proof.
  intros w W0; pose proof (pow2_pos w ltac:(lia)) as PW; intros dbg p a Ha Hlt Hp.
  destruct (pow2_cases a w ltac:(lia) Ha Hlt) as [k [Hk ->]].
  rewrite (w_is_aligned_value w W0) by lia. eexists. split; [reflexivity|].
  rewrite Z.eqb_eq. apply Z.mod_divide. pose proof (pow2_pos k). lia.
Qed.

(** alignment 0 or a non power of two aborts in debug builds *)
Lemma w_not_power_asserts : forall w, 0 < w -> forall m v, 0 <= m < 2 ^ w -> ~ pow2 m ->
  w_next_multiple_of w true m v = Abort /\ w_skip_to_align w true v m = Abort /\
  w_is_aligned w true v m = Abort.
Proof.
  intros w W0; pose proof (pow2_pos w ltac:(lia)) as PW; intros m v Hm H.
  assert (E : w_is_power_of_2 w m = false).
  { destruct (w_is_power_of_2 w m) eqn:E; auto. apply (w_is_power_of_2_spec w W0) in E; auto.
    destruct E as [k [Hk E]]. exfalso. apply H. exists k. split; [lia|auto]. }
  unfold w_next_multiple_of, w_skip_to_align, w_is_aligned, cassert. rewrite E. auto.
Qed.

(** after the allocations [l] of a history *)
Record w_mono_inv (w : Z) (s : mono) (l : list alloc) : Prop := {
  w_mi_data : 0 <= mdata s;
  w_mi_size : 0 <= msize s;
  w_mi_end : mdata s + msize s < 2 ^ w;
  w_mi_null : mdata s = 0 -> msize s = 0 /\ l = [];
  w_mi_next : mnext s = top (mdata s) l;
  w_mi_top : mdata s <= top (mdata s) l <= mdata s + msize s;
  w_mi_asc : ascending l;
  w_mi_bounds : forall a, In a l -> in_bounds (mdata s) (mdata s + msize s) a /\ 0 < snd a /\ 0 < fst a
}.

Lemma w_start_inv : forall w, 0 < w -> forall buffer size up, buffer_in w buffer size -> w_mono_inv w (mono_construct buffer size up) [].
Proof.
  intros w W0; pose proof (pow2_pos w ltac:(lia)) as PW; intros b n up [B [N E]]. unfold mono_construct.
  destruct (Z.eqb_spec n 0), (Z.eqb_spec b 0); constructor; cbn in *; subst; try lia; auto;
  try (intros l1 a l2 c l3 H; destruct l1; discriminate H); try tauto.
Qed.

(** one allocation *)
Lemma w_mono_alloc : forall w, 0 < w -> forall dbg s l size align ans, w_mono_inv w s l -> 0 < size -> pow2 align ->
  mdata s + msize s + align + size <= 2 ^ w ->
  exists s' p calls, w_mono_allocate w dbg s size align ans = Ok (s', p, calls) /\
    (fits_behind (mdata s) (msize s) l size align ->
       calls = [] /\ p <> 0 /\ least_multiple align (top (mdata s) l) p /\
       s' = Mono (mdata s) (msize s) (mup s) (p + size) /\ w_mono_inv w s' ((p, size) :: l)) /\
    (~ fits_behind (mdata s) (msize s) l size align ->
       s' = s /\ (if mup s then calls = [UpAllocate size align] /\ p = ans size align
                  else calls = [] /\ p = 0)) /\
    (fits_behind (mdata s) (msize s) l size align \/ ~ fits_behind (mdata s) (msize s) l size align).
Proof.
  intros w W0; pose proof (pow2_pos w ltac:(lia)) as PW; intros dbg s l size align ans I S A R. destruct I as [D0 N0 E0 Z0 X0 T0 A0 B0].
  unfold w_mono_allocate. replace (size =? 0) with false by (symmetry; apply Z.eqb_neq; lia).
  destruct A as [k [K ->]]. pose proof (pow2_pos k K) as P.
  assert (K64 : k < w) by (apply (Z.pow_lt_mono_r_iff 2); lia).
  rewrite (w_is_power_of_2_pow w W0) by lia.
  replace (cassert dbg true) with (@id (res (mono * Z * list upcall))) by (destruct dbg; reflexivity). unfold id.
  destruct (Z.eqb_spec (mdata s) 0) as [Zd|Zd].
  - cbn [bind]. rewrite Z.eqb_refl. cbn [andb].
    assert (NF : ~ fits_behind (mdata s) (msize s) l size (2 ^ k)) by (intros [H _]; auto).
    destruct (mup s) eqn:U; do 3 eexists; (split; [reflexivity|]; split; [intro; contradiction|split; [|right; exact NF]]); intros _; auto.
  - rewrite X0. rewrite (w_skip_value w W0) by lia. cbn [bind].
    set (q := top (mdata s) l + (- top (mdata s) l) mod 2 ^ k).
    assert (LM : least_multiple (2 ^ k) (top (mdata s) l) q) by (apply place; [lia|exists k; auto]).
    assert (FP := fits_place (mdata s) (msize s) l size (2 ^ k) q Zd LM).
    assert (Q : top (mdata s) l <= q < top (mdata s) l + 2 ^ k).
    { unfold q. pose proof (Z.mod_pos_bound (- top (mdata s) l) (2 ^ k) P). lia. }
    unfold wrap. rewrite (Z.mod_small q) by lia.
    assert (W : (q + size) mod 2 ^ w <= (mdata s + msize s) mod 2 ^ w <-> q + size <= mdata s + msize s).
    { rewrite (Z.mod_small (mdata s + msize s)) by lia.
      destruct (Z.eq_dec (q + size) (2 ^ w)) as [E|E]; [lia|]. rewrite Z.mod_small by lia. reflexivity. }
    destruct (Z.leb_spec ((q + size) mod 2 ^ w) ((mdata s + msize s) mod 2 ^ w)) as [L|L].
    + assert (F : q + size <= mdata s + msize s) by (apply W; exact L).
      rewrite (Z.mod_small (q + size)) by lia. cbn [bind].
      replace (q =? 0) with false by (symmetry; apply Z.eqb_neq; lia). cbn [andb].
      do 3 eexists. split; [reflexivity|]. split; [intros _|split; [intros H; apply FP in F; contradiction|left; apply FP; exact F]].
      split; auto. split; [lia|]. split; [exact LM|]. split; [reflexivity|].
      constructor; cbn [mdata msize mnext mup top fst snd]; auto; try lia; try (intro; contradiction).
      * apply (ascending_cons (mdata s)); auto; [|cbn; lia].
        apply top_last; auto. intros a Ia. apply (B0 a Ia).
      * intros a [<-|Ia]; [unfold in_bounds; cbn; lia|apply B0; auto].
    + assert (F : ~ fits_behind (mdata s) (msize s) l size (2 ^ k)) by (rewrite FP; intros H; apply W in H; lia).
      cbn [bind]. rewrite Z.eqb_refl. cbn [andb].
      destruct (mup s) eqn:U; do 3 eexists; (split; [reflexivity|]; split; [intro; contradiction|split; [|right; exact F]]); intros _; auto.
Qed.

Lemma w_release_inv : forall w, 0 < w -> forall s l, w_mono_inv w s l -> w_mono_inv w (mono_release s) [].
Proof.
  intros w W0; pose proof (pow2_pos w ltac:(lia)) as PW; intros s l I. destruct I. constructor; cbn in *; auto; try lia; try tauto.
  intros l1 a l2 b l3 H. destruct l1; discriminate H.
Qed.

Lemma w_mono_step_ok : forall w, 0 < w -> forall dbg s l o, w_mono_inv w s l -> fair_in w (mdata s + msize s) o ->
  exists s' e, w_mono_step w dbg s o = Ok (s', e) /\ w_mono_inv w s' (handed_after l e) /\ same_buffer s s' /\
    (forall sz al p, e = EAllocate sz al p [] -> p <> 0 -> (al | p)).
Proof.
  intros w W0; pose proof (pow2_pos w ltac:(lia)) as PW; intros dbg s l [size align ans|p|] I F; cbn [w_mono_step].
  - destruct F as [F1 [F2 F3]]. destruct (Z.eq_dec size 0) as [->|N].
    + exists s, (EAllocate 0 align 0 []). cbn. split; [reflexivity|]. split; [exact I|].
      split; [repeat split|]. intros sz al p E. injection E as <- <- <-. intros H. contradiction H. reflexivity.
    + destruct ((w_mono_alloc w W0) dbg s l size align ans I ltac:(lia) F2 F3) as [s' [p [calls [E [Y [X [H|H]]]]]]];
      rewrite E; cbn [bind]; exists s', (EAllocate size align p calls); (split; [reflexivity|]).
      * destruct (Y H) as [-> [P [LM [-> I']]]]. cbn [handed_after].
        replace (p =? 0) with false by (symmetry; apply Z.eqb_neq; auto).
        split; [exact I'|]. split; [repeat split|].
        intros sz al p' E'. injection E' as <- <- <-. intros _. apply LM.
      * destruct (X H) as [-> C]. destruct (mup s); destruct C as [-> ->]; cbn [handed_after].
        -- split; [exact I|]. split; [repeat split|]. intros sz al p' E'. discriminate E'.
        -- rewrite Z.eqb_refl. split; [exact I|]. split; [repeat split|].
           intros sz al p' E'. injection E' as <- <- <-. intros Q; contradiction Q; reflexivity.
  - exists s, (EDeallocate p []). split; [reflexivity|]. split; [exact I|]. split; [repeat split|]. discriminate.
  - exists (mono_release s), ERelease. split; [reflexivity|]. split; [apply ((w_release_inv w W0) s l I)|]. split; [repeat split|]. discriminate.
Qed.

Lemma w_mono_run_ok : forall w, 0 < w -> forall dbg ops s l, w_mono_inv w s l -> Forall (fair_in w (mdata s + msize s)) ops ->
  exists s' es, w_mono_run w dbg s ops = Ok (s', es) /\ w_mono_inv w s' (fold_left handed_after es l) /\ same_buffer s s' /\
    (forall sz al p, In (EAllocate sz al p []) es -> p <> 0 -> (al | p)).
Proof.
  intros w W0; pose proof (pow2_pos w ltac:(lia)) as PW; intros dbg. induction ops as [|o ops IH]; intros s l I F.
  - exists s, []. cbn. split; [reflexivity|]. split; [exact I|]. split; [repeat split|]. contradiction.
  - inversion F as [|? ? Fo Fs]; subst.
    destruct ((w_mono_step_ok w W0) dbg s l o I Fo) as [s1 [e [E [I1 [[S1 [S2 S3]] A1]]]]].
    destruct (IH s1 _ I1) as [s2 [es [E2 [I2 [[T1 [T2 T3]] A2]]]]]; [rewrite S1, S2; exact Fs|].
    exists s2, (e :: es). cbn [w_mono_run]. rewrite E. cbn [bind]. rewrite E2. cbn [bind fold_left].
    split; [reflexivity|]. split; [exact I2|]. split; [repeat split; congruence|].
    intros sz al p [->|H] P; [apply (A1 sz al p eq_refl P)|apply (A2 sz al p H P)].
Qed.

Lemma w_made_end : forall w, 0 < w -> forall buffer size up, buffer_in w buffer size ->
  let s := mono_construct buffer size up in mdata s + msize s <= buffer + size /\
  (mdata s <> 0 -> mdata s = buffer /\ msize s = size) /\ mup s = up /\ mnext s = mdata s.
Proof.
  intros w W0; pose proof (pow2_pos w ltac:(lia)) as PW; intros b n up [B [N E]]. unfold mono_construct. destruct (Z.eqb_spec n 0), (Z.eqb_spec b 0); cbn; repeat split; lia.
Qed.

Lemma w_fair_weaken : forall w, 0 < w -> forall e e' ops, e' <= e -> Forall (fair_in w e) ops -> Forall (fair_in w e') ops.
Proof.
  intros w W0; pose proof (pow2_pos w ltac:(lia)) as PW; intros e e' ops H. apply Forall_impl. intros [size align ans|p|]; cbn; auto. intros [A [B C]]. repeat split; auto. lia.
Qed.

Lemma w_mono_contract : forall w, 0 < w -> forall dbg buffer size up ops, buffer_in w buffer size -> Forall (fair_in w (buffer + size)) ops ->
  exists s es, w_mono_run w dbg (mono_construct buffer size up) ops = Ok (s, es) /\
    ascending (handed es) /\ pairwise_disjoint (handed es) /\
    (forall a, In a (handed es) -> in_bounds buffer (buffer + size) a) /\
    (forall sz al p, In (EAllocate sz al p []) es -> p <> 0 -> (al | p)).
Proof.
  intros w W0; pose proof (pow2_pos w ltac:(lia)) as PW; intros dbg b n up ops M F. destruct ((w_made_end w W0) b n up M) as [E1 [E2 [E3 E4]]].
  destruct ((w_mono_run_ok w W0) dbg ops _ [] ((w_start_inv w W0) b n up M)) as [s [es [R [I [[S1 [S2 S3]] A]]]]].
  { eapply (w_fair_weaken w W0); [|exact F]. exact E1. }
  exists s, es. split; [exact R|]. fold (handed es) in I. split; [apply (w_mi_asc _ _ _ I)|].
  split; [apply ascending_disjoint, (w_mi_asc _ _ _ I)|]. split; [|exact A].
  intros a Ia. destruct (w_mi_bounds _ _ _ I a Ia) as [[B1 B2] _].
  assert (Nz : mdata s <> 0). { intros Z. destruct (w_mi_null _ _ _ I Z) as [_ N]. rewrite N in Ia. destruct Ia. }
  rewrite S1 in B1, B2, Nz. rewrite S2 in B2. destruct (E2 Nz) as [H1 H2]. rewrite H1 in B1, B2. rewrite H2 in B2. split; assumption.
Qed.

(** a request after any history *)
Lemma w_mono_request : forall w, 0 < w -> forall dbg buffer size up ops s es sz align ans, buffer_in w buffer size ->
  Forall (fair_in w (buffer + size)) ops -> w_mono_run w dbg (mono_construct buffer size up) ops = Ok (s, es) ->
  0 < sz -> pow2 align -> buffer + size + align + sz <= 2 ^ w ->
  exists s' p calls, w_mono_allocate w dbg s sz align ans = Ok (s', p, calls) /\
    (fits_behind buffer size (handed es) sz align ->
       calls = [] /\ p <> 0 /\ least_multiple align (top buffer (handed es)) p) /\
    (~ fits_behind buffer size (handed es) sz align ->
       s' = s /\ (if up then calls = [UpAllocate sz align] /\ p = ans sz align else calls = [] /\ p = 0)) /\
    (fits_behind buffer size (handed es) sz align \/ ~ fits_behind buffer size (handed es) sz align).
Proof.
  intros w W0; pose proof (pow2_pos w ltac:(lia)) as PW; intros dbg b n up ops s es sz align ans M F R S A G. destruct ((w_made_end w W0) b n up M) as [E1 [E2 [E3 E4]]].
  destruct ((w_mono_run_ok w W0) dbg ops _ [] ((w_start_inv w W0) b n up M)) as [s0 [es0 [R0 [I [[S1 [S2 S3]] _]]]]].
  { eapply (w_fair_weaken w W0); [|exact F]. exact E1. }
  rewrite R in R0. injection R0 as <- <-. fold (handed es) in I.
  destruct ((w_mono_alloc w W0) dbg s (handed es) sz align ans I S A) as [s' [p [calls [E [Y [X D]]]]]].
  { rewrite S1, S2. lia. }
  exists s', p, calls. split; [exact E|].
  assert (Q : fits_behind (mdata s) (msize s) (handed es) sz align <-> fits_behind b n (handed es) sz align).
  { destruct (Z.eq_dec (mdata s) 0) as [Z|Z].
    - split; [intros [H _]; contradiction|]. intros [H [q [Q1 [_ Q3]]]]. exfalso.
      destruct (w_mi_null _ _ _ I Z) as [Z1 Z2]. rewrite Z2 in Q1. cbn in Q1.
      rewrite S1 in Z. unfold mono_construct in Z. cbn in Z. destruct (Z.eqb_spec n 0); [lia|contradiction].
    - rewrite S1 in Z. destruct (E2 Z) as [H1 H2]. rewrite S1, S2, H1, H2. reflexivity. }
  rewrite Q in Y, X, D. rewrite S3, E3 in X. split; [|split; [exact X|exact D]].
  intros H. destruct (Y H) as [Y1 [Y2 [Y3 _]]]. split; auto. split; auto.
  destruct (handed es) eqn:Hn; [|exact Y3]. cbn in *.
  assert (Z : mdata s <> 0) by (apply Q in H; apply H). rewrite S1 in Y3, Z. destruct (E2 Z) as [Eq _]. rewrite Eq in Y3. exact Y3.
Qed.

Lemma w_mono_served : forall w, 0 < w -> forall dbg buffer size up ops s es sz align ans, buffer_in w buffer size ->
  Forall (fair_in w (buffer + size)) ops -> w_mono_run w dbg (mono_construct buffer size up) ops = Ok (s, es) ->
  0 < sz -> pow2 align -> buffer + size + align + sz <= 2 ^ w ->
  exists s' p calls, w_mono_allocate w dbg s sz align ans = Ok (s', p, calls) /\
    (calls = [] /\ p <> 0 <-> fits_behind buffer size (handed es) sz align) /\
    (calls = [] -> p <> 0 -> least_multiple align (top buffer (handed es)) p).
Proof.
  intros w W0; pose proof (pow2_pos w ltac:(lia)) as PW; intros dbg b n up ops s es sz align ans M F R S A G.
  destruct ((w_mono_request w W0) dbg b n up ops s es sz align ans M F R S A G) as [s' [p [calls [E [Y [X D]]]]]].
  exists s', p, calls. split; [exact E|]. destruct D as [D|D].
  - destruct (Y D) as [Y1 [Y2 Y3]]. tauto.
  - destruct (X D) as [_ X']. destruct up; destruct X' as [-> ->].
    + split; [|discriminate]. split; [intros [H _]; discriminate H|contradiction].
    + split; [|intros _ H; contradiction H; reflexivity]. split; [intros [_ H]; contradiction H; reflexivity|contradiction].
Qed.

(** one allocation of any size *)
Lemma w_mono_alloc_any : forall w, 0 < w -> forall dbg s l size align ans, w_mono_inv w s l -> 0 < size < 2 ^ w -> pow2 align -> align < 2 ^ w ->
  (mdata s <> 0 -> 0 < msize s) ->
  exists s' p calls, w_mono_allocate w dbg s size align ans = Ok (s', p, calls) /\
    ((exists q, wrapped_fits_in w (mdata s) (msize s) l size align q /\ calls = [] /\ p = q /\ p <> 0) \/
     ((forall q, ~ wrapped_fits_in w (mdata s) (msize s) l size align q) /\
      (if mup s then calls = [UpAllocate size align] /\ p = ans size align else calls = [] /\ p = 0))).
Proof.
  intros w W0; pose proof (pow2_pos w ltac:(lia)) as PW; intros dbg s l size align ans I S A AB NZ. destruct I as [D0 N0 E0 Z0 X0 T0 A0 B0].
  unfold w_mono_allocate. replace (size =? 0) with false by (symmetry; apply Z.eqb_neq; lia).
  destruct A as [k [K ->]]. pose proof (pow2_pos k K) as P.
  assert (K64 : k < w) by (apply (Z.pow_lt_mono_r_iff 2); lia).
  rewrite (w_is_power_of_2_pow w W0) by lia.
  replace (cassert dbg true) with (@id (res (mono * Z * list upcall))) by (destruct dbg; reflexivity). unfold id.
  destruct (Z.eqb_spec (mdata s) 0) as [Zd|Zd].
  - cbn [bind]. rewrite Z.eqb_refl. cbn [andb].
    assert (NF : forall q, ~ wrapped_fits_in w (mdata s) (msize s) l size (2 ^ k) q) by (intros q [H _]; lia).
    destruct (mup s) eqn:U; do 3 eexists; (split; [reflexivity|]); right; auto.
  - rewrite X0. rewrite (w_skip_value w W0) by lia. cbn [bind]. specialize (NZ Zd).
    set (t := top (mdata s) l) in *. set (q := t + (- t) mod 2 ^ k).
    assert (LM : least_multiple (2 ^ k) t q) by (apply place; [lia|exists k; auto]).
    assert (U : forall q', wrapped_fits_in w (mdata s) (msize s) l size (2 ^ k) q' -> q' = q).
    { intros q' [_ [_ [H _]]]. eapply least_multiple_unique; eauto. }
    assert (Q : t <= q <= 2 ^ w).
    { split; [apply LM|]. apply LM; [|lia]. exists (2 ^ (w - k)). rewrite <- Z.pow_add_r by lia. f_equal. lia. }
    unfold wrap. rewrite (Z.mod_small (mdata s + msize s)) by lia.
    destruct (Z.eq_dec q (2 ^ w)) as [Eq|Eq].
    + assert (NF : forall q', ~ wrapped_fits_in w (mdata s) (msize s) l size (2 ^ k) q').
      { intros q' H. pose proof (U q' H). destruct H as [_ [_ [_ [H _]]]]. lia. }
      rewrite Eq, Z_mod_same_full. destruct (Z.leb_spec ((0 + size) mod 2 ^ w) (mdata s + msize s)); cbn [bind mup];
      rewrite Z.eqb_refl; cbn [andb]; destruct (mup s); do 3 eexists; (split; [reflexivity|]); right; auto.
    + rewrite (Z.mod_small q) by lia.
      assert (W : (q + size) mod 2 ^ w <= mdata s + msize s <-> q + size <= mdata s + msize s \/ 2 ^ w <= q + size <= 2 ^ w + (mdata s + msize s)).
      { destruct (Z.lt_ge_cases (q + size) (2 ^ w)) as [H|H].
        - rewrite Z.mod_small by lia. lia.
        - replace (q + size) with ((q + size - 2 ^ w) + 1 * 2 ^ w) at 1 by lia.
          rewrite Z_mod_plus_full, Z.mod_small by lia. lia. }
      destruct (Z.leb_spec ((q + size) mod 2 ^ w) (mdata s + msize s)) as [L|L]; cbn [bind].
      * replace (q =? 0) with false by (symmetry; apply Z.eqb_neq; lia). cbn [andb].
        do 3 eexists. split; [reflexivity|]. left. exists q. split; [|repeat split; lia].
        split; [lia|]. split; [lia|]. split; [exact LM|]. split; [lia|]. apply W. exact L.
      * assert (NF : forall q', ~ wrapped_fits_in w (mdata s) (msize s) l size (2 ^ k) q').
        { intros q' H. pose proof (U q' H) as ->. destruct H as [_ [_ [_ [_ H]]]]. apply W in H. lia. }
        rewrite Z.eqb_refl. cbn [andb]. destruct (mup s); do 3 eexists; (split; [reflexivity|]); right; auto.
Qed.

(** after the allocations [l] of any history: either all is well or one of them
    runs past the last address *)
Record w_mono_any (w : Z) (s : mono) (l : list alloc) : Prop := {
  w_ma_range : 0 <= mnext s < 2 ^ w;
  w_ma_data : 0 <= mdata s;
  w_ma_size : 0 <= msize s;
  w_ma_end : mdata s + msize s < 2 ^ w;
  w_ma_null : mdata s = 0 -> msize s = 0;
  w_ma_pos : mdata s <> 0 -> 0 < msize s;
  w_ma_or : w_mono_inv w s l \/ exists a, In a l /\ 2 ^ w <= fst a + snd a
}.

Lemma w_room_multiple : forall w k, 0 <= k <= w -> (2 ^ k | 2 ^ w - 2 ^ k).
Proof.
  intros w k K. apply Z.divide_sub_r; [|apply Z.divide_refl].
  exists (2 ^ (w - k)). rewrite <- Z.pow_add_r by lia. f_equal. lia.
Qed.

Lemma w_multiple_wraps : forall w, 0 < w -> forall k x, 0 <= k <= w -> (2 ^ k | x) -> (2 ^ k | wrap w x).
Proof.
  intros w W0; pose proof (pow2_pos w ltac:(lia)) as PW; intros k x K D. unfold wrap. rewrite Z.mod_eq by lia. apply Z.divide_sub_r; [exact D|].
  apply Z.divide_mul_l. exists (2 ^ (w - k)). rewrite <- Z.pow_add_r by lia. f_equal. lia.
Qed.

(** any request in any state: it returns, and an answer of the buffer is aligned *)
Lemma w_mono_alloc_total : forall w, 0 < w -> forall dbg s size align ans, 0 <= mnext s < 2 ^ w ->
  0 <= size < 2 ^ w -> pow2 align -> align < 2 ^ w ->
  exists s' p calls, w_mono_allocate w dbg s size align ans = Ok (s', p, calls) /\
    0 <= mnext s' < 2 ^ w /\ mdata s' = mdata s /\ msize s' = msize s /\ mup s' = mup s /\
    (calls = [] -> p <> 0 -> (align | p)).
Proof.
  intros w W0; pose proof (pow2_pos w ltac:(lia)) as PW; intros dbg s size align ans N S A AB. unfold w_mono_allocate.
  destruct (Z.eqb_spec size 0) as [Zs|Zs].
  { do 3 eexists. split; [reflexivity|]. repeat split; auto; try lia. }
  destruct A as [k [K ->]].
  assert (K64 : k < w) by (apply (Z.pow_lt_mono_r_iff 2); lia).
  rewrite (w_is_power_of_2_pow w W0) by lia.
  replace (cassert dbg true) with (@id (res (mono * Z * list upcall))) by (destruct dbg; reflexivity). unfold id.
  destruct (mdata s =? 0).
  - cbn [bind]. rewrite Z.eqb_refl. cbn [andb].
    destruct (mup s) eqn:U; do 3 eexists; (split; [reflexivity|]); repeat split; auto; try lia; congruence.
  - rewrite (w_skip_value w W0) by lia. cbn [bind].
    assert (D : (2 ^ k | wrap w (mnext s + (- mnext s) mod 2 ^ k))).
    { apply (w_multiple_wraps w W0); [lia|]. apply place; [lia|exists k; auto]. }
    destruct (_ <=? _); cbn [bind].
    + destruct (_ =? 0); cbn [andb mup].
      * destruct (mup s) eqn:U; do 3 eexists; (split; [reflexivity|]); cbn [mnext mdata msize mup];
        repeat split; auto; try (apply (wrap_range w); lia); try lia; try congruence; try discriminate.
      * do 3 eexists; (split; [reflexivity|]); cbn [mnext mdata msize mup];
        repeat split; auto; try (apply (wrap_range w); lia).
    + rewrite Z.eqb_refl. cbn [andb].
      destruct (mup s) eqn:U; do 3 eexists; (split; [reflexivity|]); repeat split; auto; try lia; try congruence; try discriminate.
Qed.

(** one request while all is well: served inside the buffer, served past the last
    address, or not served *)
Lemma w_mono_alloc_well : forall w, 0 < w -> forall dbg s l size align ans s' p calls, w_mono_any w s l -> w_mono_inv w s l ->
  0 < size < 2 ^ w -> pow2 align -> align < 2 ^ w -> mdata s + msize s + align <= 2 ^ w ->
  w_mono_allocate w dbg s size align ans = Ok (s', p, calls) ->
  (calls = [] /\ p <> 0 /\ ((p + size < 2 ^ w /\ w_mono_inv w s' ((p, size) :: l)) \/ 2 ^ w <= p + size)) \/
  ((calls <> [] \/ p = 0) /\ s' = s).
Proof.
  intros w W0; pose proof (pow2_pos w ltac:(lia)) as PW; intros dbg s l size align ans s' p calls Y I S A AB RM.
  destruct Y as [R0 _ _ E63 N0 NZ _]. destruct I as [D0 M0 E0 Z0 X0 T0 A0 B0].
  unfold w_mono_allocate. replace (size =? 0) with false by (symmetry; apply Z.eqb_neq; lia).
  destruct A as [k [K ->]]. pose proof (pow2_pos k K) as P.
  assert (K64 : k < w) by (apply (Z.pow_lt_mono_r_iff 2); lia).
  rewrite (w_is_power_of_2_pow w W0) by lia.
  replace (cassert dbg true) with (@id (res (mono * Z * list upcall))) by (destruct dbg; reflexivity). unfold id.
  destruct (Z.eqb_spec (mdata s) 0) as [Zd|Zd].
  - cbn [bind]. rewrite Z.eqb_refl. cbn [andb].
    destruct (mup s); intros H; injection H as <- <- <-; right; split; auto. left. discriminate.
  - rewrite X0, (w_skip_value w W0) by lia. cbn [bind].
    set (t := top (mdata s) l) in *. set (q := t + (- t) mod 2 ^ k).
    assert (LM : least_multiple (2 ^ k) t q) by (apply place; [lia|exists k; auto]).
    assert (Q : t <= q < 2 ^ w).
    { split; [apply LM|]. apply Z.le_lt_trans with (2 ^ w - 2 ^ k); [|lia]. apply LM; [apply w_room_multiple|]; lia. }
    rewrite (wrap_id w q) by lia.
    rewrite (wrap_id w (mdata s + msize s)) by lia.
    destruct (Z.leb_spec (wrap w (q + size)) (mdata s + msize s)) as [L|L]; cbn [bind].
    + replace (q =? 0) with false by (symmetry; apply Z.eqb_neq; lia). cbn [andb].
      intros H; injection H as <- <- <-. left. split; auto. split; [lia|].
      destruct (Z.lt_ge_cases (q + size) (2 ^ w)) as [B|B]; [left|right; lia]. split; [exact B|].
      rewrite wrap_id in L |- * by lia.
      constructor; cbn [mdata msize mnext mup top fst snd]; auto; try lia; try (intro; contradiction).
      * apply (ascending_cons (mdata s)); auto; [|cbn; fold t; lia].
        apply top_last; auto. intros a Ia. apply (B0 a Ia).
      * intros a [<-|Ia]; [unfold in_bounds; cbn; lia|apply B0; auto].
    + rewrite Z.eqb_refl. cbn [andb].
      destruct (mup s); intros H; injection H as <- <- <-; right; split; auto. left. discriminate.
Qed.

Lemma w_mono_step_any : forall w, 0 < w -> forall dbg s l o, w_mono_any w s l -> roomy_in w (mdata s + msize s) o ->
  exists s' e, w_mono_step w dbg s o = Ok (s', e) /\ w_mono_any w s' (handed_after l e) /\ same_buffer s s' /\
    (forall sz al p, e = EAllocate sz al p [] -> p <> 0 -> (al | p)).
Proof.
  intros w W0; pose proof (pow2_pos w ltac:(lia)) as PW; intros dbg s l [size align ans|p|] I F; cbn [w_mono_step].
  - destruct F as [F1 [F2 [F3 F4]]].
    destruct ((w_mono_alloc_total w W0) dbg s size align ans (w_ma_range _ _ _ I) F1 F2 F3)
      as [s' [p [calls [E [Q1 [Q2 [Q3 [Q4 Q5]]]]]]]].
    rewrite E. cbn [bind]. exists s', (EAllocate size align p calls). split; [reflexivity|].
    split; [|split; [repeat split; auto|intros sz al p' H; injection H as <- <- <- ->; auto]].
    destruct (Z.eq_dec size 0) as [->|N].
    { cbn in E. injection E as <- <- <-. cbn. exact I. }
    destruct I as [I1 I2 I3 I4 I5 I6 I7]. pose proof {| w_ma_range := I1; w_ma_data := I2; w_ma_size := I3;
      w_ma_end := I4; w_ma_null := I5; w_ma_pos := I6; w_ma_or := I7 |} as I.
    constructor; try rewrite Q2; try rewrite Q3; auto.
    destruct I7 as [G|[a [B1 B2]]].
    + destruct ((w_mono_alloc_well w W0) dbg s l size align ans s' p calls I G ltac:(lia) F2 F3 F4 E)
        as [[-> [P [[W1 W2]|W]]]|[C ->]]; cbn [handed_after].
      * left. replace (p =? 0) with false by (symmetry; apply Z.eqb_neq; auto). exact W2.
      * right. replace (p =? 0) with false by (symmetry; apply Z.eqb_neq; auto).
        exists (p, size). split; [left; reflexivity|exact W].
      * left. destruct C as [C|C]; destruct calls; try congruence; auto. subst p. rewrite Z.eqb_refl. exact G.
    + right. exists a. split; [|exact B2]. cbn. destruct calls; auto. destruct (p =? 0); auto. right. exact B1.
  - exists s, (EDeallocate p []). split; [reflexivity|]. split; [exact I|]. split; [repeat split|]. discriminate.
  - exists (mono_release s), ERelease. split; [reflexivity|]. split; [|split; [repeat split|discriminate]].
    destruct I as [I1 I2 I3 I4 I5 I6 I7].
    assert (N64 : mdata s + msize s < 2 ^ w) by lia.
    constructor; cbn [mono_release mdata msize mnext mup]; auto; try lia.
    left. constructor; cbn; auto; try lia; try tauto.
    intros l1 a l2 b l3 Q. destruct l1; discriminate Q.
Qed.

Lemma w_mono_run_any : forall w, 0 < w -> forall dbg ops s l, w_mono_any w s l -> Forall (roomy_in w (mdata s + msize s)) ops ->
  exists s' es, w_mono_run w dbg s ops = Ok (s', es) /\ w_mono_any w s' (fold_left handed_after es l) /\ same_buffer s s' /\
    (forall sz al p, In (EAllocate sz al p []) es -> p <> 0 -> (al | p)).
Proof.
  intros w W0; pose proof (pow2_pos w ltac:(lia)) as PW; intros dbg. induction ops as [|o ops IH]; intros s l I F.
  - exists s, []. cbn. split; [reflexivity|]. split; [exact I|]. split; [repeat split|]. contradiction.
  - inversion F as [|? ? Fo Fs]; subst.
    destruct ((w_mono_step_any w W0) dbg s l o I Fo) as [s1 [e [E [I1 [[S1 [S2 S3]] A1]]]]].
    destruct (IH s1 _ I1 ltac:(rewrite S1, S2; exact Fs)) as [s2 [es [E2 [I2 [[T1 [T2 T3]] A2]]]]].
    exists s2, (e :: es). cbn [w_mono_run]. rewrite E. cbn [bind]. rewrite E2. cbn [bind fold_left].
    split; [reflexivity|]. split; [exact I2|]. split; [repeat split; congruence|].
    intros sz al p [->|H] P; [apply (A1 sz al p eq_refl P)|apply (A2 sz al p H P)].
Qed.

Lemma w_start_any : forall w, 0 < w -> forall buffer size up, buffer_in w buffer size ->
  w_mono_any w (mono_construct buffer size up) [].
Proof.
  intros w W0; pose proof (pow2_pos w ltac:(lia)) as PW; intros b n up M. pose proof ((w_start_inv w W0) b n up M) as I. destruct M as [B [N E]].
  constructor; try (left; exact I); unfold mono_construct; cbn [mdata msize mnext];
  destruct (Z.eqb_spec n 0), (Z.eqb_spec b 0); lia.
Qed.

Lemma w_start_roomy : forall w buffer size up ops, buffer_in w buffer size ->
  Forall (roomy_in w (buffer + size)) ops ->
  Forall (roomy_in w (mdata (mono_construct buffer size up) + msize (mono_construct buffer size up))) ops.
Proof.
  intros w b n up ops [B [N E]] F. eapply Forall_impl; [|exact F].
  assert (L : mdata (mono_construct b n up) + msize (mono_construct b n up) <= b + n).
  { unfold mono_construct; cbn [mdata msize]. destruct (Z.eqb_spec n 0), (Z.eqb_spec b 0); lia. }
  intros [size align ans|p|]; cbn [roomy_in]; auto. intros [A1 [A2 [A3 A4]]]. repeat split; auto; lia.
Qed.

Lemma w_mono_contract_exact : forall w, 0 < w -> forall dbg buffer size up ops, buffer_in w buffer size ->
  Forall (roomy_in w (buffer + size)) ops ->
  exists s es, w_mono_run w dbg (mono_construct buffer size up) ops = Ok (s, es) /\
    (forall sz al p, In (EAllocate sz al p []) es -> p <> 0 -> (al | p)) /\
    (ascending (handed es) /\ pairwise_disjoint (handed es) /\
     (forall a, In a (handed es) -> in_bounds buffer (buffer + size) a) <->
     forall a, In a (handed es) -> fst a + snd a < 2 ^ w).
Proof.
  intros w W0; pose proof (pow2_pos w ltac:(lia)) as PW; intros dbg b n up ops M F. destruct ((w_made_end w W0) b n up M) as [E1 [E2 [E3 E4]]].
  destruct ((w_mono_run_any w W0) dbg ops _ [] ((w_start_any w W0) b n up M) (w_start_roomy w b n up ops M F)) as [s [es [R [I [[S1 [S2 S3]] A]]]]].
  exists s, es. split; [exact R|]. split; [exact A|]. fold (handed es) in I. destruct M as [M1 [M2 M3]]. split.
  - intros [_ [_ B]] a Ia. destruct (B a Ia). lia.
  - intros W. destruct (w_ma_or _ _ _ I) as [G|[a [Ia B]]]; [|specialize (W a Ia); lia].
    split; [apply (w_mi_asc _ _ _ G)|]. split; [apply ascending_disjoint, (w_mi_asc _ _ _ G)|].
    intros a Ia. destruct (w_mi_bounds _ _ _ G a Ia) as [[B1 B2] _].
    assert (Nz : mdata s <> 0). { intros Z. destruct (w_mi_null _ _ _ G Z) as [_ N]. rewrite N in Ia. destruct Ia. }
    rewrite S1 in B1, B2, Nz. rewrite S2 in B2. destruct (E2 Nz) as [H1 H2]. rewrite H1 in B1, B2. rewrite H2 in B2. split; assumption.
Qed.

(** any request after any history in which nothing ran past the last address *)
Lemma w_mono_exact_any : forall w, 0 < w -> forall dbg buffer size up ops s es sz align ans, buffer_in w buffer size ->
  Forall (roomy_in w (buffer + size)) ops ->
  w_mono_run w dbg (mono_construct buffer size up) ops = Ok (s, es) ->
  (forall a, In a (handed es) -> fst a + snd a < 2 ^ w) ->
  0 < sz < 2 ^ w -> pow2 align -> align < 2 ^ w ->
  exists s' p calls, w_mono_allocate w dbg s sz align ans = Ok (s', p, calls) /\
    (forall q, calls = [] /\ p = q /\ q <> 0 <-> wrapped_fits_in w buffer size (handed es) sz align q) /\
    (~ (exists q, wrapped_fits_in w buffer size (handed es) sz align q) ->
       if up then calls = [UpAllocate sz align] /\ p = ans sz align else calls = [] /\ p = 0).
Proof.
  intros w W0; pose proof (pow2_pos w ltac:(lia)) as PW; intros dbg b n up ops s es sz align ans M F R W S A AB. destruct ((w_made_end w W0) b n up M) as [E1 [E2 [E3 E4]]].
  destruct ((w_mono_run_any w W0) dbg ops _ [] ((w_start_any w W0) b n up M) (w_start_roomy w b n up ops M F)) as [s0 [es0 [R0 [Y [[S1 [S2 S3]] _]]]]].
  rewrite R in R0. injection R0 as <- <-. fold (handed es) in Y. destruct M as [M1 [M2 M3]].
  destruct (w_ma_or _ _ _ Y) as [I|[a [Ia B]]]; [|specialize (W a Ia); lia].
  destruct ((w_mono_alloc_any w W0) dbg s (handed es) sz align ans I S A AB (w_ma_pos _ _ _ Y)) as [s' [p [calls [E D]]]].
  exists s', p, calls. split; [exact E|].
  assert (Q : forall q, wrapped_fits_in w (mdata s) (msize s) (handed es) sz align q <-> wrapped_fits_in w b n (handed es) sz align q).
  { intros q. destruct (Z.eq_dec (mdata s) 0) as [Z|Z].
    - split; [intros [Q _]; lia|]. intros [H1 [H2 _]]. exfalso.
      rewrite S1 in Z. unfold mono_construct in Z. cbn in Z. destruct (Z.eqb_spec n 0); lia.
    - rewrite S1 in Z. destruct (E2 Z) as [H1 H2]. rewrite S1, S2, H1, H2. reflexivity. }
  rewrite S3, E3 in D. destruct D as [[q [Wq [-> [-> N]]]]|[Wq D]].
  - apply Q in Wq. split; [|intros X; destruct X; exists q; exact Wq].
    intros q'. split; [intros [_ [<- _]]; exact Wq|]. intros W'.
    assert (q = q') as <- by (eapply least_multiple_unique; [apply Wq|apply W']). auto.
  - split; [|intros _; exact D]. intros q. split.
    + intros [-> [-> N]]. destruct up; destruct D as [D1 D2]; [discriminate|contradiction].
    + intros X. apply Q in X. destruct (Wq q X).
Qed.

Lemma w_mono_run_app : forall w, 0 < w -> forall dbg a b s, w_mono_run w dbg s (a ++ b) =
  bind (w_mono_run w dbg s a) (fun r => let (s1, e1) := r in bind (w_mono_run w dbg s1 b) (fun r2 => let (s2, e2) := r2 in Ok (s2, e1 ++ e2))).
Proof.
  intros w W0; pose proof (pow2_pos w ltac:(lia)) as PW; intros dbg a b. induction a as [|o a IH]; intros s.
  - cbn. destruct (w_mono_run w dbg s b) as [[s2 e2]| | |]; reflexivity.
  - cbn [app w_mono_run]. destruct (w_mono_step w dbg s o) as [[s1 e]| | |]; cbn [bind]; auto.
    rewrite IH. destruct (w_mono_run w dbg s1 a) as [[s2 e2]| | |]; cbn [bind]; auto.
    destruct (w_mono_run w dbg s2 b) as [[s3 e3]| | |]; reflexivity.
Qed.

Lemma w_mono_alloc_same : forall w, 0 < w -> forall dbg s size align ans s' p calls,
  w_mono_allocate w dbg s size align ans = Ok (s', p, calls) -> same_buffer s s'.
Proof.
  intros w W0; pose proof (pow2_pos w ltac:(lia)) as PW; intros dbg s size align ans s' p calls. unfold w_mono_allocate.
  destruct (size =? 0); [intros H; injection H as <- <- <-; repeat split|].
  unfold cassert. assert (Q : forall k : res (mono * Z * list upcall), (if dbg then if w_is_power_of_2 w align then k else Abort else k) = Ok (s', p, calls) -> k = Ok (s', p, calls)).
  { intros k. destruct dbg; auto. destruct (w_is_power_of_2 w align); auto. discriminate. }
  intros H. apply Q in H. apply bind_ok in H. destruct H as [[s1 q] [H1 H2]].
  assert (B : same_buffer s s1).
  { destruct (mdata s =? 0); [injection H1 as <- <-; repeat split|].
    apply bind_ok in H1. destruct H1 as [k [_ H1]]. cbv zeta in H1.
    destruct (_ <=? _); injection H1 as <- <-; repeat split. }
  destruct ((q =? 0) && mup s1); injection H2 as <- <- <-; exact B.
Qed.

Lemma w_mono_run_same : forall w, 0 < w -> forall dbg ops s s' es, w_mono_run w dbg s ops = Ok (s', es) -> same_buffer s s'.
Proof.
  intros w W0; pose proof (pow2_pos w ltac:(lia)) as PW; intros dbg. induction ops as [|o ops IH]; intros s s' es H; cbn [w_mono_run] in H.
  - injection H as <- <-. repeat split.
  - apply bind_ok in H. destruct H as [[s1 e] [H1 H2]]. apply bind_ok in H2. destruct H2 as [[s2 es2] [H2 H3]].
    injection H3 as <- <-. apply IH in H2.
    assert (B : same_buffer s s1).
    { destruct o; cbn [w_mono_step] in H1.
      - apply bind_ok in H1. destruct H1 as [[[s1' p] calls] [A1 A2]]. injection A2 as <- _. eapply (w_mono_alloc_same w W0); eauto.
      - injection H1 as <- _. repeat split.
      - injection H1 as <- _. repeat split. }
    destruct B as [B1 [B2 B3]], H2 as [C1 [C2 C3]]. repeat split; congruence.
Qed.

(** after release everything is as after construction, whatever came before *)
Lemma w_mono_rewind : forall w, 0 < w -> forall dbg buffer size up before s1 es1 later,
  w_mono_run w dbg (mono_construct buffer size up) before = Ok (s1, es1) ->
  w_mono_run w dbg (mono_construct buffer size up) (before ++ ORelease :: later) =
  bind (w_mono_run w dbg (mono_construct buffer size up) later)
    (fun r => let (s2, es2) := r in Ok (s2, es1 ++ ERelease :: es2)).
Proof.
  intros w W0; pose proof (pow2_pos w ltac:(lia)) as PW; intros dbg b n up before s1 es1 later H. rewrite (w_mono_run_app w W0), H. cbn [bind w_mono_run w_mono_step].
  apply (w_mono_run_same w W0) in H. destruct H as [H1 [H2 H3]].
  replace (mono_release s1) with (mono_construct b n up).
  - destruct (w_mono_run w dbg (mono_construct b n up) later) as [[s2 e2]| | |]; reflexivity.
  - unfold mono_release. rewrite H1, H2, H3. reflexivity.
Qed.

Lemma w_mono_ignore : forall w, 0 < w -> forall dbg ops s s' es, w_mono_run w dbg s ops = Ok (s', es) ->
  w_mono_run w dbg s (filter (fun o => negb (is_dealloc_op o)) ops) =
    Ok (s', filter (fun e => negb (is_dealloc_event e)) es).
Proof.
  intros w W0; pose proof (pow2_pos w ltac:(lia)) as PW; intros dbg. induction ops as [|o ops IH]; intros s s' es H; cbn [w_mono_run] in H.
  - injection H as <- <-. reflexivity.
  - apply bind_ok in H. destruct H as [[s1 e] [H1 H2]]. apply bind_ok in H2. destruct H2 as [[s2 es2] [H2 H3]].
    injection H3 as <- <-. destruct o; cbn [filter is_dealloc_op negb].
    + cbn [w_mono_run]. rewrite H1. cbn [bind].
      cbn [w_mono_step] in H1. apply bind_ok in H1. destruct H1 as [[[s1' p] calls] [A1 A2]]. injection A2 as <- <-.
      cbn [filter is_dealloc_event negb]. rewrite (IH _ _ _ H2). reflexivity.
    + cbn [w_mono_step mono_deallocate] in H1. injection H1 as <- <-. cbn [filter is_dealloc_event negb]. apply IH; auto.
    + cbn [w_mono_run]. rewrite H1. cbn [bind]. cbn [w_mono_step] in H1. injection H1 as <- <-.
      cbn [filter is_dealloc_event negb]. rewrite (IH _ _ _ H2). reflexivity.
Qed.

(** a request that cannot be served leaves the resource as it was *)
Lemma w_mono_alloc_kept : forall w, 0 < w -> forall dbg s l size align ans s' p calls, w_mono_any w s l -> w_mono_inv w s l ->
  0 < size < 2 ^ w -> pow2 align -> align < 2 ^ w -> mdata s + msize s + align <= 2 ^ w ->
  w_mono_allocate w dbg s size align ans = Ok (s', p, calls) -> ~ (calls = [] /\ p <> 0) -> s' = s.
Proof.
  intros w W0; pose proof (pow2_pos w ltac:(lia)) as PW; intros dbg s l size align ans s' p calls Y I S A AB RM E N. unfold w_mono_allocate in E.
  replace (size =? 0) with false in E by (symmetry; apply Z.eqb_neq; lia).
  destruct A as [k [K ->]]. pose proof (pow2_pos k K) as P.
  assert (K64 : k < w) by (apply (Z.pow_lt_mono_r_iff 2); lia).
  rewrite (w_is_power_of_2_pow w W0) in E by lia.
  replace (cassert dbg true) with (@id (res (mono * Z * list upcall))) in E by (destruct dbg; reflexivity). unfold id in E.
  destruct (Z.eqb_spec (mdata s) 0) as [Zd|Zd].
  - cbn [bind] in E. destruct ((0 =? 0) && mup s); injection E as <- <- <-; reflexivity.
  - pose proof (w_ma_range _ _ _ Y) as R. pose proof (w_ma_end _ _ _ Y) as EN. pose proof (w_mi_end _ _ _ I) as ME.
    pose proof (w_mi_next _ _ _ I) as X. pose proof (w_ma_data _ _ _ Y) as D0.
    rewrite (w_skip_value w W0) in E by lia. cbn [bind] in E. set (t := mnext s) in *.
    assert (LM : least_multiple (2 ^ k) t (t + (- t) mod 2 ^ k)) by (apply place; [lia|exists k; auto]).
    assert (T : 0 < t <= mdata s + msize s).
    { pose proof (w_mi_top _ _ _ I). unfold t in *. rewrite X in *. lia. }
    assert (Q : t <= t + (- t) mod 2 ^ k < 2 ^ w).
    { split; [apply LM|]. apply Z.le_lt_trans with (2 ^ w - 2 ^ k); [|lia]. apply LM; [apply w_room_multiple|]; lia. }
    assert (V : wrap w (t + (- t) mod 2 ^ k) = t + (- t) mod 2 ^ k) by (apply Z.mod_small; lia).
    rewrite V in E. destruct (_ <=? _); cbn [bind] in E.
    + replace (t + (- t) mod 2 ^ k =? 0) with false in E by (symmetry; apply Z.eqb_neq; lia).
      cbn [andb] in E. injection E as <- <- <-. destruct N. split; [reflexivity|lia].
    + destruct ((0 =? 0) && mup s); injection E as <- <- <-; reflexivity.
Qed.

Lemma w_mono_upstream_exact : forall w, 0 < w -> forall dbg buffer size up ops s es sz align ans, buffer_in w buffer size ->
  Forall (roomy_in w (buffer + size)) ops ->
  w_mono_run w dbg (mono_construct buffer size up) ops = Ok (s, es) ->
  (forall a, In a (handed es) -> fst a + snd a < 2 ^ w) ->
  0 < sz < 2 ^ w -> pow2 align -> align < 2 ^ w ->
  exists s' p calls, w_mono_allocate w dbg s sz align ans = Ok (s', p, calls) /\
    (calls = [] \/ calls = [UpAllocate sz align] /\ up = true /\ p = ans sz align) /\
    (calls = [UpAllocate sz align] \/ up = false /\ p = 0 <->
       ~ exists q, wrapped_fits_in w buffer size (handed es) sz align q) /\
    (buffer + size + align <= 2 ^ w -> calls <> [] \/ p = 0 -> s' = s).
Proof.
  intros w W0; pose proof (pow2_pos w ltac:(lia)) as PW; intros dbg b n up ops s es sz align ans M F R W S A AB.
  destruct ((w_mono_exact_any w W0) dbg b n up ops s es sz align ans M F R W S A AB) as [s' [p [calls [E [D1 D2]]]]].
  destruct ((w_mono_run_any w W0) dbg ops _ [] ((w_start_any w W0) b n up M) (w_start_roomy w b n up ops M F)) as [s0 [es0 [R0 [Y [[S1 [S2 S3]] _]]]]].
  rewrite R in R0. injection R0 as <- <-. fold (handed es) in Y.
  destruct (w_ma_or _ _ _ Y) as [I|[a [Ia B]]]; [|specialize (W a Ia); lia].
  exists s', p, calls. split; [exact E|].
  assert (C : calls = [] /\ p <> 0 \/ ~ (calls = [] /\ p <> 0)).
  { destruct calls; [|right; intros [? _]; discriminate]. destruct (Z.eq_dec p 0); [right; lia|left; auto]. }
  destruct C as [[-> Np]|C].
  - split; [left; reflexivity|]. split; [|intros _ [X|X]; [destruct X; reflexivity|lia]].
    split; [intros [X|[_ X]]; [discriminate|lia]|]. intros X. destruct X. exists p. apply D1. auto.
  - assert (NW : ~ exists q, wrapped_fits_in w b n (handed es) sz align q).
    { intros [q Hq]. apply D1 in Hq. destruct Hq as [X [-> Y0]]. apply C. auto. }
    specialize (D2 NW). split; [|split].
    + destruct up; destruct D2 as [-> ->]; auto.
    + split; [intros _; exact NW|]. intros _. destruct up; destruct D2 as [-> ->]; auto.
    + intros RM _. assert (mdata s + msize s <= b + n).
      { rewrite S1, S2. destruct M as [M1 [M2 M3]]. unfold mono_construct; cbn [mdata msize].
        destruct (Z.eqb_spec n 0), (Z.eqb_spec b 0); lia. }
      eapply (w_mono_alloc_kept w W0); eauto. lia.
Qed.

(** * max_alignment_inside_block *)

Lemma w_max_align_value : forall w dbg k n, platform w -> 0 <= k < w -> 0 < n -> 2 ^ k + n - 1 < 2 ^ 32 ->
  2 ^ k + n - 1 < 2 ^ 31 \/ w = 32 ->
  w_max_alignment_inside_block w dbg (2 ^ k) n = Ok (2 ^ Z.log2 (2 ^ k + n - 1)).
Proof.
  intros w dbg k n HP Hk Hn H32 Hc. unfold w_max_alignment_inside_block.
  assert (W0 : 0 < w) by (destruct HP; lia).
  rewrite (w_is_power_of_2_pow w W0) by lia.
  destruct (Z.ltb_spec 0 n); [|lia].
  pose proof (pow2_pos k ltac:(lia)) as P.
  assert (LW : 2 ^ 32 <= 2 ^ w) by (apply pow2_le; destruct HP; lia).
  replace (wrap w (wrap w (2 ^ k + n) - 1)) with (2 ^ k + n - 1)
    by (unfold wrap; rewrite Zminus_mod_idemp_l; symmetry; apply Z.mod_small; lia).
  assert (P64 : 2 ^ 32 < 2 ^ 64) by reflexivity.
  rewrite bits_count_value by lia.
  destruct (Z.eqb_spec (2 ^ k + n - 1) 0); [lia|].
  set (L := Z.log2 (2 ^ k + n - 1)).
  assert (HL : 0 <= L < 32).
  { unfold L. split; [apply Z.log2_nonneg|]. apply Z.log2_lt_pow2; lia. }
  assert (E : forall (A : Type) (x : res A), cassert dbg true x = x) by (intros; destruct dbg; reflexivity).
  cbv zeta. rewrite !E. unfold bind at 1.
  replace (L + 1 - 1) with L by lia. rewrite (wrap_id w L) by lia.
  destruct (Z.eq_dec L 31) as [E31|N31].
  - assert (w = 32) as ->.
    { destruct Hc as [Hc|Hc]; auto. exfalso.
      assert (L < 31) by (apply Z.log2_lt_pow2; lia). lia. }
    rewrite E31. reflexivity.
  - assert (PL : 2 ^ L < 2 ^ 31) by (apply Z.pow_lt_mono_r; lia).
    assert (P32 : 2 ^ 31 < 2 ^ 32) by reflexivity.
    pose proof (pow2_pos L ltac:(lia)) as PL0.
    rewrite shl_i32_one by lia. cbn [bind]. rewrite wrap_id by lia. reflexivity.
Qed.

Lemma w_best_alignment_log2 : forall w k n, 0 < w -> 0 <= k < w -> 0 < n -> 2 ^ k + n <= 2 ^ w ->
  best_alignment_in w (2 ^ k) n (2 ^ Z.log2 (2 ^ k + n - 1)).
Proof.
  intros w k n W0 Hk Hn Hlt. pose proof (pow2_pos k ltac:(lia)) as P.
  pose proof (Z.log2_spec (2 ^ k + n - 1) ltac:(lia)) as [L1 L2].
  pose proof (Z.log2_nonneg (2 ^ k + n - 1)) as LN.
  set (L := Z.log2 (2 ^ k + n - 1)) in *.
  assert (KL : k <= L).
  { unfold L. rewrite <- (Z.log2_pow2 k) at 1 by lia. apply Z.log2_le_mono. lia. }
  split; [exists L; auto|]. split.
  - intros p Hp [j Hj] Hend.
    set (q := p + (- p) mod 2 ^ L).
    pose proof (pow2_pos L LN) as PL. pose proof (Z.mod_pos_bound (- p) (2 ^ L) PL).
    exists q. assert (D : (2 ^ L | q)).
    { unfold q. apply Z.mod_divide; [lia|]. rewrite Zplus_mod_idemp_r, Z.add_opp_diag_r.
      apply Z.mod_0_l. lia. }
    split; auto. split; [unfold q; lia|].
    assert (Dk : (2 ^ k | (- p) mod 2 ^ L)).
    { apply Z.mod_divide; [lia|]. rewrite mod_sub_multiple by lia. apply Z.mod_divide; [lia|].
      apply Z.divide_opp_r. exists j. exact Hj. }
    assert ((- p) mod 2 ^ L <= 2 ^ L - 2 ^ k).
    { destruct Dk as [c Hc]. destruct (pow2_divide k L ltac:(lia)) as [d Hd].
      rewrite Hc, Hd in *. assert (c < d) by nia. nia. }
    unfold q. lia.
  - intros m' [k' [Hk' ->]] G.
    destruct (Z_le_gt_dec k' L) as [LE|GT]; [apply pow2_le; lia|]. exfalso.
    destruct (G (2 ^ k)) as [q [Hq [c Hc]]]; [lia|exists 1; lia|lia|].
    assert (2 ^ (L + 1) <= 2 ^ k') by (apply pow2_le; lia).
    replace (Z.succ L) with (L + 1) in L2 by lia.
    assert (0 < c) by nia. nia.
Qed.

(** with 32 bits the answer is right for every block that fits behind its alignment *)
Lemma max_align_32 : forall dbg a n, pow2 a -> 0 < n -> a + n <= 2 ^ 32 ->
  exists m, w_max_alignment_inside_block 32 dbg a n = Ok m /\ best_alignment_in 32 a n m.
Proof.
  intros dbg a n Ha Hn Hs. destruct (pow2_cases a 32 ltac:(lia) Ha ltac:(lia)) as [k [Hk ->]].
  exists (2 ^ Z.log2 (2 ^ k + n - 1)).
  split; [apply w_max_align_value; try lia; left; reflexivity|apply w_best_alignment_log2; lia].
Qed.

(** a greatest one exists only for such blocks *)
Lemma best_32_bound : forall a n m, pow2 a -> 0 < n -> best_alignment_in 32 a n m -> a + n <= 2 ^ 32.
Proof.
  intros a n m Ha Hn [[k [Hk ->]] [G B]]. destruct (Z_le_gt_dec (a + n) (2 ^ 32)) as [H|H]; auto. exfalso.
  assert (X : 2 ^ (k + 1) <= 2 ^ k).
  { apply B; [exists (k + 1); split; [lia|reflexivity]|]. intros p P [c ->] E. exists 0.
    destruct Ha as [j [Hj ->]]. pose proof (pow2_pos j Hj). assert (c = 0) as -> by nia.
    split; [lia|]. apply Z.divide_0_r. }
  rewrite Z.pow_add_r in X by lia. change (2 ^ 1) with 2 in X. pose proof (pow2_pos k Hk). lia.
Qed.

Lemma max_align_32_all : forall dbg a n m, pow2 a -> 0 < n -> best_alignment_in 32 a n m ->
  w_max_alignment_inside_block 32 dbg a n = Ok m.
Proof.
  intros dbg a n m Ha Hn Hm. pose proof (best_32_bound a n m Ha Hn Hm) as H.
  destruct (max_align_32 dbg a n Ha Hn H) as [m' [E [B1 [B2 B3]]]]. rewrite E. f_equal.
  destruct Hm as [M1 [M2 M3]]. apply Z.le_antisymm; auto.
Qed.

(** * get_alignment *)

Lemma w_get_alignment_correct : forall w dbg sz supported t ptr, platform w -> (length supported < sz)%nat ->
  8 * Z.of_nat (sizeof t) = w -> (exists u, In u supported /\ (sizeof t <= sizeof u)%nat) ->
  0 < ptr < 2 ^ w ->
  exists a, w_get_alignment w dbg sz supported t ptr = Some (Ok a) /\
    pow2 a /\ (a | ptr) /\ forall b, pow2 b -> (b | ptr) -> b <= a.
Proof.
  intros w dbg sz supported t ptr HP Hsz Ht Hu Hp.
  assert (W0 : 0 < w) by (destruct HP; lia).
  destruct (ctz_correct dbg sz supported t ptr Hsz) as [C _]; [rewrite Ht; exact Hp|].
  destruct C as [n [E [[N [D1 D2]] B]]]; [exact Hu|].
  rewrite Ht in B.
  exists (2 ^ n). split; [|split; [exists n; auto|split; auto]].
  - unfold w_get_alignment. rewrite E. f_equal. unfold cassert.
    destruct (Z.eqb_spec ptr 0); [lia|]. cbn [negb bind].
    assert (S : shl (Ity w false) 1 n = Ok (2 ^ n)).
    { unfold shl. cbn [bits sgn]. destruct (Z.ltb_spec n 0); [lia|].
      destruct (Z.leb_spec w n); [lia|]. cbn [orb]. f_equal. rewrite Z.mul_1_l.
      apply wrap_id. split; [pose proof (pow2_pos n N); lia|]. apply Z.pow_lt_mono_r; lia. }
    rewrite S. destruct dbg; reflexivity.
  - intros b [k [Hk ->]] Hd. destruct (Z_le_gt_dec k n); [apply pow2_le; lia|].
    exfalso. apply D2. apply Z.divide_trans with (2 ^ k); auto. apply pow2_divide. lia.
Qed.

(** * The other models are the case of 64 bits *)

Lemma mono_run_64 : forall dbg ops s, w_mono_run 64 dbg s ops = mono_run dbg s ops.
Proof. intros dbg. induction ops as [|o ops IH]; intros s; [reflexivity|]. cbn [w_mono_run mono_run].
  change (w_mono_step 64 dbg s o) with (mono_step dbg s o).
  destruct (mono_step dbg s o) as [[s1 e]| | |]; cbn [bind]; auto. rewrite IH. reflexivity.
Qed.

Lemma same_64 : forall dbg,
  (forall v, w_is_power_of_2 64 v = is_power_of_2 v) /\
  (forall m v, w_next_multiple_of 64 dbg m v = next_multiple_of dbg m v) /\
  (forall p a, w_skip_to_align 64 dbg p a = skip_to_align dbg p a) /\
  (forall p a, w_is_aligned 64 dbg p a = is_aligned dbg p a) /\
  (forall a n, w_max_alignment_inside_block 64 dbg a n = max_alignment_inside_block dbg a n) /\
  (forall sz supported t p, w_get_alignment 64 dbg sz supported t p = get_alignment dbg sz supported t p) /\
  (forall s ops, w_mono_run 64 dbg s ops = mono_run dbg s ops).
Proof. intros dbg. repeat split. intros. apply mono_run_64. Qed.

(** * allocate(count) *)

Lemma w_count_room : forall w, 0 < w -> forall dbg buffer size up ops s es count sz align ans, buffer_in w buffer size ->
  Forall (fair_in w (buffer + size)) ops -> w_mono_run w dbg (mono_construct buffer size up) ops = Ok (s, es) ->
  0 < count -> 0 < sz -> count * sz < 2 ^ w -> pow2 align -> buffer + size + align + count * sz <= 2 ^ w ->
  exists s' p calls, w_allocate_count w dbg s count sz align ans = Ok (s', p, calls) /\
    (calls = [] /\ p <> 0 <-> fits_behind buffer size (handed es) (count * sz) align) /\
    (calls = [] -> p <> 0 -> least_multiple align (top buffer (handed es)) p).
Proof.
  intros w W0 dbg b n up ops s es count sz align ans M F R C S B A G. unfold w_allocate_count.
  assert (0 < count * sz) by nia.
  rewrite wrap_id by lia. eapply w_mono_served; eauto.
Qed.

(** * Counterexamples for every width *)

(** in a buffer of 32 bytes, a request of all but 4 bytes of the address space is served
    and later memory overlaps *)
Lemma w_mono_overlap : forall w dbg, platform w -> exists s es,
  w_mono_run w dbg (mono_construct 4096 32 false) [ask 8; ask (2 ^ w - 4); ask 4] = Ok (s, es) /\
  Forall (legal_in w) [ask 8; ask (2 ^ w - 4); ask 4] /\ ~ pairwise_disjoint (handed es).
Proof.
  intros w dbg [->| ->]; destruct dbg; eexists; eexists; (split; [vm_compute; reflexivity|]); (split;
  [repeat constructor; try lia; exists 0; split; reflexivity || lia|]);
  intros D.
  1,2: specialize (D [] (4100, 4) [(4104, 2 ^ 32 - 4)] (4096, 8) [] eq_refl); unfold disjoint in D; cbn in D; lia.
  all: specialize (D [] (4100, 4) [(4104, 2 ^ 64 - 4)] (4096, 8) [] eq_refl); unfold disjoint in D; cbn in D; lia.
Qed.

(** room for 2^29 + 1 objects of 8 bytes is found in a buffer of 32 bytes *)
Lemma count_32_wraps : forall dbg, exists s',
  w_allocate_count 32 dbg (mono_construct 4096 32 false) (2 ^ 29 + 1) 8 8 (fun _ _ => 0) = Ok (s', 4096, []) /\
  4096 + 32 < 4096 + (2 ^ 29 + 1) * 8.
Proof. intros [|]; eexists; (split; [vm_compute; reflexivity|reflexivity]). Qed.
