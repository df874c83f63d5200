(** Lemmas for C161. *)

Require Import ZArith Lia List Bool.
Require Import Verif.Outcome Verif.Machine Verif.BitsModel Verif.BitsSpec Verif.BitsProofs.
Require Import Verif.SimpleModel Verif.SimpleSpec Verif.SimpleView Verif.SimpleProofs Verif.SimpleScanProofs Verif.SimpleAllocProofs Verif.SimpleOpProofs
  Verif.SimpleAnyProofs Verif.SimpleHistProofs Verif.SimpleMainProofs Verif.SimpleExactProofs Verif.SimpleWalkProofs Verif.SimpleRefuted.
Require Import Verif.MonoModel Verif.MonoSpec Verif.MonoProofs Verif.RoomSpec Verif.RoomProofs Verif.GrowProofs Verif.LessSpec.
Import ListNotations.
Open Scope Z_scope.
Open Scope res_scope.

Lemma weaker_divides : forall al' al, pow2 al' -> pow2 al -> al' <= al -> (al' | al).
Proof.
  intros al' al [i [Hi ->]] [j [Hj ->]] L. apply pow2_divide.
  split; auto. apply Z.pow_le_mono_r_iff with (a := 2); lia.
Qed.

Lemma less_holds : forall d b r sz' al' sz al, asks_less sz' al' sz al -> pow2 al ->
  can_hold d b r sz al -> can_hold d b r sz' al'.
Proof.
  intros d b r sz' al' sz al [S [P' L]] P [q [Q1 [Q2 Q3]]]. exists q. split; auto. split; [|lia].
  eapply Z.divide_trans; [|exact Q2]. apply weaker_divides; auto.
Qed.

Lemma less_reach : forall d n al' al, pow2 al' -> pow2 al -> al' <= al ->
  alignment_within_reach d n al -> alignment_within_reach d n al'.
Proof. intros d n al' al P' P L [g [A G]]. exists g. split; auto. eapply guaranteed_less; eauto. Qed.

(** * A monotonic buffer *)

Lemma served_event : forall sz al p calls, served (EAllocate sz al p calls) <-> calls = [] /\ p <> 0.
Proof. intros sz al p [|x l]; cbn [served]; [tauto|]. split; [contradiction|intros [H _]; discriminate H]. Qed.

Lemma mono_less : forall dbg buffer size up ops sz al ans s es e, mono_made buffer size ->
  Forall (fair_op (buffer + size)) (ops ++ [OAllocate sz al ans]) ->
  mono_run dbg (mono_construct buffer size up) (ops ++ [OAllocate sz al ans]) = Ok (s, es ++ [e]) -> served e ->
  forall sz' al' ans', asks_less sz' al' sz al ->
  exists s' e', mono_run dbg (mono_construct buffer size up) (ops ++ [OAllocate sz' al' ans']) = Ok (s', es ++ [e']) /\
    served e' /\ no_later e' e.
Proof.
  intros dbg buffer size up ops sz al ans s es e MM FO R SV sz' al' ans' L.
  apply Forall_app in FO. destruct FO as [FO1 FO2].
  inversion FO2 as [|x1 x2 FO3 _]; subst. cbn [fair_op] in FO3. destruct FO3 as [G1 [G2 G3]].
  destruct L as [L1 [L2 L3]].
  destruct (mono_contract dbg buffer size up ops MM FO1) as [s1 [es1 [R1 _]]].
  destruct (mono_served dbg buffer size up ops s1 es1 sz al ans MM FO1 R1 ltac:(lia) G2 G3) as [s2 [p [calls [E [Y X]]]]].
  destruct (mono_served dbg buffer size up ops s1 es1 sz' al' ans' MM FO1 R1 ltac:(lia) L2 ltac:(lia)) as [s2' [p' [calls' [E' [Y' X']]]]].
  rewrite mono_run_app, R1 in R. cbn [bind mono_run mono_step] in R. rewrite E in R. cbn [bind] in R.
  injection R as <- R. apply app_inj_tail in R. destruct R as [<- <-].
  apply served_event in SV. assert (SV' := SV). destruct SV' as [-> NP].
  assert (X1 := X eq_refl NP). apply Y in SV. destruct SV as [NB [q [Q1 [Q2 Q3]]]].
  assert (DV : (al' | al)) by (apply weaker_divides; auto).
  assert (F' : fits_behind buffer size (handed es1) sz' al').
  { split; auto. exists q. split; auto. split; [apply Z.divide_trans with al; auto|lia]. }
  apply Y' in F'. assert (F2 := F'). destruct F2 as [-> NP']. assert (X2 := X' eq_refl NP').
  exists s2', (EAllocate sz' al' p' []). split.
  { rewrite mono_run_app, R1. cbn [bind mono_run mono_step]. rewrite E'. reflexivity. }
  split; [apply served_event; auto|]. cbn [no_later].
  assert (p' <= p); [|lia]. destruct X1 as [A1 [A2 A3]]. destruct X2 as [B1 [B2 B3]].
  apply B3; auto. apply Z.divide_trans with al; auto.
Qed.

(** * simple_resource: careful clients, both builds *)

Lemma careful_less : forall c buffer size_b up s, made c buffer size_b up s ->
  forall fuel, (Z.to_nat (bc s) < fuel)%nat ->
  forall ops sz al ans sz' al' ans', asks_less sz' al' sz al ->
  careful_client (data s) (BS c) (bc s) up (ops ++ [OAllocate sz al ans]) ->
  careful_client (data s) (BS c) (bc s) up (ops ++ [OAllocate sz' al' ans']) ->
  exists s1 s2 es e e', run c fuel s (ops ++ [OAllocate sz al ans]) = Ok (s1, es ++ [e]) /\
    run c fuel s (ops ++ [OAllocate sz' al' ans']) = Ok (s2, es ++ [e']) /\
    (served e -> served e' /\ no_later e' e).
Proof.
  intros c buffer size_b up s M fuel F ops sz al ans sz' al' ans' L V V'.
  destruct (made_wf _ _ _ _ _ M) as [HC [W [U [_ [O [D [B [PB [DV N]]]]]]]]].
  unfold careful_client in V, V'. rewrite <- U in V, V'.
  destruct (run_careful c fuel ops s _ HC W O F (valid_app _ _ _ _ _ _ _ _ _ _ V)) as [s0 [rs [es [R [W0 [SP SR]]]]]].
  assert (VL := valid_last _ _ _ _ _ _ _ _ _ _ _ _ V SR). assert (VL' := valid_last _ _ _ _ _ _ _ _ _ _ _ _ V' SR).
  destruct SP as [P1 [P2 P3]].
  assert (O0 : ordinary_buffer (data s0) (bc s0 * BS c)) by (rewrite P1, P2; exact O).
  assert (STEP : forall o, valid_op (data s) (BS c) (bc s) (has_up s) false (careful (data s) (BS c) (bc s)) any_order rs o ->
    exists s' rs' e, run c fuel s (ops ++ [o]) = Ok (s', es ++ [e]) /\
      spec_step (data s) (BS c) (bc s) (has_up s) rs o rs' e).
  { intros o VO. destruct (run_careful c fuel [o] s0 rs HC W0 O0 ltac:(rewrite P2; exact F)) as [s' [rs' [es' [R' [_ [_ SR']]]]]].
    - rewrite P1, P2, P3. cbn [valid_client]. split; auto.
    - rewrite P1, P2, P3 in SR'. inversion SR' as [|x1 x2 x3 x4 x5 x6 x7 S1 S2]; subst. inversion S2; subst.
      exists s', rs', x4. split; auto. rewrite run_app, R. cbn [bind]. rewrite R'. reflexivity. }
  destruct (STEP _ VL) as [s1 [rs1 [e [R1 S1]]]]. destruct (STEP _ VL') as [s2 [rs2 [e' [R2 S2]]]].
  exists s1, s2, es, e, e'. split; auto. split; auto.
  destruct L as [L1 [L2 L3]].
  assert (PA : pow2 al) by (cbn [valid_op] in VL; destruct VL as [VL|VL]; [lia|apply VL]).
  assert (GE : geometry c s0) by apply (wf_geom _ _ _ W0).
  assert (TL := wf_tiling _ _ _ W0). destruct TL as [CT _]. destruct (contiguous_bounds _ _ _ CT) as [_ CB].
  intros SV. inversion S1 as [|x1 x2 x3 x4 l f t q i x5 Hs FF FA Q T1 E| | | | | |]; subst; cbn [served] in SV; try contradiction; try lia.
  destruct FF as [-> [F2 [F3 F4]]].
  assert (LH : forall r, can_hold (data s) (BS c) r sz al -> can_hold (data s) (BS c) r sz' al').
  { intros r. apply less_holds; auto. split; auto. }
  inversion S2 as [|y1 y2 y3 y4 l' f' t' q' i' y5 Hs' FF' FA' Q' T1' E'|y1 y2 y3 y4 Hs' NF' U'|y1 y2 y3 y4 Hs' NF' U'| | | |]; subst; try lia.
  - destruct FF' as [EQ [G2 [G3 G4]]].
    assert (RA : region_addr (data s) (BS c) f' <= region_addr (data s) (BS c) f).
    { assert (I' : In f' (l ++ f :: t)) by (rewrite EQ; apply in_app_iff; right; left; reflexivity).
      assert (NI : ~ In f l').
      { intros I. apply (G4 f I F2). apply LH; auto. }
      assert (IO : rstart f' <= rstart f).
      { assert (If : In f (l' ++ f' :: t')) by (rewrite <- EQ; apply in_app_iff; right; left; reflexivity).
        apply in_app_iff in If. destruct If as [If|[If|If]]; [contradiction|subst; lia|].
        rewrite EQ in CT. revert CT. generalize 0. clear - If.
        induction l' as [|x l' IH]; intros a C; cbn [app contiguous] in C.
        - destruct C as [C1 [C2 C3]]. destruct (contiguous_bounds _ _ _ C3) as [_ CB]. specialize (CB f If). lia.
        - destruct C as [_ [_ C]]. eapply IH; eauto. }
      unfold region_addr. nia. }
    assert (Q0 : 0 < data s + i' * BS c).
    { destruct FA' as [A _]. unfold region_addr in A.
      assert (I' : In f' (l ++ f :: t)) by (rewrite EQ; apply in_app_iff; right; left; reflexivity).
      specialize (CB f' I'). nia. }
    cbn [served no_later]. split; [lia|].
    assert (data s + i' * BS c <= data s + i * BS c); [|lia].
    destruct FA' as [_ [_ A3]]. destruct FA as [A1 [A2 _]]. apply A3; [lia|].
    eapply Z.divide_trans; [|exact A2]. apply weaker_divides; auto.
  - exfalso. apply (NF' f); auto; [apply in_app_iff; right; left; reflexivity].
  - exfalso. apply (NF' f); auto; [apply in_app_iff; right; left; reflexivity].
Qed.

(** * simple_resource: debug builds, any history *)

Lemma no_influence : forall c fuel s sz al ans ans' s' p, allocate_impl c fuel s sz al ans = Ok (s', p, []) -> p <> 0 ->
  allocate_impl c fuel s sz al ans' = Ok (s', p, []).
Proof.
  intros c fuel s sz al ans ans' s' p E NP. unfold allocate_impl in *. destruct (sz =? 0); auto.
  destruct (DBG c); destruct (is_power_of_2 al); cbn [cassert negb andb] in *; auto;
    destruct (search_buffer c fuel s sz al) as [[s1 q]| | |]; cbn [bind] in *; auto;
    destruct ((q =? 0) && has_up s1); auto;
    exfalso; cbn [bind] in E;
    try (destruct (is_aligned true (ans sz al) (BS c)) as [[]| | |]; cbn [bind cassert negb andb] in E);
    inversion E.
Qed.

Section Debug.
Context (c : cfg) (buffer size : Z) (up : bool) (s : state) (fuel : nat) (ops : list op) (s' : state) (es : list event).
Hypothesis M : made c buffer size up s.
Hypothesis DB : DBG c = true.
Hypothesis SO : Forall sane_op ops.
Hypothesis R : run c fuel s ops = Ok (s', es).

(** a request is served only where the search comes upon a block that holds it *)
Lemma served_holds : forall f sz al ans s2 p, 0 < sz -> pow2 al -> sz + al <= 2 ^ 64 ->
  allocate_impl c f s' sz al ans = Ok (s2, p, []) -> p <> 0 ->
  alignment_within_reach (data s) (bc s * BS c) al /\
  exists i, search_from_0 (data s) (BS c) (bc s) (nxt s') (inuse s') sz al (Some (Holds i)).
Proof.
  intros f sz al ans s2 p S PA SA E NP. apply (no_influence _ _ _ _ _ _ (fun _ _ => 0)) in E; [|exact NP].
  destruct (search_exact _ _ _ _ _ _ _ _ _ sz al (fun _ _ => 0) M DB SO R (conj S (conj PA SA))) as [Y N].
  destruct (debug_state _ _ _ _ _ _ _ _ _ M DB SO R) as [HC [G [LF [SP O]]]].
  destruct (made_wf _ _ _ _ _ M) as [_ [W _]].
  apply (allocate_more _ _ (2 * Z.to_nat (bc s') + 2)) in E.
  assert (AF : has_up s' = true -> answer_fits (BS c) 0).
  { intros _. split; [split; [lia|reflexivity]|apply Z.divide_0_r]. }
  assert (END : ~ follows c s' sz al (fun _ _ => 0) (Some Ends)).
  { intros X. cbn [follows] in X. rewrite (X AF) in E by lia. destruct (has_up s'); inversion E; congruence. }
  destruct (reach_dec c s al HC (wf_geom _ _ _ W) O PA) as [RE|NR]; [|exfalso; apply END; auto].
  split; [exact RE|]. destruct (Y RE) as [v [V1 [V2 V3]]]. destruct v as [[i| |]|].
  - exists i. exact V1.
  - contradiction.
  - exfalso. inversion V1; congruence.
  - exfalso. cbn [follows] in V3. unfold never_returns in V3. rewrite V3 in E. discriminate E.
Qed.

(** the search for less ends at the latest where the search for more does *)
Lemma less_sight : forall sz al sz' al' i, asks_less sz' al' sz al -> pow2 al ->
  search_from_0 (data s) (BS c) (bc s) (nxt s') (inuse s') sz al (Some (Holds i)) ->
  forall v, search_from_0 (data s) (BS c) (bc s) (nxt s') (inuse s') sz' al' v ->
  exists j, v = Some (Holds j).
Proof.
  intros sz al sz' al' i L PA H v V.
  assert (LH : forall r, can_hold (data s) (BS c) r sz al -> can_hold (data s) (BS c) r sz' al').
  { intros r. apply less_holds; auto. }
  assert (UF : forall k a b, first_free_from (nxt s') (inuse s') k a -> first_free_from (nxt s') (inuse s') k b -> a = b).
  { intros k a b A. revert b. induction A as [k U|k a U N A IH]; intros b B; inversion B; subst; auto; congruence. }
  (* at one place *)
  assert (HE : forall k f, looks (data s) (BS c) (bc s) (nxt s') (inuse s') sz al k (Holds f) ->
    forall w, looks (data s) (BS c) (bc s) (nxt s') (inuse s') sz' al' k w -> w = Holds f).
  { intros k f X w Y. inversion X as [f0 F0 C0| |]; subst.
    inversion Y as [f1 F1 C1|F1|f1 F1 C1 N1]; subst.
    - f_equal. eapply UF; eauto.
    - exfalso. destruct (F1 _ F0) as [_ C1]. auto.
    - exfalso. apply C1. rewrite (UF _ _ _ F1 F0). auto. }
  assert (NE : forall k, looks (data s) (BS c) (bc s) (nxt s') (inuse s') sz al k GoesOn ->
    ~ looks (data s) (BS c) (bc s) (nxt s') (inuse s') sz' al' k Ends).
  { intros k X Y. inversion X as [| |f0 F0 C0 N0]; subst. inversion Y as [|F1|]; subst.
    destruct (F1 _ F0) as [Z _]. contradiction. }
  inversion H as [x X1 X2|x X1 X2 X3|]; subst.
  - inversion V as [w W1 W2|w W1 W2 W3|W1 W2]; subst.
    + rewrite (HE _ _ X1 _ W1). eauto.
    + discriminate (HE _ _ X1 _ W1).
    + discriminate (HE _ _ X1 _ W1).
  - inversion V as [w W1 W2|w W1 W2 W3|W1 W2]; subst.
    + destruct w as [j| |]; [eauto|exfalso; eapply NE; eauto|congruence].
    + rewrite (HE _ _ X2 _ W2). eauto.
    + discriminate (HE _ _ X2 _ W2).
Qed.

(** what asking for less comes to *)
Lemma less_debug : forall f f' sz al ans s2 p sz' al' ans', asks_less sz' al' sz al -> pow2 al -> sz + al <= 2 ^ 64 ->
  allocate_impl c f s' sz al ans = Ok (s2, p, []) -> p <> 0 -> (2 * Z.to_nat (bc s) + 1 < f')%nat ->
  exists i, search_from_0 (data s) (BS c) (bc s) (nxt s') (inuse s') sz' al' (Some (Holds i)) /\
    (forall j, search_from_0 (data s) (BS c) (bc s) (nxt s') (inuse s') sz' al' (Some (Holds j)) -> j = i) /\
    (can_hold_spare (data s) (BS c) (from_block (nxt s') (bc s) i) sz' al' ->
     exists s3 q, allocate_impl c f' s' sz' al' ans' = Ok (s3, q, []) /\ q <> 0) /\
    (~ can_hold_spare (data s) (BS c) (from_block (nxt s') (bc s) i) sz' al' ->
     allocate_impl c f' s' sz' al' ans' = Abort).
Proof.
  intros f f' sz al ans s2 p sz' al' ans' L PA SA E NP F.
  assert (L' := L). destruct L' as [L1 [L2 L3]].
  assert (HR' : 0 < sz' /\ pow2 al' /\ sz' + al' <= 2 ^ 64) by (split; [lia|split; [exact L2|lia]]).
  destruct (served_holds f sz al ans s2 p ltac:(lia) PA SA E NP) as [RE [i H]].
  destruct (search_exact _ _ _ _ _ _ _ _ _ sz' al' ans' M DB SO R HR') as [Y _].
  destruct (Y (less_reach _ _ _ _ L2 PA L3 RE)) as [v [V1 [V2 V3]]].
  destruct (less_sight _ _ _ _ _ L PA H _ V1) as [j ->].
  destruct (debug_state _ _ _ _ _ _ _ _ _ M DB SO R) as [HC [G [LF [SP O]]]]. destruct SP as [P1 [P2 P3]].
  exists j. split; [exact V1|]. split; [intros k K; apply V2 in K; injection K as K; exact K|].
  cbn [follows] in V3. rewrite P1, P2 in V3. destruct V3 as [A B]. split.
  - intros CS. destruct (A CS) as [s3 [q [FA Q]]]. exists s3, q. split; [apply Q; exact F|].
    assert (J : 0 <= j).
    { assert (B1 := g_bc _ _ G). inversion V1 as [w W1 W2|w W1 W2 W3|]; subst.
      - inversion W1 as [f0 F0 _| |]; subst. assert (X := walk_range s' LF 0 j F0 ltac:(lia)). lia.
      - rewrite <- P1, <- P2 in W1, W2.
        destruct (sees_on_loop c s' sz' al' HC HR' G LF 0 W1 ltac:(lia)) as [B2 _].
        inversion W2 as [f0 F0 _| |]; subst. assert (X := walk_range s' LF 1 j F0 ltac:(lia)). lia. }
    destruct FA as [FA _]. unfold region_addr in FA. cbn [from_block rstart] in FA.
    assert (D := g_data _ _ G). rewrite P1 in D. assert (PB := bs_pos c HC). nia.
  - intros NS. apply B; auto.
Qed.
End Debug.

Lemma run_split : forall c fuel s ops sz al ans s1 es e, run c fuel s (ops ++ [OAllocate sz al ans]) = Ok (s1, es ++ [e]) ->
  exists s0 p calls, run c fuel s ops = Ok (s0, es) /\ allocate_impl c fuel s0 sz al ans = Ok (s1, p, calls) /\
    e = EAllocate sz al p calls.
Proof.
  intros c fuel s ops sz al ans s1 es e H. rewrite run_app in H. apply bind_inv in H. destruct H as [[s0 es0] [R H]].
  apply bind_inv in H. destruct H as [[s2 es2] [R2 H]]. cbn [run] in R2. apply bind_inv in R2. destruct R2 as [[s3 e3] [R2 R3]].
  injection R3 as R3 R4. subst. injection H as H1 H2. subst. apply app_inj_tail in H2. destruct H2 as [<- <-].
  cbn [step] in R2. apply bind_inv in R2. destruct R2 as [[[s4 p] calls] [R2 R5]]. injection R5 as R5 R6. subst.
  exists s0, p, calls. auto.
Qed.

Lemma run_join : forall c fuel s ops sz al ans s0 es, run c fuel s ops = Ok (s0, es) ->
  run c fuel s (ops ++ [OAllocate sz al ans]) =
  bind (allocate_impl c fuel s0 sz al ans) (fun r => let '(s1, p, calls) := r in Ok (s1, es ++ [EAllocate sz al p calls])).
Proof.
  intros c fuel s ops sz al ans s0 es R. rewrite run_app, R. cbn [bind run step].
  destruct (allocate_impl c fuel s0 sz al ans) as [[[s1 p] calls]| | |]; reflexivity.
Qed.

Lemma debug_less : forall c buffer size up s fuel ops sz al ans s1 es e, made c buffer size up s -> DBG c = true ->
  Forall sane_op (ops ++ [OAllocate sz al ans]) -> sz + al <= 2 ^ 64 -> (2 * Z.to_nat (bc s) + 1 < fuel)%nat ->
  run c fuel s (ops ++ [OAllocate sz al ans]) = Ok (s1, es ++ [e]) -> served e ->
  forall sz' al' ans', asks_less sz' al' sz al ->
  exists s0 i, run c fuel s ops = Ok (s0, es) /\
    search_from_0 (data s) (BS c) (bc s) (nxt s0) (inuse s0) sz' al' (Some (Holds i)) /\
    (forall j, search_from_0 (data s) (BS c) (bc s) (nxt s0) (inuse s0) sz' al' (Some (Holds j)) -> j = i) /\
    ((exists s2 e', run c fuel s (ops ++ [OAllocate sz' al' ans']) = Ok (s2, es ++ [e']) /\ served e') <->
     can_hold_spare (data s) (BS c) (from_block (nxt s0) (bc s) i) sz' al') /\
    (run c fuel s (ops ++ [OAllocate sz' al' ans']) = Abort <->
     ~ can_hold_spare (data s) (BS c) (from_block (nxt s0) (bc s) i) sz' al').
Proof.
  intros c buffer size up s fuel ops sz al ans s1 es e M DB SO SA F R SV sz' al' ans' L.
  apply Forall_app in SO. destruct SO as [SO SL]. inversion SL as [|x y SL1 _]; subst. destruct SL1 as [_ [PA _]].
  destruct (run_split _ _ _ _ _ _ _ _ _ _ R) as [s0 [p [calls [R0 [E ->]]]]].
  apply served_event in SV. destruct SV as [-> NP].
  destruct (less_debug c buffer size up s fuel ops s0 es M DB SO R0 fuel fuel sz al ans s1 p sz' al' ans' L PA SA E NP F)
    as [i [V [U [A B]]]].
  exists s0, i. split; [exact R0|]. split; [exact V|]. split; [exact U|].
  rewrite (run_join _ _ _ _ _ _ _ _ _ R0).
  assert (D : can_hold_spare (data s) (BS c) (from_block (nxt s0) (bc s) i) sz' al' \/
              ~ can_hold_spare (data s) (BS c) (from_block (nxt s0) (bc s) i) sz' al').
  { destruct L as [_ [[j [Hj ->]] _]]. assert (PP := pow2_pos j Hj). rewrite can_hold_spare_skip by lia.
    destruct (Z.ltb_spec (skip_of (region_addr (data s) (BS c) (from_block (nxt s0) (bc s) i)) (2 ^ j) + sz')
                         (rlen (from_block (nxt s0) (bc s) i) * BS c)); [left|right]; lia. }
  destruct D as [D|D].
  - destruct (A D) as [s3 [q [E3 NQ]]]. rewrite E3. cbn [bind]. split.
    + split; [auto|]. intros _. exists s3, (EAllocate sz' al' q []). split; [reflexivity|]. apply served_event. auto.
    + split; [discriminate|contradiction].
  - rewrite (B D). cbn [bind]. split.
    + split; [|contradiction]. intros [s2 [e' [X _]]]. discriminate X.
    + split; auto.
Qed.

(** a size that is no multiple of the block size never fills a region *)
Lemma odd_spare : forall c s r sz al, cfg_ok c -> geometry c s -> pow2 al -> al <= BS c -> ~ (BS c | sz) ->
  can_hold (data s) (BS c) r sz al -> can_hold_spare (data s) (BS c) r sz al.
Proof.
  intros c s r sz al HC G PA LA ND CH. assert (P := pow2_gt_0 _ PA).
  rewrite can_hold_skip in CH by auto. rewrite can_hold_spare_skip by auto.
  assert (SK : skip_of (region_addr (data s) (BS c) r) al = 0).
  { assert (DA : (al | region_addr (data s) (BS c) r)).
    { unfold region_addr. assert (DB : (al | BS c)) by (apply weaker_divides; auto; apply (bs_pow2 _ HC)).
      apply Z.divide_add_r; [eapply Z.divide_trans; [exact DB|apply (g_aligned _ _ G)]|apply Z.divide_mul_r; exact DB]. }
    assert (X := skip_least _ _ _ P (Z.le_refl _) DA). assert (Y := skip_bounds (region_addr (data s) (BS c) r) al P). lia. }
  rewrite SK in *. assert (sz <> rlen r * BS c) by (intros ->; apply ND; apply Z.divide_factor_r). lia.
Qed.

Lemma odd_less : forall c buffer size up s fuel ops sz al ans s1 es e, made c buffer size up s -> DBG c = true ->
  Forall sane_op (ops ++ [OAllocate sz al ans]) -> sz + al <= 2 ^ 64 -> (2 * Z.to_nat (bc s) + 1 < fuel)%nat ->
  run c fuel s (ops ++ [OAllocate sz al ans]) = Ok (s1, es ++ [e]) -> served e ->
  forall sz' al' ans', asks_less sz' al' sz al -> ~ (BS c | sz') -> al' <= BS c ->
  exists s2 e', run c fuel s (ops ++ [OAllocate sz' al' ans']) = Ok (s2, es ++ [e']) /\ served e'.
Proof.
  intros c buffer size up s fuel ops sz al ans s1 es e M DB SO SA F R SV sz' al' ans' L ND LB.
  destruct (debug_less _ _ _ _ _ _ _ _ _ _ _ _ _ M DB SO SA F R SV sz' al' ans' L) as [s0 [i [R0 [V [_ [A _]]]]]].
  apply A. destruct (made_wf _ _ _ _ _ M) as [HC [W _]].
  apply odd_spare; auto; [apply (wf_geom _ _ _ W)|apply L|].
  inversion V as [w W1 W2|w W1 W2 W3|]; subst; [inversion W1|inversion W2]; subst; auto.
Qed.

(** * Witnesses *)

Lemma less_aborts : exists s es,
  run (conf 8 true) 60 (fresh 4096 8 true) ([get 3; get 3; ODeallocate 4096] ++ [get 5]) = Ok (s, es ++ [EAllocate 5 1 4104 []]) /\
  run (conf 8 true) 60 (fresh 4096 8 true) ([get 3; get 3; ODeallocate 4096] ++ [get 4]) = Abort.
Proof. eexists. exists [EAllocate 3 1 4096 []; EAllocate 3 1 4100 []; EDeallocate 4096 []]. split; vm_compute; reflexivity. Qed.

Lemma mono_less_refused : forall dbg, exists s s',
  mono_run dbg (mono_construct 4096 64 false) [OAllocate (2 ^ 64 - 8) 1 (fun _ _ => 0)] = Ok (s, [EAllocate (2 ^ 64 - 8) 1 4096 []]) /\
  mono_run dbg (mono_construct 4096 64 false) [OAllocate 65 1 (fun _ _ => 0)] = Ok (s', [EAllocate 65 1 0 []]).
Proof. intros dbg. eexists. eexists. split; destruct dbg; vm_compute; reflexivity. Qed.

(** In release builds: the search for 8 bytes comes upon two free blocks, which it fills. *)
Lemma less_outside : exists s es,
  run (conf 5 false) 60 (fresh 4096 5 false) ([get 4; OAllocate 2 16 (fun _ _ => 0)] ++ [OAllocate 14 2 (fun _ _ => 0)]) =
    Ok (s, es ++ [EAllocate 14 2 4100 []]) /\
  run (conf 5 false) 60 (fresh 4096 5 false) ([get 4; OAllocate 2 16 (fun _ _ => 0)] ++ [get 8]) = UB.
Proof.
  eexists. exists [EAllocate 4 1 4096 []; EAllocate 2 16 4112 []]. split; vm_compute; reflexivity.
Qed.
