(** A release build that grants nothing twice and nothing behind the buffer does what the debug
    build does: no check of the debug build would have stopped it. *)

Require Import ZArith Lia List Bool Permutation.
Require Import Verif.Outcome Verif.Machine Verif.BitsModel Verif.BitsSpec Verif.BitsProofs.
Require Import Verif.ArithModel Verif.ArithProofs.
Require Import Verif.SimpleModel Verif.SimpleSpec Verif.SimpleView Verif.SimpleProofs Verif.SimpleAllocProofs.
Require Import Verif.SimpleScanProofs Verif.SimpleOpProofs Verif.SimpleHistProofs Verif.SimpleReleaseProofs
  Verif.SimpleAnyProofs Verif.SimpleMainProofs Verif.SimpleExactProofs Verif.SimpleAstrayProofs Verif.SimpleWalkProofs
  Verif.SimpleKeepProofs.
Require Import Verif.SimpleRefuted.
Require Import Verif.BuildSpec Verif.BuildKeepSpec Verif.BuildProofs.
Import ListNotations.
Open Scope Z_scope.
Open Scope res_scope.

Section Builds.
  Variables (m b : Z).
  Notation D := (Cfg m b true).
  Notation R := (Cfg m b false).
  Hypothesis HC : cfg_ok D.

  Lemma release_ok : cfg_ok R.
  Proof. destruct HC; constructor; auto. Qed.

  Lemma wf_debug : forall s rs, wf R s rs -> data s + m * b < 2 ^ 64 -> wf D s rs.
  Proof.
    intros s rs [[G1 G2 G3 G4 G5] W2 W3 W4 W5 W6] L. constructor; auto. constructor; auto.
  Qed.

  Lemma hit_debug : forall fuel s size align ans s1 q, request size align -> 0 < q < 2 ^ 64 -> (b | q) ->
    search_buffer D fuel s size align = Ok (s1, q) -> allocate_impl D fuel s size align ans = Ok (s1, q, []).
  Proof.
    intros fuel s size align ans s1 q RQ Q DV E. destruct (request_align _ _ RQ) as [j [Hj [Ea Ha]]].
    destruct RQ as [R0 [R1 R2]]. unfold allocate_impl. rewrite eqb_false by lia.
    assert (PA : is_power_of_2 align = true) by (rewrite Ea; apply is_power_of_2_pow; lia).
    rewrite PA, cassert_true, E. cbn [bind]. rewrite eqb_false by lia. cbn [andb DBG].
    rewrite (aligned_bs D) by (auto; lia). cbn [bind BS].
    assert (X : q mod b = 0) by (apply Z.mod_divide; [assert (P := bs_pos D HC); cbn [BS] in P; lia|auto]).
    rewrite X. reflexivity.
  Qed.

  (** [allocate_miss]; without an upstream resource its answer does not matter *)
  Lemma miss_debug : forall fuel s size align ans, request size align ->
    search_buffer D fuel s size align = Ok (s, 0) -> (has_up s = true -> answer_fits b (ans size align)) ->
    exists x, allocate_impl D fuel s size align ans = Ok x.
  Proof.
    intros fuel s size align ans RQ E AF. destruct (has_up s) eqn:U.
    - rewrite (allocate_miss D s fuel size align ans HC RQ E); [eauto|]. intros _. exact (AF eq_refl).
    - assert (X := allocate_miss D s fuel size align (fun _ _ => 0) HC RQ E). rewrite U in X.
      unfold allocate_impl in *. destruct (size =? 0); [eauto|]. rewrite E in *. cbn [bind] in *. rewrite U in *.
      cbn [Z.eqb andb] in *. rewrite X; [eauto|]. intros _. split; [lia|apply Z.divide_0_r].
  Qed.

  Section Request.
    Variables (s : state) (size align : Z) (ans : Z -> Z -> Z) (r0 : region) (rs : list region).
    Hypothesis WR : wf R s (r0 :: rs).
    Hypothesis WD : wf D s (r0 :: rs).
    Hypothesis LF : links_forward s.
    Hypothesis O : ordinary_buffer (data s) (bc s * b).
    Hypothesis RQ : request size align.
    Hypothesis LA : align <= b.
    Hypothesis AF : has_up s = true -> answer_fits b (ans size align).

    Lemma served_debug : forall fuel l f t s1 q, r0 :: rs = l ++ f :: t ->
      search_buffer D fuel s size align = Ok (s1, q) -> served D s l f t size align s1 q ->
      exists x, allocate_impl D fuel s size align ans = Ok x.
    Proof.
      intros fuel l f t s1 q E SR [F1 [F2 [k [K1 [K2 [K3 [W' _]]]]]]]. assert (W0 := WD). rewrite E in W0.
      assert (P := bs_pos D HC). assert (G := wf_geom _ _ _ WD). cbn [BS] in *.
      exists (s1, q, []). apply hit_debug; auto.
      - split; [lia|]. destruct (region_addr_range _ _ _ _ _ HC W0) as [X1 [X2 X3]].
        assert (GE := g_end _ _ G). assert (0 < size) by apply RQ. unfold region_addr in *. cbn [BS] in *. nia.
      - rewrite K2. apply Z.divide_add_r; [apply (g_aligned _ _ G)|apply Z.divide_factor_r].
    Qed.

    Lemma builds_request : forall fuel s' p calls, (Z.to_nat (bc s) < fuel)%nat ->
      allocate_impl R fuel s size align ans = Ok (s', p, calls) -> ~ (calls = [] /\ grabs R s (r0 :: rs) size p) ->
      exists x, allocate_impl D fuel s size align ans = Ok x.
    Proof.
      intros fuel s' p calls Hf H NG.
      assert (HR := release_ok). assert (GD := wf_geom _ _ _ WD). assert (GR := wf_geom _ _ _ WR).
      assert (RE := keep_reach D s size align r0 rs HC WD RQ LA).
      assert (S0 : size <> 0) by (assert (0 < size) by apply RQ; lia).
      assert (Pa : pow2 align) by apply RQ.
      assert (SD := search_reached D s fuel size align HC GD O Pa RE).
      assert (SR := search_reached R s fuel size align HR GR O Pa RE).
      destruct (request_align size align RQ) as [j [Hj [Ej A0]]].
      assert (LB := region_count_fuel _ _ _ _ WD Hf).
      assert (T0 := wf_bounds D s _ r0 WD (or_introl eq_refl)).
      assert (P := bs_pos D HC). cbn [BS] in *.
      destruct (Z.eq_dec (rlen r0) 1) as [L1|L1].
      - destruct (clear_dec D s size align r0 rs RQ) as [CW|[l [f [t [E [F [N [Nl Nt]]]]]]]].
        + destruct (nothing_or_first (data s) b (r0 :: rs) size align A0) as [NF|[l [f [t FF]]]].
          * rewrite (one_nothing D s size align r0 rs HC RQ WD L1 fuel CW NF LB) in SD.
            apply miss_debug; auto.
          * destruct (one_fits D s size align r0 rs HC RQ WD L1 l f t fuel CW FF LB) as [F1 _].
            assert (FF' := FF). destruct FF' as [E [F [CH N]]].
            assert (CS : can_hold_spare (data s) b f size align \/ ~ can_hold_spare (data s) b f size align).
            { rewrite can_hold_spare_skip by auto. lia. }
            destruct CS as [CS|CS].
            -- destruct (F1 CS) as [s2 [q [X S]]]. rewrite X in SD. eapply served_debug; eauto.
            -- exfalso. apply NG. destruct (Nat.le_exists_sub (S (length l)) fuel) as [k [EK _]].
               { rewrite E, app_length in LB. cbn [length] in LB. lia. }
               assert (EK' : fuel = (length l + S k)%nat) by lia.
               assert (W' := WR). rewrite E in W'.
               assert (SR' := SR). rewrite EK' in SR' at 2.
               rewrite (one_arrives R s size align r0 rs HR RQ WR L1 l f t) in SR'; auto.
               rewrite (loop_free R s size align l f t) in SR' by auto.
               eapply (filling R s size align ans r0 rs HR WR LF RQ LA fuel k l f t); eauto.
        + exfalso. destruct (allocate_searches R s size align ans fuel HR GR RQ O RE) as [AH _].
          rewrite (proj2 AH) in H; [discriminate H|].
          apply (one_hangs R s size align r0 rs HR RQ WR L1 l f t); auto.
      - assert (L0 : 2 <= rlen r0) by lia. assert (LF1 := LF 1).
        destruct (passes_dec (data s) b (r0 :: rs) size align A0) as [PF|SF].
        + destruct (can_hold_dec (data s) b (from_block_1 (nxt s) (bc s)) size align A0) as [Y|NC].
          * exfalso. apply NG.
            assert (CS : can_hold_spare (data s) b (from_block_1 (nxt s) (bc s)) size align \/
                         ~ can_hold_spare (data s) b (from_block_1 (nxt s) (bc s)) size align).
            { rewrite can_hold_spare_skip by auto. lia. }
            destruct CS as [CS|CS].
            -- destruct (astray_overlap R s r0 rs fuel size align ans HR WR L0 LF1 Hf RQ LA O PF CS) as [s2 [q [E [Q _]]]].
               rewrite H in E. injection E as -> -> ->. split; auto. rewrite Q.
               assert (GX := g_data _ _ GR). split; [cbn [BS]; lia|]. left. apply (astray_busy R s size align r0 rs); auto.
            -- destruct (passes_length _ _ _ _ _ fuel PF LB) as [l [f [t [k [E [A [F [N [Nt EF]]]]]]]]].
               subst fuel.
               rewrite (long_to_ghost R s size align r0 rs HR RQ WR L0 l f t (S k) E A F N Nt) in SR.
               destruct (long_start R s r0 rs WR L0) as [_ B1].
               rewrite (ghost_loop R s size align r0 rs WR L0 k 0) in SR.
               destruct (alloc_act R size align s 0 1) as [[[s1 q] x]| | |] eqn:X; cbn [bind] in SR;
                 [|exfalso; exact (lost_result _ _ _ _ _ _ _ _ _ S0 ltac:(rewrite SR; congruence) H)..].
               destruct (stopped R s size align r0 rs HR WR LF RQ LA 1 0 s1 q x ltac:(lia) Y X) as [-> Q].
               assert (GX := g_data _ _ GR). cbn [BS] in Q.
               assert (Q0 : 0 < q) by lia.
               destruct (hit_result _ _ _ _ _ _ _ _ _ _ _ S0 Q0 SR H) as [_ [-> ->]].
               split; auto. rewrite Q. replace (data s + 1 * b) with (data s + b) by lia.
               split; [lia|]. left. apply (astray_busy R s size align r0 rs); auto.
          * destruct (Z.eq_dec (nxt s 1) 0) as [N1|N1].
            -- destruct (passes_length _ _ _ _ _ fuel PF LB) as [l [f [t [k [E [A [F [N [Nt EF]]]]]]]]].
               subst fuel.
               rewrite (long_to_ghost D s size align r0 rs HC RQ WD L0 l f t (S k) E A F N Nt) in SD.
               rewrite (ghost_pass D s size align r0 rs HC RQ WD L0 LF1 k 0 NC), N1 in SD. cbn [Z.eqb] in SD.
               apply miss_debug; auto.
            -- exfalso. assert (X := proj2 (returns_exactly_long R s r0 rs size align ans HR WR L0 LF1 RQ O RE)).
               specialize (X (conj PF (conj N1 NC)) fuel). cbn beta in X. rewrite H in X. discriminate X.
        + assert (S1 := long_safe D s size align r0 rs SF).
          destruct (nothing_or_first (data s) b (r0 :: rs) size align A0) as [NF|[l [f [t FF]]]].
          * assert (SS : search_safe (data s) b (r0 :: rs) size align).
            { split; auto. intros l f t [E [F [CH _]]]. exfalso. apply (NF f); auto. rewrite E. apply in_app_iff. right. left. auto. }
            rewrite (proj1 (loop_safe D s size align HC RQ (r0 :: rs) fuel 0 WD SS LB) NF) in SD.
            apply miss_debug; auto.
          * assert (FF' := FF). destruct FF' as [E [F [CH N]]].
            assert (CS : can_hold_spare (data s) b f size align \/ ~ can_hold_spare (data s) b f size align).
            { rewrite can_hold_spare_skip by auto. lia. }
            destruct CS as [CS|CS].
            -- assert (SS : search_safe (data s) b (r0 :: rs) size align).
               { split; auto. intros l' f' t' [E' [F' [CH' N']]].
                 destruct (split_unique_first l f t l' f' t' (fun r => rbusy r = false /\ can_hold (data s) b r size align))
                   as [_ [<- _]]; auto; [congruence| |].
                 - intros r I [X Y]. exact (N r I X Y).
                 - intros r I [X Y]. exact (N' r I X Y). }
               destruct (allocate_serve D s (r0 :: rs) fuel size align ans l f t HC WD RQ O RE SS LB FF) as [s2 [q [Q1 _]]]. eauto.
            -- exfalso. apply NG.
               assert (A : forall x, In x l -> rbusy x = true).
               { intros x I. destruct (rbusy x) eqn:B; auto. exfalso.
                 destruct (first_free l) as [A|[l3 [f3 [t3 [E3 [A3 F3]]]]]]; [rewrite (A x I) in B; discriminate B|].
                 destruct (SF l3 f3 (t3 ++ f :: t)) as [X|X]; auto.
                 + rewrite E, E3, <- app_assoc. reflexivity.
                 + destruct t3; discriminate X.
                 + apply (N f3); auto. rewrite E3. apply in_app_iff. right. left. auto. }
               assert (W' := WR). rewrite E in W'. assert (H0 := start_0 R s r0 rs WR).
               assert (LK := loop_skip_busy R s size align [] l f t (S (fuel - length l - 1)) 0 W' A).
               assert (HL : (length l < fuel)%nat).
               { rewrite E, app_length in LB. cbn [length] in LB. lia. }
               replace (length l + S (fuel - length l - 1))%nat with fuel in LK by lia.
               rewrite <- E in LK. cbn [head_start] in LK. rewrite H0 in LK. rewrite LK in SR.
               rewrite (loop_free R s size align l f t) in SR by auto.
               eapply (filling R s size align ans r0 rs HR WR LF RQ LA); eauto.
    Qed.
  End Request.

  Lemma aligned_alike : forall p, is_aligned true p b = is_aligned false p b.
  Proof.
    intros p. destruct (bs_log D HC) as [k [Hk E]]. cbn [BS] in E. unfold is_aligned.
    rewrite E, is_power_of_2_pow by auto. reflexivity.
  Qed.

  Lemma not_grabbed : forall s rs L size align p, granted_inv (data s) b rs L ->
    well_granted R s (live_after L (EAllocate size align p [])) -> ~ grabs R s rs size p.
  Proof.
    intros s rs L size align p GI [PD IN] [P0 [[r [I [B [Y1 Y2]]]]|[DB Y]]]; cbn [live_after BS] in *;
      rewrite eqb_false in PD, IN by lia; cbn [map] in *.
    - rewrite pairwise_cons in PD. destruct PD as [PD _].
      assert (IE : In (extent (data s) b r) (map (granted b) L)).
      { apply (Permutation_in _ (Permutation_sym GI)). apply in_map. apply in_busy. auto. }
      specialize (PD _ IE). unfold disjoint, granted, extent in PD. cbn [fst snd] in PD. lia.
    - specialize (IN eq_refl). inversion IN as [|x1 x2 X _]; subst. unfold inside, granted in X. cbn [fst snd] in X. lia.
  Qed.

  Lemma builds_step : forall fuel s rs o s' e L, wf R s rs -> data s + m * b < 2 ^ 64 -> links_forward s ->
    ordinary_buffer (data s) (bc s * b) -> plain_op b o -> (has_up s = true -> upstream_fits b o) ->
    step R fuel s o = Ok (s', e) ->
    (match e with EDeallocate p [] => p = 0 \/ In p (map fst L) | _ => True end) ->
    granted_inv (data s) b rs L -> well_granted R s (live_after L e) ->
    step D fuel s o = Ok (s', e).
  Proof.
    intros fuel s rs o s' e L WR M LF O V U H PL GI WG. assert (WD := wf_debug s rs WR M). assert (HR := release_ok).
    assert (A := s_step m b fuel s o).
    assert (K : exists x, step D fuel s o = Ok x); [|destruct K as [x K]; rewrite K in *; cbn [agrees] in A; rewrite H in A; congruence].
    clear A. destruct o as [size align ans|p|]; cbn [step plain_op upstream_fits] in *; [| |destruct V].
    - apply bind_inv in H. destruct H as [[[s1 p] calls] [H1 H]]. injection H as <- <-.
      destruct V as [V1 [V2 [V3 V4]]]. destruct (Z.eq_dec size 0) as [->|S0]; [rewrite allocate_zero; cbn [bind]; eauto|].
      assert (RQ : request size align) by (split; [lia|auto]).
      destruct rs as [|r0 rs].
      { exfalso. assert (T := wf_tiles _ _ _ WR). assert (BB := g_bc _ _ (wf_geom _ _ _ WR)). unfold regions_of in T. cbn [tiles] in T. lia. }
      set (big := (fuel + S (Z.to_nat (bc s)))%nat).
      assert (Hbig : allocate_impl R big s size align ans = Ok (s1, p, calls)).
      { unfold big. rewrite allocate_fuel; auto. rewrite H1. discriminate. }
      destruct (builds_request s size align ans r0 rs WR WD LF O RQ V3 U big s1 p calls) as [x X].
      + unfold big. lia.
      + exact Hbig.
      + intros [-> G]. exact (not_grabbed _ _ _ _ _ _ GI WG G).
      + assert (A := s_allocate m b fuel s size align ans). rewrite H1 in A.
        destruct (allocate_impl D fuel s size align ans) as [y| | |] eqn:Y; cbn [agrees] in A; [destruct y as [[? ?] ?]; cbn [bind]; eauto| | |discriminate A];
          exfalso; assert (Z := allocate_fuel D fuel (S (Z.to_nat (bc s))) s size align ans); fold big in Z; rewrite X, Y in Z;
          specialize (Z ltac:(discriminate)); discriminate Z.
    - apply bind_inv in H. destruct H as [[s1 calls] [H1 H]]. injection H as <- <-.
      destruct (deallocate_any _ _ _ _ _ H1) as [[-> [-> ->]]|[[P0 [-> [-> U1]]]|[P0 [_ ->]]]].
      + unfold deallocate_impl. cbn [Z.eqb bind]. eauto.
      + assert (X : deallocate_impl D s p = Ok (s, [UpDeallocate p])); [|rewrite X; cbn [bind]; eauto].
        unfold deallocate_impl in *. rewrite eqb_false in * by auto. cbn [DBG BS] in *. rewrite aligned_alike.
        unfold is_aligned in *. cbn [cassert bind andb] in *. destruct (Z.land p (wrap 64 (b - 1)) =? 0); cbn [negb abort_when] in *; [|exact H1].
        change (size_ D s) with (size_ R s). destruct ((data s <=? p) && (p <? wrap 64 (data s + size_ R s))); [|exact H1].
        exfalso. apply bind_inv in H1. destruct H1 as [i [_ H1]]. apply bind_inv in H1. destruct H1 as [[s2 j] [_ H1]]. discriminate H1.
      + destruct PL as [PL|PL]; [contradiction|].
        assert (PA := Permutation_in _ (granted_addrs _ _ _ _ GI) PL). apply in_map_iff in PA. destruct PA as [r [EP I]].
        apply in_busy in I. destruct I as [I B]. destruct (in_split _ _ I) as [l [t E]]. subst rs p.
        destruct (deallocate_live D s l r t HC WD B) as [s2 [a [n [l' [t' [E1 _]]]]]].
        unfold addr in E1. cbn [BS] in E1. rewrite E1. cbn [bind]. eauto.
  Qed.

  Lemma builds_run : forall fuel ops s rs s' es L, wf R s rs -> data s + m * b < 2 ^ 64 -> links_forward s ->
    ordinary_buffer (data s) (bc s * b) -> Forall (plain_op b) ops -> (has_up s = true -> Forall (upstream_fits b) ops) ->
    run R fuel s ops = Ok (s', es) -> polite L es -> granted_inv (data s) b rs L ->
    (forall es1 es2, es = es1 ++ es2 -> well_granted R s (fold_left live_after es1 L)) ->
    run D fuel s ops = Ok (s', es).
  Proof.
    intros fuel; induction ops as [|o ops IH]; intros s rs s' es L W M LF O V U H PL GI PD; [exact H|].
    cbn [run] in H. apply bind_inv in H. destruct H as [[s1 e] [H1 H2]]. apply bind_inv in H2.
    destruct H2 as [[s2 es2] [H2 H3]]. injection H3 as <- <-. inversion V as [|x1 x2 V1 V2]; subst.
    cbn [polite] in PL. destruct PL as [PL1 PL2].
    assert (S := builds_step fuel s rs o s1 e L W M LF O V1 (fun u => Forall_inv (U u)) H1 PL1 GI (PD [e] es2 eq_refl)).
    destruct (step_keeps R fuel s rs o s1 e L release_ok W LF O V1 H1 PL1 GI (PD [e] es2 eq_refl)) as [rs1 [W1 [SP [LF1 GI1]]]].
    assert (SP' := SP). destruct SP' as [D1 [D2 D3]].
    cbn [run]. rewrite S. cbn [bind]. rewrite (IH s1 rs1 s2 es2 (live_after L e)); auto.
    - rewrite D1. exact M.
    - rewrite D1, D2. exact O.
    - intros u. rewrite D3 in u. exact (Forall_inv_tail (U u)).
    - rewrite D1. exact GI1.
    - intros es1 es3 E. eapply well_same; eauto. apply (PD (e :: es1) es3). rewrite E. reflexivity.
  Qed.
End Builds.

Lemma release_passes : forall m b buffer size up s fuel ops s' es, made (Cfg m b true) buffer size up s ->
  Forall (plain_op b) ops -> (up = true -> Forall (upstream_fits b) ops) ->
  run (Cfg m b false) fuel s ops = Ok (s', es) -> polite [] es ->
  (forall es1 es2, es = es1 ++ es2 -> well_granted (Cfg m b false) s (live es1)) ->
  run (Cfg m b true) fuel s ops = Ok (s', es).
Proof.
  intros m b buffer size up s fuel ops s' es M V U H PL PD.
  destruct (made_wf _ _ _ _ _ M) as [HC [[[G1 G2 G3 G4 G5] W2 W3 W4 W5 W6] [HU [_ [O _]]]]].
  destruct (construct_aligned _ buffer size up s HC (made_buffer _ _ _ _ _ M) (made_from _ _ _ _ _ M)) as [_ [LF _]].
  eapply (builds_run m b HC fuel ops s [Reg 0 (bc s) false]); eauto.
  - constructor; auto. constructor; auto.
  - apply perm_nil.
Qed.

(** the whole buffer in one request: right in the release build, stopped in the debug build *)
Lemma whole_buffer_stopped : exists m b buffer size s ops s' es, made (Cfg m b true) buffer size false s /\
  Forall (plain_op b) ops /\ run (Cfg m b false) 50 s ops = Ok (s', es) /\ polite [] es /\
  (forall es1 es2, es = es1 ++ es2 -> pairwise_disjoint (live es1) /\
     forall a, In a (live es1) -> in_bounds (data s) (data s + bc s * b) a) /\
  (exists n al p, es = [EAllocate n al p []] /\ p <> 0) /\
  forall fuel, (0 < fuel)%nat -> run (Cfg m b true) fuel s ops = Abort.
Proof.
  exists 16, 4, 4096, 32, (fresh 4096 8 false), [get 32]. eexists. exists [EAllocate 32 1 4096 []].
  split.
  { constructor.
    - apply (conf_ok 16 true). lia.
    - unfold buffer_ok. lia.
    - intros _. cbn [MB BS]. lia.
    - vm_compute. reflexivity.
    - discriminate.
    - apply ordinary_small; cbn [data bc fresh BS]; lia. }
  split. { repeat constructor; cbn; try lia. exact pow2_1. }
  split; [vm_compute; reflexivity|]. split; [cbn; auto|]. split.
  { intros es1 es2 E. assert (X : live es1 = [] \/ live es1 = [(4096, 32)]).
    { destruct es1 as [|e1 [|e2 es1]]; cbn [app] in E; inversion E; subst; cbn; auto. }
    destruct X as [-> | ->]; split.
    - intros [|? [|]] ? ? ? ? Y; discriminate Y.
    - intros a [].
    - intros [|? [|]] ? [|] ? ? Y; discriminate Y.
    - intros a [<-|[]]. unfold in_bounds. cbn. lia. }
  split; [exists 32, 1, 4096; split; [reflexivity|lia]|].
  intros [|fuel] F; [lia|]. vm_compute. reflexivity.
Qed.
