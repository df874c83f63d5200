(** Lemmas for C166. *)

Require Import ZArith Lia List Bool.
Require Import Verif.Outcome Verif.Machine Verif.BitsModel Verif.BitsSpec Verif.BitsProofs.
Require Import Verif.SimpleModel Verif.SimpleSpec Verif.SimpleView Verif.SimpleProofs Verif.SimpleScanProofs Verif.SimpleAllocProofs Verif.SimpleOpProofs
  Verif.SimpleAnyProofs Verif.SimpleHistProofs Verif.SimpleMainProofs Verif.SimpleRefuted.
Require Import Verif.MonoModel Verif.MonoSpec Verif.MonoProofs Verif.RoomSpec Verif.LessProofs Verif.LargerProofs Verif.RowSpec Verif.RowProofs
  Verif.PackSpec.
Import ListNotations.
Open Scope Z_scope.
Open Scope res_scope.

Definition same (x : Z) : Z := x.

Lemma total_pos : forall rq a, ordered a rq -> 0 <= total_of same rq.
Proof.
  induction rq as [|[sz al] t IH]; intros a O; [cbn; lia|]. cbn [ordered] in O. destruct O as [S0 [_ [_ [_ O]]]].
  specialize (IH _ O). unfold total_of in *. cbn [fold_right fst]. unfold same at 1. lia.
Qed.

Lemma total_cons_of : forall sz al t, total_of same ((sz, al) :: t) = sz + total_of same t.
Proof. reflexivity. Qed.

(** * A monotonic buffer *)

Lemma mono_pack : forall dbg ans rq sz al s l, mono_inv s l -> ordered al ((sz, al) :: rq) ->
  mdata s + msize s + al + total_of same ((sz, al) :: rq) <= 2 ^ 64 ->
  fits_behind (mdata s) (msize s) l (total_of same ((sz, al) :: rq)) al ->
  exists p, least_multiple al (top (mdata s) l) p /\
    mono_run dbg s (requests ans ((sz, al) :: rq)) =
    Ok (Mono (mdata s) (msize s) (mup s) (p + total_of same ((sz, al) :: rq)), packed same p ((sz, al) :: rq)).
Proof.
  intros dbg ans. induction rq as [|[sz2 al2] rq IH]; intros sz al s l I O E F;
    assert (O' := O); cbn [ordered] in O'; destruct O' as [S0 [PA [_ [DV O']]]]; rewrite total_cons_of in *.
  - change (total_of same []) with 0 in *. rewrite Z.add_0_r in *.
    destruct (mono_alloc dbg s l sz al ans I S0 PA ltac:(lia)) as [s' [p [calls [A [Y _]]]]].
    destruct (Y F) as [-> [P [LM [-> I']]]].
    exists p. split; [exact LM|]. cbn [requests map fst snd mono_run mono_step]. rewrite A. cbn [bind]. rewrite ?Z.add_0_r. reflexivity.
  - assert (TP := total_pos _ _ (O' : ordered al ((sz2, al2) :: rq))).
    destruct (mono_alloc dbg s l sz al ans I S0 PA ltac:(lia)) as [s' [p [calls [A [Y _]]]]].
    assert (F1 : fits_behind (mdata s) (msize s) l sz al).
    { destruct F as [F0 [q [Q1 [Q2 Q3]]]]. split; auto. exists q. split; auto. split; auto. lia. }
    destruct (Y F1) as [-> [P [LM [-> I']]]].
    destruct O' as [T0 [PA2 [LA [DV2 O2]]]].
    assert (D2 : (al2 | p + sz)).
    { eapply Z.divide_trans; [apply (weaker_divides al2 al); auto|]. apply Z.divide_add_r; [apply LM|exact DV]. }
    destruct (IH sz2 al2 _ _ I') as [p' [LM' R']].
    + cbn [ordered]. repeat split; auto. lia.
    + cbn [mdata msize]. lia.
    + cbn [mdata msize]. destruct F as [F0 [q [Q1 [Q2 Q3]]]]. split; auto. destruct LM as [L1 [L2 L3]].
      exists (p + sz). cbn [top fst snd]. split; [lia|]. split; [exact D2|]. specialize (L3 q Q2 Q1). lia.
    + cbn [mdata msize mup top fst snd] in LM', R'.
      assert (p' = p + sz) by (eapply least_here; [exact D2|exact LM']). subst p'.
      exists p. split; [exact LM|]. 
      change (requests ans ((sz, al) :: (sz2, al2) :: rq)) with (OAllocate sz al ans :: requests ans ((sz2, al2) :: rq)).
      change (packed same p ((sz, al) :: (sz2, al2) :: rq)) with (EAllocate sz al p [] :: packed same (p + sz) ((sz2, al2) :: rq)).
      cbn [mono_run]. cbn [mono_step]. rewrite A. cbn [bind]. rewrite R'. cbn [bind].
      f_equal. f_equal. f_equal. lia.
Qed.

Lemma mono_pack_back : forall dbg ans rq sz al s l p s1, mono_inv s l -> ordered al ((sz, al) :: rq) ->
  mdata s + msize s + al + total_of same ((sz, al) :: rq) <= 2 ^ 64 -> p <> 0 ->
  mono_run dbg s (requests ans ((sz, al) :: rq)) = Ok (s1, packed same p ((sz, al) :: rq)) ->
  fits_behind (mdata s) (msize s) l (total_of same ((sz, al) :: rq)) al.
Proof.
  intros dbg ans. induction rq as [|[sz2 al2] rq IH]; intros sz al s l p s1 I O E NP R;
    assert (O' := O); cbn [ordered] in O'; destruct O' as [S0 [PA [_ [DV O']]]]; rewrite total_cons_of in *;
    match type of E with context [sz + total_of same ?t] => assert (TP : 0 <= total_of same t) by (apply (total_pos t al); exact O') end;
    (destruct (mono_alloc dbg s l sz al ans I S0 PA ltac:(lia)) as [s' [p' [calls [A [Y [X [F|F]]]]]]];
     [|exfalso; destruct (X F) as [-> U];
       match type of R with mono_run _ _ (requests _ (_ :: ?t)) = _ => change (requests ans ((sz, al) :: t)) with (OAllocate sz al ans :: requests ans t) in R end;
       match type of R with _ = Ok (_, packed _ _ (_ :: ?t)) => change (packed same p ((sz, al) :: t)) with (EAllocate sz al p [] :: packed same (p + sz) t) in R end;
       cbn [mono_run] in R; cbn [mono_step] in R; rewrite A in R; cbn [bind] in R;
       apply bind_inv in R; destruct R as [[s2 es2] [_ R]]; inversion R; subst; destruct (mup s); destruct U; congruence]).
  - change (total_of same []) with 0. rewrite Z.add_0_r. exact F.
  - destruct (Y F) as [-> [P [LM [-> I']]]].
    change (requests ans ((sz, al) :: (sz2, al2) :: rq)) with (OAllocate sz al ans :: requests ans ((sz2, al2) :: rq)) in R.
    change (packed same p ((sz, al) :: (sz2, al2) :: rq)) with (EAllocate sz al p [] :: packed same (p + sz) ((sz2, al2) :: rq)) in R.
    cbn [mono_run] in R. cbn [mono_step] in R. rewrite A in R. cbn [bind] in R.
    apply bind_inv in R. destruct R as [[s2 es2] [R1 R]]. injection R as <- <- ->.
    assert (P0 : 0 < p').
    { destruct (mi_bounds _ _ I' (p', sz) (or_introl eq_refl)) as [_ [_ X0]]. exact X0. }
    destruct O' as [T0 [PA2 [LA [DV2 O2]]]].
    assert (OO : ordered al2 ((sz2, al2) :: rq)) by (cbn [ordered]; repeat split; auto; lia).
    assert (F' := IH sz2 al2 _ _ (p' + sz) s2 I' OO ltac:(cbn [mdata msize]; lia) ltac:(lia) R1). cbn [mdata msize] in F'.
    destruct F' as [D [q [Q1 [Q2 Q3]]]]. cbn [top fst snd] in Q1. destruct LM as [L1 [L2 L3]].
    split; [exact D|]. exists p'. split; [exact L2|]. split; [exact L1|]. lia.
Qed.

Lemma mono_packed : forall dbg buffer size up ops s es sz al rq ans p s1, mono_made buffer size ->
  Forall (fair_op (buffer + size)) ops -> mono_run dbg (mono_construct buffer size up) ops = Ok (s, es) ->
  ordered al ((sz, al) :: rq) -> buffer + size + al + total_of (fun x => x) ((sz, al) :: rq) <= 2 ^ 64 -> p <> 0 ->
  (mono_run dbg (mono_construct buffer size up) (ops ++ [OAllocate (total_of (fun x => x) ((sz, al) :: rq)) al ans]) =
     Ok (s1, es ++ [EAllocate (total_of (fun x => x) ((sz, al) :: rq)) al p []]) <->
   mono_run dbg (mono_construct buffer size up) (ops ++ requests ans ((sz, al) :: rq)) =
     Ok (s1, es ++ packed (fun x => x) p ((sz, al) :: rq))).
Proof.
  intros dbg buffer size up ops s es sz al rq ans p s1 MM FO R O E NP.
  change (fun x : Z => x) with same in *.
  destruct (made_end buffer size up MM) as [E1 [E2 [E3 E4]]].
  destruct (mono_run_ok dbg ops _ [] (start_inv buffer size up MM)) as [s' [es' [R' [I [[S1 [S2 S3]] _]]]]].
  { eapply fair_weaken; [|exact FO]. exact E1. }
  rewrite R in R'. injection R' as <- <-. fold (handed es) in I.
  set (n := total_of same ((sz, al) :: rq)) in *.
  assert (B : mdata s + msize s + al + n <= 2 ^ 64) by lia.
  assert (O' := O). cbn [ordered] in O'. destruct O' as [S0 [PA [_ [_ O']]]].
  assert (N0 : 0 < n). { assert (X := total_pos _ _ O'). unfold n. rewrite total_cons_of. lia. }
  destruct (mono_alloc dbg s (handed es) n al ans I N0 PA B) as [s2 [p' [calls [A [Y [X D]]]]]].
  rewrite !mono_run_app, R. cbn [bind].
  change (mono_run dbg s [OAllocate n al ans]) with
    (' (t1, e) <- mono_step dbg s (OAllocate n al ans);; ' (t2, es2) <- mono_run dbg t1 [];; Ok (t2, e :: es2)).
  cbn [mono_step]. rewrite A. cbn [bind]. cbn [mono_run]. cbn [bind].
  split.
  - intros H. injection H as <- H. apply app_inv_head in H. injection H as <- ->.
    assert (F : fits_behind (mdata s) (msize s) (handed es) n al).
    { destruct D as [D|D]; [exact D|]. destruct (X D) as [_ U]. destruct (mup s); destruct U; congruence. }
    destruct (Y F) as [_ [_ [LM [-> _]]]]. destruct (mono_pack dbg ans rq sz al s (handed es) I O B F) as [q [LQ RQ]].
    rewrite RQ. cbn [bind]. rewrite (least_unique _ _ _ _ LQ LM). reflexivity.
  - intros H. apply bind_inv in H. destruct H as [[t2 es2] [H1 H2]]. injection H2 as -> H2. apply app_inv_head in H2. subst es2.
    assert (F := mono_pack_back dbg ans rq sz al s (handed es) p s1 I O B NP H1).
    destruct (Y F) as [-> [P [LM [-> I']]]]. destruct (mono_pack dbg ans rq sz al s (handed es) I O B F) as [q [LQ RQ]].
    rewrite RQ in H1. assert (q = p') by (eapply least_unique; eauto). subst q.
    cbn [packed] in H1. inversion H1; subst. reflexivity.
Qed.

(** * simple_resource, both builds *)

Fixpoint stones (a : Z) (gs : list Z) : list region :=
  match gs with [] => [] | g :: t => Reg a g true :: stones (a + g) t end.
Definition sum (gs : list Z) : Z := fold_right Z.add 0 gs.

Lemma stones_busy : forall gs a r, In r (stones a gs) -> rbusy r = true.
Proof. induction gs as [|g gs IH]; intros a r I; [destruct I|]. destruct I as [<-|I]; [reflexivity|eauto]. Qed.

Lemma busy_stones : forall gs a, busy (stones a gs) = stones a gs.
Proof. induction gs as [|g gs IH]; intros a; [reflexivity|]. cbn [stones]. rewrite busy_cons_busy by reflexivity. rewrite IH. reflexivity. Qed.

Lemma stones_snoc : forall g gs a, stones a (gs ++ [g]) = stones a gs ++ [Reg (a + sum gs) g true].
Proof.
  intros g. induction gs as [|x gs IH]; intros a; cbn [app stones].
  - f_equal. f_equal. cbn. lia.
  - rewrite IH. do 2 f_equal. f_equal. f_equal. unfold sum. cbn [fold_right]. lia.
Qed.

Lemma sum_snoc : forall gs g, sum (gs ++ [g]) = sum gs + g.
Proof. induction gs as [|x gs IH]; intros g; unfold sum in *; cbn [app fold_right] in *; [lia|]. rewrite IH. lia. Qed.

Lemma stones_contiguous : forall n rest gs a, Forall (fun g => 0 < g) gs -> contiguous n (a + sum gs) rest -> contiguous n a (stones a gs ++ rest).
Proof.
  intros n rest. induction gs as [|g gs IH]; intros a G C.
  - replace (a + sum []) with a in C by (cbn; lia). exact C.
  - inversion G; subst. cbn [stones app contiguous rstart rlen]. split; auto. split; auto. apply IH; auto.
    replace (a + g + sum gs) with (a + sum (g :: gs)) by (unfold sum; cbn [fold_right]; lia). exact C.
Qed.

Lemma stones_coalesced : forall rest gs a, coalesced rest -> coalesced (stones a gs ++ rest).
Proof.
  intros rest. induction gs as [|g gs IH]; intros a C; [exact C|]. cbn [stones app]. apply coalesced_cons; [apply IH; exact C|].
  intros r2 t _. left. reflexivity.
Qed.

Lemma stones_last : forall n gs rs, Forall (fun g => 0 < g) gs -> sum gs < n -> tiling n rs -> busy rs = stones 0 gs ->
  rs = stones 0 gs ++ [Reg (sum gs) (n - sum gs) false].
Proof.
  intros n gs rs G L T B. apply (tiling_unique n); auto.
  - split; [|apply stones_coalesced, coalesced_single]. apply stones_contiguous; auto. cbn [contiguous rstart rlen]. lia.
  - rewrite busy_app, busy_stones. cbn [busy filter rbusy]. rewrite app_nil_r. exact B.
Qed.

Definition block_request (b : Z) (r : Z * Z) : Prop := 0 < fst r /\ pow2 (snd r) /\ snd r <= b /\ fst r + snd r <= 2 ^ 64.

Section Simple.
Context (c : cfg) (ans : Z -> Z -> Z).
Hypothesis HC : cfg_ok c.

Lemma given_pos : forall sz, 0 < sz -> 0 < given (BS c) sz /\ sz < given (BS c) sz * BS c.
Proof.
  intros sz S0. unfold given. assert (P := bs_pos c HC). assert (X := Z.div_mod sz (BS c) ltac:(lia)). assert (Y := Z.mod_pos_bound sz (BS c) P).
  assert (0 <= sz / BS c) by (apply Z.div_pos; lia). nia.
Qed.

Lemma pack_step : forall sz al fuel s rs gs, block_request (BS c) (sz, al) ->
  wf c s rs -> ordinary_buffer (data s) (bc s * BS c) -> (Z.to_nat (bc s) < fuel)%nat ->
  Forall (fun g => 0 < g) gs -> busy rs = stones 0 gs -> sum gs + given (BS c) sz <= bc s ->
  exists s' rs', step c fuel s (OAllocate sz al ans) = Ok (s', EAllocate sz al (data s + sum gs * BS c) []) /\
    wf c s' rs' /\ same_place s s' /\ busy rs' = stones 0 (gs ++ [given (BS c) sz]).
Proof.
  intros sz al fuel s rs gs [S0 [PA [LA SA]]] W O F GS B L. cbn [fst snd] in *.
  destruct (given_pos sz S0) as [G1 G2]. assert (P := bs_pos c HC). assert (G := wf_geom _ _ _ W).
  assert (ER := stones_last (bc s) gs rs GS ltac:(lia) (wf_tiling _ _ _ W) B).
  set (g := given (BS c) sz) in *. set (f := Reg (sum gs) (bc s - sum gs) false) in *.
  assert (DA : (al | region_addr (data s) (BS c) f)).
  { assert (DB : (al | BS c)) by (apply weaker_divides; auto; apply (bs_pow2 _ HC)). unfold region_addr.
    apply Z.divide_add_r; [eapply Z.divide_trans; [exact DB|apply (g_aligned _ _ G)]|apply Z.divide_mul_r; exact DB]. }
  assert (CS : can_hold_spare (data s) (BS c) f sz al).
  { exists (region_addr (data s) (BS c) f). split; [lia|]. split; [exact DA|]. unfold f. cbn [rlen]. nia. }
  assert (FF : first_fit (data s) (BS c) rs sz al (stones 0 gs) f []).
  { split; [exact ER|]. split; [reflexivity|]. split.
    - destruct CS as [q [Q1 [Q2 Q3]]]. exists q. split; auto. split; auto. lia.
    - intros r I X. exfalso. assert (Y := stones_busy _ _ _ I). congruence. }
  assert (SS : search_safe (data s) (BS c) rs sz al).
  { split.
    - intros l0 f0 t0 E0 F0 _. left. destruct t0 as [|x t0 _] using rev_ind; [reflexivity|]. exfalso.
      rewrite ER, app_comm_cons, app_assoc in E0. apply app_inj_tail in E0. destruct E0 as [E0 _].
      assert (Y := stones_busy gs 0 f0 ltac:(rewrite E0; apply in_app_iff; right; left; reflexivity)). congruence.
    - intros l0 f0 t0 FF0. destruct (PastProofs.first_fit_unique _ _ _ _ _ _ _ _ _ _ _ FF FF0) as [_ [<- _]]. exact CS. }
  assert (RE : alignment_within_reach (data s) (bc s * BS c) al).
  { apply reach_divides; [apply (g_data _ _ G)|assert (X := g_bc _ _ G); nia|exact PA|].
    eapply Z.divide_trans; [apply weaker_divides; [exact PA|apply (bs_pow2 _ HC)|exact LA]|apply (g_aligned _ _ G)]. }
  destruct (first_fit_served c s rs fuel sz al ans _ _ _ HC W O F S0 PA SA RE SS FF)
    as [s' [q [i [rs' [E [FA [Q [W' [SP B']]]]]]]]].
  assert (EQ : q = region_addr (data s) (BS c) f).
  { eapply first_aligned_unique; [exact FA|]. split; [lia|]. split; [exact DA|]. auto. }
  assert (EI : i = sum gs) by (unfold region_addr, f in EQ; cbn [rstart] in EQ; nia). subst i.
  exists s', rs'. split.
  - cbn [step]. rewrite E. cbn [bind]. do 3 f_equal. exact Q.
  - split; [exact W'|]. split; [exact SP|]. rewrite B', busy_stones, stones_snoc. cbn [busy filter]. reflexivity.
Qed.

Lemma pack_run : forall fuel rq gs s rs, Forall (block_request (BS c)) rq ->
  wf c s rs -> ordinary_buffer (data s) (bc s * BS c) -> (Z.to_nat (bc s) < fuel)%nat ->
  Forall (fun g => 0 < g) gs -> busy rs = stones 0 gs -> sum gs + total_of (given (BS c)) rq <= bc s ->
  exists s', run c fuel s (requests ans rq) = Ok (s', packed (fun sz => given (BS c) sz * BS c) (data s + sum gs * BS c) rq).
Proof.
  intros fuel. induction rq as [|[sz al] rq IH]; intros gs s rs Q W O F GS B L.
  - exists s. reflexivity.
  - inversion Q as [|x1 x2 Q1 Q2]; subst. unfold total_of in L. cbn [fold_right fst] in L. fold (total_of (given (BS c)) rq) in L.
    destruct (given_pos sz (proj1 Q1)) as [G1 _].
    assert (TP : 0 <= total_of (given (BS c)) rq).
    { clear - Q2 HC. induction Q2 as [|[z a] rq Z Q2 IH]; [cbn; lia|]. unfold total_of in *. cbn [fold_right fst].
      destruct (given_pos z (proj1 Z)). lia. }
    destruct (pack_step sz al fuel s rs gs Q1 W O F GS B ltac:(lia)) as [s1 [rs1 [E [W1 [[P1 [P2 P3]] B1]]]]].
    destruct (IH (gs ++ [given (BS c) sz]) s1 rs1 Q2 W1 ltac:(rewrite P1, P2; exact O) ltac:(rewrite P2; exact F)) as [s' R].
    + apply Forall_app. split; [exact GS|]. constructor; [exact G1|constructor].
    + exact B1.
    + rewrite P2, sum_snoc. lia.
    + exists s'. change (requests ans ((sz, al) :: rq)) with (OAllocate sz al ans :: requests ans rq). cbn [run]. rewrite E. cbn [bind].
      rewrite R. cbn [bind packed]. rewrite P1, sum_snoc. do 4 f_equal. lia.
Qed.
End Simple.

Lemma simple_packed : forall c buffer size_b up s, made c buffer size_b up s ->
  forall fuel, (Z.to_nat (bc s) < fuel)%nat ->
  forall rq ans, Forall (fun r => 0 < fst r /\ pow2 (snd r) /\ snd r <= BS c /\ fst r + snd r <= 2 ^ 64) rq ->
  total_of (given (BS c)) rq <= bc s ->
  exists s', run c fuel s (requests ans rq) = Ok (s', packed (fun sz => given (BS c) sz * BS c) (data s) rq).
Proof.
  intros c buffer size_b up s M fuel F rq ans Q L.
  destruct (made_wf _ _ _ _ _ M) as [HC [W [U [_ [O _]]]]].
  destruct (pack_run c ans HC fuel rq [] s _ Q W O F (Forall_nil _) eq_refl L) as [s' R].
  exists s'. rewrite R. do 3 f_equal. cbn. lia.
Qed.
