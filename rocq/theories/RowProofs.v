(** Lemmas for C164. *)

Require Import ZArith Lia List Bool.
Require Import Verif.Outcome Verif.Machine Verif.BitsModel Verif.BitsSpec Verif.BitsProofs.
Require Import Verif.SimpleModel Verif.SimpleSpec Verif.SimpleView Verif.SimpleProofs Verif.SimpleScanProofs Verif.SimpleAllocProofs Verif.SimpleOpProofs
  Verif.SimpleAnyProofs Verif.SimpleHistProofs Verif.SimpleMainProofs Verif.SimpleRefuted.
Require Import Verif.MonoModel Verif.MonoSpec Verif.MonoProofs Verif.RoomSpec Verif.LessProofs Verif.LargerProofs Verif.RowSpec.
Import ListNotations.
Open Scope Z_scope.
Open Scope res_scope.

Lemma row_S : forall sz al p st k, row sz al p st (S k) = EAllocate sz al p [] :: row sz al (p + st) st k.
Proof.
  intros sz al p st k. unfold row. cbn [seq map]. f_equal.
  - f_equal. lia.
  - rewrite <- seq_shift, map_map. apply map_ext. intros i. f_equal. lia.
Qed.

Lemma least_here : forall al v, (al | v) -> forall r, least_multiple al v r -> r = v.
Proof. intros al v D r [L1 [L2 L3]]. assert (r <= v) by (apply L3; auto; lia). lia. Qed.

Lemma least_unique : forall al v r r', least_multiple al v r -> least_multiple al v r' -> r = r'.
Proof. intros al v r r' [A1 [A2 A3]] [B1 [B2 B3]]. assert (r <= r') by auto. assert (r' <= r) by auto. lia. Qed.

(** * A monotonic buffer *)

Lemma mono_row : forall dbg sz al ans, 0 < sz -> pow2 al -> (al | sz) ->
  forall k s l, mono_inv s l -> mdata s + msize s + al + Z.of_nat (S k) * sz <= 2 ^ 64 ->
  fits_behind (mdata s) (msize s) l (Z.of_nat (S k) * sz) al ->
  exists p, least_multiple al (top (mdata s) l) p /\
    mono_run dbg s (repeat (OAllocate sz al ans) (S k)) =
    Ok (Mono (mdata s) (msize s) (mup s) (p + Z.of_nat (S k) * sz), row sz al p sz (S k)).
Proof.
  intros dbg sz al ans S0 PA DV. induction k as [|k IH]; intros s l I E F.
  - destruct (mono_alloc dbg s l sz al ans I S0 PA ltac:(lia)) as [s' [p [calls [A [Y _]]]]].
    change (Z.of_nat 1) with 1 in F. rewrite Z.mul_1_l in F. destruct (Y F) as [-> [P [LM [-> I']]]].
    exists p. split; [exact LM|]. cbn [repeat mono_run mono_step]. rewrite A. cbn [bind].
    change (Z.of_nat 1) with 1. rewrite Z.mul_1_l, row_S. reflexivity.
  - destruct (mono_alloc dbg s l sz al ans I S0 PA ltac:(lia)) as [s' [p [calls [A [Y _]]]]].
    assert (F1 : fits_behind (mdata s) (msize s) l sz al).
    { destruct F as [F0 [q [Q1 [Q2 Q3]]]]. split; auto. exists q. split; auto. split; auto. lia. }
    destruct (Y F1) as [-> [P [LM [-> I']]]].
    destruct (IH _ _ I') as [p' [LM' R']].
    + cbn [mdata msize]. lia.
    + cbn [mdata msize]. destruct F as [F0 [q [Q1 [Q2 Q3]]]]. split; auto. destruct LM as [L1 [L2 L3]].
      exists (p + sz). cbn [top fst snd]. split; [lia|]. split; [apply Z.divide_add_r; auto|]. specialize (L3 q Q2 Q1). lia.
    + cbn [mdata msize mup top fst snd] in LM', R'.
      assert (p' = p + sz) by (eapply least_here; [|exact LM']; apply Z.divide_add_r; [apply LM|exact DV]). subst p'.
      exists p. split; [exact LM|]. rewrite row_S.
      change (repeat (OAllocate sz al ans) (S (S k))) with (OAllocate sz al ans :: repeat (OAllocate sz al ans) (S k)).
      cbn [mono_run mono_step]. rewrite A. cbn [bind]. cbn [mono_run mono_step] in R'. rewrite R'. cbn [bind].
      f_equal. f_equal. f_equal. lia.
Qed.

Lemma mono_row_back : forall dbg sz al ans, 0 < sz -> pow2 al ->
  forall k s l p s1, mono_inv s l -> mdata s + msize s + al + Z.of_nat (S k) * sz <= 2 ^ 64 -> p <> 0 ->
  mono_run dbg s (repeat (OAllocate sz al ans) (S k)) = Ok (s1, row sz al p sz (S k)) ->
  fits_behind (mdata s) (msize s) l (Z.of_nat (S k) * sz) al.
Proof.
  intros dbg sz al ans S0 PA. induction k as [|k IH]; intros s l p s1 I E NP R;
    (destruct (mono_alloc dbg s l sz al ans I S0 PA ltac:(lia)) as [s' [p' [calls [A [Y [X [F|F]]]]]]];
     [|exfalso; destruct (X F) as [-> U]; rewrite row_S in R;
       match type of R with mono_run _ _ (repeat ?o (S ?n)) = _ => change (repeat o (S n)) with (o :: repeat o n) in R end;
       cbn [mono_run] in R; cbn [mono_step] in R; rewrite A in R; cbn [bind] in R;
       apply bind_inv in R; destruct R as [[s2 es2] [_ R]]; inversion R; subst; destruct (mup s); destruct U; congruence]).
  - change (Z.of_nat 1) with 1. rewrite Z.mul_1_l. exact F.
  - destruct (Y F) as [-> [P [LM [-> I']]]]. rewrite row_S in R.
    change (repeat (OAllocate sz al ans) (S (S k))) with (OAllocate sz al ans :: repeat (OAllocate sz al ans) (S k)) in R.
    cbn [mono_run] in R. cbn [mono_step] in R. rewrite A in R. cbn [bind] in R.
    apply bind_inv in R. destruct R as [[s2 es2] [R1 R]]. injection R as <- <- ->.
    assert (P0 : 0 < p').
    { destruct (mi_bounds _ _ I' (p', sz) (or_introl eq_refl)) as [_ [_ X0]]. exact X0. }
    assert (F' := IH _ _ (p' + sz) s2 I' ltac:(cbn [mdata msize]; lia) ltac:(lia) R1). cbn [mdata msize] in F'.
    destruct F' as [D [q [Q1 [Q2 Q3]]]]. cbn [top fst snd] in Q1. destruct LM as [L1 [L2 L3]].
    split; [exact D|]. exists p'. split; [exact L2|]. split; [exact L1|]. lia.
Qed.

Lemma mono_array : forall dbg buffer size up ops s es sz al ans k p s1, mono_made buffer size ->
  Forall (fair_op (buffer + size)) ops -> mono_run dbg (mono_construct buffer size up) ops = Ok (s, es) ->
  0 < sz -> pow2 al -> (al | sz) -> (0 < k)%nat -> buffer + size + al + Z.of_nat k * sz <= 2 ^ 64 -> p <> 0 ->
  (mono_run dbg (mono_construct buffer size up) (ops ++ [OAllocate (Z.of_nat k * sz) al ans]) =
     Ok (s1, es ++ [EAllocate (Z.of_nat k * sz) al p []]) <->
   mono_run dbg (mono_construct buffer size up) (ops ++ repeat (OAllocate sz al ans) k) = Ok (s1, es ++ row sz al p sz k)).
Proof.
  intros dbg buffer size up ops s es sz al ans k p s1 MM FO R S0 PA DV K E NP.
  destruct k as [|k]; [lia|]. clear K.
  destruct (made_end buffer size up MM) as [E1 [E2 [E3 E4]]].
  destruct (mono_run_ok dbg ops _ [] (start_inv buffer size up MM)) as [s' [es' [R' [I [[S1 [S2 S3]] _]]]]].
  { eapply fair_weaken; [|exact FO]. exact E1. }
  rewrite R in R'. injection R' as <- <-. fold (handed es) in I.
  assert (B : mdata s + msize s + al + Z.of_nat (S k) * sz <= 2 ^ 64) by lia.
  assert (N0 : 0 < Z.of_nat (S k) * sz) by nia.
  destruct (mono_alloc dbg s (handed es) (Z.of_nat (S k) * sz) al ans I N0 PA B) as [s2 [p' [calls [A [Y [X D]]]]]].
  rewrite !mono_run_app, R. cbn [bind].
  change (mono_run dbg s [OAllocate (Z.of_nat (S k) * sz) al ans]) with
    (' (t1, e) <- mono_step dbg s (OAllocate (Z.of_nat (S k) * sz) al ans);; ' (t2, es2) <- mono_run dbg t1 [];; Ok (t2, e :: es2)).
  cbn [mono_step]. rewrite A. cbn [bind mono_run].
  split.
  - intros H. injection H as <- H. apply app_inv_head in H. injection H as <- ->.
    assert (F : fits_behind (mdata s) (msize s) (handed es) (Z.of_nat (S k) * sz) al).
    { destruct D as [D|D]; [exact D|]. destruct (X D) as [_ U]. destruct (mup s); destruct U; congruence. }
    destruct (Y F) as [_ [_ [LM [-> _]]]]. destruct (mono_row dbg sz al ans S0 PA DV k s (handed es) I B F) as [q [LQ RQ]].
    rewrite RQ. cbn [bind]. rewrite (least_unique _ _ _ _ LQ LM). reflexivity.
  - intros H. apply bind_inv in H. destruct H as [[t2 es2] [H1 H2]]. injection H2 as -> H2. apply app_inv_head in H2. subst es2.
    assert (F := mono_row_back dbg sz al ans S0 PA k s (handed es) p s1 I B NP H1).
    destruct (mono_row dbg sz al ans S0 PA DV k s (handed es) I B F) as [q [LQ RQ]]. rewrite H1 in RQ.
    rewrite !row_S in RQ. injection RQ as -> <- _.
    destruct (Y F) as [-> [_ [LM [-> _]]]]. rewrite (least_unique _ _ _ _ LM LQ). reflexivity.
Qed.

(** * simple_resource, both builds *)

Fixpoint tiles (a g : Z) (k : nat) : list region :=
  match k with O => [] | S k' => Reg a g true :: tiles (a + g) g k' end.

Lemma tiles_busy : forall g k a r, In r (tiles a g k) -> rbusy r = true.
Proof. intros g. induction k as [|k IH]; intros a r I; [destruct I|]. destruct I as [<-|I]; [reflexivity|eauto]. Qed.

Lemma busy_tiles : forall g k a, busy (tiles a g k) = tiles a g k.
Proof. intros g. induction k as [|k IH]; intros a; [reflexivity|]. cbn [tiles]. rewrite busy_cons_busy by reflexivity. rewrite IH. reflexivity. Qed.

Lemma tiles_snoc : forall g k a, tiles a g (S k) = tiles a g k ++ [Reg (a + Z.of_nat k * g) g true].
Proof.
  intros g. induction k as [|k IH]; intros a.
  - cbn [tiles app]. f_equal. f_equal. lia.
  - change (tiles a g (S (S k))) with (Reg a g true :: tiles (a + g) g (S k)). rewrite IH. cbn [tiles app].
    do 2 f_equal. f_equal. f_equal. lia.
Qed.

Lemma tiles_contiguous : forall n g rest k a, 0 < g -> contiguous n (a + Z.of_nat k * g) rest -> contiguous n a (tiles a g k ++ rest).
Proof.
  intros n g rest. induction k as [|k IH]; intros a G C.
  - replace (a + Z.of_nat 0 * g) with a in C by lia. exact C.
  - cbn [tiles app contiguous rstart rlen]. split; auto. split; auto. apply IH; auto.
    replace (a + g + Z.of_nat k * g) with (a + Z.of_nat (S k) * g) by lia. exact C.
Qed.

Lemma tiles_coalesced : forall g rest k a, coalesced rest -> coalesced (tiles a g k ++ rest).
Proof.
  intros g rest. induction k as [|k IH]; intros a C; [exact C|]. cbn [tiles app]. apply coalesced_cons; [apply IH; exact C|].
  intros r2 t _. left. reflexivity.
Qed.

Lemma tiles_last : forall n g k rs, 0 < g -> Z.of_nat k * g < n -> tiling n rs -> busy rs = tiles 0 g k ->
  rs = tiles 0 g k ++ [Reg (Z.of_nat k * g) (n - Z.of_nat k * g) false].
Proof.
  intros n g k rs G L T B. apply (tiling_unique n); auto.
  - split; [|apply tiles_coalesced, coalesced_single]. apply tiles_contiguous; auto. cbn [contiguous rstart rlen]. lia.
  - rewrite busy_app, busy_tiles. cbn [busy filter rbusy]. rewrite app_nil_r. exact B.
Qed.

Section Simple.
Context (c : cfg) (sz al : Z) (ans : Z -> Z -> Z).
Hypothesis HC : cfg_ok c.
Hypothesis S0 : 0 < sz.
Hypothesis PA : pow2 al.
Hypothesis LA : al <= BS c.
Hypothesis SA : sz + al <= 2 ^ 64.
Let g := given (BS c) sz.

Lemma g_room : 0 < g /\ sz < g * BS c.
Proof.
  unfold g, given. assert (P := bs_pos c HC). assert (X := Z.div_mod sz (BS c) ltac:(lia)). assert (Y := Z.mod_pos_bound sz (BS c) P).
  assert (0 <= sz / BS c) by (apply Z.div_pos; lia). nia.
Qed.

Lemma row_step : forall fuel s rs k, wf c s rs -> ordinary_buffer (data s) (bc s * BS c) -> (Z.to_nat (bc s) < fuel)%nat ->
  busy rs = tiles 0 g k -> Z.of_nat (S k) * g <= bc s ->
  exists s' rs', step c fuel s (OAllocate sz al ans) = Ok (s', EAllocate sz al (data s + Z.of_nat k * (g * BS c)) []) /\
    wf c s' rs' /\ same_place s s' /\ busy rs' = tiles 0 g (S k).
Proof.
  intros fuel s rs k W O F B L. destruct g_room as [G1 G2]. assert (P := bs_pos c HC). assert (G := wf_geom _ _ _ W).
  assert (ER := tiles_last (bc s) g k rs G1 ltac:(nia) (wf_tiling _ _ _ W) B).
  set (f := Reg (Z.of_nat k * g) (bc s - Z.of_nat k * g) false) in *.
  assert (DA : (al | region_addr (data s) (BS c) f)).
  { assert (DB : (al | BS c)) by (apply weaker_divides; auto; apply (bs_pow2 _ HC)). unfold region_addr.
    apply Z.divide_add_r; [eapply Z.divide_trans; [exact DB|apply (g_aligned _ _ G)]|apply Z.divide_mul_r; exact DB]. }
  assert (CS : can_hold_spare (data s) (BS c) f sz al).
  { exists (region_addr (data s) (BS c) f). split; [lia|]. split; [exact DA|]. unfold f. cbn [rlen]. nia. }
  assert (FF : first_fit (data s) (BS c) rs sz al (tiles 0 g k) f []).
  { split; [exact ER|]. split; [reflexivity|]. split.
    - destruct CS as [q [Q1 [Q2 Q3]]]. exists q. split; auto. split; auto. lia.
    - intros r I X. exfalso. assert (Y := tiles_busy _ _ _ _ I). congruence. }
  assert (SS : search_safe (data s) (BS c) rs sz al).
  { split.
    - intros l0 f0 t0 E0 F0 _. left. destruct t0 as [|x t0 _] using rev_ind; [reflexivity|]. exfalso.
      rewrite ER, app_comm_cons, app_assoc in E0. apply app_inj_tail in E0. destruct E0 as [E0 _].
      assert (Y := tiles_busy g k 0 f0 ltac:(rewrite E0; apply in_app_iff; right; left; reflexivity)). congruence.
    - intros l0 f0 t0 FF0. destruct (PastProofs.first_fit_unique _ _ _ _ _ _ _ _ _ _ _ FF FF0) as [_ [<- _]]. exact CS. }
  assert (RE : alignment_within_reach (data s) (bc s * BS c) al).
  { apply reach_divides; [apply (g_data _ _ G)|assert (X := g_bc _ _ G); nia|exact PA|].
    eapply Z.divide_trans; [apply weaker_divides; [exact PA|apply (bs_pow2 _ HC)|exact LA]|apply (g_aligned _ _ G)]. }
  destruct (first_fit_served c s rs fuel sz al ans _ _ _ HC W O F S0 PA SA RE SS FF)
    as [s' [q [i [rs' [E [FA [Q [W' [SP B']]]]]]]]].
  assert (EQ : q = region_addr (data s) (BS c) f).
  { eapply first_aligned_unique; [exact FA|]. split; [lia|]. split; [exact DA|]. auto. }
  assert (EI : i = Z.of_nat k * g) by (unfold region_addr, f in EQ; cbn [rstart] in EQ; nia). subst i.
  exists s', rs'. split.
  - cbn [step]. rewrite E. cbn [bind]. do 3 f_equal. rewrite Q. lia.
  - split; [exact W'|]. split; [exact SP|]. rewrite B', busy_tiles, tiles_snoc. cbn [busy filter]. reflexivity.
Qed.

Lemma row_run : forall fuel k i s rs, wf c s rs -> ordinary_buffer (data s) (bc s * BS c) -> (Z.to_nat (bc s) < fuel)%nat ->
  busy rs = tiles 0 g i -> Z.of_nat (i + k) * g <= bc s ->
  exists s', run c fuel s (repeat (OAllocate sz al ans) k) = Ok (s', row sz al (data s + Z.of_nat i * (g * BS c)) (g * BS c) k).
Proof.
  intros fuel. induction k as [|k IH]; intros i s rs W O F B L.
  - exists s. reflexivity.
  - destruct g_room as [G1 _].
    destruct (row_step fuel s rs i W O F B ltac:(nia)) as [s1 [rs1 [E [W1 [[P1 [P2 P3]] B1]]]]].
    destruct (IH (S i) s1 rs1 W1 ltac:(rewrite P1, P2; exact O) ltac:(rewrite P2; exact F) B1) as [s' R].
    + rewrite P2. replace (S i + k)%nat with (i + S k)%nat by lia. exact L.
    + exists s'. cbn [repeat run]. rewrite E. cbn [bind]. rewrite R. cbn [bind]. rewrite row_S. rewrite P1.
      do 4 f_equal. lia.
Qed.
End Simple.

Lemma simple_row : forall c buffer size_b up s, made c buffer size_b up s ->
  forall fuel, (Z.to_nat (bc s) < fuel)%nat ->
  forall sz al ans k, 0 < sz -> pow2 al -> al <= BS c -> sz + al <= 2 ^ 64 -> Z.of_nat k * given (BS c) sz <= bc s ->
  exists s', run c fuel s (repeat (OAllocate sz al ans) k) = Ok (s', row sz al (data s) (given (BS c) sz * BS c) k).
Proof.
  intros c buffer size_b up s M fuel F sz al ans k S0 PA LA SA L.
  destruct (made_wf _ _ _ _ _ M) as [HC [W [U [_ [O _]]]]].
  destruct (row_run c sz al ans HC S0 PA LA SA fuel k 0 s _ W O F eq_refl L) as [s' R].
  exists s'. rewrite R. do 3 f_equal. lia.
Qed.
