(** With addresses of [w] bits, too, everything is right until two grants overlap. *)

Require Import ZArith Lia List Bool Permutation.
Require Import Verif.Outcome Verif.Machine Verif.BitsSpec.
Require Import Verif.WordSpec Verif.WordModel Verif.WordProofs.
Require Import Verif.SimpleModel Verif.SimpleSpec Verif.SimpleView Verif.SimpleProofs Verif.SimpleScanProofs Verif.SimpleOpProofs
  Verif.SimpleAnyProofs Verif.SimpleMainProofs Verif.SimpleKeepProofs.
Require Import Verif.WidthSpec Verif.WidthModel Verif.WidthProofs.
Import ListNotations.
Open Scope Z_scope.
Open Scope res_scope.

Lemma w_run_prefix : forall w c fuel ops1 ops2 s s' es, w_run w c fuel s (ops1 ++ ops2) = Ok (s', es) ->
  exists s1 es1 es2, w_run w c fuel s ops1 = Ok (s1, es1) /\ es = es1 ++ es2.
Proof.
  intros w c fuel; induction ops1 as [|o ops1 IH]; intros ops2 s s' es H; cbn [app w_run] in H.
  - exists s, [], es. auto.
  - apply bind_inv in H. destruct H as [[s1 e] [H1 H2]]. apply bind_inv in H2.
    destruct H2 as [[s2 es2] [H2 H3]]. injection H3 as <- <-.
    destruct (IH ops2 s1 s2 es2 H2) as [s3 [es3 [es4 [E1 ->]]]].
    exists s3, (e :: es3), es4. split; auto. cbn [w_run]. rewrite H1. cbn [bind]. rewrite E1. reflexivity.
Qed.

(** as long as nothing is granted twice the histories are the same, however long *)
Lemma w_keeps : forall w, platform w -> forall c fuel ops s rs s' es L, fits w c s -> wf c s rs ->
  ordinary_buffer (data s) (bc s * BS c) -> Forall (plain_op (BS c)) ops -> Forall (call_in w) ops ->
  w_run w c fuel s ops = Ok (s', es) -> polite L es -> granted_inv (data s) (BS c) rs L ->
  (forall ops1 ops2 s1 es1, ops = ops1 ++ ops2 -> w_run w c fuel s ops1 = Ok (s1, es1) ->
     well_granted c s (fold_left live_after es1 L) \/ well_granted c s1 (fold_left live_after es1 L)) ->
  run c fuel s ops = Ok (s', es).
Proof.
  intros w Wd c fuel; induction ops as [|o ops IH]; intros s rs s' es L F W O V C H PL GI PD.
  - exact H.
  - assert (HC := f_cfg _ _ _ F). destruct (fits_bounds w _ _ F) as [X1 [X2 [X3 [X4 X5]]]].
    assert (X6 := f_bc _ _ _ F). assert (X7 := f_max _ _ _ F). assert (X8 := f_data _ _ _ F).
    assert (N : narrow w s = s) by (eapply wf_narrow; eauto; lia).
    inversion V as [|x1 x2 V1 V2]; subst. inversion C as [|y1 y2 C1 C2]; subst.
    cbn [w_run] in H. apply bind_inv in H. destruct H as [[s1 e] [H1 H2]]. apply bind_inv in H2.
    destruct H2 as [[s2 es2] [H2 H3]]. injection H3 as <- <-.
    cbn [polite] in PL. destruct PL as [PL1 PL2].
    assert (S : exists s3, step c fuel s o = Ok (s3, e) /\ s1 = narrow w s3).
    { assert (E := n_step w Wd c fuel s o (bc s) (conj F (wf_tally c s rs HC W)) ltac:(lia) C1).
      rewrite N in E. rewrite H1 in E. destruct (step c fuel s o) as [[s3 e3]| | |]; cbn in E; try discriminate.
      injection E as -> ->. exists s3. auto. }
    destruct S as [s3 [S ->]].
    destruct (step_any c fuel s o s3 e HC (f_aligned _ _ _ F) (plain_sane c o HC V1) S) as [[SP0 _] _].
    assert (G : well_granted c s (live_after L e)).
    { destruct (PD [o] ops (narrow w s3) [e]) as [G|G]; auto.
      - cbn [w_run]. rewrite H1. reflexivity.
      - eapply well_same; [|exact G]. destruct SP0 as [Q1 [Q2 Q3]]. split; [|split]; cbn; congruence. }
    destruct (step_keeps c fuel s rs o s3 e L HC W (f_links _ _ _ F) O V1 S PL1 GI G) as [rs1 [W1 [SP [LF1 GI1]]]].
    assert (SP' := SP). destruct SP' as [D1 [D2 D3]].
    assert (N3 : narrow w s3 = s3) by (eapply wf_narrow; eauto; lia). rewrite N3 in *.
    cbn [run]. rewrite S. cbn [bind]. rewrite (IH s3 rs1 s2 es2 (live_after L e)); auto.
    + eapply fits_place; eauto.
    + rewrite D1, D2. exact O.
    + rewrite D1. exact GI1.
    + intros ops1 ops2 s4 es1 E1 E2. destruct (PD (o :: ops1) ops2 s4 (e :: es1)) as [K|K].
      * rewrite E1. reflexivity.
      * cbn [w_run]. rewrite H1. cbn [bind]. rewrite E2. reflexivity.
      * left. eapply well_same; eauto.
      * right. exact K.
Qed.

Lemma w_same_run : forall w, platform w -> forall c buffer size up s fuel ops s' es, made c buffer size up s ->
  DBG c = true -> within w c buffer size -> Forall (plain_op (BS c)) ops -> Forall (call_in w) ops ->
  w_run w c fuel s ops = Ok (s', es) -> polite [] es ->
  (forall ops1 ops2 s1 es1, ops = ops1 ++ ops2 -> w_run w c fuel s ops1 = Ok (s1, es1) ->
     well_granted c s (live es1) \/ well_granted c s1 (live es1)) ->
  run c fuel s ops = Ok (s', es).
Proof.
  intros w Wd c buffer size up s fuel ops s' es M D V PV C R PL PD.
  destruct (made_wf _ _ _ _ _ M) as [HC [W [_ [_ [O _]]]]]. destruct (made_good w Wd c _ _ _ _ M D V) as [F _].
  eapply w_keeps; eauto. apply perm_nil.
Qed.

Lemma w_until_overlap_exact : forall w, platform w -> forall c buffer size up s fuel ops s' es, made c buffer size up s ->
  DBG c = true -> within w c buffer size -> Forall (plain_op (BS c)) ops -> Forall (call_in w) ops ->
  w_run w c fuel s ops = Ok (s', es) -> polite [] es ->
  ((forall ops1 ops2 s1 es1, ops = ops1 ++ ops2 -> w_run w c fuel s ops1 = Ok (s1, es1) -> in_order c s1 es1) <->
   (forall es1 es2, es = es1 ++ es2 -> well_granted c s (live es1))).
Proof.
  intros w Wd c buffer size up s fuel ops s' es M D V PV C R PL. assert (HC := made_cfg _ _ _ _ _ M).
  assert (K : (forall ops1 ops2 s1 es1, ops = ops1 ++ ops2 -> w_run w c fuel s ops1 = Ok (s1, es1) ->
      well_granted c s (live es1) \/ well_granted c s1 (live es1)) ->
    run c fuel s ops = Ok (s', es) /\
    forall ops1 ops2 s1 es1, ops = ops1 ++ ops2 -> w_run w c fuel s ops1 = Ok (s1, es1) <-> run c fuel s ops1 = Ok (s1, es1)).
  { intros PD. split; [eapply w_same_run; eauto|]. intros ops1 ops2 s1 es1 E.
    assert (A : forall s2 es2, w_run w c fuel s ops1 = Ok (s2, es2) -> run c fuel s ops1 = Ok (s2, es2)).
    { intros s2 es2 H. assert (R' := R). rewrite E in R'. destruct (w_run_prefix _ _ _ _ _ _ _ _ R') as [s3 [es3 [es4 [E3 E4]]]].
      rewrite H in E3. injection E3 as <- <-. subst ops. apply Forall_app in PV. apply Forall_app in C.
      eapply w_same_run; eauto; try tauto.
      - rewrite E4 in PL. eapply polite_app; eauto.
      - intros o1 o2 s5 es5 E5 E6. apply (PD o1 (o2 ++ ops2) s5 es5); auto. rewrite E5, app_assoc. reflexivity. }
    split; [apply A|]. intros H. assert (R' := R). rewrite E in R'.
    destruct (w_run_prefix _ _ _ _ _ _ _ _ R') as [s3 [es3 [es4 [E3 E4]]]]. rewrite E3. rewrite (A _ _ E3) in H. exact H. }
  split; intros H.
  - destruct K as [K1 K2].
    { intros ops1 ops2 s1 es1 E E1. right. apply in_order_granted; eauto. }
    apply (until_overlap_exact c buffer size up s fuel ops s' es M PV K1 PL).
    intros ops1 ops2 s1 es1 E E1. eapply H; eauto. eapply K2; eauto.
  - destruct K as [K1 K2].
    { intros ops1 ops2 s1 es1 E E1. left. assert (R' := R). rewrite E in R'.
      destruct (w_run_prefix _ _ _ _ _ _ _ _ R') as [s3 [es3 [es4 [E3 E4]]]]. rewrite E1 in E3. injection E3 as <- <-. eauto. }
    intros ops1 ops2 s1 es1 E E1.
    apply (proj2 (until_overlap_exact c buffer size up s fuel ops s' es M PV K1 PL) H ops1 ops2); auto. eapply K2; eauto.
Qed.
