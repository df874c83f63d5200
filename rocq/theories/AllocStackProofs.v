(** Lemmas about buffer resources on top of other resources. *)

Require Import ZArith List Bool Lia Permutation.
Require Import Verif.Outcome Verif.Machine Verif.BitsSpec Verif.BitsProofs Verif.SimpleSpec Verif.SimpleModel
  Verif.SimpleView Verif.SimpleProofs Verif.SimpleOpProofs Verif.SimpleHistProofs Verif.SimpleReleaseProofs Verif.SimpleMainProofs
  Verif.MonoSpec Verif.MonoModel Verif.MonoProofs Verif.AllocSpec Verif.AllocModel Verif.AllocView Verif.AllocProofs.
Import ListNotations.
Open Scope Z_scope.

Lemma eqb_false : forall a b, a <> b -> (a =? b) = false.
Proof. intros. apply Z.eqb_neq. auto. Qed.

(** what is asked of the upstream is what comes back *)
Lemma up_answer : forall up u size align u' r, res_step up u (Ask size align) = Ok (u', r) ->
  exists p, r = Got size align p /\ ask_up up u size align = p /\
    after_calls up u [UpAllocate size align] = Ok u'.
Proof.
  intros up u size align u' r H. cbn [res_step] in H. apply bind_ok in H. destruct H as [[u1 p] [H1 H2]].
  injection H2 as <- <-. exists p. split; [reflexivity|]. unfold ask_up, after_calls. rewrite H1. cbn [bind]. auto.
Qed.

Section Mono.
  Variables (dbg has : bool) (up : resource) (u0 : rstate up) (ok : Z -> Z -> Prop) (mem : Z -> Prop) (buffer size : Z).
  Hypothesis S : safe up u0 ok mem.
  Hypothesis M : mono_made buffer size.
  Hypothesis A : forall x, buffer <= x < buffer + size -> ~ mem x.

  Let s0 := mono_construct buffer size has.
  Let mok (sz al : Z) : Prop := 0 <= sz /\ pow2 al /\ buffer + size + al + sz <= 2 ^ 64 /\ (0 < sz -> ok sz al).
  Let mmem (x : Z) : Prop := buffer <= x < buffer + size \/ mem x.

  Definition minv (su : mono * rstate up) (l : list alloc) : Prop :=
    let (s, u) := su in exists h tr rest, mono_inv s h /\ same_buffer s0 s /\ reach up u0 ok u tr /\
      positive (owned tr) /\ Permutation (l ++ rest) (h ++ owned tr).

  Lemma minv_all : forall s h tr, mono_inv s h -> same_buffer s0 s -> good_trace mem tr -> positive (owned tr) ->
    pairwise_disjoint (h ++ owned tr) /\
    forall a, In a (h ++ owned tr) -> (forall x, fst a <= x < fst a + snd a -> mmem x) /\ 0 < fst a < 2 ^ 64 /\ 0 < snd a.
  Proof.
    intros s h tr I [B1 [B2 B3]] [G1 G2 G3 G4] P.
    destruct (made_end buffer size has M) as [E1 [E2 [E3 E4]]]. fold s0 in E1, E2.
    assert (HB : forall a, In a h -> (forall x, fst a <= x < fst a + snd a -> buffer <= x < buffer + size) /\ 0 < fst a < 2 ^ 64 /\ 0 < snd a).
    { intros a Ia. destruct (mi_bounds _ _ I a Ia) as [[J1 J2] [J3 J4]].
      assert (Nz : mdata s <> 0). { intros Z. destruct (mi_null _ _ I Z) as [_ N]. rewrite N in Ia. destruct Ia. }
      rewrite B1 in J1, J2, Nz. rewrite B2 in J2. destruct (E2 Nz) as [H1 H2]. rewrite H1 in J1, J2. rewrite H2 in J2.
      destruct M as [M1 [M2 M3]]. repeat split; try lia. }
    split.
    - apply pd_app. split; [apply ascending_disjoint, (mi_asc _ _ I)|]. split; [exact G1|].
      intros a b Ia Ib. destruct (HB a Ia) as [H1 [H2 H3]].
      apply (apart (fun x => buffer <= x < buffer + size) mem); auto. intros x Hx. apply (G2 b x Ib Hx).
    - intros a Ia. apply in_app_iff in Ia. destruct Ia as [Ia|Ia].
      + destruct (HB a Ia) as [H1 [H2 H3]]. split; auto. intros x Hx. left. apply H1. auto.
      + split; [intros x Hx; right; apply (G2 a x Ia Hx)|]. split; [apply G3; auto|apply P; auto].
  Qed.

  Lemma mono_safe : safe (mono_resource dbg up) (s0, u0) mok mmem.
  Proof.
    apply (safe_by (mono_resource dbg up) (s0, u0) mok mmem minv).
    - exists [], [], []. split; [apply start_inv; auto|]. split; [repeat split|]. split; [apply reach_start|].
      split; [intros a []|]. apply Permutation_refl.
    - intros [s u] l [h [tr [rest [I [B [R [P Q]]]]]]].
      destruct (minv_all s h tr I B (reach_good _ _ _ _ _ _ S R) P) as [D G].
      assert (D' : pairwise_disjoint (l ++ rest)) by (apply (pd_perm _ _ (Permutation_sym Q)); auto).
      apply pd_app in D'. split; [apply D'|].
      assert (IN : forall a, In a l -> In a (h ++ owned tr)).
      { intros a Ia. apply (Permutation_in _ Q). apply in_app_iff. auto. }
      split; [intros a x Ia; apply (G a (IN a Ia))|intros a Ia; apply (G a (IN a Ia))].
    - intros [s u] l q [h [tr [rest [I [B [R [P Q]]]]]]] HA.
      destruct (made_end buffer size has M) as [E1 [E2 [E3 E4]]]. fold s0 in E1, E2, E3.
      destruct q as [sz al|p].
      + destruct HA as [A1 [A2 [A3 A4]]]. cbn [res_step mono_resource r_allocate].
        destruct (Z.eq_dec sz 0) as [->|Nz].
        { cbn. eexists _, _. split; [reflexivity|]. split; [exists h, tr, rest; auto|].
          intros z a p Ep Np. injection Ep as <- <- <-. contradiction Np. reflexivity. }
        assert (A0 : 0 < sz) by lia. assert (B0 := B). destruct B0 as [B1 [B2 B3]].
        destruct (mono_alloc dbg s h sz al (ask_up up u) I A0 A2) as [s' [p [calls [E [Y [X [F|F]]]]]]].
        { rewrite B1, B2. lia. }
        * destruct (Y F) as [-> [Np [LM [-> I']]]]. rewrite E. cbn [bind after_calls].
          eexists _, _. split; [reflexivity|]. split.
          -- exists ((p, sz) :: h), tr, rest. split; [exact I'|]. split; [exact B|]. split; [exact R|]. split; [exact P|].
             cbn [owned_after]. rewrite eqb_false by auto. cbn [app]. apply perm_skip. exact Q.
          -- intros z a p' Ep _. injection Ep as <- <- <-. apply LM.
        * destruct (X F) as [-> U]. destruct (mup s) eqn:Ms.
          -- destruct U as [-> ->].
             destruct (reach_step _ _ _ _ _ _ (Ask sz al) S R (A4 A0)) as [u' [r [E' [_ R']]]].
             destruct (up_answer _ _ _ _ _ _ E') as [p [-> [AU AC]]]. rewrite E. cbn [bind]. rewrite AC. cbn [bind].
             rewrite AU. eexists _, _. split; [reflexivity|]. split.
             ++ exists h, (tr ++ [Got sz al p]), rest. split; [exact I|]. split; [exact B|]. split; [exact R'|].
                rewrite owned_app. cbn [owned_after]. destruct (Z.eqb_spec p 0) as [Zp|Zp]; [auto|].
                split; [intros a [<-|Ia]; [exact A0|apply P; auto]|].
                cbn [app]. rewrite Q. apply Permutation_middle.
             ++ intros z a p' Ep Np. injection Ep as <- <- <-.
                destruct (reach_good _ _ _ _ _ _ S R') as [_ _ _ GA]. apply (GA sz); auto. apply in_app_iff. right. left. reflexivity.
          -- destruct U as [-> ->]. rewrite E. cbn [bind after_calls]. eexists _, _. split; [reflexivity|]. split.
             ++ exists h, tr, rest. auto.
             ++ intros z a p' Ep Np. injection Ep as <- <- <-. contradiction Np. reflexivity.
      + cbn [res_step mono_resource r_deallocate mono_deallocate after_calls bind].
        eexists _, _. split; [reflexivity|]. split; [|discriminate]. cbn [owned_after].
        destruct (in_dec Z.eq_dec p (map fst l)) as [Ip|Ip].
        * destruct (remove_split p l Ip) as [n Pn]. exists h, tr, ((p, n) :: rest).
          split; [exact I|]. split; [exact B|]. split; [exact R|]. split; [exact P|].
          apply Permutation_trans with (l ++ rest); [|exact Q].
          apply Permutation_trans with (((p, n) :: remove_ptr p l) ++ rest); [apply Permutation_sym, Permutation_middle|].
          apply Permutation_app_tail, Permutation_sym, Pn.
        * rewrite remove_ptr_absent by auto. exists h, tr, rest. auto 6.
  Qed.
End Mono.

Section Simple.
  Variables (c : cfg) (fuel : nat) (up : resource) (u0 : rstate up) (ok : Z -> Z -> Prop) (mem : Z -> Prop)
    (buffer size k : Z) (hu : bool) (s0 : state).
  Hypothesis S : safe up u0 ok mem.
  Hypothesis M : made c buffer size hu s0.
  Hypothesis F : (Z.to_nat (bc s0) < fuel)%nat.
  Hypothesis K : 0 < k.
  Hypothesis B2 : (k + 1) * BS c <= 2 ^ 64.
  Hypothesis A : forall x, data s0 <= x < data s0 + bc s0 * BS c -> ~ mem x.

  Let sok (sz al : Z) : Prop :=
    (sz = 0 \/ (k - 1) * BS c < sz < k * BS c) /\ pow2 al /\ al <= BS c /\ (hu = true -> al = BS c) /\ (0 < sz -> ok sz al).
  Let smem (x : Z) : Prop := data s0 <= x < data s0 + bc s0 * BS c \/ mem x.

  Definition sinv (su : state * rstate up) (l : list alloc) : Prop :=
    let (s, u) := su in exists rs L tr, wf c s rs /\ same_place s0 s /\ pool_inv (bc s0) k rs /\ (hu = false -> tr = []) /\
      live_inv (data s0) (BS c) rs L /\ positive L /\ reach up u0 ok u tr /\
      positive (owned tr) /\ (forall a, In a (owned tr) -> (BS c | fst a)) /\ Permutation l (L ++ owned tr).

  Lemma sinv_all : forall s rs L tr, wf c s rs -> same_place s0 s -> live_inv (data s0) (BS c) rs L -> positive L ->
    good_trace mem tr -> positive (owned tr) ->
    pairwise_disjoint (L ++ owned tr) /\
    (forall a, In a (L ++ owned tr) -> (forall x, fst a <= x < fst a + snd a -> smem x) /\ 0 < fst a < 2 ^ 64 /\ 0 < snd a) /\
    (forall a, In a L -> data s0 <= fst a < data s0 + bc s0 * BS c) /\
    (forall a, In a (owned tr) -> ~ data s0 <= fst a < data s0 + bc s0 * BS c).
  Proof.
    intros s rs L tr W [P1 [P2 P3]] LI PL [G1 G2 G3 G4] P.
    destruct (made_wf _ _ _ _ _ M) as [HC [W0 [U0 [NX [O [D [B [PB [DV N]]]]]]]]].
    assert (T : tiling (bc s0) rs) by (rewrite <- P2; eapply wf_tiling; eauto).
    assert (GE := g_end _ _ (wf_geom _ _ _ W0)).
    assert (HB : forall a, In a L -> (forall x, fst a <= x < fst a + snd a -> data s0 <= x < data s0 + bc s0 * BS c) /\ 0 < fst a < 2 ^ 64 /\ 0 < snd a).
    { intros a Ia. destruct (live_inv_bounds _ _ _ _ _ B T LI a Ia) as [H1 H2]. assert (H3 := PL a Ia). repeat split; lia. }
    assert (HU : forall a, In a (owned tr) -> forall x, fst a <= x < fst a + snd a -> mem x) by (intros a Ia x; apply (G2 a x Ia)).
    split; [|split; [|split]].
    - apply pd_app. split; [eapply live_inv_disjoint; eauto|]. split; [exact G1|].
      intros a b Ia Ib. destruct (HB a Ia) as [H1 [H2 H3]].
      apply (apart (fun x => data s0 <= x < data s0 + bc s0 * BS c) mem); auto. intros x Hx. apply (HU b Ib x Hx).
    - intros a Ia. apply in_app_iff in Ia. destruct Ia as [Ia|Ia].
      + destruct (HB a Ia) as [H1 [H2 H3]]. split; auto. intros x Hx. left. apply H1. auto.
      + split; [intros x Hx; right; apply (HU a Ia x Hx)|]. split; [apply G3; auto|apply P; auto].
    - intros a Ia. destruct (HB a Ia) as [H1 [H2 H3]]. apply H1. lia.
    - intros a Ia H. apply (A (fst a) H). apply (HU a Ia). assert (Q := P a Ia). lia.
  Qed.

  Lemma simple_safe : safe (simple_memory c fuel up) (s0, u0) sok smem.
  Proof.
    destruct (made_wf _ _ _ _ _ M) as [HC [W0 [U0 [NX [O [D [B [PB [DV N]]]]]]]]].
    apply (safe_by (simple_memory c fuel up) (s0, u0) sok smem sinv).
    - exists [Reg 0 (bc s0) false], [], []. split; [exact W0|]. split; [repeat split|].
      split; [apply pool_start; auto|]. split; [reflexivity|]. split; [apply live_inv_start|].
      split; [intros a []|]. split; [apply reach_start|]. split; [intros a []|]. split; [intros a []|]. apply Permutation_refl.
    - intros [s u] l [rs [L [tr [W [SP [PI [NU [LI [PL [R [P [DA Q]]]]]]]]]]]].
      destruct (sinv_all s rs L tr W SP LI PL (reach_good _ _ _ _ _ _ S R) P) as [DD [G _]].
      split; [apply (pd_perm _ _ (Permutation_sym Q)); auto|].
      assert (IN : forall a, In a l -> In a (L ++ owned tr)) by (intros a Ia; apply (Permutation_in _ Q Ia)).
      split; [intros a x Ia; apply (G a (IN a Ia))|intros a Ia; apply (G a (IN a Ia))].
    - intros [s u] l q [rs [L [tr [W [SP [PI [NU [LI [PL [R [P [DA Q]]]]]]]]]]]] HA.
      destruct (sinv_all s rs L tr W SP LI PL (reach_good _ _ _ _ _ _ S R) P) as [DD [G [HL HO]]].
      assert (SP' := SP). destruct SP' as [S1 [S2 S3]].
      assert (T : tiling (bc s0) rs) by (rewrite <- S2; eapply wf_tiling; eauto).
      assert (STEP : forall o, valid_op (data s0) (BS c) (bc s0) hu false (pool_request (BS c) k) any_order rs o ->
        exists s' rs' e, step c fuel s o = Ok (s', e) /\ wf c s' rs' /\ same_place s0 s' /\
          pool_inv (bc s0) k rs' /\ live_inv (data s0) (BS c) rs' (live_after L e) /\
          spec_step (data s0) (BS c) (bc s0) hu rs o rs' e).
      { intros o V. destruct (step_careful c s rs fuel o HC W) as [s' [rs' [e [E [W' [[T1 [T2 T3]] SS]]]]]];
          rewrite ?S1, ?S2, ?S3, ?U0; auto.
        { destruct o as [z a ans|q0|]; cbn [valid_op] in *; auto. destruct V as [V|[V1 [V2 [V3 V4]]]]; auto. right.
          split; auto. split; auto. split; auto. apply (pool_careful _ _ _ k); auto; lia. }
        rewrite S1, S2, S3, U0 in SS. exists s', rs', e. split; [exact E|]. split; [exact W'|].
        split; [repeat split; congruence|]. split; [apply (pool_step (data s0) (BS c) (bc s0) hu false k rs o rs' e); auto|].
        split; [|exact SS]. apply (spec_step_live _ _ _ _ _ _ _ _ _ D B N T LI SS). }
      destruct q as [sz al|p].
      + destruct HA as [A1 [A2 [A3 [AB A4]]]]. cbn [res_step simple_memory r_allocate].
        destruct (Z.eq_dec sz 0) as [->|Nz].
        { cbn. eexists _, _. split; [reflexivity|]. split; [exists rs, L, tr; auto 12|].
          intros z a p Ep Np. injection Ep as <- <- <-. contradiction Np. reflexivity. }
        assert (A0 : 0 < sz) by nia.
        destruct (reach_step _ _ _ _ _ _ (Ask sz al) S R (A4 A0)) as [u' [r [E' [_ R']]]].
        destruct (up_answer _ _ _ _ _ _ E') as [pu [-> [AU AC]]].
        assert (GU := reach_good _ _ _ _ _ _ S R').
        assert (AF : hu = true -> answer_fits (BS c) (ask_up up u sz al)).
        { intros HU. rewrite <- (AB HU) at 1. rewrite AU. destruct (Z.eq_dec pu 0) as [->|Np]; [split; [lia|exists 0; reflexivity]|]. split.
          - assert (0 < pu < 2 ^ 64); [|lia]. apply (good_pointer _ _ GU (pu, sz)). rewrite owned_app. cbn [owned_after].
            rewrite eqb_false by auto. left. reflexivity.
          - apply (good_aligned _ _ GU sz); auto. apply in_app_iff. right. left. reflexivity. }
        destruct (STEP (OAllocate sz al (ask_up up u))) as [s' [rs' [e [E [W' [SP1 [PI' [LI' SS]]]]]]]].
        { right. split; [exact A0|]. split; [exact A2|]. split; [split; [lia|exact A3]|]. exact AF. }
        cbn [step] in E. apply bind_ok in E. destruct E as [[[s1 p] calls] [E1 E2]]. injection E2 as -> <-.
        rewrite E1. cbn [bind].
        inversion SS as [|x1 x2 x3 x4 l1 f t q i rs2 H1 H2 H3 H4 H5 H6|x1 x2 x3 x4 H1 H2 H3|x1 x2 x3 x4 H1 H2 H3| | | |]; subst; try lia; try discriminate.
        * cbn [after_calls bind]. eexists _, _. split; [reflexivity|].
          assert (Q0 : 0 < data s0 + i * BS c).
          { destruct H3 as [J _]. destruct H2 as [-> _]. destruct T as [C _].
            destruct (contiguous_bounds _ _ _ C) as [_ CB]. specialize (CB f ltac:(apply in_app_iff; right; left; auto)).
            unfold region_addr in J. nia. }
          cbn [live_after] in LI'. rewrite eqb_false in LI' by lia. split.
          -- exists rs', ((data s0 + i * BS c, sz) :: L), tr. split; [exact W'|]. split; [exact SP1|].
             split; [exact PI'|]. split; [exact NU|]. split; [exact LI'|]. split; [intros a [<-|Ia]; [exact A0|apply PL; auto]|].
             split; [exact R|]. split; [exact P|]. split; [exact DA|]. cbn [owned_after]. rewrite eqb_false by lia.
             cbn [app]. apply perm_skip. exact Q.
          -- intros z a p' Ep _. injection Ep as <- <- <-. apply H3.
        * cbn [after_calls bind]. eexists _, _. split; [reflexivity|]. cbn [live_after] in LI'. rewrite Z.eqb_refl in LI'. split.
          -- exists rs', L, tr. auto 12.
          -- intros z a p' Ep Np. injection Ep as <- <- <-. contradiction Np. reflexivity.
        * rewrite AC. cbn [bind]. eexists _, _. split; [reflexivity|]. cbn [live_after] in LI'. split.
          -- exists rs', L, (tr ++ [Got sz al (ask_up up u sz al)]). split; [exact W'|]. split; [exact SP1|].
             split; [exact PI'|]. split; [congruence|]. split; [exact LI'|]. split; [exact PL|].
             split; [exact R'|]. rewrite owned_app. cbn [owned_after].
             destruct (Z.eqb_spec (ask_up up u sz al) 0) as [Zp|Zp]; [auto|].
             split; [intros a [<-|Ia]; [exact A0|apply P; auto]|].
             split; [intros a [<-|Ia]; [apply AF; assumption|apply DA; auto]|]. rewrite Q. apply Permutation_middle.
          -- intros z a p' Ep Np. injection Ep as <- <- <-. rewrite AB by assumption. rewrite <- (AB ltac:(assumption)) at 2. apply AF. assumption.
      + cbn [res_step simple_memory r_deallocate]. cbn [allowed] in HA.
        assert (ND : NoDup (map fst l)).
        { apply pd_nodup; [apply (pd_perm _ _ (Permutation_sym Q)); auto|]. intros a Ia. apply (G a). apply (Permutation_in _ Q Ia). }
        assert (RQ : Permutation (remove_ptr p l) (remove_ptr p (L ++ owned tr))) by (apply remove_perm; auto).
        destruct (Z.eq_dec p 0) as [->|Np].
        { rewrite deallocate_null. cbn [bind after_calls]. eexists _, _. split; [reflexivity|]. split; [|discriminate].
          cbn [owned_after]. rewrite remove_ptr_absent.
          - exists rs, L, tr. auto 12.
          - intros I. apply in_map_iff in I. destruct I as [a [Ea I]].
            assert (X := proj1 (proj2 (G a (Permutation_in _ Q I)))). lia. }
        destruct HA as [Zp|HA]; [contradiction|].
        assert (HA' : In p (map fst (L ++ owned tr))) by (apply (Permutation_in _ (Permutation_map fst Q) HA)).
        rewrite map_app in HA'. apply in_app_iff in HA'.
        destruct (in_dec Z.eq_dec p (map fst L)) as [IL|IL].
        * assert (IR : exists r, In r rs /\ rbusy r = true /\ p = region_addr (data s0) (BS c) r).
          { assert (X := Permutation_in _ (proj1 LI) IL). apply in_map_iff in X. destruct X as [r [X1 X2]].
            apply in_busy in X2. exists r. split; [apply X2|]. split; [apply X2|auto]. }
          destruct IR as [r [R1 [R2 R3]]].
          destruct (STEP (ODeallocate p)) as [s' [rs' [e [E [W' [SP1 [PI' [LI' SS]]]]]]]].
          { right. left. exists r. repeat split; auto. }
          cbn [step] in E. apply bind_ok in E. destruct E as [[s1 calls] [E1 E2]]. injection E2 as -> <-.
          rewrite E1. cbn [bind].
          assert (CN : calls = []).
          { inversion SS as [| | | | | |x1 x2 K1 K2 K3|]; subst; auto. exfalso. apply K2.
            apply in_map_iff in IL. destruct IL as [a [Ea IL]]. rewrite <- Ea. apply HL. auto. }
          subst calls. cbn [after_calls bind]. eexists _, _. split; [reflexivity|]. split; [|discriminate].
          cbn [live_after] in LI'. exists rs', (remove_ptr p L), tr. split; [exact W'|]. split; [exact SP1|].
          split; [exact PI'|]. split; [exact NU|]. split; [exact LI'|].
          split; [intros a Ia; apply PL; apply (remove_incl p L); auto|]. split; [exact R|]. split; [exact P|]. split; [exact DA|].
          cbn [owned_after]. rewrite RQ, remove_app_l by auto. reflexivity.
        * destruct HA' as [HA'|HA']; [contradiction|].
          assert (PA : exists a, In a (owned tr) /\ fst a = p) by (apply in_map_iff in HA'; destruct HA' as [a [? ?]]; eauto).
          destruct PA as [a [Ia Ea]].
          assert (OUT : ~ data s0 <= p < data s0 + bc s0 * BS c) by (rewrite <- Ea; apply HO; auto).
          assert (HU : hu = true) by (destruct hu; [reflexivity|rewrite NU in Ia by reflexivity; destruct Ia]).
          destruct (STEP (ODeallocate p)) as [s' [rs' [e [E [W' [SP1 [PI' [LI' SS]]]]]]]].
          { right. right. split; [exact HU|]. split; [rewrite <- Ea; apply (G a); apply in_app_iff; auto|].
            split; [rewrite <- Ea; apply DA; auto|exact OUT]. }
          cbn [step] in E. apply bind_ok in E. destruct E as [[s1 calls] [E1 E2]]. injection E2 as -> <-.
          rewrite E1. cbn [bind].
          assert (CN : calls = [UpDeallocate p] /\ rs' = rs).
          { inversion SS as [| | | | |x1 l1 r t x2 K1 K2 K3 K4|x1 x2 K1 K2 K3|]; subst; auto; [exfalso; congruence|]. exfalso. apply OUT.
            destruct T as [C _]. destruct (contiguous_bounds _ _ _ C) as [_ CB]. specialize (CB r ltac:(apply in_app_iff; right; left; auto)).
            match goal with H : region_addr _ _ r = fst a |- _ => rewrite <- H end. unfold region_addr. nia. }
          destruct CN as [-> ->]. cbn [after_calls live_after] in *.
          destruct (reach_step _ _ _ _ _ _ (Give p) S R) as [u' [r [E' [Qr R']]]]; [right; exact HA'|].
          cbn [res_step] in E'. apply bind_ok in E'. destruct E' as [u1 [E3 E4]]. injection E4 as -> <-.
          rewrite E3. cbn [bind]. eexists _, _. split; [reflexivity|]. split; [|discriminate].
          exists rs, L, (tr ++ [Gave p]). split; [exact W'|]. split; [exact SP1|]. split; [exact PI'|]. split; [congruence|].
          split; [exact LI'|]. split; [exact PL|]. split; [exact R'|]. rewrite owned_app. cbn [owned_after].
          split; [intros b Ib; apply P; apply (remove_incl p _); auto|].
          split; [intros b Ib; apply DA; apply (remove_incl p _); auto|].
          rewrite RQ, remove_app_r by auto. reflexivity.
  Qed.
End Simple.
