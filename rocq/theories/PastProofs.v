(** Lemmas about simple_resource: what its past leaves behind. *)

Require Import ZArith Lia List Bool Permutation.
Require Import Verif.Outcome Verif.Machine Verif.BitsModel Verif.BitsSpec Verif.BitsProofs.
Require Import Verif.SimpleModel Verif.SimpleSpec Verif.SimpleView Verif.SimpleProofs Verif.SimpleAllocProofs.
Require Import Verif.SimpleScanProofs Verif.SimpleOpProofs Verif.SimpleHistProofs Verif.SimpleReleaseProofs
  Verif.SimpleAnyProofs Verif.SimpleMainProofs Verif.SimpleExactProofs Verif.SimpleAstrayProofs Verif.SimpleWalkProofs Verif.SimpleKeepProofs.
Require Import Verif.SimpleExamples Verif.SimpleRefuted.
Import ListNotations.
Open Scope Z_scope.
Open Scope res_scope.

(** * Lists of regions are determined by their busy ones, in whatever order these come *)

Lemma busy_sorted : forall n rs a, contiguous n a rs ->
  forall l r1 m r2 t, busy rs = l ++ r1 :: m ++ r2 :: t -> rstart r1 < rstart r2.
Proof.
  intros n; induction rs as [|r rs IH]; intros a C l r1 m r2 t E.
  - destruct l; discriminate E.
  - cbn [contiguous] in C. destruct C as [C1 [C2 C3]]. unfold busy in E. cbn [filter] in E. fold (busy rs) in E.
    destruct (rbusy r); [|eapply IH; eauto].
    destruct l as [|x l]; cbn [app] in E; injection E as -> E; [|eapply IH; eauto].
    assert (I : In r2 (busy rs)) by (rewrite E; apply in_app_iff; right; left; auto). apply in_busy in I.
    destruct (contiguous_bounds _ _ _ C3) as [_ B]. specialize (B r2 (proj1 I)). lia.
Qed.

Lemma sorted_perm : forall l l' : list region,
  (forall x r1 m r2 t, l = x ++ r1 :: m ++ r2 :: t -> rstart r1 < rstart r2) ->
  (forall x r1 m r2 t, l' = x ++ r1 :: m ++ r2 :: t -> rstart r1 < rstart r2) ->
  Permutation l l' -> l = l'.
Proof.
  induction l as [|r l IH]; intros l' S S' P.
  - apply Permutation_nil in P. auto.
  - destruct l' as [|r' l']; [apply Permutation_sym, Permutation_nil in P; discriminate P|].
    assert (E : r = r').
    { assert (I := Permutation_in r P (or_introl eq_refl)). destruct I as [I|I]; auto.
      assert (I' := Permutation_in r' (Permutation_sym P) (or_introl eq_refl)). destruct I' as [I'|I']; auto.
      destruct (in_split _ _ I) as [m [t ->]]. destruct (in_split _ _ I') as [m' [t' ->]].
      assert (A := S [] r m' r' t' eq_refl). assert (B := S' [] r' m r t eq_refl). lia. }
    subst r'. f_equal. apply IH.
    + intros x r1 m r2 t E. apply (S (r :: x) r1 m r2 t). cbn [app]. rewrite E. reflexivity.
    + intros x r1 m r2 t E. apply (S' (r :: x) r1 m r2 t). cbn [app]. rewrite E. reflexivity.
    + eapply Permutation_cons_inv; eauto.
Qed.

Lemma extent_region : forall d b r r', 0 < b -> rbusy r = rbusy r' -> extent d b r = extent d b r' -> r = r'.
Proof.
  intros d b [i n u] [i' n' u'] P U E. unfold extent, region_addr in E. cbn [rstart rlen rbusy] in *. injection E as E1 E2.
  f_equal; auto; nia.
Qed.

Lemma extents_perm : forall d b rs rs', 0 < b -> Permutation (map (extent d b) (busy rs)) (map (extent d b) (busy rs')) ->
  Permutation (busy rs) (busy rs').
Proof.
  intros d b rs rs' P H.
  assert (X : forall e l, (forall r, In r l -> rbusy r = true) -> forall r, rbusy r = true -> extent d b r = e ->
    In e (map (extent d b) l) -> In r l).
  { intros e l A r B E I. apply in_map_iff in I. destruct I as [r' [E' I]]. replace r with r'; auto.
    apply (extent_region d b); auto; [rewrite B; auto|congruence]. }
  assert (Y : forall l l', (forall r, In r l -> rbusy r = true) -> (forall r, In r l' -> rbusy r = true) ->
    Permutation (map (extent d b) l) (map (extent d b) l') -> Permutation l l').
  { induction l as [|r l IH]; intros l' A A' Q.
    - destruct l'; auto. apply Permutation_nil in Q. discriminate Q.
    - cbn [map] in Q. assert (I : In r l').
      { apply (X (extent d b r) l'); auto; [apply A; left; auto|]. eapply Permutation_in; [exact Q|left; auto]. }
      destruct (in_split _ _ I) as [l1 [l2 ->]]. apply Permutation_cons_app. apply IH.
      + intros x Ix. apply A. right. auto.
      + intros x Ix. apply A'. apply in_app_iff in Ix. apply in_app_iff. cbn [In]. tauto.
      + rewrite map_app in *. cbn [map] in Q. apply Permutation_cons_app_inv in Q. exact Q. }
  apply Y; auto; intros r I; apply in_busy in I; tauto.
Qed.

Lemma same_regions : forall d b n rs rs', 0 < b -> tiling n rs -> tiling n rs' ->
  Permutation (map (extent d b) (busy rs)) (map (extent d b) (busy rs')) -> rs = rs'.
Proof.
  intros d b n rs rs' P T T' H. apply tiling_unique with n; auto. apply sorted_perm.
  - eapply busy_sorted. apply T.
  - eapply busy_sorted. apply T'.
  - eapply extents_perm; eauto.
Qed.

(** * The ideal allocator is deterministic *)

Lemma aligned_unique : forall d b r align q q', first_aligned d b r align q -> first_aligned d b r align q' -> q = q'.
Proof.
  intros d b r align q q' [A [B C]] [A' [B' C']]. assert (X := C q' A' B'). assert (Y := C' q A B). lia.
Qed.

Lemma first_fit_unique : forall d b rs size align l f t l' f' t', first_fit d b rs size align l f t ->
  first_fit d b rs size align l' f' t' -> l = l' /\ f = f' /\ t = t'.
Proof.
  intros d b rs size align l f t l' f' t' [E [F [C N]]] [E' [F' [C' N']]].
  apply split_unique_first with (fun r => rbusy r = false /\ can_hold d b r size align); auto; try congruence.
  - intros r I [X Y]. apply (N r); auto.
  - intros r I [X Y]. apply (N' r); auto.
Qed.

Lemma alone : forall l r t, NoDup (map rstart (l ++ r :: t)) -> forall x, In x l -> rstart x <> rstart r.
Proof.
  intros l r t N x I E. rewrite map_app in N. cbn [map] in N. apply NoDup_remove_2 in N. apply N.
  apply in_app_iff. left. rewrite <- E. apply in_map. exact I.
Qed.

Lemma spec_step_unique : forall d b n up rs o rs1 e1 rs2 e2, 0 < d -> 0 < b -> tiling n rs ->
  spec_step d b n up rs o rs1 e1 -> spec_step d b n up rs o rs2 e2 -> rs1 = rs2 /\ e1 = e2.
Proof.
  intros d b n up rs o rs1 e1 rs2 e2 D B T H1 H2.
  assert (R : forall r, In r rs -> d <= region_addr d b r < d + n * b).
  { intros r I. destruct (contiguous_bounds _ _ _ (proj1 T)) as [_ Q]. specialize (Q r I). unfold region_addr. nia. }
  assert (I0 : forall l (r : region) t, rs = l ++ r :: t -> In r rs).
  { intros l r t ->. apply in_app_iff. right. left. auto. }
  destruct o as [size align ans|p|].
  - inversion H1; subst; inversion H2; subst; auto; try lia; try discriminate;
      repeat match goal with
      | F : first_fit _ _ _ _ _ _ _ _, N : nothing_fits _ _ _ _ _ |- _ =>
        exfalso; destruct F as [FE [FF [FC _]]]; apply (N _ (I0 _ _ _ FE) FF FC)
      end.
    match goal with F : first_fit _ _ _ _ _ ?l ?f ?t, F' : first_fit _ _ _ _ _ ?l' ?f' ?t' |- _ =>
      destruct (first_fit_unique _ _ _ _ _ _ _ _ _ _ _ F F') as [-> [-> ->]] end.
    match goal with F : first_aligned _ _ _ _ (d + ?i * b), F' : first_aligned _ _ _ _ (d + ?i' * b) |- _ =>
      assert (Q := aligned_unique _ _ _ _ _ _ F F'); assert (i = i') by nia; subst i' end.
    split; auto. eapply tiling_unique; eauto. congruence.
  - inversion H1 as [| | | | |? l r t rs' E BR T' EB EP EE|? P0 NP U|]; subst;
      inversion H2 as [| | | | |? l2 r2 t2 rs2' E2 BR2 T2 EB2 EP2 EE2|? P02 NP2 U2|]; subst; auto;
      repeat match goal with
      | X : _ ++ ?r :: _ = _ ++ ?r' :: _ |- _ => fail 1
      | X : context [region_addr d b ?r] |- _ =>
        match goal with Y : d <= region_addr d b r < _ |- _ => fail 1 | _ => assert (d <= region_addr d b r < d + n * b) by (apply R; eapply I0; eauto) end
      end; try lia.
    assert (Q : r = r2).
    { apply (contiguous_start_inj n (l ++ r :: t) 0); [apply T|apply (I0 l r t); auto|apply (I0 l2 r2 t2); auto|].
      unfold region_addr in *. nia. }
    subst r2.
    destruct (split_unique_first l r t l2 r t2 (fun x => rstart x = rstart r)) as [-> [_ ->]]; auto.
    + intros x I X. apply (alone l r t (contiguous_nodup _ _ _ (proj1 T)) x I X).
    + intros x I X. match goal with Y : l2 ++ r :: t2 = _ |- _ => rewrite <- Y in T | Y : _ = l2 ++ r :: t2 |- _ => rewrite Y in T end.
      apply (alone l2 r t2 (contiguous_nodup _ _ _ (proj1 T)) x I X).
    + split; auto. eapply tiling_unique; eauto. congruence.
  - inversion H1; subst; inversion H2; subst; auto.
Qed.

Lemma spec_run_unique : forall d b n up ops rs rs1 es1 rs2 es2, 0 < d -> 0 < b -> tiling n rs ->
  (forall rs o rs' e, tiling n rs -> spec_step d b n up rs o rs' e -> tiling n rs') ->
  spec_run d b n up rs ops rs1 es1 -> spec_run d b n up rs ops rs2 es2 -> rs1 = rs2 /\ es1 = es2.
Proof.
  intros d b n up; induction ops as [|o ops IH]; intros rs rs1 es1 rs2 es2 D B T K H1 H2.
  - inversion H1; subst; inversion H2; subst; auto.
  - inversion H1 as [|? ? ra ea ? ? ? S1 R1]; subst. inversion H2 as [|? ? rb eb ? ? ? S2 R2]; subst.
    destruct (spec_step_unique _ _ _ _ _ _ _ _ _ _ D B T S1 S2) as [-> ->].
    destruct (IH rb rs1 es rs2 es0) as [-> ->]; eauto.
Qed.

Lemma spec_keeps_tiling : forall d b n up, 1 <= n -> forall rs o rs' e, tiling n rs -> spec_step d b n up rs o rs' e -> tiling n rs'.
Proof.
  intros d b n up N rs o rs' e T H. inversion H; subst; auto. split; [cbn; lia|].
  intros l r1 r2 t E. destruct l as [|x [|y l]]; discriminate E.
Qed.

(** * Two histories with the same outcome *)

Definition same_ways (c : cfg) (s s1 s2 : state) (rs : list region) : Prop :=
  forall fuel ops, (Z.to_nat (bc s) < fuel)%nat ->
    valid_client (data s) (BS c) (bc s) (has_up s) false (careful (data s) (BS c) (bc s)) any_order rs ops ->
    exists t1 t2 es, run c fuel s1 ops = Ok (t1, es) /\ run c fuel s2 ops = Ok (t2, es).

Lemma alike : forall c s s1 s2 rs, cfg_ok c -> wf c s1 rs -> wf c s2 rs -> same_place s s1 -> same_place s s2 ->
  ordinary_buffer (data s) (bc s * BS c) -> same_ways c s s1 s2 rs.
Proof.
  intros c s s1 s2 rs HC W1 W2 [A1 [A2 A3]] [B1 [B2 B3]] O fuel ops F V.
  destruct (run_careful c fuel ops s1 rs HC W1) as [t1 [r1 [e1 [R1 [_ [_ P1]]]]]]; rewrite ?A1, ?A2, ?A3; auto.
  destruct (run_careful c fuel ops s2 rs HC W2) as [t2 [r2 [e2 [R2 [_ [_ P2]]]]]]; rewrite ?B1, ?B2, ?B3; auto.
  rewrite A1, A2, A3 in P1. rewrite B1, B2, B3 in P2.
  assert (G := wf_geom _ _ _ W1).
  destruct (spec_run_unique (data s) (BS c) (bc s) (has_up s) ops rs r1 e1 r2 e2) as [_ ->]; auto.
  - rewrite <- A1. apply (g_data _ _ G).
  - apply bs_pos; auto.
  - rewrite <- A2. eapply wf_tiling; eauto.
  - apply spec_keeps_tiling. rewrite <- A2. assert (X := g_bc _ _ G). lia.
  - eauto.
Qed.

Lemma same_live : forall c up s ops1 ops2 s1 s2 es1 es2,
  history c up s ops1 s1 es1 -> history c up s ops2 s2 es2 ->
  Forall (plain_op (BS c)) ops1 -> Forall (plain_op (BS c)) ops2 ->
  (forall es es', es1 = es ++ es' -> well_granted c s (live es)) ->
  (forall es es', es2 = es ++ es' -> well_granted c s (live es)) ->
  Permutation (map (granted (BS c)) (live es1)) (map (granted (BS c)) (live es2)) ->
  exists rs, regions_of s1 rs /\ regions_of s2 rs /\ tiling (bc s) rs /\ freec s1 = freec s2 /\ busyc s1 = busyc s2 /\
    forall fuel ops, (Z.to_nat (bc s) < fuel)%nat ->
      valid_client (data s) (BS c) (bc s) up false (careful (data s) (BS c) (bc s)) any_order rs ops ->
      exists t1 t2 es, run c fuel s1 ops = Ok (t1, es) /\ run c fuel s2 ops = Ok (t2, es).
Proof.
  intros c up s ops1 ops2 s1 s2 es1 es2 H1 H2 V1 V2 G1 G2 P.
  destruct (history_keeps _ _ _ _ _ _ H1 V1 G1) as [r1 [W1 [S1 [_ I1]]]].
  destruct (history_keeps _ _ _ _ _ _ H2 V2 G2) as [r2 [W2 [S2 [_ I2]]]].
  destruct H1 as [buffer [size [fuel0 [M _]]]].
  destruct (made_wf _ _ _ _ _ M) as [HC [_ [U [_ [O _]]]]].
  assert (E1 := S1). destruct E1 as [D1 [D2 D3]]. assert (E2 := S2). destruct E2 as [F1 [F2 F3]].
  assert (T1 := wf_tiling _ _ _ W1). rewrite D2 in T1. assert (T2 := wf_tiling _ _ _ W2). rewrite F2 in T2.
  assert (r1 = r2).
  { apply (same_regions (data s) (BS c) (bc s)); auto; [apply bs_pos; auto|].
    unfold granted_inv in *. rewrite <- I1, <- I2. exact P. }
  subst r2. exists r1. split; [apply (wf_tiles _ _ _ W1)|]. split; [apply (wf_tiles _ _ _ W2)|]. split; auto.
  split; [rewrite (wf_free _ _ _ W1), (wf_free _ _ _ W2); auto|].
  split; [rewrite (wf_busy _ _ _ W1), (wf_busy _ _ _ W2); auto|].
  rewrite <- U. exact (alike c s s1 s2 r1 HC W1 W2 S1 S2 O).
Qed.

(** * Giving memory back in any order *)

Lemma remove_filter : forall p L, NoDup (map fst L) -> remove_ptr p L = filter (fun a => negb (fst a =? p)) L.
Proof.
  intros p; induction L as [|a L IH]; intros N; auto. cbn [remove_ptr filter map] in *. inversion N as [|x y N1 N2]; subst.
  destruct (Z.eqb_spec (fst a) p) as [E|E]; cbn [negb].
  - subst p. clear IH. induction L as [|z L IHL]; auto. cbn [filter map In] in *.
    destruct (Z.eqb_spec (fst z) (fst a)) as [Q|Q]; [tauto|]. cbn [negb]. f_equal. apply IHL.
    + inversion N as [|? ? A B]; subst. inversion B; subst. constructor; tauto.
    + tauto.
    + inversion N2; auto.
  - f_equal. auto.
Qed.

Lemma filter_nodup : forall (f : alloc -> bool) L, NoDup (map fst L) -> NoDup (map fst (filter f L)).
Proof.
  intros f; induction L as [|a L IH]; intros N; [constructor|]. cbn [map] in N. inversion N as [|x y N1 N2]; subst.
  cbn [filter]. destruct (f a); auto. cbn [map]. constructor; auto.
  intros I. apply N1. apply in_map_iff in I. destruct I as [z [E I]]. apply filter_In in I. rewrite <- E. apply in_map. tauto.
Qed.

Definition still (ps : list Z) (a : alloc) : bool := negb (existsb (Z.eqb (fst a)) ps).

Lemma give_back : forall c fuel ps s rs L, cfg_ok c -> wf c s rs -> links_forward s ->
  ordinary_buffer (data s) (bc s * BS c) -> granted_inv (data s) (BS c) rs L ->
  NoDup ps -> (forall p, In p ps -> In p (map fst L)) ->
  exists t rs', run c fuel s (map ODeallocate ps) = Ok (t, map (fun p => EDeallocate p []) ps) /\
    wf c t rs' /\ same_place s t /\ granted_inv (data s) (BS c) rs' (filter (still ps) L).
Proof.
  intros c fuel; induction ps as [|p ps IH]; intros s rs L HC W LF O GI ND IN.
  - exists s, rs. split; [reflexivity|]. split; auto. split; [apply same_place_refl|].
    replace (filter (still []) L) with L; auto. clear. induction L as [|a L IH]; auto. cbn [filter]. unfold still at 1.
    cbn [existsb negb]. f_equal. exact IH.
  - inversion ND as [|x y N1 N2]; subst.
    assert (I := Permutation_in _ (granted_addrs _ _ _ _ GI) (IN p (or_introl eq_refl))). apply in_map_iff in I.
    destruct I as [r [E I]]. apply in_busy in I. destruct I as [I B]. destruct (in_split _ _ I) as [l [t ->]].
    destruct (deallocate_live c s l r t HC W B) as [s1 [a [n [l' [t' [E1 [W' [F [D1 [D2 [D3 _]]]]]]]]]]].
    unfold addr in E1. rewrite E in E1.
    assert (ST : step c fuel s (ODeallocate p) = Ok (s1, EDeallocate p [])) by (cbn [step]; rewrite E1; reflexivity).
    assert (NL : NoDup (map fst L)).
    { eapply Permutation_NoDup; [apply Permutation_sym; eapply granted_addrs; eauto|].
      eapply busy_nodup; [apply bs_pos; eauto|]. apply (wf_tiling _ _ _ W). }
    assert (WG : well_granted c s (live_after L (EDeallocate p []))).
    { cbn [live_after]. destruct (remove_granted (BS c) p L (IN p (or_introl eq_refl))) as [x [Ex Px]]. split.
      - assert (G := granted_disjoint c s _ _ HC W GI). eapply pairwise_perm in G; [|exact Px].
        apply pairwise_cons in G. tauto.
      - intros _. assert (X : Forall (inside (data s) (bc s * BS c)) (map (granted (BS c)) L)).
        { apply Forall_forall. intros z Iz. apply (Permutation_in _ GI) in Iz. apply in_map_iff in Iz.
          destruct Iz as [q [<- Iq]]. apply in_busy in Iq. destruct (contiguous_bounds _ _ _ (proj1 (wf_tiling _ _ _ W))) as [_ Q].
          specialize (Q q (proj1 Iq)). assert (P := bs_pos c HC). unfold inside, extent, region_addr. cbn [fst snd]. nia. }
        rewrite Px in X. inversion X; auto. }
    destruct (step_keeps c fuel s _ (ODeallocate p) s1 _ L HC W LF O (Logic.I : plain_op (BS c) (ODeallocate p)) ST (or_intror (IN p (or_introl eq_refl))) GI WG)
      as [rs1 [W1 [SP [LF1 GI1]]]].
    cbn [live_after] in GI1. rewrite remove_filter in GI1 by auto. assert (SP' := SP). destruct SP' as [Q1 [Q2 Q3]].
    destruct (IH s1 rs1 (filter (fun a => negb (fst a =? p)) L)) as [s2 [rs2 [R [W2 [SP2 GI2]]]]]; auto.
    + rewrite Q1, Q2. exact O.
    + rewrite Q1. exact GI1.
    + intros q Iq. assert (J := IN q (or_intror Iq)). apply in_map_iff in J. destruct J as [z [Ez Iz]].
      apply in_map_iff. exists z. split; auto. apply filter_In. split; auto. apply negb_true_iff. apply Z.eqb_neq. congruence.
    + exists s2, rs2. split; [|split; [exact W2|split; [eapply same_place_trans; eauto|]]].
      * cbn [map run]. rewrite ST. cbn [bind]. rewrite R. reflexivity.
      * rewrite Q1 in GI2. replace (filter (still (p :: ps)) L) with (filter (still ps) (filter (fun a => negb (fst a =? p)) L)); auto.
        clear. induction L as [|z L IHL]; auto. cbn [filter]. unfold still at 2. cbn [existsb]. rewrite negb_orb.
        destruct (negb (fst z =? p)); cbn [andb filter]; [|exact IHL]. fold (still ps z).
        destruct (still ps z); [f_equal|]; exact IHL.
Qed.

Lemma still_perm : forall ps qs L, Permutation ps qs -> filter (still ps) L = filter (still qs) L.
Proof.
  intros ps qs L P. apply filter_ext. intros a. unfold still. f_equal. apply eq_true_iff_eq. rewrite !existsb_exists.
  split; intros [x [I E]]; exists x; split; auto; [apply (Permutation_in x P I)|apply (Permutation_in x (Permutation_sym P) I)].
Qed.

Lemma any_order_same : forall c up s ops s' es ps qs, history c up s ops s' es -> Forall (plain_op (BS c)) ops ->
  (forall es1 es2, es = es1 ++ es2 -> well_granted c s (live es1)) ->
  NoDup ps -> incl ps (map fst (live es)) -> Permutation ps qs ->
  exists rs, tiling (bc s) rs /\
    forall fuel, exists t1 t2, run c fuel s' (map ODeallocate ps) = Ok (t1, map (fun p => EDeallocate p []) ps) /\
      run c fuel s' (map ODeallocate qs) = Ok (t2, map (fun p => EDeallocate p []) qs) /\
      regions_of t1 rs /\ regions_of t2 rs /\ freec t1 = freec t2 /\ busyc t1 = busyc t2 /\
      forall fuel2 ops2, (Z.to_nat (bc s) < fuel2)%nat ->
        valid_client (data s) (BS c) (bc s) up false (careful (data s) (BS c) (bc s)) any_order rs ops2 ->
        exists u1 u2 es2, run c fuel2 t1 ops2 = Ok (u1, es2) /\ run c fuel2 t2 ops2 = Ok (u2, es2).
Proof.
  intros c up s ops s' es ps qs H V G ND IN P.
  destruct (history_keeps _ _ _ _ _ _ H V G) as [r0 [W [S0 [LF GI]]]].
  destruct H as [buffer [size [fuel0 [M _]]]].
  destruct (made_wf _ _ _ _ _ M) as [HC [_ [U [_ [O _]]]]].
  assert (E0 := S0). destruct E0 as [D1 [D2 D3]].
  assert (O' : ordinary_buffer (data s') (bc s' * BS c)) by (rewrite D1, D2; exact O).
  assert (GI' : granted_inv (data s') (BS c) r0 (live es)) by (rewrite D1; exact GI).
  assert (NQ : NoDup qs) by (eapply Permutation_NoDup; eauto).
  assert (IQ : forall p, In p qs -> In p (map fst (live es))) by (intros p I; apply IN; eapply Permutation_in; [apply Permutation_sym|]; eauto).
  assert (B : 0 < BS c) by (apply bs_pos; auto).
  assert (KEY : forall fuel xs, NoDup xs -> (forall p, In p xs -> In p (map fst (live es))) -> Permutation ps xs ->
    exists t rs, run c fuel s' (map ODeallocate xs) = Ok (t, map (fun p => EDeallocate p []) xs) /\
      wf c t rs /\ same_place s t /\ tiling (bc s) rs /\ granted_inv (data s) (BS c) rs (filter (still ps) (live es))).
  { intros fuel xs N I X. destruct (give_back c fuel xs s' r0 (live es) HC W LF O' GI' N I) as [t [rs [R [Wt [SP GIt]]]]].
    exists t, rs. split; auto. split; auto. split; [eapply same_place_trans; eauto|]. split.
    - assert (T := wf_tiling _ _ _ Wt). destruct SP as [_ [Q _]]. rewrite Q, D2 in T. exact T.
    - rewrite D1 in GIt. rewrite (still_perm _ _ _ X). exact GIt. }
  destruct (KEY 0%nat ps ND IN (Permutation_refl ps)) as [_ [rs [_ [_ [_ [T GR]]]]]].
  assert (SAME : forall rs', tiling (bc s) rs' -> granted_inv (data s) (BS c) rs' (filter (still ps) (live es)) -> rs' = rs).
  { intros rs' T' G'. apply (same_regions (data s) (BS c) (bc s)); auto. unfold granted_inv in *. rewrite <- G', <- GR. reflexivity. }
  exists rs. split; auto. intros fuel.
  destruct (KEY fuel ps ND IN (Permutation_refl ps)) as [t1 [r1 [R1 [W1 [S1 [T1 G1]]]]]].
  destruct (KEY fuel qs NQ IQ P) as [t2 [r2 [R2 [W2 [S2 [T2 G2]]]]]].
  assert (r1 = rs) by auto. assert (r2 = rs) by auto. subst r1 r2.
  exists t1, t2. split; auto. split; auto. split; [apply (wf_tiles _ _ _ W1)|]. split; [apply (wf_tiles _ _ _ W2)|].
  split; [rewrite (wf_free _ _ _ W1), (wf_free _ _ _ W2); auto|].
  split; [rewrite (wf_busy _ _ _ W1), (wf_busy _ _ _ W2); auto|].
  rewrite <- U. exact (alike c s t1 t2 rs HC W1 W2 S1 S2 O).
Qed.
