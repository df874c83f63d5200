(** Lemmas about simple_resource: histories of calls. *)

Require Import ZArith Lia List Bool Permutation.
Require Import Verif.Outcome Verif.Machine Verif.BitsModel Verif.BitsSpec Verif.BitsProofs.
Require Import Verif.ArithModel Verif.ArithProofs.
Require Import Verif.SimpleModel Verif.SimpleSpec Verif.SimpleProofs Verif.SimpleAllocProofs.
Require Import Verif.SimpleScanProofs Verif.SimpleOpProofs.
Import ListNotations.
Open Scope Z_scope.
Open Scope res_scope.

Lemma wf_tiling : forall c s rs, wf c s rs -> tiling (bc s) rs.
Proof.
  intros c s rs W. split; [|apply (wf_coal _ _ _ W)].
  eapply tiles_contiguous. apply (wf_tiles _ _ _ W).
Qed.

Lemma tiling_unique : forall n rs rs', tiling n rs -> tiling n rs' -> busy rs = busy rs' -> rs = rs'.
Proof. intros n rs rs' [A B] [A' B'] E. eapply busy_determines; eauto. Qed.

Lemma freed_busy : forall l r t a n l' t', rbusy r = true -> freed l r t a n l' t' ->
  busy (l' ++ Reg a n false :: t') = busy l ++ busy t.
Proof.
  intros l r t a n l' t' B [X Y]. rewrite busy_app, busy_cons_free by auto. f_equal.
  - destruct X as [[-> _]|[x [-> [Bx _]]]]; auto. rewrite busy_app, busy_cons_free by auto.
    cbn. rewrite app_nil_r. auto.
  - destruct Y as [[-> _]|[y [-> [By _]]]]; auto. rewrite busy_cons_free; auto.
Qed.

Lemma served_busy : forall l f t k m, 
  busy (l ++ carve f k m ++ t) = busy l ++ Reg (rstart f + k) m true :: busy t.
Proof. intros. rewrite !busy_app, carve_busy. reflexivity. Qed.

(** * One call *)

Lemma served_step : forall c s rs l f t size align s' q ans, cfg_ok c -> wf c s rs ->
  0 < size -> first_fit (data s) (BS c) rs size align l f t -> served c s l f t size align s' q ->
  exists rs', wf c s' rs' /\ same_place s s' /\
    spec_step (data s) (BS c) (bc s) (has_up s) rs (OAllocate size align ans) rs' (EAllocate size align q []).
Proof.
  intros c s rs l f t size align s' q ans HC W Hs FF [F1 [F2 [k [K1 [K2 [K3 [W' [D1 [D2 [D3 _]]]]]]]]]].
  exists (l ++ carve f k (size / BS c + 1) ++ t). split; auto. split; [repeat split; auto|].
  apply spec_serve with l f t (rstart f + k); auto.
  - rewrite <- D2. apply wf_tiling with c. auto.
  - apply served_busy.
Qed.

Lemma region_count_fuel : forall c s rs fuel, wf c s rs -> (Z.to_nat (bc s) < fuel)%nat -> (length rs < fuel)%nat.
Proof.
  intros c s rs fuel W L. assert (R := regions_count _ _ _ _ _ _ _ (wf_tiles _ _ _ W)). lia.
Qed.

Lemma nothing_or_first : forall d b rs size align, 0 < align ->
  nothing_fits d b rs size align \/ exists l f t, first_fit d b rs size align l f t.
Proof.
  intros d b rs size align Ha. induction rs as [|r rs IH].
  - left. intros r [].
  - destruct (rbusy r) eqn:B; [|destruct (can_hold_dec d b r size align Ha) as [Y|N]].
    + destruct IH as [NF|[l [f [t [-> [F2 [F3 F4]]]]]]].
      * left. intros x [<-|I]; [congruence|]. auto.
      * right. exists (r :: l), f, t. split; auto. split; auto. split; auto.
        intros x [<-|I]; [congruence|]. auto.
    + right. exists [], r, rs. split; auto. split; auto. split; auto. intros x [].
    + destruct IH as [NF|[l [f [t [-> [F2 [F3 F4]]]]]]].
      * left. intros x [<-|I]; auto.
      * right. exists (r :: l), f, t. split; auto. split; auto. split; auto.
        intros x [<-|I]; auto.
Qed.

Lemma step_allocate : forall c s rs fuel size align ans, cfg_ok c -> wf c s rs ->
  ordinary_buffer (data s) (bc s * BS c) -> (Z.to_nat (bc s) < fuel)%nat ->
  0 < size -> pow2 align -> careful (data s) (BS c) (bc s) rs size align ->
  (has_up s = true -> answer_fits (BS c) (ans size align)) ->
  (nothing_fits (data s) (BS c) rs size align /\
   allocate_impl c fuel s size align ans =
     Ok (if has_up s then (s, ans size align, [UpAllocate size align]) else (s, 0, []))) \/
  exists l f t s' q, first_fit (data s) (BS c) rs size align l f t /\
    allocate_impl c fuel s size align ans = Ok (s', q, []) /\ served c s l f t size align s' q.
Proof.
  intros c s rs fuel size align ans HC W O L Hs Pa [C1 [C2 C3]] AF.
  assert (R : request size align) by (split; auto).
  destruct (request_align _ _ R) as [j [Hj [Ea Ha]]].
  assert (LF := region_count_fuel _ _ _ _ W L).
  destruct (nothing_or_first (data s) (BS c) rs size align Ha) as [NF|[l [f [t FF]]]].
  - left. split; auto. destruct (has_up s) eqn:U.
    + rewrite (allocate_up c s rs) by (auto; intros D; apply AF; auto). rewrite U. auto.
    + assert (E := allocate_up c s rs fuel size align (fun _ _ => 0) HC W R O C3 LF NF).
      rewrite U in E.
      assert (E0 : allocate_impl c fuel s size align (fun _ _ => 0) = Ok (s, 0, [])).
      { apply E. intros _. split; [split; [lia|reflexivity]|apply Z.divide_0_r]. }
      rewrite <- E0. unfold allocate_impl.
      destruct (size =? 0); auto. unfold cassert at 1. unfold cassert at 2.
      assert (SB := gate_value c s HC (wf_geom _ _ _ W) O).
      destruct SB as [m [SB _]]. rewrite SB.
      assert (X := proj1 (loop_safe c s size align HC R rs fuel 0 W C3 LF) NF). rewrite X.
      destruct (align <=? m); cbn [bind]; rewrite Z.eqb_refl, U; reflexivity.
  - right. exists l, f, t.
    destruct C2 as [C2|C2].
    + destruct (allocate_serve c s rs fuel size align ans l f t) as [s' [q [E S]]]; auto.
      exists s', q. auto.
    + exfalso. destruct FF as [-> [F2 [F3 _]]]. apply (C2 f); auto. apply in_app_iff. right. left. auto.
Qed.

Lemma step_careful : forall c s rs fuel o, cfg_ok c -> wf c s rs ->
  ordinary_buffer (data s) (bc s * BS c) -> (Z.to_nat (bc s) < fuel)%nat ->
  valid_op (data s) (BS c) (bc s) (has_up s) false (careful (data s) (BS c) (bc s)) any_order rs o ->
  exists s' rs' e, step c fuel s o = Ok (s', e) /\ wf c s' rs' /\ same_place s s' /\
    spec_step (data s) (BS c) (bc s) (has_up s) rs o rs' e.
Proof.
  intros c s rs fuel o HC W O L V. destruct o as [size align ans|p|]; cbn [valid_op] in V.
  - destruct V as [->|[V1 [V2 [V3 V4]]]].
    + exists s, rs, (EAllocate 0 align 0 []). cbn [step]. rewrite allocate_zero. cbn [bind].
      split; auto. split; auto. split; [repeat split|]. constructor.
    + destruct (step_allocate c s rs fuel size align ans HC W O L V1 V2 V3 V4)
        as [[NF E]|[l [f [t [s' [q [FF [E S]]]]]]]].
      * cbn [step]. rewrite E. destruct (has_up s) eqn:U; cbn [bind]; eexists s, rs, _;
          (split; [reflexivity|]); (split; [auto|]); (split; [repeat split|]).
        -- apply spec_pass_on; auto.
        -- apply spec_refuse; auto.
      * destruct (served_step c s rs l f t size align s' q ans HC W V1 FF S) as [rs' [W' [SP ST]]].
        cbn [step]. rewrite E. cbn [bind]. exists s', rs', (EAllocate size align q []). auto.
  - cbn [step]. destruct V as [->|[[r [I [B [_ E]]]]|[V1 [V2 [V3 V4]]]]].
    + rewrite deallocate_null. cbn [bind]. exists s, rs, (EDeallocate 0 []).
      split; auto. split; auto. split; [repeat split|]. constructor.
    + destruct (in_split _ _ I) as [l [t Ers]]. subst rs p.
      destruct (deallocate_live c s l r t HC W B) as [s' [a [n [l' [t' [E1 [W' [F [D1 [D2 [D3 _]]]]]]]]]]].
      unfold addr in E1. rewrite E1. cbn [bind]. eexists s', _, _. split; [reflexivity|]. split; [exact W'|].
      split; [repeat split; auto|]. eapply spec_free; eauto.
      * rewrite <- D2. apply wf_tiling with c. auto.
      * eapply freed_busy; eauto.
    + rewrite deallocate_outside; auto; [|apply (wf_geom _ _ _ W)].
      assert (P := bs_pos c HC).
      assert (M : p mod BS c = 0) by (apply Z.mod_divide; [lia|auto]). rewrite M, V1. cbn [Z.eqb andb bind].
      eexists s, rs, _. split; [reflexivity|]. split; auto. split; [repeat split; auto|].
      apply spec_forward; auto. lia.
  - discriminate V.
Qed.

Lemma run_careful : forall c fuel ops s rs, cfg_ok c -> wf c s rs ->
  ordinary_buffer (data s) (bc s * BS c) -> (Z.to_nat (bc s) < fuel)%nat ->
  valid_client (data s) (BS c) (bc s) (has_up s) false (careful (data s) (BS c) (bc s)) any_order rs ops ->
  exists s' rs' es, run c fuel s ops = Ok (s', es) /\ wf c s' rs' /\ same_place s s' /\
    spec_run (data s) (BS c) (bc s) (has_up s) rs ops rs' es.
Proof.
  intros c fuel; induction ops as [|o ops IH]; intros s rs HC W O L V.
  - exists s, rs, []. split; auto. split; auto. split; [repeat split|constructor].
  - cbn [valid_client] in V. destruct V as [V1 V2].
    destruct (step_careful c s rs fuel o HC W O L V1) as [s1 [rs1 [e [E [W1 [[P1 [P2 P3]] ST]]]]]].
    specialize (V2 rs1 e ST).
    destruct (IH s1 rs1) as [s2 [rs2 [es [E2 [W2 [[Q1 [Q2 Q3]] SR]]]]]]; auto; try (rewrite ?P1, ?P2, ?P3; auto).
    exists s2, rs2, (e :: es). cbn [run]. rewrite E. cbn [bind]. rewrite E2. cbn [bind].
    split; auto. split; auto. split; [repeat split; congruence|].
    econstructor; [exact ST|]. rewrite P1, P2, P3 in SR. exact SR.
Qed.

(** * Live allocations of the ideal allocator *)

Definition live_inv (d b : Z) (rs : list region) (L : list alloc) : Prop :=
  Permutation (map fst L) (map (region_addr d b) (busy rs)) /\
  forall a, In a L -> exists r, In r (busy rs) /\ fst a = region_addr d b r /\ 0 < snd a <= rlen r * b.

Lemma contiguous_order : forall n rs a r1 r2, contiguous n a rs -> In r1 rs -> In r2 rs ->
  rstart r1 < rstart r2 -> rstart r1 + rlen r1 <= rstart r2.
Proof.
  intros n; induction rs as [|r rs IH]; intros a r1 r2 C I1 I2 H; [destruct I1|].
  cbn [contiguous] in C. destruct C as [C1 [C2 C3]]. destruct (contiguous_bounds _ _ _ C3) as [B1 B2].
  destruct I1 as [<-|I1]; destruct I2 as [<-|I2].
  - lia.
  - specialize (B2 r2 I2). lia.
  - specialize (B2 r1 I1). lia.
  - eapply IH; eauto.
Qed.

Lemma contiguous_start_inj : forall n rs a r1 r2, contiguous n a rs -> In r1 rs -> In r2 rs ->
  rstart r1 = rstart r2 -> r1 = r2.
Proof.
  intros n; induction rs as [|r rs IH]; intros a r1 r2 C I1 I2 H; [destruct I1|].
  cbn [contiguous] in C. destruct C as [C1 [C2 C3]]. destruct (contiguous_bounds _ _ _ C3) as [B1 B2].
  destruct I1 as [<-|I1]; destruct I2 as [<-|I2]; auto.
  - specialize (B2 r2 I2). lia.
  - specialize (B2 r1 I1). lia.
  - eapply IH; eauto.
Qed.

Lemma contiguous_adjacent : forall n l a f y t, contiguous n a (l ++ f :: y :: t) ->
  rstart y = rstart f + rlen f /\ 0 < rlen f.
Proof.
  intros n; induction l as [|x l IH]; intros a f y t C; cbn [app contiguous] in C.
  - destruct C as [C1 [C2 [C3 _]]]. lia.
  - destruct C as [_ [_ C]]. eapply IH; eauto.
Qed.

Lemma contiguous_nodup : forall n rs a, contiguous n a rs -> NoDup (map rstart rs).
Proof.
  intros n; induction rs as [|r rs IH]; intros a C; cbn [map]; [constructor|].
  cbn [contiguous] in C. destruct C as [C1 [C2 C3]]. constructor; [|eapply IH; eauto].
  intros I. apply in_map_iff in I. destruct I as [x [E I]].
  destruct (contiguous_bounds _ _ _ C3) as [B1 B2]. specialize (B2 x I). lia.
Qed.

Lemma in_busy : forall rs r, In r (busy rs) <-> In r rs /\ rbusy r = true.
Proof. intros. apply filter_In. Qed.

Lemma busy_nodup : forall n d b rs, 0 < b -> contiguous n 0 rs -> NoDup (map (region_addr d b) (busy rs)).
Proof.
  intros n d b rs Hb C. assert (N := contiguous_nodup _ _ _ C). clear C.
  induction rs as [|r rs IH]; [constructor|]. cbn [map] in N. inversion N as [|x l N1 N2]; subst.
  unfold busy. cbn [filter]. destruct (rbusy r); [|apply IH; auto]. cbn [map]. constructor; [|apply IH; auto].
  intros I. apply in_map_iff in I. destruct I as [y [E I]]. apply filter_In in I.
  apply N1. apply in_map_iff. exists y. split; [|apply I]. unfold region_addr in E. nia.
Qed.

Lemma remove_ptr_perm : forall p L, In p (map fst L) ->
  Permutation (map fst L) (p :: map fst (remove_ptr p L)) /\ incl (remove_ptr p L) L.
Proof.
  intros p; induction L as [|a L IH]; intros I; [destruct I|]. cbn [remove_ptr].
  destruct (Z.eqb_spec (fst a) p) as [E|N].
  - subst p. split; [reflexivity|]. apply incl_tl, incl_refl.
  - cbn [map] in I. destruct I as [E|I]; [congruence|]. destruct (IH I) as [P Q]. split.
    + cbn [map]. rewrite P. apply perm_swap.
    + intros x [<-|X]; [left; auto|right; auto].
Qed.

Lemma remove_ptr_absent : forall p L, ~ In p (map fst L) -> remove_ptr p L = L.
Proof.
  intros p; induction L as [|a L IH]; intros N; auto. cbn [remove_ptr map] in *.
  destruct (Z.eqb_spec (fst a) p) as [E|E]; [exfalso; apply N; left; auto|].
  f_equal. apply IH. intros I. apply N. right. auto.
Qed.

Lemma spec_step_tiling : forall d b n up rs o rs' e, 1 <= n -> tiling n rs ->
  spec_step d b n up rs o rs' e -> tiling n rs'.
Proof.
  intros d b n up rs o rs' e Hn T S; destruct S; auto.
  split; [cbn; lia|apply coalesced_single].
Qed.

Lemma spec_step_live : forall d b n up rs o rs' e L, 0 < d -> 0 < b -> 1 <= n -> tiling n rs ->
  live_inv d b rs L -> spec_step d b n up rs o rs' e -> live_inv d b rs' (live_after L e).
Proof.
  intros d b n up rs o rs' e L Hd Hb Hn T LI S. assert (T' := spec_step_tiling _ _ _ _ _ _ _ _ Hn T S).
  destruct S as [rs align ans|rs size align ans l f t q i rs' Hs FF FA Q T1 E|rs size align ans Hs NF U
    |rs size align ans Hs NF U|rs|rs l r t rs' E1 B T1 E|rs p Hp Ho U|rs]; cbn [live_after]; auto.
  - (* served *)
    destruct FF as [-> [F2 [F3 F4]]].
    assert (Q0 : 0 < q).
    { destruct FA as [A _]. destruct T as [C _].
      destruct (contiguous_bounds _ _ _ C) as [_ CB]. specialize (CB f ltac:(apply in_app_iff; right; left; auto)).
      unfold region_addr in A. nia. }
    rewrite eqb_false by lia. destruct LI as [LP LA].
    rewrite busy_app, busy_cons_free in LP, LA by auto. unfold live_inv. rewrite E. split.
    + cbn [map fst]. rewrite LP, !map_app. cbn [map]. replace (region_addr d b (Reg i (size / b + 1) true)) with q
        by (unfold region_addr; cbn [rstart]; auto).
      apply Permutation_middle.
    + intros a [<-|I].
      * exists (Reg i (size / b + 1) true). split; [apply in_app_iff; right; left; auto|].
        split; [exact Q|]. cbn [snd rlen]. split; auto.
        assert (X := Z.mul_succ_div_gt size b Hb). unfold Z.succ in X. lia.
      * destruct (LA a I) as [r [I' X]]. exists r. split; auto.
        apply in_app_iff in I'. apply in_app_iff. destruct I'; auto. right. right. auto.
  - (* null *)
    rewrite remove_ptr_absent; auto. intros I. destruct LI as [LP _].
    apply (Permutation_in _ LP) in I. apply in_map_iff in I. destruct I as [r [E I]].
    apply in_busy in I. destruct T as [C _]. destruct (contiguous_bounds _ _ _ C) as [_ CB].
    specialize (CB r (proj1 I)). unfold region_addr in E. nia.
  - (* freed *)
    subst rs. destruct LI as [LP LA]. set (p := region_addr d b r) in *.
    assert (EB : busy (l ++ r :: t) = busy l ++ r :: busy t) by (rewrite busy_app, busy_cons_busy; auto).
    rewrite EB in LP, LA.
    assert (I : In p (map fst L)).
    { apply (Permutation_in _ (Permutation_sym LP)). rewrite map_app. apply in_app_iff. right. left. auto. }
    destruct (remove_ptr_perm p L I) as [RP RI].
    assert (LP' : Permutation (map fst (remove_ptr p L)) (map (region_addr d b) (busy rs'))).
    { rewrite E, map_app. rewrite RP, map_app in LP. cbn [map] in LP.
      apply Permutation_cons_app_inv in LP. auto. }
    split; auto. intros a Ia. destruct (LA a (RI a Ia)) as [r' [I' [X Y]]]. exists r'. split; auto.
    rewrite E. apply in_app_iff in I'. apply in_app_iff. destruct I' as [I'|[<-|I']]; auto.
    exfalso. fold p in X.
    assert (ND : NoDup (map fst L)).
    { apply (Permutation_NoDup (Permutation_sym LP)). rewrite <- EB. apply busy_nodup with n; auto. apply T. }
    apply (Permutation_NoDup RP) in ND. inversion ND as [|x y N1 N2]; subst. apply N1.
    assert (IM := in_map fst _ _ Ia). rewrite X in IM. exact IM.
  - (* released *)
    split; [reflexivity|]. intros a [].
Qed.

Lemma spec_run_live : forall d b n up ops rs rs' es L, 0 < d -> 0 < b -> 1 <= n -> tiling n rs ->
  live_inv d b rs L -> spec_run d b n up rs ops rs' es ->
  tiling n rs' /\ live_inv d b rs' (fold_left live_after es L).
Proof.
  intros d b n up; induction ops as [|o ops IH]; intros rs rs' es L Hd Hb Hn T LI S;
    inversion S as [|x1 x2 x3 x4 x5 x6 x7 S1 S2]; subst; auto.
  cbn [fold_left]. eapply IH; try exact S2; auto.
  - eapply spec_step_tiling; eauto.
  - eapply spec_step_live; eauto.
Qed.

Lemma live_inv_nodup : forall n d b rs L, 0 < b -> tiling n rs -> live_inv d b rs L -> NoDup (map fst L).
Proof.
  intros n d b rs L Hb [C _] [LP _]. apply (Permutation_NoDup (Permutation_sym LP)).
  apply busy_nodup with n; auto.
Qed.

Lemma live_inv_disjoint : forall n d b rs L, 0 < b -> tiling n rs -> live_inv d b rs L -> pairwise_disjoint L.
Proof.
  intros n d b rs L Hb T LI l1 a l2 a' l3 E.
  assert (ND := live_inv_nodup _ _ _ _ _ Hb T LI). destruct T as [C _]. destruct LI as [_ LA].
  destruct (LA a) as [r [I [X Y]]]; [rewrite E; apply in_app_iff; right; left; auto|].
  destruct (LA a') as [r' [I' [X' Y']]].
  { rewrite E. apply in_app_iff. right. right. apply in_app_iff. right. left. auto. }
  apply in_busy in I. apply in_busy in I'.
  assert (NE : fst a <> fst a').
  { intros EQ. rewrite E, map_app in ND. cbn [map] in ND. rewrite map_app in ND. cbn [map] in ND.
    apply NoDup_remove_2 in ND. apply ND. rewrite EQ. apply in_app_iff. right. apply in_app_iff. right. left. auto. }
  unfold disjoint. unfold region_addr in X, X'.
  assert (NR : rstart r <> rstart r') by (intros EQ; rewrite EQ in X; congruence).
  destruct (Z_lt_le_dec (rstart r) (rstart r')) as [H|H].
  - left. assert (O := contiguous_order _ _ _ _ _ C (proj1 I) (proj1 I') H). nia.
  - right. assert (O := contiguous_order _ _ _ r' r C (proj1 I') (proj1 I) ltac:(lia)). nia.
Qed.

Lemma live_inv_bounds : forall n d b rs L, 0 < b -> tiling n rs -> live_inv d b rs L ->
  forall a, In a L -> in_bounds d (d + n * b) a.
Proof.
  intros n d b rs L Hb [C _] [_ LA] a I. destruct (LA a I) as [r [Ir [X Y]]]. apply in_busy in Ir.
  destruct (contiguous_bounds _ _ _ C) as [_ CB]. specialize (CB r (proj1 Ir)).
  unfold in_bounds. unfold region_addr in X. nia.
Qed.

Lemma live_inv_count : forall d b rs L, live_inv d b rs L -> length L = length (busy rs).
Proof. intros d b rs L [LP _]. apply Permutation_length in LP. rewrite !map_length in LP. auto. Qed.

Lemma live_inv_start : forall d b n, live_inv d b [Reg 0 n false] [].
Proof. intros. split; [reflexivity|]. intros a []. Qed.

(** * Clients for which the search is always right *)

Lemma valid_client_mono : forall d b n up rel rel' (A A' : list region -> Z -> Z -> Prop)
    (M M' : list region -> region -> Prop) (I : list region -> Prop) ops rs,
  (rel = true -> rel' = true) ->
  (forall rs o rs' e, I rs -> valid_op d b n up rel A M rs o -> spec_step d b n up rs o rs' e -> I rs') ->
  (forall rs size align, I rs -> 0 < size -> pow2 align -> A rs size align -> A' rs size align) ->
  (forall rs r, I rs -> In r rs -> rbusy r = true -> M rs r -> M' rs r) ->
  I rs -> valid_client d b n up rel A M rs ops -> valid_client d b n up rel' A' M' rs ops.
Proof.
  intros d b n up rel rel' A A' M M' I; induction ops as [|o ops IH]; intros rs HR HI HA HM Hrs V; auto.
  cbn [valid_client] in *. destruct V as [V1 V2]. split.
  - destruct o; cbn [valid_op] in *; auto.
    + destruct V1 as [V1|[X1 [X2 [X3 X4]]]]; auto. right. repeat (split; auto).
    + destruct V1 as [V1|[[r [X1 [X2 [X3 X4]]]]|V1]]; auto. right. left. exists r. auto.
  - intros rs' e S. apply IH; auto; [eapply HI; eauto|eapply V2; eauto].
Qed.

(** ** fixed-size pools *)

Definition pool_inv (n k : Z) (rs : list region) : Prop :=
  tiling n rs /\ forall r, In r rs -> rbusy r = true -> rlen r = k /\ (k | rstart r).

Lemma pool_starts : forall n k rs a, contiguous n a rs -> coalesced rs -> (k | a) ->
  (forall r, In r rs -> rbusy r = true -> rlen r = k /\ (k | rstart r)) ->
  forall r, In r rs -> (k | rstart r).
Proof.
  intros n k; induction rs as [|x rs IH]; intros a C K D H r I; [destruct I|].
  cbn [contiguous] in C. destruct C as [C1 [C2 C3]]. destruct I as [<-|I]; [rewrite C1; auto|].
  apply (IH (a + rlen x)); auto.
  - eapply coalesced_tail; eauto.
  - destruct (rbusy x) eqn:B.
    + destruct (H x (or_introl eq_refl) B) as [-> _]. apply Z.divide_add_r; auto. apply Z.divide_refl.
    + destruct rs as [|y rs]; [destruct I|]. cbn [contiguous] in C3.
      destruct (coalesced_head _ _ _ K) as [B'|B']; [congruence|].
      destruct (H y (or_intror (or_introl eq_refl)) B') as [_ DY]. destruct C3 as [<- _]. auto.
  - intros r' I' B'. apply H; auto. right. auto.
Qed.

Lemma small_align_skip : forall d b r align, 0 < align -> (align | b) -> (b | d) ->
  skip_of (region_addr d b r) align = 0.
Proof.
  intros d b r align H D1 D2. unfold skip_of. apply Z.mod_divide; [lia|]. apply Z.divide_opp_r.
  apply Z.divide_trans with b; auto. unfold region_addr. apply Z.divide_add_r; auto. apply Z.divide_factor_r.
Qed.

Lemma pow2_le_divide : forall a b, pow2 a -> pow2 b -> a <= b -> (a | b).
Proof.
  intros a b [i [Hi ->]] [j [Hj ->]] L. apply pow2_divide. split; auto.
  apply Z.pow_le_mono_r_iff with (a := 2); lia.
Qed.

Lemma pow2_gt_0 : forall a, pow2 a -> 0 < a.
Proof. intros a [k [Hk ->]]. apply pow2_pos; auto. Qed.

Lemma first_aligned_value : forall d b f align q i, 0 < b -> 0 < align -> (align | b) -> (b | d) ->
  first_aligned d b f align q -> q = d + i * b -> i = rstart f.
Proof.
  intros d b f align q i Hb Ha D1 D2 [F1 [F2 F3]] E.
  assert (X := F3 (region_addr d b f) ltac:(lia)).
  assert (Y : q <= region_addr d b f).
  { apply X. assert (Z := skip_aligned (region_addr d b f) align Ha). rewrite small_align_skip in Z by auto.
    rewrite Z.add_0_r in Z. auto. }
  unfold region_addr in *. nia.
Qed.

Lemma pool_step : forall d b n up rel k rs o rs' e, 0 < b -> pow2 b -> (b | d) -> 1 <= n -> 0 < k ->
  pool_inv n k rs -> valid_op d b n up rel (pool_request b k) any_order rs o ->
  spec_step d b n up rs o rs' e -> pool_inv n k rs'.
Proof.
  intros d b n up rel k rs o rs' e Hb Pb Db Hn Hk [T H] V S.
  assert (T' := spec_step_tiling _ _ _ _ _ _ _ _ Hn T S). split; auto.
  destruct S as [rs align ans|rs size align ans l f t q i rs' Hs FF FA Q T1 E|rs size align ans Hs NF U
    |rs size align ans Hs NF U|rs|rs l r t rs' E1 B T1 E|rs p Hp Ho U|rs]; auto.
  - cbn [valid_op] in V. destruct V as [V|[V1 [V2 [[V3 V5] V4]]]]; [lia|].
    intros r I B. assert (IB : In r (busy rs')) by (apply in_busy; auto). rewrite E in IB.
    destruct FF as [-> [F2 [F3 F4]]].
    apply in_app_iff in IB. destruct IB as [IB|[<-|IB]].
    + apply in_busy in IB. apply H; [|apply IB]. apply in_app_iff. left. apply IB.
    + cbn [rlen rstart]. assert (X : size / b = k - 1).
      { symmetry. apply Z.div_unique with (size - (k - 1) * b); lia. }
      split; [lia|].
      rewrite (first_aligned_value d b f align q i); auto.
      * destruct T as [C K]. apply (pool_starts n k (l ++ f :: t) 0); auto; [apply Z.divide_0_r|].
        apply in_app_iff. right. left. auto.
      * apply pow2_gt_0; auto.
      * apply pow2_le_divide; auto.
    + apply in_busy in IB. apply H; [|apply IB]. apply in_app_iff. right. right. apply IB.
  - intros x I Bx. assert (IB : In x (busy rs')) by (apply in_busy; auto). rewrite E in IB. subst rs.
    apply in_app_iff in IB. destruct IB as [IB|IB]; apply in_busy in IB; apply H; try apply IB;
      apply in_app_iff; [left|right; right]; apply IB.
  - intros r [<-|[]] B. discriminate B.
Qed.

Lemma pool_careful : forall d b n k rs size align, 0 < d -> 0 < b -> pow2 b -> (b | d) -> 1 <= n -> 0 < k ->
  k * b + b <= 2 ^ 64 -> pool_inv n k rs -> 0 < size -> pow2 align ->
  pool_request b k rs size align -> careful d b n rs size align.
Proof.
  intros d b n k rs size align Hd Hb Pb Db Hn Hk Hkb [[C K] H] Hs Pa [R1 R2].
  assert (Ha := pow2_gt_0 _ Pa). assert (Da := pow2_le_divide _ _ Pa Pb R2).
  assert (SK := fun r => small_align_skip d b r align Ha Da Db).
  assert (ST := pool_starts n k rs 0 C K ltac:(apply Z.divide_0_r) H).
  split; [lia|]. split; [left; apply reach_divides; auto; [nia|eapply Z.divide_trans; eauto]|]. split.
  - intros l f t E F NF. destruct t as [|y t]; [left; auto|]. exfalso.
    apply (NF f); auto; [apply in_app_iff; right; left; auto|].
    rewrite can_hold_skip by auto. rewrite SK. rewrite E in C, K, H, ST.
    assert (I1 : In f (l ++ f :: y :: t)) by (apply in_app_iff; right; left; auto).
    assert (I2 : In y (l ++ f :: y :: t)) by (apply in_app_iff; right; right; left; auto).
    assert (EY : rstart y = rstart f + rlen f /\ 0 < rlen f).
    { eapply contiguous_adjacent; eauto. }
    destruct (ST f I1) as [u Hu]. destruct (ST y I2) as [v Hv].
    assert (UV : u < v).
    { destruct (Z_lt_le_dec u v); auto. assert (v * k <= u * k) by (apply Z.mul_le_mono_nonneg_r; lia). lia. }
    assert ((u + 1) * k <= v * k) by (apply Z.mul_le_mono_nonneg_r; lia).
    assert (KL : k <= rlen f) by lia.
    assert (k * b <= rlen f * b) by (apply Z.mul_le_mono_nonneg_r; lia). lia.
  - intros l f t [E [F [CH NL]]]. rewrite can_hold_skip in CH by auto. rewrite can_hold_spare_skip by auto.
    rewrite SK in *.
    assert (KL : k <= rlen f).
    { destruct (Z_le_gt_dec k (rlen f)); auto.
      assert (rlen f * b <= (k - 1) * b) by (apply Z.mul_le_mono_nonneg_r; lia). lia. }
    assert (k * b <= rlen f * b) by (apply Z.mul_le_mono_nonneg_r; lia). lia.
Qed.

Lemma pool_valid : forall d b n up k rs ops, 0 < d -> 0 < b -> pow2 b -> (b | d) -> 1 <= n -> 0 < k ->
  k * b + b <= 2 ^ 64 -> pool_inv n k rs ->
  valid_client d b n up false (pool_request b k) any_order rs ops ->
  valid_client d b n up false (careful d b n) any_order rs ops.
Proof.
  intros d b n up k rs ops Hd Hb Pb Db Hn Hk Hkb I V.
  apply valid_client_mono with (5 := I) (6 := V); auto.
  - intros rs0 o rs' e H H0 H1. apply (pool_step d b n up false k rs0 o rs' e); auto.
  - intros rs0 size align H H0 H1 H2. apply (pool_careful d b n k); auto.
Qed.

Lemma pool_start : forall n k, 1 <= n -> pool_inv n k [Reg 0 n false].
Proof.
  intros n k H. split; [split; [cbn; lia|apply coalesced_single]|]. intros r [<-|[]] B. discriminate B.
Qed.

(** ** last in, first out *)

Definition stack_inv (n : Z) (rs : list region) : Prop :=
  tiling n rs /\ exists m, contiguous m 0 (busy rs) /\ m <= n.

Lemma contiguous_app : forall l t n a, contiguous n a (l ++ t) <->
  exists m, contiguous m a l /\ contiguous n m t.
Proof.
  induction l as [|x l IH]; intros t n a; cbn [app contiguous].
  - split; [intros H; exists a; auto|intros [m [-> H]]; auto].
  - split.
    + intros [H1 [H2 H3]]. apply IH in H3. destruct H3 as [m [H4 H5]]. exists m. auto.
    + intros [m [[H1 [H2 H3]] H4]]. split; auto. split; auto. apply IH. exists m. auto.
Qed.

Lemma busy_all : forall rs r, In r (busy rs) -> rbusy r = true.
Proof. intros rs r I. apply in_busy in I. apply I. Qed.
Lemma busy_busy : forall rs, busy (busy rs) = busy rs.
Proof.
  induction rs as [|r rs IH]; auto. destruct (rbusy r) eqn:B.
  - rewrite busy_cons_busy by auto. rewrite busy_cons_busy by auto. f_equal. auto.
  - rewrite busy_cons_free by auto. auto.
Qed.
Lemma coalesced_busy : forall rs, coalesced (busy rs).
Proof.
  intros rs l r1 r2 t E. left. apply busy_all with rs. rewrite E. apply in_app_iff. right. left. auto.
Qed.

Lemma stack_shape : forall n rs m, tiling n rs -> contiguous m 0 (busy rs) -> m <= n ->
  rs = busy rs ++ (if m =? n then [] else [Reg m (n - m) false]).
Proof.
  intros n rs m T C L. apply tiling_unique with n; auto.
  - destruct (Z.eqb_spec m n) as [->|N].
    + rewrite app_nil_r. split; auto. apply coalesced_busy.
    + split.
      * apply contiguous_app. exists m. split; auto. cbn. lia.
      * apply coalesced_app; [apply coalesced_busy|apply coalesced_single|].
        intros l' r1 r2 t' E1 E2. left. apply busy_all with rs. rewrite E1. apply in_app_iff. right. left. auto.
  - rewrite busy_app, busy_busy. destruct (m =? n); cbn; rewrite app_nil_r; auto.
Qed.

Lemma stack_free_last : forall n rs m l f t, tiling n rs -> contiguous m 0 (busy rs) -> m <= n ->
  rs = l ++ f :: t -> rbusy f = false -> t = [] /\ l = busy rs /\ f = Reg m (n - m) false.
Proof.
  intros n rs m l f t T C L E F. assert (SH := stack_shape n rs m T C L).
  destruct (m =? n).
  - rewrite app_nil_r in SH. exfalso. assert (rbusy f = true); [|congruence].
    apply busy_all with rs. rewrite <- SH, E. apply in_app_iff. right. left. auto.
  - rewrite SH in E at 1.
    destruct (split_unique_first _ _ _ _ _ _ (fun r => rbusy r = false) E) as [E1 [E2 E3]]; auto.
    + intros r I. assert (X := busy_all _ _ I). congruence.
    + intros r I. destruct t as [|y t].
      * assert (E' := E). apply app_inj_tail in E'. destruct E' as [E' _]. rewrite <- E' in I.
        assert (X := busy_all _ _ I). congruence.
      * destruct (exists_last (l := y :: t)) as [t' [z Ez]]; [discriminate|].
        rewrite Ez in E. rewrite app_comm_cons, app_assoc in E. apply app_inj_tail in E. destruct E as [E _].
        assert (X : In f (busy rs)) by (rewrite E; apply in_app_iff; right; left; auto).
        apply busy_all in X. congruence.
Qed.

Lemma stack_step : forall d b n up rel rs o rs' e, 0 < d -> 0 < b -> pow2 b -> (b | d) -> 1 <= n ->
  stack_inv n rs -> valid_op d b n up rel (odd_request b) last_first rs o ->
  spec_step d b n up rs o rs' e -> stack_inv n rs'.
Proof.
  intros d b n up rel rs o rs' e Hd Hb Pb Db Hn [T [m [C L]]] V S.
  assert (T' := spec_step_tiling _ _ _ _ _ _ _ _ Hn T S). split; auto.
  destruct S as [rs align ans|rs size align ans l f t q i rs' Hs FF FA Q T1 E|rs size align ans Hs NF U
    |rs size align ans Hs NF U|rs|rs l r t rs' E1 B T1 E|rs p Hp Ho U|rs];
    try (exists m; split; assumption).
  - cbn [valid_op] in V. destruct V as [V|[V1 [V2 [[V3 [V5 V6]] V4]]]]; [lia|].
    destruct FF as [E0 [F2 [F3 F4]]].
    destruct (stack_free_last n rs m l f t T C L E0 F2) as [-> [-> ->]].
    assert (Ha := pow2_gt_0 _ V2).
    assert (Ei := first_aligned_value _ _ _ _ _ _ Hb Ha (pow2_le_divide _ _ V2 Pb V5) Db FA Q).
    cbn [rstart] in Ei. subst i. exists (m + (size / b + 1)).
    assert (D0 : 0 <= size / b) by (apply Z.div_pos; lia).
    rewrite E, busy_busy. cbn [busy filter]. split.
    + apply contiguous_app. exists m. split; auto. cbn. lia.
    + destruct T' as [C' _]. destruct (contiguous_bounds _ _ _ C') as [_ CB].
      specialize (CB (Reg m (size / b + 1) true)). cbn [rstart rlen] in CB. apply CB.
      apply (proj1 (in_busy rs' _)). rewrite E. apply in_app_iff. right. left. auto.
  - cbn [valid_op] in V. assert (EB : busy rs = busy l ++ r :: busy t) by (rewrite E1, busy_app, busy_cons_busy; auto).
    assert (RP : 0 < region_addr d b r /\ d <= region_addr d b r < d + n * b).
    { destruct T as [CT _]. destruct (contiguous_bounds _ _ _ CT) as [_ CB].
      specialize (CB r ltac:(rewrite E1; apply in_app_iff; right; left; auto)).
      unfold region_addr. nia. }
    assert (TE : busy t = []).
    { destruct V as [V|[[r' [I' [B' [M' E']]]]|[_ [_ [_ V]]]]]; [lia| |lia].
      assert (RR : rstart r' = rstart r) by (unfold region_addr in E'; nia).
      destruct (busy t) as [|y u] eqn:EY; auto. exfalso.
      assert (IY : In y rs).
      { rewrite E1. apply in_app_iff. right. right. apply (proj1 (in_busy t y)). rewrite EY. left. auto. }
      assert (BY : rbusy y = true) by (apply busy_all with t; rewrite EY; left; auto).
      assert (X := M' y IY BY).
      rewrite EB in C. apply contiguous_app in C. destruct C as [m' [_ C]].
      cbn [contiguous] in C. lia. }
    rewrite EB, TE in C. rewrite TE, app_nil_r in E. rewrite E. apply contiguous_app in C.
    destruct C as [m' [C1 C2]]. exists m'. split; auto. cbn [contiguous] in C2. lia.
  - exists 0. cbn. split; auto. lia.
Qed.

Lemma stack_careful : forall d b n rs size align, 0 < d -> 0 < b -> pow2 b -> (b | d) -> 1 <= n ->
  stack_inv n rs -> 0 < size -> pow2 align -> odd_request b rs size align ->
  careful d b n rs size align.
Proof.
  intros d b n rs size align Hd Hb Pb Db Hn [T [m [C L]]] Hs Pa [R1 [R2 R3]].
  assert (Ha := pow2_gt_0 _ Pa). assert (Da := pow2_le_divide _ _ Pa Pb R2).
  assert (SK := fun r => small_align_skip d b r align Ha Da Db).
  split; [lia|]. split; [left; apply reach_divides; auto; [nia|eapply Z.divide_trans; eauto]|]. split.
  - intros l f t E F NF. left. apply (stack_free_last n rs m l f t T C L E F).
  - intros l f t [E [F [CH NL]]]. rewrite can_hold_skip in CH by auto. rewrite can_hold_spare_skip by auto.
    rewrite SK in *. destruct (Z.eq_dec size (rlen f * b)) as [Q|Q]; [|lia].
    exfalso. apply R3. exists (rlen f). auto.
Qed.

Lemma stack_valid : forall d b n up rs ops, 0 < d -> 0 < b -> pow2 b -> (b | d) -> 1 <= n ->
  stack_inv n rs ->
  valid_client d b n up false (odd_request b) last_first rs ops ->
  valid_client d b n up false (careful d b n) any_order rs ops.
Proof.
  intros d b n up rs ops Hd Hb Pb Db Hn I V.
  apply valid_client_mono with (5 := I) (6 := V); auto.
  - intros rs0 o rs' e H H0 H1. apply (stack_step d b n up false rs0 o rs' e); auto.
  - intros rs0 size align H H0 H1 H2. apply stack_careful; auto.
  - intros. exact Logic.I.
Qed.

Lemma stack_start : forall n, 1 <= n -> stack_inv n [Reg 0 n false].
Proof.
  intros n H. split; [split; [cbn; lia|apply coalesced_single]|]. exists 0. cbn. lia.
Qed.
