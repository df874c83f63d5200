(** Lemmas about how many requests find room in a buffer (C149). *)

Require Import ZArith Lia List Bool Permutation.
Require Import Verif.Outcome Verif.Machine Verif.BitsSpec Verif.BitsProofs.
Require Import Verif.SimpleModel Verif.SimpleSpec Verif.SimpleView Verif.SimpleProofs Verif.SimpleScanProofs Verif.SimpleAllocProofs Verif.SimpleOpProofs
  Verif.SimpleHistProofs Verif.SimpleMainProofs Verif.SimpleExactProofs.
Require Import Verif.MonoModel Verif.MonoSpec Verif.MonoProofs Verif.RoomSpec.
Import ListNotations.
Open Scope Z_scope.
Open Scope res_scope.

(** * Regions *)

Definition total (rs : list region) : Z := fold_right (fun r t => rlen r + t) 0 rs.

Lemma total_nil : total [] = 0. Proof. reflexivity. Qed.
Lemma total_cons : forall r l, total (r :: l) = rlen r + total l. Proof. reflexivity. Qed.

Lemma total_app : forall l t, total (l ++ t) = total l + total t.
Proof. induction l as [|x l IH]; intros t; cbn [app]; [reflexivity|]. rewrite !total_cons, IH. lia. Qed.

Lemma total_contiguous : forall n rs a, contiguous n a rs -> total rs = n - a.
Proof.
  intros n; induction rs as [|r rs IH]; intros a C; cbn [contiguous] in *; [rewrite total_nil; lia|].
  destruct C as [_ [_ C]]. rewrite total_cons, (IH _ C). lia.
Qed.

Lemma total_split : forall rs, total rs = total (busy rs) + total (free rs).
Proof.
  induction rs as [|r rs IH]; [reflexivity|]. cbn [busy free filter]. fold (busy rs) (free rs).
  rewrite total_cons, IH. destruct (rbusy r); cbn [negb]; rewrite total_cons; lia.
Qed.

Lemma total_free : forall n rs, tiling n rs -> total (free rs) = n - total (busy rs).
Proof. intros n rs [C _]. assert (X := total_contiguous _ _ _ C). rewrite total_split in X. lia. Qed.

(** the live allocations take the blocks of the busy regions *)
Definition exact_inv (d b : Z) (rs : list region) (L : list alloc) : Prop :=
  Permutation (map (fun a => (fst a, given b (snd a))) L) (map (fun r => (region_addr d b r, rlen r)) (busy rs)).

Lemma taken_total : forall d b rs L, exact_inv d b rs L -> taken b L = total (busy rs) /\ length L = length (busy rs).
Proof.
  intros d b rs L P. split.
  - assert (X : forall l : list (Z * Z), fold_right (fun x t => snd x + t) 0 l = fold_right Z.add 0 (map snd l)).
    { induction l as [|x l IH]; [reflexivity|]. cbn [fold_right map]. rewrite IH. reflexivity. }
    assert (Y : taken b L = fold_right (fun x t => snd x + t) 0 (map (fun a => (fst a, given b (snd a))) L)).
    { unfold taken. clear. induction L as [|a L IH]; [reflexivity|]. cbn [fold_right map snd]. rewrite IH. reflexivity. }
    assert (Z : total (busy rs) = fold_right (fun x t => snd x + t) 0 (map (fun r => (region_addr d b r, rlen r)) (busy rs))).
    { unfold total. clear. induction (busy rs) as [|a L IH]; [reflexivity|]. cbn [fold_right map snd]. rewrite IH. reflexivity. }
    rewrite Y, Z. clear Y Z X. unfold exact_inv in P.
    induction P; cbn [fold_right]; lia.
  - apply Permutation_length in P. rewrite !map_length in P. exact P.
Qed.

Lemma remove_exact : forall b p L, In p (map fst L) -> exists a, fst a = p /\
  Permutation (map (fun a => (fst a, given b (snd a))) L)
    ((p, given b (snd a)) :: map (fun a => (fst a, given b (snd a))) (remove_ptr p L)).
Proof.
  intros b p; induction L as [|x L IH]; intros I; [destruct I|]. cbn [remove_ptr map] in *.
  destruct (Z.eqb_spec (fst x) p) as [E|E].
  - exists x. split; [exact E|]. rewrite E. reflexivity.
  - destruct I as [I|I]; [contradiction|]. destruct (IH I) as [a [E1 P]]. exists a. split; [exact E1|].
    cbn [map]. rewrite P. apply perm_swap.
Qed.

Lemma exact_keys : forall d b rs L, exact_inv d b rs L -> Permutation (map fst L) (map (region_addr d b) (busy rs)).
Proof.
  intros d b rs L P. apply (Permutation_map fst) in P. rewrite !map_map in P. cbn [fst] in P. exact P.
Qed.

Lemma exact_step : forall d b n up rs o rs' e L, 0 < d -> 0 < b -> 1 <= n -> tiling n rs ->
  exact_inv d b rs L -> spec_step d b n up rs o rs' e -> exact_inv d b rs' (live_after L e).
Proof.
  intros d b n up rs o rs' e L Hd Hb Hn T LI S. assert (T' := spec_step_tiling _ _ _ _ _ _ _ _ Hn T S).
  destruct S as [rs align ans|rs size align ans l f t q i rs' Hs FF FA Q T1 E|rs size align ans Hs NF U
    |rs size align ans Hs NF U|rs|rs l r t rs' E1 B T1 E|rs p Hp Ho U|rs]; cbn [live_after]; auto.
  - destruct FF as [-> [F2 [F3 F4]]].
    assert (Q0 : 0 < q).
    { destruct FA as [A _]. destruct T as [C _].
      destruct (contiguous_bounds _ _ _ C) as [_ CB]. specialize (CB f ltac:(apply in_app_iff; right; left; auto)).
      unfold region_addr in A. nia. }
    rewrite eqb_false by lia. unfold exact_inv in *.
    rewrite busy_app, busy_cons_free in LI by auto. rewrite E.
    cbn [map fst snd]. rewrite LI, !map_app. cbn [map rlen]. replace (region_addr d b (Reg i (size / b + 1) true)) with q
      by (unfold region_addr; cbn [rstart]; auto).
    apply Permutation_middle.
  - rewrite remove_ptr_absent; auto. intros I.
    apply (Permutation_in _ (exact_keys _ _ _ _ LI)) in I. apply in_map_iff in I. destruct I as [r [E I]].
    apply in_busy in I. destruct T as [C _]. destruct (contiguous_bounds _ _ _ C) as [_ CB].
    specialize (CB r (proj1 I)). unfold region_addr in E. nia.
  - subst rs. set (p := region_addr d b r) in *.
    assert (EB : busy (l ++ r :: t) = busy l ++ r :: busy t) by (rewrite busy_app, busy_cons_busy; auto).
    assert (LP := exact_keys _ _ _ _ LI). rewrite EB in LP.
    assert (I : In p (map fst L)).
    { apply (Permutation_in _ (Permutation_sym LP)). rewrite map_app. apply in_app_iff. right. left. auto. }
    destruct (remove_exact b p L I) as [a [Ea RP]].
    unfold exact_inv in *. rewrite EB in LI.
    assert (IA : In (p, given b (snd a)) (map (fun r => (region_addr d b r, rlen r)) (busy l ++ r :: busy t))).
    { apply (Permutation_in _ LI). apply (Permutation_in _ (Permutation_sym RP)). left. reflexivity. }
    apply in_map_iff in IA. destruct IA as [r' [Er Ir]]. injection Er as Er El.
    assert (r' = r).
    { assert (IL : In r' (l ++ r :: t)) by (apply in_busy; rewrite EB; exact Ir).
      assert (IL2 : In r (l ++ r :: t)) by (apply in_app_iff; right; left; reflexivity).
      assert (ES : rstart r' = rstart r) by (unfold p, region_addr in Er; nia).
      destruct T as [C _].
      assert (NB : rbusy r' = true) by (apply in_busy with (rs := l ++ r :: t); rewrite EB; exact Ir).
      destruct (contiguous_bounds _ _ _ C) as [_ CB].
      assert (C1 := CB _ IL). assert (C2 := CB _ IL2).
      apply in_split in IL. destruct IL as [l1 [t1 X]].
      assert (ND := busy_nodup). clear ND.
      assert (Y : forall rs a x y, contiguous n a rs -> In x rs -> In y rs -> rstart x = rstart y -> x = y).
      { clear. induction rs as [|z rs IH]; intros a x y C I1 I2 E; [destruct I1|]. cbn [contiguous] in C.
        destruct C as [C1 [C2 C3]]. destruct (contiguous_bounds _ _ _ C3) as [_ CB].
        destruct I1 as [<-|I1]; destruct I2 as [<-|I2]; auto.
        - specialize (CB y I2). lia.
        - specialize (CB x I1). lia.
        - eapply IH; eauto. }
      apply (Y _ _ _ _ C); auto. rewrite X. apply in_app_iff. right. left. reflexivity. }
    subst r'. rewrite E, map_app. rewrite map_app in LI. cbn [map] in LI. rewrite RP in LI. fold p in LI. rewrite El in LI.
    apply Permutation_cons_app_inv in LI. exact LI.
  - unfold exact_inv. reflexivity.
Qed.

Lemma exact_run : forall d b n up ops rs rs' es L, 0 < d -> 0 < b -> 1 <= n -> tiling n rs ->
  exact_inv d b rs L -> spec_run d b n up rs ops rs' es ->
  tiling n rs' /\ exact_inv d b rs' (fold_left live_after es L).
Proof.
  intros d b n up; induction ops as [|o ops IH]; intros rs rs' es L Hd Hb Hn T LI S;
    inversion S as [|x1 x2 x3 x4 x5 x6 x7 S1 S2]; subst; auto.
  cbn [fold_left]. eapply IH; try exact S2; auto.
  - eapply spec_step_tiling; eauto.
  - eapply exact_step; eauto.
Qed.

Lemma spec_run_last : forall d b n up ops o rs rs' es, spec_run d b n up rs (ops ++ [o]) rs' es ->
  exists rs1 es1 e, es = es1 ++ [e] /\ spec_run d b n up rs ops rs1 es1 /\ spec_step d b n up rs1 o rs' e.
Proof.
  intros d b n up; induction ops as [|x ops IH]; intros o rs rs' es S.
  - cbn [app] in S. inversion S as [|x1 x2 x3 x4 x5 x6 x7 S1 S2]; subst. inversion S2; subst.
    exists rs, [], x4. split; [reflexivity|]. split; [constructor|exact S1].
  - cbn [app] in S. inversion S as [|x1 x2 x3 x4 x5 x6 x7 S1 S2]; subst.
    destruct (IH _ _ _ _ S2) as [rs1 [es1 [e [-> [R1 R2]]]]].
    exists rs1, (x4 :: es1), e. split; [reflexivity|]. split; [econstructor; eauto|exact R2].
Qed.

Lemma valid_last : forall d b n up rel A M ops o rs rs1 es, valid_client d b n up rel A M rs (ops ++ [o]) ->
  spec_run d b n up rs ops rs1 es -> valid_op d b n up rel A M rs1 o.
Proof.
  intros d b n up rel A M; induction ops as [|x ops IH]; intros o rs rs1 es V S.
  - inversion S; subst. cbn [app valid_client] in V. apply V.
  - inversion S as [|x1 x2 x3 x4 x5 x6 x7 S1 S2]; subst. cbn [app valid_client] in V. eapply IH; [|exact S2].
    eapply (proj2 V). exact S1.
Qed.

Lemma run_keeps : forall d b n up rel A M (I : list region -> Prop) ops rs rs1 es,
  (forall rs o rs' e, I rs -> valid_op d b n up rel A M rs o -> spec_step d b n up rs o rs' e -> I rs') ->
  I rs -> valid_client d b n up rel A M rs ops -> spec_run d b n up rs ops rs1 es -> I rs1.
Proof.
  intros d b n up rel A M I; induction ops as [|x ops IH]; intros rs rs1 es K H V S.
  - inversion S; subst. exact H.
  - inversion S as [|x1 x2 x3 x4 x5 x6 x7 S1 S2]; subst. cbn [valid_client] in V. destruct V as [V1 V2].
    eapply IH; [exact K| |eapply V2; exact S1|exact S2]. eapply K; eauto.
Qed.

Lemma valid_app : forall d b n up rel A M ops ops' rs, valid_client d b n up rel A M rs (ops ++ ops') ->
  valid_client d b n up rel A M rs ops.
Proof.
  intros d b n up rel A M; induction ops as [|x ops IH]; intros ops' rs V; [exact I|].
  cbn [app valid_client] in *. destruct V as [V1 V2]. split; [exact V1|]. intros rs' e S. eapply IH. eapply V2. exact S.
Qed.

(** * One request of the ideal allocator *)

Lemma served_room : forall d b n up rs size align ans rs' e, 0 < d -> 0 < b -> 0 < size -> tiling n rs ->
  spec_step d b n up rs (OAllocate size align ans) rs' e ->
  (served e /\ total (busy rs) + given b size <= n) \/ (~ served e /\ nothing_fits d b rs size align).
Proof.
  intros d b n up rs size align ans rs' e Hd Hb Hs T S.
  inversion S as [|x1 x2 x3 x4 l f t q i x5 Hs' FF FA Q T1 E|x1 x2 x3 x4 x5 NF U|x1 x2 x3 x4 x5 NF U| | | |]; subst; try lia.
  - left. destruct FF as [-> [F2 [F3 F4]]].
    assert (Q0 : 0 < d + i * b).
    { destruct FA as [A _]. destruct T as [C _].
      destruct (contiguous_bounds _ _ _ C) as [_ CB]. specialize (CB f ltac:(apply in_app_iff; right; left; auto)).
      unfold region_addr in A. nia. }
    split; [cbn [served]; lia|].
    assert (X := total_free _ _ T1). rewrite E, total_app in X. rewrite total_cons in X. cbn [rlen] in X.
    rewrite busy_app, busy_cons_free, total_app by auto. fold (given b size) in X.
    assert (Y : 0 <= total (free rs')).
    { destruct T1 as [C _]. assert (forall r, In r (free rs') -> 0 < rlen r).
      { intros r I. apply filter_In in I. destruct (contiguous_bounds _ _ _ C) as [_ CB]. apply (CB r (proj1 I)). }
      clear - H. induction (free rs') as [|r l IH]; [rewrite total_nil; lia|]. rewrite total_cons.
      assert (A := H r (or_introl eq_refl)). assert (B := IH (fun x I => H x (or_intror I))). lia. }
    lia.
  - right. split; [cbn [served]; auto|exact NF].
  - right. split; [cbn [served]; auto|exact NF].
Qed.

(** free regions that hold less than the request *)
Lemma too_small : forall d b r size align, 0 < b -> 0 < size -> pow2 align -> (align | b) -> (b | d) ->
  ~ can_hold d b r size align -> rlen r < given b size.
Proof.
  intros d b r size align Hb Hs Pa Da Db N. unfold given. destruct (Z_lt_le_dec (rlen r) (size / b + 1)) as [X|X]; [exact X|].
  exfalso. apply N. exists (region_addr d b r). split; [lia|]. split.
  - apply Z.divide_trans with b; auto. unfold region_addr. apply Z.divide_add_r; auto. apply Z.divide_factor_r.
  - assert (Y := Z.mul_succ_div_gt size b Hb). unfold Z.succ in Y.
    assert ((size / b + 1) * b <= rlen r * b) by (apply Z.mul_le_mono_nonneg_r; lia). lia.
Qed.

(** where only the last region can be free *)
Lemma last_total : forall m rs, 0 <= m -> (forall r, In r rs -> rbusy r = false -> rlen r <= m) ->
  (forall l f t, rs = l ++ f :: t -> rbusy f = false -> t = []) -> total (free rs) <= m.
Proof.
  intros m; induction rs as [|r rs IH]; intros M H L; [cbn; lia|].
  cbn [free filter]. fold (free rs). destruct (rbusy r) eqn:B; cbn [negb].
  - apply IH; auto; [intros x I; apply H; right; exact I|]. intros l f t E. apply (L (r :: l) f t). rewrite E. reflexivity.
  - rewrite (L [] r rs eq_refl B). cbn [free filter]. rewrite total_cons, total_nil. assert (X := H r (or_introl eq_refl) B). lia.
Qed.

(** every other region is busy *)
Lemma between_total : forall m rs, 0 <= m -> (forall r, In r rs -> rbusy r = false -> rlen r <= m) -> coalesced rs ->
  total (free rs) <= m * (Z.of_nat (length (busy rs)) + 1) /\
  (forall r t, rs = r :: t -> rbusy r = true -> total (free rs) <= m * Z.of_nat (length (busy rs))).
Proof.
  intros m; induction rs as [|r rs IH]; intros M H K; [split; [cbn; lia|intros r t E; discriminate E]|].
  assert (H' : forall x, In x rs -> rbusy x = false -> rlen x <= m) by (intros x I; apply H; right; exact I).
  destruct (IH M H' (coalesced_tail _ _ K)) as [X1 X2].
  cbn [free busy filter]. fold (free rs) (busy rs). destruct (rbusy r) eqn:B; cbn [negb].
  - cbn [length]. rewrite Nat2Z.inj_succ. split; [lia|]. intros r0 t _ _. lia.
  - rewrite total_cons. assert (Y := H r (or_introl eq_refl) B). split.
    + destruct rs as [|y rs]; [cbn; lia|]. destruct (coalesced_head _ _ _ K) as [B'|B']; [congruence|].
      assert (Z := X2 y rs eq_refl B'). lia.
    + intros r0 t E B'. injection E as <- _. congruence.
Qed.

Section Histories.
Variables (c : cfg) (buffer size_b : Z) (up : bool) (s : state).
Hypothesis M : made c buffer size_b up s.
Variable fuel : nat.
Hypothesis F : (Z.to_nat (bc s) < fuel)%nat.

(** what a careful history and one more request come to *)
Lemma last_request : forall ops size align ans, 0 < size ->
  careful_client (data s) (BS c) (bc s) up (ops ++ [OAllocate size align ans]) ->
  exists s' es e rs rs', run c fuel s (ops ++ [OAllocate size align ans]) = Ok (s', es ++ [e]) /\
    spec_run (data s) (BS c) (bc s) up [Reg 0 (bc s) false] ops rs es /\
    spec_step (data s) (BS c) (bc s) up rs (OAllocate size align ans) rs' e /\
    tiling (bc s) rs /\ exact_inv (data s) (BS c) rs (live es).
Proof.
  intros ops size align ans Hs V. destruct (made_wf _ _ _ _ _ M) as [HC [W [U [_ [O [D [B [PB [DV N]]]]]]]]].
  destruct (careful_history _ _ _ _ _ _ _ M F V) as [s' [rs [es [R [W' [SP [SR [T L]]]]]]]].
  rewrite U in SR. destruct (spec_run_last _ _ _ _ _ _ _ _ _ SR) as [rs1 [es1 [e [-> [R1 R2]]]]].
  destruct (exact_run _ _ _ _ _ _ _ _ [] D B N (wf_tiling _ _ _ W) ltac:(unfold exact_inv; reflexivity) R1) as [T1 L1].
  exists s', es1, e, rs1, rs. auto.
Qed.

Lemma pool_room : forall k ops size align ans, 0 < k -> (k + 1) * BS c <= 2 ^ 64 -> 0 < size ->
  pool_client (data s) (BS c) (bc s) k up (ops ++ [OAllocate size align ans]) ->
  exists s' es e, run c fuel s (ops ++ [OAllocate size align ans]) = Ok (s', es ++ [e]) /\
    (served e <-> (Z.of_nat (length (live es)) + 1) * k <= bc s).
Proof.
  intros k ops size align ans Hk KB Hs V. destruct (made_wf _ _ _ _ _ M) as [HC [W [U [_ [O [D [B [PB [DV N]]]]]]]]].
  destruct (last_request ops size align ans Hs (pool_is_careful _ _ _ _ _ _ _ M Hk KB V))
    as [s' [es [e [rs [rs' [R [S1 [S2 [T L]]]]]]]]].
  exists s', es, e. split; [exact R|]. destruct (taken_total _ _ _ _ L) as [_ LN]. rewrite LN.
  assert (PI : pool_inv (bc s) k rs).
  { eapply run_keeps; [|apply pool_start; exact N|eapply valid_app; exact V|exact S1].
    intros rs0 o rs0' e0 H H0 H1. eapply pool_step; [exact B|exact PB|exact DV|exact N|exact Hk|exact H|exact H0|exact H1]. }
  assert (VL := valid_last _ _ _ _ _ _ _ _ _ _ _ _ V S1). cbn [valid_op] in VL.
  destruct VL as [VL|[_ [Pa [[Q1 Q2] _]]]]; [lia|].
  assert (G : given (BS c) size = k).
  { unfold given. assert (size / BS c = k - 1); [|lia]. symmetry. apply Z.div_unique with (size - (k - 1) * BS c); lia. }
  assert (TB : total (busy rs) = Z.of_nat (length (busy rs)) * k).
  { destruct PI as [_ PI]. assert (X : forall r, In r (busy rs) -> rlen r = k) by (intros r I; apply in_busy in I; apply PI; apply I).
    clear - X. induction (busy rs) as [|r l IH]; [reflexivity|]. rewrite total_cons. cbn [length].
    rewrite Nat2Z.inj_succ, (X r (or_introl eq_refl)), IH by (intros x I; apply X; right; exact I). lia. }
  destruct (served_room _ _ _ _ _ _ _ _ _ _ D B Hs T S2) as [[Y1 Y2]|[Y1 Y2]].
  - split; [lia|auto].
  - split; [contradiction|]. intros X. exfalso.
    assert (LE : total (free rs) <= k - 1).
    { apply last_total; [lia| |].
      - intros r I Br. assert (Z := too_small _ _ _ _ _ B Hs Pa (pow2_le_divide _ _ Pa PB Q2) DV (Y2 r I Br)). lia.
      - intros l f t E Bf. destruct t as [|y t]; [reflexivity|]. exfalso.
        assert (I1 : In f rs) by (rewrite E; apply in_app_iff; right; left; reflexivity).
        assert (I2 : In y rs) by (rewrite E; apply in_app_iff; right; right; left; reflexivity).
        assert (Z := too_small _ _ _ _ _ B Hs Pa (pow2_le_divide _ _ Pa PB Q2) DV (Y2 f I1 Bf)).
        destruct PI as [[C K] H].
        assert (ST := pool_starts (bc s) k rs 0 C K ltac:(apply Z.divide_0_r) H).
        assert (EY : rstart y = rstart f + rlen f /\ 0 < rlen f).
        { rewrite E in C. eapply contiguous_adjacent; eauto. }
        destruct (ST f I1) as [u Hu]. destruct (ST y I2) as [v Hv].
        assert (UV : u < v).
        { destruct (Z_lt_le_dec u v); auto. assert (v * k <= u * k) by (apply Z.mul_le_mono_nonneg_r; lia). lia. }
        assert ((u + 1) * k <= v * k) by (apply Z.mul_le_mono_nonneg_r; lia). lia. }
    rewrite (total_free _ _ T) in LE. lia.
Qed.

Lemma stack_room : forall ops size align ans, 0 < size ->
  stack_client (data s) (BS c) (bc s) up (ops ++ [OAllocate size align ans]) ->
  exists s' es e, run c fuel s (ops ++ [OAllocate size align ans]) = Ok (s', es ++ [e]) /\
    (served e <-> taken (BS c) (live es) + given (BS c) size <= bc s).
Proof.
  intros ops size align ans Hs V. destruct (made_wf _ _ _ _ _ M) as [HC [W [U [_ [O [D [B [PB [DV N]]]]]]]]].
  destruct (last_request ops size align ans Hs (stack_is_careful _ _ _ _ _ _ M V))
    as [s' [es [e [rs [rs' [R [S1 [S2 [T L]]]]]]]]].
  exists s', es, e. split; [exact R|]. destruct (taken_total _ _ _ _ L) as [-> _].
  assert (PI : stack_inv (bc s) rs).
  { eapply run_keeps; [|apply stack_start; exact N|eapply valid_app; exact V|exact S1].
    intros rs0 o rs0' e0 H H0 H1. eapply stack_step; [exact D|exact B|exact PB|exact DV|exact N|exact H|exact H0|exact H1]. }
  assert (VL := valid_last _ _ _ _ _ _ _ _ _ _ _ _ V S1). cbn [valid_op] in VL.
  destruct VL as [VL|[_ [Pa [[Q1 [Q2 Q3]] _]]]]; [lia|].
  destruct (served_room _ _ _ _ _ _ _ _ _ _ D B Hs T S2) as [[Y1 Y2]|[Y1 Y2]]; [tauto|].
  split; [contradiction|]. intros X. exfalso.
  assert (LE : total (free rs) <= given (BS c) size - 1).
  { apply last_total.
    - unfold given. assert (0 <= size / BS c) by (apply Z.div_pos; lia). lia.
    - intros r I Br. assert (Z := too_small _ _ _ _ _ B Hs Pa (pow2_le_divide _ _ Pa PB Q2) DV (Y2 r I Br)). lia.
    - intros l f t E Bf. destruct PI as [_ [m [C L0]]]. apply (stack_free_last _ _ _ _ _ _ T C L0 E Bf). }
  rewrite (total_free _ _ T) in LE. lia.
Qed.

(** a careful client is served whenever one block more is free than the request is given *)
Lemma careful_room : forall ops size align ans, 0 < size -> align <= BS c ->
  careful_client (data s) (BS c) (bc s) up (ops ++ [OAllocate size align ans]) ->
  exists s' es e, run c fuel s (ops ++ [OAllocate size align ans]) = Ok (s', es ++ [e]) /\
    (taken (BS c) (live es) + given (BS c) size < bc s -> served e) /\
    (served e -> taken (BS c) (live es) + given (BS c) size <= bc s).
Proof.
  intros ops size align ans Hs Ha V. destruct (made_wf _ _ _ _ _ M) as [HC [W [U [_ [O [D [B [PB [DV N]]]]]]]]].
  destruct (last_request ops size align ans Hs V) as [s' [es [e [rs [rs' [R [S1 [S2 [T L]]]]]]]]].
  exists s', es, e. split; [exact R|]. destruct (taken_total _ _ _ _ L) as [-> _].
  assert (VL := valid_last _ _ _ _ _ _ _ _ _ _ _ _ V S1). cbn [valid_op] in VL.
  destruct VL as [VL|[_ [Pa [[_ [_ [SS _]]] _]]]]; [lia|].
  destruct (served_room _ _ _ _ _ _ _ _ _ _ D B Hs T S2) as [[Y1 Y2]|[Y1 Y2]]; [tauto|].
  split; [|contradiction]. intros X. exfalso.
  assert (G0 : 0 <= given (BS c) size - 1).
  { unfold given. assert (0 <= size / BS c) by (apply Z.div_pos; lia). lia. }
  assert (SM : forall r, In r rs -> rbusy r = false -> rlen r <= given (BS c) size - 1).
  { intros r I Br. assert (Z := too_small _ _ _ _ _ B Hs Pa (pow2_le_divide _ _ Pa PB Ha) DV (Y2 r I Br)). lia. }
  assert (SS' : forall l f t, rs = l ++ f :: t -> rbusy f = false -> t = [] \/ (l = [] /\ rlen f = 1)).
  { intros l f t E Bf. apply (SS l f t E Bf). intros r I. apply Y2. rewrite E.
    apply in_app_iff in I. apply in_app_iff. destruct I as [I|[<-|[]]]; [left; exact I|right; left; reflexivity]. }
  assert (LE : total (free rs) <= given (BS c) size).
  { destruct rs as [|r rs]; [cbn; lia|].
    assert (LE : total (free rs) <= given (BS c) size - 1).
    { apply last_total; [exact G0|intros x I; apply SM; right; exact I|].
      intros l f t E Bf. destruct (SS' (r :: l) f t) as [Z|[Z _]]; [rewrite E; reflexivity|exact Bf|exact Z|discriminate Z]. }
    cbn [free filter]. fold (free rs). destruct (rbusy r) eqn:Br; cbn [negb]; [lia|].
    rewrite total_cons.
    destruct (SS' [] r rs eq_refl Br) as [->|[_ Z]]; [|lia].
    change (total (free [])) with 0. assert (Z := SM r (or_introl eq_refl) Br). lia. }
  rewrite (total_free _ _ T) in LE. lia.
Qed.

End Histories.

(** a client that keeps block 0: the free memory is at worst spread evenly between the allocations *)
Lemma pinned_room : forall c buffer size_b up s, made c buffer size_b up s ->
  forall fuel sz al an ops size align ans s' es, DBG c = true -> 0 < sz < BS c -> pow2 al -> al <= BS c -> sz + al <= 2 ^ 64 ->
  pinned_client (data s) (BS c) (bc s) up (ops ++ [OAllocate size align ans]) ->
  run c fuel s (OAllocate sz al an :: ops ++ [OAllocate size align ans]) = Ok (s', es) -> 0 < size -> align <= BS c ->
  exists es0 e, es = es0 ++ [e] /\
    (taken (BS c) (live es0) + Z.of_nat (length (live es0)) * (given (BS c) size - 1) < bc s -> served e) /\
    (served e -> taken (BS c) (live es0) + given (BS c) size <= bc s).
Proof.
  intros c buffer size_b up s M fuel sz al an ops size align ans s' es DB Hsz Pal Hal Hw PC R Hs Ha.
  destruct (made_wf _ _ _ _ _ M) as [HC [W [U [_ [O [D [B [PB [DV N]]]]]]]]].
  destruct (pinned_run _ _ _ _ _ _ _ _ _ _ _ _ M DB Hsz Pal Hal Hw PC R) as [rs [W2 [PN [SP [SR [T LI]]]]]].
  destruct (spec_run_last _ _ _ _ (OAllocate sz al an :: ops) _ _ _ _ SR) as [rs1 [es1 [e [-> [R1 R2]]]]].
  destruct (exact_run _ _ _ _ _ _ _ _ [] D B N (wf_tiling _ _ _ W) ltac:(unfold exact_inv; reflexivity) R1) as [T1 L1].
  exists es1, e. split; [reflexivity|]. destruct (taken_total _ _ _ _ L1) as [TT LN]. unfold live. rewrite TT, LN.
  assert (PN1 : forall ops' rs0 rs0' es', pinned rs0 -> valid_client (data s) (BS c) (bc s) up false (reachable_request (data s) (BS c) (bc s)) keeps_first rs0 ops' ->
    tiling (bc s) rs0 -> spec_run (data s) (BS c) (bc s) up rs0 ops' rs0' es' -> pinned rs0').
  { induction ops' as [|o ops' IH]; intros rs0 rs0' es' P0 V0 T0 S0; inversion S0 as [|x1 x2 x3 x4 x5 x6 x7 S1 S2]; subst; auto.
    cbn [valid_client] in V0. destruct V0 as [V1 V2]. eapply IH; [|eapply V2; exact S1|eapply spec_step_tiling; [exact N|exact T0|exact S1]|exact S2].
    eapply pinned_step; [exact P0|exact V1| |exact S1].
    intros r -> I Br. cbn [valid_op] in V1. destruct T0 as [T0 _]. destruct (contiguous_bounds _ _ _ T0) as [_ CB].
    assert (CR := CB r I). destruct V1 as [V1|[[r' [I' [B' [K E]]]]|[_ [_ [_ V1]]]]].
    - unfold region_addr in V1. nia.
    - assert (ER : rstart r = rstart r') by (unfold region_addr in E; nia). rewrite ER. exact K.
    - exfalso. apply V1. unfold region_addr. nia. }
  inversion R1 as [|x1 x2 rsa ea x5 x6 esa S1 S3]; subst.
  assert (TA := spec_step_tiling _ _ _ _ _ _ _ _ N (wf_tiling _ _ _ W) S1).
  assert (DA : (al | BS c)) by (apply pow2_le_divide; auto).
  assert (BR : busy rsa = [Reg 0 1 true]).
  { inversion S1 as [|x1 x2 x3 x4 l f t y i x5 Hs' FF' FA Q T2 EB|x1 x2 x3 x4 x5 NF x6|x1 x2 x3 x4 x5 NF x6| | | |]; subst.
    - lia.
    - destruct FF' as [EF _]. destruct l as [|x l]; [injection EF as <- <-|destruct l; discriminate EF].
      rewrite EB. cbn [app busy filter].
      assert (I0 : i = 0).
      { destruct FA as [A1 [_ A3]]. specialize (A3 (data s)). unfold region_addr in *. cbn [rstart] in *.
        assert ((al | data s)) by (eapply Z.divide_trans; eauto).
        specialize (A3 ltac:(lia) H). nia. }
      rewrite I0, Z.div_small by lia. reflexivity.
    - exfalso. apply (NF (Reg 0 (bc s) false)); [left; auto|reflexivity|].
      exists (data s). unfold region_addr. cbn [rstart rlen]. split; [lia|]. split; [eapply Z.divide_trans; eauto|nia].
    - exfalso. apply (NF (Reg 0 (bc s) false)); [left; auto|reflexivity|].
      exists (data s). unfold region_addr. cbn [rstart rlen]. split; [lia|]. split; [eapply Z.divide_trans; eauto|nia]. }
  assert (V := PC rsa TA BR).
  assert (P1 : pinned rs1).
  { eapply PN1; [eapply pinned_head; [exact TA|exact BR]|eapply valid_app; exact V|exact TA|exact S3]. }
  assert (VL := valid_last _ _ _ _ _ _ _ _ _ _ _ _ V S3). cbn [valid_op] in VL.
  destruct VL as [VL|[_ [Pa _]]]; [lia|].
  destruct (served_room _ _ _ _ _ _ _ _ _ _ D B Hs T1 R2) as [[Y1 Y2]|[Y1 Y2]]; [tauto|].
  split; [|contradiction]. intros X. exfalso.
  assert (G0 : 0 <= given (BS c) size - 1).
  { unfold given. assert (0 <= size / BS c) by (apply Z.div_pos; lia). lia. }
  assert (SM : forall r, In r rs1 -> rbusy r = false -> rlen r <= given (BS c) size - 1).
  { intros r I Br. assert (Z := too_small _ _ _ _ _ B Hs Pa (pow2_le_divide _ _ Pa PB Ha) DV (Y2 r I Br)). lia. }
  destruct (between_total _ rs1 G0 SM (proj2 T1)) as [_ Z]. destruct P1 as [t1 P1].
  specialize (Z _ _ P1 eq_refl). rewrite (total_free _ _ T1) in Z. lia.
Qed.

(** * monotonic_buffer_resource *)

Lemma least_bounds : forall m v r, 0 < m -> least_multiple m v r -> v <= r < v + m.
Proof.
  intros m v r Hm [L1 [L2 L3]]. split; [lia|]. destruct (Z_lt_le_dec r (v + m)) as [X|X]; [exact X|]. exfalso.
  assert (Y : (m | r - m)) by (apply Z.divide_sub_r; [assumption|apply Z.divide_refl]). specialize (L3 (r - m)). 
  assert (r <= r - m) by (apply L3; auto; lia). lia.
Qed.

Lemma top_padded : forall dbg buffer size up ops s es, mono_made buffer size -> Forall (fair_op (buffer + size)) ops ->
  mono_run dbg (mono_construct buffer size up) ops = Ok (s, es) ->
  0 <= padded es /\ top buffer (handed es) <= buffer + padded es /\ buffer + bytes (handed es) <= top buffer (handed es).
Proof.
  intros dbg buffer size up ops s es MM. revert s es. induction ops as [|o ops IH] using rev_ind; intros s es FO R.
  { cbn [mono_run] in R. injection R as <- <-. cbn. lia. }
  apply Forall_app in FO. destruct FO as [FO1 FO2]. inversion FO2 as [|x1 x2 FO3 _]; subst.
  rewrite mono_run_app in R. destruct (mono_contract dbg buffer size up ops MM FO1) as [s1 [es1 [R1 _]]].
  rewrite R1 in R. cbn [bind] in R. destruct (IH _ _ FO1 R1) as [W0 [W1 W2]].
  assert (P : forall e, padded (es1 ++ [e]) = padded_after (padded es1) e) by (intros e; unfold padded; rewrite fold_left_app; reflexivity).
  assert (Hd : forall e, handed (es1 ++ [e]) = handed_after (handed es1) e) by (intros e; unfold handed; rewrite fold_left_app; reflexivity).
  destruct o as [sz align ans|p|]; cbn [mono_run mono_step] in R.
  - cbn [fair_op] in FO3. destruct FO3 as [G1 [G2 G3]].
    destruct (Z.eq_dec sz 0) as [->|NZ].
    { unfold mono_allocate in R. rewrite Z.eqb_refl in R. cbn [bind] in R. injection R as <- <-.
      rewrite P, Hd. cbn [padded_after handed_after]. rewrite Z.eqb_refl. auto. }
    destruct (mono_served dbg buffer size up ops s1 es1 sz align ans MM FO1 R1 ltac:(lia) G2 G3) as [s2 [p [calls [E [Y X]]]]].
    rewrite E in R. cbn [bind] in R. injection R as <- <-. rewrite P, Hd. cbn [padded_after handed_after].
    destruct calls as [|cl calls]; [|auto]. destruct (Z.eqb_spec p 0) as [Z0|Z0]; [auto|].
    specialize (X eq_refl Z0). cbn [top fst snd bytes fold_right]. fold (bytes (handed es1)).
    assert (A0 := pow2_gt_0 _ G2).
    assert (LT : top buffer (handed es1) <= p < top buffer (handed es1) + align) by (eapply least_bounds; eauto).
    lia.
  - cbn [mono_deallocate bind] in R. injection R as <- <-. rewrite P, Hd. cbn [padded_after handed_after]. auto.
  - cbn [bind] in R. injection R as <- <-. rewrite P, Hd. cbn. lia.
Qed.

Lemma mono_room : forall dbg buffer size up ops sz align ans, mono_made buffer size -> buffer <> 0 ->
  Forall (fair_op (buffer + size)) (ops ++ [OAllocate sz align ans]) -> 0 < sz ->
  exists s es e, mono_run dbg (mono_construct buffer size up) (ops ++ [OAllocate sz align ans]) = Ok (s, es ++ [e]) /\
    (padded es + (sz + align - 1) <= size -> served e) /\
    (served e -> bytes (handed es) + sz <= size).
Proof.
  intros dbg buffer size up ops sz align ans MM NB FO Hs. apply Forall_app in FO. destruct FO as [FO1 FO2].
  inversion FO2 as [|x1 x2 FO3 _]; subst. cbn [fair_op] in FO3. destruct FO3 as [G1 [G2 G3]].
  destruct (mono_contract dbg buffer size up ops MM FO1) as [s1 [es1 [R1 _]]].
  destruct (top_padded _ _ _ _ _ _ _ MM FO1 R1) as [W0 [W1 W2]].
  destruct (mono_served dbg buffer size up ops s1 es1 sz align ans MM FO1 R1 Hs G2 G3) as [s2 [p [calls [E [Y X]]]]].
  exists s2, es1, (EAllocate sz align p calls). split.
  { rewrite mono_run_app, R1. cbn [bind mono_run mono_step]. rewrite E. reflexivity. }
  assert (SV : served (EAllocate sz align p calls) <-> calls = [] /\ p <> 0).
  { cbn [served]. destruct calls; [tauto|]. split; [contradiction|intros [H _]; discriminate H]. }
  rewrite SV, Y. assert (A0 := pow2_gt_0 _ G2). split.
  - intros H. split; [exact NB|].
    assert (SA := skip_aligned (top buffer (handed es1)) align A0). assert (SB := skip_bounds (top buffer (handed es1)) align A0).
    exists (top buffer (handed es1) + skip_of (top buffer (handed es1)) align). split; [lia|]. split; [exact SA|lia].
  - intros [_ [q [Q1 [Q2 Q3]]]]. lia.
Qed.
