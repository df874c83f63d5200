(** Lemmas about simple_resource in the shape of the properties. *)

Require Import ZArith Lia List Bool Permutation.
Require Import Verif.Outcome Verif.Machine Verif.BitsModel Verif.BitsSpec Verif.BitsProofs.
Require Import Verif.ArithModel Verif.ArithProofs.
Require Import Verif.SimpleModel Verif.SimpleSpec Verif.SimpleProofs Verif.SimpleAllocProofs.
Require Import Verif.SimpleScanProofs Verif.SimpleOpProofs Verif.SimpleHistProofs.
Require Import Verif.SimpleReleaseProofs Verif.SimpleAnyProofs.
Require Import Verif.BuildSpec Verif.BuildProofs.
Import ListNotations.
Open Scope Z_scope.
Open Scope res_scope.

Lemma made_wf : forall c buffer size up s, made c buffer size up s ->
  cfg_ok c /\ wf c s [Reg 0 (bc s) false] /\ has_up s = up /\ nxt s = (fun _ => 0) /\
  ordinary_buffer (data s) (bc s * BS c) /\ 0 < data s /\ 0 < BS c /\ pow2 (BS c) /\ (BS c | data s) /\ 1 <= bc s.
Proof.
  intros c buffer size up s [HC [B1 [B2 B3]] HM HF HB HO].
  assert (W := construct_wf c buffer size up s HC B1 B2 B3 HM HF HB).
  destruct (construct_value c buffer size up HC B1 B2 B3) as [s' [E' [H1 [H2 [H3 [H4 [H5 [H6 H7]]]]]]]].
  rewrite HF in E'. injection E' as <-. assert (G := wf_geom _ _ _ W).
  split; auto. split; auto. split; auto. split; auto. split; auto.
  split; [apply (g_data _ _ G)|]. split; [apply bs_pos; auto|]. split; [apply (bs_pow2 _ HC)|].
  split; [apply (g_aligned _ _ G)|]. apply (g_bc _ _ G).
Qed.

(** C49 *)
Lemma construction : forall c buffer size up, cfg_ok c -> buffer_ok buffer size ->
  exists s, construct c buffer size up = Ok s /\ has_up s = up /\ size_ c s = bc s * BS c /\
    freec s = 1 /\ busyc s = 0 /\
    ((data s = 0 /\ bc s = 0) \/
     (0 < data s /\ (BS c | data s) /\ 0 < bc s <= MB c /\
      buffer <= data s /\ data s + bc s * BS c <= buffer + size)) /\
    (buffer = 0 -> data s = 0) /\
    (buffer <> 0 -> forall d n, (BS c | d) -> buffer <= d -> d + n * BS c <= buffer + size ->
       n <= MB c -> n <= bc s).
Proof.
  intros c buffer size up HC [B1 [B2 B3]]. assert (P := bs_pos c HC). assert (M := mb_range _ HC).
  destruct (construct_value c buffer size up HC B1 B2 B3) as [s [E [H1 [H2 [H3 [H4 [H5 [H6 H7]]]]]]]].
  exists s. cbv zeta in H7. split; auto. split; auto.
  destruct (skip_bounds buffer (BS c) P) as [S1 S2].
  assert (DM := Z.mul_div_le (size - skip_of buffer (BS c)) (BS c) P).
  set (q := (size - skip_of buffer (BS c)) / BS c) in *.
  assert (MX : forall d n, (BS c | d) -> buffer <= d -> d + n * BS c <= buffer + size -> n <= q).
  { intros d n D1 D2 D3. apply Z.div_le_lower_bound; auto.
    assert (X := skip_least buffer (BS c) d P D2 D1). lia. }
  destruct (Z.eqb_spec buffer 0) as [B0|B0]; cbn [orb] in H7.
  { destruct H7 as [D1 D2]. rewrite D1, D2. split; [unfold size_; rewrite D2, Z.mul_0_r; reflexivity|].
    split; auto. split; auto. split; [auto|]. split; [auto|]. lia. }
  destruct (Z.leb_spec (Z.min q (MB c)) 0) as [L|L]; destruct H7 as [D1 D2].
  - rewrite D1, D2. split; [unfold size_; rewrite D2, Z.mul_0_r; reflexivity|].
    split; auto. split; auto. split; auto. split; [lia|]. intros _ d n X1 X2 X3 X4. specialize (MX d n X1 X2 X3). lia.
  - assert (X : bc s * BS c <= q * BS c) by (apply Z.mul_le_mono_nonneg_r; lia).
    assert (Y : 0 < bc s * BS c) by (apply Z.mul_pos_pos; lia).
    split; [unfold size_; rewrite wrap_id by lia; lia|].
    split; auto. split; auto. split.
    { right. split; [lia|]. split; [rewrite D1; apply skip_aligned; auto|]. split; [lia|]. split; lia. }
    split; [lia|]. intros _ d n X1 X2 X3 X4. specialize (MX d n X1 X2 X3). lia.
Qed.

(** histories of careful clients *)
Definition careful_outcome (c : cfg) (fuel : nat) (s : state) (ops : list op) (s' : state)
    (rs : list region) (es : list event) : Prop :=
  run c fuel s ops = Ok (s', es) /\ wf c s' rs /\ same_place s s' /\
  spec_run (data s) (BS c) (bc s) (has_up s) [Reg 0 (bc s) false] ops rs es /\
  tiling (bc s) rs /\ live_inv (data s) (BS c) rs (live es).

Lemma careful_history : forall c buffer size up s fuel ops, made c buffer size up s ->
  (Z.to_nat (bc s) < fuel)%nat -> careful_client (data s) (BS c) (bc s) up ops ->
  exists s' rs es, careful_outcome c fuel s ops s' rs es.
Proof.
  intros c buffer size up s fuel ops M F V. destruct (made_wf _ _ _ _ _ M) as [HC [W [U [_ [O [D [B [PB [DV N]]]]]]]]].
  unfold careful_client in V. rewrite <- U in V.
  destruct (run_careful c fuel ops s _ HC W O F V) as [s' [rs [es [R [W' [SP SR]]]]]].
  exists s', rs, es. unfold careful_outcome.
  destruct (spec_run_live _ _ _ _ _ _ _ _ [] D B N (wf_tiling _ _ _ W) (live_inv_start _ _ _) SR) as [T L].
  unfold live. auto 10.
Qed.

Lemma pool_is_careful : forall c buffer size up s k ops, made c buffer size up s -> 0 < k ->
  (k + 1) * BS c <= 2 ^ 64 -> pool_client (data s) (BS c) (bc s) k up ops ->
  careful_client (data s) (BS c) (bc s) up ops.
Proof.
  intros c buffer size up s k ops M K KB V. destruct (made_wf _ _ _ _ _ M) as [HC [W [U [_ [O [D [B [PB [DV N]]]]]]]]].
  unfold pool_client, careful_client in *. apply (pool_valid _ _ _ _ k); auto; [lia|apply pool_start; auto].
Qed.

Lemma stack_is_careful : forall c buffer size up s ops, made c buffer size up s ->
  stack_client (data s) (BS c) (bc s) up ops -> careful_client (data s) (BS c) (bc s) up ops.
Proof.
  intros c buffer size up s ops M V. destruct (made_wf _ _ _ _ _ M) as [HC [W [U [_ [O [D [B [PB [DV N]]]]]]]]].
  unfold stack_client, careful_client in *. apply stack_valid; auto. apply stack_start; auto.
Qed.

(** C50 *)
Lemma no_overlap : forall c buffer size up s fuel ops, made c buffer size up s ->
  (Z.to_nat (bc s) < fuel)%nat -> careful_client (data s) (BS c) (bc s) up ops ->
  exists s' es, run c fuel s ops = Ok (s', es) /\ pairwise_disjoint (live es) /\ NoDup (map fst (live es)) /\
    forall a, In a (live es) -> in_bounds (data s) (data s + bc s * BS c) a.
Proof.
  intros c buffer size up s fuel ops M F V.
  destruct (careful_history c buffer size up s fuel ops M F V) as [s' [rs [es [R [W [SP [SR [T L]]]]]]]].
  destruct (made_wf _ _ _ _ _ M) as [HC [_ [U [_ [O [D [B _]]]]]]].
  exists s', es. split; auto. split; [eapply live_inv_disjoint; eauto|].
  split; [eapply live_inv_nodup; eauto|]. eapply live_inv_bounds; eauto.
Qed.

Lemma construct_aligned : forall c buffer size up s, cfg_ok c -> buffer_ok buffer size ->
  construct c buffer size up = Ok s ->
  (BS c | data s) /\ links_forward s /\ in_range c s /\ busyc s = 0.
Proof.
  intros c buffer size up s HC HB E. destruct (construction c buffer size up HC HB) as [s1 [E1 [H1 [H2 [H3 [H4 [H5 _]]]]]]].
  destruct HB as [B1 [B2 B3]].
  destruct (construct_value c buffer size up HC B1 B2 B3) as [s2 [E2 [_ [_ [_ [_ [H6 _]]]]]]].
  rewrite E in E1, E2. injection E1 as <-. injection E2 as <-. assert (M := mb_range _ HC).
  split; [|split; [|split; auto]].
  - destruct H5 as [[-> _]|[_ [H5 _]]]; [apply Z.divide_0_r|auto].
  - intros i. left. rewrite H6. reflexivity.
  - unfold in_range. destruct H5 as [[-> ->]|[D1 [D2 [D3 [D4 D5]]]]]; lia.
Qed.

Lemma debug_bounds : forall c buffer size up s fuel ops s' es, cfg_ok c -> DBG c = true -> buffer_ok buffer size ->
  construct c buffer size up = Ok s -> Forall sane_op ops -> run c fuel s ops = Ok (s', es) ->
  forall sz align p, In (EAllocate sz align p []) es -> p <> 0 -> sz < 2 ^ 64 ->
  in_bounds (data s) (data s + bc s * BS c) (p, sz).
Proof.
  intros c buffer size up s fuel ops s' es HC DB HB E V R sz align p I N A.
  destruct (construct_aligned _ _ _ _ _ HC HB E) as [D1 [D2 [D3 _]]].
  destruct (run_any c fuel ops s s' es HC D1 V (fun _ => D2) R) as [_ G].
  destruct (G _ _ _ I N) as [_ [_ X]]. auto.
Qed.

(** C51 *)
Lemma always_aligned : forall c buffer size up s fuel ops s' es, cfg_ok c -> buffer_ok buffer size ->
  construct c buffer size up = Ok s -> Forall sane_op ops -> run c fuel s ops = Ok (s', es) ->
  forall sz align p, In (EAllocate sz align p []) es -> p <> 0 -> (align | p) /\ (BS c | p).
Proof.
  intros c buffer size up s fuel ops s' es HC HB E V R sz align p I N.
  destruct (construct_aligned _ _ _ _ _ HC HB E) as [D1 [D2 [D3 _]]].
  destruct (run_any c fuel ops s s' es HC D1 V (fun _ => D2) R) as [_ G].
  destruct (G _ _ _ I N) as [X [Y _]]. auto.
Qed.

(** C65 *)
Lemma oversized : forall c buffer size up s fuel ops s' es, cfg_ok c -> DBG c = true -> buffer_ok buffer size ->
  construct c buffer size up = Ok s -> Forall sane_op ops -> run c fuel s ops = Ok (s', es) ->
  forall sz align ans s2 p calls, bc s * BS c < sz < 2 ^ 64 -> pow2 align -> align < 2 ^ 64 ->
  allocate_impl c fuel s' sz align ans = Ok (s2, p, calls) ->
  s2 = s' /\ ((has_up s = true /\ calls = [UpAllocate sz align] /\ p = ans sz align) \/
              (has_up s = false /\ calls = [] /\ p = 0)).
Proof.
  intros c buffer size up s fuel ops s' es HC DB HB E V R sz align ans s2 p calls S A SA H.
  destruct (construct_aligned _ _ _ _ _ HC HB E) as [D1 [D2 [D3 _]]].
  destruct (run_any c fuel ops s s' es HC D1 V (fun _ => D2) R) as [[[P1 [P2 P3]] K] _].
  assert (A0 := pow2_gt_0 align A). assert (M := mb_range _ HC).
  assert (B0 : 0 <= bc s * BS c).
  { assert (P := bs_pos c HC). destruct D3 as [_ [_ D3]].
    destruct (construction c buffer size up HC HB) as [s1 [E1 [_ [_ [_ [_ [H5 _]]]]]]].
    rewrite E in E1. injection E1 as <-. destruct H5 as [[_ ->]|[_ [_ [H5 _]]]]; nia. }
  assert (SR : forall x q, search_buffer c fuel s' sz align = Ok (x, q) -> x = s' /\ q = 0).
  { intros x q X. destruct (search_any c fuel s' sz align x q HC) as [Y|[_ [_ [_ [_ Y]]]]]; auto; [rewrite P1; auto|].
    unfold in_range, in_bounds in *. rewrite P1, P2 in Y. cbn [fst snd] in Y.
    specialize (Y DB (K DB D2) ltac:(lia) D3). lia. }
  unfold allocate_impl in H. rewrite eqb_false in H by lia.
  apply cassert_inv in H. destruct H as [H _]. apply bind_inv in H. destruct H as [[s1 q] [E1 H]].
  destruct (SR _ _ E1) as [-> ->]. cbn [Z.eqb andb] in H.
  destruct (has_up s') eqn:HU; inv_ok; subst; rewrite P3 in HU; auto.
Qed.

(** release builds, as long as nothing wraps around: after a history that the debug
    build would have passed *)
Lemma big_not_here : forall c size align s p i s' p' b, cfg_ok c -> (BS c | data s) -> links_forward s -> in_range c s ->
  0 < data s -> 0 <= i < bc s -> pow2 align -> 0 < size -> bc s * BS c < size -> size + align <= 2 ^ 64 ->
  alloc_act c size align s p i = Ok (s', p', b) ->
  s' = s /\ p' = p /\ (b = true -> 2 <= bc s).
Proof.
  intros c size align s p i s' p' b HC D LF [R0 [R1 R2]] D0 I Pa S0 S1 S2 H. assert (P := bs_pos c HC).
  assert (A0 := pow2_gt_0 align Pa).
  assert (AJ : exists j, 0 <= j < 64 /\ align = 2 ^ j).
  { destruct Pa as [j [Hj Ea]]. exists j. split; auto. split; auto. apply Z.pow_lt_mono_r_iff with (a := 2); lia. }
  destruct AJ as [j [Hj Ea]].
  unfold alloc_act, block_size_in_bytes, block_size, block_index_to_pointer, next_index, at_ in H. inv_ok. subst.
  assert (IB : 0 <= i * BS c < bc s * BS c) by nia.
  rewrite (wrap_id 64 (i * BS c)) in * by lia. rewrite (wrap_id 64 (data s + i * BS c)) in * by lia.
  rewrite skip_value in * by lia.
  match goal with E : Ok _ = Ok _ |- _ => injection E as <- end.
  assert (PJ := pow2_pos j ltac:(lia)). assert (SB := Z.mod_pos_bound (- (data s + i * BS c)) (2 ^ j) PJ).
  assert (N : wrap 64 (wrap 64 ((if nxt s i =? 0 then bc s else nxt s i) - i) * BS c) <= bc s * BS c).
  { assert (M := mb_range _ HC). destruct (LF i) as [E0|E0].
    - rewrite E0. cbn [Z.eqb]. rewrite (wrap_id 64 (bc s - i)) by nia. rewrite wrap_id by nia. nia.
    - rewrite eqb_false by lia. rewrite (wrap_id 64 (nxt s i - i)) by nia. rewrite wrap_id by nia. nia. }
  rewrite wrap_id in H by lia.
  rewrite leb_false in H by lia. inv_ok. subst. split; auto. split; auto.
  intros B. destruct (LF i) as [E0|E0]; [rewrite E0 in B; discriminate|lia].
Qed.
Lemma big_loop : forall c size align, cfg_ok c -> pow2 align -> 0 < size -> size + align <= 2 ^ 64 ->
  forall fuel s p i s' p', (BS c | data s) -> links_forward s -> in_range c s -> 0 < data s -> 0 <= i < bc s ->
  bc s * BS c < size ->
  apply_loop fuel c (alloc_pred c) (alloc_act c size align) s p i = Ok (s', p') -> s' = s /\ p' = p.
Proof.
  intros c size align HC Pa S0 SA. induction fuel as [|fuel IH]; intros s p i s' p' D LF R D0 I S1 H; [discriminate H|].
  cbn [apply_loop] in H. apply bind_inv in H. destruct H as [x [E H]].
  apply bind_inv in H. destruct H as [b [Eb H]].
  apply bind_inv in H. destruct H as [[[s1 a1] i1] [E1 H]].
  destruct b.
  - apply bind_inv in E1. destruct E1 as [[[s2 a2] b2] [E2 E3]]. injection E3 as -> -> <-.
    destruct (big_not_here c size align s p i s1 a1 b2 HC D LF R D0 I Pa S0 S1 SA E2) as [-> [-> B]].
    destruct b2; cbn [of_bool Z.eqb] in H.
    + apply (IH s p 1 s' p'); auto. specialize (B eq_refl). lia.
    + inv_ok. subst. auto.
  - apply bind_inv in E1. destruct E1 as [n [E2 E3]]. injection E3 as <- <- <-.
    unfold next_index, at_ in E2. inv_ok. subst n.
    destruct (Z.eqb_spec (nxt s i) 0) as [Z|Z]; [inv_ok; subst; auto|].
    apply (IH s p (nxt s i)); auto. destruct (LF i) as [X|X]; lia.
Qed.

Lemma oversized_release : forall m b buffer size up s fuel ops s' es, cfg_ok (Cfg m b true) -> buffer_ok buffer size ->
  construct (Cfg m b true) buffer size up = Ok s -> Forall sane_op ops -> run (Cfg m b true) fuel s ops = Ok (s', es) ->
  run (Cfg m b false) fuel s ops = Ok (s', es) /\
  forall sz align ans s2 p calls, bc s * b < sz -> pow2 align -> sz + align <= 2 ^ 64 ->
  allocate_impl (Cfg m b false) fuel s' sz align ans = Ok (s2, p, calls) ->
  s2 = s' /\ ((has_up s = true /\ calls = [UpAllocate sz align] /\ p = ans sz align) \/
              (has_up s = false /\ calls = [] /\ p = 0)).
Proof.
  intros m b buffer size up s fuel ops s' es HC HB E V R.
  assert (HR : cfg_ok (Cfg m b false)) by (destruct HC; constructor; assumption).
  split. { assert (A := s_run m b fuel ops s). rewrite R in A. exact A. }
  intros sz align ans s2 p calls S A SA H.
  destruct (construct_aligned _ _ _ _ _ HC HB E) as [D1 [D2 [D3 _]]].
  destruct (run_any _ fuel ops s s' es HC D1 V (fun _ => D2) R) as [[[P1 [P2 P3]] K] _].
  specialize (K eq_refl D2). assert (P := bs_pos _ HC). cbn [BS] in *.
  assert (B0 : 0 <= bc s * b /\ (data s <> 0 -> 0 < bc s)).
  { destruct (construction _ buffer size up HC HB) as [s1 [E1 [_ [_ [_ [_ [H5 _]]]]]]].
    rewrite E in E1. injection E1 as <-. cbn [BS MB] in *. destruct H5 as [[-> ->]|[_ [_ [H5 _]]]]; split; nia. }
  assert (SR : forall x q, search_buffer (Cfg m b false) fuel s' sz align = Ok (x, q) -> x = s' /\ q = 0).
  { intros x q X. unfold search_buffer in X.
    destruct (Z.eqb_spec (data s') 0) as [D0|D0]; [inv_ok; subst; auto|]. inv_ok.
    destruct (align <=? x2); [|inv_ok; subst; auto]. cbn [BS] in *.
    unfold in_range in *. destruct D3 as [R0 [R1 R2]].
    destruct B0 as [B1 B0]. rewrite P1 in D0. specialize (B0 D0).
    apply (big_loop (Cfg m b false) sz align HR A ltac:(lia) SA fuel s' 0 0); cbn [BS]; rewrite ?P1, ?P2; auto; try lia.
    unfold in_range. cbn [BS MB] in *. rewrite P1, P2. auto. }
  unfold allocate_impl in H. rewrite eqb_false in H by lia.
  apply cassert_inv in H. destruct H as [H _]. apply bind_inv in H. destruct H as [[s1 q] [E1 H]].
  destruct (SR _ _ E1) as [-> ->]. cbn [Z.eqb andb] in H.
  destruct (has_up s') eqn:HU; inv_ok; subst; rewrite P3 in HU; auto.
Qed.

(** C52 *)
Lemma careful_returns : forall c s rs fuel size align ans, cfg_ok c -> wf c s rs ->
  ordinary_buffer (data s) (bc s * BS c) -> (Z.to_nat (bc s) < fuel)%nat ->
  0 <= size -> (0 < size -> pow2 align /\ careful (data s) (BS c) (bc s) rs size align) ->
  (has_up s = true -> answer_fits (BS c) (ans size align)) ->
  exists s' p calls, allocate_impl c fuel s size align ans = Ok (s', p, calls).
Proof.
  intros c s rs fuel size align ans HC W O F S0 H A. destruct (Z.eq_dec size 0) as [->|S1].
  - rewrite allocate_zero. eauto.
  - destruct (H ltac:(lia)) as [PA CA].
    destruct (step_allocate c s rs fuel size align ans HC W O F ltac:(lia) PA CA A) as [[_ E]|[l [f [t [s' [q [_ [E _]]]]]]]].
    + rewrite E. destruct (has_up s); eauto.
    + eauto.
Qed.

(** C53, C55 *)
Lemma first_fit_served : forall c s rs fuel size align ans l f t, cfg_ok c -> wf c s rs ->
  ordinary_buffer (data s) (bc s * BS c) -> (Z.to_nat (bc s) < fuel)%nat ->
  0 < size -> pow2 align -> size + align <= 2 ^ 64 ->
  alignment_within_reach (data s) (bc s * BS c) align -> search_safe (data s) (BS c) rs size align ->
  first_fit (data s) (BS c) rs size align l f t ->
  exists s' q i rs', allocate_impl c fuel s size align ans = Ok (s', q, []) /\
    first_aligned (data s) (BS c) f align q /\ q = data s + i * BS c /\
    wf c s' rs' /\ same_place s s' /\
    busy rs' = busy l ++ Reg i (size / BS c + 1) true :: busy t.
Proof.
  intros c s rs fuel size align ans l f t HC W O F S0 PA SA RE SS FF.
  destruct (allocate_serve c s rs fuel size align ans l f t HC W (conj S0 (conj PA SA)) O RE SS
    (region_count_fuel _ _ _ _ W F) FF) as [s' [q [E [FA [Q0 [k [K0 [K1 [K2 [K3 [K4 [K5 [K6 [K7 K8]]]]]]]]]]]]]].
  exists s', q, (rstart f + k), (l ++ carve f k (size / BS c + 1) ++ t).
  split; auto. split; auto. split; auto. split; auto. split; [repeat split; auto|]. apply served_busy.
Qed.

(** C54 *)
Lemma upstream_used : forall c s rs fuel size align ans, cfg_ok c -> wf c s rs ->
  ordinary_buffer (data s) (bc s * BS c) -> (Z.to_nat (bc s) < fuel)%nat ->
  0 < size -> pow2 align -> careful (data s) (BS c) (bc s) rs size align ->
  (has_up s = true -> answer_fits (BS c) (ans size align)) ->
  exists s' p calls, allocate_impl c fuel s size align ans = Ok (s', p, calls) /\
    (nothing_fits (data s) (BS c) rs size align ->
       s' = s /\ (if has_up s then calls = [UpAllocate size align] /\ p = ans size align
                  else calls = [] /\ p = 0)) /\
    (~ nothing_fits (data s) (BS c) rs size align -> calls = [] /\ p <> 0).
Proof.
  intros c s rs fuel size align ans HC W O F S0 PA CA A.
  destruct (step_allocate c s rs fuel size align ans HC W O F S0 PA CA A) as [[NF E]|[l [f [t [s' [q [FF [E SV]]]]]]]].
  - rewrite E. destruct (has_up s).
    + exists s, (ans size align), [UpAllocate size align]. split; [reflexivity|]. split; [auto|]. intros X. exfalso. apply X. exact NF.
    + exists s, 0, []. split; [reflexivity|]. split; [auto|]. intros X. exfalso. apply X. exact NF.
  - exists s', q, []. split; auto. destruct SV as [_ [Q0 _]]. destruct FF as [-> [B [CH _]]]. split.
    + intros NF. exfalso. apply (NF f); auto. apply in_or_app. right. left. auto.
    + intros _. split; auto. lia.
Qed.

(** C56 *)
Lemma dealloc_exact : forall c s rs p, cfg_ok c -> wf c s rs -> data s <= p < data s + bc s * BS c ->
  (forall l r t, rs = l ++ r :: t -> rbusy r = true -> p = region_addr (data s) (BS c) r ->
     exists s' rs', deallocate_impl c s p = Ok (s', []) /\ wf c s' rs' /\ same_place s s' /\
       busy rs' = busy l ++ busy t) /\
  ((forall r, In r rs -> rbusy r = true -> p <> region_addr (data s) (BS c) r) ->
     deallocate_impl c s p = Abort).
Proof.
  intros c s rs p HC W R. split.
  - intros l r t -> B ->. destruct (deallocate_live c s l r t HC W B) as [s' [a [n [l' [t' [E [W' [FR [D1 [D2 [D3 _]]]]]]]]]]].
    exists s', (l' ++ Reg a n false :: t'). split; auto. split; auto. split; [repeat split; auto|].
    eapply freed_busy; eauto.
  - intros N. apply (deallocate_not_live c s rs); auto.
Qed.

(** C57 *)
Lemma dealloc_coalesces : forall c s rs p s', cfg_ok c -> wf c s rs -> data s <= p < data s + bc s * BS c ->
  deallocate_impl c s p = Ok (s', []) -> exists rs', wf c s' rs' /\ regions_of s' rs' /\ coalesced rs'.
Proof.
  intros c s rs p s' HC W R E. destruct (dealloc_exact c s rs p HC W R) as [D1 D2].
  assert (X : (exists l r t, rs = l ++ r :: t /\ rbusy r = true /\ p = region_addr (data s) (BS c) r) \/
              (forall r, In r rs -> rbusy r = true -> p <> region_addr (data s) (BS c) r)).
  { clear. induction rs as [|r rs IH]; [right; intros ? []|].
    destruct (rbusy r) eqn:B; [destruct (Z.eq_dec p (region_addr (data s) (BS c) r)) as [E|E]|].
    - left. exists [], r, rs. auto.
    - destruct IH as [[l [x [t [-> [X1 X2]]]]]|N]; [left; exists (r :: l), x, t; auto|right].
      intros x [->|I]; auto.
    - destruct IH as [[l [x [t [-> [X1 X2]]]]]|N]; [left; exists (r :: l), x, t; auto|right].
      intros x [->|I] Bx; [congruence|auto]. }
  destruct X as [[l [r [t [X1 [X2 X3]]]]]|X].
  - destruct (D1 l r t X1 X2 X3) as [s1 [rs' [E1 [W' _]]]]. rewrite E in E1. injection E1 as <-.
    exists rs'. split; auto. split; [apply (wf_tiles _ _ _ W')|apply (wf_coal _ _ _ W')].
  - rewrite (D2 X) in E. discriminate.
Qed.

(** C58 *)
Lemma alloc_dealloc : forall c s rs fuel size align ans l f t, cfg_ok c -> wf c s rs ->
  ordinary_buffer (data s) (bc s * BS c) -> (Z.to_nat (bc s) < fuel)%nat ->
  0 < size -> pow2 align -> size + align <= 2 ^ 64 ->
  alignment_within_reach (data s) (bc s * BS c) align -> search_safe (data s) (BS c) rs size align ->
  first_fit (data s) (BS c) rs size align l f t ->
  exists s1 q s2, allocate_impl c fuel s size align ans = Ok (s1, q, []) /\
    deallocate_impl c s1 q = Ok (s2, []) /\
    wf c s2 rs /\ freec s2 = freec s /\ busyc s2 = busyc s /\ same_place s s2.
Proof.
  intros c s rs fuel size align ans l f t HC W O F S0 PA SA RE SS FF.
  destruct (first_fit_served c s rs fuel size align ans l f t HC W O F S0 PA SA RE SS FF)
    as [s1 [q [i [rs1 [E [FA [Q [W1 [[P1 [P2 P3]] B1]]]]]]]]].
  assert (I : exists l1 t1, rs1 = l1 ++ Reg i (size / BS c + 1) true :: t1 /\ busy l1 = busy l /\ busy t1 = busy t).
  { clear - B1 FF W1. assert (ND := contiguous_nodup _ _ _ (proj1 (wf_tiling _ _ _ W1))). revert ND B1.
    generalize (busy l) (busy t). clear. intros bl bt. revert bl. induction rs1 as [|r rs IH]; intros bl ND B.
    - destruct bl; discriminate.
    - inversion ND as [|? ? N1 N2]; subst. destruct (rbusy r) eqn:R.
      + rewrite busy_cons_busy in B by auto. destruct bl as [|x bl].
        * injection B as <- B. exists [], rs. auto.
        * injection B as <- B. destruct (IH bl N2 B) as [l1 [t1 [-> [I1 I2]]]].
          exists (r :: l1), t1. split; auto. split; auto. rewrite busy_cons_busy by auto. congruence.
      + rewrite busy_cons_free in B by auto. destruct (IH bl N2 B) as [l1 [t1 [-> [I1 I2]]]].
        exists (r :: l1), t1. split; auto. split; auto. rewrite busy_cons_free by auto. auto. }
  destruct I as [l1 [t1 [-> [I1 I2]]]].
  destruct (deallocate_live c s1 l1 (Reg i (size / BS c + 1) true) t1 HC W1 eq_refl)
    as [s2 [a [n [l' [t' [E2 [W2 [FR [D1 [D2 [D3 _]]]]]]]]]]].
  assert (EQ : addr c s1 (Reg i (size / BS c + 1) true) = q) by (unfold addr, region_addr; cbn [rstart]; congruence).
  rewrite EQ in E2. exists s1, q, s2. split; auto. split; auto.
  assert (RS : l' ++ Reg a n false :: t' = rs).
  { apply (tiling_unique (bc s)).
    - rewrite <- P2, <- D2. eapply wf_tiling; eauto.
    - eapply wf_tiling; eauto.
    - rewrite (freed_busy l1 (Reg i (size / BS c + 1) true) t1 a n l' t' eq_refl FR). rewrite I1, I2.
      destruct FF as [-> [FB _]]. rewrite busy_app, busy_cons_free by auto. auto. }
  rewrite RS in W2. split; auto.
  rewrite (wf_free _ _ _ W2), (wf_busy _ _ _ W2), (wf_free _ _ _ W), (wf_busy _ _ _ W).
  split; auto. split; auto. repeat split; congruence.
Qed.

(** C59, C60 *)
Lemma careful_counts : forall c buffer size up s fuel ops, made c buffer size up s ->
  (Z.to_nat (bc s) < fuel)%nat -> careful_client (data s) (BS c) (bc s) up ops ->
  exists s' es rs, run c fuel s ops = Ok (s', es) /\ regions_of s' rs /\ tiling (bc s) rs /\
    freec s' = Z.of_nat (length (free rs)) /\ busyc s' = Z.of_nat (length (busy rs)) /\
    busyc s' = Z.of_nat (length (live es)) /\
    Permutation (map fst (live es)) (map (region_addr (data s) (BS c)) (busy rs)).
Proof.
  intros c buffer size up s fuel ops M F V.
  destruct (careful_history c buffer size up s fuel ops M F V) as [s' [rs [es [R [W [SP [SR [T L]]]]]]]].
  exists s', es, rs. split; auto. split; [apply (wf_tiles _ _ _ W)|]. split; auto.
  split; [apply (wf_free _ _ _ W)|]. split; [apply (wf_busy _ _ _ W)|].
  split; [rewrite (wf_busy _ _ _ W), (live_inv_count _ _ _ _ L); auto|]. apply L.
Qed.

Lemma tiling_lengths : forall n rs, tiling n rs -> fold_right Z.add 0 (map rlen rs) = n.
Proof.
  intros n rs [T _]. enough (G : forall a, contiguous n a rs -> fold_right Z.add 0 (map rlen rs) = n - a)
    by (rewrite (G 0 T); lia).
  clear T. induction rs as [|r rs IH]; intros a H; cbn in *; [lia|].
  destruct H as [H1 [H2 H3]]. rewrite (IH _ H3). lia.
Qed.

(** C62 *)
Lemma remove_ptr_length : forall p L, In p (map fst L) -> S (length (remove_ptr p L)) = length L.
Proof.
  intros p L; induction L as [|a L IH]; intros H; [contradiction|]. cbn [remove_ptr].
  destruct (Z.eqb_spec (fst a) p) as [E|E]; [reflexivity|]. cbn [length]. f_equal. apply IH.
  destruct H as [H|H]; [contradiction|auto].
Qed.

Lemma live_length : forall es L, polite L es -> ~ In ERelease es -> (forall a, In a L -> fst a <> 0) ->
  Z.of_nat (length (fold_left live_after es L)) = Z.of_nat (length L) + count is_served es - count is_returned es.
Proof.
  intros es; induction es as [|e es IH]; intros L P N Z0.
  - unfold count. cbn. lia.
  - cbn [fold_left]. rewrite !count_cons. destruct P as [P1 P2].
    assert (NR : ~ In ERelease es) by (intros X; apply N; right; auto).
    destruct e as [sz al p calls|p calls|]; [| |exfalso; apply N; left; auto].
    + destruct calls as [|u cl]; cbn [live_after is_served is_returned] in *; [|rewrite IH; auto; lia].
      destruct (Z.eqb_spec p 0) as [E|E]; cbn [negb]; [rewrite IH; auto; lia|].
      rewrite IH; auto; [cbn [length]; lia|]. intros a [<-|I]; auto.
    + destruct calls as [|u cl]; cbn [live_after is_served is_returned] in *; [|rewrite IH; auto; lia].
      assert (SUB : forall a, In a (remove_ptr p L) -> In a L).
      { clear. induction L as [|b L IH]; intros a H; [contradiction|]. cbn [remove_ptr] in H.
        destruct (fst b =? p); [right; auto|]. destruct H as [H|H]; [left; auto|right; auto]. }
      destruct (Z.eqb_spec p 0) as [E|E]; cbn [negb].
      * subst p. rewrite IH; auto. rewrite remove_ptr_absent; [lia|].
        intros I. apply in_map_iff in I. destruct I as [a [I1 I2]]. apply (Z0 a I2 I1).
      * destruct P1 as [P1|P1]; [contradiction|]. rewrite IH; auto.
        assert (X := remove_ptr_length p L P1). unfold alloc in *. lia.
Qed.

Lemma no_release_event : forall c fuel ops s s' es room, Forall (counted_op room) ops ->
  run c fuel s ops = Ok (s', es) -> ~ In ERelease es.
Proof.
  intros c fuel ops; induction ops as [|o ops IH]; intros s s' es room V H; cbn [run] in H.
  - injection H as <- <-. intros [].
  - apply bind_inv in H. destruct H as [[s1 e] [E1 H]]. apply bind_inv in H. destruct H as [[s2 es'] [E2 H]].
    injection H as <- <-. inversion V as [|? ? V1 V2]; subst. intros [X|X].
    + subst e. destruct o; cbn [step counted_op] in *; try contradiction.
      * apply bind_inv in E1. destruct E1 as [[[a b] d] [_ E1]]. discriminate.
      * apply bind_inv in E1. destruct E1 as [[a b] [_ E1]]. discriminate.
    + eapply IH; eauto.
Qed.

Lemma destructor : forall c fuel buffer size up ops s s' es, cfg_ok c -> buffer_ok buffer size ->
  buffer + BS c + MB c * BS c <= 2 ^ 64 ->
  Forall (counted_op (buffer + BS c + MB c * BS c)) ops -> Z.of_nat (length ops) < 2 ^ 64 ->
  construct c buffer size up = Ok s -> run c fuel s ops = Ok (s', es) -> polite [] es ->
  busyc s' = Z.of_nat (length (live es)) /\
  destroy s' = (match live es with [] => Ok tt | _ => Abort end).
Proof.
  intros c fuel buffer size up ops s s' es HC [B1 [B2 B3]] HM V L E R P.
  assert (B := busy_counts c fuel buffer size up ops s s' es HC B1 B2 B3 HM V L E R).
  assert (X := live_length es [] P (no_release_event _ _ _ _ _ _ _ V R) ltac:(intros ? [])).
  cbn [length] in X. fold (live es) in X. unfold destroy.
  destruct (live es) as [|a l]; cbn [length] in X; split; try (cbn [length]; lia).
  - rewrite (proj2 (Z.eqb_eq (busyc s') 0)) by lia. reflexivity.
  - rewrite eqb_false by lia. reflexivity.
Qed.

(** C63 *)
Lemma live_pointer_returned : forall c buffer size up s fuel ops, made c buffer size up s ->
  (Z.to_nat (bc s) < fuel)%nat -> careful_client (data s) (BS c) (bc s) up ops ->
  exists s' es, run c fuel s ops = Ok (s', es) /\
    (forall p, In p (map fst (live es)) -> exists s2, deallocate_impl c s' p = Ok (s2, [])) /\
    (forall p, up = true -> 0 < p < 2 ^ 64 -> (BS c | p) -> ~ data s <= p < data s + bc s * BS c ->
       deallocate_impl c s' p = Ok (s', [UpDeallocate p])).
Proof.
  intros c buffer size up s fuel ops M F V.
  destruct (careful_history c buffer size up s fuel ops M F V) as [s' [rs [es [R [W [[P1 [P2 P3]] [SR [T L]]]]]]]].
  destruct (made_wf _ _ _ _ _ M) as [HC [_ [U [_ [O [D [B _]]]]]]].
  exists s', es. split; auto. split.
  - intros p I. destruct L as [LP LR].
    assert (J : In p (map (region_addr (data s) (BS c)) (busy rs))) by (eapply Permutation_in; eauto).
    apply in_map_iff in J. destruct J as [r [J1 J2]]. apply in_busy in J2. destruct J2 as [J2 J3].
    apply in_split in J2. destruct J2 as [l [t ->]].
    destruct (deallocate_live c s' l r t HC W J3) as [s2 [a [n [l' [t' [E _]]]]]].
    exists s2. rewrite <- E. f_equal. unfold addr. congruence.
  - intros p Hu P0 DV NI. rewrite (deallocate_outside c s' p HC (wf_geom _ _ _ W) P0) by (rewrite P1, P2; auto).
    rewrite P3, U, Hu. rewrite (proj2 (Z.eqb_eq _ 0)); [reflexivity|]. apply Z.mod_divide; auto; lia.
Qed.

(** C61 *)
Lemma single_block_history : forall c buffer size up s fuel ops, made c buffer size up s ->
  (enough (bc s) <= fuel)%nat -> 2 * BS c <= 2 ^ 64 ->
  single_block_client (data s) (BS c) (bc s) up ops ->
  exists s' rs es, run c fuel s ops = Ok (s', es) /\ wf c s' rs /\ same_place s s' /\
    spec_run (data s) (BS c) (bc s) (has_up s) [Reg 0 (bc s) false] ops rs es /\
    links_inside s' rs /\ pool_inv (bc s) 1 rs /\ live_inv (data s) (BS c) rs (live es).
Proof.
  intros c buffer size up s fuel ops M F B2 V.
  destruct (made_wf _ _ _ _ _ M) as [HC [W [U [NX [O [D [B [PB [DV N]]]]]]]]].
  unfold single_block_client in V. rewrite <- U in V.
  destruct (one_block_run c fuel ops s _ HC W (start_links c s W NX) (pool_start _ _ N) O F B2 V)
    as [s' [rs [es [R [W' [SP [SR [LI PI]]]]]]]].
  exists s', rs, es.
  destruct (spec_run_live _ _ _ _ _ _ _ _ [] D B N (wf_tiling _ _ _ W) (live_inv_start _ _ _) SR) as [T L].
  unfold live. auto 10.
Qed.

Lemma single_block_release : forall c buffer size up s fuel ops, made c buffer size up s ->
  (enough (bc s) <= fuel)%nat -> 2 * BS c <= 2 ^ 64 ->
  single_block_client (data s) (BS c) (bc s) up ops ->
  exists s' es s2, run c fuel s ops = Ok (s', es) /\ release c fuel s' = Ok s2 /\
    regions_of s2 [Reg 0 (bc s) false] /\ freec s2 = 1 /\ busyc s2 = 0 /\ destroy s2 = Ok tt.
Proof.
  intros c buffer size up s fuel ops M F B2 V.
  destruct (single_block_history c buffer size up s fuel ops M F B2 V) as [s' [rs [es [R [W [[P1 [P2 P3]] [SR [LI _]]]]]]]].
  destruct (made_wf _ _ _ _ _ M) as [HC _].
  destruct (release_ok c HC s' rs fuel W LI ltac:(rewrite P2; auto)) as [s2 [E [W2 [Q1 [Q2 [Q3 _]]]]]].
  rewrite P2 in W2. exists s', es, s2. split; auto. split; auto. split; [apply (wf_tiles _ _ _ W2)|].
  assert (X := wf_free _ _ _ W2). assert (Y := wf_busy _ _ _ W2). cbn in X, Y.
  split; auto. split; auto. unfold destroy. rewrite Y. reflexivity.
Qed.

(** C64 *)
Lemma single_block_contract : forall c buffer size up s fuel ops, made c buffer size up s ->
  (enough (bc s) <= fuel)%nat -> 2 * BS c <= 2 ^ 64 ->
  single_block_client (data s) (BS c) (bc s) up ops ->
  exists s' rs es, run c fuel s ops = Ok (s', es) /\
    spec_run (data s) (BS c) (bc s) up [Reg 0 (bc s) false] ops rs es /\
    regions_of s' rs /\ tiling (bc s) rs /\ (forall r, In r (busy rs) -> rlen r = 1) /\
    pairwise_disjoint (live es) /\ (forall a, In a (live es) -> in_bounds (data s) (data s + bc s * BS c) a) /\
    freec s' = Z.of_nat (length (free rs)) /\ busyc s' = Z.of_nat (length (live es)) /\
    destroy s' = (match live es with [] => Ok tt | _ => Abort end).
Proof.
  intros c buffer size up s fuel ops M F B2 V.
  destruct (single_block_history c buffer size up s fuel ops M F B2 V) as [s' [rs [es [R [W [[P1 [P2 P3]] [SR [LI [PI L]]]]]]]]].
  destruct (made_wf _ _ _ _ _ M) as [HC [_ [U [_ [O [D [B _]]]]]]].
  assert (T : tiling (bc s) rs) by (rewrite <- P2; eapply wf_tiling; eauto).
  exists s', rs, es. split; auto. split; [rewrite <- U; auto|]. split; [apply (wf_tiles _ _ _ W)|]. split; auto.
  split; [intros r Hr; apply in_busy in Hr; destruct PI as [_ PI]; apply PI; tauto|].
  split; [eapply live_inv_disjoint; eauto|]. split; [eapply live_inv_bounds; eauto|].
  split; [apply (wf_free _ _ _ W)|].
  assert (BC : busyc s' = Z.of_nat (length (live es))) by (rewrite (wf_busy _ _ _ W), (live_inv_count _ _ _ _ L); auto).
  split; auto. unfold destroy. rewrite BC. destruct (live es); [reflexivity|]. rewrite eqb_false by (cbn [length]; lia). reflexivity.
Qed.

(** * Buffers too small for a block *)

Lemma empty_allocate : forall c s fuel size align ans, data s = 0 -> 0 < size -> DBG c = false \/ pow2 align /\ align < 2 ^ 64 ->
  (DBG c = true -> cfg_ok c /\ (has_up s = true -> answer_fits (BS c) (ans size align))) ->
  allocate_impl c fuel s size align ans =
    Ok (if has_up s then (s, ans size align, [UpAllocate size align]) else (s, 0, [])).
Proof.
  intros c s fuel size align ans D S A AF. unfold allocate_impl. rewrite eqb_false by lia.
  assert (IP : cassert (DBG c) (is_power_of_2 align) = cassert (DBG c) true (A := state * Z * list upcall)).
  { destruct A as [->|[[k [Hk ->]] L]]; [reflexivity|]. rewrite is_power_of_2_pow; auto.
    split; auto. apply Z.pow_lt_mono_r_iff with (a := 2); lia. }
  rewrite IP, cassert_true. unfold search_buffer. rewrite D. cbn [Z.eqb bind andb].
  destruct (DBG c) eqn:DB; [|destruct (has_up s); reflexivity]. destruct (AF eq_refl) as [HC AF'].
  destruct (has_up s).
  - destruct (AF' eq_refl) as [R V]. rewrite aligned_bs by auto.
    rewrite (proj2 (Z.eqb_eq _ 0)) by (apply Z.mod_divide; auto; assert (P := bs_pos c HC); lia). reflexivity.
  - rewrite aligned_bs by (auto; lia). rewrite Z.mod_0_l by (assert (P := bs_pos c HC); lia). reflexivity.
Qed.

Lemma empty_release : forall c s fuel, DBG c = true -> bc s = 0 -> (0 < fuel)%nat -> release c fuel s = Abort.
Proof.
  intros c s [|fuel] DB B F; [lia|]. unfold release. cbn [apply_loop].
  unfold next_index, at_. rewrite DB, B. reflexivity.
Qed.

(** * Witnesses *)

Lemma ordinary_small : forall d n, 0 < d -> 0 <= n -> d + n < 2 ^ 31 -> ordinary_buffer d n.
Proof. intros d n D N H g G V. apply Z.divide_pos_le in V; lia. Qed.
