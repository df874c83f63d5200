(** Lemmas about simple_resource: the regions stay right for as long as no blocks are given out
    twice and none behind the buffer. *)

Require Import ZArith Lia List Bool Permutation.
Require Import Verif.Outcome Verif.Machine Verif.BitsModel Verif.BitsSpec Verif.BitsProofs.
Require Import Verif.ArithModel Verif.ArithProofs.
Require Import Verif.SimpleModel Verif.SimpleSpec Verif.SimpleView Verif.SimpleProofs Verif.SimpleAllocProofs.
Require Import Verif.SimpleScanProofs Verif.SimpleOpProofs Verif.SimpleHistProofs Verif.SimpleReleaseProofs
  Verif.SimpleAnyProofs Verif.SimpleMainProofs Verif.SimpleExactProofs Verif.SimpleAstrayProofs Verif.SimpleWalkProofs.
Import ListNotations.
Open Scope Z_scope.
Open Scope res_scope.

(** * allocate *)

Lemma miss_result : forall c s fuel size align ans s' p calls, size <> 0 ->
  search_buffer c fuel s size align = Ok (s, 0) -> allocate_impl c fuel s size align ans = Ok (s', p, calls) ->
  s' = s /\ (calls <> [] \/ p = 0).
Proof.
  intros c s fuel size align ans s' p calls S0 E H. unfold allocate_impl in H. rewrite eqb_false in H by auto.
  apply cassert_inv in H. destruct H as [H _]. rewrite E in H. cbn [bind] in H. rewrite Z.eqb_refl in H. cbn [andb] in H.
  destruct (has_up s); apply bind_inv in H; destruct H as [al [_ H]]; apply cassert_inv in H; destruct H as [H _];
    injection H as <- <- <-; split; auto. left. discriminate.
Qed.

Definition fits_in (c : cfg) (s : state) (rs : list region) (size : Z) (s' : state) (p : Z) : Prop :=
  0 < p /\ exists l f t i rs', rs = l ++ f :: t /\ rbusy f = false /\ p = data s + i * BS c /\
    wf c s' rs' /\ same_place s s' /\ links_forward s' /\ busy rs' = busy l ++ Reg i (size / BS c + 1) true :: busy t.

Lemma served_fits : forall c s rs l f t size align s' q, rs = l ++ f :: t -> rbusy f = false ->
  served c s l f t size align s' q -> links_forward s' -> fits_in c s rs size s' q.
Proof.
  intros c s rs l f t size align s' q E F [F1 [F2 [k [K1 [K2 [K3 [W' [D1 [D2 [D3 _]]]]]]]]]] LF'.
  split; auto. exists l, f, t, (rstart f + k), (l ++ carve f k (size / BS c + 1) ++ t).
  split; auto. split; auto. split; auto. split; auto. split; [split; [exact D1|split; [exact D2|exact D3]]|].
  split; auto. apply served_busy.
Qed.

(** memory of a region in use, or memory behind the buffer *)
Definition grabs (c : cfg) (s : state) (rs : list region) (size p : Z) : Prop :=
  0 < p /\ ((exists r, In r rs /\ rbusy r = true /\
     region_addr (data s) (BS c) r < p + (size / BS c + 1) * BS c /\ p < region_addr (data s) (BS c) r + rlen r * BS c) \/
   (DBG c = false /\ data s + bc s * BS c < p + (size / BS c + 1) * BS c)).

Lemma hit_result : forall c s fuel size align ans s1 q s' p calls, size <> 0 -> 0 < q ->
  search_buffer c fuel s size align = Ok (s1, q) -> allocate_impl c fuel s size align ans = Ok (s', p, calls) ->
  s' = s1 /\ p = q /\ calls = [].
Proof.
  intros c s fuel size align ans s1 q s' p calls S0 Q0 E H. unfold allocate_impl in H. rewrite eqb_false in H by auto.
  apply cassert_inv in H. destruct H as [H _]. rewrite E in H. cbn [bind] in H. rewrite eqb_false in H by lia. cbn [andb] in H.
  apply bind_inv in H; destruct H as [al [_ H]]; apply cassert_inv in H; destruct H as [H _].
  injection H as <- <- <-. auto.
Qed.

Lemma lost_result : forall c s fuel size align ans s' p calls, size <> 0 ->
  (forall x, search_buffer c fuel s size align <> Ok x) -> allocate_impl c fuel s size align ans = Ok (s', p, calls) -> False.
Proof.
  intros c s fuel size align ans s' p calls S0 N H. unfold allocate_impl in H. rewrite eqb_false in H by auto.
  apply cassert_inv in H. destruct H as [H _]. apply bind_inv in H. destruct H as [x [H _]]. exact (N _ H).
Qed.

Section Keep.
  Variables (c : cfg) (s : state) (size align : Z) (ans : Z -> Z -> Z) (r0 : region) (rs : list region).
  Hypothesis HC : cfg_ok c.
  Hypothesis W : wf c s (r0 :: rs).
  Hypothesis LF : links_forward s.
  Hypothesis O : ordinary_buffer (data s) (bc s * BS c).
  Hypothesis R : request size align.
  Hypothesis LA : align <= BS c.
  Notation loop fuel := (apply_loop fuel c (alloc_pred c) (alloc_act c size align)).

  Lemma keep_reach : alignment_within_reach (data s) (bc s * BS c) align.
  Proof.
    assert (Pa : pow2 align) by apply R. assert (G := wf_geom _ _ _ W). assert (P := bs_pos c HC).
    assert (BB := g_bc _ _ G). apply reach_divides; auto; [apply (g_data _ _ G)|nia|].
    eapply Z.divide_trans; [apply (pow2_le_divide _ _ Pa (bs_pow2 _ HC) LA)|apply (g_aligned _ _ G)].
  Qed.

  (** the blocks after block 1, when block 1 is inside the first region *)
  Lemma astray_busy : 2 <= rlen r0 -> passes_first_free (data s) (BS c) (r0 :: rs) size align ->
    exists r, In r (r0 :: rs) /\ rbusy r = true /\
      region_addr (data s) (BS c) r < data s + BS c + (size / BS c + 1) * BS c /\
      data s + BS c < region_addr (data s) (BS c) r + rlen r * BS c.
  Proof.
    intros L0 [l [f [t [E [A [F [N Nt]]]]]]]. assert (P := bs_pos c HC). assert (S0 : 0 < size) by apply R.
    destruct (long_start c s r0 rs W L0) as [Z0 _].
    assert (D0 : 0 <= size / BS c) by (apply Z.div_pos; lia).
    destruct (rbusy r0) eqn:B0.
    { exists r0. split; [left; auto|]. split; auto. unfold region_addr. rewrite Z0. nia. }
    destruct l as [|x l]; cbn [app] in E; injection E as E1 E2.
    2:{ exfalso. rewrite <- E1 in A. rewrite (A r0 (or_introl eq_refl)) in B0. discriminate B0. }
    subst f. destruct t as [|y t]; [congruence|].
    assert (K := wf_coal _ _ _ W). rewrite E2 in K. destruct (coalesced_head _ _ _ K) as [X|X]; [congruence|].
    exists y. split; [rewrite E2; right; left; auto|]. split; auto.
    assert (C := proj1 (wf_tiling _ _ _ W)). rewrite E2 in C.
    destruct (contiguous_adjacent _ [] _ _ _ _ C) as [C1 _].
    assert (BY := wf_bounds c s _ y W ltac:(rewrite E2; right; left; auto)).
    destruct (request_align _ _ R) as [j [Hj [Ej A0]]].
    assert (DA : (align | BS c)) by (apply pow2_le_divide; auto; [apply R|apply (bs_pow2 _ HC)]).
    rewrite can_hold_skip in N by auto.
    rewrite small_align_skip in N by (auto; apply (g_aligned _ _ (wf_geom _ _ _ W))).
    assert (SZ : rlen r0 * BS c < size) by lia.
    assert (SD : rlen r0 <= size / BS c) by (apply Z.div_le_lower_bound; lia).
    unfold region_addr. rewrite C1, Z0. nia.
  Qed.

  (** a request that fills a free region reaches one block further *)
  Lemma filled_grabs : forall l f t p, DBG c = false -> r0 :: rs = l ++ f :: t -> rbusy f = false ->
    can_hold (data s) (BS c) f size align -> ~ can_hold_spare (data s) (BS c) f size align ->
    p = region_addr (data s) (BS c) f -> grabs c s (r0 :: rs) size p.
  Proof.
    intros l f t p DB E F CH CS ->. assert (P := bs_pos c HC). assert (S0 : 0 < size) by apply R.
    destruct (request_align _ _ R) as [j [Hj [Ej A0]]].
    assert (DA : (align | BS c)) by (apply pow2_le_divide; auto; [apply R|apply (bs_pow2 _ HC)]).
    assert (G := wf_geom _ _ _ W). assert (GD := g_data _ _ G).
    rewrite can_hold_skip in CH by auto. rewrite can_hold_spare_skip in CS by auto.
    rewrite small_align_skip in CH, CS by (auto; apply (g_aligned _ _ G)).
    assert (SZ : size = rlen f * BS c) by lia.
    assert (SD : size / BS c = rlen f) by (rewrite SZ; apply Z.div_mul; lia).
    assert (BF := wf_bounds c s _ f W ltac:(rewrite E; apply in_app_iff; right; left; auto)).
    assert (W' := W). rewrite E in W'.
    split; [unfold region_addr; nia|]. rewrite SD.
    destruct t as [|y t].
    - right. split; auto. destruct (wf_region _ _ _ _ _ W') as [Q1 [Q2 [Q3 [Q4 [Q5 Q6]]]]].
      assert (C := proj1 (wf_tiling _ _ _ W')). apply contiguous_app in C. destruct C as [m [_ C]].
      cbn [contiguous] in C. unfold region_addr. nia.
    - left. exists y. assert (C := proj1 (wf_tiling _ _ _ W')).
      destruct (contiguous_adjacent _ _ _ _ _ _ C) as [C1 _].
      destruct (wf_coal _ _ _ W' l f y t eq_refl) as [X|X]; [congruence|].
      assert (BY := wf_bounds c s _ y W ltac:(rewrite E; apply in_app_iff; right; right; left; auto)).
      split; [rewrite E; apply in_app_iff; right; right; left; auto|]. split; auto.
      unfold region_addr. rewrite C1. nia.
  Qed.

  (** where the search stops, the pointer is the first aligned one *)
  Lemma stopped : forall i p s1 q x, 0 <= i < bc s -> can_hold (data s) (BS c) (from_block (nxt s) (bc s) i) size align ->
    alloc_act c size align s p i = Ok (s1, q, x) -> x = false /\ q = data s + i * BS c.
  Proof.
    intros i p s1 q x I CH H. assert (G := wf_geom _ _ _ W). assert (P := bs_pos c HC).
    destruct (request_align _ _ R) as [j [Hj [Ej A0]]].
    assert (DA : (align | BS c)) by (apply pow2_le_divide; auto; [apply R|apply (bs_pow2 _ HC)]).
    rewrite (fb_act c s size align HC R G LF) in H by auto. cbv zeta in H.
    rewrite can_hold_skip in CH by auto. rewrite leb_true in H by lia.
    rewrite small_align_skip in H by (auto; apply (g_aligned _ _ G)).
    apply bind_inv in H. destruct H as [s2 [_ H]]. injection H as <- <- <-. split; auto.
    assert (GD := g_data _ _ G). assert (GE := g_end _ _ G).
    assert (X : region_addr (data s) (BS c) (from_block (nxt s) (bc s) i) = data s + i * BS c) by reflexivity.
    rewrite X, wrap_id by nia. lia.
  Qed.

  (** a request that leaves no byte of the region to spare *)
  Lemma filling : forall fuel k l f t s' p calls, r0 :: rs = l ++ f :: t -> rbusy f = false ->
    can_hold (data s) (BS c) f size align -> ~ can_hold_spare (data s) (BS c) f size align ->
    search_buffer c fuel s size align =
      (' (s', a', b) <- alloc_act c size align s 0 (rstart f);; if b then loop k s' a' 1 else Ok (s', a')) ->
    allocate_impl c fuel s size align ans = Ok (s', p, calls) -> calls = [] /\ grabs c s (r0 :: rs) size p.
  Proof.
    intros fuel k l f t s' p calls E F CH CS SR H. assert (G := wf_geom _ _ _ W). assert (W' := W). rewrite E in W'.
    assert (S0 : size <> 0) by (assert (0 < size) by apply R; lia).
    destruct (wf_region _ _ _ _ _ W') as [Q1 [Q2 [Q3 [Q4 [Q5 Q6]]]]].
    assert (EF : from_block (nxt s) (bc s) (rstart f) = f).
    { destruct f as [fs fl fb]. unfold from_block, link in *. cbn [rstart rlen rbusy] in *. rewrite F, Q4. f_equal.
      destruct (Z.eqb_spec (fs + fl) (bc s)) as [Y|Y]; [cbn [Z.eqb]; lia|].
      destruct (Z.eqb_spec (fs + fl) 0); lia. }
    destruct (alloc_act c size align s 0 (rstart f)) as [[[s1 q] x]| | |] eqn:X; cbn [bind] in SR;
      [|exfalso; exact (lost_result _ _ _ _ _ _ _ _ _ S0 ltac:(rewrite SR; congruence) H)..].
    destruct (stopped (rstart f) 0 s1 q x ltac:(lia) ltac:(rewrite EF; exact CH) X) as [-> Q].
    assert (P := bs_pos c HC). assert (GD := g_data _ _ G).
    assert (Q0 : 0 < q) by nia.
    destruct (hit_result _ _ _ _ _ _ _ _ _ _ _ S0 Q0 SR H) as [_ [-> ->]]. split; auto.
    destruct (DBG c) eqn:DB; [|eapply filled_grabs; eauto]. exfalso.
    assert (Y := proj2 (found_act c s size align HC R G LF (rstart f) 0 ltac:(lia) ltac:(rewrite EF; exact CH))).
    rewrite EF, X in Y. specialize (Y CS DB). discriminate Y.
  Qed.

  Lemma landing : forall fuel k l f t s' p calls, r0 :: rs = l ++ f :: t -> rbusy f = false ->
    can_hold_spare (data s) (BS c) f size align ->
    search_buffer c fuel s size align =
      (' (s', a', b) <- alloc_act c size align s 0 (rstart f);; if b then loop k s' a' 1 else Ok (s', a')) ->
    allocate_impl c fuel s size align ans = Ok (s', p, calls) -> links_forward s'.
  Proof.
    intros fuel k l f t s' p calls E F CS SR H. assert (G := wf_geom _ _ _ W). assert (W' := W). rewrite E in W'.
    assert (S0 : size <> 0) by (assert (0 < size) by apply R; lia).
    destruct (request_align _ _ R) as [j [Hj [Ej A0]]].
    assert (CH : can_hold (data s) (BS c) f size align).
    { rewrite can_hold_skip by auto. rewrite can_hold_spare_skip in CS by auto. lia. }
    destruct (wf_region _ _ _ _ _ W') as [Q1 [Q2 [Q3 [Q4 [Q5 Q6]]]]].
    assert (EF : from_block (nxt s) (bc s) (rstart f) = f).
    { destruct f as [fs fl fb]. unfold from_block, link in *. cbn [rstart rlen rbusy] in *. rewrite F, Q4. f_equal.
      destruct (Z.eqb_spec (fs + fl) (bc s)) as [Y|Y]; [cbn [Z.eqb]; lia|].
      destruct (Z.eqb_spec (fs + fl) 0); lia. }
    destruct (alloc_act c size align s 0 (rstart f)) as [[[s1 q] x]| | |] eqn:X; cbn [bind] in SR;
      [|exfalso; exact (lost_result _ _ _ _ _ _ _ _ _ S0 ltac:(rewrite SR; congruence) H)..].
    destruct (stopped (rstart f) 0 s1 q x ltac:(lia) ltac:(rewrite EF; exact CH) X) as [-> Q].
    assert (P := bs_pos c HC). assert (GD := g_data _ _ G).
    assert (Q0 : 0 < q) by nia.
    destruct (hit_result _ _ _ _ _ _ _ _ _ _ _ S0 Q0 SR H) as [-> _].
    apply (found_links c s size align HC R G LF (rstart f) 0 s1 q false); auto; [lia|]. rewrite EF. exact CS.
  Qed.

  Lemma keep_long : forall fuel s' p calls, 2 <= rlen r0 -> (Z.to_nat (bc s) < fuel)%nat ->
    allocate_impl c fuel s size align ans = Ok (s', p, calls) ->
    (s' = s /\ (calls <> [] \/ p = 0)) \/ (calls = [] /\ fits_in c s (r0 :: rs) size s' p) \/
    (calls = [] /\ grabs c s (r0 :: rs) size p).
  Proof.
    intros fuel s' p calls L0 Hf H. assert (RE := keep_reach). assert (G := wf_geom _ _ _ W).
    assert (S0 : size <> 0) by (assert (0 < size) by apply R; lia).
    assert (Pa : pow2 align) by apply R.
    assert (SR := search_reached c s fuel size align HC G O Pa RE).
    destruct (request_align size align R) as [j [Hj [Ej A0]]].
    assert (LB := region_count_fuel _ _ _ _ W Hf).
    assert (LF1 := LF 1).
    destruct (passes_dec (data s) (BS c) (r0 :: rs) size align A0) as [PF|SF].
    - destruct (can_hold_dec (data s) (BS c) (from_block_1 (nxt s) (bc s)) size align A0) as [Y|NG].
      + assert (CS : can_hold_spare (data s) (BS c) (from_block_1 (nxt s) (bc s)) size align \/
                     ~ can_hold_spare (data s) (BS c) (from_block_1 (nxt s) (bc s)) size align).
        { rewrite can_hold_spare_skip by auto. lia. }
        destruct CS as [CS|CS].
        * destruct (astray_overlap c s r0 rs fuel size align ans HC W L0 LF1 Hf R LA O PF CS) as [s2 [q [E [Q _]]]].
          rewrite H in E. injection E as -> -> ->. right. right. split; auto. rewrite Q.
          assert (P := bs_pos c HC). assert (GD := g_data _ _ G). split; [lia|]. left. apply astray_busy; auto.
        * destruct (passes_length _ _ _ _ _ fuel PF LB) as [l [f [t [k [E [A [F [N [Nt EF]]]]]]]]].
          subst fuel.
          rewrite (long_to_ghost c s size align r0 rs HC R W L0 l f t (S k) E A F N Nt) in SR.
          destruct (long_start c s r0 rs W L0) as [_ B1].
          rewrite (ghost_loop c s size align r0 rs W L0 k 0) in SR.
          destruct (alloc_act c size align s 0 1) as [[[s1 q] x]| | |] eqn:X; cbn [bind] in SR;
            [|exfalso; exact (lost_result _ _ _ _ _ _ _ _ _ S0 ltac:(rewrite SR; congruence) H)..].
          destruct (stopped 1 0 s1 q x ltac:(lia) Y X) as [-> Q].
          assert (P := bs_pos c HC). assert (GD := g_data _ _ G).
          assert (Q0 : 0 < q) by lia.
          destruct (hit_result _ _ _ _ _ _ _ _ _ _ _ S0 Q0 SR H) as [_ [-> ->]].
          right. right. split; auto. rewrite Q. replace (data s + 1 * BS c) with (data s + BS c) by lia.
          split; [lia|]. left. apply astray_busy; auto.
      + destruct (Z.eq_dec (nxt s 1) 0) as [N1|N1].
        * left. destruct (passes_length _ _ _ _ _ fuel PF LB) as [l [f [t [k [E [A [F [N [Nt EF]]]]]]]]].
          subst fuel.
          rewrite (long_to_ghost c s size align r0 rs HC R W L0 l f t (S k) E A F N Nt) in SR.
          rewrite (ghost_pass c s size align r0 rs HC R W L0 LF1 k 0 NG), N1 in SR. cbn [Z.eqb] in SR.
          eapply miss_result; eauto.
        * exfalso. assert (X := proj2 (returns_exactly_long c s r0 rs size align ans HC W L0 LF1 R O RE)).
          specialize (X (conj PF (conj N1 NG)) fuel). cbn beta in X. rewrite H in X. discriminate X.
    - assert (S1 := long_safe c s size align r0 rs SF).
      destruct (nothing_or_first (data s) (BS c) (r0 :: rs) size align A0) as [NF|[l [f [t FF]]]].
      + left. assert (SS : search_safe (data s) (BS c) (r0 :: rs) size align).
        { split; auto. intros l f t [E [F [CH _]]]. exfalso. apply (NF f); auto. rewrite E. apply in_app_iff. right. left. auto. }
        rewrite (proj1 (loop_safe c s size align HC R (r0 :: rs) fuel 0 W SS LB) NF) in SR.
        eapply miss_result; eauto.
      + right. assert (FF' := FF). destruct FF' as [E [F [CH N]]].
        assert (CS : can_hold_spare (data s) (BS c) f size align \/ ~ can_hold_spare (data s) (BS c) f size align).
        { rewrite can_hold_spare_skip by auto. lia. }
        assert (A : forall x, In x l -> rbusy x = true).
        { intros x I. destruct (rbusy x) eqn:B; auto. exfalso.
          destruct (first_free l) as [A|[l3 [f3 [t3 [E3 [A3 F3]]]]]]; [rewrite (A x I) in B; discriminate B|].
          destruct (SF l3 f3 (t3 ++ f :: t)) as [X|X]; auto.
          + rewrite E, E3, <- app_assoc. reflexivity.
          + destruct t3; discriminate X.
          + apply (N f3); auto. rewrite E3. apply in_app_iff. right. left. auto. }
        assert (W' := W). rewrite E in W'. assert (H0 := start_0 c s r0 rs W).
        assert (LK := loop_skip_busy c s size align [] l f t (S (fuel - length l - 1)) 0 W' A).
        assert (HL : (length l < fuel)%nat).
        { rewrite E, app_length in LB. cbn [length] in LB. lia. }
        replace (length l + S (fuel - length l - 1))%nat with fuel in LK by lia.
        rewrite <- E in LK. cbn [head_start] in LK. rewrite H0 in LK. rewrite LK in SR.
        rewrite (loop_free c s size align l f t) in SR by auto.
        destruct CS as [CS|CS].
        * left. assert (SS : search_safe (data s) (BS c) (r0 :: rs) size align).
          { split; auto. intros l' f' t' [E' [F' [CH' N']]].
            destruct (split_unique_first l f t l' f' t' (fun r => rbusy r = false /\ can_hold (data s) (BS c) r size align))
              as [_ [<- _]]; auto; [congruence| |].
            - intros r I [X Y]. exact (N r I X Y).
            - intros r I [X Y]. exact (N' r I X Y). }
          destruct (allocate_serve c s (r0 :: rs) fuel size align ans l f t HC W R O RE SS LB FF) as [s2 [q [Q1 Q2]]].
          assert (LF' := landing fuel _ l f t s' p calls E F CS SR H).
          rewrite H in Q1. injection Q1 as -> -> ->. split; auto. eapply served_fits; eauto.
        * right. eapply filling; eauto.
  Qed.
End Keep.

(** C50, C60: the request is served from a free region, or everything is left as it is, or
    memory is given out that belongs to a region in use or lies behind the buffer *)
Lemma allocate_keeps : forall c s rs size align ans fuel s' p calls, cfg_ok c ->
  wf c s rs -> links_forward s -> ordinary_buffer (data s) (bc s * BS c) -> request size align -> align <= BS c ->
  allocate_impl c fuel s size align ans = Ok (s', p, calls) ->
  (wf c s' rs /\ same_place s s' /\ links_forward s' /\ (calls <> [] \/ p = 0)) \/ (calls = [] /\ fits_in c s rs size s' p) \/
  (calls = [] /\ grabs c s rs size p).
Proof.
  intros c s rs size align ans fuel s' p calls HC W LF O R LA H.
  assert (G := wf_geom _ _ _ W). assert (BB := g_bc _ _ G).
  destruct rs as [|r0 rs].
  { exfalso. assert (T := wf_tiles _ _ _ W). cbn [tiles] in T. unfold regions_of in T. cbn [tiles] in T. lia. }
  assert (T0 := wf_bounds c s _ r0 W (or_introl eq_refl)).
  assert (Hbig : allocate_impl c (fuel + S (Z.to_nat (bc s))) s size align ans = Ok (s', p, calls)).
  { rewrite allocate_fuel; auto. rewrite H. discriminate. }
  destruct (Z.eq_dec (rlen r0) 1) as [L1|L1].
  - assert (RE := keep_reach c s size align r0 rs HC W R LA).
    set (big := (fuel + S (Z.to_nat (bc s)))%nat) in *.
    assert (LB : (length (r0 :: rs) < big)%nat) by (apply (region_count_fuel _ _ _ _ W); unfold big; lia).
    destruct (allocate_searches c s size align ans big HC G R O RE) as [AH AA].
    destruct (request_align size align R) as [j [Hj [Ej A0]]].
    assert (S0 : size <> 0) by (assert (0 < size) by apply R; lia).
    assert (Pa : pow2 align) by apply R.
    assert (SR := search_reached c s big size align HC G O Pa RE).
    destruct (clear_dec c s size align r0 rs R) as [CW|[l [f [t [E [F [N [Nl Nt]]]]]]]].
    + destruct (nothing_or_first (data s) (BS c) (r0 :: rs) size align A0) as [NF|[l [f [t FF]]]].
      * left. rewrite (one_nothing c s size align r0 rs HC R W L1 big CW NF LB) in SR.
        destruct (miss_result _ _ _ _ _ _ _ _ _ S0 SR Hbig) as [-> X]. split; auto. split; auto. apply same_place_refl.
      * right. destruct (one_fits c s size align r0 rs HC R W L1 l f t big CW FF LB) as [F1 _].
        assert (FF' := FF). destruct FF' as [E [F [CH N]]].
        assert (CS : can_hold_spare (data s) (BS c) f size align \/ ~ can_hold_spare (data s) (BS c) f size align).
        { rewrite can_hold_spare_skip by auto. lia. }
        destruct (Nat.le_exists_sub (S (length l)) big) as [k [EK _]].
        { rewrite E, app_length in LB. cbn [length] in LB. lia. }
        assert (EK' : big = (length l + S k)%nat) by lia.
        assert (W' := W). rewrite E in W'.
        assert (SR' := SR). rewrite EK' in SR' at 2. rewrite (one_arrives c s size align r0 rs HC R W L1 l f t) in SR'; auto.
        rewrite (loop_free c s size align l f t) in SR' by auto.
        destruct CS as [CS|CS].
        -- left. destruct (F1 CS) as [s2 [q [X S]]]. rewrite X in SR. assert (Q0 : 0 < q) by apply S.
           assert (LF' := landing c s size align ans r0 rs HC W LF R LA big k l f t s' p calls E F CS SR' Hbig).
           destruct (hit_result _ _ _ _ _ _ _ _ _ _ _ S0 Q0 SR Hbig) as [-> [-> ->]]. split; auto.
           eapply served_fits; eauto.
        -- right. eapply (filling c s size align ans r0 rs HC W LF R LA big k l f t); eauto.
    + exfalso. rewrite (proj2 AH) in Hbig; [discriminate Hbig|].
      apply (one_hangs c s size align r0 rs HC R W L1 l f t); auto.
  - destruct (keep_long c s size align ans r0 rs HC W LF O R LA (fuel + S (Z.to_nat (bc s))) s' p calls ltac:(lia) ltac:(lia) Hbig)
      as [[-> X]|X]; auto.
    left. split; auto. split; [apply same_place_refl|auto].
Qed.

(** * The memory granted *)

Lemma extent_inj : forall d b n rs r1 r2, 0 < b -> contiguous n 0 rs -> In r1 rs -> In r2 rs ->
  region_addr d b r1 = region_addr d b r2 -> r1 = r2.
Proof.
  intros d b n rs r1 r2 P C I1 I2 E. apply (contiguous_start_inj _ _ _ _ _ C); auto. unfold region_addr in E. nia.
Qed.

Definition granted_inv (d b : Z) (rs : list region) (L : list alloc) : Prop :=
  Permutation (map (granted b) L) (map (extent d b) (busy rs)).

Lemma granted_fst : forall b L, map fst (map (granted b) L) = map fst L.
Proof. intros b L. rewrite map_map. reflexivity. Qed.
Lemma extent_fst : forall d b rs, map fst (map (extent d b) rs) = map (region_addr d b) rs.
Proof. intros d b rs. rewrite map_map. reflexivity. Qed.
Lemma granted_addrs : forall d b rs L, granted_inv d b rs L -> Permutation (map fst L) (map (region_addr d b) (busy rs)).
Proof. intros d b rs L H. rewrite <- (granted_fst b), <- extent_fst. apply Permutation_map. exact H. Qed.

Lemma remove_granted : forall b p L, In p (map fst L) -> exists a, fst a = p /\
  Permutation (map (granted b) L) (granted b a :: map (granted b) (remove_ptr p L)).
Proof.
  intros b p; induction L as [|a L IH]; intros I; [destruct I|]. cbn [remove_ptr].
  destruct (Z.eqb_spec (fst a) p) as [E|N].
  - exists a. split; auto.
  - cbn [map] in I. destruct I as [E|I]; [congruence|]. destruct (IH I) as [x [E P]]. exists x. split; auto.
    cbn [map]. rewrite P. apply perm_swap.
Qed.

Lemma extents_disjoint : forall d b n rs, 0 < b -> contiguous n 0 rs -> pairwise_disjoint (map (extent d b) (busy rs)).
Proof.
  intros d b n rs P C l1 x l2 y l3 E.
  assert (ND : NoDup (map (region_addr d b) (busy rs))) by (eapply busy_nodup; eauto).
  rewrite <- extent_fst, E in ND. rewrite map_app in ND. cbn [map] in ND. rewrite map_app in ND. cbn [map] in ND.
  assert (X : In x (map (extent d b) (busy rs))) by (rewrite E; apply in_app_iff; right; left; auto).
  assert (Y : In y (map (extent d b) (busy rs)))
    by (rewrite E; apply in_app_iff; right; right; apply in_app_iff; right; left; auto).
  apply in_map_iff in X. destruct X as [r1 [<- I1]]. apply in_map_iff in Y. destruct Y as [r2 [<- I2]].
  apply in_busy in I1. apply in_busy in I2.
  assert (NE : fst (extent d b r1) <> fst (extent d b r2)).
  { intros Q. apply NoDup_remove_2 in ND. apply ND. rewrite Q. apply in_app_iff. right. apply in_app_iff. right. left. auto. }
  unfold disjoint, extent in *. cbn [fst snd] in *. unfold region_addr in *.
  destruct (Z_lt_le_dec (rstart r1) (rstart r2)) as [H|H].
  - left. assert (O := contiguous_order _ _ _ r1 r2 C (proj1 I1) (proj1 I2) H). nia.
  - right. assert (rstart r1 <> rstart r2) by (intros Q; rewrite Q in NE; congruence).
    assert (O := contiguous_order _ _ _ r2 r1 C (proj1 I2) (proj1 I1) ltac:(lia)). nia.
Qed.

Lemma disjoint_sym : forall a b, disjoint a b -> disjoint b a.
Proof. unfold disjoint. intros. lia. Qed.
Lemma pairwise_cons : forall x l, pairwise_disjoint (x :: l) <-> (forall y, In y l -> disjoint x y) /\ pairwise_disjoint l.
Proof.
  intros x l. split.
  - intros H. split.
    + intros y I. apply in_split in I. destruct I as [l1 [l2 ->]]. apply (H [] x l1 y l2). reflexivity.
    + intros l1 a l2 b l3 E. apply (H (x :: l1) a l2 b l3). cbn [app]. rewrite E. reflexivity.
  - intros [H1 H2] [|z l1] a l2 b l3 E; cbn [app] in E; injection E as -> E.
    + apply H1. rewrite E. apply in_app_iff. right. left. auto.
    + eapply H2; eauto.
Qed.
Lemma pairwise_perm : forall l l', Permutation l l' -> pairwise_disjoint l -> pairwise_disjoint l'.
Proof.
  intros l l' P. induction P as [|x l l' P IH|x y l|l l' l'' P IH P' IH']; auto.
  - rewrite !pairwise_cons. intros [A B]. split; auto. intros z I. apply A. eapply Permutation_in; [apply Permutation_sym; eauto|auto].
  - rewrite !pairwise_cons. intros [A [B C]]. split; [|split; auto].
    + intros z [<-|I]; [apply disjoint_sym; apply A; left; auto|auto].
    + intros z I. apply A. right. auto.
Qed.

Lemma granted_disjoint : forall c s rs L, cfg_ok c -> wf c s rs -> granted_inv (data s) (BS c) rs L ->
  pairwise_disjoint (map (granted (BS c)) L).
Proof.
  intros c s rs L HC W H. eapply pairwise_perm; [apply Permutation_sym; exact H|].
  eapply extents_disjoint; [apply bs_pos; auto|apply (wf_tiling _ _ _ W)].
Qed.

(** * One call *)

Lemma merge_links : forall c s l r s' i, merge_if_both_not_in_use c s l r = Ok (s', i) ->
  links_forward s -> links_forward s'.
Proof.
  intros c s l r s' i H L. unfold merge_if_both_not_in_use in H.
  destruct ((l =? r) || (r =? 0)); [inv_ok; subst; auto|]. inv_ok.
  destruct x; [inv_ok; subst; auto|]. inv_ok.
  match type of H with (if ?b then _ else _) = _ => destruct b end; [inv_ok; subst; auto|].
  apply cassert_inv in H. destruct H as [H _]. apply bind_inv in H. destruct H as [n [N1 H]].
  apply bind_inv in H. destruct H as [s1 [P1 H]]. apply bind_inv in H. destruct H as [m [N2 H]].
  apply bind_inv in H. destruct H as [s2 [P2 H]]. injection H as <- <-.
  assert (X : nxt s1 = nxt s /\ bc s1 = bc s).
  { unfold set_prev, at_ in P1. inv_ok. destruct (_ || _); inv_ok; subst; auto. }
  destruct X as [X1 X2]. unfold next_index, at_ in N2. inv_ok. subst m.
  assert (L1 : links_forward s1) by (intros j; rewrite X1, X2; apply L).
  unfold set_next, at_ in P2. inv_ok. destruct ((l <? nxt s1 r) || (nxt s1 r =? 0)) eqn:Q; inv_ok; subst; auto.
  assert (U : links_forward (with_nxt s1 (upd (nxt s1) l (nxt s1 r)))); [|exact U].
  intros j. cbn [bc nxt with_nxt]. unfold upd. destruct (Z.eqb_spec j l) as [->|_]; [|apply L1].
  apply orb_true_iff in Q. destruct Q as [Q|Q]; [apply Z.ltb_lt in Q|apply Z.eqb_eq in Q]; destruct (L1 r); lia.
Qed.

Lemma deallocate_links : forall c s p s' calls, deallocate_impl c s p = Ok (s', calls) ->
  links_forward s -> links_forward s'.
Proof.
  intros c s p s' calls H L. unfold deallocate_impl in H.
  destruct (Z.eqb_spec p 0) as [->|P0]; [inv_ok; subst; auto|].
  apply bind_inv in H. destruct H as [al [_ H]]. apply abort_inv in H. destruct H as [H _].
  destruct ((data s <=? p) && (p <? wrap 64 (data s + size_ c s))) eqn:I.
  - apply bind_inv in H. destruct H as [i [_ H]]. apply bind_inv in H. destruct H as [[s1 m] [E H]].
    injection H as <- <-. unfold deallocate_blocks, reset_in_use in E. inv_ok. subst.
    unfold merge_adjacent_blocks in E. inv_ok.
    repeat match goal with X : merge_if_both_not_in_use _ _ _ _ = Ok _ |- _ => assert (Z9 := merge_links _ _ _ _ _ _ X); clear X; revert Z9 end. intros A B. first [apply A, B; exact L|apply B, A; exact L].
  - destruct (has_up s) eqn:U; [inv_ok; subst; auto|].
    apply abort_inv in H. destruct H as [H C1]. apply abort_inv in H. destruct H as [H C2]. injection H as <- _. auto.
Qed.

Lemma well_same : forall c s s' L, same_place s s' -> well_granted c s L -> well_granted c s' L.
Proof. intros c s s' L [D1 [D2 _]] H. unfold well_granted in *. rewrite D1, D2. exact H. Qed.

Lemma step_keeps : forall c fuel s rs o s' e L, cfg_ok c -> wf c s rs -> links_forward s ->
  ordinary_buffer (data s) (bc s * BS c) -> plain_op (BS c) o -> step c fuel s o = Ok (s', e) ->
  (match e with EDeallocate p [] => p = 0 \/ In p (map fst L) | _ => True end) ->
  granted_inv (data s) (BS c) rs L -> well_granted c s (live_after L e) ->
  exists rs', wf c s' rs' /\ same_place s s' /\ links_forward s' /\ granted_inv (data s) (BS c) rs' (live_after L e).
Proof.
  intros c fuel s rs o s' e L HC W LF O V H PL GI [PD IN]. assert (G := wf_geom _ _ _ W). assert (P := bs_pos c HC).
  assert (GD := g_data _ _ G).
  destruct o as [size align ans|p|]; cbn [step plain_op] in *; [| |destruct V].
  - apply bind_inv in H. destruct H as [[[s1 p] calls] [H1 H]]. injection H as <- <-.
    destruct V as [V1 [V2 [V3 V4]]]. destruct (Z.eq_dec size 0) as [->|S0].
    { rewrite allocate_zero in H1. injection H1 as <- <- <-. cbn [live_after Z.eqb]. exists rs.
      split; auto. split; [apply same_place_refl|auto]. }
    assert (R : request size align) by (split; [lia|auto]).
    destruct (allocate_keeps c s rs size align ans fuel s1 p calls HC W LF O R V3 H1)
      as [[X1 [X2 [X4 X3]]]|[[-> [P0 [l [f [t [i [rs' [E [F [Q [W' [SP [LF' EB]]]]]]]]]]]]]|[-> [P0 [[r [I [B [Y1 Y2]]]]|[DB Y]]]]]].
    + exists rs. split; auto. split; auto. split; auto. destruct calls; cbn [live_after]; auto.
      destruct X3 as [X3| ->]; [congruence|]. exact GI.
    + exists rs'. split; auto. split; auto. split; auto. cbn [live_after]. rewrite eqb_false by lia.
      unfold granted_inv in *. rewrite EB, map_app. cbn [map]. rewrite E, busy_app, busy_cons_free, map_app in GI by auto.
      replace (extent (data s) (BS c) (Reg i (size / BS c + 1) true)) with (granted (BS c) (p, size)).
      * apply Permutation_cons_app. exact GI.
      * unfold granted, extent, region_addr. cbn [fst snd rstart rlen]. congruence.
    + exfalso. cbn [live_after] in PD. rewrite eqb_false in PD by lia. cbn [map] in PD.
      rewrite pairwise_cons in PD. destruct PD as [PD _].
      assert (IE : In (extent (data s) (BS c) r) (map (granted (BS c)) L)).
      { apply (Permutation_in _ (Permutation_sym GI)). apply in_map. apply in_busy. auto. }
      specialize (PD _ IE). unfold disjoint, granted, extent in PD. cbn [fst snd] in PD. lia.
    + exfalso. specialize (IN DB). cbn [live_after] in IN. rewrite eqb_false in IN by lia. cbn [map] in IN.
      inversion IN as [|x1 x2 X _]; subst. unfold inside, granted in X. cbn [fst snd] in X. lia.
  - apply bind_inv in H. destruct H as [[s1 calls] [H1 H]]. injection H as <- <-.
    destruct (deallocate_any _ _ _ _ _ H1) as [[-> [-> ->]]|[[P0 [-> [-> _]]]|[P0 [_ ->]]]].
    + exists rs. split; auto. split; [apply same_place_refl|]. split; auto. cbn [live_after]. rewrite remove_ptr_absent; auto.
      intros I. apply (Permutation_in _ (granted_addrs _ _ _ _ GI)) in I. apply in_map_iff in I. destruct I as [r [E I]].
      apply in_busy in I. assert (T := wf_bounds _ _ _ _ W (proj1 I)). unfold region_addr in E. nia.
    + exists rs. split; auto. split; [apply same_place_refl|]. split; auto.
    + cbn [live_after] in *. destruct PL as [PL|PL]; [contradiction|].
      assert (PA := Permutation_in _ (granted_addrs _ _ _ _ GI) PL). apply in_map_iff in PA. destruct PA as [r [EP I]].
      apply in_busy in I. destruct I as [I B]. destruct (in_split _ _ I) as [l [t E]]. subst rs p.
      destruct (deallocate_live c s l r t HC W B) as [s2 [a [n [l' [t' [E1 [W' [F [D1 [D2 [D3 _]]]]]]]]]]].
      assert (LF' := deallocate_links _ _ _ _ _ H1 LF).
      unfold addr in E1. rewrite E1 in H1. injection H1 as <-.
      exists (l' ++ Reg a n false :: t'). split; auto. split; [split; [exact D1|split; [exact D2|exact D3]]|]. split; auto.
      destruct (remove_granted (BS c) _ _ PL) as [x [Ex Px]].
      assert (EX : granted (BS c) x = extent (data s) (BS c) r).
      { assert (Ix : In (granted (BS c) x) (map (granted (BS c)) L)) by (apply (Permutation_in _ (Permutation_sym Px)); left; auto).
        apply (Permutation_in _ GI) in Ix. apply in_map_iff in Ix. destruct Ix as [r' [Er Ir]]. apply in_busy in Ir.
        assert (r' = r).
        { apply (extent_inj (data s) (BS c) (bc s) (l ++ r :: t)); auto; [apply (wf_tiling _ _ _ W)|tauto|].
          rewrite <- Ex. apply (f_equal fst) in Er. exact Er. }
        subst r'. auto. }
      unfold granted_inv in *. rewrite (freed_busy _ _ _ _ _ _ _ B F), map_app.
      rewrite busy_app, busy_cons_busy, map_app in GI by auto. cbn [map] in GI. rewrite Px, EX in GI.
      apply Permutation_cons_app_inv in GI. exact GI.
Qed.

(** * Histories *)

Lemma plain_sane : forall c o, cfg_ok c -> plain_op (BS c) o -> sane_op o.
Proof.
  intros c o HC V. destruct o; cbn [plain_op sane_op] in *; auto. destruct V as [A [B [C _]]].
  assert (X := bs_range _ HC). repeat split; auto. lia.
Qed.

Lemma run_keeps : forall c fuel ops s rs s' es L, cfg_ok c -> wf c s rs -> links_forward s ->
  ordinary_buffer (data s) (bc s * BS c) -> Forall (plain_op (BS c)) ops -> run c fuel s ops = Ok (s', es) ->
  polite L es -> granted_inv (data s) (BS c) rs L ->
  (forall es1 es2, es = es1 ++ es2 -> well_granted c s (fold_left live_after es1 L)) ->
  exists rs', wf c s' rs' /\ same_place s s' /\ links_forward s' /\ granted_inv (data s) (BS c) rs' (fold_left live_after es L).
Proof.
  intros c fuel; induction ops as [|o ops IH]; intros s rs s' es L HC W LF O V H PL GI PD.
  - cbn [run] in H. injection H as <- <-. exists rs. split; auto. split; [apply same_place_refl|auto].
  - cbn [run] in H. apply bind_inv in H. destruct H as [[s1 e] [H1 H2]]. apply bind_inv in H2.
    destruct H2 as [[s2 es2] [H2 H3]]. injection H3 as <- <-. inversion V as [|x1 x2 V1 V2]; subst.
    cbn [polite] in PL. destruct PL as [PL1 PL2].
    destruct (step_keeps c fuel s rs o s1 e L HC W LF O V1 H1 PL1 GI (PD [e] es2 eq_refl)) as [rs1 [W1 [SP [LF1 GI1]]]].
    assert (SP' := SP). destruct SP' as [D1 [D2 D3]].
    destruct (IH s1 rs1 s2 es2 (live_after L e)) as [rs2 [W2 [SP2 [LF2 GI2]]]]; auto.
    + rewrite D1, D2. exact O.
    + rewrite D1. exact GI1.
    + intros es1 es3 E. eapply well_same; eauto. apply (PD (e :: es1) es3). rewrite E. reflexivity.
    + exists rs2. split; auto. split; [eapply same_place_trans; eauto|]. split; auto. rewrite D1 in GI2. exact GI2.
Qed.

Lemma run_prefix : forall c fuel ops1 ops2 s s' es, run c fuel s (ops1 ++ ops2) = Ok (s', es) ->
  exists s1 es1 es2, run c fuel s ops1 = Ok (s1, es1) /\ run c fuel s1 ops2 = Ok (s', es2) /\ es = es1 ++ es2.
Proof.
  intros c fuel; induction ops1 as [|o ops1 IH]; intros ops2 s s' es H; cbn [app run] in H.
  - exists s, [], es. auto.
  - apply bind_inv in H. destruct H as [[s1 e] [H1 H2]]. apply bind_inv in H2.
    destruct H2 as [[s2 es2] [H2 H3]]. injection H3 as <- <-.
    destruct (IH ops2 s1 s2 es2 H2) as [s3 [es3 [es4 [E1 [E2 ->]]]]].
    exists s3, (e :: es3), es4. split; auto. cbn [run]. rewrite H1. cbn [bind]. rewrite E1. reflexivity.
Qed.

Lemma run_length : forall c fuel ops s s' es, run c fuel s ops = Ok (s', es) -> length es = length ops.
Proof.
  intros c fuel; induction ops as [|o ops IH]; intros s s' es H; cbn [run] in H.
  - injection H as <- <-. reflexivity.
  - apply bind_inv in H. destruct H as [[s1 e] [H1 H2]]. apply bind_inv in H2.
    destruct H2 as [[s2 es2] [H2 H3]]. injection H3 as <- <-. cbn [length]. f_equal. eapply IH; eauto.
Qed.

Lemma polite_app : forall es1 es2 L, polite L (es1 ++ es2) -> polite L es1.
Proof. induction es1 as [|e es1 IH]; intros es2 L H; cbn [app polite] in *; auto. destruct H. split; eauto. Qed.

(** the moments of a history *)
Lemma run_moment : forall c fuel ops s s' es es1 es2, run c fuel s ops = Ok (s', es) -> es = es1 ++ es2 ->
  exists ops1 ops2 s1, ops = ops1 ++ ops2 /\ run c fuel s ops1 = Ok (s1, es1).
Proof.
  intros c fuel ops s s' es es1 es2 H E. exists (firstn (length es1) ops), (skipn (length es1) ops).
  rewrite <- (firstn_skipn (length es1) ops) in H.
  destruct (run_prefix _ _ _ _ _ _ _ H) as [s1 [es3 [es4 [E1 [E2 E3]]]]]. exists s1.
  split; [symmetry; apply firstn_skipn|]. rewrite E1. f_equal. f_equal.
  assert (L := run_length _ _ _ _ _ _ E1). assert (L2 := run_length _ _ _ _ _ _ H).
  rewrite firstn_skipn in L2. rewrite firstn_length in L. rewrite E, app_length in L2.
  assert (LL : length es3 = length es1) by lia. rewrite E in E3. symmetry in E3.
  clear - LL E3. revert es1 LL E3. induction es3 as [|a l IH]; intros [|b m] LL E; cbn [length] in LL; try discriminate LL; auto.
  cbn [app] in E. injection E as -> E. f_equal. apply IH; auto.
Qed.

Lemma run_place : forall c fuel ops s s' es, cfg_ok c -> (BS c | data s) -> Forall (plain_op (BS c)) ops ->
  run c fuel s ops = Ok (s', es) -> same_place s' s.
Proof.
  intros c fuel; induction ops as [|o ops IH]; intros s s' es HC D V H; cbn [run] in H.
  - injection H as <- <-. apply same_place_refl.
  - apply bind_inv in H. destruct H as [[s1 e] [H1 H2]]. apply bind_inv in H2.
    destruct H2 as [[s2 es2] [H2 H3]]. injection H3 as <- <-. inversion V as [|x1 x2 V1 V2]; subst.
    destruct (step_any c fuel s o s1 e HC D (plain_sane c o HC V1) H1) as [[[P1 [P2 P3]] _] _].
    destruct (IH s1 s2 es2 HC ltac:(rewrite P1; auto) V2 H2) as [Q1 [Q2 Q3]].
    split; [congruence|split; congruence].
Qed.

Lemma in_order_granted : forall c s es, cfg_ok c -> in_order c s es -> well_granted c s (live es).
Proof.
  intros c s es HC [rs [_ [[T _] [_ [_ H]]]]]. split.
  - eapply pairwise_perm; [apply Permutation_sym; exact H|]. eapply extents_disjoint; eauto. apply bs_pos; auto.
  - intros _. apply Forall_forall. intros a I. apply (Permutation_in _ H) in I. apply in_map_iff in I.
    destruct I as [r [<- I]]. apply in_busy in I. destruct (contiguous_bounds _ _ _ T) as [_ B]. specialize (B r (proj1 I)).
    assert (P := bs_pos c HC). unfold inside, extent, region_addr. cbn [fst snd]. nia.
Qed.

Lemma history_keeps : forall c up s ops s' es, history c up s ops s' es ->
  Forall (plain_op (BS c)) ops ->
  (forall es1 es2, es = es1 ++ es2 -> well_granted c s (live es1)) ->
  exists rs, wf c s' rs /\ same_place s s' /\ links_forward s' /\ granted_inv (data s) (BS c) rs (live es).
Proof.
  intros c up s ops s' es [buffer [size [fuel [M [V [R PL]]]]]] PV PD.
  destruct (made_wf _ _ _ _ _ M) as [HC [W [_ [_ [O _]]]]].
  destruct (construct_aligned c buffer size up s HC (made_buffer _ _ _ _ _ M) (made_from _ _ _ _ _ M)) as [_ [LF _]].
  eapply run_keeps; eauto. apply perm_nil.
Qed.

(** C60, C50, C57, C59 *)
Lemma until_overlap : forall c up s ops s' es, history c up s ops s' es ->
  Forall (plain_op (BS c)) ops ->
  (forall es1 es2, es = es1 ++ es2 -> well_granted c s (live es1)) ->
  in_order c s' es.
Proof.
  intros c up s ops s' es H V PD. destruct (history_keeps c up s ops s' es H V PD) as [rs [W [[D1 _] [_ GI]]]].
  exists rs. split; [apply (wf_tiles _ _ _ W)|]. split; [eapply wf_tiling; eauto|].
  split; [apply (wf_free _ _ _ W)|]. split; [apply (wf_busy _ _ _ W)|]. rewrite D1. exact GI.
Qed.

Lemma until_overlap_exact : forall c buffer size up s fuel ops s' es, made c buffer size up s ->
  Forall (plain_op (BS c)) ops -> run c fuel s ops = Ok (s', es) -> polite [] es ->
  ((forall ops1 ops2 s1 es1, ops = ops1 ++ ops2 -> run c fuel s ops1 = Ok (s1, es1) -> in_order c s1 es1) <->
   (forall es1 es2, es = es1 ++ es2 -> well_granted c s (live es1))).
Proof.
  intros c buffer size up s fuel ops s' es M V R PL. assert (HC := made_cfg _ _ _ _ _ M). split.
  - intros H es1 es2 E. destruct (run_moment _ _ _ _ _ _ _ _ R E) as [ops1 [ops2 [s1 [E1 E2]]]].
    eapply well_same; [|eapply in_order_granted; eauto]. subst ops. apply Forall_app in V. destruct V as [V1 V2].
    eapply run_place; [| | |exact E2]; auto.
    apply (construct_aligned c buffer size up s HC (made_buffer _ _ _ _ _ M) (made_from _ _ _ _ _ M)).
  - intros H ops1 ops2 s1 es1 E R1. subst ops.
    destruct (run_prefix _ _ _ _ _ _ _ R) as [s2 [es2 [es3 [E1 [E2 E3]]]]].
    rewrite R1 in E1. injection E1 as <- <-. subst es.
    apply Forall_app in V. destruct V as [V1 V2].
    apply (until_overlap c up s ops1 s1 es1); auto.
    + exists buffer, size, fuel. split; auto. split; [|split; auto; eapply polite_app; eauto].
      eapply Forall_impl; [|exact V1]. intros o. apply plain_sane. auto.
    + intros es4 es5 E. apply (H es4 (es5 ++ es3)). rewrite E, app_assoc. reflexivity.
Qed.

(** C63 *)
Lemma until_overlap_returned : forall c up s ops s' es, history c up s ops s' es ->
  Forall (plain_op (BS c)) ops ->
  (forall es1 es2, es = es1 ++ es2 -> well_granted c s (live es1)) ->
  forall p, In p (map fst (live es)) -> exists s2, deallocate_impl c s' p = Ok (s2, []).
Proof.
  intros c up s ops s' es H V PD p I. assert (HC : cfg_ok c) by (destruct H as [b [z [f [M _]]]]; apply (made_cfg _ _ _ _ _ M)).
  destruct (history_keeps c up s ops s' es H V PD) as [rs [W [[D1 _] [_ GI]]]].
  apply (Permutation_in _ (granted_addrs _ _ _ _ GI)) in I. apply in_map_iff in I. destruct I as [r [<- I]].
  apply in_busy in I. destruct I as [I B]. destruct (in_split _ _ I) as [l [t ->]].
  destruct (deallocate_live c s' l r t HC W B) as [s2 [a [n [l' [t' [E1 _]]]]]].
  unfold addr in E1. rewrite D1 in E1. eauto.
Qed.
