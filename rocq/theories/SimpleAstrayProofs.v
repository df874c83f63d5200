(** Lemmas about simple_resource: exactly what allocate does when the first region
    is longer than one block.  The search then comes to block 1 as if a region
    started there. *)

Require Import ZArith Lia List Bool Permutation.
Require Import Verif.Outcome Verif.Machine Verif.BitsModel Verif.BitsSpec Verif.BitsProofs.
Require Import Verif.ArithModel Verif.ArithProofs.
Require Import Verif.SimpleModel Verif.SimpleSpec Verif.SimpleView Verif.SimpleProofs Verif.SimpleAllocProofs.
Require Import Verif.SimpleScanProofs Verif.SimpleOpProofs Verif.SimpleHistProofs Verif.SimpleReleaseProofs
  Verif.SimpleAnyProofs Verif.SimpleMainProofs Verif.SimpleExactProofs.
Import ListNotations.
Open Scope Z_scope.
Open Scope res_scope.

Section Long.
  Variables (c : cfg) (s : state) (size align : Z) (r0 : region) (rs : list region).
  Hypothesis HC : cfg_ok c.
  Hypothesis HR : request size align.
  Hypothesis W : wf c s (r0 :: rs).
  Hypothesis L0 : 2 <= rlen r0.
  Hypothesis LF : nxt s 1 = 0 \/ 1 < nxt s 1 < bc s.
  Notation loop fuel := (apply_loop fuel c (alloc_pred c) (alloc_act c size align)).
  Notation d := (data s).
  Notation b := (BS c).
  Notation ghost := (from_block_1 (nxt s) (bc s)).

  Lemma long_start : rstart r0 = 0 /\ 2 <= bc s <= MB c.
  Proof.
    assert (T := wf_bounds c s _ r0 W (or_introl eq_refl)). assert (BB := g_bc _ _ (wf_geom _ _ _ W)).
    assert (Z0 := start_0 c s r0 rs W). lia.
  Qed.

  Lemma ghost_len : 0 < rlen ghost /\ 1 + rlen ghost <= bc s.
  Proof. destruct long_start. unfold from_block_1. cbn [rlen]. destruct (Z.eqb_spec (nxt s 1) 0); lia. Qed.

  Lemma ghost_unused : inuse s 1 = false.
  Proof.
    destruct (inuse s 1) eqn:U; auto. exfalso. destruct long_start.
    apply (start_in c s _ 1 r0 W (or_introl eq_refl) ltac:(lia)). apply (wf_heads _ _ _ W). auto.
  Qed.

  Lemma ghost_bytes : block_size_in_bytes c s 1 = Ok (rlen ghost * b).
  Proof.
    destruct long_start as [_ B]. destruct ghost_len as [G1 G2]. assert (P := bs_pos c HC).
    assert (GE := g_end _ _ (wf_geom _ _ _ W)). assert (GD := g_data _ _ (wf_geom _ _ _ W)).
    unfold block_size_in_bytes, block_size. rewrite next_index_ok by lia. cbn [bind].
    change ((if nxt s 1 =? 0 then bc s else nxt s 1) - 1) with (rlen ghost).
    assert (M := mb_range _ HC).
    rewrite (wrap_id 64 (rlen ghost)) by lia. rewrite wrap_id by nia. reflexivity.
  Qed.

  Lemma ghost_addr : region_addr d b ghost = d + b.
  Proof. unfold region_addr, from_block_1. cbn [rstart]. lia. Qed.

  Lemma ghost_act : forall p, let bp := region_addr d b ghost in
    alloc_act c size align s p 1 =
      if skip_of bp align + size <=? rlen ghost * b then
        s' <- allocate_blocks c s 1 (wrap 64 (bp + skip_of bp align)) size;;
        Ok (s', wrap 64 (bp + skip_of bp align), false)
      else Ok (s, p, negb (nxt s 1 =? 0)).
  Proof.
    intros p bp. destruct (request_align _ _ HR) as [j [Hj [Ea Ha]]]. destruct HR as [R0 [R1 R2]].
    destruct long_start as [_ B]. assert (G := wf_geom _ _ _ W). assert (GE := g_end _ _ G). assert (GD := g_data _ _ G).
    assert (P := bs_pos c HC).
    unfold alloc_act. rewrite ghost_bytes. cbn [bind]. rewrite index_pointer by (auto; lia). cbn [bind].
    change (data s + 1 * BS c) with bp. assert (HB : 0 < bp < 2 ^ 64) by (unfold bp; rewrite ghost_addr; nia).
    rewrite Ea. rewrite skip_value by lia. cbn [bind]. change ((- bp) mod 2 ^ j) with (skip_of bp (2 ^ j)).
    rewrite <- Ea. destruct (skip_bounds bp align Ha). rewrite (wrap_id 64 (skip_of bp align + size)) by lia.
    destruct (skip_of bp align + size <=? rlen ghost * BS c); [reflexivity|].
    rewrite next_index_ok by lia. reflexivity.
  Qed.

  Lemma ghost_loop : forall fuel p, loop (S fuel) s p 1 =
    ' (s', a', x) <- alloc_act c size align s p 1;; (if x then loop fuel s' a' 1 else Ok (s', a')).
  Proof.
    intros fuel p. destruct long_start as [_ B]. cbn [apply_loop]. rewrite next_index_ok by lia. cbn [bind].
    unfold alloc_pred. rewrite in_use_ok by lia. cbn [bind]. rewrite ghost_unused. cbn [negb].
    destruct (alloc_act c size align s p 1) as [[[s' a'] x]| | |]; cbn [bind]; auto.
    destruct x; reflexivity.
  Qed.

  Lemma ghost_pass : forall fuel p, ~ can_hold d b ghost size align ->
    loop (S fuel) s p 1 = if nxt s 1 =? 0 then Ok (s, p) else loop fuel s p 1.
  Proof.
    intros fuel p N. destruct (request_align _ _ HR) as [j [Hj [Ea Ha]]].
    rewrite ghost_loop, ghost_act. cbv zeta. rewrite can_hold_skip in N by auto. rewrite leb_false by lia.
    cbn [bind]. destruct (nxt s 1 =? 0); reflexivity.
  Qed.

  Lemma ghost_hang : ~ can_hold d b ghost size align -> nxt s 1 <> 0 -> forall fuel p, loop fuel s p 1 = Hang.
  Proof.
    intros N X. induction fuel as [|fuel IH]; intros p; [reflexivity|].
    rewrite ghost_pass by auto. rewrite eqb_false by auto. apply IH.
  Qed.

  (** the blocks are taken out of the middle of whatever they belong to *)
  Lemma ghost_blocks : forall k, 0 <= k -> k * b + size < rlen ghost * b ->
    exists s', allocate_blocks c s 1 (d + (1 + k) * b) size = Ok s'.
  Proof.
    intros k K0 K1. destruct HR as [S0 _]. destruct long_start as [_ B]. destruct ghost_len as [G1 G2].
    assert (G := wf_geom _ _ _ W). assert (GE := g_end _ _ G). assert (GD := g_data _ _ G).
    assert (P := bs_pos c HC). assert (M := mb_range _ HC).
    assert (D0 : 0 <= size / b) by (apply Z.div_pos; lia).
    assert (D1 : k + size / b < rlen ghost).
    { replace (k + size / b) with ((k * b + size) / b).
      - apply Z.div_lt_upper_bound; lia.
      - rewrite Z.add_comm, Z.div_add by lia. lia. }
    assert (LAST : (if nxt s 1 =? 0 then bindex c (wrap 64 (bc s - 1)) else bindex c (nxt s 1 - 1)) = rlen ghost).
    { unfold from_block_1. cbn [rlen]. destruct (Z.eqb_spec (nxt s 1) 0).
      - rewrite wrap_id by lia. rewrite bindex_id by (auto; lia). reflexivity.
      - rewrite bindex_id by (auto; lia). reflexivity. }
    unfold allocate_blocks.
    replace (d + (1 + k) * b) with (d + ((1 + k) * b)) by lia.
    rewrite ptr_index by (auto; nia). cbn [bind]. rewrite Z.div_mul by lia.
    assert (U1 : (1 + k) * b + size < bc s * b) by nia.
    rewrite wrap_id by nia.
    replace (d + (1 + k) * b + size) with (d + ((1 + k) * b + size)) by lia.
    rewrite ptr_index by (auto; nia). cbn [bind].
    rewrite Z.add_comm with (n := (1 + k) * b), Z.div_add by lia.
    rewrite next_index_ok by lia. cbn [bind]. rewrite LAST. clear LAST.
    set (e := rlen ghost) in *.
    assert (SP : forall s1 i v, bc s1 = bc s -> 0 <= i < bc s ->
      exists s2, set_prev c s1 i v = Ok s2 /\ bc s2 = bc s /\ nxt s2 = nxt s1).
    { intros s1 i v E I. unfold set_prev. rewrite E, ltb_true by lia. rewrite cassert_true, at_ok by lia.
      destruct (_ || _); eexists; (split; [reflexivity|]); auto. }
    assert (SN : forall s1 i v, bc s1 = bc s -> 0 <= i < bc s -> 0 <= v < bc s ->
      exists s2, set_next c s1 i v = Ok s2 /\ bc s2 = bc s).
    { intros s1 i v E I V. unfold set_next. rewrite E, ltb_true by lia. rewrite cassert_true, at_ok by lia.
      destruct (_ || _); eexists; (split; [reflexivity|]); auto. }
    assert (SPN : forall s1 i p v, bc s1 = bc s -> 0 <= i < bc s -> i <> 1 -> 0 <= v < bc s ->
      exists s2, set_prev_next c s1 i p v = Ok s2 /\ bc s2 = bc s /\ nxt s2 1 = nxt s1 1).
    { intros s1 i p v E I N1 V. unfold set_prev_next. rewrite E, !ltb_true by lia. rewrite !cassert_true, at_ok by lia.
      eexists. split; [reflexivity|]. destruct ((p <? i) || (p =? 0)); destruct ((i <? v) || (v =? 0));
        cbn [bc nxt with_nxt with_prv]; split; auto; rewrite upd_other by lia; reflexivity. }
    assert (N1 : 0 <= nxt s 1 < bc s) by lia.
    destruct (Z.eqb_spec 1 (1 + k)) as [Ek|Ek]; destruct (Z.eqb_spec (size / b + (1 + k)) e) as [El|El];
      cbn [negb].
    - unfold allocate_matched. rewrite ltb_true by lia. rewrite cassert_true, set_in_use_ok by lia. cbn [bind]. eauto.
    - unfold allocate_begin_matched. rewrite leb_true by lia. rewrite cassert_true.
      rewrite ltb_true by lia. rewrite cassert_true, set_in_use_ok by lia. cbn [bind].
      rewrite bindex_id by (auto; lia). rewrite next_index_ok by (cbn [bc with_inuse]; lia).
      cbn [bind nxt with_inuse].
      match goal with |- context [set_prev_next c ?x ?i ?p ?v] =>
        destruct (SPN x i p v) as [s2 [E2 [B2 N2]]]; [reflexivity|lia|lia|lia|] end.
      rewrite E2. cbn [bind]. cbn [nxt with_inuse] in N2. rewrite next_index_ok by lia. cbn [bind]. rewrite N2.
      match goal with |- context [set_prev c ?x ?i ?v] => destruct (SP x i v) as [s3 [E3 [B3 N3]]]; [exact B2|lia|] end.
      rewrite E3. cbn [bind].
      match goal with |- context [set_next c ?x ?i ?v] => destruct (SN x i v) as [s4 [E4 B4]]; [exact B3|lia|lia|] end.
      rewrite E4. cbn [bind]. eauto.
    - unfold allocate_end_matched. rewrite ltb_true by lia. rewrite cassert_true.
      rewrite leb_true by lia. rewrite cassert_true, set_in_use_ok by lia. cbn [bind bc with_inuse].
      rewrite (wrap_id 64 (bc s - 1)) by lia.
      rewrite next_index_ok by (cbn [bc with_inuse]; lia). cbn [bind].
      assert (NX : 0 <= (if size / b + (1 + k) <? bc s - 1 then bindex c (size / b + (1 + k) + 1) else 0) < bc s).
      { destruct (Z.ltb_spec (size / b + (1 + k)) (bc s - 1)); [|lia]. rewrite bindex_id by (auto; lia). lia. }
      match goal with |- context [set_prev_next c ?x ?i ?p ?v] =>
        destruct (SPN x i p v) as [s2 [E2 [B2 N2]]]; [reflexivity|lia|lia|exact NX|] end.
      rewrite E2. cbn [bind]. cbn [nxt with_inuse] in N2. rewrite next_index_ok by lia. cbn [bind]. rewrite N2.
      match goal with |- context [set_prev c ?x ?i ?v] => destruct (SP x i v) as [s3 [E3 [B3 N3]]]; [exact B2|lia|] end.
      rewrite E3. cbn [bind].
      match goal with |- context [set_next c ?x ?i ?v] => destruct (SN x i v) as [s4 [E4 B4]]; [exact B3|lia|lia|] end.
      rewrite E4. cbn [bind]. eauto.
    - unfold allocate_not_matched. rewrite ltb_true by lia. rewrite cassert_true.
      rewrite leb_true by lia. rewrite cassert_true. rewrite ltb_true by lia.
      rewrite cassert_true, set_in_use_ok by lia. cbn [bind].
      rewrite bindex_id by (auto; lia). rewrite next_index_ok by (cbn [bc with_inuse]; lia). cbn [bind].
      match goal with |- context [set_prev_next c ?x ?i ?p ?v] =>
        destruct (SPN x i p v) as [s2 [E2 [B2 N2]]]; [reflexivity|lia|lia|lia|] end.
      rewrite E2. cbn [bind]. cbn [nxt with_inuse] in N2. rewrite next_index_ok by lia. cbn [bind]. rewrite N2.
      match goal with |- context [set_prev_next c ?x ?i ?p ?v] =>
        destruct (SPN x i p v) as [s3 [E3 [B3 N3]]]; [exact B2|lia|lia|lia|] end.
      rewrite E3. cbn [bind]. rewrite next_index_ok by lia. cbn [bind]. rewrite N3, N2.
      match goal with |- context [set_prev c ?x ?i ?v] => destruct (SP x i v) as [s4 [E4 [B4 N4]]]; [exact B3|lia|] end.
      rewrite E4. cbn [bind].
      match goal with |- context [set_next c ?x ?i ?v] => destruct (SN x i v) as [s5 [E5 B5]]; [exact B4|lia|lia|] end.
      rewrite E5. cbn [bind]. eauto.
  Qed.

  Lemma ghost_serve : forall fuel p, can_hold_spare d b ghost size align ->
    exists s' q, loop (S fuel) s p 1 = Ok (s', q) /\ first_aligned d b ghost align q /\
      0 < q < 2 ^ 64 /\ (b | q) /\ took c s s'.
  Proof.
    intros fuel p CS. destruct (request_align _ _ HR) as [j [Hj [Ea Ha]]]. assert (HR' := HR). destruct HR' as [S0 [R1 R2]].
    destruct long_start as [_ B]. destruct ghost_len as [G1 G2].
    assert (G := wf_geom _ _ _ W). assert (GE := g_end _ _ G). assert (GD := g_data _ _ G).
    assert (GA := g_aligned _ _ G). assert (P := bs_pos c HC).
    rewrite ghost_loop, ghost_act. cbv zeta. rewrite can_hold_spare_skip in CS by auto. rewrite leb_true by lia.
    assert (FA := first_aligned_skip d b ghost align Ha).
    assert (A3 : (b | region_addr d b ghost)) by (rewrite ghost_addr; apply Z.divide_add_r; [auto|apply Z.divide_refl]).
    set (bp := region_addr d b ghost) in *. assert (BP : bp = d + b) by apply ghost_addr.
    destruct (skip_bounds bp align Ha) as [SB1 SB2].
    destruct (skip_multiple b bp align P Ha (bs_pow2 _ HC) R1 A3) as [k Ek].
    assert (EQ : bp + skip_of bp align = d + (1 + k) * b) by lia.
    rewrite wrap_id by nia. rewrite EQ.
    destruct (ghost_blocks k) as [s' E]; [nia|lia|].
    rewrite E. cbn [bind]. exists s', (d + (1 + k) * b). split; auto. split; [rewrite <- EQ; exact FA|].
    split; [nia|]. split; [|eapply allocate_blocks_any; exact E].
    rewrite <- EQ. apply Z.divide_add_r; auto. exists k. exact Ek.
  Qed.

  (** * The whole search *)

  Lemma long_to_ghost : forall l f t fuel, r0 :: rs = l ++ f :: t -> (forall x, In x l -> rbusy x = true) ->
    rbusy f = false -> ~ can_hold d b f size align -> t <> [] ->
    loop (length l + S fuel) s 0 0 = loop fuel s 0 1.
  Proof.
    intros l f t fuel E A F N Nt. destruct long_start as [Z0 _].
    assert (LP := loop_pass c s size align HC HR [] l f t fuel 0). cbn [app] in LP. rewrite <- E in LP.
    cbn [head_start] in LP. rewrite Z0 in LP. rewrite LP by auto. destruct t; [congruence|reflexivity].
  Qed.

  (** the first free region decides: it fits, or it is the last one, or there is none *)
  Lemma long_safe : (forall l f t, r0 :: rs = l ++ f :: t -> (forall x, In x l -> rbusy x = true) ->
      rbusy f = false -> t = [] \/ can_hold d b f size align) ->
    forall l f t, r0 :: rs = l ++ f :: t -> rbusy f = false -> nothing_fits d b (l ++ [f]) size align ->
     t = [] \/ (l = [] /\ rlen f = 1).
  Proof.
    intros H l f t E F N. destruct (first_free l) as [A|[l1 [f1 [t1 [E1 [A F1]]]]]].
    - destruct (H l f t E A F) as [X|X]; auto. exfalso. apply (N f); auto. apply in_app_iff. right. left. auto.
    - exfalso. destruct (H l1 f1 (t1 ++ f :: t)) as [X|X]; auto.
      + rewrite E, E1, <- app_assoc. reflexivity.
      + destruct t1; discriminate X.
      + apply (N f1); auto. rewrite E1. rewrite <- app_assoc. apply in_app_iff. right. left. auto.
  Qed.
End Long.

(** * allocate *)

Lemma passes_dec : forall d b rs size align, 0 < align ->
  passes_first_free d b rs size align \/
  (forall l f t, rs = l ++ f :: t -> (forall x, In x l -> rbusy x = true) ->
      rbusy f = false -> t = [] \/ can_hold d b f size align).
Proof.
  intros d b rs size align A0. destruct (first_free rs) as [A|[l [f [t [E [A F]]]]]].
  - right. intros l f t E _ F. exfalso. assert (rbusy f = true); [|congruence]. apply A. rewrite E.
    apply in_app_iff. right. left. auto.
  - assert (U : forall l' f' t', rs = l' ++ f' :: t' -> (forall x, In x l' -> rbusy x = true) ->
      rbusy f' = false -> l = l' /\ f = f' /\ t = t').
    { intros l' f' t' E' A' F'. apply split_unique_first with (fun r => rbusy r = false); auto.
      - congruence.
      - intros r I. rewrite (A r I). discriminate.
      - intros r I. rewrite (A' r I). discriminate. }
    destruct (can_hold_dec d b f size align A0) as [Y|N].
    + right. intros l' f' t' E' A' F'. destruct (U l' f' t' E' A' F') as [<- [<- <-]]. auto.
    + destruct t as [|y t].
      * right. intros l' f' t' E' A' F'. destruct (U l' f' t' E' A' F') as [<- [<- <-]]. auto.
      * left. exists l, f, (y :: t). repeat split; auto. discriminate.
Qed.

(** C52 *)
Lemma returns_exactly_long : forall c s r0 rs size align ans, cfg_ok c -> wf c s (r0 :: rs) -> 2 <= rlen r0 ->
  nxt s 1 = 0 \/ 1 < nxt s 1 < bc s ->
  request size align -> ordinary_buffer (data s) (bc s * BS c) ->
  alignment_within_reach (data s) (bc s * BS c) align ->
  (never_returns (fun fuel => allocate_impl c fuel s size align ans) <->
   passes_first_free (data s) (BS c) (r0 :: rs) size align /\ nxt s 1 <> 0 /\
   ~ can_hold (data s) (BS c) (from_block_1 (nxt s) (bc s)) size align).
Proof.
  intros c s r0 rs size align ans HC W L0 LF R O RE.
  assert (AS := fun fuel => allocate_searches c s size align ans fuel HC (wf_geom _ _ _ W) R O RE).
  destruct (request_align size align R) as [j [Hj [Ej A0]]].
  split.
  - intros NR. destruct (passes_dec (data s) (BS c) (r0 :: rs) size align A0) as [PF|SF].
    + split; auto. destruct PF as [l [f [t [E [A [F [N Nt]]]]]]].
      assert (NL : forall fuel, apply_loop fuel c (alloc_pred c) (alloc_act c size align) s 0 1 = Hang).
      { intros fuel. rewrite <- (long_to_ghost c s size align r0 rs HC R W L0 l f t fuel); auto.
        apply (AS (length l + S fuel)%nat). apply NR. }
      destruct (can_hold_dec (data s) (BS c) (from_block_1 (nxt s) (bc s)) size align A0) as [Y|NG].
      * exfalso. specialize (NL 1%nat). rewrite (ghost_loop c s size align r0 rs) in NL by auto.
        destruct (alloc_act c size align s 0 1) as [[[s' a'] x]| | |] eqn:X; cbn [bind] in NL; try discriminate NL.
        -- destruct x; [|discriminate NL]. revert X. rewrite (ghost_act c s size align r0 rs) by auto. cbv zeta.
           rewrite can_hold_skip in Y by auto. rewrite leb_true by auto.
           destruct (allocate_blocks c s 1 _ size); cbn [bind]; discriminate.
        -- exact (alloc_act_calm _ _ _ _ _ _ X).
      * split; auto. intros Z1. specialize (NL 1%nat). rewrite (ghost_pass c s size align r0 rs) in NL by auto.
        rewrite Z1 in NL. discriminate NL.
    + exfalso. assert (S1 := long_safe c s size align r0 rs SF).
      set (fuel := S (length (r0 :: rs))). specialize (NR fuel). apply (proj1 (proj1 (AS fuel))) in NR.
      destruct (nothing_or_first (data s) (BS c) (r0 :: rs) size align A0) as [NF|[l [f [t FF]]]].
      * assert (SS : search_safe (data s) (BS c) (r0 :: rs) size align).
        { split; auto. intros l f t [E [F [CH _]]]. exfalso. apply (NF f); auto. rewrite E. apply in_app_iff. right. left. auto. }
        rewrite (proj1 (loop_safe c s size align HC R (r0 :: rs) fuel 0 W SS ltac:(unfold fuel; lia)) NF) in NR.
        discriminate NR.
      * destruct FF as [E [F [CH N]]].
        assert (A : forall x, In x l -> rbusy x = true).
        { intros x I. destruct (rbusy x) eqn:B; auto. exfalso. apply in_split in I. destruct I as [l1 [l2 E1]].
          destruct (first_free l) as [A|[l3 [f3 [t3 [E3 [A3 F3]]]]]].
          - assert (rbusy x = true); [|congruence]. apply A. rewrite E1. apply in_app_iff. right. left. auto.
          - destruct (SF l3 f3 (t3 ++ f :: t)) as [X|X]; auto.
            + rewrite E, E3, <- app_assoc. reflexivity.
            + destruct t3; discriminate X.
            + apply (N f3); auto. rewrite E3. apply in_app_iff. right. left. auto. }
        assert (W' := W). rewrite E in W'. assert (H0 := start_0 c s r0 rs W).
        assert (LK := loop_skip_busy c s size align [] l f t (S (fuel - length l - 1)) 0 W' A).
        assert (HL : (length l < fuel)%nat).
        { unfold fuel. rewrite E, app_length. cbn [length]. lia. }
        replace (length l + S (fuel - length l - 1))%nat with fuel in LK by lia.
        rewrite <- E in LK. cbn [head_start] in LK. rewrite H0 in LK. rewrite LK in NR.
        rewrite (loop_free c s size align l f t) in NR by auto.
        destruct (alloc_act c size align s 0 (rstart f)) as [[[s' a'] x]| | |] eqn:X; cbn [bind] in NR; try discriminate NR.
        -- destruct x; [|discriminate NR]. revert X. rewrite (act_start c s l f t) by auto. cbv zeta.
           rewrite can_hold_skip in CH by auto. rewrite leb_true by auto.
           destruct (allocate_blocks c s (rstart f) _ size); cbn [bind]; discriminate.
        -- exact (alloc_act_calm _ _ _ _ _ _ X).
  - intros [[l [f [t [E [A [F [N Nt]]]]]]] [Z1 NG]] fuel. apply (proj2 (proj1 (AS fuel))).
    apply apply_loop_hang with (k := (length l + 1)%nat).
    replace (fuel + (length l + 1))%nat with (length l + S fuel)%nat by lia.
    rewrite (long_to_ghost c s size align r0 rs HC R W L0 l f t fuel); auto.
    apply (ghost_hang c s size align r0 rs); auto.
Qed.

Lemma passes_length : forall d b rs size align n, passes_first_free d b rs size align -> (length rs < n)%nat ->
  exists l f t k, rs = l ++ f :: t /\ (forall x, In x l -> rbusy x = true) /\ rbusy f = false /\
    ~ can_hold d b f size align /\ t <> [] /\ n = (length l + S (S k))%nat.
Proof.
  intros d b rs size align n [l [f [t [E [A [F [N Nt]]]]]]] H. exists l, f, t, (n - length l - 2)%nat.
  repeat (split; auto). rewrite E, app_length in H. cbn [length] in H. lia.
Qed.

(** C54, C53, C50: the place found *)
Lemma astray_served : forall c s r0 rs fuel size align ans, cfg_ok c -> wf c s (r0 :: rs) -> 2 <= rlen r0 ->
  nxt s 1 = 0 \/ 1 < nxt s 1 < bc s -> (Z.to_nat (bc s) < fuel)%nat ->
  request size align -> ordinary_buffer (data s) (bc s * BS c) ->
  alignment_within_reach (data s) (bc s * BS c) align ->
  passes_first_free (data s) (BS c) (r0 :: rs) size align ->
  can_hold_spare (data s) (BS c) (from_block_1 (nxt s) (bc s)) size align ->
  exists s' q, allocate_impl c fuel s size align ans = Ok (s', q, []) /\
    first_aligned (data s) (BS c) (from_block_1 (nxt s) (bc s)) align q.
Proof.
  intros c s r0 rs fuel size align ans HC W L0 LF Hf R O RE PF CS.
  destruct (passes_length _ _ _ _ _ fuel PF (region_count_fuel _ _ _ _ W Hf))
    as [l [f [t [k [E [A [F [N [Nt ->]]]]]]]]].
  destruct (ghost_serve c s size align r0 rs HC R W L0 LF k 0 CS) as [s' [q [X [FA [Q [D _]]]]]].
  exists s', q. split; auto.
  destruct (request_align _ _ R) as [j [Hj [Ea Ha]]]. assert (P := bs_pos c HC). assert (Pa : pow2 align) by apply R.
  destruct R as [R0 [R1 R2]].
  unfold allocate_impl. rewrite eqb_false by lia.
  assert (PA : is_power_of_2 align = true) by (rewrite Ea; apply is_power_of_2_pow; lia).
  rewrite PA, cassert_true. rewrite search_reached; auto; [|apply (wf_geom _ _ _ W)].
  rewrite (long_to_ghost c s size align r0 rs) with (f := f) (t := t); auto; [|split; auto].
  rewrite X. cbn [bind]. rewrite eqb_false by lia. cbn [andb].
  destruct (DBG c) eqn:DB; [|reflexivity].
  rewrite aligned_bs by (auto; lia). cbn [bind].
  assert (DV : q mod BS c = 0) by (apply Z.mod_divide; [lia|auto]).
  rewrite DV. reflexivity.
Qed.

(** the place is inside the first region *)
Lemma astray_inside : forall c s r0 rs align q, cfg_ok c -> wf c s (r0 :: rs) -> 2 <= rlen r0 ->
  pow2 align -> align <= BS c -> first_aligned (data s) (BS c) (from_block_1 (nxt s) (bc s)) align q ->
  q = data s + BS c /\ region_addr (data s) (BS c) r0 < q < region_addr (data s) (BS c) r0 + rlen r0 * BS c.
Proof.
  intros c s r0 rs align q HC W L0 Pa La [F1 [F2 F3]]. destruct (long_start c s r0 rs W L0) as [Z0 _].
  rewrite ghost_addr in F1, F3. assert (P := bs_pos c HC).
  assert (D : (align | data s + BS c)).
  { eapply Z.divide_trans; [apply (pow2_le_divide _ _ Pa (bs_pow2 _ HC) La)|].
    apply Z.divide_add_r; [apply (g_aligned _ _ (wf_geom _ _ _ W))|apply Z.divide_refl]. }
  assert (q = data s + BS c) by (specialize (F3 (data s + BS c) ltac:(lia) D); lia).
  split; auto. unfold region_addr. rewrite Z0. nia.
Qed.

Lemma astray_overlap : forall c s r0 rs fuel size align ans, cfg_ok c -> wf c s (r0 :: rs) -> 2 <= rlen r0 ->
  nxt s 1 = 0 \/ 1 < nxt s 1 < bc s -> (Z.to_nat (bc s) < fuel)%nat ->
  request size align -> align <= BS c -> ordinary_buffer (data s) (bc s * BS c) ->
  passes_first_free (data s) (BS c) (r0 :: rs) size align ->
  can_hold_spare (data s) (BS c) (from_block_1 (nxt s) (bc s)) size align ->
  exists s' q, allocate_impl c fuel s size align ans = Ok (s', q, []) /\ q = data s + BS c /\
    region_addr (data s) (BS c) r0 < q < region_addr (data s) (BS c) r0 + rlen r0 * BS c.
Proof.
  intros c s r0 rs fuel size align ans HC W L0 LF Hf R La O PF CS.
  assert (Pa : pow2 align) by apply R. assert (G := wf_geom _ _ _ W). assert (P := bs_pos c HC).
  assert (BB := g_bc _ _ G).
  assert (RE : alignment_within_reach (data s) (bc s * BS c) align).
  { apply reach_divides; auto; [apply (g_data _ _ G)|nia|].
    eapply Z.divide_trans; [apply (pow2_le_divide _ _ Pa (bs_pow2 _ HC) La)|apply (g_aligned _ _ G)]. }
  destruct (astray_served c s r0 rs fuel size align ans HC W L0 LF Hf R O RE PF CS) as [s' [q [E FA]]].
  exists s', q. split; auto. apply (astray_inside c s r0 rs align); auto.
Qed.

Lemma astray_refused : forall c s r0 rs fuel size align ans, cfg_ok c -> wf c s (r0 :: rs) -> 2 <= rlen r0 ->
  nxt s 1 = 0 -> (Z.to_nat (bc s) < fuel)%nat ->
  request size align -> ordinary_buffer (data s) (bc s * BS c) ->
  alignment_within_reach (data s) (bc s * BS c) align ->
  passes_first_free (data s) (BS c) (r0 :: rs) size align ->
  ~ can_hold (data s) (BS c) (from_block_1 (nxt s) (bc s)) size align ->
  (has_up s = true -> answer_fits (BS c) (ans size align)) ->
  allocate_impl c fuel s size align ans =
    Ok (if has_up s then (s, ans size align, [UpAllocate size align]) else (s, 0, [])).
Proof.
  intros c s r0 rs fuel size align ans HC W L0 N1 Hf R O RE PF NG AF.
  destruct (passes_length _ _ _ _ _ fuel PF (region_count_fuel _ _ _ _ W Hf))
    as [l [f [t [k [E [A [F [N [Nt ->]]]]]]]]].
  assert (SB : search_buffer c (length l + S (S k)) s size align = Ok (s, 0)).
  { rewrite search_reached; auto; [|apply (wf_geom _ _ _ W)|apply R].
    rewrite (long_to_ghost c s size align r0 rs) with (f := f) (t := t); auto.
    rewrite (ghost_pass c s size align r0 rs) by auto. rewrite N1. reflexivity. }
  destruct (has_up s) eqn:U.
  - rewrite (allocate_miss c s _ size align ans HC R SB); [rewrite U; reflexivity|]. intros _. destruct (AF eq_refl); auto.
  - assert (X := allocate_miss c s (length l + S (S k)) size align (fun _ _ => 0) HC R SB).
    rewrite U in X. rewrite <- X.
    + unfold allocate_impl. rewrite SB. cbn [bind]. rewrite U, andb_false_r. reflexivity.
    + intros _. split; [lia|apply Z.divide_0_r].
Qed.

(** * release *)

(** following the links from [j] leads to [n] *)
Inductive leads (f : Z -> Z) : Z -> Z -> Prop :=
| leads_stop : forall n, leads f n n
| leads_step : forall j n, j < f j -> leads f (f j) n -> leads f j n.

Lemma leads_le : forall f j n, leads f j n -> j <= n.
Proof. intros f j n L. induction L; lia. Qed.
Lemma leads_trans : forall f j m n, leads f j m -> leads f m n -> leads f j n.
Proof. intros f j m n L. induction L; intros K; auto. apply leads_step; auto. Qed.
Lemma leads_ext : forall f g j n, leads f j n -> (forall i, j <= i -> g i = f i) -> leads g j n.
Proof.
  intros f g j n L. induction L as [n|j n H L IH]; intros E; [constructor|].
  apply leads_step; rewrite E by lia; auto. apply IH. intros i Hi. apply E. lia.
Qed.

Section Release.
  Variable c : cfg.
  Hypothesis HC : cfg_ok c.
  Notation loop fuel := (apply_loop fuel c (in_use c) (release_act c)).

  Lemma head_merge : forall s r0 r1 rest s' a n l' t', wf c s (r0 :: r1 :: rest) -> rbusy r0 = false ->
    wf c s' (l' ++ Reg a n false :: t') -> freed [r0] r1 rest a n l' t' -> l' = [] /\ a = 0.
  Proof.
    intros s r0 r1 rest s' a n l' t' W B W' F.
    assert (S0 := start_0 c s r0 _ W).
    destruct F as [[[-> [_ [F|[k [x [F Bx]]]]]]|[x [F [Bx Ea]]]] _].
    - discriminate F.
    - change [r0] with ([] ++ [r0]) in F. apply app_inj_tail in F. destruct F as [_ <-]. congruence.
    - change [r0] with ([] ++ [r0]) in F. apply app_inj_tail in F. destruct F as [<- <-]. split; auto. lia.
  Qed.

  Lemma last_whole : forall s n t, wf c s (Reg 0 n false :: t) -> (n = bc s <-> t = []).
  Proof.
    intros s n t W. destruct (wf_region c s [] (Reg 0 n false) t W) as [_ [_ [_ [_ [_ Q]]]]].
    cbn [rstart rlen] in Q. rewrite Z.add_0_l in Q. tauto.
  Qed.

  (** freeing the region after region 0, which is free, extends the way to its end *)
  Lemma leads_merge : forall s r0 r1 rest s' n t', wf c s (r0 :: r1 :: rest) -> rbusy r0 = false ->
    wf c s' (Reg 0 n false :: t') -> freed [r0] r1 rest 0 n [] t' -> bc s' = bc s ->
    (forall j, j <> 0 -> nxt s' j = nxt s j) -> n <> bc s ->
    leads (nxt s) 1 (rlen r0) -> leads (nxt s') 1 n.
  Proof.
    intros s r0 r1 rest s' n t' W B W' F Eb Fr Nn L.
    assert (S0 := start_0 c s r0 _ W). destruct (wf_next_region c s [] r0 r1 rest W) as [_ N1].
    rewrite S0, Z.add_0_l in N1. assert (B0 := wf_bounds _ _ _ r0 W (or_introl eq_refl)).
    assert (B1 := wf_bounds _ _ _ r1 W (or_intror (or_introl eq_refl))).
    apply leads_ext with (nxt s); [|intros i Hi; apply Fr; lia].
    apply leads_trans with (rlen r0); auto. rewrite <- N1.
    assert (LK := wf_link c s _ r1 W (or_intror (or_introl eq_refl))). unfold link in LK.
    destruct F as [_ [[-> [F _]]|[u [Eu [Bu F]]]]].
    - rewrite Z.add_0_l in F. rewrite <- F in LK. rewrite eqb_false in LK by lia.
      apply leads_step; rewrite LK; [lia|constructor].
    - subst rest. destruct (wf_next_region c s [r0] r1 u t' W) as [_ N2].
      assert (Iu : In u (r0 :: r1 :: u :: t')) by (right; right; left; auto).
      assert (B2 := wf_bounds _ _ _ u W Iu). assert (LU := wf_link c s _ u W Iu). unfold link in LU.
      rewrite Z.add_0_l in F. rewrite eqb_false in LK by lia. rewrite <- N2 in LK.
      apply leads_step; rewrite LK; [lia|]. rewrite <- F in LU. rewrite eqb_false in LU by lia.
      apply leads_step; rewrite LU; [lia|constructor].
  Qed.

  Lemma release_leads : forall N s r0 rest j fuel, (length (busy rest) <= N)%nat ->
    wf c s (r0 :: rest) -> rbusy r0 = false -> rest <> [] -> leads (nxt s) 1 (rlen r0) ->
    1 <= j -> leads (nxt s) j (rlen r0) -> (Z.to_nat (bc s) * S N <= fuel)%nat ->
    exists s', loop fuel s tt j = Ok (s', tt) /\ wf c s' [Reg 0 (bc s) false] /\
      data s' = data s /\ bc s' = bc s /\ has_up s' = has_up s.
  Proof.
    induction N as [|N IHN].
    { intros s r0 rest j fuel HN W B Hne. exfalso. destruct rest as [|r1 rest]; [congruence|].
      destruct (coalesced_head _ _ _ (wf_coal _ _ _ W)) as [X|X]; [congruence|].
      rewrite busy_cons_busy in HN by auto. cbn in HN. lia. }
    assert (Main : forall m s r0 rest j fuel, (Z.to_nat (rlen r0 - j) <= m)%nat ->
      (length (busy rest) <= S N)%nat ->
      wf c s (r0 :: rest) -> rbusy r0 = false -> rest <> [] -> leads (nxt s) 1 (rlen r0) ->
      1 <= j -> leads (nxt s) j (rlen r0) -> (m + 1 + Z.to_nat (bc s) * S N <= fuel)%nat ->
      exists s', loop fuel s tt j = Ok (s', tt) /\ wf c s' [Reg 0 (bc s) false] /\
        data s' = data s /\ bc s' = bc s /\ has_up s' = has_up s).
    { induction m as [|m IHm]; intros s r0 rest j fuel Hm HN W B Hne L Hj LJ Hf;
        (assert (LE := leads_le _ _ _ LJ)); (assert (S0 := start_0 c s r0 _ W));
        (destruct fuel as [|fuel]; [lia|]).
      - (* at the end of region 0 *)
        assert (j = rlen r0) by lia. subst j. 
        destruct rest as [|r1 rest]; [congruence|].
        destruct (wf_next_region c s [] r0 r1 rest W) as [_ N1]. rewrite S0, Z.add_0_l in N1.
        destruct (coalesced_head _ _ _ (wf_coal _ _ _ W)) as [X|B1]; [congruence|].
        destruct (loop_step_busy c HC fuel s [r0] r1 rest W B1)
          as [s' [a [n [l' [t' [W' [F [D1 [D2 [D3 [D5 E]]]]]]]]]]].
        rewrite <- N1, E. clear E.
        destruct (head_merge s r0 r1 rest s' a n l' t' W B W' F) as [-> ->]. cbn [app] in W'.
        assert (LK0 := wf_link c s' _ (Reg 0 n false) W' (or_introl eq_refl)).
        cbn [rstart rlen] in LK0. rewrite LK0. unfold link. rewrite Z.add_0_l.
        assert (LW := last_whole s' n t' W').
        destruct (Z.eqb_spec n (bc s')) as [En|En].
        + cbn [Z.eqb]. exists s'. rewrite (proj1 LW En) in W'. rewrite <- D2, <- En. auto 6.
        + assert (BA := wf_bounds _ _ _ (Reg 0 n false) W' (or_introl eq_refl)). cbn [rstart rlen] in BA.
          rewrite eqb_false by lia.
          assert (NT : t' <> []) by (intros X; apply En, LW, X).
          assert (FB := freed_busy [r0] r1 rest 0 n [] t' B1 F). cbn [app] in FB.
          rewrite busy_cons_free in FB by auto. rewrite (busy_cons_free r0) in FB by auto. cbn in FB.
          rewrite busy_cons_busy in HN by auto. cbn in HN.
          assert (L' := leads_merge s r0 r1 rest s' n t' W B W' F D2 D5 ltac:(congruence) L).
          destruct (IHN s' (Reg 0 n false) t' 1 fuel) as [s2 [E2 [W2 [P1 [P2 P3]]]]]; auto.
          * rewrite FB. unfold busy in *. lia.
          * lia.
          * rewrite D2. lia.
          * exists s2. rewrite D2 in *. repeat (split; [congruence|]). congruence.
      - inversion LJ as [x Hx|x y Hxy LJ' E1 E2]; subst.
        + apply (IHm s r0 rest); auto; lia.
        + assert (LE' := leads_le _ _ _ LJ').
          assert (B0 := wf_bounds _ _ _ r0 W (or_introl eq_refl)).
          assert (JI : inuse s j = false).
          { destruct (inuse s j) eqn:U; auto. exfalso.
            apply (start_in c s _ j r0 W (or_introl eq_refl) ltac:(lia)). apply (wf_heads _ _ _ W). auto. }
          rewrite (loop_step_free c fuel s (r0 :: rest)) by (auto; lia).
          rewrite eqb_false by lia. apply (IHm s r0 rest); auto; lia. }
    intros s r0 rest j fuel HN W B Hne L Hj LJ Hf.
    assert (B0 := wf_bounds _ _ _ r0 W (or_introl eq_refl)). assert (LE := leads_le _ _ _ LJ).
    assert (S0 := start_0 c s r0 _ W).
    apply (Main (Z.to_nat (rlen r0 - j)) s r0 rest); auto. lia.
  Qed.

  (** C61: a first region of one block *)
  Lemma release_one_block : forall s r0 rs fuel, wf c s (r0 :: rs) -> rlen r0 = 1 -> (enough (bc s) <= fuel)%nat ->
    exists s', release c fuel s = Ok s' /\ wf c s' [Reg 0 (bc s) false] /\
      data s' = data s /\ bc s' = bc s /\ has_up s' = has_up s.
  Proof.
    intros s r0 rest fuel W L0 Hf. unfold enough in Hf.
    assert (BB := g_bc _ _ (wf_geom _ _ _ W)). assert (S0 := start_0 c s r0 _ W).
    assert (RC := regions_count _ _ _ _ _ _ _ (wf_tiles _ _ _ W)). cbn [length] in RC.
    assert (BL : (length (busy rest) <= length rest)%nat) by (apply SimpleProofs.filter_length_le).
    destruct fuel as [|fuel]; [lia|].
    assert (G : exists s', loop (S fuel) s tt 0 = Ok (s', tt) /\ wf c s' [Reg 0 (bc s) false] /\
      data s' = data s /\ bc s' = bc s /\ has_up s' = has_up s).
    { destruct (rbusy r0) eqn:B.
      - destruct (loop_step_busy c HC fuel s [] r0 rest W B)
          as [s' [a [n [l' [t' [W' [F [D1 [D2 [D3 [D5 E]]]]]]]]]]].
        rewrite S0 in E. rewrite E. clear E.
        assert (LA : l' = [] /\ a = 0).
        { destruct F as [[[-> [-> _]]|[x [F _]]] _]; auto. destruct l'; discriminate F. }
        destruct LA as [-> ->]. cbn [app] in W'.
        assert (BA := wf_bounds _ _ _ (Reg 0 n false) W' (or_introl eq_refl)). cbn [rstart rlen] in BA.
        assert (LK0 := wf_link c s' _ (Reg 0 n false) W' (or_introl eq_refl)).
        cbn [rstart rlen] in LK0. rewrite LK0. unfold link. rewrite Z.add_0_l.
        assert (LW := last_whole s' n t' W').
        destruct (Z.eqb_spec n (bc s')) as [En|En].
        + cbn [Z.eqb]. exists s'. rewrite (proj1 LW En) in W'. rewrite <- D2, <- En. auto 6.
        + rewrite eqb_false by lia.
          assert (NT : t' <> []) by (intros X; apply En, LW, X).
          assert (FB := freed_busy [] r0 rest 0 n [] t' B F). cbn [app] in FB.
          rewrite busy_cons_free in FB by auto. cbn in FB.
          assert (L' : leads (nxt s') 1 n).
          { destruct F as [_ [[-> [F _]]|[u [Eu [Bu F]]]]]; rewrite Z.add_0_l in F.
            - replace n with 1 by lia. constructor.
            - subst rest. destruct (wf_next_region c s [] r0 u t' W) as [_ N2].
              assert (Iu : In u (r0 :: u :: t')) by (right; left; auto).
              assert (B2 := wf_bounds _ _ _ u W Iu). assert (LU := wf_link c s _ u W Iu). unfold link in LU.
              replace (rstart u) with 1 in * by lia. rewrite <- F in LU. rewrite eqb_false in LU by lia.
              apply leads_step; rewrite D5, LU by lia; [lia|constructor]. }
          destruct (release_leads (length (busy t')) s' (Reg 0 n false) t' 1 fuel)
            as [s2 [E2 [W2 [P1 [P2 P3]]]]]; auto; [lia|rewrite D2, FB; nia|].
          exists s2. rewrite D2 in *. repeat (split; [congruence|]). congruence.
      - assert (U0 : inuse s 0 = false).
        { destruct (wf_region c s [] r0 rest W) as [_ [_ [_ [_ [Q _]]]]]. congruence. }
        rewrite (loop_step_free c fuel s (r0 :: rest)) by (auto; lia).
        assert (LK := wf_link c s _ r0 W (or_introl eq_refl)). rewrite S0, Z.add_0_l in LK. rewrite LK.
        assert (R : r0 = Reg 0 (rlen r0) false) by (destruct r0; cbn in *; congruence).
        assert (LW := last_whole s (rlen r0) rest). rewrite <- R in LW. specialize (LW W).
        unfold link. destruct (Z.eqb_spec (rlen r0) (bc s)) as [En|En].
        + cbn [Z.eqb]. exists s. rewrite (proj1 LW En) in W. rewrite <- En, <- R. auto.
        + rewrite eqb_false by lia.
          assert (NT : rest <> []) by (intros X; apply En, LW, X).
          destruct (release_leads (length (busy rest)) s r0 rest (rlen r0) fuel)
            as [s2 [E2 [W2 [P1 [P2 P3]]]]]; auto; try nia.
          * rewrite L0. constructor.
          * constructor.
          * exists s2. auto 6. }
    destruct G as [s' [E R]]. unfold release. rewrite E. cbn [bind]. exists s'. auto.
  Qed.

  (** C61: a longer first region, and block 1 never written to: only the first
      allocation is freed *)
  Lemma release_first_only : forall s r0 rs fuel, wf c s (r0 :: rs) -> 2 <= rlen r0 -> nxt s 1 = 0 ->
    (2 < fuel)%nat ->
    exists s' rs', release c fuel s = Ok s' /\ wf c s' rs' /\ busy rs' = tl (busy (r0 :: rs)) /\
      data s' = data s /\ bc s' = bc s /\ has_up s' = has_up s.
  Proof.
    intros s r0 rest fuel W L0 N1 Hf. destruct (long_start c s r0 rest W L0) as [S0 BB].
    destruct fuel as [|[|[|fuel]]]; try lia.
    assert (U1 := ghost_unused c s r0 rest W L0).
    assert (Stop : forall s' n t' k, wf c s' (Reg 0 n false :: t') -> bc s' = bc s -> 2 <= n ->
      (forall j, j <> 0 -> nxt s' j = nxt s j) -> loop (S k) s' tt 1 = Ok (s', tt)).
    { intros s' n t' k W' Eb Hn Fr. 
      rewrite (loop_step_free c k s' (Reg 0 n false :: t')); auto; [|lia|].
      - rewrite Fr by lia. rewrite N1. reflexivity.
      - apply (ghost_unused c s' (Reg 0 n false) t'); auto. }
    assert (G : exists s' rs', loop (S (S (S fuel))) s tt 0 = Ok (s', tt) /\ wf c s' rs' /\
      busy rs' = tl (busy (r0 :: rest)) /\ data s' = data s /\ bc s' = bc s /\ has_up s' = has_up s).
    { destruct (rbusy r0) eqn:B.
      - destruct (loop_step_busy c HC (S (S fuel)) s [] r0 rest W B)
          as [s' [a [n [l' [t' [W' [F [D1 [D2 [D3 [D5 E]]]]]]]]]]].
        rewrite S0 in E.
        assert (LA : l' = [] /\ a = 0).
        { destruct F as [[[-> [-> _]]|[x [F _]]] _]; auto. destruct l'; discriminate F. }
        destruct LA as [-> ->]. cbn [app] in W'.
        assert (FB := freed_busy [] r0 rest 0 n [] t' B F). cbn [app] in FB.
        exists s', (Reg 0 n false :: t'). split.
        + rewrite E. destruct (nxt s' 0 =? 0); auto. apply (Stop s' n t'); auto.
          destruct F as [_ [[-> [F _]]|[u [Eu [Bu F]]]]]; [lia|].
          subst rest. destruct (wf_next_region c s [] r0 u t' W) as [_ N2].
          assert (B2 := wf_bounds _ _ _ u W (or_intror (or_introl eq_refl))). lia.
        + rewrite (busy_cons_busy r0) by auto. cbn [tl]. auto.
      - assert (U0 : inuse s 0 = false).
        { destruct (wf_region c s [] r0 rest W) as [_ [_ [_ [_ [Q _]]]]]. congruence. }
        rewrite (loop_step_free c _ s (r0 :: rest)) by (auto; lia).
        assert (LK := wf_link c s _ r0 W (or_introl eq_refl)). rewrite S0, Z.add_0_l in LK. rewrite LK.
        assert (R : r0 = Reg 0 (rlen r0) false) by (destruct r0; cbn in *; congruence).
        assert (LW := last_whole s (rlen r0) rest). rewrite <- R in LW. specialize (LW W).
        rewrite (busy_cons_free r0) by auto.
        unfold link. destruct (Z.eqb_spec (rlen r0) (bc s)) as [En|En].
        + cbn [Z.eqb]. exists s, (r0 :: rest). rewrite (busy_cons_free r0) by auto.
          rewrite (proj1 LW En) in *. cbn. auto 7.
        + rewrite eqb_false by lia. destruct rest as [|r1 rest]; [exfalso; apply En, LW; auto|].
          destruct (wf_next_region c s [] r0 r1 rest W) as [_ N2]. rewrite S0, Z.add_0_l in N2.
          destruct (coalesced_head _ _ _ (wf_coal _ _ _ W)) as [X|B1]; [congruence|].
          destruct (loop_step_busy c HC (S fuel) s [r0] r1 rest W B1)
            as [s' [a [n [l' [t' [W' [F [D1 [D2 [D3 [D5 E]]]]]]]]]]].
          destruct (head_merge s r0 r1 rest s' a n l' t' W B W' F) as [-> ->]. cbn [app] in W'.
          assert (FB := freed_busy [r0] r1 rest 0 n [] t' B1 F). cbn [app] in FB.
          rewrite (busy_cons_free r0) in FB by auto.
          exists s', (Reg 0 n false :: t'). rewrite <- N2, E. split.
          * destruct (nxt s' 0 =? 0); auto. apply (Stop s' n t'); auto.
            assert (B2 := wf_bounds _ _ _ r1 W (or_intror (or_introl eq_refl))).
            destruct F as [_ [[-> [F _]]|[u [Eu [Bu F]]]]]; [lia|].
            subst rest. destruct (wf_next_region c s [r0] r1 u t' W) as [_ N3].
            assert (B3 := wf_bounds _ _ _ u W ltac:(right; right; left; auto)). lia.
          * rewrite (busy_cons_busy r1) by auto. cbn [tl]. auto. }
    destruct G as [s' [rs' [E R]]]. unfold release. rewrite E. cbn [bind]. exists s', rs'. auto.
  Qed.

  Lemma release_nothing : forall s rs fuel, wf c s rs -> busy rs = [] -> (0 < fuel)%nat -> release c fuel s = Ok s.
  Proof.
    intros s rs fuel W B Hf. assert (BB := g_bc _ _ (wf_geom _ _ _ W)).
    destruct fuel as [|fuel]; [lia|]. destruct rs as [|r0 rest].
    { assert (T := wf_tiles _ _ _ W). unfold regions_of in T. cbn [tiles] in T. lia. }
    assert (S0 := start_0 c s r0 _ W).
    assert (F : forall r, In r (r0 :: rest) -> rbusy r = false).
    { intros r I. destruct (rbusy r) eqn:X; auto. exfalso. assert (In r (busy (r0 :: rest))) by (apply in_busy; auto).
      rewrite B in H. destruct H. }
    destruct rest as [|r1 rest].
    - assert (F0 := F r0 (or_introl eq_refl)).
      destruct (wf_region c s [] r0 [] W) as [_ [_ [_ [_ [Q Q2]]]]].
      unfold release. rewrite (loop_step_free c fuel s [r0]) by (solve [auto; lia | congruence | lia]).
      assert (LK := wf_link c s _ r0 W (or_introl eq_refl)). rewrite S0 in *. rewrite LK. unfold link.
      rewrite Z.add_0_l in *; rewrite (proj1 Q2 eq_refl), Z.eqb_refl. reflexivity.
    - exfalso. destruct (coalesced_head _ _ _ (wf_coal _ _ _ W)) as [X|X].
      + rewrite (F r0 (or_introl eq_refl)) in X. discriminate X.
      + rewrite (F r1 (or_intror (or_introl eq_refl))) in X. discriminate X.
  Qed.
End Release.

(** * Clients that use regions of [k] >= 2 blocks never write to block 1 *)

Lemma pool_first : forall c s k rs, wf c s rs -> pool_inv (bc s) k rs -> 2 <= k -> ~ In 1 (map rstart rs).
Proof.
  intros c s k rs W [[C K] H] Hk I. apply in_map_iff in I. destruct I as [r [E I]].
  assert (D := pool_starts _ _ _ 0 C K (Z.divide_0_r k) H r I). rewrite E in D.
  apply Z.divide_1_r_nonneg in D; lia.
Qed.

Lemma pool_keep_step : forall c s k rs fuel o, cfg_ok c -> wf c s rs -> pool_inv (bc s) k rs -> 2 <= k ->
  nxt s 1 = 0 -> ordinary_buffer (data s) (bc s * BS c) -> (Z.to_nat (bc s) < fuel)%nat ->
  k * BS c + BS c <= 2 ^ 64 ->
  valid_op (data s) (BS c) (bc s) (has_up s) false (pool_request (BS c) k) any_order rs o ->
  exists s' rs' e, step c fuel s o = Ok (s', e) /\ wf c s' rs' /\ same_place s s' /\
    nxt s' 1 = 0 /\ pool_inv (bc s) k rs' /\ spec_step (data s) (BS c) (bc s) (has_up s) rs o rs' e.
Proof.
  intros c s k rs fuel o HC W PI Hk N1 O Hf Hb V. assert (P := bs_pos c HC).
  assert (BB := g_bc _ _ (wf_geom _ _ _ W)). assert (GD := g_data _ _ (wf_geom _ _ _ W)).
  assert (GA := g_aligned _ _ (wf_geom _ _ _ W)).
  assert (Q : exists s' rs' e, step c fuel s o = Ok (s', e) /\ wf c s' rs' /\ same_place s s' /\
    (~ In 1 (map rstart rs') -> nxt s' 1 = 0) /\
    spec_step (data s) (BS c) (bc s) (has_up s) rs o rs' e).
  { destruct o as [size align ans|p|]; cbn [valid_op] in V.
    - destruct V as [->|[V1 [V2 [V3 V4]]]].
      + exists s, rs, (EAllocate 0 align 0 []). cbn [step]. rewrite allocate_zero. cbn [bind].
        split; auto. split; auto. split; [repeat split|]. split; auto. constructor.
      + assert (CF : careful (data s) (BS c) (bc s) rs size align).
        { apply (pool_careful (data s) (BS c) (bc s) k); auto; try lia. apply (bs_pow2 _ HC). }
        destruct (step_allocate c s rs fuel size align ans HC W O Hf V1 V2 CF V4)
          as [[NF E]|[l [f [t [s' [q [FF [E S]]]]]]]].
        * cbn [step]. rewrite E. destruct (has_up s) eqn:U; cbn [bind]; eexists s, rs, _;
            (split; [reflexivity|]); (split; [auto|]); (split; [repeat split|]); (split; [auto|]).
          -- apply spec_pass_on; auto.
          -- apply spec_refuse; auto.
        * destruct S as [F1 [F2 [i [K1 [K2 [K3 [W' [D1 [D2 [D3 [D4 D5]]]]]]]]]]].
          exists s', (l ++ carve f i (size / BS c + 1) ++ t), (EAllocate size align q []).
          cbn [step]. rewrite E. cbn [bind]. split; auto. split; auto. split; [repeat split; auto|].
          split.
          -- intros X. rewrite D5; auto. intros Y. apply X. rewrite !map_app, !in_app_iff. auto.
          -- apply spec_serve with l f t (rstart f + i); auto.
             ++ rewrite <- D2. apply wf_tiling with c. auto.
             ++ rewrite served_busy. reflexivity.
    - cbn [step]. destruct V as [->|[[r [I [B [_ E]]]]|[V1 [V2 [V3 V4]]]]].
      + rewrite deallocate_null. cbn [bind]. exists s, rs, (EDeallocate 0 []).
        split; auto. split; auto. split; [repeat split|]. split; auto. constructor.
      + destruct (in_split _ _ I) as [l [t Ers]]. subst rs p.
        destruct (deallocate_live c s l r t HC W B) as [s' [a [n [l' [t' [E1 [W' [F [D1 [D2 [D3 [D4 D5]]]]]]]]]]]].
        unfold addr in E1. rewrite E1. cbn [bind]. eexists s', _, _. split; [reflexivity|]. split; [exact W'|].
        split; [repeat split; auto|]. split.
        * intros X. rewrite D5; auto. intros <-. apply X. rewrite map_app, in_app_iff. right. left. reflexivity.
        * eapply spec_free; eauto.
          -- rewrite <- D2. apply wf_tiling with c. auto.
          -- eapply freed_busy; eauto.
      + rewrite deallocate_outside; auto; [|apply (wf_geom _ _ _ W)].
        assert (M : p mod BS c = 0) by (apply Z.mod_divide; [lia|auto]). rewrite M, V1. cbn [Z.eqb andb bind].
        eexists s, rs, _. split; [reflexivity|]. split; auto. split; [repeat split; auto|]. split; auto.
        apply spec_forward; auto. lia.
    - discriminate V. }
  destruct Q as [s' [rs' [e [E [W' [SP [N' S]]]]]]]. exists s', rs', e.
  assert (PI' : pool_inv (bc s) k rs').
  { apply (pool_step (data s) (BS c) (bc s) (has_up s) false k rs o rs' e); auto; try lia.
    apply (bs_pow2 _ HC). }
  split; auto. split; auto. split; auto. split; auto. apply N'. destruct SP as [_ [SP _]]. 
  eapply pool_first; eauto. rewrite SP. exact PI'.
Qed.

Lemma pool_keep_run : forall c k fuel ops s rs, cfg_ok c -> wf c s rs -> pool_inv (bc s) k rs -> 2 <= k ->
  nxt s 1 = 0 -> ordinary_buffer (data s) (bc s * BS c) -> (Z.to_nat (bc s) < fuel)%nat ->
  k * BS c + BS c <= 2 ^ 64 ->
  valid_client (data s) (BS c) (bc s) (has_up s) false (pool_request (BS c) k) any_order rs ops ->
  exists s' rs' es, run c fuel s ops = Ok (s', es) /\ wf c s' rs' /\ same_place s s' /\
    spec_run (data s) (BS c) (bc s) (has_up s) rs ops rs' es /\ nxt s' 1 = 0 /\ pool_inv (bc s) k rs'.
Proof.
  intros c k fuel; induction ops as [|o ops IH]; intros s rs HC W PI Hk N1 O Hf Hb V.
  - exists s, rs, []. split; auto. split; auto. split; [repeat split|]. split; [constructor|]. auto.
  - cbn [valid_client] in V. destruct V as [V1 V2].
    destruct (pool_keep_step c s k rs fuel o HC W PI Hk N1 O Hf Hb V1) as [s1 [rs1 [e [E [W1 [[P1 [P2 P3]] [L1 [PI1 ST]]]]]]]].
    specialize (V2 rs1 e ST).
    destruct (IH s1 rs1) as [s2 [rs2 [es [E2 [W2 [[Q1 [Q2 Q3]] [SR [L2 PI2]]]]]]]];
      auto; try (rewrite ?P1, ?P2, ?P3; auto).
    exists s2, rs2, (e :: es). cbn [run]. rewrite E. cbn [bind]. rewrite E2. cbn [bind].
    split; auto. split; auto. split; [repeat split; congruence|].
    rewrite P1, P2, P3 in SR. rewrite P2 in PI2. split; [|auto].
    econstructor; [exact ST|exact SR].
Qed.

(** C61: after any calls of a client that uses regions of [k] >= 2 blocks, release
    frees one allocation *)
Lemma pool_release : forall c buffer size up s k fuel ops, made c buffer size up s -> 2 <= k ->
  k * BS c + BS c <= 2 ^ 64 -> (Z.to_nat (bc s) < fuel)%nat -> (2 < fuel)%nat ->
  pool_client (data s) (BS c) (bc s) k up ops ->
  exists s' es s2, run c fuel s ops = Ok (s', es) /\ busyc s' = Z.of_nat (length (live es)) /\
    release c fuel s' = Ok s2 /\ busyc s2 = Z.of_nat (length (tl (live es))).
Proof.
  intros c buffer size up s k fuel ops M Hk Hb Hf Hf2 V.
  destruct (made_wf _ _ _ _ _ M) as [HC [W [U [N0 [O [D [B [PB [DV N]]]]]]]]].
  unfold pool_client in V. rewrite <- U in V.
  destruct (pool_keep_run c k fuel ops s _ HC W (pool_start (bc s) k N) Hk) as [s' [rs [es [E [W' [[P1 [P2 P3]] [SR [N1 PI]]]]]]]]; auto.
  { rewrite N0. auto. }
  destruct (spec_run_live _ _ _ _ _ _ _ _ [] D B N (wf_tiling _ _ _ W) (live_inv_start _ _ _) SR) as [T LI].
  fold (live es) in LI. assert (LC := live_inv_count _ _ _ _ LI).
  assert (TL : forall A (l : list A), length (tl l) = pred (length l)) by (intros A [|x l]; reflexivity).
  assert (BC := wf_busy _ _ _ W').
  assert (BL : busyc s' = Z.of_nat (length (live es))) by (rewrite BC, LC; reflexivity).
  destruct rs as [|r0 rest].
  { assert (T0 := wf_tiles _ _ _ W'). unfold regions_of in T0. cbn [tiles] in T0. lia. }
  destruct (busy (r0 :: rest)) as [|x l] eqn:EB.
  - exists s', es, s'. split; auto. split; auto. split; [apply (release_nothing c s' (r0 :: rest)); auto; lia|].
    rewrite BC, TL, LC. reflexivity.
  - assert (L0 : 2 <= rlen r0).
    { assert (S0 := start_0 c s' r0 _ W'). assert (B0 := wf_bounds _ _ _ r0 W' (or_introl eq_refl)).
      destruct PI as [PT PI]. destruct (rbusy r0) eqn:Br.
      - destruct (PI r0 (or_introl eq_refl) Br). lia.
      - destruct rest as [|r1 rest]; [rewrite busy_cons_free in EB by auto; discriminate EB|].
        destruct (wf_next_region c s' [] r0 r1 rest W') as [_ N2].
        assert (X := pool_first c s' k (r0 :: r1 :: rest) W' ltac:(split; [rewrite P2; exact PT|exact PI]) Hk).
        destruct (Z_lt_le_dec (rlen r0) 2); auto. exfalso. apply X. right. left. lia. }
    destruct (release_first_only c HC s' r0 rest fuel W' L0 N1 Hf2) as [s2 [rs2 [E2 [W2 [B2 _]]]]].
    exists s', es, s2. split; auto. split; auto. split; auto.
    rewrite (wf_busy _ _ _ W2), B2, !TL, LC, EB. reflexivity.
Qed.

Lemma one_block_release : forall c s r0 rs fuel, cfg_ok c -> wf c s (r0 :: rs) -> rlen r0 = 1 ->
  (enough (bc s) <= fuel)%nat ->
  exists s', release c fuel s = Ok s' /\ regions_of s' [Reg 0 (bc s) false] /\ freec s' = 1 /\ busyc s' = 0 /\
    destroy s' = Ok tt.
Proof.
  intros c s r0 rs fuel HC W L0 Hf. destruct (release_one_block c HC s r0 rs fuel W L0 Hf) as [s' [E [W' _]]].
  exists s'. split; auto. split; [apply (wf_tiles _ _ _ W')|]. assert (B := wf_busy _ _ _ W').
  assert (F := wf_free _ _ _ W'). cbn in B, F. split; auto. split; auto. unfold destroy. rewrite B. reflexivity.
Qed.

Lemma first_only_release : forall c s r0 rs fuel, cfg_ok c -> wf c s (r0 :: rs) -> 2 <= rlen r0 ->
  nxt s 1 = 0 -> (2 < fuel)%nat ->
  exists s' rs', release c fuel s = Ok s' /\ regions_of s' rs' /\ busy rs' = tl (busy (r0 :: rs)) /\
    busyc s' = Z.of_nat (length (tl (busy (r0 :: rs)))).
Proof.
  intros c s r0 rs fuel HC W L0 N1 Hf.
  destruct (release_first_only c HC s r0 rs fuel W L0 N1 Hf) as [s' [rs' [E [W' [B _]]]]].
  exists s', rs'. split; auto. split; [apply (wf_tiles _ _ _ W')|]. split; auto.
  rewrite (wf_busy _ _ _ W'), B. reflexivity.
Qed.
