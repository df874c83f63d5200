(** Lemmas about simple_resource: construction, allocate and deallocate. *)

Require Import ZArith Lia List Bool Permutation.
Require Import Verif.Outcome Verif.Machine Verif.BitsModel Verif.BitsSpec Verif.BitsProofs.
Require Import Verif.ArithModel Verif.ArithProofs.
Require Import Verif.SimpleModel Verif.SimpleSpec Verif.SimpleProofs Verif.SimpleAllocProofs.
Require Import Verif.SimpleScanProofs.
Import ListNotations.
Open Scope Z_scope.
Open Scope res_scope.

Lemma bs_log : forall c, cfg_ok c -> exists k, 0 <= k < 64 /\ BS c = 2 ^ k.
Proof.
  intros c HC. destruct (bs_pow2 _ HC) as [k [Hk E]]. exists k. split; auto. split; auto.
  apply Z.pow_lt_mono_r_iff with (a := 2); try lia. rewrite <- E. apply (bs_range _ HC).
Qed.

(** * The check of the alignment before the search *)

Lemma reach_gate : forall d n align g, 0 < d -> 0 < n -> pow2 align -> alignment_of d g ->
  alignment_within_reach d n align -> guaranteed_alignment g n align.
Proof.
  intros d n align g Hd Hn Pa [G1 [G2 G3]] [g' [[H1 [H2 H3]] H4]].
  assert (g = g') by (specialize (G3 g' H1 H2); specialize (H3 g G1 G2); lia). subst. auto.
Qed.

Lemma ctz_value : forall dbg v, 0 < v -> exists z, 0 <= z /\ calc_ctz dbg v = Ok z /\ alignment_of v (2 ^ z).
Proof.
  intros dbg v H. destruct v as [|p|p]; try lia. exists (trailing_zeros p).
  split; [apply tz_nonneg|]. split; [destruct dbg; reflexivity|].
  destruct (tz_spec p) as [N [D1 D2]]. split; [exists (trailing_zeros p); auto|]. split; auto.
  intros g' [k [Hk ->]] D. destruct (Z_le_gt_dec k (trailing_zeros p)); [apply pow2_le; lia|].
  exfalso. apply D2. eapply Z.divide_trans; [|exact D]. apply pow2_divide. lia.
Qed.

Lemma gate_value : forall c s, cfg_ok c -> geometry c s -> ordinary_buffer (data s) (bc s * BS c) ->
  exists m, (forall fuel size align, search_buffer c fuel s size align =
    if align <=? m then apply_loop fuel c (alloc_pred c) (alloc_act c size align) s 0 0 else Ok (s, 0)) /\
  exists g, alignment_of (data s) g /\ best_alignment g (bc s * BS c) m.
Proof.
  intros c s HC G O. assert (P := bs_pos c HC). destruct G as [G1 G2 G3 G4 G5].
  destruct (ctz_value (DBG c) (data s) G1) as [z [Hz [E A]]].
  assert (L : 2 ^ z + bc s * BS c - 1 < 2 ^ 31) by (apply O; apply A).
  assert (PZ := pow2_pos z Hz). assert (NN : 0 < bc s * BS c) by nia.
  assert (Hz31 : z < 31).
  { apply Z.pow_lt_mono_r_iff with (a := 2); lia. }
  destruct (max_align_correct (DBG c) (2 ^ z) (bc s * BS c)) as [m [Em Bm]];
    [exists z; auto|lia|lia|].
  exists m. split; [|exists (2 ^ z); auto]. intros fuel size align. unfold search_buffer.
  rewrite eqb_false by lia. rewrite E. cbn [bind]. rewrite shl_i32_one by lia. cbn [bind].
  assert (2 ^ 31 < 2 ^ 64) by reflexivity.
  rewrite conv_u64_id by lia. rewrite wrap_id by lia. rewrite Em. reflexivity.
Qed.

Lemma search_reached : forall c s fuel size align, cfg_ok c -> geometry c s ->
  ordinary_buffer (data s) (bc s * BS c) -> pow2 align ->
  alignment_within_reach (data s) (bc s * BS c) align ->
  search_buffer c fuel s size align =
    apply_loop fuel c (alloc_pred c) (alloc_act c size align) s 0 0.
Proof.
  intros c s fuel size align HC G O Pa R. destruct (gate_value c s HC G O) as [m [E [g [A [_ [_ B]]]]]].
  rewrite E. rewrite leb_true; auto. apply B; auto.
  assert (P := bs_pos c HC). assert (B3 := g_bc _ _ G).
  apply reach_gate with (d := data s); auto; [exact (g_data _ _ G)|nia].
Qed.

(** small alignments, and those of the buffer itself, are always within reach *)
Lemma reach_divides : forall d n align, 0 < d -> 0 < n -> pow2 align -> (align | d) ->
  alignment_within_reach d n align.
Proof.
  intros d n align Hd Hn Pa D. destruct (ctz_value true d Hd) as [z [Hz [_ A]]].
  exists (2 ^ z). split; auto. intros p Hp Dp _. exists p. split; [lia|].
  eapply Z.divide_trans; [|exact Dp]. destruct A as [A1 [A2 A3]].
  destruct Pa as [k [Hk ->]]. apply pow2_divide. split; auto.
  apply Z.pow_le_mono_r_iff with (a := 2); try lia. apply A3; auto. exists k; auto.
Qed.

Lemma reach_small : forall c s align, cfg_ok c -> geometry c s -> pow2 align -> align <= BS c ->
  alignment_within_reach (data s) (bc s * BS c) align /\ (align | BS c).
Proof.
  intros c s align HC G Pa L. assert (P := bs_pos c HC). assert (B3 := g_bc _ _ G).
  assert (D : (align | BS c)).
  { destruct Pa as [k [Hk ->]]. destruct (bs_pow2 _ HC) as [j [Hj E]]. rewrite E in *.
    apply pow2_divide. split; auto. apply Z.pow_le_mono_r_iff with (a := 2); lia. }
  split; auto. apply reach_divides; auto.
  - apply (g_data _ _ G).
  - nia.
  - eapply Z.divide_trans; [exact D|]. apply (g_aligned _ _ G).
Qed.

(** * allocate *)

Lemma allocate_zero : forall c fuel s align ans, allocate_impl c fuel s 0 align ans = Ok (s, 0, []).
Proof. reflexivity. Qed.

Lemma aligned_bs : forall c dbg p, cfg_ok c -> 0 <= p < 2 ^ 64 ->
  is_aligned dbg p (BS c) = Ok (p mod BS c =? 0).
Proof. intros c dbg p HC H. destruct (bs_log c HC) as [k [Hk ->]]. apply is_aligned_value; auto. Qed.

Lemma allocate_serve : forall c s rs fuel size align ans l f t, cfg_ok c -> wf c s rs ->
  request size align -> ordinary_buffer (data s) (bc s * BS c) ->
  alignment_within_reach (data s) (bc s * BS c) align ->
  search_safe (data s) (BS c) rs size align -> (length rs < fuel)%nat ->
  first_fit (data s) (BS c) rs size align l f t ->
  exists s' q, allocate_impl c fuel s size align ans = Ok (s', q, []) /\
    served c s l f t size align s' q.
Proof.
  intros c s rs fuel size align ans l f t HC W R O A SS L FF.
  destruct (proj2 (loop_safe c s size align HC R rs fuel 0 W SS L) l f t FF) as [s' [q [E S]]].
  exists s', q. split; auto.
  destruct (request_align _ _ R) as [j [Hj [Ea Ha]]]. destruct R as [R0 [R1 R2]].
  unfold allocate_impl. rewrite eqb_false by lia.
  assert (PA : is_power_of_2 align = true) by (rewrite Ea; apply is_power_of_2_pow; lia).
  rewrite PA, cassert_true. rewrite search_reached; auto; [|apply (wf_geom _ _ _ W)].
  rewrite E. cbn [bind]. destruct S as [_ [Q0 [k [K1 [K2 [K3 [W' _]]]]]]].
  rewrite eqb_false by lia. cbn [andb].
  assert (P := bs_pos c HC).
  assert (Q64 : q < 2 ^ 64).
  { destruct FF as [-> _]. destruct (region_addr_range _ _ _ _ _ HC W) as [X1 [X2 X3]].
    assert (GE := g_end _ _ (wf_geom _ _ _ W)). unfold region_addr in *. nia. }
  destruct (DBG c) eqn:D; [|reflexivity].
  rewrite aligned_bs by (auto; lia). cbn [bind].
  assert (DV : q mod BS c = 0).
  { apply Z.mod_divide; [lia|]. rewrite K2. apply Z.divide_add_r; [|apply Z.divide_factor_r].
    apply (g_aligned _ _ (wf_geom _ _ _ W)). }
  rewrite DV. reflexivity.
Qed.

(** the answer of the upstream, as far as the assertion at the end of allocate
    looks at it *)
Definition answer_ok (c : cfg) (p : Z) : Prop := DBG c = true -> 0 <= p < 2 ^ 64 /\ (BS c | p).

Lemma allocate_miss : forall c s fuel size align ans, cfg_ok c -> request size align ->
  search_buffer c fuel s size align = Ok (s, 0) -> answer_ok c (ans size align) ->
  allocate_impl c fuel s size align ans =
    Ok (if has_up s then (s, ans size align, [UpAllocate size align]) else (s, 0, [])).
Proof.
  intros c s fuel size align ans HC R E AO.
  destruct (request_align _ _ R) as [j [Hj [Ea Ha]]]. destruct R as [R0 [R1 R2]].
  assert (P := bs_pos c HC).
  unfold allocate_impl. rewrite eqb_false by lia.
  assert (PA : is_power_of_2 align = true) by (rewrite Ea; apply is_power_of_2_pow; lia).
  rewrite PA, cassert_true, E. cbn [bind]. rewrite Z.eqb_refl. cbn [andb].
  destruct (has_up s).
  - destruct (DBG c) eqn:D; [|reflexivity]. destruct (AO D) as [A1 A2].
    rewrite aligned_bs by (auto; lia). cbn [bind].
    assert (A3 : ans size align mod BS c = 0) by (apply Z.mod_divide; [lia|auto]).
    rewrite A3. reflexivity.
  - destruct (DBG c) eqn:D; [|reflexivity].
    rewrite aligned_bs by (auto; lia). cbn [bind]. rewrite Z.mod_0_l by lia. reflexivity.
Qed.

Lemma allocate_up : forall c s rs fuel size align ans, cfg_ok c -> wf c s rs ->
  request size align -> ordinary_buffer (data s) (bc s * BS c) ->
  search_safe (data s) (BS c) rs size align -> (length rs < fuel)%nat ->
  nothing_fits (data s) (BS c) rs size align -> answer_ok c (ans size align) ->
  allocate_impl c fuel s size align ans =
    Ok (if has_up s then (s, ans size align, [UpAllocate size align]) else (s, 0, [])).
Proof.
  intros c s rs fuel size align ans HC W R O SS L NF AO. apply allocate_miss; auto.
  destruct (gate_value c s HC (wf_geom _ _ _ W) O) as [m [E _]]. rewrite E.
  destruct (align <=? m); auto.
  apply (proj1 (loop_safe c s size align HC R rs fuel 0 W SS L) NF).
Qed.

(** * deallocate *)

Definition addr (c : cfg) (s : state) (r : region) : Z := region_addr (data s) (BS c) r.

Lemma size_value : forall c s, cfg_ok c -> geometry c s ->
  wrap 64 (data s + size_ c s) = data s + bc s * BS c.
Proof.
  intros c s HC [G1 G2 G3 G4 G5]. assert (P := bs_pos c HC). unfold size_.
  rewrite (wrap_id 64 (BS c * bc s)) by nia. rewrite wrap_id by nia. lia.
Qed.

Lemma deallocate_live : forall c s l r t, cfg_ok c -> wf c s (l ++ r :: t) -> rbusy r = true ->
  exists s' a n l' t', deallocate_impl c s (addr c s r) = Ok (s', []) /\
    wf c s' (l' ++ Reg a n false :: t') /\ freed l r t a n l' t' /\
    data s' = data s /\ bc s' = bc s /\ has_up s' = has_up s /\
    inuse s' = upd (inuse s) (rstart r) false /\
    (forall j, j <> a -> nxt s' j = nxt s j).
Proof.
  intros c s l r t HC W B.
  destruct (deallocate_blocks_ok c s l r t HC W B) as [s' [a [n [l' [t' [E X]]]]]].
  exists s', a, n, l', t'. split; auto.
  assert (G := wf_geom _ _ _ W). assert (P := bs_pos c HC). assert (GE := g_end _ _ G).
  destruct (region_addr_range _ _ _ _ _ HC W) as [A1 [A2 A3]]. fold (addr c s r) in A1, A2, A3.
  destruct (wf_region _ _ _ _ _ W) as [Q1 [Q2 [Q3 _]]].
  unfold deallocate_impl. rewrite eqb_false by lia. rewrite aligned_bs by (auto; nia). cbn [bind].
  assert (A4 : addr c s r mod BS c = 0) by (apply Z.mod_divide; [lia|auto]). rewrite A4. cbn [Z.eqb negb abort_when].
  rewrite size_value by auto. unfold addr, region_addr in *.
  rewrite leb_true by nia. rewrite ltb_true by nia. cbn [andb].
  rewrite ptr_index by (auto; nia). cbn [bind]. rewrite Z.div_mul by lia. rewrite E. reflexivity.
Qed.

Lemma deallocate_not_live : forall c s rs p, cfg_ok c -> wf c s rs ->
  data s <= p < data s + bc s * BS c ->
  (forall r, In r rs -> rbusy r = true -> p <> addr c s r) ->
  deallocate_impl c s p = Abort.
Proof.
  intros c s rs p HC W H N.
  assert (G := wf_geom _ _ _ W). assert (P := bs_pos c HC). assert (GE := g_end _ _ G).
  assert (GD := g_data _ _ G). assert (BB := g_bc _ _ G).
  unfold deallocate_impl. rewrite eqb_false by lia. rewrite aligned_bs by (auto; lia). cbn [bind].
  destruct (Z.eqb_spec (p mod BS c) 0) as [E|E]; cbn [negb abort_when]; [|reflexivity].
  rewrite size_value by auto. rewrite leb_true by lia. rewrite ltb_true by lia. cbn [andb].
  apply Z.mod_divide in E; [|lia].
  destruct (Z.divide_sub_r _ _ _ E (g_aligned _ _ G)) as [i Hi].
  replace p with (data s + i * BS c) by lia. rewrite ptr_index by (auto; lia). cbn [bind].
  rewrite Z.div_mul by lia. assert (Hib : 0 <= i < bc s) by nia.
  unfold deallocate_blocks. rewrite ltb_true by lia. rewrite cassert_true, in_use_ok by lia. cbn [bind].
  destruct (inuse s i) eqn:U; [|reflexivity]. exfalso.
  assert (I := wf_heads _ _ _ W i U). apply in_map_iff in I. destruct I as [r [Er Ir]].
  apply (N r); auto.
  - apply in_split in Ir. destruct Ir as [l [t ->]].
    destruct (wf_region _ _ _ _ _ W) as [_ [_ [_ [_ [Q5 _]]]]]. congruence.
  - unfold addr, region_addr. rewrite Er. lia.
Qed.

Lemma deallocate_outside : forall c s p, cfg_ok c -> geometry c s -> 0 < p < 2 ^ 64 ->
  ~ data s <= p < data s + bc s * BS c ->
  deallocate_impl c s p =
    if (p mod BS c =? 0) && has_up s then Ok (s, [UpDeallocate p]) else Abort.
Proof.
  intros c s p HC G H N. assert (P := bs_pos c HC). assert (GE := g_end _ _ G).
  unfold deallocate_impl. rewrite eqb_false by lia. rewrite aligned_bs by (auto; lia). cbn [bind].
  destruct (Z.eqb_spec (p mod BS c) 0) as [E|E]; cbn [negb abort_when andb]; [|reflexivity].
  rewrite size_value by auto.
  assert (X : (data s <=? p) && (p <? data s + bc s * BS c) = false).
  { destruct (Z.leb_spec (data s) p); destruct (Z.ltb_spec p (data s + bc s * BS c)); cbn; auto; lia. }
  rewrite X. destruct (has_up s); [reflexivity|].
  destruct (Z.ltb_spec p (data s)); cbn [abort_when]; [reflexivity|].
  rewrite leb_true by lia. reflexivity.
Qed.

Lemma deallocate_null : forall c s, deallocate_impl c s 0 = Ok (s, []).
Proof. reflexivity. Qed.

(** * Construction *)

Lemma construct_value : forall c buffer size up, cfg_ok c -> 0 <= buffer -> 0 <= size ->
  buffer + size < 2 ^ 64 ->
  exists s, construct c buffer size up = Ok s /\ has_up s = up /\ 
    freec s = 1 /\ busyc s = 0 /\ prv s = (fun _ => 0) /\ nxt s = (fun _ => 0) /\ inuse s = (fun _ => false) /\
    let o := buffer + skip_of buffer (BS c) in
    let n := Z.min ((size - skip_of buffer (BS c)) / BS c) (MB c) in
    if (buffer =? 0) || (n <=? 0) then data s = 0 /\ bc s = 0
    else data s = o /\ bc s = n.
Proof.
  intros c buffer size up HC Hb Hs He. assert (P := bs_pos c HC). assert (M := mb_range _ HC).
  unfold construct, origin_and_block_count.
  destruct (skip_bounds buffer (BS c) P) as [S1 S2].
  assert (Z0 : forall b, Z.min 0 (MB c) = 0 /\ (b || true = true)) by (intros []; split; auto; lia).
  destruct (Z.eqb_spec buffer 0) as [E|E]; cbn [negb andb].
  { cbn [bind]. eexists; split; [reflexivity|]. cbn. repeat split; auto. lia. }
  destruct (Z.eqb_spec size 0) as [E0|E0]; cbn [negb andb].
  { cbn [bind]. eexists; split; [reflexivity|]. cbn [data bc has_up freec busyc prv nxt inuse].
    repeat (split; auto). cbv zeta. subst size.
    assert (D : (0 - skip_of buffer (BS c)) / BS c <= 0) by (apply Z.div_le_upper_bound; lia).
    rewrite leb_true by lia. cbn. split; auto. lia. }
  destruct (bs_log c HC) as [k [Hk EB]].
  assert (SV : skip_to_align (DBG c) buffer (BS c) = Ok (skip_of buffer (BS c))).
  { rewrite EB. apply skip_value; lia. }
  rewrite SV. cbn [bind].
  destruct (Z.ltb_spec (skip_of buffer (BS c)) size) as [L|L].
  - assert (D0 : 0 <= (size - skip_of buffer (BS c)) / BS c) by (apply Z.div_pos; lia).
    destruct (Z.ltb_spec 0 ((size - skip_of buffer (BS c)) / BS c)) as [D|D]; cbn [bind];
      eexists; (split; [reflexivity|]); cbn [data bc has_up freec busyc prv nxt inuse];
      repeat (split; auto); cbv zeta.
    + rewrite leb_false by lia. cbn [orb]. rewrite wrap_id by lia. auto.
    + rewrite leb_true by lia. cbn. split; auto. lia.
  - cbn [bind]; eexists; (split; [reflexivity|]); cbn [data bc has_up freec busyc prv nxt inuse];
      repeat (split; auto); cbv zeta.
    assert (D : (size - skip_of buffer (BS c)) / BS c <= 0) by (apply Z.div_le_upper_bound; lia).
    rewrite leb_true by lia. cbn. split; auto. lia.
Qed.

(** a resource with at least one block starts as one free region *)
Lemma construct_wf : forall c buffer size up s, cfg_ok c -> 0 <= buffer -> 0 <= size ->
  buffer + size < 2 ^ 64 -> (DBG c = true -> buffer + BS c + MB c * BS c < 2 ^ 64) ->
  construct c buffer size up = Ok s -> bc s <> 0 -> wf c s [Reg 0 (bc s) false].
Proof.
  intros c buffer size up s HC Hb Hs He Hd E N. assert (P := bs_pos c HC). assert (M := mb_range _ HC).
  destruct (construct_value c buffer size up HC Hb Hs He) as [s' [E' [H1 [H2 [H3 [H4 [H5 [H6 H7]]]]]]]].
  rewrite E in E'. injection E' as <-. cbv zeta in H7.
  destruct (skip_bounds buffer (BS c) P) as [S1 S2].
  destruct (Z.eqb_spec buffer 0) as [B0|B0]; cbn [orb] in H7; [lia|].
  destruct (Z.leb_spec (Z.min ((size - skip_of buffer (BS c)) / BS c) (MB c)) 0) as [L|L]; [lia|].
  destruct H7 as [D1 D2].
  assert (DM : (size - skip_of buffer (BS c)) / BS c * BS c <= size - skip_of buffer (BS c)).
  { assert (X := Z.mul_div_le (size - skip_of buffer (BS c)) (BS c) P). lia. }
  assert (BM : bc s * BS c <= size - skip_of buffer (BS c)).
  { apply Z.le_trans with ((size - skip_of buffer (BS c)) / BS c * BS c); auto.
    apply Z.mul_le_mono_nonneg_r; lia. }
  constructor.
  - constructor; try lia.
    + rewrite D1. apply skip_aligned. auto.
    + intros D. specialize (Hd D). lia.
  - unfold regions_of. cbn [tiles rstart rlen rbusy]. rewrite H4, H5, H6, Z.add_0_l, Z.eqb_refl.
    repeat split; lia.
  - apply coalesced_single.
  - rewrite H6. discriminate.
  - rewrite H2. reflexivity.
  - rewrite H3. reflexivity.
Qed.
