(** Lemmas about simple_resource built without assertions: what a request that
    fills the first free region to its last byte does, and what the next request
    is given. *)

Require Import ZArith Lia List Bool Permutation.
Require Import Verif.Outcome Verif.Machine Verif.BitsModel Verif.BitsSpec Verif.BitsProofs.
Require Import Verif.ArithModel Verif.ArithProofs.
Require Import Verif.SimpleModel Verif.SimpleSpec Verif.SimpleView Verif.SimpleProofs Verif.SimpleAllocProofs.
Require Import Verif.SimpleScanProofs Verif.SimpleOpProofs Verif.SimpleHistProofs Verif.SimpleAnyProofs.
Import ListNotations.
Open Scope Z_scope.
Open Scope res_scope.

Lemma bindex_id' : forall c i, 0 <= i < 2 ^ iw c -> bindex c i = i.
Proof. intros c i H. unfold bindex. apply wrap_id. lia. Qed.

(** the state after the region of blocks [a, e), whose next_index() is [n], is
    taken whole *)
Definition filled (s : state) (a e n : Z) : state :=
  St (data s) (bc s) (has_up s) (upd (prv s) (e + 1) a)
     (upd (if n =? 0 then upd (nxt s) (e + 1) 0 else nxt s) a (e + 1))
     (upd (inuse s) a true) (freec s) (inc (busyc s)).

Section Release.
  Variable c : cfg.
  Hypothesis HC : cfg_ok c.
  Hypothesis REL : DBG c = false.

  Lemma at_rel : forall A s i (k : res A), 0 <= i < MB c -> at_ c s i k = k.
  Proof. intros. unfold at_. rewrite REL. cbn [cassert]. apply in_array_ok. auto. Qed.
  Lemma next_rel : forall s i, 0 <= i < MB c -> next_index c s i = Ok (nxt s i).
  Proof. intros. apply at_rel. auto. Qed.
  Lemma in_use_rel : forall s i, 0 <= i < MB c -> in_use c s i = Ok (inuse s i).
  Proof. intros. unfold in_use. rewrite REL. cbn [cassert]. apply in_array_ok. auto. Qed.
  Lemma set_in_use_rel : forall s i, 0 <= i < MB c ->
    set_in_use c s i = Ok (with_inuse s (upd (inuse s) i true)).
  Proof. intros. unfold set_in_use. rewrite REL. cbn [cassert]. apply in_array_ok. auto. Qed.

  Lemma spn_rel : forall s i p n, 0 <= i < MB c ->
    exists s1, set_prev_next c s i p n = Ok s1 /\ forall k, nxt s1 k = nxt s k \/ nxt s1 k = n.
  Proof.
    intros s i p n Hi. unfold set_prev_next. rewrite REL. cbn [cassert]. rewrite at_rel by auto.
    eexists. split; [reflexivity|]. intros k.
    destruct ((i <? n) || (n =? 0)); destruct ((p <? i) || (p =? 0)); cbn [nxt with_nxt with_prv]; auto;
      unfold upd; destruct (k =? i); auto.
  Qed.
  Lemma sp_rel : forall s i p, 0 <= i < MB c -> exists s1, set_prev c s i p = Ok s1.
  Proof.
    intros s i p Hi. unfold set_prev. rewrite REL. cbn [cassert].
    destruct (_ || _); [rewrite at_rel by auto|]; eexists; reflexivity.
  Qed.
  Lemma sn_rel : forall s i n, 0 <= i < MB c -> exists s1, set_next c s i n = Ok s1.
  Proof.
    intros s i n Hi. unfold set_next. rewrite REL. cbn [cassert].
    destruct (_ || _); [rewrite at_rel by auto|]; eexists; reflexivity.
  Qed.

  (** begin_matched never fails when the index after the last is in the arrays *)
  Lemma begin_rel : forall s a last lf, 0 <= a < MB c -> 0 <= last -> last + 1 < MB c ->
    0 <= nxt s a < MB c ->
    exists s', allocate_begin_matched c s a last lf = Ok s'.
  Proof.
    intros s a last lf Ha Hl HL Hn. unfold allocate_begin_matched. rewrite REL. cbn [cassert].
    rewrite set_in_use_rel by auto. cbn [bind]. rewrite (bindex_id c (last + 1)) by (auto; lia).
    rewrite next_rel by auto. cbn [bind].
    destruct (spn_rel (with_inuse s (upd (inuse s) a true)) (last + 1) a (nxt (with_inuse s (upd (inuse s) a true)) a))
      as [s1 [E1 N1]]; [lia|]. rewrite E1. cbn [bind].
    rewrite next_rel by auto. cbn [bind].
    assert (N : 0 <= nxt s1 a < MB c) by (destruct (N1 a) as [K|K]; rewrite K; exact Hn).
    destruct (sp_rel s1 (nxt s1 a) (last + 1) N) as [s2 E2]. rewrite E2. cbn [bind].
    destruct (sn_rel s2 a (last + 1) Ha) as [s3 E3]. rewrite E3. cbn [bind]. eexists. reflexivity.
  Qed.

  (** the action at a block that is not in use, when the request does not run past
      what the resource takes for the region *)
  Lemma act_rel : forall s j size align, geometry c s -> 0 <= j < MB c -> 0 < size ->
    pow2 align -> align <= BS c ->
    0 <= nxt s j < MB c ->
    data s + j * BS c + size < 2 ^ 64 ->
    size <= wrap 64 (wrap 64 ((if nxt s j =? 0 then bc s else nxt s j) - j) * BS c) ->
    (j + size / BS c + 1 < MB c \/
     j + size / BS c = (if nxt s j =? 0 then bc s else nxt s j) - 1) ->
    exists s', forall p, alloc_act c size align s p j = Ok (s', data s + j * BS c, false).
  Proof.
    intros s j size align G Hj Hs Pa La Hn Hw Hf Hl. assert (P := bs_pos c HC).
    assert (GD := g_data _ _ G). assert (GA := g_aligned _ _ G). assert (GB := g_bc _ _ G).
    assert (M := mb_range _ HC).
    assert (J0 : 0 <= j * BS c) by nia.
    destruct (reach_small c s align HC G Pa La) as [_ AD].
    unfold alloc_act, block_size_in_bytes, block_size. rewrite !next_rel by auto. cbn [bind].
    unfold block_index_to_pointer. rewrite REL. cbn [cassert bind].
    rewrite (wrap_id 64 (j * BS c)) by lia. rewrite (wrap_id 64 (data s + j * BS c)) by lia.
    assert (Pa0 := Pa). destruct Pa0 as [k [Hk Ek]].
    assert (K64 : k < 64).
    { assert (BR := bs_range _ HC). apply Z.pow_lt_mono_r_iff with (a := 2); lia. }
    assert (P2 := pow2_pos k Hk).
    rewrite Ek. rewrite skip_value by lia.
    assert (SK : (- (data s + j * BS c)) mod 2 ^ k = 0).
    { apply Z.mod_divide; [lia|]. apply Z.divide_opp_r. rewrite <- Ek. apply Z.divide_add_r.
      - eapply Z.divide_trans; [exact AD|exact GA].
      - apply Z.divide_mul_r. auto. }
    rewrite SK. cbn [bind]. rewrite Z.add_0_l. rewrite (wrap_id 64 size) by lia.
    rewrite leb_true by auto. rewrite Z.add_0_r. rewrite (wrap_id 64 (data s + j * BS c)) by lia.
    assert (D0 : 0 <= size / BS c) by (apply Z.div_pos; lia).
    assert (LM : j + size / BS c < MB c).
    { destruct Hl as [Hl|Hl]; [lia|]. destruct (nxt s j =? 0); lia. }
    assert (AB : exists s', allocate_blocks c s j (data s + j * BS c) size = Ok s').
    { unfold allocate_blocks, pointer_to_block_index. rewrite REL. cbn [cassert bind].
      replace (data s + j * BS c - data s) with (j * BS c) by lia.
      rewrite (wrap_id 64 (j * BS c)) by lia. rewrite Z.div_mul by lia. rewrite (bindex_id c j) by auto.
      rewrite (wrap_id 64 (data s + j * BS c + size)) by lia.
      replace (data s + j * BS c + size - data s) with (size + j * BS c) by lia.
      rewrite (wrap_id 64 (size + j * BS c)) by lia. rewrite Z.div_add by lia.
      rewrite (bindex_id c (size / BS c + j)) by (auto; lia).
      rewrite next_rel by auto. cbn [bind]. rewrite Z.eqb_refl.
      destruct (Z.eqb_spec (size / BS c + j) (if nxt s j =? 0 then bindex c (wrap 64 (bc s - 1)) else bindex c (nxt s j - 1))) as [E|E].
      - cbn [negb]. unfold allocate_matched. rewrite REL. cbn [cassert]. rewrite set_in_use_rel by auto.
        cbn [bind]. eexists. reflexivity.
      - cbn [negb]. apply begin_rel; auto; try lia.
        destruct Hl as [Hl|Hl]; [lia|]. exfalso. apply E.
        destruct (nxt s j =? 0) eqn:E0.
        + rewrite wrap_id by lia. rewrite bindex_id by (auto; lia). lia.
        + apply Z.eqb_neq in E0. rewrite bindex_id by (auto; lia). lia. }
    destruct AB as [s' AB]. rewrite AB. cbn [bind]. exists s'. reflexivity.
  Qed.

  (** taking the whole of the first free region *)
  Lemma fill_blocks : forall s l r t, wf c s (l ++ r :: t) ->
    rstart r + rlen r + 1 < MB c ->
    allocate_blocks c s (rstart r) (data s + rstart r * BS c) (rlen r * BS c) =
      Ok (filled s (rstart r) (rstart r + rlen r) (nxt s (rstart r))).
  Proof.
    intros s l r t W HM. assert (P := bs_pos c HC). assert (G := wf_geom _ _ _ W).
    destruct (wf_region c s l r t W) as [R1 [R2 [R3 [R4 [R5 R6]]]]].
    assert (BB := g_bc _ _ G). assert (M := mb_range _ HC). assert (GE := g_end _ _ G). assert (GD := g_data _ _ G).
    assert (B0 : 0 <= rstart r * BS c) by nia.
    assert (B1 : rstart r * BS c + rlen r * BS c <= bc s * BS c) by nia.
    assert (B2 : 0 < rlen r * BS c) by nia.
    unfold allocate_blocks, pointer_to_block_index. rewrite REL. cbn [cassert bind].
    replace (data s + rstart r * BS c - data s) with (rstart r * BS c) by lia.
    rewrite (wrap_id 64 (rstart r * BS c)) by lia. rewrite Z.div_mul by lia.
    rewrite (bindex_id c (rstart r)) by (auto; lia).
    rewrite (wrap_id 64 (data s + rstart r * BS c + rlen r * BS c)) by lia.
    replace (data s + rstart r * BS c + rlen r * BS c - data s) with ((rstart r + rlen r) * BS c) by lia.
    rewrite (wrap_id 64 ((rstart r + rlen r) * BS c)) by lia. rewrite Z.div_mul by lia.
    rewrite (bindex_id c (rstart r + rlen r)) by (auto; lia).
    rewrite next_rel by lia. cbn [bind]. rewrite Z.eqb_refl.
    assert (LF : (if nxt s (rstart r) =? 0 then bindex c (wrap 64 (bc s - 1)) else bindex c (nxt s (rstart r) - 1)) =
                 rstart r + rlen r - 1).
    { rewrite R4. unfold link. destruct (Z.eqb_spec (rstart r + rlen r) (bc s)) as [E|E].
      - cbn [Z.eqb]. rewrite wrap_id by lia. rewrite bindex_id by (auto; lia). lia.
      - rewrite eqb_false by lia. rewrite bindex_id by (auto; lia). lia. }
    rewrite LF. rewrite (eqb_false (rstart r + rlen r)) by lia. cbn [negb].
    assert (N : nxt s (rstart r) = 0 \/ nxt s (rstart r) = rstart r + rlen r).
    { rewrite R4. unfold link. destruct (Z.eqb_spec (rstart r + rlen r) (bc s)); [left|right]; reflexivity. }
    unfold allocate_begin_matched. rewrite REL. cbn [cassert].
    rewrite set_in_use_rel by lia. cbn [bind].
    rewrite (bindex_id c (rstart r + rlen r + 1)) by (auto; lia).
    rewrite next_rel by lia. cbn [bind nxt with_inuse].
    unfold set_prev_next. rewrite REL. cbn [cassert]. rewrite at_rel by lia. cbn [bind].
    rewrite (ltb_true (rstart r)) by lia. cbn [orb].
    rewrite (ltb_false (rstart r + rlen r + 1)) by lia. cbn [orb].
    rewrite next_rel by lia. cbn [bind].
    set (n := nxt s (rstart r)) in *.
    unfold filled. destruct (Z.eqb_spec n 0) as [E0|E0].
    - cbn [nxt with_nxt with_prv with_inuse prv]. rewrite upd_other by lia. fold n.
      unfold set_prev. rewrite REL. cbn [cassert]. rewrite ltb_false by lia. rewrite (eqb_false (rstart r + rlen r + 1)) by lia.
      cbn [orb bind]. unfold set_next. rewrite REL. cbn [cassert]. rewrite ltb_true by lia. cbn [orb].
      rewrite at_rel by lia. cbn [bind]. rewrite E0. reflexivity.
    - cbn [nxt with_nxt with_prv with_inuse prv]. fold n.
      unfold set_prev. rewrite REL. cbn [cassert]. rewrite ltb_false by lia. rewrite (eqb_false (rstart r + rlen r + 1)) by lia.
      cbn [orb bind]. unfold set_next. rewrite REL. cbn [cassert]. rewrite ltb_true by lia. cbn [orb].
      rewrite at_rel by lia. cbn [bind]. reflexivity.
  Qed.

  (** the index after the last is beyond the arrays *)
  Lemma fill_blocks_ub : forall s l r, wf c s (l ++ [r]) ->
    MB c <= bc s + 1 < 2 ^ iw c ->
    allocate_blocks c s (rstart r) (data s + rstart r * BS c) (rlen r * BS c) = UB.
  Proof.
    intros s l r W HM. assert (P := bs_pos c HC). assert (G := wf_geom _ _ _ W).
    destruct (wf_region c s l r [] W) as [R1 [R2 [R3 [R4 [R5 R6]]]]].
    assert (RE : rstart r + rlen r = bc s) by (apply R6; auto).
    assert (BB := g_bc _ _ G). assert (M := mb_range _ HC). assert (GE := g_end _ _ G). assert (GD := g_data _ _ G).
    assert (B0 : 0 <= rstart r * BS c) by nia.
    assert (B1 : rstart r * BS c + rlen r * BS c <= bc s * BS c) by nia.
    assert (B2 : 0 < rlen r * BS c) by nia.
    unfold allocate_blocks, pointer_to_block_index. rewrite REL. cbn [cassert bind].
    replace (data s + rstart r * BS c - data s) with (rstart r * BS c) by lia.
    rewrite (wrap_id 64 (rstart r * BS c)) by lia. rewrite Z.div_mul by lia.
    rewrite (bindex_id c (rstart r)) by (auto; lia).
    rewrite (wrap_id 64 (data s + rstart r * BS c + rlen r * BS c)) by lia.
    replace (data s + rstart r * BS c + rlen r * BS c - data s) with ((rstart r + rlen r) * BS c) by lia.
    rewrite (wrap_id 64 ((rstart r + rlen r) * BS c)) by lia. rewrite Z.div_mul by lia.
    rewrite (bindex_id' c (rstart r + rlen r)) by lia.
    rewrite next_rel by lia. cbn [bind]. rewrite Z.eqb_refl.
    rewrite R4. unfold link. rewrite RE, Z.eqb_refl. cbn [Z.eqb].
    rewrite (wrap_id 64 (bc s - 1)) by lia. rewrite (bindex_id c (bc s - 1)) by (auto; lia).
    rewrite (eqb_false (bc s)) by lia. cbn [negb].
    unfold allocate_begin_matched. rewrite REL. cbn [cassert].
    rewrite set_in_use_rel by lia. cbn [bind]. rewrite (bindex_id' c (bc s + 1)) by lia.
    rewrite next_rel by lia. cbn [bind].
    unfold set_prev_next. rewrite REL. cbn [cassert]. unfold at_. rewrite REL. cbn [cassert].
    unfold in_array. rewrite (ltb_false (bc s + 1)) by lia. rewrite andb_false_r. reflexivity.
  Qed.

  (** the whole buffer, when BIndex cannot count that far: only block 0 is marked *)
  Lemma fill_blocks_wrap : forall s r, wf c s [r] -> bc s = 2 ^ iw c ->
    allocate_blocks c s 0 (data s) (bc s * BS c) = Ok (filled s 0 0 0).
  Proof.
    intros s r W HM. assert (P := bs_pos c HC). assert (G := wf_geom _ _ _ W).
    destruct (wf_region c s [] r [] W) as [R1 [R2 [R3 [R4 [R5 R6]]]]].
    assert (RE : rstart r + rlen r = bc s) by (apply R6; auto).
    assert (T := wf_tiles _ _ _ W). unfold regions_of in T. cbn [tiles] in T. destruct T as [R0 _].
    rewrite R0 in *.
    assert (BB := g_bc _ _ G). assert (M := mb_range _ HC). assert (GE := g_end _ _ G). assert (GD := g_data _ _ G).
    destruct (iw_spec c HC) as [IW1 IW2].
    assert (MBC : MB c = bc s) by lia.
    assert (B2 : 0 < bc s * BS c) by nia.
    unfold allocate_blocks, pointer_to_block_index. rewrite REL. cbn [cassert bind].
    rewrite Z.sub_diag. rewrite (wrap_id 64 0) by lia. rewrite Z.div_0_l by lia.
    rewrite (bindex_id c 0) by (auto; lia).
    rewrite (wrap_id 64 (data s + bc s * BS c)) by lia.
    replace (data s + bc s * BS c - data s) with (bc s * BS c) by lia.
    rewrite (wrap_id 64 (bc s * BS c)) by lia. rewrite Z.div_mul by lia.
    assert (BW : bindex c (bc s) = 0) by (unfold bindex, wrap; rewrite HM; apply Z.mod_same; lia).
    rewrite BW. rewrite next_rel by lia. cbn [bind].
    assert (N0 : nxt s 0 = 0).
    { rewrite R4. unfold link. rewrite RE, Z.eqb_refl. reflexivity. }
    rewrite N0. change (0 =? 0) with true. cbv iota. rewrite (wrap_id 64 (bc s - 1)) by lia.
    rewrite (bindex_id c (bc s - 1)) by (auto; lia).
    rewrite (eqb_false 0) by lia. cbn [negb].
    unfold allocate_begin_matched. rewrite REL. cbn [cassert].
    rewrite set_in_use_rel by lia. cbn [bind]. change (0 + 1) with 1. rewrite (bindex_id c 1) by (auto; lia).
    rewrite next_rel by lia. cbn [bind nxt with_inuse]. rewrite N0.
    unfold set_prev_next. rewrite REL. cbn [cassert]. rewrite at_rel by lia. cbn [bind].
    change (0 <? 1) with true. change (1 <? 0) with false. cbn [orb Z.eqb].
    rewrite next_rel by lia. cbn [bind nxt with_nxt with_prv with_inuse prv].
    rewrite upd_other by lia. rewrite N0. unfold set_prev. rewrite REL. cbn [cassert].
    change (1 <? 0) with false. change (1 =? 0) with false. cbn [orb bind].
    unfold set_next. rewrite REL. cbn [cassert]. change (0 <? 1) with true. cbn [orb].
    rewrite at_rel by lia. cbn [bind]. reflexivity.
  Qed.

  (** busy regions that another state shares are walked over in that state too *)
  Lemma loop_skip_shared : forall s s1 size align l0 l f t fuel p, wf c s (l0 ++ l ++ f :: t) ->
    (forall x, In x l -> rbusy x = true) ->
    (forall x, In x l -> nxt s1 (rstart x) = nxt s (rstart x) /\ inuse s1 (rstart x) = inuse s (rstart x)) ->
    apply_loop (length l + fuel) c (alloc_pred c) (alloc_act c size align) s1 p (head_start (l ++ f :: t)) =
    apply_loop fuel c (alloc_pred c) (alloc_act c size align) s1 p (rstart f).
  Proof.
    intros s s1 size align l0 l. revert l0. induction l as [|r l IH]; intros l0 f t fuel p W A X; [reflexivity|].
    cbn [app head_start length Nat.add]. destruct (wf_region _ _ _ _ _ W) as [Q1 [Q2 [Q3 [_ [Q5 _]]]]].
    assert (BB := g_bc _ _ (wf_geom _ _ _ W)).
    destruct (X r (or_introl eq_refl)) as [X1 X2].
    cbn [apply_loop]. rewrite next_rel by lia. cbn [bind]. unfold alloc_pred at 1. rewrite in_use_rel by lia.
    cbn [bind]. rewrite X2, Q5, (A r (or_introl eq_refl)). cbn [negb bind].
    rewrite X1.
    assert (N : nxt s (rstart r) = head_start (l ++ f :: t) /\ head_start (l ++ f :: t) <> 0).
    { destruct l as [|y l]; cbn [app head_start] in *;
        destruct (wf_next_region _ _ _ _ _ _ W); split; auto; lia. }
    destruct N as [N1 N2]. rewrite N1, eqb_false by auto.
    apply (IH (l0 ++ [r])).
    - rewrite <- app_assoc. exact W.
    - intros x Hx. apply A. right. auto.
    - intros x Hx. apply X. right. auto.
  Qed.

  (** the first request *)
  Lemma fill_first : forall s l r t fuel align ans s1, wf c s (l ++ r :: t) ->
    (forall x, In x l -> rbusy x = true) -> rbusy r = false ->
    pow2 align -> align <= BS c -> ordinary_buffer (data s) (bc s * BS c) ->
    (length l < fuel)%nat ->
    allocate_blocks c s (rstart r) (data s + rstart r * BS c) (rlen r * BS c) = s1 ->
    allocate_impl c fuel s (rlen r * BS c) align ans =
      (s' <- s1;; Ok (s', region_addr (data s) (BS c) r, [])).
  Proof.
    intros s l r t fuel align ans s1 W A F Pa La O L E. assert (P := bs_pos c HC).
    assert (G := wf_geom _ _ _ W). destruct (wf_region c s l r t W) as [R1 [R2 [R3 [R4 [R5 R6]]]]].
    assert (GE := g_end _ _ G). assert (GD := g_data _ _ G). assert (BB := g_bc _ _ G).
    assert (S0 : 0 < rlen r * BS c) by nia.
    assert (S1 : rlen r * BS c <= bc s * BS c) by nia.
    assert (A0 : 0 < align) by (destruct Pa as [k [Hk ->]]; apply pow2_pos; auto).
    destruct (reach_small c s align HC G Pa La) as [RE AD].
    assert (I2 : is_power_of_2 align = true).
    { destruct Pa as [k [Hk ->]]. apply is_power_of_2_pow. split; auto.
      assert (BR := bs_range _ HC). apply Z.pow_lt_mono_r_iff with (a := 2); lia. }
    unfold allocate_impl. rewrite eqb_false by lia. rewrite I2, cassert_true, REL.
    rewrite search_reached; auto.
    destruct fuel as [|fuel]; [lia|].
    assert (H0 : head_start (l ++ r :: t) = 0).
    { assert (T := wf_tiles _ _ _ W). unfold regions_of in T. destruct l; cbn [app tiles head_start] in *; tauto. }
    assert (R : request (rlen r * BS c) align).
    { split; [auto|]. split; [auto|]. assert (align <= data s); [|lia].
      apply Z.divide_pos_le; [lia|]. eapply Z.divide_trans; [exact AD|apply (g_aligned _ _ G)]. }
    rewrite <- H0. replace (S fuel) with (length l + S (fuel - length l))%nat by lia.
    rewrite (loop_skip_busy c s (rlen r * BS c) align [] l r t) by auto.
    rewrite (loop_free c s (rlen r * BS c) align l r t) by auto.
    rewrite (act_start c s l r t) by auto. cbv zeta.
    destruct (region_addr_range c s l r t HC W) as [D1 [D2 D3]].
    assert (SK : skip_of (region_addr (data s) (BS c) r) align = 0).
    { unfold skip_of. apply Z.mod_divide; [lia|]. apply Z.divide_opp_r. eapply Z.divide_trans; eauto. }
    rewrite SK, Z.add_0_l. rewrite leb_true by lia. rewrite Z.add_0_r.
    rewrite wrap_id by lia. unfold region_addr at 1. rewrite E.
    destruct s1 as [s'| | |]; cbn [bind]; auto.
    rewrite eqb_false by lia. cbn [andb cassert]. reflexivity.
  Qed.

  (** the second request *)
  Lemma fill_second : forall s l r t j fuel size align ans s1 s2, wf c s (l ++ r :: t) ->
    (forall x, In x l -> rbusy x = true) ->
    (forall x, In x l -> nxt s1 (rstart x) = nxt s (rstart x) /\ inuse s1 (rstart x) = inuse s (rstart x)) ->
    data s1 = data s -> bc s1 = bc s -> 
    inuse s1 (rstart r) = true -> nxt s1 (rstart r) = j -> 0 < j < MB c -> inuse s1 j = false ->
    0 < size -> pow2 align -> align <= BS c -> ordinary_buffer (data s) (bc s * BS c) ->
    (length l + 1 < fuel)%nat ->
    (forall p, alloc_act c size align s1 p j = Ok (s2, data s + j * BS c, false)) ->
    allocate_impl c fuel s1 size align ans = Ok (s2, data s + j * BS c, []).
  Proof.
    intros s l r t j fuel size align ans s1 s2 W A X D1 B1 U1 N1 Hj U2 S0 Pa La O L E. assert (P := bs_pos c HC).
    assert (G := wf_geom _ _ _ W). destruct (wf_region c s l r t W) as [R1 [R2 [R3 [R4 [R5 R6]]]]].
    assert (BB := g_bc _ _ G). assert (GD := g_data _ _ G).
    assert (G1 : geometry c s1).
    { destruct G. constructor; rewrite ?D1, ?B1; auto. }
    destruct (reach_small c s1 align HC G1 Pa La) as [RE AD].
    assert (I2 : is_power_of_2 align = true).
    { destruct Pa as [k [Hk ->]]. apply is_power_of_2_pow. split; auto.
      assert (BR := bs_range _ HC). apply Z.pow_lt_mono_r_iff with (a := 2); lia. }
    unfold allocate_impl. rewrite eqb_false by lia. rewrite I2, cassert_true, REL.
    rewrite search_reached; auto; [|rewrite D1, B1; auto].
    destruct fuel as [|fuel]; [lia|]. destruct fuel as [|fuel]; [lia|].
    assert (H0 : head_start (l ++ r :: t) = 0).
    { assert (T := wf_tiles _ _ _ W). unfold regions_of in T. destruct l; cbn [app tiles head_start] in *; tauto. }
    assert (LP : apply_loop (S (S fuel)) c (alloc_pred c) (alloc_act c size align) s1 0 0 = Ok (s2, data s + j * BS c)).
    { rewrite <- H0. replace (S (S fuel)) with (length l + S (S (fuel - length l)))%nat by lia.
      rewrite (loop_skip_shared s s1 size align [] l r t) by auto.
      remember (S (fuel - length l)) as f1.
      cbn [apply_loop]. rewrite next_rel by lia. cbn [bind]. unfold alloc_pred at 1. rewrite in_use_rel by lia.
      cbn [bind]. rewrite U1. cbn [negb bind]. rewrite N1, eqb_false by lia. subst f1.
      cbn [apply_loop]. rewrite next_rel by lia. cbn [bind]. unfold alloc_pred at 1. rewrite in_use_rel by lia.
      cbn [bind]. rewrite U2. cbn [negb]. rewrite E. cbn [bind of_bool Z.eqb]. reflexivity. }
    rewrite LP. cbn [bind]. rewrite eqb_false by nia. cbn [andb cassert]. reflexivity.
  Qed.
End Release.

Lemma iw_cases : forall c, cfg_ok c -> iw c = 8 \/ iw c = 16 \/ iw c = 32 \/ iw c = 64.
Proof.
  intros c [H _ _]. unfold iw. rewrite bits_count_value by lia.
  destruct (Z.eqb_spec (MB c - 1) 0) as [E|N]; [lia|].
  assert (L : Z.log2 (MB c - 1) < 64) by (apply Z.log2_lt_pow2; lia).
  assert (L0 := Z.log2_nonneg (MB c - 1)).
  destruct (proj1 (uint_from_nbits_spec (Z.log2 (MB c - 1) + 1)) ltac:(lia)) as [t [E [_ [Hin _]]]].
  rewrite E. cbn [In] in Hin. lia.
Qed.

Lemma iw_full : forall c w, cfg_ok c -> In w [8; 16; 32] -> MB c = 2 ^ w -> iw c = w.
Proof.
  intros c w [H _ _] Hw E. unfold iw. rewrite E. cbn [In] in Hw.
  destruct Hw as [<-|[<-|[<-|[]]]]; vm_compute; reflexivity.
Qed.

Lemma inside_heads : forall c s rs i, wf c s rs -> inuse s i = true -> exists l r t, rs = l ++ r :: t /\ rstart r = i.
Proof.
  intros c s rs i W U. apply (wf_heads _ _ _ W) in U. apply in_map_iff in U. destruct U as [r [E I]].
  apply in_split in I. destruct I as [l [t ->]]. exists l, r, t. auto.
Qed.

Lemma before_start : forall c s l r t x, wf c s (l ++ r :: t) -> In x l -> rstart x + rlen x <= rstart r.
Proof.
  intros c s l r t x W I. apply in_split in I. destruct I as [l1 [l2 ->]].
  assert (T := wf_tiles _ _ _ W). unfold regions_of in T.
  rewrite <- app_assoc in T. apply tiles_app in T. destruct T as [q [b [_ T]]].
  cbn [app tiles] in T. destruct T as [E [_ [_ [_ [_ [_ T]]]]]]. subst b.
  apply tiles_app in T. destruct T as [q' [b' [S T]]]. cbn [tiles] in T.
  destruct T as [E _]. assert (K := seg_bounds _ _ _ _ _ _ _ _ _ S). lia.
Qed.

(** what the busy regions before the filled one look like afterwards *)
Lemma filled_before : forall c s l r t e n, wf c s (l ++ r :: t) -> rstart r < e ->
  forall x, In x l -> nxt (filled s (rstart r) e n) (rstart x) = nxt s (rstart x) /\
    inuse (filled s (rstart r) e n) (rstart x) = inuse s (rstart x).
Proof.
  intros c s l r t e n W He x I. assert (B := before_start c s l r t x W I).
  assert (L : 0 < rlen x).
  { apply in_split in I. destruct I as [l1 [l2 ->]]. rewrite <- app_assoc in W. cbn [app] in W.
    destruct (wf_region _ _ _ _ _ W) as [_ [K _]]. auto. }
  unfold filled. cbn [nxt inuse]. rewrite !upd_other by lia.
  destruct (n =? 0); rewrite ?upd_other by lia; auto.
Qed.

(** the last region is filled: the next request is given memory behind the buffer *)
Lemma release_outside : forall c s l r fuel align ans size align2 ans2, cfg_ok c -> DBG c = false ->
  wf c s (l ++ [r]) -> (forall x, In x l -> rbusy x = true) -> rbusy r = false ->
  ordinary_buffer (data s) (bc s * BS c) -> (length l + 1 < fuel)%nat ->
  pow2 align -> align <= BS c -> 0 < size -> pow2 align2 -> align2 <= BS c ->
  bc s + size / BS c + 2 < MB c -> data s + MB c * BS c <= 2 ^ 64 ->
  exists s1 s2 q,
    allocate_impl c fuel s (rlen r * BS c) align ans = Ok (s1, region_addr (data s) (BS c) r, []) /\
    allocate_impl c fuel s1 size align2 ans2 = Ok (s2, q, []) /\
    data s + bc s * BS c < q.
Proof.
  intros c s l r fuel align ans size align2 ans2 HC REL W A F O L Pa La S0 Pa2 La2 HM HE.
  assert (P := bs_pos c HC). assert (G := wf_geom _ _ _ W).
  destruct (wf_region c s l r [] W) as [R1 [R2 [R3 [R4 [R5 R6]]]]].
  assert (RE : rstart r + rlen r = bc s) by (apply R6; auto).
  assert (GD := g_data _ _ G). assert (BB := g_bc _ _ G). assert (GA := g_aligned _ _ G).
  assert (D0 : 0 <= size / BS c) by (apply Z.div_pos; lia).
  assert (BSD : BS c <= data s) by (apply Z.divide_pos_le; auto; lia).
  assert (SL : size < (size / BS c + 1) * BS c).
  { assert (K := Z.mod_pos_bound size (BS c) P). assert (K2 := Z.div_mod size (BS c) ltac:(lia)). lia. }
  assert (SE : data s + (bc s + 1) * BS c + size < 2 ^ 64) by nia.
  set (s1 := filled s (rstart r) (rstart r + rlen r) (nxt s (rstart r))).
  assert (N0 : nxt s (rstart r) = 0) by (rewrite R4; unfold link; rewrite RE, Z.eqb_refl; reflexivity).
  assert (N1 : nxt s1 (bc s + 1) = 0).
  { unfold s1, filled. cbn [nxt]. rewrite N0. cbn [Z.eqb]. rewrite upd_other by lia. rewrite RE. apply upd_same. }
  assert (ACT : exists s2, forall p, alloc_act c size align2 s1 p (bc s + 1) = Ok (s2, data s + (bc s + 1) * BS c, false)).
  { apply (act_rel c HC REL s1 (bc s + 1) size align2); auto; try lia.
    - destruct G. constructor; auto.
    - rewrite N1. cbn [Z.eqb]. replace (bc s1 - (bc s + 1)) with (-1) by (unfold s1, filled; cbn [bc]; lia).
      assert (E : wrap 64 (wrap 64 (-1) * BS c) = 2 ^ 64 - BS c).
      { unfold wrap. rewrite Z.mul_mod_idemp_l by lia.
        replace (-1 * BS c) with (2 ^ 64 - BS c + (-1) * 2 ^ 64) by lia. rewrite Z.mod_add by lia.
        apply Z.mod_small. assert (BR := bs_range _ HC). lia. }
      rewrite E. assert (BS c * (bc s + 1) >= 0) by nia. lia. }
  destruct ACT as [s2 ACT]. exists s1, s2, (data s + (bc s + 1) * BS c).
  split; [|split; [|lia]].
  - rewrite (fill_first c HC REL s l r [] fuel align ans (Ok s1)); auto; try lia.
    apply fill_blocks with (l := l) (t := []); auto. lia.
  - apply (fill_second c HC REL s l r [] (bc s + 1) fuel size align2 ans2 s1 s2); auto; try lia.
    + apply filled_before with (c := c) (t := []); auto. lia.
    + unfold s1, filled. cbn [inuse]. apply upd_same.
    + unfold s1, filled. cbn [nxt]. rewrite upd_same. lia.
    + unfold s1, filled. cbn [inuse]. rewrite upd_other by lia.
      destruct (inuse s (bc s + 1)) eqn:U; auto. destruct (inside_heads _ _ _ _ W U) as [l' [r' [t' [E E']]]].
      rewrite E in W. destruct (wf_region _ _ _ _ _ W) as [K1 [K2 [K3 _]]]. lia.
Qed.

(** no region starts inside another one *)
Lemma tile_heads_apart : forall c s l y t l' r' t', wf c s (l ++ y :: t) -> l ++ y :: t = l' ++ r' :: t' ->
  ~ (rstart y < rstart r' < rstart y + rlen y).
Proof.
  intros c s l y t l' r' t' W E H.
  assert (I : In r' (l ++ y :: t)) by (rewrite E; apply in_app_iff; right; left; auto).
  apply in_app_iff in I. destruct I as [I|[<-|I]].
  - assert (K := before_start c s l y t r' W I).
    rewrite E in W. destruct (wf_region _ _ _ _ _ W) as [_ [K2 _]]. lia.
  - lia.
  - apply in_split in I. destruct I as [t1 [t2 ->]].
    assert (W' : wf c s ((l ++ y :: t1) ++ r' :: t2)) by (rewrite <- app_assoc; exact W).
    assert (K := before_start c s (l ++ y :: t1) r' t2 y W' ltac:(apply in_app_iff; right; left; auto)). lia.
Qed.

(** a region with another one behind it is filled: the next request is given memory
    inside that other one *)
Lemma release_inside : forall c s l r y t fuel align ans size align2 ans2, cfg_ok c -> DBG c = false ->
  wf c s (l ++ r :: y :: t) -> (forall x, In x l -> rbusy x = true) -> rbusy r = false ->
  ordinary_buffer (data s) (bc s * BS c) -> (length l + 1 < fuel)%nat ->
  pow2 align -> align <= BS c -> 0 < size -> pow2 align2 -> align2 <= BS c ->
  2 <= rlen y ->
  (let n := if nxt s (rstart y + 1) =? 0 then bc s else nxt s (rstart y + 1) in
   nxt s (rstart y + 1) < bc s /\ size < (n - (rstart y + 1)) * BS c) ->
  exists s1 s2 q,
    allocate_impl c fuel s (rlen r * BS c) align ans = Ok (s1, region_addr (data s) (BS c) r, []) /\
    allocate_impl c fuel s1 size align2 ans2 = Ok (s2, q, []) /\
    region_addr (data s) (BS c) y < q < region_addr (data s) (BS c) y + rlen y * BS c.
Proof.
  intros c s l r y t fuel align ans size align2 ans2 HC REL W A F O L Pa La S0 Pa2 La2 Ly HN.
  assert (P := bs_pos c HC). assert (G := wf_geom _ _ _ W).
  destruct (wf_region c s l r (y :: t) W) as [R1 [R2 [R3 [R4 [R5 R6]]]]].
  destruct (wf_next_region _ _ _ _ _ _ W) as [NY SY].
  assert (W' : wf c s ((l ++ [r]) ++ y :: t)) by (rewrite <- app_assoc; exact W).
  destruct (wf_region c s (l ++ [r]) y t W') as [Y1 [Y2 [Y3 [Y4 [Y5 Y6]]]]].
  assert (GD := g_data _ _ G). assert (BB := g_bc _ _ G). assert (GE := g_end _ _ G). assert (M := mb_range _ HC).
  assert (D0 : 0 <= size / BS c) by (apply Z.div_pos; lia).
  cbv zeta in HN. destruct HN as [HN1 HN2].
  set (j := rstart y + 1) in *. set (m := if nxt s j =? 0 then bc s else nxt s j) in *.
  assert (JM : j < m) by nia.
  set (s1 := filled s (rstart r) (rstart r + rlen r) (nxt s (rstart r))).
  assert (N1 : nxt s1 j = nxt s j).
  { unfold s1, filled. cbn [nxt]. rewrite NY, eqb_false by lia. rewrite upd_other by lia. reflexivity. }
  assert (SD : size / BS c < m - j) by (apply Z.div_lt_upper_bound; lia).
  assert (MBC : m <= bc s) by (unfold m; destruct (nxt s j =? 0); lia).
  assert (SE : data s + j * BS c + size < 2 ^ 64) by nia.
  assert (ACT : exists s2, forall p, alloc_act c size align2 s1 p j = Ok (s2, data s + j * BS c, false)).
  { apply (act_rel c HC REL s1 j size align2); auto; try lia.
    - destruct G. constructor; auto.
    - rewrite N1. unfold m in *. destruct (Z.eqb_spec (nxt s j) 0); lia.
    - rewrite N1. change (bc s1) with (bc s). fold m.
      rewrite (wrap_id 64 (m - j)) by lia. rewrite wrap_id by nia. lia.
    - rewrite N1. change (bc s1) with (bc s). fold m. lia. }
  destruct ACT as [s2 ACT]. exists s1, s2, (data s + j * BS c).
  split; [|split].
  - rewrite (fill_first c HC REL s l r (y :: t) fuel align ans (Ok s1)); auto; try lia.
    apply fill_blocks with (l := l) (t := y :: t); auto. lia.
  - apply (fill_second c HC REL s l r (y :: t) j fuel size align2 ans2 s1 s2); auto; try lia.
    + apply filled_before with (c := c) (t := y :: t); auto. lia.
    + unfold s1, filled. cbn [inuse]. apply upd_same.
    + unfold s1, filled. cbn [nxt]. rewrite upd_same. lia.
    + unfold s1, filled. cbn [inuse]. rewrite upd_other by lia.
      destruct (inuse s j) eqn:U; auto. destruct (inside_heads _ _ _ _ W' U) as [l' [r' [t' [E E']]]].
      exfalso. apply (tile_heads_apart c s (l ++ [r]) y t l' r' t' W' E). lia.
  - unfold region_addr. nia.
Qed.

(** the whole buffer of MaxBlockCount = 2^8, 2^16 or 2^32 blocks is taken: the next
    request is given memory inside it *)
Lemma release_full : forall c s r w fuel align ans size align2 ans2, cfg_ok c -> DBG c = false ->
  wf c s [r] -> rbusy r = false -> In w [8; 16; 32] -> MB c = 2 ^ w -> bc s = MB c ->
  ordinary_buffer (data s) (bc s * BS c) -> (1 < fuel)%nat ->
  pow2 align -> align <= BS c -> 0 < size -> pow2 align2 -> align2 <= BS c ->
  size < (bc s - 1) * BS c ->
  exists s1 s2 q,
    allocate_impl c fuel s (bc s * BS c) align ans = Ok (s1, data s, []) /\
    allocate_impl c fuel s1 size align2 ans2 = Ok (s2, q, []) /\
    data s < q /\ q + size < data s + bc s * BS c.
Proof.
  intros c s r w fuel align ans size align2 ans2 HC REL W F Hw HM BM O L Pa La S0 Pa2 La2 SZ.
  assert (P := bs_pos c HC). assert (G := wf_geom _ _ _ W).
  assert (IW := iw_full c w HC Hw HM).
  destruct (wf_region c s [] r [] W) as [R1 [R2 [R3 [R4 [R5 R6]]]]].
  assert (RE : rstart r + rlen r = bc s) by (apply R6; auto).
  assert (T := wf_tiles _ _ _ W). unfold regions_of in T. cbn [tiles] in T. destruct T as [R0 _].
  assert (GD := g_data _ _ G). assert (BB := g_bc _ _ G). assert (GE := g_end _ _ G). assert (M := mb_range _ HC).
  assert (D0 : 0 <= size / BS c) by (apply Z.div_pos; lia).
  set (s1 := filled s 0 0 0).
  assert (N1 : nxt s1 1 = 0).
  { unfold s1, filled. cbn [nxt]. change (0 =? 0) with true. cbv iota. rewrite upd_other by lia. apply upd_same. }
  assert (SD : size / BS c < bc s - 1) by (apply Z.div_lt_upper_bound; lia).
  assert (SE : data s + 1 * BS c + size < data s + bc s * BS c) by nia.
  assert (ACT : exists s2, forall p, alloc_act c size align2 s1 p 1 = Ok (s2, data s + 1 * BS c, false)).
  { apply (act_rel c HC REL s1 1 size align2); auto.
    - destruct G. constructor; auto.
    - lia.
    - lia.
    - change (data s1) with (data s). lia.
    - rewrite N1. change (bc s1) with (bc s). change (0 =? 0) with true. cbv iota.
      rewrite (wrap_id 64 (bc s - 1)) by lia. rewrite wrap_id by nia. lia.
    - rewrite N1. change (bc s1) with (bc s). change (0 =? 0) with true. cbv iota. lia. }
  destruct ACT as [s2 ACT]. exists s1, s2, (data s + 1 * BS c).
  split; [|split].
  - assert (RL : rlen r = bc s) by lia. rewrite <- RL.
    rewrite (fill_first c HC REL s [] r [] fuel align ans (Ok s1)); auto; try (cbn [length]; lia); try solve [intros x []].
    + cbn [bind]. unfold region_addr. rewrite R0. rewrite Z.mul_0_l, Z.add_0_r. reflexivity.
    + rewrite R0, Z.mul_0_l, Z.add_0_r, RL. apply fill_blocks_wrap with (r := r); auto.
      rewrite IW. lia.
  - apply (fill_second c HC REL s [] r [] 1 fuel size align2 ans2 s1 s2); auto; try (cbn [length]; lia); try solve [intros x []].
    + unfold s1, filled. cbn [inuse]. rewrite R0. apply upd_same.
    + unfold s1, filled. cbn [nxt]. rewrite R0. apply upd_same.
    + unfold s1, filled. cbn [inuse]. rewrite upd_other by lia.
      destruct (inuse s 1) eqn:U; auto. destruct (inside_heads _ _ _ _ W U) as [l' [r' [t' [E E']]]].
      exfalso. apply (tile_heads_apart c s [] r [] l' r' t' W E). lia.
  - lia.
Qed.

(** the last region is filled and the arrays end there *)
Lemma release_ub : forall c s l r fuel align ans, cfg_ok c -> DBG c = false ->
  wf c s (l ++ [r]) -> (forall x, In x l -> rbusy x = true) -> rbusy r = false ->
  ordinary_buffer (data s) (bc s * BS c) -> (length l < fuel)%nat ->
  pow2 align -> align <= BS c -> MB c <= bc s + 1 ->
  (forall w, In w [8; 16; 32; 64] -> bc s <> 2 ^ w /\ bc s + 1 <> 2 ^ w) ->
  allocate_impl c fuel s (rlen r * BS c) align ans = UB.
Proof.
  intros c s l r fuel align ans HC REL W A F O L Pa La HM HW.
  assert (BB := g_bc _ _ (wf_geom _ _ _ W)). destruct (iw_spec c HC) as [_ I2].
  assert (K : bc s + 1 < 2 ^ iw c).
  { destruct (HW (iw c)) as [H1 H2]; [|lia]. cbn [In].
    destruct (iw_cases c HC) as [E|[E|[E|E]]]; rewrite E; auto. }
  rewrite (fill_first c HC REL s l r [] fuel align ans UB); auto.
  apply fill_blocks_ub with (l := l); auto.
Qed.

(** * One block fewer than BIndex can count *)

Definition forgot (s : state) (a : Z) : state :=
  St (data s) (bc s) (has_up s) (if a =? 0 then upd (upd (prv s) 0 0) 0 0 else upd (prv s) 0 0) (upd (upd (nxt s) 0 0) a 0)
     (upd (inuse s) a true) (freec s) (inc (busyc s)).

Lemma fill_blocks_forgot : forall c s l r, cfg_ok c -> DBG c = false -> wf c s (l ++ [r]) ->
  bc s + 1 = 2 ^ iw c ->
  allocate_blocks c s (rstart r) (data s + rstart r * BS c) (rlen r * BS c) = Ok (forgot s (rstart r)).
Proof.
  intros c s l r HC REL W HM. assert (P := bs_pos c HC). assert (G := wf_geom _ _ _ W).
  destruct (wf_region c s l r [] W) as [R1 [R2 [R3 [R4 [R5 R6]]]]].
  assert (RE : rstart r + rlen r = bc s) by (apply R6; auto).
  assert (BB := g_bc _ _ G). assert (M := mb_range _ HC). assert (GE := g_end _ _ G). assert (GD := g_data _ _ G).
  assert (B0 : 0 <= rstart r * BS c) by nia.
  assert (B1 : rstart r * BS c + rlen r * BS c <= bc s * BS c) by nia.
  assert (B2 : 0 < rlen r * BS c) by nia.
  unfold allocate_blocks, pointer_to_block_index. rewrite REL. cbn [cassert bind].
  replace (data s + rstart r * BS c - data s) with (rstart r * BS c) by lia.
  rewrite (wrap_id 64 (rstart r * BS c)) by lia. rewrite Z.div_mul by lia.
  rewrite (bindex_id c (rstart r)) by (auto; lia).
  rewrite (wrap_id 64 (data s + rstart r * BS c + rlen r * BS c)) by lia.
  replace (data s + rstart r * BS c + rlen r * BS c - data s) with ((rstart r + rlen r) * BS c) by lia.
  rewrite (wrap_id 64 ((rstart r + rlen r) * BS c)) by lia. rewrite Z.div_mul by lia.
  rewrite (bindex_id' c (rstart r + rlen r)) by lia.
  rewrite (next_rel c REL) by lia. cbn [bind]. rewrite Z.eqb_refl.
  assert (N0 : nxt s (rstart r) = 0) by (rewrite R4; unfold link; rewrite RE, Z.eqb_refl; reflexivity).
  rewrite N0, RE. change (0 =? 0) with true. cbv iota.
  rewrite (wrap_id 64 (bc s - 1)) by lia. rewrite (bindex_id c (bc s - 1)) by (auto; lia).
  rewrite (eqb_false (bc s)) by lia. cbn [negb].
  assert (BW : bindex c (bc s + 1) = 0) by (unfold bindex, wrap; rewrite HM; apply Z.mod_same; lia).
  unfold allocate_begin_matched. rewrite REL. cbn [cassert].
  rewrite (set_in_use_rel c REL) by lia. cbn [bind]. rewrite BW.
  rewrite (next_rel c REL) by lia. cbn [bind nxt with_inuse]. rewrite N0.
  unfold set_prev_next. rewrite REL. cbn [cassert]. rewrite (at_rel c REL) by lia. cbn [bind].
  change (0 <? 0) with false. change (0 =? 0) with true. cbn [orb]. rewrite (ltb_false (rstart r)) by lia. cbn [orb].
  unfold forgot.
  destruct (Z.eqb_spec (rstart r) 0) as [E0|E0].
  - rewrite E0 in *. rewrite (next_rel c REL) by lia. cbn [bind nxt with_nxt with_prv with_inuse prv].
    rewrite upd_same. unfold set_prev. rewrite REL. cbn [cassert]. change (0 <? 0) with false. change (0 =? 0) with true.
    cbn [orb]. rewrite (at_rel c REL) by lia. cbn [bind]. unfold set_next. rewrite REL. cbn [cassert].
    change (0 <? 0) with false. change (0 =? 0) with true. cbn [orb]. rewrite (at_rel c REL) by lia. cbn [bind].
    unfold with_nxt, with_prv, with_inuse, with_busyc. cbn [data bc has_up prv nxt inuse freec busyc].
    reflexivity.
  - rewrite (next_rel c REL) by lia. cbn [bind nxt with_nxt with_prv with_inuse prv].
    rewrite upd_other by lia. rewrite N0. unfold set_prev. rewrite REL. cbn [cassert]. change (0 <? 0) with false. change (0 =? 0) with true.
    cbn [orb]. rewrite (at_rel c REL) by lia. cbn [bind]. unfold set_next. rewrite REL. cbn [cassert].
    rewrite (ltb_false (rstart r)) by lia. change (0 =? 0) with true. cbn [orb]. rewrite (at_rel c REL) by lia. cbn [bind].
    reflexivity.
Qed.

Lemma iw_one_less : forall c w, cfg_ok c -> In w [8; 16; 32] -> MB c = 2 ^ w \/ MB c + 1 = 2 ^ w -> iw c = w.
Proof.
  intros c w [H _ _] Hw E. unfold iw. cbn [In] in Hw.
  assert (K : MB c - 1 = 2 ^ w - 1 \/ MB c - 1 = 2 ^ w - 2) by lia.
  destruct K as [K|K]; rewrite K; destruct Hw as [<-|[<-|[<-|[]]]]; vm_compute; reflexivity.
Qed.

Lemma release_forgets : forall c s l r w fuel align ans, cfg_ok c -> DBG c = false ->
  wf c s (l ++ [r]) -> (forall x, In x l -> rbusy x = true) -> rbusy r = false ->
  ordinary_buffer (data s) (bc s * BS c) -> (length l < fuel)%nat ->
  pow2 align -> align <= BS c -> In w [8; 16; 32] -> bc s + 1 = 2 ^ w -> MB c <= bc s + 1 ->
  exists s1,
    allocate_impl c fuel s (rlen r * BS c) align ans = Ok (s1, region_addr (data s) (BS c) r, []) /\
    regions_of s1 [Reg 0 (bc s) true] /\ freec s1 = freec s /\
    (l <> [] -> forall size align2 ans2, 0 < size < bc s * BS c -> pow2 align2 -> align2 <= BS c ->
       exists s2 s3, deallocate_impl c s1 (data s) = Ok (s2, []) /\
         allocate_impl c fuel s2 size align2 ans2 = Ok (s3, data s, [])).
Proof.
  intros c s l r w fuel align ans HC REL W A F O L Pa La Hw HB HM.
  assert (P := bs_pos c HC). assert (G := wf_geom _ _ _ W).
  assert (GD := g_data _ _ G). assert (BB := g_bc _ _ G). assert (GE := g_end _ _ G). assert (M := mb_range _ HC).
  destruct (wf_region c s l r [] W) as [R1 [R2 [R3 [R4 [R5 R6]]]]].
  assert (IW : iw c = w) by (apply iw_one_less; auto; lia).
  set (s1 := forgot s (rstart r)). exists s1.
  assert (U0 : inuse s1 0 = true /\ nxt s1 0 = 0 /\ prv s1 0 = 0).
  { unfold s1, forgot. cbn [inuse nxt prv]. split; [|split].
    - destruct (Z.eq_dec 0 (rstart r)) as [E|E]; [rewrite E; apply upd_same|]. rewrite upd_other by lia.
      destruct l as [|x l]; cbn [app] in W.
      + assert (T := wf_tiles _ _ _ W). unfold regions_of in T. cbn [tiles] in T. lia.
      + assert (T := wf_tiles _ _ _ W). unfold regions_of in T. cbn [tiles app] in T.
        destruct T as [_ [_ [_ [_ [_ [T _]]]]]]. rewrite T. apply A. left. auto.
    - unfold upd. destruct (0 =? rstart r); reflexivity.
    - destruct (rstart r =? 0); apply upd_same. }
  destruct U0 as [U0 [N0 P0]].
  split; [|split; [|split]].
  - rewrite (fill_first c HC REL s l r [] fuel align ans (Ok s1)); auto.
    apply fill_blocks_forgot with (l := l); auto. rewrite IW. auto.
  - unfold regions_of. cbn [tiles rstart rlen rbusy]. change (bc s1) with (bc s).
    repeat split; auto; try lia. rewrite Z.add_0_l, Z.eqb_refl. auto.
  - reflexivity.
  - intros Hl size align2 ans2 [S0 SZ] Pa2 La2.
    assert (B0 : 0 < bc s * BS c) by nia.
    set (s2 := with_freec (with_busyc (with_inuse s1 (upd (inuse s1) 0 false)) (dec (busyc s1))) (inc (freec s1))).
    assert (N2 : nxt s2 0 = 0) by exact N0.
    assert (SD : 0 <= size / BS c < bc s) by (split; [apply Z.div_pos; lia|apply Z.div_lt_upper_bound; lia]).
    assert (G2 : geometry c s2) by (destruct G; constructor; auto).
    assert (ACT : exists s3, forall p, alloc_act c size align2 s2 p 0 = Ok (s3, data s + 0 * BS c, false)).
    { apply (act_rel c HC REL s2 0 size align2); auto.
      - lia.
      - lia.
      - change (data s2) with (data s). lia.
      - rewrite N2. change (bc s2) with (bc s). change (0 =? 0) with true. cbv iota. rewrite Z.sub_0_r.
        rewrite (wrap_id 64 (bc s)) by lia. rewrite wrap_id by lia. lia.
      - rewrite N2. change (bc s2) with (bc s). change (0 =? 0) with true. cbv iota. lia. }
    destruct ACT as [s3 ACT]. exists s2, s3. split.
    + unfold deallocate_impl. rewrite eqb_false by lia. rewrite (aligned_bs c) by (auto; lia).
      assert (AL : data s mod BS c = 0) by (apply Z.mod_divide; [lia|apply (g_aligned _ _ G)]).
      rewrite AL. cbn [bind Z.eqb negb abort_when]. unfold size_.
      change (data s1) with (data s). change (bc s1) with (bc s).
      rewrite (wrap_id 64 (BS c * bc s)) by lia. rewrite wrap_id by lia.
      rewrite leb_true by lia. rewrite ltb_true by lia. cbn [andb].
      unfold pointer_to_block_index. rewrite REL. cbn [cassert bind].
      change (data s1) with (data s). rewrite Z.sub_diag, (wrap_id 64 0) by lia.
      rewrite Z.div_0_l by lia. rewrite (bindex_id c 0) by (auto; lia).
      unfold deallocate_blocks. rewrite REL. cbn [cassert].
      rewrite (in_use_rel c REL) by lia. cbn [bind]. rewrite U0. cbn [negb abort_when].
      unfold reset_in_use. rewrite REL. cbn [cassert]. rewrite in_array_ok by lia. cbn [bind].
      cbv zeta. unfold merge_adjacent_blocks, prev_index. rewrite (at_rel c REL) by lia. rewrite REL.
      cbn [bind cassert prv with_freec with_busyc with_inuse]. rewrite P0.
      unfold merge_if_both_not_in_use. change (0 =? 0) with true. cbn [orb bind].
      rewrite (next_rel c REL) by lia. cbn [bind nxt with_freec with_busyc with_inuse]. rewrite N0.
      change (0 =? 0) with true. cbn [orb bind]. reflexivity.
    + destruct (reach_small c s2 align2 HC G2 Pa2 La2) as [RE AD].
      assert (I2 : is_power_of_2 align2 = true).
      { destruct Pa2 as [k [Hk ->]]. apply is_power_of_2_pow. split; auto.
        assert (BR := bs_range _ HC). apply Z.pow_lt_mono_r_iff with (a := 2); lia. }
      unfold allocate_impl. rewrite eqb_false by lia. rewrite I2, cassert_true, REL.
      rewrite search_reached; auto.
      destruct fuel as [|fuel]; [lia|]. cbn [apply_loop]. rewrite (next_rel c REL) by lia. cbn [bind].
      unfold alloc_pred at 1. rewrite (in_use_rel c REL) by lia.
      assert (U2 : inuse s2 0 = false) by (unfold s2; cbn [inuse with_freec with_busyc with_inuse]; apply upd_same).
      rewrite U2. cbn [bind negb]. rewrite ACT. cbn [bind of_bool]. change (0 =? 0) with true. cbv iota. cbn [bind].
      rewrite Z.mul_0_l, Z.add_0_r. rewrite eqb_false by lia. cbn [andb cassert]. reflexivity.
Qed.
