(** Proofs for C155: MaxBlockCount is a limit and nothing else. *)

Require Import ZArith Lia List Bool.
Require Import Verif.Outcome Verif.Machine Verif.BitsModel Verif.BitsSpec Verif.BitsProofs.
Require Import Verif.SimpleModel Verif.SimpleSpec Verif.SimpleView Verif.SimpleProofs Verif.SimpleOpProofs Verif.SimpleAnyProofs
  Verif.SimpleMainProofs Verif.SimpleRefuted Verif.BuildSpec Verif.BuildProofs Verif.BuildKeepSpec Verif.BuildKeepProofs Verif.ShiftProofs.
Import ListNotations.
Open Scope Z_scope.
Open Scope res_scope.

Section Limits.
  Variables m1 m2 b : Z.
  Notation A := (Cfg m1 b true).
  Notation B := (Cfg m2 b true).
  Hypothesis HA : cfg_ok A.
  Hypothesis HB : cfg_ok B.

  Definition both (s : state) : Prop := 1 <= bc s /\ bc s <= m1 /\ bc s <= m2.

  Lemma l_at : forall T s i (k : res T), both s -> at_ A s i k = at_ B s i k.
  Proof.
    intros T s i k [F0 [F1 F2]]. unfold at_, in_array. cbn [DBG MB cassert].
    destruct (Z.ltb_spec i (bc s)); [|reflexivity]. destruct (0 <=? i); [|reflexivity].
    cbn [andb]. rewrite !(proj2 (Z.ltb_lt _ _)) by lia. reflexivity.
  Qed.
  Lemma l_next : forall s i, both s -> next_index A s i = next_index B s i.
  Proof. intros. apply l_at. auto. Qed.
  Lemma l_prev : forall s i, both s -> prev_index A s i = prev_index B s i.
  Proof. intros. apply l_at. auto. Qed.
  Lemma l_in_use : forall s i, both s -> in_use A s i = in_use B s i.
  Proof. intros. apply (l_at bool s i (Ok (inuse s i))). auto. Qed.
  Lemma l_set_in_use : forall s i, both s -> set_in_use A s i = set_in_use B s i.
  Proof. intros. apply (l_at state s i). auto. Qed.
  Lemma l_reset : forall s i, both s -> reset_in_use A s i = reset_in_use B s i.
  Proof. intros. apply (l_at state s i). auto. Qed.
  Lemma l_set_prev : forall s i p, both s -> set_prev A s i p = set_prev B s i p.
  Proof. intros. unfold set_prev. cbn [DBG]. rewrite l_at by auto. reflexivity. Qed.
  Lemma l_set_next : forall s i n, both s -> set_next A s i n = set_next B s i n.
  Proof. intros. unfold set_next. cbn [DBG]. rewrite l_at by auto. reflexivity. Qed.
  Lemma l_set_prev_next : forall s i p n, both s -> set_prev_next A s i p n = set_prev_next B s i p n.
  Proof. intros. unfold set_prev_next. cbn [DBG]. rewrite l_at by auto. reflexivity. Qed.

  Lemma both_same : forall s s', both s -> bc s' = bc s -> both s'.
  Proof. intros s s' F E. unfold both. rewrite E. exact F. Qed.

  Lemma p_at : forall T c s i (k : res T) x, at_ c s i k = Ok x -> k = Ok x.
  Proof.
    intros T c s i k x. unfold at_, in_array, cassert. destruct (DBG c); [destruct (i <? bc s)|]; destruct ((0 <=? i) && (i <? MB c)); intros H; auto; discriminate.
  Qed.
  Lemma p_set_prev : forall s i p s', set_prev B s i p = Ok s' -> both s -> both s'.
  Proof.
    intros s i p s' H F. apply both_same with s; auto. unfold set_prev in H. apply cassert_inv in H. destruct H as [H _].
    destruct ((p <? i) || (p =? 0)); [apply p_at in H|]; injection H as <-; reflexivity.
  Qed.
  Lemma p_set_next : forall s i p s', set_next B s i p = Ok s' -> both s -> both s'.
  Proof.
    intros s i p s' H F. apply both_same with s; auto. unfold set_next in H. apply cassert_inv in H. destruct H as [H _].
    destruct ((i <? p) || (p =? 0)); [apply p_at in H|]; injection H as <-; reflexivity.
  Qed.
  Lemma p_set_prev_next : forall s i p n s', set_prev_next B s i p n = Ok s' -> both s -> both s'.
  Proof.
    intros s i p n s' H F. apply both_same with s; auto. unfold set_prev_next in H.
    apply cassert_inv in H. destruct H as [H _]. apply cassert_inv in H. destruct H as [H _]. apply p_at in H. cbv zeta in H. injection H as <-.
    destruct ((p <? i) || (p =? 0)); destruct ((i <? n) || (n =? 0)); reflexivity.
  Qed.
  Lemma p_set_in_use : forall s i s', set_in_use B s i = Ok s' -> both s -> both s'.
  Proof. intros s i s' H F. apply both_same with s; auto. apply (p_at state B s i) in H. injection H as <-. reflexivity. Qed.
  Lemma p_reset : forall s i s', reset_in_use B s i = Ok s' -> both s -> both s'.
  Proof. intros s i s' H F. apply both_same with s; auto. apply (p_at state B s i) in H. injection H as <-. reflexivity. Qed.

  Ltac carry := match goal with
    | H : set_prev B ?s _ _ = Ok ?t, F : both ?s |- _ => assert (both t) by (eapply p_set_prev; eauto); clear H
    | H : set_next B ?s _ _ = Ok ?t, F : both ?s |- _ => assert (both t) by (eapply p_set_next; eauto); clear H
    | H : set_prev_next B ?s _ _ _ = Ok ?t, F : both ?s |- _ => assert (both t) by (eapply p_set_prev_next; eauto); clear H
    | H : set_in_use B ?s _ = Ok ?t, F : both ?s |- _ => assert (both t) by (eapply p_set_in_use; eauto); clear H
    | H : reset_in_use B ?s _ = Ok ?t, F : both ?s |- _ => assert (both t) by (eapply p_reset; eauto); clear H
    end.
  Ltac one := first
    [ reflexivity
    | rewrite l_next by assumption | rewrite l_prev by assumption | rewrite l_in_use by assumption | rewrite l_set_in_use by assumption
    | rewrite l_reset by assumption | rewrite l_set_prev by assumption | rewrite l_set_next by assumption | rewrite l_set_prev_next by assumption
    | apply cassert_same | apply abort_same
    | apply bind_same; intros ? ?; cbv beta zeta; try carry
    | match goal with |- (if ?x then _ else _) = (if ?x then _ else _) => destruct x end ].
  Ltac go := repeat one.

  Lemma cassert_when : forall T (x : bool) (k k' : res T), (x = true -> k = k') -> cassert true x k = cassert true x k'.
  Proof. intros T x k k' H. destruct x; cbn [cassert]; auto. Qed.

  Lemma id_A : forall s i, both s -> 0 <= i < bc s -> bindex A i = i.
  Proof. intros s i [F0 [F1 F2]] H. apply bindex_id; auto. cbn [MB]. lia. Qed.
  Lemma id_B : forall s i, both s -> 0 <= i < bc s -> bindex B i = i.
  Proof. intros s i [F0 [F1 F2]] H. apply bindex_id; auto. cbn [MB]. lia. Qed.

  Lemma l_not_matched : forall s a f e z, both s -> 0 <= e -> z < bc s ->
    allocate_not_matched A s a f e z = allocate_not_matched B s a f e z.
  Proof.
    intros s a f e z F E Z. unfold allocate_not_matched. cbn [DBG]. apply cassert_same. apply cassert_same. apply cassert_when. intros L.
    apply Z.ltb_lt in L. rewrite (id_A s (e + 1)), (id_B s (e + 1)) by (auto; lia). cbv zeta. go.
  Qed.
  Lemma l_begin_matched : forall s a e z, both s -> 0 <= e -> z < bc s ->
    allocate_begin_matched A s a e z = allocate_begin_matched B s a e z.
  Proof.
    intros s a e z F E Z. unfold allocate_begin_matched. cbn [DBG]. apply cassert_same. apply cassert_when. intros L.
    apply Z.ltb_lt in L. rewrite (id_A s (e + 1)), (id_B s (e + 1)) by (auto; lia). cbv zeta. go.
  Qed.
  Lemma l_end_matched : forall s a f z, both s -> bc s < 2 ^ 64 -> 0 <= z < bc s ->
    allocate_end_matched A s a f z = allocate_end_matched B s a f z.
  Proof.
    intros s a f z F V Z. unfold allocate_end_matched. cbn [DBG]. apply cassert_same. apply cassert_same.
    rewrite l_set_in_use by auto. apply bind_same. intros t H. cbv zeta.
    assert (T : bc t = bc s) by (apply (p_at state B s f) in H; injection H as <-; reflexivity). carry.
    replace (if z <? wrap 64 (bc t - 1) then bindex A (z + 1) else 0) with (if z <? wrap 64 (bc t - 1) then bindex B (z + 1) else 0).
    - go.
    - rewrite wrap_id by (destruct F; lia). destruct (Z.ltb_spec z (bc t - 1)); [|reflexivity].
      rewrite (id_A s), (id_B s) by (auto; lia). reflexivity.
  Qed.
  Lemma l_matched : forall s a, both s -> allocate_matched A s a = allocate_matched B s a.
  Proof. intros s a F. unfold allocate_matched. cbn [DBG]. go. Qed.

  (** the index of an address, if it is one of a block *)
  Lemma index_of : forall m s p, cfg_ok (Cfg m b true) -> geometry (Cfg m b true) s -> 0 <= p < 2 ^ 64 ->
    pointer_to_block_index (Cfg m b true) s p =
    if data s <=? p then if p <? data s + m * b then Ok ((p - data s) / b) else Abort else Abort.
  Proof.
    intros m s p HC G P. unfold pointer_to_block_index. cbn [DBG BS MB cassert].
    assert (PB := bs_pos _ HC). assert (MR := mb_range _ HC). assert (GD := g_data _ _ G). assert (GM := g_max _ _ G eq_refl). cbn [BS MB] in *.
    assert (0 <= m * b) by (apply Z.mul_nonneg_nonneg; lia).
    rewrite (Z.mul_comm b m). rewrite (wrap_id _ (m * b)) by lia. rewrite (wrap_id _ (data s + m * b)) by lia.
    destruct (Z.leb_spec (data s) p); [|reflexivity]. destruct (Z.ltb_spec p (data s + m * b)); [|reflexivity].
    rewrite wrap_id by lia. rewrite bindex_id; auto. cbn [MB]. split; [apply Z.div_pos; lia|apply Z.div_lt_upper_bound; lia].
  Qed.

  Lemma out_of_blocks : forall m s i p size, cfg_ok (Cfg m b true) -> geometry (Cfg m b true) s -> links_forward s -> 0 <= i < bc s ->
    0 <= p < 2 ^ 64 -> (data s + bc s * b <= p \/ data s + bc s * b <= wrap 64 (p + size)) ->
    allocate_blocks (Cfg m b true) s i p size = Abort.
  Proof.
    intros m s i p size HC G LF I P O. assert (PB := bs_pos _ HC). cbn [BS] in PB. assert (GB := g_bc _ _ G). cbn [MB] in GB.
    assert (MR := mb_range _ HC). cbn [MB] in MR.
    unfold allocate_blocks. rewrite index_of by auto.
    destruct (Z.leb_spec (data s) p); [|reflexivity]. destruct (Z.ltb_spec p (data s + m * b)); [|reflexivity]. cbn [bind].
    assert (Q := wrap_bounds (p + size)). set (q := wrap 64 (p + size)) in *. rewrite index_of by auto.
    destruct (Z.leb_spec (data s) q); [|reflexivity]. destruct (Z.ltb_spec q (data s + m * b)); [|reflexivity]. cbn [bind].
    unfold next_index, at_, in_array. cbn [DBG MB cassert]. rewrite (proj2 (Z.ltb_lt i (bc s))) by lia.
    rewrite (proj2 (Z.leb_le 0 i)) by lia. rewrite (proj2 (Z.ltb_lt i m)) by lia. cbn [andb bind].
    set (z := if nxt s i =? 0 then _ else _).
    assert (Z : z < bc s).
    { unfold z. destruct (Z.eqb_spec (nxt s i) 0).
      - rewrite wrap_id by lia. rewrite bindex_id; auto; cbn [MB]; lia.
      - destruct (LF i) as [K|K]; [congruence|]. rewrite bindex_id; auto; cbn [MB]; lia. }
    assert (J : bc s <= (p - data s) / b \/ bc s <= (q - data s) / b).
    { destruct O as [O|O]; [left|right]; apply Z.div_le_lower_bound; lia. }
    set (f := (p - data s) / b) in *. set (l := (q - data s) / b) in *. clearbody f l z.
    destruct (Z.eqb_spec i f); destruct (Z.eqb_spec l z); cbn [negb].
    - lia.
    - unfold allocate_begin_matched. cbn [DBG cassert]. destruct (Z.leb_spec i l); auto. destruct (Z.ltb_spec l z); auto. lia.
    - unfold allocate_end_matched. cbn [DBG cassert]. destruct (Z.ltb_spec i f); auto. destruct (Z.leb_spec f l); auto. lia.
    - unfold allocate_not_matched. cbn [DBG cassert]. destruct (Z.ltb_spec i f); auto. destruct (Z.leb_spec f l); auto. destruct (Z.ltb_spec l z); auto. lia.
  Qed.

  Lemma l_allocate_blocks : forall s i p size, geometry A s -> geometry B s -> links_forward s -> 0 <= i < bc s -> 0 <= p < 2 ^ 64 ->
    allocate_blocks A s i p size = allocate_blocks B s i p size.
  Proof.
    intros s i p size GA GB LF I P.
    assert (Q := wrap_bounds (p + size)).
    destruct (Z_le_gt_dec (data s + bc s * b) p) as [O|O].
    { rewrite !out_of_blocks by auto. reflexivity. }
    destruct (Z_le_gt_dec (data s + bc s * b) (wrap 64 (p + size))) as [O'|O'].
    { rewrite !out_of_blocks by auto. reflexivity. }
    assert (PB := bs_pos _ HA). cbn [BS] in PB. assert (XA := g_bc _ _ GA). assert (XB := g_bc _ _ GB). cbn [MB] in XA, XB.
    assert (MR := mb_range _ HA). cbn [MB] in MR.
    assert (F : both s) by (unfold both; lia).
    assert (bc s * b <= m1 * b) by (apply Z.mul_le_mono_nonneg_r; lia).
    assert (bc s * b <= m2 * b) by (apply Z.mul_le_mono_nonneg_r; lia).
    unfold allocate_blocks. rewrite !index_of by auto.
    destruct (Z.leb_spec (data s) p); [|reflexivity]. rewrite (proj2 (Z.ltb_lt p (data s + m1 * b))), (proj2 (Z.ltb_lt p (data s + m2 * b))) by lia. cbn [bind].
    destruct (Z.leb_spec (data s) (wrap 64 (p + size))); [|reflexivity].
    rewrite (proj2 (Z.ltb_lt (wrap 64 (p + size)) (data s + m1 * b))), (proj2 (Z.ltb_lt (wrap 64 (p + size)) (data s + m2 * b))) by lia. cbn [bind].
    rewrite l_next by auto. apply bind_same. intros n N.
    assert (N' : n = nxt s i) by (apply (p_at Z B s i) in N; injection N as <-; reflexivity). clear N. cbv zeta.
    replace (bindex A (wrap 64 (bc s - 1))) with (bc s - 1) by (rewrite wrap_id by lia; rewrite (id_A s); auto; lia).
    replace (bindex B (wrap 64 (bc s - 1))) with (bc s - 1) by (rewrite wrap_id by lia; rewrite (id_B s); auto; lia).
    assert (Z : exists z, (if n =? 0 then bc s - 1 else bindex A (n - 1)) = z /\ (if n =? 0 then bc s - 1 else bindex B (n - 1)) = z /\ z < bc s).
    { destruct (Z.eqb_spec n 0); [exists (bc s - 1); lia|]. destruct (LF i) as [K|K]; [congruence|]. exists (n - 1).
      rewrite (id_A s), (id_B s) by (auto; lia). lia. }
    destruct Z as [z [-> [-> Z]]].
    assert (L : 0 <= (wrap 64 (p + size) - data s) / b < bc s).
    { split; [apply Z.div_pos; lia|apply Z.div_lt_upper_bound; lia]. }
    destruct (i =? _); destruct (negb _).
    - apply l_begin_matched; auto; lia.
    - apply l_matched; auto.
    - apply l_not_matched; auto; lia.
    - apply l_end_matched; auto; lia.
  Qed.

  (** a debug build with both limits *)
  Record alike (s : state) : Prop := { k_A : geometry A s; k_B : geometry B s; k_links : links_forward s }.
  Lemma alike_both : forall s, alike s -> both s.
  Proof. intros s [GA GB _]. assert (XA := g_bc _ _ GA). assert (XB := g_bc _ _ GB). cbn [MB] in *. unfold both. lia. Qed.
  Lemma alike_kept : forall s s', alike s -> kept B s s' -> alike s'.
  Proof.
    intros s s' [[A1 A2 A3 A4 A5] [B1 B2 B3 B4 B5] L] [[E1 [E2 E3]] K].
    constructor; [constructor|constructor|auto]; rewrite ?E1, ?E2; auto.
  Qed.

  Lemma l_alloc_act : forall size align s p i, alike s -> 0 <= i < bc s ->
    alloc_act A size align s p i = alloc_act B size align s p i.
  Proof.
    intros size align s p i K I. assert (F := alike_both s K). unfold alloc_act, block_size_in_bytes, block_size.
    rewrite l_next by auto. cbn [BS DBG]. apply bind_same. intros n _.
    unfold block_index_to_pointer. cbn [DBG BS]. apply bind_same. intros bp _. apply bind_same. intros k _.
    destruct (_ <=? n); [|reflexivity]. cbv zeta.
    rewrite l_allocate_blocks; auto; [apply (k_A _ K)|apply (k_B _ K)|apply (k_links _ K)|apply wrap_bounds].
  Qed.
  Lemma l_alloc_loop : forall size align fuel s p i, alike s ->
    apply_loop fuel A (alloc_pred A) (alloc_act A size align) s p i = apply_loop fuel B (alloc_pred B) (alloc_act B size align) s p i.
  Proof.
    intros size align. induction fuel as [|fuel IH]; intros s p i K; [reflexivity|]. assert (F := alike_both s K). cbn [apply_loop].
    rewrite l_next by auto. destruct (next_index B s i) as [n| | |] eqn:N; cbn [bind]; auto.
    assert (I : 0 <= i < bc s).
    { unfold next_index, at_, in_array in N. cbn [DBG MB cassert] in N. destruct (Z.ltb_spec i (bc s)); [|discriminate].
      destruct (Z.leb_spec 0 i); [|discriminate]. lia. }
    assert (PE : alloc_pred A s i = alloc_pred B s i) by (unfold alloc_pred; rewrite l_in_use by auto; reflexivity).
    rewrite PE. destruct (alloc_pred B s i) as [u| | |]; cbn [bind]; auto.
    destruct u.
    - rewrite l_alloc_act by auto. destruct (alloc_act B size align s p i) as [[[s' p'] r]| | |] eqn:E; cbn [bind]; auto.
      destruct r; cbn [of_bool]; [|reflexivity]. change (1 =? 0) with false. cbv iota.
      assert (s' = s).
      { unfold alloc_act in E. inv_ok. destruct (_ <=? _) in E; inv_ok; subst; auto; discriminate. }
      subst s'. apply IH. auto.
    - cbn [bind]. destruct (n =? 0); [reflexivity|apply IH; auto].
  Qed.
  Lemma l_allocate : forall fuel s size align ans, alike s ->
    allocate_impl A fuel s size align ans = allocate_impl B fuel s size align ans.
  Proof.
    intros fuel s size align ans K. unfold allocate_impl. cbn [DBG BS].
    replace (search_buffer A fuel s size align) with (search_buffer B fuel s size align); [reflexivity|].
    unfold search_buffer. cbn [DBG BS]. rewrite (l_alloc_loop size align fuel s 0 0 K). reflexivity.
  Qed.

  Lemma l_merge : forall s l r, both s -> merge_if_both_not_in_use A s l r = merge_if_both_not_in_use B s l r.
  Proof. intros s l r F. unfold merge_if_both_not_in_use. cbn [DBG]. go. Qed.
  Lemma l_adjacent : forall s i, both s -> merge_adjacent_blocks A s i = merge_adjacent_blocks B s i.
  Proof.
    intros s i F. unfold merge_adjacent_blocks. cbn [DBG]. rewrite l_prev, l_in_use by auto. go.
    rewrite l_merge by auto. apply bind_same. intros [s' m] E. apply merge_quiet in E.
    assert (both s') by (apply both_same with s; [auto|apply E]). rewrite l_next by auto. apply bind_same. intros n _. apply l_merge. auto.
  Qed.
  Lemma l_deallocate_blocks : forall s i, both s -> deallocate_blocks A s i = deallocate_blocks B s i.
  Proof. intros s i F. unfold deallocate_blocks. cbn [DBG]. go. apply l_adjacent. eapply both_same; [eassumption|reflexivity]. Qed.
  Lemma l_deallocate : forall s p, alike s -> 0 <= p < 2 ^ 64 -> deallocate_impl A s p = deallocate_impl B s p.
  Proof.
    intros s p K P. assert (F := alike_both s K). unfold deallocate_impl. cbn [DBG BS]. destruct (p =? 0); [reflexivity|].
    apply bind_same. intros al _. apply abort_same.
    change (size_ A s) with (size_ B s). destruct ((data s <=? p) && (p <? wrap 64 (data s + size_ B s))) eqn:R; [|reflexivity].
    assert (E : pointer_to_block_index A s p = pointer_to_block_index B s p).
    { destruct F as [F0 [F1 F2]]. assert (PB := bs_pos _ HA). cbn [BS] in PB. assert (GE := g_end _ _ (k_B _ K)). assert (GD := g_data _ _ (k_B _ K)). cbn [BS] in GE.
      assert (0 <= bc s * b) by (apply Z.mul_nonneg_nonneg; lia).
      unfold size_ in R. cbn [BS] in R. rewrite (Z.mul_comm b) in R. rewrite (wrap_id _ (bc s * b)) in R by lia. rewrite wrap_id in R by lia.
      apply andb_prop in R. destruct R as [R1 R2]. apply Z.ltb_lt in R2.
      assert (bc s * b <= m1 * b) by (apply Z.mul_le_mono_nonneg_r; lia).
      assert (bc s * b <= m2 * b) by (apply Z.mul_le_mono_nonneg_r; lia).
      rewrite !index_of by (auto; try apply (k_A _ K); try apply (k_B _ K)). rewrite R1.
      rewrite !(proj2 (Z.ltb_lt _ _)) by lia. reflexivity. }
    rewrite E. apply bind_same. intros i _. rewrite l_deallocate_blocks by auto. reflexivity.
  Qed.

  Lemma l_release_loop : forall fuel s a i, both s ->
    apply_loop fuel A (in_use A) (release_act A) s a i = apply_loop fuel B (in_use B) (release_act B) s a i.
  Proof.
    induction fuel as [|fuel IH]; intros s a i F; [reflexivity|]. cbn [apply_loop].
    rewrite l_next by auto. apply bind_same. intros n N. rewrite l_in_use by auto. apply bind_same. intros u _.
    destruct u.
    - assert (RE : release_act A s a i = release_act B s a i /\ (forall s' a' r, release_act B s a i = Ok (s', a', r) -> both s')).
      { unfold release_act. rewrite l_deallocate_blocks by auto.
        destruct (deallocate_blocks B s i) as [[s' m]| | |] eqn:E; cbn [bind]; try (split; [reflexivity|discriminate]).
        apply deallocate_blocks_any in E. apply gave_kept in E. assert (F' : both s') by (apply both_same with s; [auto|apply E]).
        rewrite l_next by auto. split; [reflexivity|]. intros s2 a2 r H. destruct (next_index B s' m); cbn [bind] in H; try discriminate.
        injection H as <- _ _. auto. }
      destruct RE as [RE RB]. rewrite RE. destruct (release_act B s a i) as [[[s' a'] r]| | |]; cbn [bind]; auto.
      destruct (of_bool r =? 0); [reflexivity|]. apply IH. eapply RB. reflexivity.
    - rewrite N. cbn [bind]. destruct (n =? 0); [reflexivity|]. apply IH. auto.
  Qed.

  Lemma l_step : forall fuel s o, alike s -> (forall p, o = ODeallocate p -> 0 <= p < 2 ^ 64) -> step A fuel s o = step B fuel s o.
  Proof.
    intros fuel s o K V. destruct o as [size align ans|p|]; cbn [step].
    - rewrite l_allocate by auto. reflexivity.
    - rewrite l_deallocate by auto. reflexivity.
    - unfold release. rewrite l_release_loop; [reflexivity|]. apply alike_both. auto.
  Qed.

  Lemma l_run : forall fuel ops s, alike s -> Forall sane_op ops -> (forall p, In (ODeallocate p) ops -> 0 <= p < 2 ^ 64) ->
    run A fuel s ops = run B fuel s ops.
  Proof.
    intros fuel. induction ops as [|o ops IH]; intros s K S V; [reflexivity|]. inversion S; subst. cbn [run].
    rewrite l_step; auto; [|intros p ->; apply V; left; reflexivity].
    destruct (step B fuel s o) as [[s1 e]| | |] eqn:E; cbn [bind]; auto.
    rewrite IH; auto.
    - apply alike_kept with s; auto. eapply step_any; eauto. apply (g_aligned _ _ (k_B _ K)).
    - intros p I. apply V. right. auto.
  Qed.
End Limits.

Lemma made_alike : forall m1 m2 b buffer size up s1 s2, made (Cfg m1 b true) buffer size up s1 -> made (Cfg m2 b true) buffer size up s2 ->
  bc s1 = bc s2 -> s1 = s2 /\ alike m1 m2 b s1.
Proof.
  intros m1 m2 b buffer size up s1 s2 M1 M2 E.
  assert (S : s1 = s2).
  { destruct (made_values _ _ _ _ _ M1) as [_ [_ [_ [k1 [K1 [_ [_ [_ X1]]]]]]]].
    destruct (made_values _ _ _ _ _ M2) as [_ [_ [_ [k2 [K2 [_ [_ [_ X2]]]]]]]].
    cbn [DBG BS MB] in *. rewrite K1 in K2. injection K2 as <-. rewrite X1, X2 in E. cbn [bc] in E. rewrite X1, X2, E. reflexivity. }
  subst s2. split; auto.
  destruct (made_wf _ _ _ _ _ M1) as [_ [W1 [_ [NX _]]]]. destruct (made_wf _ _ _ _ _ M2) as [_ [W2 _]].
  constructor; [apply (wf_geom _ _ _ W1)|apply (wf_geom _ _ _ W2)|]. intros i. left. rewrite NX. reflexivity.
Qed.

Lemma debug_limit : forall m1 m2 b buffer size up s1 s2 fuel ops,
  made (Cfg m1 b true) buffer size up s1 -> made (Cfg m2 b true) buffer size up s2 -> bc s1 = bc s2 ->
  Forall sane_op ops -> (forall p, In (ODeallocate p) ops -> 0 <= p < 2 ^ 64) ->
  s1 = s2 /\ run (Cfg m1 b true) fuel s1 ops = run (Cfg m2 b true) fuel s2 ops.
Proof.
  intros m1 m2 b buffer size up s1 s2 fuel ops M1 M2 E S V. destruct (made_alike _ _ _ _ _ _ _ _ M1 M2 E) as [<- K].
  split; auto. apply l_run; auto; [apply M1|apply M2].
Qed.

Lemma plain_sane : forall b ops, b < 2 ^ 64 -> Forall (plain_op b) ops -> Forall sane_op ops.
Proof.
  intros b ops L H. eapply Forall_impl; [|exact H]. intros o. destruct o as [size align ans|p|]; cbn [plain_op sane_op]; auto.
  intros [X1 [X2 [X3 X4]]]. split; [auto|split; [auto|lia]].
Qed.

Lemma release_limit : forall m1 m2 b buffer size up s1 s2 fuel ops r,
  made (Cfg m1 b true) buffer size up s1 -> made (Cfg m2 b true) buffer size up s2 -> bc s1 = bc s2 ->
  Forall sane_op ops -> (forall p, In (ODeallocate p) ops -> 0 <= p < 2 ^ 64) ->
  run (Cfg m1 b true) fuel s1 ops = Ok r ->
  run (Cfg m1 b false) fuel s1 ops = Ok r /\ run (Cfg m2 b false) fuel s2 ops = Ok r.
Proof.
  intros m1 m2 b buffer size up s1 s2 fuel ops r M1 M2 E S V H.
  destruct (debug_limit _ _ _ _ _ _ _ _ fuel ops M1 M2 E S V) as [<- X].
  assert (A1 := s_run m1 b fuel ops s1). assert (A2 := s_run m2 b fuel ops s1). rewrite <- X in A2. rewrite H in A1, A2. auto.
Qed.

Lemma release_kept_limit : forall m1 m2 b buffer size up s1 s2 fuel ops s' es,
  made (Cfg m1 b true) buffer size up s1 -> made (Cfg m2 b true) buffer size up s2 -> bc s1 = bc s2 ->
  Forall (plain_op b) ops -> (up = true -> Forall (upstream_fits b) ops) -> (forall p, In (ODeallocate p) ops -> 0 <= p < 2 ^ 64) ->
  run (Cfg m1 b false) fuel s1 ops = Ok (s', es) -> polite [] es ->
  (forall es1 es2, es = es1 ++ es2 -> well_granted (Cfg m1 b false) s1 (live es1)) ->
  run (Cfg m2 b false) fuel s2 ops = Ok (s', es).
Proof.
  intros m1 m2 b buffer size up s1 s2 fuel ops s' es M1 M2 E S U V H P W.
  assert (D := release_passes _ _ _ _ _ _ _ _ _ _ M1 S U H P W).
  eapply (release_limit m1 m2); eauto. eapply plain_sane; eauto. apply (bs_range _ (made_cfg _ _ _ _ _ M1)).
Qed.

Lemma made_room : forall m dbg, 4 <= m < 100 -> made (conf m dbg) 4096 16 false (fresh 4096 4 false).
Proof.
  intros m dbg H. constructor.
  - apply conf_ok. lia.
  - unfold buffer_ok. lia.
  - intros _. cbn [MB BS conf]. lia.
  - unfold construct, conf, origin_and_block_count. change (4096 =? 0) with false. change (16 =? 0) with false. cbn [negb andb DBG BS MB].
    replace (skip_to_align dbg 4096 4) with (Ok 0) by (destruct dbg; reflexivity). cbn [bind]. change (0 <? 16) with true. cbv iota zeta.
    change ((16 - 0) / 4) with 4. change (0 <? 4) with true. cbn [bind]. rewrite Z.min_l by lia. reflexivity.
  - discriminate.
  - apply ordinary_small; cbn [data bc fresh BS conf]; lia.
Qed.

Lemma limit_shows : made (conf 4 true) 4096 16 false (fresh 4096 4 false) /\ made (conf 8 true) 4096 16 false (fresh 4096 4 false) /\
  Forall sane_op [get 16] /\
  (forall fuel, (0 < fuel)%nat -> run (conf 4 false) fuel (fresh 4096 4 false) [get 16] = UB) /\
  (forall fuel, (0 < fuel)%nat -> exists s, run (conf 8 false) fuel (fresh 4096 4 false) [get 16] = Ok (s, [EAllocate 16 1 4096 []])) /\
  (forall m fuel, (0 < fuel)%nat -> 4 <= m < 100 -> run (conf m true) fuel (fresh 4096 4 false) [get 16] = Abort).
Proof.
  split; [apply made_room; lia|]. split; [apply made_room; lia|].
  split; [repeat constructor; unfold get, sane_op; cbn; try lia; exact pow2_1|].
  split; [intros [|fuel] F; [inversion F|vm_compute; reflexivity]|].
  split; [intros [|fuel] F; [inversion F|eexists; vm_compute; reflexivity]|].
  intros m fuel F M.
  destruct (debug_limit m 4 4 4096 16 false (fresh 4096 4 false) (fresh 4096 4 false) fuel [get 16]) as [_ X];
    [apply made_room; lia|apply made_room; lia|reflexivity| | |].
  - repeat constructor; unfold get, sane_op; cbn; try lia; exact pow2_1.
  - intros p [I|[]]. discriminate I.
  - unfold conf. rewrite X. destruct fuel as [|fuel]; [inversion F|vm_compute; reflexivity].
Qed.
