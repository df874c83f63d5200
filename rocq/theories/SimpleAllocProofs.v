(** Lemmas about simple_resource: carving an allocation out of a free region. *)

Require Import ZArith Lia List Bool Permutation.
Require Import Verif.Outcome Verif.Machine Verif.BitsModel Verif.BitsSpec Verif.BitsProofs.
Require Import Verif.ArithModel Verif.ArithProofs.
Require Import Verif.SimpleModel Verif.SimpleSpec Verif.SimpleProofs.
Import ListNotations.
Open Scope Z_scope.
Open Scope res_scope.

(** * Carving an allocation out of a free region *)

Lemma replace_region : forall next prev used next' prev' used' n l r t ms q' p a,
  tiles next prev used n p a (l ++ r :: t) ->
  (forall j, j < rstart r \/ rstart r + rlen r <= j -> next' j = next j /\ used' j = used j) ->
  (forall j, j < rstart r \/ rstart r + rlen r < j -> prev' j = prev j) ->
  (rstart r + rlen r < n -> prev' (rstart r + rlen r) = q') ->
  seg next' prev' used' n (prev (rstart r)) (rstart r) ms q' (rstart r + rlen r) ->
  tiles next' prev' used' n p a (l ++ ms ++ t).
Proof.
  intros next prev used next' prev' used' n l r t ms q' p a T E1 E2 E3 S'.
  apply tiles_app in T. destruct T as [q [b [S T]]].
  destruct (seg_bounds _ _ _ _ _ _ _ _ _ S) as [S1 [S2 S3]]. cbn [tiles] in T.
  destruct T as [X1 [X2 [X3 [X4 [X5 [X6 T]]]]]]. subst b.
  apply tiles_app. exists q, (rstart r). split.
  - eapply seg_ext; [|exact S]. intros r' Hr. specialize (S3 r' Hr).
    destruct (E1 (rstart r') ltac:(lia)). split; auto. split; auto. apply E2. lia.
  - apply tiles_app. exists q', (rstart r + rlen r). split; [congruence|].
    eapply tiles_new_prev; [| | |exact T]; auto;
      intros j J; try apply E1; try apply E2; lia.
Qed.

(** region [r] split at block offset [k], [m] blocks taken *)
Definition carve (r : region) (k m : Z) : list region :=
  (if k =? 0 then [] else [Reg (rstart r) k false]) ++
  Reg (rstart r + k) m true ::
  (if k + m =? rlen r then [] else [Reg (rstart r + k + m) (rlen r - k - m) false]).

Lemma carve_free_count : forall r k m,
  Z.of_nat (length (free (carve r k m))) =
    (if k =? 0 then 0 else 1) + (if k + m =? rlen r then 0 else 1).
Proof. intros r k m. unfold carve. destruct (k =? 0), (k + m =? rlen r); reflexivity. Qed.
Lemma carve_busy : forall r k m, busy (carve r k m) = [Reg (rstart r + k) m true].
Proof. intros r k m. unfold carve. destruct (k =? 0), (k + m =? rlen r); reflexivity. Qed.
Lemma carve_coalesced : forall r k m, coalesced (carve r k m).
Proof.
  intros r k m. unfold carve.
  destruct (k =? 0), (k + m =? rlen r); cbn [app];
    repeat (apply coalesced_cons; [|intros r2 t E; try discriminate E; injection E; intros; subst; cbn; auto]);
    apply coalesced_nil.
Qed.

Lemma coalesced_around : forall l r t ms, coalesced (l ++ r :: t) -> rbusy r = false ->
  coalesced ms -> ms <> [] -> coalesced (l ++ ms ++ t).
Proof.
  intros l r t ms K B M N. destruct (coalesced_app_inv _ _ K) as [Kl Krt].
  assert (Kt := coalesced_tail _ _ Krt).
  assert (Lb : forall l' x, l = l' ++ [x] -> rbusy x = true).
  { intros l' x E. subst l. rewrite <- app_assoc in K. cbn [app] in K.
    destruct (K l' x r t eq_refl); congruence. }
  assert (Tb : forall y t', t = y :: t' -> rbusy y = true).
  { intros y t' E. subst t. destruct (coalesced_head _ _ _ Krt); congruence. }
  apply coalesced_app; auto.
  - apply coalesced_app; auto. intros l' r1 r2 t' E1 E2. right. eapply Tb; eauto.
  - intros l' r1 r2 t' E1 E2. left. eapply Lb; eauto.
Qed.

Lemma ptr_index : forall c s off, cfg_ok c -> geometry c s -> 0 <= off < bc s * BS c ->
  pointer_to_block_index c s (data s + off) = Ok (off / BS c).
Proof.
  intros c s off HC G H. assert (P := bs_pos c HC). destruct G as [G1 G2 G3 G4 G5].
  unfold pointer_to_block_index. rewrite leb_true by lia. rewrite cassert_true.
  assert (D : off / BS c < bc s) by (apply Z.div_lt_upper_bound; lia).
  assert (D0 : 0 <= off / BS c) by (apply Z.div_pos; lia).
  assert (LE : bc s * BS c <= MB c * BS c) by nia.
  replace (data s + off - data s) with off by lia.
  rewrite (wrap_id 64 off) by lia. rewrite bindex_id by (auto; lia).
  destruct (DBG c) eqn:E; [|reflexivity]. specialize (G5 eq_refl).
  rewrite (wrap_id 64 (BS c * MB c)) by lia.
  rewrite wrap_id by lia. rewrite ltb_true by lia. reflexivity.
Qed.

Lemma carve_wf : forall c s s' l r t k m, cfg_ok c ->
  wf c s (l ++ r :: t) -> rbusy r = false -> 0 <= k -> 0 < m -> k + m <= rlen r ->
  data s' = data s -> bc s' = bc s ->
  inuse s' = upd (inuse s) (rstart r + k) true ->
  (forall j, j < rstart r \/ rstart r + rlen r <= j -> nxt s' j = nxt s j) ->
  (forall j, j < rstart r \/ rstart r + rlen r < j -> prv s' j = prv s j) ->
  (rstart r + rlen r < bc s -> prv s' (rstart r + rlen r) =
     if k + m =? rlen r then rstart r + k else rstart r + k + m) ->
  prv s' (rstart r) = prv s (rstart r) ->
  (0 < k -> prv s' (rstart r + k) = rstart r /\ nxt s' (rstart r) = rstart r + k) ->
  nxt s' (rstart r + k) = link (bc s) (rstart r + k + m) ->
  (k + m < rlen r -> prv s' (rstart r + k + m) = rstart r + k /\
     nxt s' (rstart r + k + m) = link (bc s) (rstart r + rlen r)) ->
  freec s' = freec s - 1 + (if k =? 0 then 0 else 1) + (if k + m =? rlen r then 0 else 1) ->
  busyc s' = busyc s + 1 ->
  wf c s' (l ++ carve r k m ++ t).
Proof.
  intros c s s' l r t k m HC [G T K Hd Hf Hb] Br Hk Hm Hkm E1 E2 E3 E4 E5 E6 E7 E8 E9 E10 E11 E12.
  assert (T' := T). unfold regions_of in T'. apply tiles_app in T'. destruct T' as [q [b [S T']]].
  cbn [tiles] in T'. destruct T' as [X1 [X2 [X3 [X4 [X5 [X6 TT]]]]]]. subst b.
  assert (NU : forall j, rstart r <= j < rstart r + rlen r -> inuse s j = false).
  { intros j Hj. destruct (inuse s j) eqn:U; auto. exfalso. assert (I := Hd j U).
    rewrite map_app in I. apply in_app_iff in I. cbn [map] in I.
    destruct (seg_bounds _ _ _ _ _ _ _ _ _ S) as [_ [_ SB]].
    destruct (tiles_bounds _ _ _ _ _ _ _ TT) as [_ TB].
    destruct I as [I|[I|I]].
    - apply in_map_iff in I. destruct I as [x [Ex Ix]]. specialize (SB x Ix). lia.
    - subst j. congruence.
    - apply in_map_iff in I. destruct I as [x [Ex Ix]]. specialize (TB x Ix). lia. }
  constructor.
  - destruct G; constructor; rewrite ?E1, ?E2; auto.
  - unfold regions_of. rewrite E2, E3. eapply replace_region; [exact T| | |exact E6|].
    + intros j J. split; auto. apply upd_other. lia.
    + auto.
    + unfold carve. apply seg_app.
      exists (if k =? 0 then prv s (rstart r) else rstart r), (rstart r + k). split.
      * destruct (Z.eqb_spec k 0) as [Z0|Z0]; cbn [seg rstart rlen rbusy].
        -- split; auto. lia.
        -- destruct (E8 ltac:(lia)) as [F1 F2]. repeat split; auto; try lia.
           ++ rewrite F2. unfold link. rewrite eqb_false by lia. reflexivity.
           ++ rewrite upd_other by lia. apply NU. lia.
      * cbn [seg rstart rlen rbusy]. repeat split; auto; try lia.
        -- destruct (Z.eqb_spec k 0) as [Z0|Z0].
           ++ subst k. rewrite Z.add_0_r. auto.
           ++ apply E8. lia.
        -- apply upd_same.
        -- destruct (Z.eqb_spec (k + m) (rlen r)) as [Z0|Z0]; cbn [seg rstart rlen rbusy].
           ++ split; auto. lia.
           ++ destruct (E10 ltac:(lia)) as [F1 F2]. repeat split; auto; try lia.
              ** rewrite F2. f_equal. lia.
              ** rewrite upd_other by lia. apply NU. lia.
  - apply coalesced_around with r; auto; [apply carve_coalesced|].
    unfold carve. destruct (k =? 0); discriminate.
  - intros j Hj. rewrite E3 in Hj. rewrite !map_app. rewrite !in_app_iff.
    destruct (Z.eq_dec j (rstart r + k)) as [->|N].
    + right; left. unfold carve. rewrite map_app, in_app_iff. right. left. reflexivity.
    + rewrite upd_other in Hj by auto. assert (I := Hd j Hj).
      rewrite map_app in I. apply in_app_iff in I. cbn [map] in I. destruct I as [I|[I|I]]; auto.
      subst j. congruence.
  - rewrite E11, Hf, !free_app, free_cons_free, !app_length by auto. cbn [length].
    assert (CF := carve_free_count r k m). lia.
  - rewrite E12, Hb, !busy_app, carve_busy, busy_cons_free, !app_length by auto. cbn [length]. lia.
Qed.

Lemma allocate_blocks_ok : forall c s l r t k size, cfg_ok c ->
  wf c s (l ++ r :: t) -> rbusy r = false -> 0 <= k -> 0 < size ->
  k * BS c + size < rlen r * BS c ->
  exists s', allocate_blocks c s (rstart r) (data s + (rstart r + k) * BS c) size = Ok s' /\
    wf c s' (l ++ carve r k (size / BS c + 1) ++ t) /\
    data s' = data s /\ bc s' = bc s /\ has_up s' = has_up s /\
    inuse s' = upd (inuse s) (rstart r + k) true /\
    (forall j, ~ In j (map rstart (carve r k (size / BS c + 1))) -> nxt s' j = nxt s j).
Proof.
  intros c s l r t k size HC W Br Hk Hs Hfit. assert (P := bs_pos c HC).
  assert (CN := wf_counts _ _ _ HC W). assert (G := wf_geom _ _ _ W).
  assert (BB := g_bc _ _ G). assert (M := mb_range _ HC).
  assert (T' := wf_tiles _ _ _ W). unfold regions_of in T'. apply tiles_app in T'. destruct T' as [q [b [S T']]].
  cbn [tiles] in T'. destruct T' as [X1 [X2 [X3 [X4 [X5 [X6 TT]]]]]]. subst b.
  destruct (seg_bounds _ _ _ _ _ _ _ _ _ S) as [S1 [S2 S3]].
  set (a := rstart r) in *. set (m := size / BS c + 1).
  assert (D0 : 0 <= size / BS c) by (apply Z.div_pos; lia).
  assert (D1 : k + size / BS c < rlen r).
  { replace (k + size / BS c) with ((k * BS c + size) / BS c).
    - apply Z.div_lt_upper_bound; lia.
    - rewrite Z.add_comm, Z.div_add by lia. lia. }
  assert (F1 : 1 <= freec s).
  { rewrite (wf_free _ _ _ W), free_app, free_cons_free, app_length by auto. cbn [length]. lia. }
  unfold allocate_blocks.
  replace (data s + (a + k) * BS c) with (data s + ((a + k) * BS c)) by lia.
  assert (U1 : (a + k) * BS c + size < bc s * BS c) by nia.
  rewrite ptr_index by (auto; nia). cbn [bind]. rewrite Z.div_mul by lia.
  assert (GE := g_end _ _ G). assert (GD := g_data _ _ G).
  rewrite wrap_id by nia.
  replace (data s + (a + k) * BS c + size) with (data s + ((a + k) * BS c + size)) by lia.
  rewrite ptr_index by (auto; nia). cbn [bind].
  rewrite Z.add_comm with (n := (a + k) * BS c), Z.div_add by lia.
  rewrite next_index_ok by lia. cbn [bind].
  assert (LF : (if nxt s a =? 0 then bindex c (wrap 64 (bc s - 1)) else bindex c (nxt s a - 1)) = a + rlen r - 1).
  { rewrite X5. destruct (Z.eqb_spec (a + rlen r) (bc s)) as [E|E].
    - cbn [Z.eqb]. rewrite wrap_id by lia. rewrite bindex_id by (auto; lia). lia.
    - rewrite eqb_false by lia. rewrite bindex_id by (auto; lia). lia. }
  rewrite LF. clear LF.
  assert (X5' : nxt s a = link (bc s) (a + rlen r)) by exact X5.
  assert (LB : 0 <= link (bc s) (a + rlen r) < bc s) by (apply link_bounds; lia).
  assert (LZ := link_zero (bc s) (a + rlen r) ltac:(lia)).
  assert (LV : a + rlen r < bc s -> link (bc s) (a + rlen r) = a + rlen r).
  { intros. unfold link. rewrite eqb_false by lia. auto. }
  assert (IB : inc (busyc s) = busyc s + 1) by (unfold inc; apply wrap_id; lia).
  assert (BL : bc s + 1 < 2 ^ 64) by (assert (bc s <= bc s * BS c) by nia; lia).
  assert (IF : inc (freec s) = freec s + 1) by (unfold inc; apply wrap_id; lia).
  assert (DF : dec (freec s) = freec s - 1) by (unfold dec; apply wrap_id; lia).
  (* set_prev on the region after the free one *)
  assert (SP : forall s1 v, bc s1 = bc s -> a <= v -> 0 < v < a + rlen r ->
    exists s2, set_prev c s1 (link (bc s) (a + rlen r)) v = Ok s2 /\
      data s2 = data s1 /\ bc s2 = bc s1 /\ has_up s2 = has_up s1 /\ inuse s2 = inuse s1 /\
      freec s2 = freec s1 /\ busyc s2 = busyc s1 /\ nxt s2 = nxt s1 /\
      (forall j, j <> a + rlen r -> prv s2 j = prv s1 j) /\
      (a + rlen r < bc s -> prv s2 (a + rlen r) = v)).
  { intros s1 v Ebc Hv Hv2. destruct (Z.eq_dec (a + rlen r) (bc s)) as [E|E].
    - rewrite (proj2 LZ E). rewrite set_prev_skip by lia. exists s1. repeat split; auto. lia.
    - rewrite LV by lia. rewrite set_prev_write by lia. eexists; split; [reflexivity|].
      cbn [data bc has_up inuse freec busyc nxt prv with_prv]. repeat split; auto.
      + intros j J. apply upd_other. auto.
      + intros _. apply upd_same. }
  destruct (Z.eqb_spec a (a + k)) as [Ek|Ek]; destruct (Z.eqb_spec (size / BS c + (a + k)) (a + rlen r - 1)) as [El|El];
    cbn [negb].
  - (* allocate_matched *)
    assert (k = 0) by lia. subst k. rewrite Z.add_0_r in *.
    unfold allocate_matched. rewrite ltb_true by lia. rewrite cassert_true, set_in_use_ok by lia. cbn [bind].
    eexists. split; [reflexivity|].
    cbn [data bc has_up inuse freec busyc nxt prv with_inuse with_freec with_busyc].
    split; [|repeat (split; auto)].
    apply carve_wf with s; auto; fold a; rewrite ?Z.add_0_r; cbn [data bc has_up inuse freec busyc nxt prv with_inuse with_freec with_busyc]; auto; try lia.
    + intros J. rewrite (proj2 (Z.eqb_eq _ _)) by lia.
      destruct t as [|y t']; cbn [tiles] in TT; [lia|]. tauto.
    + unfold m. rewrite X5'. f_equal. lia.
    + rewrite (proj2 (Z.eqb_eq _ _)) by lia. cbn [Z.eqb]. lia.
  - (* allocate_begin_matched *)
    assert (k = 0) by lia. subst k. rewrite Z.add_0_r in *.
    unfold allocate_begin_matched. rewrite leb_true by lia. rewrite cassert_true.
    rewrite ltb_true by lia. rewrite cassert_true, set_in_use_ok by lia. cbn [bind].
    rewrite bindex_id by (auto; lia). rewrite next_index_ok by (cbn [bc with_inuse]; lia). cbn [bind nxt with_inuse].
    rewrite X5'. set (e := size / BS c + a + 1).
    assert (He : a < e < a + rlen r) by (unfold e; lia).
    rewrite set_prev_next_write by (cbn [bc with_inuse]; auto; try lia; destruct (Z.eq_dec (a + rlen r) (bc s)); lia).
    cbn [bind]. rewrite next_index_ok by (cbn [bc with_inuse with_nxt with_prv]; lia). cbn [bind nxt with_nxt with_prv with_inuse].
    rewrite upd_other by lia. rewrite X5'.
    match goal with |- context [set_prev c ?s1 _ _] => destruct (SP s1 e) as [s2 [E2 [C1 [C2 [C3 [C4 [C5 [C6 [C7 [C8 C9]]]]]]]]]]; [reflexivity|lia|lia|] end.
    rewrite E2. cbn [bind].
    cbn [data bc has_up inuse freec busyc nxt prv with_inuse with_nxt with_prv] in C1, C2, C3, C4, C5, C6, C7, C8.
    rewrite set_next_write by lia. cbn [bind]. eexists. split; [reflexivity|].
    cbn [data bc has_up inuse freec busyc nxt prv with_inuse with_freec with_busyc with_nxt].
    rewrite C1, C2, C3, C4.
    assert (NX : forall j, upd (nxt s2) a e j = if j =? a then e else if j =? e then link (bc s) (a + rlen r) else nxt s j).
    { intros j. rewrite C7. reflexivity. }
    assert (PX : forall j, j <> a + rlen r -> prv s2 j = if j =? e then a else prv s j).
    { intros j J. rewrite C8 by auto. reflexivity. }
    split.
    + apply carve_wf with s; auto; fold a; rewrite ?Z.add_0_r, ?Z.add_0_l;
        cbn [data bc has_up inuse freec busyc nxt prv with_inuse with_freec with_busyc with_nxt]; auto; try lia.
      * intros j J. rewrite NX. rewrite !eqb_false by lia. auto.
      * intros j J. rewrite PX by lia. rewrite eqb_false by lia. auto.
      * intros J. rewrite eqb_false by (unfold m; lia). rewrite C9 by lia. unfold e, m. lia.
      * rewrite PX by lia. rewrite eqb_false by lia. auto.
      * rewrite NX, Z.eqb_refl. unfold link. rewrite eqb_false by (unfold m, e in *; lia). unfold m, e; lia.
      * intros J. replace (a + m) with e by (unfold m, e; lia). rewrite PX, NX by lia.
        rewrite Z.eqb_refl, eqb_false by lia. auto.
      * rewrite eqb_false by (unfold m; lia). cbn [Z.eqb]. lia.
      * rewrite C6. exact IB.
    + repeat (split; auto). intros j J. unfold carve in J. cbn [Z.eqb app map] in J.
      rewrite Z.add_0_r, Z.add_0_l, eqb_false in J by (unfold m; lia).
      cbn [map rstart] in J. rewrite NX. fold a m in J.
      rewrite !eqb_false; auto; intros Q; apply J; [right; left; unfold m, e in *; lia|left; lia].
  - (* allocate_end_matched *)
    unfold allocate_end_matched. rewrite ltb_true by lia. rewrite cassert_true.
    rewrite leb_true by lia. rewrite cassert_true, set_in_use_ok by lia. cbn [bind bc with_inuse].
    rewrite (wrap_id 64 (bc s - 1)) by lia.
    assert (NEXT : (if size / BS c + (a + k) <? bc s - 1 then bindex c (size / BS c + (a + k) + 1) else 0) = link (bc s) (a + rlen r)).
    { unfold link. destruct (Z.ltb_spec (size / BS c + (a + k)) (bc s - 1)).
      - rewrite bindex_id by (auto; lia). rewrite eqb_false by lia. lia.
      - replace (a + rlen r) with (bc s) by lia. rewrite Z.eqb_refl. auto. }
    rewrite NEXT. rewrite next_index_ok by (cbn [bc with_inuse]; lia). cbn [bind].
    set (f := a + k) in *. assert (Hf : a < f < a + rlen r) by (unfold f; lia).
    rewrite set_prev_next_write by (cbn [bc with_inuse]; auto; try lia; destruct (Z.eq_dec (a + rlen r) (bc s)); lia).
    cbn [bind]. rewrite next_index_ok by (cbn [bc with_inuse with_nxt with_prv]; lia). cbn [bind nxt with_nxt with_prv with_inuse].
    rewrite upd_other by lia. rewrite X5'.
    match goal with |- context [set_prev c ?s1 _ _] => destruct (SP s1 f) as [s2 [E2 [C1 [C2 [C3 [C4 [C5 [C6 [C7 [C8 C9]]]]]]]]]]; [reflexivity|lia|lia|] end.
    rewrite E2. cbn [bind].
    cbn [data bc has_up inuse freec busyc nxt prv with_inuse with_nxt with_prv] in C1, C2, C3, C4, C5, C6, C7, C8.
    rewrite set_next_write by lia. cbn [bind]. eexists. split; [reflexivity|].
    cbn [data bc has_up inuse freec busyc nxt prv with_inuse with_freec with_busyc with_nxt].
    rewrite C1, C2, C3, C4.
    assert (NX : forall j, upd (nxt s2) a f j = if j =? a then f else if j =? f then link (bc s) (a + rlen r) else nxt s j).
    { intros j. rewrite C7. reflexivity. }
    assert (PX : forall j, j <> a + rlen r -> prv s2 j = if j =? f then a else prv s j).
    { intros j J. rewrite C8 by auto. reflexivity. }
    assert (KM : k + m = rlen r) by (unfold m, f in *; lia).
    split.
    + apply carve_wf with s; auto; fold a; fold f;
        cbn [data bc has_up inuse freec busyc nxt prv with_inuse with_freec with_busyc with_nxt]; auto; try lia.
      * intros j J. rewrite NX. rewrite !eqb_false by lia. auto.
      * intros j J. rewrite PX by lia. rewrite eqb_false by lia. auto.
      * intros J. rewrite (proj2 (Z.eqb_eq _ _)) by lia. apply C9. lia.
      * rewrite PX by lia. rewrite eqb_false by lia. auto.
      * intros J. rewrite PX, NX by lia. rewrite !Z.eqb_refl. auto.
      * rewrite NX, Z.eqb_refl, eqb_false by lia. f_equal. unfold f. lia.
      * rewrite (proj2 (Z.eqb_eq (k + m) _)) by lia. rewrite eqb_false by (unfold f in *; lia). lia.
      * rewrite C6. exact IB.
    + repeat (split; auto). intros j J. unfold carve in J. fold a m in J. fold f in J.
      rewrite (proj2 (Z.eqb_eq (k + m) _)), (eqb_false k) in J by (unfold f in *; lia).
      cbn [app map rstart] in J. rewrite NX.
      rewrite !eqb_false; auto; intros Q; apply J; [right; left; lia|left; lia].
  - (* allocate_not_matched *)
    unfold allocate_not_matched. rewrite ltb_true by lia. rewrite cassert_true.
    rewrite leb_true by lia. rewrite cassert_true. rewrite ltb_true by lia.
    rewrite cassert_true, set_in_use_ok by lia. cbn [bind].
    rewrite bindex_id by (auto; lia). rewrite next_index_ok by (cbn [bc with_inuse]; lia). cbn [bind].
    set (f := a + k) in *. set (e := size / BS c + f + 1).
    assert (Hf : a < f < e /\ e < a + rlen r) by (unfold e, f in *; lia).
    rewrite set_prev_next_write by (cbn [bc with_inuse]; auto; lia).
    cbn [bind]. rewrite next_index_ok by (cbn [bc with_inuse with_nxt with_prv]; lia). cbn [bind nxt with_nxt with_prv with_inuse].
    rewrite upd_other by lia. rewrite X5'.
    rewrite set_prev_next_write by (cbn [bc with_inuse with_nxt with_prv]; auto; try lia; destruct (Z.eq_dec (a + rlen r) (bc s)); lia).
    cbn [bind]. rewrite next_index_ok by (cbn [bc with_inuse with_nxt with_prv]; lia). cbn [bind nxt with_nxt with_prv with_inuse].
    rewrite !upd_other by lia. rewrite X5'.
    match goal with |- context [set_prev c ?s1 _ _] => destruct (SP s1 e) as [s2 [E2 [C1 [C2 [C3 [C4 [C5 [C6 [C7 [C8 C9]]]]]]]]]]; [reflexivity|lia|lia|] end.
    rewrite E2. cbn [bind].
    cbn [data bc has_up inuse freec busyc nxt prv with_inuse with_nxt with_prv] in C1, C2, C3, C4, C5, C6, C7, C8.
    rewrite set_next_write by lia. cbn [bind]. eexists. split; [reflexivity|].
    cbn [data bc has_up inuse freec busyc nxt prv with_inuse with_freec with_busyc with_nxt].
    rewrite C1, C2, C3, C4.
    assert (NX : forall j, upd (nxt s2) a f j = if j =? a then f else if j =? e then link (bc s) (a + rlen r) else if j =? f then e else nxt s j).
    { intros j. rewrite C7. reflexivity. }
    assert (PX : forall j, j <> a + rlen r -> prv s2 j = if j =? e then f else if j =? f then a else prv s j).
    { intros j J. rewrite C8 by auto. reflexivity. }
    assert (KM : k + m < rlen r) by (unfold m, e, f in *; lia).
    assert (FM : f + m = e) by (unfold m, e; lia).
    split.
    + apply carve_wf with s; auto; fold a; fold f;
        cbn [data bc has_up inuse freec busyc nxt prv with_inuse with_freec with_busyc with_nxt]; auto; try lia.
      * intros j J. rewrite NX. rewrite !eqb_false by lia. auto.
      * intros j J. rewrite PX by lia. rewrite !eqb_false by lia. auto.
      * intros J. rewrite eqb_false by lia. rewrite FM. apply C9. lia.
      * rewrite PX by lia. rewrite !eqb_false by lia. auto.
      * intros J. rewrite PX, NX by lia. rewrite !Z.eqb_refl, eqb_false by lia. auto.
      * rewrite NX, Z.eqb_refl, !eqb_false by lia. rewrite FM. unfold link. rewrite eqb_false by lia. auto.
      * intros J. rewrite FM, PX, NX by lia. rewrite !Z.eqb_refl, eqb_false by lia. auto.
      * rewrite !eqb_false by (unfold f in *; lia). rewrite C5. lia.
      * rewrite C6. exact IB.
    + repeat (split; auto). intros j J. unfold carve in J. fold a m in J. fold f in J.
      rewrite FM in J. rewrite (eqb_false (k + m)), (eqb_false k) in J by (unfold f in *; lia).
      cbn [app map rstart] in J. rewrite NX.
      rewrite !eqb_false; auto; intros Q; apply J; [right; left|right; right; left|left]; lia.
Qed.
