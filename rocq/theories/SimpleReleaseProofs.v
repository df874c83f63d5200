(** Lemmas about simple_resource: release(), and clients that use single blocks. *)

Require Import ZArith Lia List Bool Permutation.
Require Import Verif.Outcome Verif.Machine Verif.BitsModel Verif.BitsSpec Verif.BitsProofs.
Require Import Verif.ArithModel Verif.ArithProofs.
Require Import Verif.SimpleModel Verif.SimpleSpec Verif.SimpleProofs Verif.SimpleAllocProofs.
Require Import Verif.SimpleScanProofs Verif.SimpleOpProofs Verif.SimpleHistProofs.
Import ListNotations.
Open Scope Z_scope.
Open Scope res_scope.

(** * The links inside the regions *)

Lemma contiguous_covers : forall n rs a j, contiguous n a rs -> a <= j < n ->
  exists r, In r rs /\ rstart r <= j < rstart r + rlen r.
Proof.
  intros n; induction rs as [|r rs IH]; intros a j C H; cbn [contiguous] in C; [lia|].
  destruct C as [C1 [C2 C3]]. destruct (Z_lt_le_dec j (a + rlen r)) as [L|L].
  - exists r. split; [left; auto|]. lia.
  - destruct (IH (a + rlen r) j C3 ltac:(lia)) as [x [I X]]. exists x. split; [right; auto|auto].
Qed.

Lemma wf_link : forall c s rs r, wf c s rs -> In r rs -> nxt s (rstart r) = link (bc s) (rstart r + rlen r).
Proof. intros c s rs r W I. apply in_split in I. destruct I as [l [t ->]]. apply (wf_region _ _ _ _ _ W). Qed.

Lemma wf_bounds : forall c s rs r, wf c s rs -> In r rs ->
  0 <= rstart r /\ 0 < rlen r /\ rstart r + rlen r <= bc s.
Proof. intros c s rs r W I. destruct (contiguous_bounds _ _ _ (proj1 (wf_tiling _ _ _ W))) as [_ B]. apply B. auto. Qed.

(** a region boundary is respected by every region *)
Lemma same_region : forall c s rs r1 r2 j, wf c s rs -> In r1 rs -> In r2 rs ->
  rstart r1 <= j < rstart r1 + rlen r1 -> rstart r2 <= j < rstart r2 + rlen r2 -> r1 = r2.
Proof.
  intros c s rs r1 r2 j W I1 I2 H1 H2. assert (C := proj1 (wf_tiling _ _ _ W)).
  apply (contiguous_start_inj _ _ _ _ _ C); auto.
  destruct (Z.lt_total (rstart r1) (rstart r2)) as [L|[L|L]]; auto.
  - assert (O := contiguous_order _ _ _ r1 r2 C I1 I2 L). lia.
  - assert (O := contiguous_order _ _ _ r2 r1 C I2 I1 L). lia.
Qed.

Definition link_ok (s : state) (r : region) (j : Z) : Prop :=
  if rstart r + rlen r =? bc s then nxt s j = 0 \/ j < nxt s j < bc s
  else j < nxt s j <= rstart r + rlen r.
Definition links_inside (s : state) (rs : list region) : Prop :=
  forall r j, In r rs -> rstart r <= j < rstart r + rlen r -> link_ok s r j.

Lemma link_ok_head : forall c s rs r, wf c s rs -> In r rs -> link_ok s r (rstart r).
Proof.
  intros c s rs r W I. unfold link_ok. rewrite (wf_link c s rs r) by auto. unfold link.
  destruct (wf_bounds c s rs r W I) as [B1 [B2 B3]].
  destruct (rstart r + rlen r =? bc s); [left; auto|lia].
Qed.

Lemma link_ok_widen : forall s s' r r' j, bc s' = bc s -> nxt s' j = nxt s j ->
  rstart r <= j < rstart r + rlen r -> rstart r + rlen r <= rstart r' + rlen r' <= bc s ->
  link_ok s r j -> link_ok s' r' j.
Proof.
  intros s s' r r' j E1 E2 H B. unfold link_ok. rewrite E1, E2.
  destruct (Z.eqb_spec (rstart r + rlen r) (bc s)); destruct (Z.eqb_spec (rstart r' + rlen r') (bc s)); lia.
Qed.

Lemma start_in : forall c s rs j r, wf c s rs -> In r rs -> rstart r < j < rstart r + rlen r ->
  ~ In j (map rstart rs).
Proof.
  intros c s rs j r W I H N. apply in_map_iff in N. destruct N as [x [E Ix]].
  assert (Bx := wf_bounds _ _ _ _ W Ix).
  assert (x = r) by (apply (same_region c s rs x r j); auto; lia). subst. lia.
Qed.

(** freeing keeps the links inside *)
Lemma freed_links : forall c s s' l r t a n l' t', wf c s (l ++ r :: t) -> rbusy r = true ->
  wf c s' (l' ++ Reg a n false :: t') -> freed l r t a n l' t' -> bc s' = bc s ->
  (forall j, j <> a -> nxt s' j = nxt s j) ->
  links_inside s (l ++ r :: t) -> links_inside s' (l' ++ Reg a n false :: t').
Proof.
  intros c s s' l r t a n l' t' W B W' F Eb Fr L x j I H.
  assert (Bx := wf_bounds _ _ _ _ W' I).
  destruct (Z.eq_dec j (rstart x)) as [->|N]; [eapply link_ok_head; eauto|].
  assert (Ja : j <> a).
  { intros ->. assert (IA : In (Reg a n false) (l' ++ Reg a n false :: t')) by (apply in_app_iff; right; left; auto).
    assert (X := start_in c s' _ a x W' I ltac:(lia)). apply X. apply in_map_iff. eexists; split; [|exact IA]. auto. }
  (* the region of the old list that contains j ends no later *)
  destruct (contiguous_covers _ _ _ j (proj1 (wf_tiling _ _ _ W)) ltac:(lia)) as [y [Iy Hy]].
  apply (link_ok_widen s s' y x j); auto. split; [|lia].
  (* x ends where some old region z ends *)
  assert (Z : exists z, In z (l ++ r :: t) /\ rstart z + rlen z = rstart x + rlen x).
  { apply in_app_iff in I. destruct I as [I|[<-|I]].
    - exists x. split; auto. apply in_app_iff. left.
      destruct F as [[[-> _]|[u [-> _]]] _]; auto. apply in_app_iff. auto.
    - cbn [rstart rlen]. destruct F as [_ [[_ [F _]]|[u [-> [_ F]]]]].
      + exists r. split; auto. apply in_app_iff. right. left. auto.
      + exists u. split; auto. apply in_app_iff. right. right. left. auto.
    - exists x. split; auto. apply in_app_iff. right. right.
      destruct F as [_ [[-> _]|[u [-> _]]]]; auto. right. auto. }
  destruct Z as [z [Iz Ez]]. rewrite <- Ez.
  destruct (Z_lt_le_dec (rstart y) (rstart z)) as [Q|Q].
  - assert (O := contiguous_order _ _ _ y z (proj1 (wf_tiling _ _ _ W)) Iy Iz Q).
    assert (Bz := wf_bounds _ _ _ _ W Iz). lia.
  - assert (Bz := wf_bounds _ _ _ _ W Iz).
    assert (y = z) by (apply (same_region c s (l ++ r :: t) y z j); auto; lia). subst. lia.
Qed.

(** serving a single block from the start of a region keeps the links inside *)
Lemma served_links : forall c s s' l f t, wf c s (l ++ f :: t) -> rbusy f = false ->
  wf c s' (l ++ carve f 0 1 ++ t) -> bc s' = bc s ->
  (forall j, ~ In j (map rstart (carve f 0 1)) -> nxt s' j = nxt s j) ->
  links_inside s (l ++ f :: t) -> links_inside s' (l ++ carve f 0 1 ++ t).
Proof.
  intros c s s' l f t W B W' Eb Fr L x j I H.
  assert (Bx := wf_bounds _ _ _ _ W' I).
  destruct (Z.eq_dec j (rstart x)) as [->|N]; [eapply link_ok_head; eauto|].
  assert (Jc : ~ In j (map rstart (carve f 0 1))).
  { intros Q. apply (start_in c s' _ j x W' I ltac:(lia)). rewrite !map_app, !in_app_iff. auto. }
  apply in_app_iff in I. rewrite in_app_iff in I.
  assert (K : In x l \/ In x t \/ (rstart x = rstart f + 1 /\ rstart x + rlen x = rstart f + rlen f)).
  { destruct I as [I|[I|I]]; auto. unfold carve in I. cbn [Z.eqb app] in I.
    destruct I as [<-|I]; [cbn [rstart rlen] in *; lia|].
    destruct (0 + 1 =? rlen f); [destruct I|]. destruct I as [<-|[]]. cbn [rstart rlen]. lia. }
  destruct K as [K|[K|[K1 K2]]].
  - apply (link_ok_widen s s' x x j); auto; [lia|]. apply L; auto. apply in_app_iff. auto.
  - apply (link_ok_widen s s' x x j); auto; [lia|]. apply L; auto. apply in_app_iff. right. right. auto.
  - apply (link_ok_widen s s' f x j); auto; try lia. apply L; [|lia]. apply in_app_iff. right. left. auto.
Qed.

(** * release *)

Section Release.
  Variable c : cfg.
  Hypothesis HC : cfg_ok c.
  Notation loop fuel := (apply_loop fuel c (in_use c) (release_act c)).


  Lemma loop_step_free : forall fuel s rs j, wf c s rs -> 0 <= j < bc s -> inuse s j = false ->
    loop (S fuel) s tt j = if nxt s j =? 0 then Ok (s, tt) else loop fuel s tt (nxt s j).
  Proof.
    intros fuel s rs j W H U. assert (B := g_bc _ _ (wf_geom _ _ _ W)). cbn [apply_loop].
    rewrite next_index_ok by lia. cbn [bind]. rewrite in_use_ok by lia. cbn [bind]. rewrite U.
    rewrite ?next_index_ok by lia. reflexivity.
  Qed.

  Lemma loop_step_busy : forall fuel s l r t, wf c s (l ++ r :: t) -> rbusy r = true ->
    exists s' a n l' t', wf c s' (l' ++ Reg a n false :: t') /\ freed l r t a n l' t' /\
      data s' = data s /\ bc s' = bc s /\ has_up s' = has_up s /\
      (forall j, j <> a -> nxt s' j = nxt s j) /\
      loop (S fuel) s tt (rstart r) =
        if nxt s' a =? 0 then Ok (s', tt) else loop fuel s' tt 1.
  Proof.
    intros fuel s l r t W B. destruct (wf_region _ _ _ _ _ W) as [R1 [R2 [R3 [R4 [R5 R6]]]]].
    assert (BB := g_bc _ _ (wf_geom _ _ _ W)).
    destruct (deallocate_blocks_ok c s l r t HC W B) as [s' [a [n [l' [t' [E [W' [F [D1 [D2 [D3 [D4 D5]]]]]]]]]]]].
    exists s', a, n, l', t'. repeat (split; auto).
    assert (BA := wf_bounds _ _ _ (Reg a n false) W' ltac:(apply in_app_iff; right; left; auto)).
    cbn [rstart rlen] in BA. assert (BB' := g_bc _ _ (wf_geom _ _ _ W')).
    cbn [apply_loop]. rewrite next_index_ok by lia. cbn [bind]. rewrite in_use_ok by lia. cbn [bind].
    rewrite R5, B. unfold release_act. rewrite E. cbn [bind]. rewrite next_index_ok by lia. cbn [bind].
    destruct (nxt s' a =? 0); reflexivity.
  Qed.

  (** region 0 is free and not the last: the scan, wherever it is in region 0, ends
      with everything free *)
  Lemma release_rest : forall N s r0 rest j fuel, (length (busy rest) <= N)%nat ->
    wf c s (r0 :: rest) -> rbusy r0 = false -> rest <> [] -> links_inside s (r0 :: rest) ->
    1 <= j <= rlen r0 -> (Z.to_nat (bc s) * S N <= fuel)%nat ->
    exists s', loop fuel s tt j = Ok (s', tt) /\ wf c s' [Reg 0 (bc s) false] /\
      data s' = data s /\ bc s' = bc s /\ has_up s' = has_up s /\
      links_inside s' [Reg 0 (bc s) false].
  Proof.
    induction N as [|N IHN].
    { intros s r0 rest j fuel HN W B Hne L Hj Hf. exfalso.
      destruct rest as [|r1 rest]; [congruence|].
      destruct (coalesced_head _ _ _ (wf_coal _ _ _ W)) as [X|X]; [congruence|].
      rewrite busy_cons_busy in HN by auto. cbn in HN. lia. }
    (* free the region after region 0 *)
    assert (Next : forall s r0 rest fuel, (length (busy rest) <= S N)%nat ->
      wf c s (r0 :: rest) -> rbusy r0 = false -> rest <> [] -> links_inside s (r0 :: rest) ->
      (1 + Z.to_nat (bc s) * S N <= fuel)%nat ->
      exists s', loop fuel s tt (rlen r0) = Ok (s', tt) /\ wf c s' [Reg 0 (bc s) false] /\
        data s' = data s /\ bc s' = bc s /\ has_up s' = has_up s /\
        links_inside s' [Reg 0 (bc s) false]).
    { intros s r0 rest fuel HN W B Hne L Hf.
      assert (S0 : rstart r0 = 0) by (assert (T := wf_tiles _ _ _ W); unfold regions_of in T; cbn in T; tauto).
      destruct rest as [|r1 rest]; [congruence|].
      destruct (wf_next_region c s [] r0 r1 rest W) as [_ N1]. rewrite S0, Z.add_0_l in N1.
      destruct (coalesced_head _ _ _ (wf_coal _ _ _ W)) as [X|B1]; [congruence|].
      destruct fuel as [|fuel]; [lia|].
      destruct (loop_step_busy fuel s [r0] r1 rest W B1)
        as [s' [a [n [l' [t' [W' [F [D1 [D2 [D3 [D5 E]]]]]]]]]]].
      rewrite <- N1, E. clear E.
      assert (L' := freed_links c s s' [r0] r1 rest a n l' t' W B1 W' F D2 D5 L).
      assert (LA : l' = [] /\ a = 0).
      { destruct F as [[[-> [_ [F|[k [x [F Bx]]]]]]|[x [F [Bx Ea]]]] _].
        - discriminate F.
        - change [r0] with ([] ++ [r0]) in F. apply app_inj_tail in F. destruct F as [_ <-]. congruence.
        - change [r0] with ([] ++ [r0]) in F. apply app_inj_tail in F. destruct F as [<- <-]. split; auto. lia. }
      destruct LA as [-> ->]. cbn [app] in W', L'.
      assert (BA := wf_bounds _ _ _ (Reg 0 n false) W' (or_introl eq_refl)). cbn [rstart rlen] in BA.
      assert (LK0 := wf_link c s' _ (Reg 0 n false) W' (or_introl eq_refl)).
      cbn [rstart rlen] in LK0. rewrite LK0. unfold link. rewrite Z.add_0_l.
      destruct (Z.eqb_spec n (bc s')) as [En|En].
      - (* everything is free *)
        cbn [Z.eqb]. exists s'.
        assert (T0 : t' = []).
        { destruct (wf_region c s' [] (Reg 0 n false) t' W') as [_ [_ [_ [_ [_ Q]]]]].
          apply Q. cbn [rstart rlen]. lia. }
        subst t'. rewrite <- D2. rewrite <- En. repeat (split; auto).
      - rewrite eqb_false by lia.
        assert (NT : t' <> []).
        { intros ->. destruct (wf_region c s' [] (Reg 0 n false) [] W') as [_ [_ [_ [_ [_ Q]]]]].
          apply En. cbn [rstart rlen] in Q. rewrite Z.add_0_l in Q. apply Q. auto. }
        assert (FB := freed_busy [r0] r1 rest 0 n [] t' B1 F). cbn [app] in FB.
        rewrite busy_cons_free in FB by auto.
        rewrite (busy_cons_free r0) in FB by auto. cbn in FB.
        rewrite busy_cons_busy in HN by auto. cbn in HN.
        destruct (IHN s' (Reg 0 n false) t' 1 fuel) as [s2 [E2 [W2 [P1 [P2 [P3 P4]]]]]]; auto.
        + rewrite FB. unfold busy in *. lia.
        + cbn [rlen]. lia.
        + rewrite D2. lia.
        + exists s2. rewrite D2 in *. repeat (split; [congruence|]). auto. }
    (* walk to the end of region 0 *)
    assert (Main : forall m s r0 rest j fuel, (Z.to_nat (rlen r0 - j) <= m)%nat ->
      (length (busy rest) <= S N)%nat ->
      wf c s (r0 :: rest) -> rbusy r0 = false -> rest <> [] -> links_inside s (r0 :: rest) ->
      1 <= j <= rlen r0 -> (m + 1 + Z.to_nat (bc s) * S N <= fuel)%nat ->
      exists s', loop fuel s tt j = Ok (s', tt) /\ wf c s' [Reg 0 (bc s) false] /\
        data s' = data s /\ bc s' = bc s /\ has_up s' = has_up s /\
        links_inside s' [Reg 0 (bc s) false]).
    { induction m as [|m IHm]; intros s r0 rest j fuel Hm HN W B Hne L Hj Hf;
        destruct (Z.eq_dec j (rlen r0)) as [->|Nj]; try lia; try (apply (Next s r0 rest); auto; lia).
      assert (B0 := wf_bounds _ _ _ r0 W (or_introl eq_refl)).
      assert (S0 : rstart r0 = 0) by (assert (T := wf_tiles _ _ _ W); unfold regions_of in T; cbn in T; tauto).
      - (* inside region 0 *)
        destruct fuel as [|fuel]; [lia|].
        assert (JI : inuse s j = false).
        { destruct (inuse s j) eqn:U; auto. exfalso.
          apply (start_in c s _ j r0 W (or_introl eq_refl) ltac:(lia)). apply (wf_heads _ _ _ W). auto. }
        rewrite (loop_step_free fuel s (r0 :: rest)) by (auto; lia).
        assert (LK := L r0 j (or_introl eq_refl) ltac:(lia)). unfold link_ok in LK.
        assert (NL : rstart r0 + rlen r0 <> bc s).
        { intros Q. destruct (wf_region c s [] r0 rest W) as [_ [_ [_ [_ [_ R]]]]]. apply R in Q. auto. }
        rewrite eqb_false in LK by auto. rewrite eqb_false by lia.
        apply (IHm s r0 rest); auto; lia. }
    intros s r0 rest j fuel HN W B Hne L Hj Hf.
    assert (B0 := wf_bounds _ _ _ r0 W (or_introl eq_refl)).
    assert (NL : rstart r0 + rlen r0 <> bc s).
    { intros Q. destruct (wf_region c s [] r0 rest W) as [_ [_ [_ [_ [_ R]]]]]. apply R in Q. auto. }
    apply (Main (Z.to_nat (rlen r0 - j)) s r0 rest); auto. 
    assert (S0 : rstart r0 = 0) by (assert (T := wf_tiles _ _ _ W); unfold regions_of in T; cbn in T; tauto).
    lia.
  Qed.

  Lemma release_ok : forall s rs fuel, wf c s rs -> links_inside s rs ->
    (enough (bc s) <= fuel)%nat ->
    exists s', release c fuel s = Ok s' /\ wf c s' [Reg 0 (bc s) false] /\
      data s' = data s /\ bc s' = bc s /\ has_up s' = has_up s /\
      links_inside s' [Reg 0 (bc s) false].
  Proof.
    intros s rs fuel W L Hf. unfold enough in Hf.
    assert (BB := g_bc _ _ (wf_geom _ _ _ W)).
    assert (T := wf_tiles _ _ _ W). unfold regions_of in T.
    destruct rs as [|r0 rest]; cbn [tiles] in T; [lia|]. destruct T as [S0 _].
    assert (B0 := wf_bounds _ _ _ r0 W (or_introl eq_refl)).
    assert (RC := regions_count _ _ _ _ _ _ _ (wf_tiles _ _ _ W)). cbn [length] in RC.
    assert (BL : (length (busy rest) <= length rest)%nat) by apply filter_length_le.
    destruct fuel as [|fuel]; [lia|].
    assert (G : exists s', loop (S fuel) s tt 0 = Ok (s', tt) /\ wf c s' [Reg 0 (bc s) false] /\
      data s' = data s /\ bc s' = bc s /\ has_up s' = has_up s /\ links_inside s' [Reg 0 (bc s) false]).
    { destruct (rbusy r0) eqn:B.
      - destruct (loop_step_busy fuel s [] r0 rest W B)
          as [s' [a [n [l' [t' [W' [F [D1 [D2 [D3 [D5 E]]]]]]]]]]].
        rewrite S0 in E. rewrite E. clear E.
        assert (L' := freed_links c s s' [] r0 rest a n l' t' W B W' F D2 D5 L).
        assert (LA : l' = [] /\ a = 0).
        { destruct F as [[[-> [-> _]]|[x [F _]]] _]; auto. destruct l'; discriminate F. }
        destruct LA as [-> ->]. cbn [app] in W', L'.
        assert (BA := wf_bounds _ _ _ (Reg 0 n false) W' (or_introl eq_refl)). cbn [rstart rlen] in BA.
        assert (LK0 := wf_link c s' _ (Reg 0 n false) W' (or_introl eq_refl)).
        cbn [rstart rlen] in LK0. rewrite LK0. unfold link. rewrite Z.add_0_l.
        destruct (Z.eqb_spec n (bc s')) as [En|En].
        + cbn [Z.eqb]. exists s'.
          assert (T0 : t' = []).
          { destruct (wf_region c s' [] (Reg 0 n false) t' W') as [_ [_ [_ [_ [_ Q]]]]].
            apply Q. cbn [rstart rlen]. lia. }
          subst t'. rewrite <- D2. rewrite <- En. repeat (split; auto).
        + rewrite eqb_false by lia.
          assert (NT : t' <> []).
          { intros ->. destruct (wf_region c s' [] (Reg 0 n false) [] W') as [_ [_ [_ [_ [_ Q]]]]].
            apply En. cbn [rstart rlen] in Q. rewrite Z.add_0_l in Q. apply Q. auto. }
          assert (FB := freed_busy [] r0 rest 0 n [] t' B F). cbn [app] in FB.
          rewrite busy_cons_free in FB by auto. cbn in FB.
          destruct (release_rest (length (busy t')) s' (Reg 0 n false) t' 1 fuel)
            as [s2 [E2 [W2 [P1 [P2 [P3 P4]]]]]]; auto.
          * cbn [rlen]. lia.
          * rewrite D2, FB. nia.
          * exists s2. rewrite D2 in *. repeat (split; [congruence|]). auto.
      - assert (U0 : inuse s 0 = false).
        { destruct (wf_region c s [] r0 rest W) as [_ [_ [_ [_ [Q _]]]]]. congruence. }
        rewrite (loop_step_free fuel s (r0 :: rest)) by (auto; lia).
        assert (LK := wf_link c s _ r0 W (or_introl eq_refl)). rewrite S0, Z.add_0_l in LK. rewrite LK.
        unfold link. destruct (Z.eqb_spec (rlen r0) (bc s)) as [En|En].
        + cbn [Z.eqb]. exists s.
          assert (T0 : rest = []).
          { destruct (wf_region c s [] r0 rest W) as [_ [_ [_ [_ [_ Q]]]]]. apply Q. lia. }
          subst rest. assert (R : r0 = Reg 0 (bc s) false) by (destruct r0; cbn in *; congruence).
          rewrite <- R. repeat (split; auto).
        + rewrite eqb_false by lia.
          assert (NT : rest <> []).
          { intros ->. destruct (wf_region c s [] r0 [] W) as [_ [_ [_ [_ [_ Q]]]]].
            apply En. rewrite S0, Z.add_0_l in Q. apply Q. auto. }
          destruct (release_rest (length (busy rest)) s r0 rest (rlen r0) fuel)
            as [s2 [E2 [W2 [P1 [P2 [P3 P4]]]]]]; auto; [lia|nia|].
          exists s2. auto 7. }
    destruct G as [s' [E R]]. unfold release. rewrite E. cbn [bind]. exists s'. auto.
  Qed.
End Release.

(** * Clients that only use single blocks *)

Lemma one_block_step : forall c s rs fuel o, cfg_ok c -> wf c s rs -> links_inside s rs ->
  pool_inv (bc s) 1 rs -> ordinary_buffer (data s) (bc s * BS c) -> (enough (bc s) <= fuel)%nat ->
  2 * BS c <= 2 ^ 64 ->
  valid_op (data s) (BS c) (bc s) (has_up s) true (pool_request (BS c) 1) any_order rs o ->
  exists s' rs' e, step c fuel s o = Ok (s', e) /\ wf c s' rs' /\ same_place s s' /\
    links_inside s' rs' /\ pool_inv (bc s) 1 rs' /\
    spec_step (data s) (BS c) (bc s) (has_up s) rs o rs' e.
Proof.
  intros c s rs fuel o HC W L PI O Hf Hb V. assert (P := bs_pos c HC).
  assert (BB := g_bc _ _ (wf_geom _ _ _ W)). assert (GD := g_data _ _ (wf_geom _ _ _ W)).
  assert (GA := g_aligned _ _ (wf_geom _ _ _ W)).
  assert (Hf' : (Z.to_nat (bc s) < fuel)%nat) by (unfold enough in Hf; lia).
  assert (Q : exists s' rs' e, step c fuel s o = Ok (s', e) /\ wf c s' rs' /\ same_place s s' /\
    links_inside s' rs' /\ spec_step (data s) (BS c) (bc s) (has_up s) rs o rs' e).
  { destruct o as [size align ans|p|]; cbn [valid_op] in V.
    - destruct V as [->|[V1 [V2 [V3 V4]]]].
      + exists s, rs, (EAllocate 0 align 0 []). cbn [step]. rewrite allocate_zero. cbn [bind].
        split; auto. split; auto. split; [repeat split|]. split; auto. constructor.
      + assert (CF : careful (data s) (BS c) (bc s) rs size align).
        { apply (pool_careful (data s) (BS c) (bc s) 1); auto; try lia. apply (bs_pow2 _ HC). }
        destruct (step_allocate c s rs fuel size align ans HC W O Hf' V1 V2 CF V4)
          as [[NF E]|[l [f [t [s' [q [FF [E S]]]]]]]].
        * cbn [step]. rewrite E. destruct (has_up s) eqn:U; cbn [bind]; eexists s, rs, _;
            (split; [reflexivity|]); (split; [auto|]); (split; [repeat split|]); (split; [auto|]).
          -- apply spec_pass_on; auto.
          -- apply spec_refuse; auto.
        * destruct S as [F1 [F2 [k [K1 [K2 [K3 [W' [D1 [D2 [D3 [D4 D5]]]]]]]]]]].
          destruct V3 as [V3 V5].
          assert (K : rstart f + k = rstart f).
          { apply (first_aligned_value (data s) (BS c) f align q (rstart f + k)); auto.
            - apply pow2_gt_0; auto.
            - apply pow2_le_divide; auto. apply (bs_pow2 _ HC). }
          assert (k = 0) by lia. subst k.
          assert (M1 : size / BS c + 1 = 1) by (rewrite Z.div_small by lia; lia).
          rewrite M1 in *. destruct FF as [-> [FF2 [FF3 FF4]]].
          exists s', (l ++ carve f 0 1 ++ t), (EAllocate size align q []).
          cbn [step]. rewrite E. cbn [bind]. split; auto. split; auto. split; [repeat split; auto|].
          split; [apply (served_links c s s'); auto|].
          apply spec_serve with l f t (rstart f + 0); auto.
          -- split; auto.
          -- rewrite <- D2. apply wf_tiling with c. auto.
          -- rewrite served_busy, M1. reflexivity.
    - cbn [step]. destruct V as [->|[[r [I [B [_ E]]]]|[V1 [V2 [V3 V4]]]]].
      + rewrite deallocate_null. cbn [bind]. exists s, rs, (EDeallocate 0 []).
        split; auto. split; auto. split; [repeat split|]. split; auto. constructor.
      + destruct (in_split _ _ I) as [l [t Ers]]. subst rs p.
        destruct (deallocate_live c s l r t HC W B) as [s' [a [n [l' [t' [E1 [W' [F [D1 [D2 [D3 [D4 D5]]]]]]]]]]]].
        unfold addr in E1. rewrite E1. cbn [bind]. eexists s', _, _. split; [reflexivity|]. split; [exact W'|].
        split; [repeat split; auto|]. split; [apply (freed_links c s s' l r t a n l' t'); auto|].
        eapply spec_free; eauto.
        * rewrite <- D2. apply wf_tiling with c. auto.
        * eapply freed_busy; eauto.
      + rewrite deallocate_outside; auto; [|apply (wf_geom _ _ _ W)].
        assert (M : p mod BS c = 0) by (apply Z.mod_divide; [lia|auto]). rewrite M, V1. cbn [Z.eqb andb bind].
        eexists s, rs, _. split; [reflexivity|]. split; auto. split; [repeat split; auto|]. split; auto.
        apply spec_forward; auto. lia.
    - cbn [step]. destruct (release_ok c HC s rs fuel W L Hf) as [s' [E [W' [D1 [D2 [D3 D4]]]]]].
      rewrite E. cbn [bind]. exists s', [Reg 0 (bc s) false], ERelease. split; auto. split; auto.
      split; [repeat split; auto|]. split; auto. constructor. }
  destruct Q as [s' [rs' [e [E [W' [SP [L' S]]]]]]]. exists s', rs', e.
  split; auto. split; auto. split; auto. split; auto. split; auto.
  apply (pool_step (data s) (BS c) (bc s) (has_up s) true 1 rs o rs' e); auto; try lia.
  apply (bs_pow2 _ HC).
Qed.

Lemma one_block_run : forall c fuel ops s rs, cfg_ok c -> wf c s rs -> links_inside s rs ->
  pool_inv (bc s) 1 rs -> ordinary_buffer (data s) (bc s * BS c) -> (enough (bc s) <= fuel)%nat ->
  2 * BS c <= 2 ^ 64 ->
  valid_client (data s) (BS c) (bc s) (has_up s) true (pool_request (BS c) 1) any_order rs ops ->
  exists s' rs' es, run c fuel s ops = Ok (s', es) /\ wf c s' rs' /\ same_place s s' /\
    spec_run (data s) (BS c) (bc s) (has_up s) rs ops rs' es /\ links_inside s' rs' /\ pool_inv (bc s) 1 rs'.
Proof.
  intros c fuel; induction ops as [|o ops IH]; intros s rs HC W L PI O Hf Hb V.
  - exists s, rs, []. split; auto. split; auto. split; [repeat split|]. split; [constructor|]. auto.
  - cbn [valid_client] in V. destruct V as [V1 V2].
    destruct (one_block_step c s rs fuel o HC W L PI O Hf Hb V1) as [s1 [rs1 [e [E [W1 [[P1 [P2 P3]] [L1 [PI1 ST]]]]]]]].
    specialize (V2 rs1 e ST).
    destruct (IH s1 rs1) as [s2 [rs2 [es [E2 [W2 [[Q1 [Q2 Q3]] [SR [L2 PI2]]]]]]]];
      auto; try (rewrite ?P1, ?P2, ?P3; auto).
    exists s2, rs2, (e :: es). cbn [run]. rewrite E. cbn [bind]. rewrite E2. cbn [bind].
    split; auto. split; auto. split; [repeat split; congruence|].
    rewrite P1, P2, P3 in SR. rewrite P2 in PI2. split; [|auto].
    econstructor; [exact ST|exact SR].
Qed.

Lemma start_links : forall c s, wf c s [Reg 0 (bc s) false] -> nxt s = (fun _ => 0) ->
  links_inside s [Reg 0 (bc s) false].
Proof.
  intros c s W E r j [<-|[]] H. unfold link_ok. cbn [rstart rlen]. rewrite Z.add_0_l, Z.eqb_refl, E. auto.
Qed.
