(** Lemmas about simple_resource: busy_count() after every history, release included. *)

Require Import ZArith Lia List Bool Permutation.
Require Import Verif.Outcome Verif.Machine Verif.BitsSpec.
Require Import Verif.SimpleModel Verif.SimpleSpec Verif.SimpleView Verif.SimpleProofs.
Require Import Verif.SimpleHistProofs Verif.SimpleAnyProofs Verif.SimpleMainProofs Verif.SimpleWalkProofs
  Verif.SimpleOpProofs Verif.SimpleScanProofs Verif.SimpleFreeProofs Verif.SimpleSweepSpec Verif.SimpleSweepProofs.
Import ListNotations.
Open Scope Z_scope.
Open Scope res_scope.

Lemma loop_more : forall (A : Type) c pred (act : state -> A -> Z -> res (state * A * bool)) fuel fuel' s a i x,
  apply_loop fuel c pred act s a i = Ok x -> (fuel <= fuel')%nat -> apply_loop fuel' c pred act s a i = Ok x.
Proof.
  intros A c pred act fuel. induction fuel as [|fuel IH]; intros fuel' s a i x H L; [discriminate H|].
  destruct fuel' as [|fuel']; [lia|]. cbn [apply_loop] in *.
  destruct (next_index c s i) as [y| | |]; try discriminate H. cbn [bind] in *.
  destruct (pred s i) as [b| | |]; try discriminate H. cbn [bind] in *.
  destruct b.
  - destruct (act s a i) as [[[s1 a1] r]| | |]; try discriminate H. cbn [bind] in *.
    destruct (of_bool r =? 0); [exact H|]. apply IH; [exact H|lia].
  - cbn [bind] in *. destruct (y =? 0); [exact H|]. apply IH; [exact H|lia].
Qed.

Lemma release_swept : forall c n s fuel s1, ready c n s -> release c fuel s = Ok s1 ->
  exists js, sweeps c s 0 js (Ok s1) /\ ready c n s1 /\ same_place s s1 /\ busyc s1 = busyc s - Z.of_nat (length js).
Proof.
  intros c n s fuel s1 R H. assert (G := rd_geometry _ _ _ R). assert (GB := g_bc _ _ G).
  set (k := (in_use_of (inuse s) (blocks (bc s)) * Z.to_nat (bc s) + Z.to_nat (bc s - 0))%nat).
  destruct (release_loop c n k (Nat.max k fuel) s 0 R ltac:(lia) (le_n _) ltac:(lia)) as [js [r [W [AL [_ [_ D]]]]]].
  unfold release in H. apply bind_inv in H. destruct H as [[s2 u] [E Q]]. injection Q as ->.
  apply (loop_more _ _ _ _ _ (Nat.max k fuel)) in E; [|lia]. rewrite E in AL. unfold lift in AL.
  destruct r as [x| | |]; try discriminate AL. cbn [bind] in AL. injection AL as <- _.
  destruct D as [D|[s2 [D [R2 [SP [B _]]]]]]; [discriminate D|]. injection D as <-.
  exists js. auto.
Qed.

Lemma balance : forall c fuel room ops s s' es n, ready c n s -> n + Z.of_nat (length ops) < 2 ^ 64 ->
  0 < room -> data s + MB c * BS c <= room -> Forall (countable room) ops -> run c fuel s ops = Ok (s', es) ->
  exists g, released c fuel s ops g /\ (forall g', released c fuel s ops g' -> g' = g) /\
    busyc s' = busyc s + count is_served es - count is_returned es - Z.of_nat (length (concat g)).
Proof.
  intros c fuel room ops. induction ops as [|o ops IH]; intros s s' es n R N R0 RM V H; cbn [run] in H.
  - injection H as <- <-. exists []. split; [constructor|]. split; [intros g' X; inversion X; reflexivity|].
    unfold count. cbn. lia.
  - apply bind_inv in H. destruct H as [[s1 e] [E1 H]]. apply bind_inv in H. destruct H as [[s2 es'] [E2 H]].
    injection H as <- <-. inversion V as [|? ? V1 V2]; subst. cbn [length] in N. rewrite !count_cons.
    assert (R' := R). destruct R' as [HC DB G LF T K NS].
    destruct V1 as [->|V1].
    + cbn [step] in E1. apply bind_inv in E1. destruct E1 as [s3 [E1 Q]]. injection Q as <- <-.
      destruct (release_swept _ _ _ _ _ R E1) as [js [W [R1 [SP B]]]].
      destruct (IH s3 s2 es' n R1 ltac:(lia) R0) as [g [X [U I]]]; auto.
      { destruct SP as [-> _]. exact RM. }
      exists (js :: g). split; [econstructor; eauto|]. split.
      * intros g' Y. inversion Y; subst; [|congruence].
        match goal with Z : sweeps c s 0 _ _ |- _ => destruct (sweeps_unique _ _ _ _ _ W _ _ Z) as [-> Q] end.
        injection Q as <-. f_equal. auto.
      * cbn [is_served is_returned concat]. rewrite app_length. lia.
    + assert (NR : o <> ORelease) by (intros ->; exact V1).
      assert (SN : sane_op o).
      { destruct o as [sz al ans|p|]; unfold sane_op, counted_op in *; auto. destruct V1 as [A1 [A2 A3]]. repeat split; auto; lia. }
      assert (GD := g_data _ _ G).
      destruct K as [K1 K2].
      destruct (step_count c fuel s o s1 e (busyc s) room HC (g_aligned _ _ G) ltac:(lia) R0 RM V1 E1) as [k' [EK [B' [F' SP]]]]; auto.
      { symmetry. apply wrap_id. lia. }
      assert (KK : busyc s1 = k').
      { rewrite B'. apply wrap_id. destruct F' as [U [_ [_ F']]]. destruct (is_served e), (is_returned e); lia. }
      assert (C1 : counted (n + 1) s1) by (eapply step_counted; eauto; [exact (g_aligned _ _ G)|lia|split; auto]).
      destruct (step_any c fuel s o s1 e HC (g_aligned _ _ G) SN E1) as [KP _].
      assert (R1 : ready c (n + 1) s1).
      { constructor; auto; [eapply kept_geometry; eauto|apply KP; auto|eapply step_tidy; eauto|lia]. }
      destruct (IH s1 s2 es' (n + 1) R1 ltac:(lia) R0) as [g [X [U I]]]; auto.
      { destruct SP as [-> _]. exact RM. }
      exists g. split; [eapply released_later; eauto|]. split.
      * intros g' Y. inversion Y; subst; [contradiction|].
        match goal with Z : step c fuel s o = _ |- _ => rewrite E1 in Z; injection Z as <- <- end. auto.
      * lia.
Qed.

Lemma destructor_exact : forall c buffer size up s fuel ops s' es, made c buffer size up s -> DBG c = true ->
  Forall (countable (buffer + BS c + MB c * BS c)) ops -> Z.of_nat (length ops) < 2 ^ 64 ->
  run c fuel s ops = Ok (s', es) ->
  exists g, released c fuel s ops g /\ (forall g', released c fuel s ops g' -> g' = g) /\
    let left := count is_served es - count is_returned es - Z.of_nat (length (concat g)) in
    busyc s' = left /\ destroy s' = (if left =? 0 then Ok tt else Abort).
Proof.
  intros c buffer size up s fuel ops s' es M DB V L R.
  destruct (debug_state c buffer size up s fuel [] s [] M DB ltac:(constructor) eq_refl) as [HC [G [LF [SP _]]]].
  destruct (debug_tidy c buffer size up s fuel [] s [] M ltac:(constructor) ltac:(cbn; lia) eq_refl) as [T K].
  assert (RD : ready c 0 s) by (constructor; auto; lia).
  assert (P := bs_pos c HC). assert (MM := mb_range _ HC).
  destruct (made_wf _ _ _ _ _ M) as [_ [_ [_ [_ [_ [_ [_ [B0 _]]]]]]]].
  assert (DS : data s <= buffer + BS c).
  { destruct (made_buffer _ _ _ _ _ M) as [Hb [Hs He]].
    destruct (construct_value c buffer size up HC Hb Hs He) as [s1 [E' [H1 [H2 [H3 [H4 [H5 [H6 H7]]]]]]]].
    pose proof (made_from _ _ _ _ _ M) as E. rewrite E in E'. injection E' as <-. cbv zeta in H7.
    destruct (skip_bounds buffer (BS c) P) as [S1 S2].
    destruct ((buffer =? 0) || _) in H7; destruct H7 as [-> _]; lia. }
  assert (BP := made_buffer _ _ _ _ _ M).
  destruct (balance c fuel (buffer + BS c + MB c * BS c) ops s s' es 0 RD ltac:(lia)) as [g [X [U I]]]; auto; try nia.
  { destruct BP as [Hb _]. nia. }
  assert (Z0 : busyc s = 0) by (destruct K as [K _]; cbn [length] in K; lia).
  exists g. split; [exact X|]. split; [exact U|]. cbv zeta. rewrite I, Z0.
  replace (0 + count is_served es - count is_returned es - Z.of_nat (length (concat g))) with
    (count is_served es - count is_returned es - Z.of_nat (length (concat g))) in * by lia.
  split; [reflexivity|]. unfold destroy, abort_when. rewrite I, Z0.
  replace (0 + count is_served es - count is_returned es - Z.of_nat (length (concat g))) with
    (count is_served es - count is_returned es - Z.of_nat (length (concat g))) by lia.
  destruct (_ =? 0); reflexivity.
Qed.

(** * every build *)

Lemma release_flags : forall c fuel s s1 k, release c fuel s = Ok s1 -> busyc s = wrap 64 k -> flags_within s k ->
  exists js, NoDup js /\ (forall i, In i js <-> inuse s i = true /\ inuse s1 i = false) /\
    (forall i, inuse s1 i = true -> inuse s i = true) /\
    busyc s1 = wrap 64 (k - Z.of_nat (length js)) /\ flags_within s1 (k - Z.of_nat (length js)) /\ same_place s s1.
Proof.
  intros c fuel s s1 k H. unfold release in H. apply bind_inv in H. destruct H as [[s2 u] [H E]].
  injection E as ->. revert s u k H. generalize tt at 1. generalize 0 at 1.
  induction fuel as [|fuel IH]; intros i t s u k H B F; [discriminate H|].
  cbn [apply_loop] in H. apply bind_inv in H. destruct H as [x [E H]].
  apply bind_inv in H. destruct H as [b [Eb H]].
  apply bind_inv in H. destruct H as [[[s2 a1] i1] [E1 H]].
  assert (K : s2 = s \/ gave c s s2).
  { destruct b.
    - apply bind_inv in E1. destruct E1 as [[[s3 a3] r3] [E2 E3]]. injection E3 as <- _ _.
      unfold release_act in E2. apply bind_inv in E2. destruct E2 as [[s4 m] [E3 E4]].
      apply bind_inv in E4. destruct E4 as [n [_ E4]]. injection E4 as -> _ _.
      right. eapply deallocate_blocks_any. eauto.
    - apply bind_inv in E1. destruct E1 as [n [E2 E3]]. injection E3 as <- _ _. auto. }
  assert (REST : forall k2, busyc s2 = wrap 64 k2 -> flags_within s2 k2 ->
    exists js, NoDup js /\ (forall i, In i js <-> inuse s2 i = true /\ inuse s1 i = false) /\
      (forall i, inuse s1 i = true -> inuse s2 i = true) /\
      busyc s1 = wrap 64 (k2 - Z.of_nat (length js)) /\ flags_within s1 (k2 - Z.of_nat (length js)) /\ same_place s2 s1).
  { intros k2 B2 F2. destruct (i1 =? 0).
    - injection H as -> _. exists []. cbn [length In]. rewrite Z.sub_0_r. split; [constructor|].
      split; [intros j; split; [tauto|intros [X Y]; congruence]|]. split; auto. split; auto. split; auto. apply same_place_refl.
    - eapply IH; eauto. }
  destruct K as [->|G]; [apply REST; auto|].
  assert (GF := flags_give _ _ _ _ G F). destruct G as [GP [[j [T EQ]] [GB _]]].
  destruct (REST (k - 1)) as [js [ND [IN [MO [B1 [F1 P1]]]]]]; auto.
  { rewrite GB, B. unfold dec, wrap. rewrite Zminus_mod_idemp_l. f_equal. }
  assert (U2 : forall y, inuse s2 y = if y =? j then false else inuse s y) by (intros y; rewrite EQ; reflexivity).
  exists (j :: js). cbn [length In].
  replace (k - Z.of_nat (S (length js))) with (k - 1 - Z.of_nat (length js)) by lia.
  split; [constructor; auto; intros X; apply IN in X; rewrite U2, Z.eqb_refl in X; destruct X; discriminate|].
  assert (J1 : inuse s1 j = false).
  { destruct (inuse s1 j) eqn:Q; auto. apply MO in Q. rewrite U2, Z.eqb_refl in Q. discriminate. }
  split.
  { intros y. rewrite IN, U2. destruct (Z.eqb_spec y j) as [->|N].
    - split; [auto|intros; left; reflexivity].
    - split; [intros [X|X]; [congruence|auto]|auto]. }
  split.
  { intros y Y. apply MO in Y. rewrite U2 in Y. destruct (y =? j); [discriminate|auto]. }
  split; auto. split; auto. eapply same_place_trans; eauto.
Qed.

Lemma same_members : forall (l l' : list Z), NoDup l -> NoDup l' -> (forall i, In i l <-> In i l') -> length l = length l'.
Proof.
  intros l l' N N' H. apply Nat.le_antisymm; apply NoDup_incl_length; auto; intros i I; apply H; auto.
Qed.

Lemma balance_any : forall c fuel room ops s s' es k, cfg_ok c -> (BS c | data s) -> 0 <= data s ->
  0 < room -> data s + MB c * BS c <= room -> Forall (countable room) ops ->
  run c fuel s ops = Ok (s', es) -> busyc s = wrap 64 k -> flags_within s k ->
  exists g, freed c fuel s ops g /\
    (forall g', freed c fuel s ops g' -> length (concat g') = length (concat g)) /\
    let left := k + count is_served es - count is_returned es - Z.of_nat (length (concat g)) in
    busyc s' = wrap 64 left /\ flags_within s' left.
Proof.
  intros c fuel room ops. induction ops as [|o ops IH]; intros s s' es k HC D D0 R0 R V H B F; cbn [run] in H.
  - injection H as <- <-. exists []. split; [constructor|]. split; [intros g' X; inversion X; reflexivity|].
    unfold count. cbn. replace (k + 0 - 0 - 0) with k by lia. auto.
  - apply bind_inv in H. destruct H as [[s1 e] [E1 H]]. apply bind_inv in H. destruct H as [[s2 es'] [E2 H]].
    injection H as <- <-. inversion V as [|? ? V1 V2]; subst. rewrite !count_cons.
    destruct V1 as [->|V1].
    + assert (E0 := E1). cbn [step] in E1. apply bind_inv in E1. destruct E1 as [s3 [E1 Q]]. injection Q as -> <-.
      destruct (release_flags _ _ _ _ _ E1 B F) as [js [ND [IN [MO [B1 [F1 [P1 [P2 P3]]]]]]]].
      destruct (IH s1 s2 es' (k - Z.of_nat (length js))) as [g [X [U [I J]]]]; auto; try (rewrite P1; auto).
      exists (js :: g). split; [econstructor; eauto|]. split.
      * intros g' Y. inversion Y as [|? s4 e4 js4 ? g4 S4 N4 I4 F4|]; subst; [|congruence].
        rewrite E0 in S4. injection S4 as <- _. cbn [concat]. rewrite !app_length, (U g4 F4). f_equal.
        apply same_members; auto. intros i. rewrite I4, IN. reflexivity.
      * cbn [is_served is_returned concat]. rewrite app_length.
        match goal with X : busyc s2 = wrap 64 ?a, Y : flags_within s2 ?a |- context [wrap 64 ?b] => replace b with a by lia end.
        auto.
    + assert (NR : o <> ORelease) by (intros ->; exact V1).
      destruct (step_count c fuel s o s1 e k room HC D D0 R0 R V1 E1 B F) as [k' [EK [B' [F' [P1 [P2 P3]]]]]].
      destruct (IH s1 s2 es' k') as [g [X [U [I J]]]]; auto; try (rewrite P1; auto).
      exists g. split; [eapply freed_later; eauto|]. split.
      * intros g' Y. inversion Y as [| |? o4 s4 e4 ? g4 N4 S4 F4]; subst; [contradiction|].
        rewrite E1 in S4. injection S4 as <- _. auto.
      * cbv zeta. subst k'.
        match goal with X : busyc s2 = wrap 64 ?a, Y : flags_within s2 ?a |- context [wrap 64 ?b] => replace b with a by lia end.
        auto.
Qed.

Lemma destructor_any : forall c buffer size up s fuel ops s' es, cfg_ok c -> buffer_ok buffer size ->
  construct c buffer size up = Ok s ->
  Forall (countable (buffer + BS c + MB c * BS c)) ops -> Z.of_nat (length ops) < 2 ^ 64 ->
  run c fuel s ops = Ok (s', es) ->
  exists g, freed c fuel s ops g /\
    (forall g', freed c fuel s ops g' -> length (concat g') = length (concat g)) /\
    let left := count is_served es - count is_returned es - Z.of_nat (length (concat g)) in
    0 <= left /\ busyc s' = left /\ destroy s' = (if left =? 0 then Ok tt else Abort).
Proof.
  intros c buffer size up s fuel ops s' es HC [Hb [Hs He]] E V L R.
  assert (P := bs_pos c HC). assert (M := mb_range _ HC).
  destruct (construct_value c buffer size up HC Hb Hs He) as [s1 [E' [H1 [H2 [H3 [H4 [H5 [H6 H7]]]]]]]].
  rewrite E in E'. injection E' as <-. cbv zeta in H7. destruct (skip_bounds buffer (BS c) P) as [S1 S2].
  assert (D : (BS c | data s) /\ 0 <= data s <= buffer + BS c).
  { destruct ((buffer =? 0) || _) in H7; destruct H7 as [-> _].
    - split; [apply Z.divide_0_r|lia].
    - split; [apply skip_aligned; auto|lia]. }
  assert (MP : 0 <= MB c * BS c) by nia.
  destruct (balance_any c fuel (buffer + BS c + MB c * BS c) ops s s' es 0) as [g [X [U [B F]]]]; auto; try tauto; try lia.
  { exists []. split; [constructor|]. split; [rewrite H6; discriminate|cbn; lia]. }
  exists g. split; [exact X|]. split; [exact U|]. cbv zeta. rewrite Z.add_0_l in *.
  set (left := count is_served es - count is_returned es - Z.of_nat (length (concat g))) in *.
  assert (L0 : 0 <= left) by (destruct F as [W [_ [_ F]]]; lia).
  assert (L1 : left < 2 ^ 64).
  { assert (A := filter_length_le is_served es). assert (Y := run_length _ _ _ _ _ _ R). unfold left, count in *. lia. }
  rewrite wrap_id in B by lia. split; [exact L0|]. split; [exact B|]. unfold destroy, abort_when. rewrite B.
  destruct (left =? 0); reflexivity.
Qed.
