(** Lemmas about simple_resource: exactly what deallocate does in debug builds after every
    history, and which pointers are handed out. *)

Require Import ZArith Lia List Bool Permutation.
Require Import Verif.Outcome Verif.Machine Verif.BitsModel Verif.BitsSpec Verif.BitsProofs.
Require Import Verif.ArithModel Verif.ArithProofs.
Require Import Verif.SimpleModel Verif.SimpleSpec Verif.SimpleView Verif.SimpleProofs Verif.SimpleAllocProofs.
Require Import Verif.SimpleScanProofs Verif.SimpleOpProofs Verif.SimpleHistProofs
  Verif.SimpleAnyProofs Verif.SimpleMainProofs Verif.SimpleWalkProofs.
Import ListNotations.
Open Scope Z_scope.
Open Scope res_scope.

(** * the links back *)

Definition tidy (s : state) : Prop :=
  (forall i, 0 <= i -> 0 <= prv s i /\ (prv s i = 0 \/ prv s i < i)) /\ 0 <= freec s < 2 ^ 64.

Lemma tidy_upd : forall s i p, 0 <= p -> p < i \/ p = 0 -> tidy s -> tidy (with_prv s (upd (prv s) i p)).
Proof.
  intros s i p P Q [A B]. split; [|exact B]. intros j J. cbn [prv with_prv]. unfold upd.
  destruct (Z.eqb_spec j i); [subst; lia|auto].
Qed.
Lemma low_or : forall p i, (p <? i) || (p =? 0) = true -> p < i \/ p = 0.
Proof. intros p i H. apply orb_true_iff in H. destruct H as [H|H]; [left; apply Z.ltb_lt|right; apply Z.eqb_eq]; auto. Qed.
Lemma set_prev_tidy : forall c s i p s', set_prev c s i p = Ok s' -> 0 <= p -> tidy s -> tidy s'.
Proof.
  intros c s i p s' H P T. unfold set_prev, at_ in H. inv_ok. destruct ((p <? i) || (p =? 0)) eqn:E; inv_ok; subst; auto.
  apply tidy_upd; auto. apply low_or; auto.
Qed.
Lemma set_next_tidy : forall c s i n s', set_next c s i n = Ok s' -> tidy s -> tidy s'.
Proof.
  intros c s i n s' H T. unfold set_next, at_ in H. inv_ok. destruct ((i <? n) || (n =? 0)); inv_ok; subst; auto.
Qed.
Lemma set_prev_next_tidy : forall c s i p n s', set_prev_next c s i p n = Ok s' -> 0 <= p -> tidy s -> tidy s'.
Proof.
  intros c s i p n s' H P T. unfold set_prev_next, at_ in H. inv_ok. subst s'.
  destruct ((p <? i) || (p =? 0)) eqn:E; destruct ((i <? n) || (n =? 0)); auto;
    apply (tidy_upd s i p P (low_or _ _ E)) in T; exact T.
Qed.
Lemma bindex_nonneg : forall c x, cfg_ok c -> 0 <= bindex c x.
Proof. intros c x H. destruct (iw_spec c H). unfold bindex, wrap. apply Z.mod_pos_bound. apply Z.pow_pos_nonneg; lia. Qed.
Lemma inc_range : forall x, 0 <= inc x < 2 ^ 64.
Proof. intros x. apply wrap_bounds. Qed.
Lemma dec_range : forall x, 0 <= dec x < 2 ^ 64.
Proof. intros x. apply wrap_bounds. Qed.
Lemma tidy_inuse : forall s f, tidy s -> tidy (with_inuse s f).
Proof. intros s f H; exact H. Qed.
Lemma tidy_busyc : forall s f, tidy s -> tidy (with_busyc s f).
Proof. intros s f H; exact H. Qed.
Lemma tidy_freec : forall s f, 0 <= f < 2 ^ 64 -> tidy s -> tidy (with_freec s f).
Proof. intros s f F [H _]. split; auto. Qed.

Ltac tidy_chain :=
  repeat match goal with
  | H : set_prev _ ?s _ _ = Ok ?t, T : tidy ?s |- _ => apply set_prev_tidy in H; [|auto using bindex_nonneg|exact T]
  | H : set_next _ ?s _ _ = Ok ?t, T : tidy ?s |- _ => apply set_next_tidy in H; [|exact T]
  | H : set_prev_next _ ?s _ _ _ = Ok ?t, T : tidy ?s |- _ => apply set_prev_next_tidy in H; [|auto using bindex_nonneg|exact T]
  end.

Lemma allocate_blocks_tidy : forall c s r p size s', cfg_ok c -> allocate_blocks c s r p size = Ok s' ->
  0 <= r -> tidy s -> tidy s'.
Proof.
  intros c s r p size s' HC H R T. unfold allocate_blocks, pointer_to_block_index in H. inv_ok. subst.
  match type of H with (if _ =? ?x then _ else _) = _ => assert (F0 : 0 <= x) by (apply bindex_nonneg; auto); set (fst := x) in * end.
  destruct (r =? fst); destruct (negb _);
    unfold allocate_begin_matched, allocate_matched, allocate_not_matched, allocate_end_matched, set_in_use in H;
    inv_ok; subst.
  - apply (tidy_inuse s (upd (inuse s) r true)) in T. tidy_chain. apply tidy_busyc; auto.
  - apply tidy_busyc, tidy_freec; [apply dec_range|]. exact T.
  - apply (tidy_inuse s (upd (inuse s) fst true)) in T. tidy_chain. apply tidy_busyc, tidy_freec; [apply inc_range|auto].
  - apply (tidy_inuse s (upd (inuse s) fst true)) in T. tidy_chain. apply tidy_busyc; auto.
Qed.

Lemma merge_tidy : forall c s l r s' i, merge_if_both_not_in_use c s l r = Ok (s', i) -> 0 <= l -> tidy s ->
  tidy s' /\ (i = l \/ i = r).
Proof.
  intros c s l r s' i H L T. unfold merge_if_both_not_in_use in H.
  destruct ((l =? r) || (r =? 0)) eqn:E0; [inv_ok; subst; auto|]. inv_ok.
  destruct x; [inv_ok; subst; auto|]. inv_ok. destruct x; [inv_ok; subst; auto|]. inv_ok. subst.
  tidy_chain. split; auto. apply tidy_freec; [apply dec_range|auto].
Qed.

Lemma deallocate_blocks_tidy : forall c s i s' m, deallocate_blocks c s i = Ok (s', m) -> tidy s -> tidy s'.
Proof.
  intros c s i s' m H T. unfold deallocate_blocks, in_use, reset_in_use in H. inv_ok. subst.
  unfold merge_adjacent_blocks in H. inv_ok.
  assert (T1 : tidy (with_freec (with_busyc (with_inuse s (upd (inuse s) i false)) (dec (busyc s))) (inc (freec s)))).
  { apply tidy_freec; [apply inc_range|]. exact T. }
  unfold prev_index, at_ in E. inv_ok. cbn [freec with_busyc with_inuse busyc prv with_freec] in *.
  match goal with H : merge_if_both_not_in_use _ _ ?x i = Ok (?a, ?b), Q : _ = ?x |- _ =>
    assert (X0 : 0 <= x) by (rewrite <- Q; apply T; lia); apply merge_tidy in H; [|auto|exact T1]; destruct H as [T2 I2] end.
  apply merge_tidy in H; [tauto| |exact T2]. destruct I2; lia.
Qed.

Lemma alloc_loop_tidy : forall c size align, cfg_ok c -> forall fuel s p i s' p',
  apply_loop fuel c (alloc_pred c) (alloc_act c size align) s p i = Ok (s', p') -> tidy s -> tidy s'.
Proof.
  intros c size align HC; induction fuel as [|fuel IH]; intros s p i s' p' H T; [discriminate H|].
  cbn [apply_loop] in H. apply bind_inv in H. destruct H as [x [E H]].
  apply bind_inv in H. destruct H as [b [Eb H]].
  apply bind_inv in H. destruct H as [[[s1 a1] i1] [E1 H]].
  assert (I : 0 <= i) by (unfold next_index, at_ in E; inv_ok; lia).
  assert (T1 : tidy s1).
  { destruct b.
    - apply bind_inv in E1. destruct E1 as [[[s2 a2] b2] [E2 E3]]. injection E3 as -> -> <-.
      unfold alloc_act in E2. apply bind_inv in E2. destruct E2 as [n [_ E2]].
      apply bind_inv in E2. destruct E2 as [bp [_ E2]]. apply bind_inv in E2. destruct E2 as [sk [_ E2]].
      destruct (_ <=? _); inv_ok; subst; auto. eapply allocate_blocks_tidy; eauto.
    - apply bind_inv in E1. destruct E1 as [n [E2 E3]]. injection E3 as <- <- <-. auto. }
  destruct (i1 =? 0); [injection H as <- <-; auto|]. eapply IH; eauto.
Qed.

Lemma step_tidy : forall c fuel s o s' e, cfg_ok c -> step c fuel s o = Ok (s', e) -> tidy s -> tidy s'.
Proof.
  intros c fuel s o s' e HC H T. destruct o as [size align ans|p|]; cbn [step] in H.
  - apply bind_inv in H. destruct H as [[[s1 p] calls] [E H]]. injection H as <- <-.
    unfold allocate_impl in E. destruct (size =? 0); [inv_ok; subst; auto|]. apply cassert_inv in E. destruct E as [E _].
    apply bind_inv in E. destruct E as [[s2 q] [E1 E]].
    assert (T2 : tidy s2).
    { unfold search_buffer in E1. destruct (data s =? 0); [inv_ok; subst; auto|]. inv_ok.
      destruct (align <=? x1); [|inv_ok; subst; auto]. eapply alloc_loop_tidy; eauto. }
    destruct (_ && _); inv_ok; subst; auto.
  - apply bind_inv in H. destruct H as [[s1 calls] [E H]]. injection H as <- <-.
    unfold deallocate_impl in E. destruct (p =? 0); [inv_ok; subst; auto|].
    apply bind_inv in E. destruct E as [al [_ E]]. apply abort_inv in E. destruct E as [E _].
    destruct (_ && _).
    + apply bind_inv in E. destruct E as [i [_ E]]. apply bind_inv in E. destruct E as [[s2 m] [E1 E]].
      injection E as <- <-. eapply deallocate_blocks_tidy; eauto.
    + destruct (has_up s); [inv_ok; subst; auto|]. apply abort_inv in E. destruct E as [E _].
      apply abort_inv in E. destruct E as [E _]. inv_ok. subst. auto.
  - apply bind_inv in H. destruct H as [s1 [E H]]. injection H as <- <-.
    unfold release in E. apply bind_inv in E. destruct E as [[s2 u] [E Q]]. injection Q as ->.
    revert s u E T. generalize tt at 1. generalize 0 at 1.
    induction fuel as [|fuel IH]; intros i t s u H T; [discriminate H|].
    cbn [apply_loop] in H. apply bind_inv in H. destruct H as [x [E H]].
    apply bind_inv in H. destruct H as [b [Eb H]].
    apply bind_inv in H. destruct H as [[[s3 a1] i1] [E1 H]].
    assert (T1 : tidy s3).
    { destruct b.
      - apply bind_inv in E1. destruct E1 as [[[s2 a2] b2] [E2 E3]]. injection E3 as -> -> <-.
        unfold release_act in E2. apply bind_inv in E2. destruct E2 as [[s4 m] [E3 E4]].
        apply bind_inv in E4. destruct E4 as [n [_ E4]]. injection E4 as -> _ _. eapply deallocate_blocks_tidy; eauto.
      - apply bind_inv in E1. destruct E1 as [n [E2 E3]]. injection E3 as <- <- <-. auto. }
    destruct (i1 =? 0); [injection H as -> _; auto|]. eapply IH; eauto.
Qed.

Lemma run_tidy : forall c fuel ops s s' es, cfg_ok c -> run c fuel s ops = Ok (s', es) -> tidy s -> tidy s'.
Proof.
  intros c fuel ops; induction ops as [|o ops IH]; intros s s' es HC H T; cbn [run] in H.
  - injection H as <- <-. auto.
  - apply bind_inv in H. destruct H as [[s1 e] [E1 H]]. apply bind_inv in H. destruct H as [[s2 es'] [E2 H]].
    injection H as <- <-. eapply IH; eauto. eapply step_tidy; eauto.
Qed.

(** * busy_count() is at least the number of blocks in use *)

Definition counted (n : Z) (s : state) : Prop := 0 <= busyc s <= n /\ flags_within s (busyc s).

Lemma counted_more : forall n m s, counted n s -> n <= m -> counted m s.
Proof. intros n m s [A B] L. split; [lia|auto]. Qed.
Lemma counted_take : forall c n s s', n < 2 ^ 64 - 1 -> took c s s' -> counted n s -> counted (n + 1) s'.
Proof.
  intros c n s s' N T [A B]. assert (F := flags_take _ _ _ _ T B). destruct T as [_ [_ [E _]]].
  assert (Q : busyc s' = busyc s + 1) by (rewrite E; unfold inc; apply wrap_id; lia).
  split; [lia|]. rewrite Q. auto.
Qed.
Lemma flags_positive : forall s k i, flags_within s k -> inuse s i = true -> 0 < k.
Proof. intros s k i [U [_ [I L]]] H. apply I in H. destruct U; [destruct H|]. cbn [length] in L. lia. Qed.
Lemma counted_give : forall c n s s', n < 2 ^ 64 -> gave c s s' -> counted n s -> counted n s'.
Proof.
  intros c n s s' N G [A B]. assert (F := flags_give _ _ _ _ G B). destruct G as [_ [[i [U _]] [E _]]].
  assert (P := flags_positive _ _ _ B U).
  assert (Q : busyc s' = busyc s - 1) by (rewrite E; unfold dec; apply wrap_id; lia).
  split; [lia|]. rewrite Q. auto.
Qed.
Lemma step_counted : forall c fuel s o s' e n, cfg_ok c -> (BS c | data s) -> sane_op o ->
  step c fuel s o = Ok (s', e) -> n < 2 ^ 64 - 1 -> counted n s -> counted (n + 1) s'.
Proof.
  intros c fuel s o s' e n HC D V H N K. destruct o as [size align ans|p|]; cbn [step sane_op] in *.
  - apply bind_inv in H. destruct H as [[[s1 p] calls] [E H]]. injection H as <- <-.
    destruct V as [V1 [V2 V3]].
    destruct (allocate_any c fuel s size align ans s1 p calls HC D V2 V3 V1 E) as [[->|[T _]] _].
    + eapply counted_more; eauto; lia.
    + eapply counted_take; eauto.
  - apply bind_inv in H. destruct H as [[s1 calls] [E H]]. injection H as <- <-.
    apply counted_more with n; [|lia].
    destruct (deallocate_any _ _ _ _ _ E) as [[_ [-> _]]|[[_ [-> _]]|[_ [G _]]]]; auto.
    eapply counted_give; eauto; lia.
  - apply bind_inv in H. destruct H as [s1 [E H]]. injection H as <- <-. apply counted_more with n; [|lia].
    unfold release in E. apply bind_inv in E. destruct E as [[s2 u] [E Q]]. injection Q as ->.
    revert s u E K D. generalize tt at 1. generalize 0 at 1.
    induction fuel as [|fuel IH]; intros i t s u H K D; [discriminate H|].
    cbn [apply_loop] in H. apply bind_inv in H. destruct H as [x [E H]].
    apply bind_inv in H. destruct H as [b [Eb H]].
    apply bind_inv in H. destruct H as [[[s3 a1] i1] [E1 H]].
    assert (T1 : counted n s3 /\ data s3 = data s).
    { destruct b.
      - apply bind_inv in E1. destruct E1 as [[[s2 a2] b2] [E2 E3]]. injection E3 as -> -> <-.
        unfold release_act in E2. apply bind_inv in E2. destruct E2 as [[s4 m] [E3 E4]].
        apply bind_inv in E4. destruct E4 as [n' [_ E4]]. injection E4 as -> _ _. apply deallocate_blocks_any in E3.
        split; [eapply counted_give; eauto; lia|]. apply E3.
      - apply bind_inv in E1. destruct E1 as [n' [E2 E3]]. injection E3 as <- <- <-. auto. }
    destruct T1 as [T1 T2].
    destruct (i1 =? 0); [injection H as -> _; auto|]. eapply IH; eauto. rewrite T2. auto.
Qed.
Lemma run_counted : forall c fuel ops s s' es n, cfg_ok c -> (BS c | data s) -> Forall sane_op ops ->
  run c fuel s ops = Ok (s', es) -> n + Z.of_nat (length ops) < 2 ^ 64 -> counted n s ->
  counted (n + Z.of_nat (length ops)) s'.
Proof.
  intros c fuel ops; induction ops as [|o ops IH]; intros s s' es n HC D V H N K; cbn [run] in H.
  - injection H as <- <-. eapply counted_more; eauto. lia.
  - apply bind_inv in H. destruct H as [[s1 e] [E1 H]]. apply bind_inv in H. destruct H as [[s2 es'] [E2 H]].
    injection H as <- <-. inversion V as [|? ? V1 V2]; subst. cbn [length] in *.
    assert (K1 := step_counted c fuel s o s1 e n HC D V1 E1 ltac:(lia) K).
    destruct (step_any c fuel s o s1 e HC D V1 E1) as [[[P1 _] _] _].
    replace (n + Z.of_nat (S (length ops))) with (n + 1 + Z.of_nat (length ops)) by lia.
    apply (IH s1 s2 es' (n + 1)); auto; [rewrite P1; auto|lia].
Qed.

(** * deallocate *)

Lemma merge_two : forall c s l r, 0 < bc s <= MB c -> links_forward s ->
  0 <= l < r -> r < bc s -> inuse s l = false -> inuse s r = false -> 0 <= freec s < 2 ^ 64 ->
  (freec s = 0 -> DBG c = true -> merge_if_both_not_in_use c s l r = Abort) /\
  (0 < freec s -> exists s1, merge_if_both_not_in_use c s l r = Ok (s1, l) /\ inuse s1 = inuse s /\
    busyc s1 = busyc s /\ freec s1 = freec s - 1 /\ same_place s s1 /\
    (forall j, nxt s1 j = if j =? l then nxt s r else nxt s j) /\
    (forall j, j <> 0 -> prv s1 j = if j =? nxt s r then l else prv s j)).
Proof.
  intros c s l r B L LR R Ul Ur F.
  assert (N : 0 <= nxt s r < bc s /\ (l < nxt s r \/ nxt s r = 0)) by (destruct (L r); lia).
  destruct N as [N1 N2].
  unfold merge_if_both_not_in_use. rewrite eqb_false by lia. rewrite (eqb_false r) by lia. cbn [orb].
  rewrite ltb_true by lia. rewrite cassert_true.
  rewrite !in_use_ok by lia. cbn [bind]. rewrite Ul, andb_false_r. cbn [bind negb orb]. rewrite cassert_true, Ur.
  split; intros F0.
  - intros DB. rewrite F0, DB. reflexivity.
  - rewrite ltb_true by lia. rewrite cassert_true, next_index_ok by lia. cbn [bind].
    unfold set_prev. rewrite ltb_true by lia. rewrite cassert_true.
    assert (P : exists s1, (if (l <? nxt s r) || (l =? 0) then at_ c s (nxt s r) (Ok (with_prv s (upd (prv s) (nxt s r) l)))
        else Ok s) = Ok s1 /\ inuse s1 = inuse s /\ busyc s1 = busyc s /\ freec s1 = freec s /\ same_place s s1 /\ nxt s1 = nxt s /\
        (forall j, j <> 0 -> prv s1 j = if j =? nxt s r then l else prv s j)).
    { destruct ((l <? nxt s r) || (l =? 0)) eqn:E.
      - rewrite at_ok by lia. eexists. split; [reflexivity|]. cbn [inuse busyc freec with_prv nxt prv].
        do 3 (split; [reflexivity|]). split; [repeat split|]. split; [reflexivity|]. intros j J. reflexivity.
      - exists s. do 4 (split; [reflexivity|]). split; [apply same_place_refl|]. split; [reflexivity|].
        intros j J. apply orb_false_iff in E. destruct E as [E _]. apply Z.ltb_ge in E.
        rewrite eqb_false by lia. reflexivity. }
    destruct P as [s1 [-> [P1 [P2 [P3 [P4 [P5 P6]]]]]]]. cbn [bind].
    assert (B1 : bc s1 = bc s) by apply P4.
    rewrite next_index_ok by lia. cbn [bind]. rewrite P5. unfold set_next. rewrite B1, ltb_true by lia. rewrite cassert_true.
    assert (E : (l <? nxt s r) || (nxt s r =? 0) = true).
    { apply orb_true_iff. destruct N2; [left; apply Z.ltb_lt|right; apply Z.eqb_eq]; lia. }
    rewrite E, at_ok by lia. cbn [bind]. eexists. split; [reflexivity|]. cbn [inuse busyc freec with_nxt with_freec nxt prv].
    split; [auto|]. split; [auto|]. split; [rewrite P3; unfold dec; apply wrap_id; lia|].
    split; [destruct P4 as [Q1 [Q2 Q3]]; repeat split; auto|]. split; [|auto].
    intros j. unfold upd. rewrite P5. reflexivity.
Qed.

Section Free.
  Variables (c : cfg) (s : state) (n i : Z).
  Hypothesis HC : cfg_ok c.
  Hypothesis DB : DBG c = true.
  Hypothesis G : geometry c s.
  Hypothesis LF : links_forward s.
  Hypothesis T : tidy s.
  Hypothesis K : counted n s.
  Hypothesis N : n < 2 ^ 64.
  Hypothesis I : 0 <= i < bc s.

  Notation before := (gap_before (prv s) (inuse s) i).
  Notation after := (gap_after (nxt s) (inuse s) i).
  Notation start := (joined (prv s) (inuse s) i).
  Definition one (b : bool) : Z := if b then 1 else 0.

  Lemma free_not_used : inuse s i = false -> deallocate_blocks c s i = Abort.
  Proof.
    intros U. assert (GB := g_bc _ _ G). unfold deallocate_blocks. rewrite ltb_true by lia. rewrite cassert_true.
    rewrite in_use_ok by lia. cbn [bind]. rewrite U. reflexivity.
  Qed.

  Lemma free_used : inuse s i = true -> exists s0, 
    deallocate_blocks c s i = (if freec s =? 2 ^ 64 - 1 then Abort else merge_adjacent_blocks c s0 i) /\
    (freec s <> 2 ^ 64 - 1 -> freec s0 = freec s + 1) /\ inuse s0 = upd (inuse s) i false /\ busyc s0 = busyc s - 1 /\
    nxt s0 = nxt s /\ prv s0 = prv s /\ same_place s s0.
  Proof.
    intros U. assert (GB := g_bc _ _ G). destruct T as [_ F]. destruct K as [K1 K2].
    assert (B0 := flags_positive _ _ _ K2 U).
    unfold deallocate_blocks. rewrite ltb_true by lia. rewrite cassert_true.
    rewrite in_use_ok by lia. cbn [bind]. rewrite U. cbn [negb abort_when]. rewrite reset_in_use_ok by lia. cbn [bind].
    cbn [busyc with_inuse]. rewrite ltb_true by lia. rewrite cassert_true. cbv zeta. cbn [freec with_busyc with_inuse].
    eexists. split; [|split; [|split; [|split; [|split; [|split]]]]].
    - destruct (Z.eqb_spec (freec s) (2 ^ 64 - 1)) as [E|E].
      + rewrite ltb_false by lia. rewrite DB. reflexivity.
      + rewrite ltb_true by lia. rewrite cassert_true. reflexivity.
    - intros E. cbn [freec with_freec]. unfold inc. apply wrap_id. lia.
    - reflexivity.
    - cbn [busyc with_freec with_busyc]. unfold dec. apply wrap_id. lia.
    - reflexivity.
    - reflexivity.
    - repeat split.
  Qed.

  Lemma free_exact :
    (inuse s i = true -> freec s <> 2 ^ 64 - 1 -> (freec s = 0 -> before && after = false) ->
     exists s', deallocate_blocks c s i = Ok (s', start) /\ same_place s s' /\
       (forall j, inuse s' j = if j =? i then false else inuse s j) /\ busyc s' = busyc s - 1 /\
       freec s' = freec s + 1 - one before - one after /\
       (forall j, nxt s' j = if j =? start then (if after then nxt s (nxt s i) else nxt s i) else nxt s j) /\
       (forall j, j <> 0 -> prv s' j =
          if after && (j =? nxt s (nxt s i)) then start
          else if before && (j =? nxt s i) then prv s i else prv s j)) /\
    (inuse s i = false \/ freec s = 2 ^ 64 - 1 \/ freec s = 0 /\ before && after = true ->
     deallocate_blocks c s i = Abort).
  Proof.
    assert (GB := g_bc _ _ G). assert (T' := T). destruct T' as [TP TF].
    destruct (inuse s i) eqn:U.
    2:{ split; [discriminate|]. intros _. apply free_not_used; auto. }
    destruct (free_used U) as [s0 [E [E1 [E2 [E3 [E4 [E5 E6]]]]]]].
    destruct (Z.eqb_spec (freec s) (2 ^ 64 - 1)) as [F|F].
    { split; [contradiction|]. intros _. exact E. }
    specialize (E1 F). assert (B0 : bc s0 = bc s) by apply E6.
    assert (P0 := TP i ltac:(lia)).
    assert (NI : nxt s i = 0 \/ i < nxt s i < bc s) by apply LF.
    assert (L0 : links_forward s0) by (intros j; rewrite E4, B0; apply LF).
    unfold merge_adjacent_blocks in E. rewrite prev_index_ok in E by lia. cbn [bind] in E.
    rewrite DB in E. rewrite in_use_ok in E by lia. cbn [bind] in E.
    rewrite E2 in E. rewrite upd_same in E. cbn [negb cassert] in E. rewrite E5 in E.
    assert (UP : forall j, j <> i -> inuse s0 j = inuse s j) by (intros j J; rewrite E2; apply upd_other; auto).
    assert (UI : inuse s0 i = false) by (rewrite E2; apply upd_same).
    (* the first merge *)
    assert (M1 : exists s1, merge_if_both_not_in_use c s0 (prv s i) i = Ok (s1, start) /\ same_place s s1 /\
      inuse s1 = inuse s0 /\ busyc s1 = busyc s - 1 /\ freec s1 = freec s + 1 - one before /\
      (forall j, nxt s1 j = if j =? start then nxt s i else nxt s j) /\
      (forall j, j <> 0 -> prv s1 j = if before && (j =? nxt s i) then prv s i else prv s j)).
    { unfold joined, gap_before. destruct (Z.eqb_spec i 0) as [I0|I0]; cbn [negb andb].
      - exists s0. unfold merge_if_both_not_in_use. assert (PI : prv s i = i) by lia. rewrite PI, Z.eqb_refl. cbn [orb].
        split; [reflexivity|]. split; [exact E6|]. split; [reflexivity|]. split; [exact E3|]. split; [unfold one; lia|].
        rewrite E4, E5. split; intros j; [|reflexivity]. destruct (Z.eqb_spec j i); [subst; reflexivity|reflexivity].
      - destruct (inuse s (prv s i)) eqn:UL; cbn [negb].
        + exists s0. unfold merge_if_both_not_in_use. rewrite eqb_false by lia. rewrite (eqb_false i 0) by lia. cbn [orb].
          rewrite ltb_true by lia. rewrite cassert_true. rewrite in_use_ok by lia. cbn [bind].
          rewrite UP by lia. rewrite UL, DB. cbn [andb]. rewrite in_use_ok by lia. cbn [bind]. rewrite UI. cbn [negb orb cassert].
          split; [reflexivity|]. split; [exact E6|]. split; [reflexivity|]. split; [exact E3|]. split; [unfold one; lia|].
          rewrite E4, E5. split; intros j; [|reflexivity]. destruct (Z.eqb_spec j i); [subst; reflexivity|reflexivity].
        + destruct (merge_two c s0 (prv s i) i) as [_ X]; try lia; auto; [rewrite UP by lia; auto|].
          destruct X as [s1 [X1 [X2 [X3 [X4 [X5 [X6 X7]]]]]]]; [lia|]. exists s1. split; [exact X1|].
          split; [eapply same_place_trans; eauto|]. split; [exact X2|]. split; [lia|]. split; [unfold one; lia|].
          split; [intros j; rewrite X6, E4; reflexivity|]. intros j J. rewrite X7, E4, E5 by auto. reflexivity. }
    destruct M1 as [s1 [M1 [SP1 [U1 [B1 [F1 [N1 P1]]]]]]]. rewrite M1 in E. cbn [bind] in E.
    assert (BC1 : bc s1 = bc s) by apply SP1.
    rewrite next_index_ok in E by lia. cbn [bind] in E.
    assert (JI : 0 <= start <= i) by (unfold joined; destruct before; lia).
    assert (NX : nxt s1 i = nxt s i) by (rewrite N1; destruct (Z.eqb_spec i start); reflexivity).
    rewrite NX in E.
    assert (UJ : inuse s1 start = false).
    { rewrite U1. unfold joined. destruct before eqn:GBf; auto. unfold gap_before in GBf.
      apply andb_true_iff in GBf. destruct GBf as [Q1 Q2]. apply negb_true_iff in Q1, Q2. apply Z.eqb_neq in Q1.
      rewrite UP by lia. exact Q2. }
    assert (L1 : links_forward s1).
    { intros j. rewrite N1, BC1. destruct (Z.eqb_spec j start); [subst j; lia|apply LF]. }
    assert (GA : (nxt s i = 0 \/ inuse s (nxt s i) = true) /\ after = false \/
                 (nxt s i <> 0 /\ inuse s (nxt s i) = false) /\ after = true).
    { unfold gap_after. destruct (Z.eqb_spec (nxt s i) 0); cbn [negb andb]; auto.
      destruct (inuse s (nxt s i)); cbn [negb]; auto. }
    destruct GA as [[GA GA']|[[GA1 GA2] GA']]; rewrite GA' in *.
    - assert (X : merge_if_both_not_in_use c s1 start (nxt s i) = Ok (s1, start)).
      { unfold merge_if_both_not_in_use. destruct (Z.eqb_spec (nxt s i) 0) as [Z0|Z0]; [rewrite orb_true_r; reflexivity|].
        destruct GA as [GA|GA]; [contradiction|].
        rewrite eqb_false by lia. cbn [orb]. rewrite ltb_true by lia. rewrite cassert_true.
        rewrite !in_use_ok by lia. cbn [bind]. rewrite UJ, andb_false_r. cbn [bind negb orb]. rewrite cassert_true.
        rewrite U1, UP by lia. rewrite GA. reflexivity. }
      rewrite X in E. split.
      + intros _ _ _. exists s1. split; [exact E|]. split; [auto|]. split.
        { intros j. rewrite U1, E2. unfold upd. destruct (j =? i); auto. }
        split; [lia|]. split; [unfold one in *; lia|]. split; [auto|]. intros j J. cbn [andb]. auto.
      + rewrite andb_false_r. intros [Q|[Q|[_ Q]]]; try discriminate Q; contradiction.
    - assert (UN : inuse s1 (nxt s i) = false) by (rewrite U1, UP by lia; auto).
      assert (FR : 0 <= freec s1 < 2 ^ 64) by (rewrite F1; unfold one; destruct before; lia).
      destruct (merge_two c s1 start (nxt s i)) as [XA XO]; try lia; auto.
      assert (ND : nxt s1 (nxt s i) = nxt s (nxt s i)) by (rewrite N1, eqb_false by lia; reflexivity).
      rewrite andb_true_r. split.
      + intros _ _ C. destruct XO as [s2 [X1 [X2 [X3 [X4 [X5 [X6 X7]]]]]]].
        { rewrite F1. unfold one. destruct before; [|lia]. destruct (Z.eq_dec (freec s) 0) as [Q|Q]; [|lia].
          specialize (C Q). discriminate C. }
        exists s2. rewrite X1 in E. split; [exact E|]. split; [eapply same_place_trans; eauto|]. split.
        { intros j. rewrite X2, U1, E2. unfold upd. destruct (j =? i); auto. }
        split; [lia|]. split; [unfold one in *; lia|]. split.
        * intros j. rewrite X6, ND, N1. destruct (Z.eqb_spec j start); reflexivity.
        * intros j J. rewrite X7, ND by auto. cbn [andb]. rewrite P1 by auto. reflexivity.
      + intros [Q|[Q|[Q1 Q2]]]; [discriminate Q|contradiction|].
        rewrite XA in E; auto. rewrite F1, Q1, Q2. reflexivity.
  Qed.
End Free.

(** * whole calls *)

Lemma start_tidy : forall c buffer size up s, cfg_ok c -> buffer_ok buffer size -> construct c buffer size up = Ok s ->
  tidy s /\ counted 0 s.
Proof.
  intros c buffer size up s HC HB E. destruct HB as [B1 [B2 B3]].
  destruct (construct_value c buffer size up HC B1 B2 B3) as [s2 [E2 [H1 [H2 [H3 [H4 [H5 [H6 _]]]]]]]].
  rewrite E in E2. injection E2 as <-.
  unfold construct in E. apply bind_inv in E. destruct E as [[o k] [_ E]]. injection E as <-.
  cbn [prv freec busyc inuse tidy] in *. split.
  - split; [intros i I; cbn; lia|cbn; lia].
  - split; [cbn; lia|]. exists []. split; [constructor|]. split; [intros i X; discriminate X|cbn; lia].
Qed.

Lemma debug_tidy : forall c buffer size up s fuel ops s' es, made c buffer size up s -> 
  Forall sane_op ops -> Z.of_nat (length ops) < 2 ^ 64 -> run c fuel s ops = Ok (s', es) ->
  tidy s' /\ counted (Z.of_nat (length ops)) s'.
Proof.
  intros c buffer size up s fuel ops s' es M V L R.
  destruct (made_wf _ _ _ _ _ M) as [HC [_ [_ [_ [_ [_ [_ [_ [D _]]]]]]]]].
  destruct (start_tidy c buffer size up s HC (made_buffer _ _ _ _ _ M) (made_from _ _ _ _ _ M)) as [T K].
  split; [eapply run_tidy; eauto|].
  replace (Z.of_nat (length ops)) with (0 + Z.of_nat (length ops)) by lia. eapply run_counted; eauto.
Qed.

Lemma deallocate_block : forall c s i, cfg_ok c -> geometry c s -> 0 <= i < bc s ->
  deallocate_impl c s (data s + i * BS c) = ' (s', _) <- deallocate_blocks c s i;; Ok (s', []).
Proof.
  intros c s i HC G I. assert (P := bs_pos c HC). assert (GB := g_bc _ _ G). assert (GE := g_end _ _ G).
  assert (GD := g_data _ _ G). assert (GA := g_aligned _ _ G). assert (IB : 0 <= i * BS c < bc s * BS c) by nia.
  unfold deallocate_impl. rewrite eqb_false by lia. rewrite aligned_bs by (auto; lia). cbn [bind].
  assert (A : (data s + i * BS c) mod BS c = 0).
  { apply Z.mod_divide; [lia|]. apply Z.divide_add_r; auto. apply Z.divide_factor_r. }
  rewrite A. cbn [Z.eqb negb abort_when]. unfold size_.
  rewrite (wrap_id 64 (BS c * bc s)) by lia. rewrite (wrap_id 64 (data s + BS c * bc s)) by lia.
  rewrite leb_true, ltb_true by lia. cbn [andb].
  rewrite ptr_index by (auto; lia). cbn [bind]. rewrite Z.div_mul by lia. reflexivity.
Qed.

Lemma deallocate_exact : forall c buffer size up s fuel ops s' es i, made c buffer size up s -> DBG c = true ->
  Forall sane_op ops -> Z.of_nat (length ops) < 2 ^ 64 -> run c fuel s ops = Ok (s', es) -> 0 <= i < bc s ->
  let before := gap_before (prv s') (inuse s') i in
  let after := gap_after (nxt s') (inuse s') i in
  let first := joined (prv s') (inuse s') i in
  (inuse s' i = true -> freec s' <> 2 ^ 64 - 1 -> (freec s' = 0 -> before && after = false) ->
   exists s2, deallocate_impl c s' (data s + i * BS c) = Ok (s2, []) /\ same_place s s2 /\
     (forall j, inuse s2 j = if j =? i then false else inuse s' j) /\ busyc s2 = busyc s' - 1 /\
     freec s2 = freec s' + 1 - (if before then 1 else 0) - (if after then 1 else 0) /\
     (forall j, nxt s2 j = if j =? first then (if after then nxt s' (nxt s' i) else nxt s' i) else nxt s' j) /\
     (forall j, j <> 0 -> prv s2 j = if after && (j =? nxt s' (nxt s' i)) then first
                                     else if before && (j =? nxt s' i) then prv s' i else prv s' j)) /\
  (inuse s' i = false \/ freec s' = 2 ^ 64 - 1 \/ freec s' = 0 /\ before && after = true ->
   deallocate_impl c s' (data s + i * BS c) = Abort).
Proof.
  intros c buffer size up s fuel ops s' es i M DB V L R I before after first.
  destruct (debug_state _ _ _ _ _ _ _ _ _ M DB V R) as [HC [G [LF [SP _]]]].
  destruct (debug_tidy _ _ _ _ _ _ _ _ _ M V L R) as [T K].
  assert (SP' := SP). destruct SP' as [X [Y _]]. rewrite <- X, <- Y in *.
  destruct (free_exact c s' (Z.of_nat (length ops)) i DB G LF T K L I) as [A B].
  rewrite deallocate_block by auto. split.
  - intros U F Q. destruct (A U F Q) as [s2 [E [E1 [E2 [E3 [E4 [E5 E6]]]]]]]. exists s2. rewrite E. cbn [bind].
    split; [reflexivity|]. split; [eapply same_place_trans; eauto|]. auto 10.
  - intros Q. rewrite B by auto. reflexivity.
Qed.

Lemma deallocate_inside_misaligned : forall c s p, cfg_ok c -> 0 < p < 2 ^ 64 -> p mod BS c <> 0 ->
  deallocate_impl c s p = Abort.
Proof.
  intros c s p HC P Q. unfold deallocate_impl. rewrite eqb_false by lia. rewrite aligned_bs by (auto; lia). cbn [bind].
  apply Z.eqb_neq in Q. rewrite Q. reflexivity.
Qed.

(** * alignments up to BlockSize: a pointer is handed out only while its block is not in use *)

Lemma small_take : forall c size align, cfg_ok c -> DBG c = true -> pow2 align -> align <= BS c ->
  forall fuel s p i s' p', geometry c s -> links_forward s ->
  apply_loop fuel c (alloc_pred c) (alloc_act c size align) s p i = Ok (s', p') ->
  (s' = s /\ p' = p) \/
  exists k, 0 <= k < bc s /\ p' = data s + k * BS c /\ inuse s k = false /\ inuse s' = upd (inuse s) k true.
Proof.
  intros c size align HC DB Pa La; induction fuel as [|fuel IH]; intros s p i s' p' G LF H; [discriminate H|].
  assert (P := bs_pos c HC). assert (GB := g_bc _ _ G). assert (GE := g_end _ _ G).
  assert (GD := g_data _ _ G). assert (GA := g_aligned _ _ G).
  cbn [apply_loop] in H. apply bind_inv in H. destruct H as [x [E H]].
  unfold next_index, at_ in E. apply cassert_inv in E. destruct E as [E C]. apply in_array_inv in E. destruct E as [_ C0].
  specialize (C DB). apply Z.ltb_lt in C.
  apply bind_inv in H. destruct H as [b [Eb H]].
  apply bind_inv in H. destruct H as [[[s1 a1] i1] [E1 H]].
  destruct b.
  - apply bind_inv in E1. destruct E1 as [[[s2 a2] b2] [E2 E3]]. injection E3 as -> -> <-.
    unfold alloc_pred in Eb. rewrite in_use_ok in Eb by lia. cbn [bind] in Eb. injection Eb as Eb. apply negb_true_iff in Eb.
    assert (IB : 0 <= i * BS c < bc s * BS c) by nia.
    assert (AJ : exists j, 0 <= j < 64 /\ align = 2 ^ j).
    { destruct Pa as [j [Hj Ea]]. exists j. split; auto. split; auto.
      apply Z.pow_lt_mono_r_iff with (a := 2); try lia. assert (X := bs_range _ HC). lia. }
    destruct AJ as [j [Hj Ea]].
    assert (DV : (align | data s + i * BS c)).
    { assert (X : (align | BS c)).
      { destruct (bs_pow2 _ HC) as [m [Hm Em]]. rewrite Ea, Em in *. apply pow2_divide. split; [lia|].
        apply Z.pow_le_mono_r_iff with (a := 2); lia. }
      apply Z.divide_add_r; [eapply Z.divide_trans; eauto|]. apply Z.divide_mul_r; auto. }
    unfold alloc_act in E2. apply bind_inv in E2. destruct E2 as [n [_ E2]].
    rewrite index_pointer in E2 by (auto; lia). cbn [bind] in E2.
    rewrite Ea in E2. rewrite skip_value in E2 by lia. cbn [bind] in E2. rewrite <- Ea in E2.
    assert (SK : (- (data s + i * BS c)) mod align = 0).
    { apply Z.mod_divide; [lia|]. apply Z.divide_opp_r. auto. }
    rewrite SK, Z.add_0_l, Z.add_0_r in E2. rewrite (wrap_id 64 (data s + i * BS c)) in E2 by lia.
    destruct (wrap 64 size <=? n).
    + inv_ok. subst. cbn [of_bool Z.eqb] in H. injection H as <- <-. right. exists i. split; [lia|]. split; [reflexivity|]. split; [auto|].
      unfold allocate_blocks in E. rewrite ptr_index in E by (auto; lia). cbn [bind] in E. rewrite Z.div_mul in E by lia.
      apply bind_inv in E. destruct E as [last [_ E]]. apply bind_inv in E. destruct E as [nx [_ E]].
      rewrite Z.eqb_refl in E.
      destruct (negb _); unfold allocate_begin_matched, allocate_matched, set_in_use in E; inv_ok; subst; [|reflexivity].
      quiet_chain. repeat match goal with X : quiet _ _ _ |- _ => destruct X as [_ [X _]] end.
      cbn [inuse with_busyc with_inuse] in *. congruence.
    + apply bind_inv in E2. destruct E2 as [m [_ E2]]. injection E2 as <- <- <-.
      destruct (negb (m =? 0)); cbn [of_bool Z.eqb] in H; [|injection H as <- <-; auto].
      apply (IH s p 1 s' p'); auto.
  - apply bind_inv in E1. destruct E1 as [n [E2 E3]]. injection E3 as <- <- <-.
    destruct (n =? 0); [injection H as <- <-; auto|]. apply (IH s p n); auto.
Qed.

Lemma gave_flag : forall c s i s' m, deallocate_blocks c s i = Ok (s', m) -> inuse s' = upd (inuse s) i false.
Proof.
  intros c s i s' m H. unfold deallocate_blocks, in_use, reset_in_use in H. inv_ok. subst.
  unfold merge_adjacent_blocks in H. inv_ok.
  repeat match goal with H : merge_if_both_not_in_use _ _ _ _ = Ok _ |- _ => apply merge_quiet in H end.
  repeat match goal with X : quiet _ _ _ |- _ => destruct X as [_ [X _]] end.
  cbn [inuse with_busyc with_inuse with_freec] in *. congruence.
Qed.

(** the live pointers are those of different blocks in use *)
Definition flagged (c : cfg) (s : state) (l : list alloc) : Prop :=
  NoDup (map fst l) /\ forall p, In p (map fst l) -> exists k, 0 <= k < bc s /\ p = data s + k * BS c /\ inuse s k = true.

Lemma remove_in : forall p q l, In q (map fst (remove_ptr p l)) -> In q (map fst l).
Proof.
  intros p q l; induction l as [|a l IH]; cbn [remove_ptr map]; auto. destruct (fst a =? p); [right; auto|].
  cbn [map]. intros [H|H]; [left; auto|right; auto].
Qed.
Lemma remove_nodup : forall p l, NoDup (map fst l) -> NoDup (map fst (remove_ptr p l)) /\ ~ In p (map fst (remove_ptr p l)).
Proof.
  intros p l; induction l as [|a l IH]; cbn [remove_ptr map]; intros H; [split; auto|].
  inversion H as [|? ? H1 H2]; subst. destruct (Z.eqb_spec (fst a) p) as [E|E]; [subst p; auto|].
  destruct (IH H2) as [I1 I2]. cbn [map]. split.
  - constructor; auto. intros X. apply H1. eapply remove_in. eauto.
  - intros [X|X]; auto.
Qed.

Lemma step_flagged : forall c fuel s o s' e l, cfg_ok c -> DBG c = true -> geometry c s -> links_forward s ->
  sane_op o -> small_alignment (BS c) o -> step c fuel s o = Ok (s', e) -> flagged c s l -> polite l [e] ->
  flagged c s' (live_after l e).
Proof.
  intros c fuel s o s' e l HC DB G LF V A H F PL. assert (P := bs_pos c HC).
  assert (GE := g_end _ _ G). assert (GD := g_data _ _ G). assert (GB := g_bc _ _ G). assert (F' := F). destruct F' as [F1 F2].
  destruct o as [size align ans|p|]; cbn [step sane_op small_alignment] in *.
  - apply bind_inv in H. destruct H as [[[s1 p] calls] [E H]]. injection H as <- <-. destruct V as [V1 [V2 V3]].
    unfold allocate_impl in E. destruct (size =? 0).
    { inv_ok. subst. cbn [live_after Z.eqb]. auto. }
    apply cassert_inv in E. destruct E as [E _]. apply bind_inv in E. destruct E as [[s2 q] [E1 E]].
    assert (Q : (s2 = s /\ q = 0) \/
      exists k, 0 <= k < bc s /\ q = data s + k * BS c /\ inuse s k = false /\ inuse s2 = upd (inuse s) k true /\ same_place s s2).
    { assert (SA := search_any c fuel s size align s2 q HC (g_aligned _ _ G) V2 V3 E1).
      unfold search_buffer in E1. rewrite eqb_false in E1 by lia. inv_ok.
      destruct (align <=? x1); [|inv_ok; subst; auto].
      destruct (small_take c size align HC DB V2 A fuel s 0 0 s2 q G LF E1) as [Q|[k [Q1 [Q2 [Q3 Q4]]]]]; auto.
      right. exists k. do 4 (split; [auto|]). destruct SA as [[-> _]|[[SP _] _]]; [apply same_place_refl|auto]. }
    destruct Q as [[-> ->]|[k [Q1 [Q2 [Q3 [Q4 Q5]]]]]].
    + cbn [Z.eqb andb] in E. destruct (has_up s); inv_ok; subst; cbn [live_after Z.eqb]; auto.
    + assert (QB : 0 <= k * BS c) by nia. rewrite eqb_false in E by lia. cbn [andb] in E. inv_ok. subst s2 q calls.
      cbn [live_after]. rewrite eqb_false by lia. destruct Q5 as [R1 [R2 R3]]. split.
      * cbn [map fst]. constructor; auto. intros X. destruct (F2 _ X) as [k' [K1 [K2 K3]]].
        assert (k' = k) by nia. subst. congruence.
      * cbn [map fst]. rewrite R1, R2, Q4. intros r [X|X].
        -- subst r. exists k. split; auto. split; [lia|]. apply upd_same.
        -- destruct (F2 _ X) as [k' [K1 [K2 K3]]]. exists k'. split; auto. split; auto.
           unfold upd. destruct (k' =? k); auto.
  - apply bind_inv in H. destruct H as [[s1 calls] [E H]]. injection H as <- <-. cbn [polite] in PL.
    assert (E' := E). destruct (deallocate_any _ _ _ _ _ E) as [[-> [-> ->]]|[[P0 [-> [-> U]]]|[P0 [GV ->]]]].
    + cbn [live_after]. assert (X : remove_ptr 0 l = l).
      { clear E E' PL F. induction l as [|a l IH]; auto. cbn [remove_ptr]. destruct (Z.eqb_spec (fst a) 0) as [Q|Q].
        - exfalso. destruct (F2 (fst a)) as [k [K1 [K2 _]]]; [left; reflexivity|]. nia.
        - f_equal. apply IH; [inversion F1; auto|]. intros q Q'. apply F2. right. auto. }
      rewrite X. auto.
    + cbn [live_after]. auto.
    + cbn [live_after]. destruct PL as [[PL|PL] _]; [contradiction|].
      destruct (F2 _ PL) as [k [K1 [K2 K3]]]. rewrite K2 in E. rewrite deallocate_block in E by auto.
      apply bind_inv in E. destruct E as [[s2 m] [E1 E2]]. injection E2 as ->.
      apply gave_flag in E1. destruct GV as [[R1 [R2 R3]] _].
      destruct (remove_nodup p l F1) as [N1 N2]. split; auto. intros q Q. rewrite R1, R2, E1.
      destruct (F2 q (remove_in _ _ _ Q)) as [k' [K1' [K2' K3']]]. exists k'. split; auto. split; auto.
      rewrite upd_other; auto. intros X. subst k'. apply N2. assert (QP : q = p) by congruence. rewrite <- QP at 1. exact Q.
  - apply bind_inv in H. destruct H as [s1 [E H]]. injection H as <- <-. cbn [live_after]. split; [constructor|]. intros p [].
Qed.

Lemma run_flagged : forall c fuel ops s s' es l, cfg_ok c -> DBG c = true -> geometry c s -> links_forward s ->
  Forall sane_op ops -> Forall (small_alignment (BS c)) ops -> run c fuel s ops = Ok (s', es) -> flagged c s l ->
  polite l es -> flagged c s' (fold_left live_after es l).
Proof.
  intros c fuel ops; induction ops as [|o ops IH]; intros s s' es l HC DB G LF V A H F PL; cbn [run] in H.
  - injection H as <- <-. auto.
  - apply bind_inv in H. destruct H as [[s1 e] [E1 H]]. apply bind_inv in H. destruct H as [[s2 es'] [E2 H]].
    injection H as <- <-. inversion V as [|? ? V1 V2]; subst. inversion A as [|? ? A1 A2]; subst.
    cbn [polite] in PL. destruct PL as [PL1 PL2]. cbn [fold_left].
    destruct (step_any c fuel s o s1 e HC (g_aligned _ _ G) V1 E1) as [[SP K] _].
    apply (IH s1 s2 es'); auto; [eapply kept_geometry; eauto|].
    eapply step_flagged; eauto. cbn [polite]. auto.
Qed.

Lemma distinct : forall c up s ops s' es, history c up s ops s' es -> DBG c = true ->
  Forall (small_alignment (BS c)) ops ->
  NoDup (map fst (live es)) /\
  forall p, In p (map fst (live es)) -> exists i, 0 <= i < bc s /\ p = data s + i * BS c /\ inuse s' i = true.
Proof.
  intros c up s ops s' es [buffer [size [fuel [M [V [R PL]]]]]] DB A.
  destruct (made_wf _ _ _ _ _ M) as [HC [W _]].
  destruct (construct_aligned c buffer size up s HC (made_buffer _ _ _ _ _ M) (made_from _ _ _ _ _ M)) as [D [LF _]].
  destruct (run_any c fuel ops s s' es HC D V (fun _ => LF) R) as [[[X [Y _]] _] _].
  assert (F : flagged c s' (live es)).
  { unfold live. apply (run_flagged c fuel ops s s' es []); auto; [apply (wf_geom _ _ _ W)|]. split; [constructor|]. intros p []. }
  destruct F as [F1 F2]. split; auto. rewrite <- X, <- Y. auto.
Qed.

Lemma live_back : forall c up s ops s' es p, history c up s ops s' es -> DBG c = true ->
  Forall (small_alignment (BS c)) ops -> Z.of_nat (length ops) < 2 ^ 64 -> In p (map fst (live es)) ->
  exists i, p = data s + i * BS c /\
  ((freec s' <> 2 ^ 64 - 1 /\ (freec s' = 0 -> gap_before (prv s') (inuse s') i && gap_after (nxt s') (inuse s') i = false) ->
    exists s2, deallocate_impl c s' p = Ok (s2, [])) /\
   (freec s' = 2 ^ 64 - 1 \/ freec s' = 0 /\ gap_before (prv s') (inuse s') i && gap_after (nxt s') (inuse s') i = true ->
    deallocate_impl c s' p = Abort)).
Proof.
  intros c up s ops s' es p H DB A L IN.
  destruct (distinct _ _ _ _ _ _ H DB A) as [_ F]. destruct (F p IN) as [i [I [-> U]]].
  destruct H as [buffer [size [fuel [M [V [R PL]]]]]].
  destruct (deallocate_exact c buffer size up s fuel ops s' es i M DB V L R I) as [X Y].
  exists i. split; auto. split.
  - intros [Q1 Q2]. destruct (X U Q1 Q2) as [s2 [E _]]. eauto.
  - intros Q. apply Y. tauto.
Qed.
