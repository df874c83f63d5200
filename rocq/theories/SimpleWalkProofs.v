(** Lemmas about simple_resource: exactly what allocate does in every state in which the
    links lead forward, consistent or not.  In debug builds these are all states. *)

Require Import ZArith Lia List Bool Permutation Sorted.
Require Import Verif.Outcome Verif.Machine Verif.BitsModel Verif.BitsSpec Verif.BitsProofs.
Require Import Verif.ArithModel Verif.ArithProofs.
Require Import Verif.SimpleModel Verif.SimpleSpec Verif.SimpleView Verif.SimpleProofs Verif.SimpleAllocProofs.
Require Import Verif.SimpleScanProofs Verif.SimpleOpProofs Verif.SimpleHistProofs Verif.SimpleReleaseProofs
  Verif.SimpleAnyProofs Verif.SimpleMainProofs Verif.SimpleExactProofs Verif.SimpleAstrayProofs.
Import ListNotations.
Open Scope Z_scope.
Open Scope res_scope.

Section Walk.
  Variables (c : cfg) (s : state) (size align : Z).
  Hypothesis HC : cfg_ok c.
  Hypothesis HR : request size align.
  Hypothesis G : geometry c s.
  Hypothesis LF : links_forward s.
  Notation loop fuel := (apply_loop fuel c (alloc_pred c) (alloc_act c size align)).
  Notation d := (data s).
  Notation b := (BS c).
  Notation fb := (from_block (nxt s) (bc s)).
  Notation walk := (first_free_from (nxt s) (inuse s)).
  Notation sees := (looks d b (bc s) (nxt s) (inuse s) size align).

  Lemma fb_len : forall i, 0 <= i < bc s -> 0 < rlen (fb i) /\ i + rlen (fb i) <= bc s.
  Proof. intros i I. unfold from_block. cbn [rlen]. destruct (LF i); destruct (Z.eqb_spec (nxt s i) 0); lia. Qed.

  Lemma fb_size : forall i, 0 <= i < bc s -> block_size c s i = Ok (rlen (fb i)).
  Proof.
    intros i I. assert (B := g_bc _ _ G). destruct (fb_len i I) as [G1 G2]. assert (M := mb_range _ HC).
    unfold block_size. rewrite next_index_ok by lia. cbn [bind].
    change ((if nxt s i =? 0 then bc s else nxt s i) - i) with (rlen (fb i)).
    rewrite (wrap_id 64 (rlen (fb i))) by lia. reflexivity.
  Qed.

  Lemma fb_bytes : forall i, 0 <= i < bc s -> block_size_in_bytes c s i = Ok (rlen (fb i) * b).
  Proof.
    intros i I. assert (B := g_bc _ _ G). destruct (fb_len i I) as [G1 G2]. assert (P := bs_pos c HC).
    assert (GE := g_end _ _ G). assert (GD := g_data _ _ G).
    unfold block_size_in_bytes. rewrite fb_size by auto. cbn [bind]. rewrite wrap_id by nia. reflexivity.
  Qed.

  Lemma fb_act : forall i p, 0 <= i < bc s -> let bp := region_addr d b (fb i) in
    alloc_act c size align s p i =
      if skip_of bp align + size <=? rlen (fb i) * b then
        s' <- allocate_blocks c s i (wrap 64 (bp + skip_of bp align)) size;;
        Ok (s', wrap 64 (bp + skip_of bp align), false)
      else Ok (s, p, negb (nxt s i =? 0)).
  Proof.
    intros i p I bp. destruct (request_align _ _ HR) as [j [Hj [Ea Ha]]]. destruct HR as [R0 [R1 R2]].
    assert (B := g_bc _ _ G). assert (GE := g_end _ _ G). assert (GD := g_data _ _ G). assert (P := bs_pos c HC).
    unfold alloc_act. rewrite fb_bytes by auto. cbn [bind]. rewrite index_pointer by (auto; lia). cbn [bind].
    change (data s + i * BS c) with bp. assert (HB : 0 < bp < 2 ^ 64) by (unfold bp, region_addr, from_block; cbn [rstart]; nia).
    rewrite Ea. rewrite skip_value by lia. cbn [bind]. change ((- bp) mod 2 ^ j) with (skip_of bp (2 ^ j)).
    rewrite <- Ea. destruct (skip_bounds bp align Ha). rewrite (wrap_id 64 (skip_of bp align + size)) by lia.
    destruct (skip_of bp align + size <=? rlen (fb i) * BS c); [reflexivity|].
    rewrite next_index_ok by lia. reflexivity.
  Qed.

  Lemma loop_here : forall i fuel p, 0 <= i < bc s -> inuse s i = false -> loop (S fuel) s p i =
    ' (s', a', x) <- alloc_act c size align s p i;; (if x then loop fuel s' a' 1 else Ok (s', a')).
  Proof.
    intros i fuel p I U. assert (B := g_bc _ _ G). cbn [apply_loop]. rewrite next_index_ok by lia. cbn [bind].
    unfold alloc_pred. rewrite in_use_ok by lia. cbn [bind]. rewrite U. cbn [negb].
    destruct (alloc_act c size align s p i) as [[[s' a'] x]| | |]; cbn [bind]; auto.
    destruct x; reflexivity.
  Qed.

  Lemma loop_busy : forall i fuel p, 0 <= i < bc s -> inuse s i = true -> loop (S fuel) s p i =
    if nxt s i =? 0 then Ok (s, p) else loop fuel s p (nxt s i).
  Proof.
    intros i fuel p I U. assert (B := g_bc _ _ G). cbn [apply_loop]. rewrite next_index_ok by lia. cbn [bind].
    unfold alloc_pred. rewrite in_use_ok by lia. cbn [bind]. rewrite U. cbn [negb bind]. reflexivity.
  Qed.

  Lemma loop_small : forall i fuel p, 0 <= i < bc s -> inuse s i = false -> ~ can_hold d b (fb i) size align ->
    loop (S fuel) s p i = if nxt s i =? 0 then Ok (s, p) else loop fuel s p 1.
  Proof.
    intros i fuel p I U N. destruct (request_align _ _ HR) as [j [Hj [Ea Ha]]].
    rewrite loop_here, fb_act by auto. cbv zeta. rewrite can_hold_skip in N by auto. rewrite leb_false by lia.
    cbn [bind]. destruct (nxt s i =? 0); reflexivity.
  Qed.

  (** * walks *)

  Lemma walk_free : forall i f, walk i f -> inuse s f = false.
  Proof. intros i f W. induction W; auto. Qed.

  Lemma walk_range : forall i f, walk i f -> 0 <= i < bc s -> i <= f < bc s.
  Proof.
    intros i f W. induction W as [i U|i f U N W IH]; intros I; [lia|]. destruct (LF i); [contradiction|].
    specialize (IH ltac:(lia)). lia.
  Qed.

  Lemma walk_unique : forall i f g, walk i f -> walk i g -> f = g.
  Proof.
    intros i f g W. induction W as [i U|i f U N W IH]; intros V; inversion V; subst; auto; congruence.
  Qed.

  Lemma walk_loop : forall i f, walk i f -> 0 <= i < bc s ->
    exists k, (Z.of_nat k <= f - i) /\ forall fuel p, loop (k + fuel)%nat s p i = loop fuel s p f.
  Proof.
    intros i f W. induction W as [i U|i f U N W IH]; intros I.
    - exists O. split; [lia|reflexivity].
    - destruct (LF i); [contradiction|]. destruct IH as [k [K1 K2]]; [lia|]. exists (S k). split; [lia|].
      intros fuel p. cbn [Nat.add]. rewrite loop_busy by auto. rewrite eqb_false by auto. apply K2.
  Qed.

  Lemma walk_dec : forall n i, Z.of_nat n = bc s - i -> 0 <= i < bc s ->
    (exists f, walk i f) \/
    ((forall f, ~ walk i f) /\ forall fuel p, (n <= fuel)%nat -> loop fuel s p i = Ok (s, p)).
  Proof.
    intros n. induction n as [n IH] using lt_wf_ind. intros i E I.
    destruct (inuse s i) eqn:U; [|left; exists i; constructor; auto].
    destruct (Z.eq_dec (nxt s i) 0) as [N|N].
    - right. split.
      + intros f W. inversion W; subst; [congruence|contradiction].
      + intros fuel p F. destruct fuel as [|fuel]; [lia|]. rewrite loop_busy by auto. rewrite N. reflexivity.
    - destruct (LF i) as [?|LN]; [contradiction|].
      destruct (IH (Z.to_nat (bc s - nxt s i)) ltac:(lia) (nxt s i) ltac:(lia) ltac:(lia)) as [[f W]|[X Y]].
      + left. exists f. apply free_later; auto.
      + right. split.
        * intros f W. inversion W; subst; [congruence|]. eapply X; eauto.
        * intros fuel p F. destruct fuel as [|fuel]; [lia|]. rewrite loop_busy by auto. rewrite eqb_false by auto.
          apply Y. lia.
  Qed.

  (** * what is found *)

  Lemma sees_some : forall i, 0 <= i < bc s -> exists v, sees i v.
  Proof.
    intros i I. destruct (request_align _ _ HR) as [j [Hj [Ea Ha]]].
    destruct (walk_dec (Z.to_nat (bc s - i)) i ltac:(lia) I) as [[f W]|[X _]].
    - destruct (can_hold_dec d b (fb f) size align Ha) as [Y|N]; [exists (Holds f); econstructor; eauto|].
      destruct (Z.eq_dec (nxt s f) 0) as [E|E].
      + exists Ends. constructor. intros g V. rewrite <- (walk_unique _ _ _ W V). auto.
      + exists GoesOn. econstructor; eauto.
    - exists Ends. constructor. intros f W. destruct (X f W).
  Qed.

  Lemma sees_unique : forall i v w, sees i v -> sees i w -> v = w.
  Proof.
    intros i v w V W.
    destruct V as [f A B|A|f A B C]; destruct W as [f' A' B'|A'|f' A' B' C']; auto.
    - f_equal. eapply walk_unique; eauto.
    - destruct (A' _ A). contradiction.
    - rewrite (walk_unique _ _ _ A A') in *. contradiction.
    - destruct (A _ A'). contradiction.
    - destruct (A _ A'). contradiction.
    - rewrite (walk_unique _ _ _ A A') in *. contradiction.
    - destruct (A' _ A). contradiction.
  Qed.

  Lemma sees_ends_loop : forall i, sees i Ends -> 0 <= i < bc s -> forall fuel p, (Z.to_nat (bc s) < fuel)%nat ->
    loop fuel s p i = Ok (s, p).
  Proof.
    intros i V I fuel p F. inversion V as [|A|]; subst.
    destruct (walk_dec (Z.to_nat (bc s - i)) i ltac:(lia) I) as [[f W]|[_ Y]]; [|apply Y; lia].
    destruct (A f W) as [N0 N]. destruct (walk_loop i f W I) as [k [K1 K2]]. assert (WR := walk_range i f W I).
    replace fuel with (k + S (fuel - k - 1))%nat by lia. rewrite K2.
    rewrite loop_small by (auto; try lia; eapply walk_free; eauto). rewrite N0. reflexivity.
  Qed.

  Lemma sees_on_loop : forall i, sees i GoesOn -> 0 <= i < bc s -> 1 < bc s /\ exists k, (Z.of_nat k <= bc s) /\ (0 < k)%nat /\
    forall fuel p, loop (k + fuel)%nat s p i = loop fuel s p 1.
  Proof.
    intros i V I. inversion V as [| |f W N N0]; subst. assert (WR := walk_range i f W I).
    destruct (walk_loop i f W I) as [k [K1 K2]].
    split; [destruct (LF f); [contradiction|lia]|]. exists (S k). split; [lia|]. split; [lia|].
    intros fuel p. replace (S k + fuel)%nat with (k + S fuel)%nat by lia. rewrite K2.
    rewrite loop_small by (auto; try lia; eapply walk_free; eauto). rewrite eqb_false by auto. reflexivity.
  Qed.

  Lemma sees_forever : sees 1 GoesOn -> 1 < bc s -> forall fuel p, loop fuel s p 1 = Hang.
  Proof.
    intros V I. destruct (sees_on_loop 1 V ltac:(lia)) as [_ [k [_ [K0 K]]]].
    assert (M : forall m p, loop (m * k)%nat s p 1 = Hang).
    { induction m as [|m IH]; intros p; [reflexivity|]. cbn [Nat.mul]. rewrite K. apply IH. }
    intros fuel p. apply apply_loop_hang with (k := (fuel * k - fuel)%nat).
    replace (fuel + (fuel * k - fuel))%nat with (fuel * k)%nat by nia. apply M.
  Qed.

  (** * taking the blocks *)

  Lemma fb_last : forall i, 0 <= i < bc s ->
    (if nxt s i =? 0 then bindex c (wrap 64 (bc s - 1)) else bindex c (nxt s i - 1)) = i + rlen (fb i) - 1.
  Proof.
    intros i I. assert (B := g_bc _ _ G). assert (M := mb_range _ HC). unfold from_block. cbn [rlen].
    destruct (Z.eqb_spec (nxt s i) 0).
    - rewrite wrap_id by lia. rewrite bindex_id by (auto; lia). lia.
    - destruct (LF i); [contradiction|]. rewrite bindex_id by (auto; lia). lia.
  Qed.

  Lemma fb_blocks : forall i k, 0 <= i < bc s -> 0 <= k -> k * b + size < rlen (fb i) * b ->
    exists s', allocate_blocks c s i (d + (i + k) * b) size = Ok s' /\ links_forward s'.
  Proof.
    intros i k I K0 K1. destruct HR as [S0 _]. assert (B := g_bc _ _ G). destruct (fb_len i I) as [G1 G2].
    assert (GE := g_end _ _ G). assert (GD := g_data _ _ G).
    assert (P := bs_pos c HC). assert (M := mb_range _ HC).
    assert (D0 : 0 <= size / b) by (apply Z.div_pos; lia).
    assert (D1 : k + size / b < rlen (fb i)).
    { replace (k + size / b) with ((k * b + size) / b).
      - apply Z.div_lt_upper_bound; lia.
      - rewrite Z.add_comm, Z.div_add by lia. lia. }
    assert (LAST := fb_last i I).
    unfold allocate_blocks.
    rewrite ptr_index by (auto; nia). cbn [bind]. rewrite Z.div_mul by lia.
    assert (U1 : (i + k) * b + size < bc s * b) by nia.
    assert (U0 : 0 <= (i + k) * b) by nia.
    rewrite wrap_id by nia.
    replace (d + (i + k) * b + size) with (d + ((i + k) * b + size)) by lia.
    rewrite ptr_index by (auto; nia). cbn [bind].
    rewrite Z.add_comm with (n := (i + k) * b), Z.div_add by lia.
    rewrite next_index_ok by lia. cbn [bind]. rewrite LAST. clear LAST.
    assert (N1 : 0 <= nxt s i < bc s) by (destruct (LF i); lia).
    set (e := i + rlen (fb i) - 1) in *. assert (HE : e < bc s) by (unfold e; lia).
    assert (D2 : size / b + (i + k) <= e) by (unfold e; lia).
    clearbody e. clear D1 G1 G2.
    assert (SP : forall s1 j v, bc s1 = bc s -> 0 <= j < bc s ->
      exists s2, set_prev c s1 j v = Ok s2 /\ bc s2 = bc s /\ nxt s2 = nxt s1 /\ (links_forward s1 -> links_forward s2)).
    { intros s1 j v E J. unfold set_prev. rewrite E, ltb_true by lia. rewrite cassert_true, at_ok by lia.
      destruct (_ || _); eexists; (split; [reflexivity|]); auto. }
    assert (SN : forall s1 j v, bc s1 = bc s -> 0 <= j < bc s -> 0 <= v < bc s ->
      exists s2, set_next c s1 j v = Ok s2 /\ bc s2 = bc s /\ (links_forward s1 -> links_forward s2)).
    { intros s1 j v E J V. unfold set_next. rewrite E, ltb_true by lia. rewrite cassert_true, at_ok by lia.
      destruct ((j <? v) || (v =? 0)) eqn:Q; eexists; (split; [reflexivity|]); auto. split; [auto|].
      intros L. apply (upd_links c); auto; [lia|]. apply orb_true_iff in Q.
      destruct Q as [Q|Q]; [left; apply Z.ltb_lt|right; apply Z.eqb_eq]; auto. }
    assert (SPN : forall s1 j p v, bc s1 = bc s -> 0 <= j < bc s -> j <> i -> 0 <= v < bc s ->
      exists s2, set_prev_next c s1 j p v = Ok s2 /\ bc s2 = bc s /\ nxt s2 i = nxt s1 i /\ (links_forward s1 -> links_forward s2)).
    { intros s1 j p v E J NI V. unfold set_prev_next. rewrite E, !ltb_true by lia. rewrite !cassert_true, at_ok by lia.
      eexists. split; [reflexivity|]. destruct ((p <? j) || (p =? 0)); destruct ((j <? v) || (v =? 0)) eqn:Q;
        cbn [bc nxt with_nxt with_prv]; (split; [auto|]);
        (split; [first [reflexivity|rewrite upd_other by lia; reflexivity]|]); intros L; auto;
        intros m; cbn [bc nxt with_nxt with_prv]; unfold upd; (destruct (Z.eqb_spec m j) as [Qj|_]; [|apply (L m)]);
        rewrite Qj; apply orb_true_iff in Q; (destruct Q as [Q|Q]; [apply Z.ltb_lt in Q|apply Z.eqb_eq in Q]); lia. }
    destruct (Z.eqb_spec i (i + k)) as [Ek|Ek]; destruct (Z.eqb_spec (size / b + (i + k)) e) as [El|El];
      cbn [negb].
    - unfold allocate_matched. rewrite ltb_true by lia. rewrite cassert_true, set_in_use_ok by lia. cbn [bind]. eexists. split; [reflexivity|]. first [exact LF|apply K5, K4, K3, K2; exact LF|apply K4, K3, K2; exact LF].
    - unfold allocate_begin_matched. rewrite leb_true by lia. rewrite cassert_true.
      rewrite ltb_true by lia. rewrite cassert_true, set_in_use_ok by lia. cbn [bind].
      rewrite bindex_id by (auto; lia). rewrite next_index_ok by (cbn [bc with_inuse]; lia).
      cbn [bind nxt with_inuse].
      match goal with |- context [set_prev_next c ?x ?i ?p ?v] =>
        destruct (SPN x i p v) as [s2 [E2 [B2 [N2 K2]]]]; [reflexivity|lia|lia|lia|] end.
      rewrite E2. cbn [bind]. cbn [nxt with_inuse] in N2. rewrite next_index_ok by lia. cbn [bind]. rewrite N2.
      match goal with |- context [set_prev c ?x ?i ?v] => destruct (SP x i v) as [s3 [E3 [B3 [N3 K3]]]]; [exact B2|lia|] end.
      rewrite E3. cbn [bind].
      match goal with |- context [set_next c ?x ?i ?v] => destruct (SN x i v) as [s4 [E4 [B4 K4]]]; [exact B3|lia|lia|] end.
      rewrite E4. cbn [bind]. eexists. split; [reflexivity|]. first [exact LF|apply K5, K4, K3, K2; exact LF|apply K4, K3, K2; exact LF].
    - unfold allocate_end_matched. rewrite ltb_true by lia. rewrite cassert_true.
      rewrite leb_true by lia. rewrite cassert_true, set_in_use_ok by lia. cbn [bind bc with_inuse].
      rewrite (wrap_id 64 (bc s - 1)) by lia.
      rewrite next_index_ok by (cbn [bc with_inuse]; lia). cbn [bind].
      assert (NX : 0 <= (if size / b + (i + k) <? bc s - 1 then bindex c (size / b + (i + k) + 1) else 0) < bc s).
      { destruct (Z.ltb_spec (size / b + (i + k)) (bc s - 1)); [|lia]. rewrite bindex_id by (auto; lia). lia. }
      match goal with |- context [set_prev_next c ?x ?i ?p ?v] =>
        destruct (SPN x i p v) as [s2 [E2 [B2 [N2 K2]]]]; [reflexivity|lia|lia|exact NX|] end.
      rewrite E2. cbn [bind]. cbn [nxt with_inuse] in N2. rewrite next_index_ok by lia. cbn [bind]. rewrite N2.
      match goal with |- context [set_prev c ?x ?i ?v] => destruct (SP x i v) as [s3 [E3 [B3 [N3 K3]]]]; [exact B2|lia|] end.
      rewrite E3. cbn [bind].
      match goal with |- context [set_next c ?x ?i ?v] => destruct (SN x i v) as [s4 [E4 [B4 K4]]]; [exact B3|lia|lia|] end.
      rewrite E4. cbn [bind]. eexists. split; [reflexivity|]. first [exact LF|apply K5, K4, K3, K2; exact LF|apply K4, K3, K2; exact LF].
    - unfold allocate_not_matched. rewrite ltb_true by lia. rewrite cassert_true.
      rewrite leb_true by lia. rewrite cassert_true. rewrite ltb_true by lia.
      rewrite cassert_true, set_in_use_ok by lia. cbn [bind].
      rewrite bindex_id by (auto; lia). rewrite next_index_ok by (cbn [bc with_inuse]; lia). cbn [bind].
      match goal with |- context [set_prev_next c ?x ?i ?p ?v] =>
        destruct (SPN x i p v) as [s2 [E2 [B2 [N2 K2]]]]; [reflexivity|lia|lia|lia|] end.
      rewrite E2. cbn [bind]. cbn [nxt with_inuse] in N2. rewrite next_index_ok by lia. cbn [bind]. rewrite N2.
      match goal with |- context [set_prev_next c ?x ?i ?p ?v] =>
        destruct (SPN x i p v) as [s3 [E3 [B3 [N3 K3]]]]; [exact B2|lia|lia|lia|] end.
      rewrite E3. cbn [bind]. rewrite next_index_ok by lia. cbn [bind]. rewrite N3, N2.
      match goal with |- context [set_prev c ?x ?i ?v] => destruct (SP x i v) as [s4 [E4 [B4 [N4 K4]]]]; [exact B3|lia|] end.
      rewrite E4. cbn [bind].
      match goal with |- context [set_next c ?x ?i ?v] => destruct (SN x i v) as [s5 [E5 [B5 K5]]]; [exact B4|lia|lia|] end.
      rewrite E5. cbn [bind]. eexists. split; [reflexivity|]. first [exact LF|apply K5, K4, K3, K2; exact LF|apply K4, K3, K2; exact LF].
  Qed.

  (** no byte to spare *)
  Lemma fb_fill : forall i k, DBG c = true -> 0 <= i < bc s -> 0 <= k -> k * b + size = rlen (fb i) * b ->
    allocate_blocks c s i (d + (i + k) * b) size = Abort.
  Proof.
    intros i k DB I Hk Hf. assert (P := bs_pos c HC). destruct HR as [Hs _]. destruct (fb_len i I) as [G1 G2].
    assert (BB := g_bc _ _ G). assert (M := mb_range _ HC). assert (GM := g_max _ _ G DB). assert (GD := g_data _ _ G).
    assert (LAST := fb_last i I). set (n := rlen (fb i)) in *. clearbody n.
    assert (Kr : k < n) by nia.
    assert (B1 : (i + k) * BS c < MB c * BS c) by nia.
    assert (B0 : 0 <= (i + k) * BS c) by nia.
    unfold allocate_blocks, pointer_to_block_index. rewrite DB.
    assert (W1 : wrap 64 (BS c * MB c) = MB c * BS c) by (rewrite wrap_id; lia).
    rewrite W1. rewrite (wrap_id 64 (data s + MB c * BS c)) by lia.
    rewrite (leb_true (data s)) by lia. rewrite ltb_true by lia. cbn [cassert andb negb].
    replace (data s + (i + k) * BS c - data s) with ((i + k) * BS c) by lia.
    rewrite (wrap_id 64 ((i + k) * BS c)) by lia. rewrite Z.div_mul by lia.
    rewrite bindex_id by (auto; lia). cbn [bind].
    replace (data s + (i + k) * BS c + size) with (data s + (i + n) * BS c) by lia.
    assert (B2 : 0 <= (i + n) * BS c <= MB c * BS c) by nia.
    rewrite (wrap_id 64 (data s + (i + n) * BS c)) by lia.
    rewrite (leb_true (data s)) by lia. cbn [cassert andb negb].
    destruct (Z.ltb_spec (data s + (i + n) * BS c) (data s + MB c * BS c)) as [L|L]; [|reflexivity].
    cbn [cassert].
    replace (data s + (i + n) * BS c - data s) with ((i + n) * BS c) by lia.
    rewrite (wrap_id 64 ((i + n) * BS c)) by lia. rewrite Z.div_mul by lia.
    assert (Lm : i + n < MB c) by nia.
    rewrite bindex_id by (auto; lia). cbn [bind].
    unfold next_index, at_. rewrite DB, ltb_true by lia. cbn [cassert]. rewrite in_array_ok by lia. cbn [bind].
    rewrite LAST. rewrite (eqb_false (i + n)) by lia. cbn [negb].
    unfold allocate_begin_matched, allocate_not_matched. rewrite DB.
    rewrite (ltb_false (i + n)) by lia. rewrite leb_true by lia.
    destruct (i =? i + k) eqn:E; cbn [cassert]; [reflexivity|].
    apply Z.eqb_neq in E. rewrite ltb_true by lia. rewrite leb_true by lia. reflexivity.
  Qed.

  Lemma found_act : forall i p, 0 <= i < bc s -> can_hold d b (fb i) size align ->
    (can_hold_spare d b (fb i) size align ->
       exists s' q, alloc_act c size align s p i = Ok (s', q, false) /\ first_aligned d b (fb i) align q /\
         0 < q < 2 ^ 64 /\ (b | q) /\ took c s s') /\
    (~ can_hold_spare d b (fb i) size align -> DBG c = true -> alloc_act c size align s p i = Abort).
  Proof.
    intros i p I CH. destruct (request_align _ _ HR) as [j [Hj [Ea Ha]]]. assert (HR' := HR). destruct HR' as [S0 [R1 R2]].
    assert (B := g_bc _ _ G). destruct (fb_len i I) as [G1 G2].
    assert (GE := g_end _ _ G). assert (GD := g_data _ _ G).
    assert (GA := g_aligned _ _ G). assert (P := bs_pos c HC).
    rewrite fb_act by auto. cbv zeta. rewrite can_hold_skip in CH by auto. rewrite leb_true by lia.
    rewrite can_hold_spare_skip by auto.
    assert (FA := first_aligned_skip d b (fb i) align Ha).
    assert (BP : region_addr d b (fb i) = d + i * b) by reflexivity.
    assert (A3 : (b | region_addr d b (fb i))).
    { rewrite BP. apply Z.divide_add_r; [auto|apply Z.divide_factor_r]. }
    set (bp := region_addr d b (fb i)) in *.
    destruct (skip_bounds bp align Ha) as [SB1 SB2].
    destruct (skip_multiple b bp align P Ha (bs_pow2 _ HC) R1 A3) as [k Ek].
    assert (EQ : bp + skip_of bp align = d + (i + k) * b) by lia.
    assert (K0 : 0 <= k) by nia.
    rewrite wrap_id by nia. rewrite EQ. split.
    - intros CS. destruct (fb_blocks i k) as [s' [E _]]; auto; [lia|].
      rewrite E. cbn [bind]. exists s', (d + (i + k) * b). split; auto. split; [rewrite <- EQ; exact FA|].
      split; [nia|]. split; [|eapply allocate_blocks_any; exact E].
      rewrite <- EQ. apply Z.divide_add_r; auto. exists k. exact Ek.
    - intros CS DB. rewrite fb_fill by (auto; lia). reflexivity.
  Qed.

  Lemma found_links : forall i p s' q x, 0 <= i < bc s -> can_hold_spare d b (fb i) size align ->
    alloc_act c size align s p i = Ok (s', q, x) -> links_forward s'.
  Proof.
    intros i p s' q x I CS. destruct (request_align _ _ HR) as [j [Hj [Ea Ha]]]. assert (HR' := HR). destruct HR' as [S0 [R1 R2]].
    assert (B := g_bc _ _ G). destruct (fb_len i I) as [G1 G2].
    assert (GE := g_end _ _ G). assert (GD := g_data _ _ G).
    assert (GA := g_aligned _ _ G). assert (P := bs_pos c HC).
    rewrite fb_act by auto. cbv zeta. rewrite can_hold_spare_skip in CS by auto. rewrite leb_true by lia.
    assert (BP : region_addr d b (fb i) = d + i * b) by reflexivity.
    assert (A3 : (b | region_addr d b (fb i))).
    { rewrite BP. apply Z.divide_add_r; [auto|apply Z.divide_factor_r]. }
    set (bp := region_addr d b (fb i)) in *.
    destruct (skip_bounds bp align Ha) as [SB1 SB2].
    destruct (skip_multiple b bp align P Ha (bs_pow2 _ HC) R1 A3) as [k Ek].
    assert (EQ : bp + skip_of bp align = d + (i + k) * b) by lia.
    assert (K0 : 0 <= k) by nia.
    rewrite wrap_id by nia. rewrite EQ.
    destruct (fb_blocks i k) as [s2 [E L]]; auto; [lia|]. rewrite E. cbn [bind]. intros H. injection H as <- _ _. exact L.
  Qed.
End Walk.

(** * allocate *)

Section Whole.
  Variables (c : cfg) (s : state) (size align : Z) (ans : Z -> Z -> Z).
  Hypothesis HC : cfg_ok c.
  Hypothesis HR : request size align.
  Hypothesis G : geometry c s.
  Hypothesis LF : links_forward s.
  Hypothesis O : ordinary_buffer (data s) (bc s * BS c).
  Hypothesis RE : alignment_within_reach (data s) (bc s * BS c) align.
  Notation loop fuel := (apply_loop fuel c (alloc_pred c) (alloc_act c size align)).
  Notation sees := (looks (data s) (BS c) (bc s) (nxt s) (inuse s) size align).

  Lemma whole_search : forall fuel, search_buffer c fuel s size align = loop fuel s 0 0.
  Proof. intros fuel. apply search_reached; auto. apply HR. Qed.

  Lemma whole_miss : (has_up s = true -> answer_fits (BS c) (ans size align)) ->
    forall fuel, loop fuel s 0 0 = Ok (s, 0) ->
    allocate_impl c fuel s size align ans =
      Ok (if has_up s then (s, ans size align, [UpAllocate size align]) else (s, 0, [])).
  Proof.
    intros AF fuel E. rewrite <- whole_search in E. destruct (has_up s) eqn:U.
    - rewrite (allocate_miss c s _ size align ans HC HR E); [rewrite U; reflexivity|].
      intros _. destruct (AF eq_refl); auto.
    - assert (X := allocate_miss c s fuel size align (fun _ _ => 0) HC HR E).
      rewrite U in X. rewrite <- X.
      + unfold allocate_impl. rewrite E. cbn [bind]. rewrite U, andb_false_r. reflexivity.
      + intros _. split; [lia|apply Z.divide_0_r].
  Qed.

  Lemma whole_found : forall fuel s' q, 0 < q < 2 ^ 64 -> (BS c | q) -> loop fuel s 0 0 = Ok (s', q) ->
    allocate_impl c fuel s size align ans = Ok (s', q, []).
  Proof.
    intros fuel s' q Q D E. rewrite <- whole_search in E.
    destruct (request_align _ _ HR) as [j [Hj [Ea Ha]]]. assert (P := bs_pos c HC). destruct HR as [R0 [R1 R2]].
    unfold allocate_impl. rewrite eqb_false by lia.
    assert (PA : is_power_of_2 align = true) by (rewrite Ea; apply is_power_of_2_pow; lia).
    rewrite PA, cassert_true, E. cbn [bind]. rewrite eqb_false by lia. cbn [andb].
    destruct (DBG c) eqn:DB; [|reflexivity].
    rewrite aligned_bs by (auto; lia). cbn [bind].
    assert (DV : q mod BS c = 0) by (apply Z.mod_divide; [lia|auto]).
    rewrite DV. reflexivity.
  Qed.

  Lemma whole_abort : forall fuel, loop fuel s 0 0 = Abort -> allocate_impl c fuel s size align ans = Abort.
  Proof. intros fuel E. apply (allocate_searches c s size align ans fuel); auto. Qed.

  (** from block [i], reached after [m] steps *)
  Lemma from_there : forall i m v, 0 <= i < bc s -> (m <= Z.to_nat (bc s))%nat ->
    (forall fuel, loop (m + fuel)%nat s 0 0 = loop fuel s 0 i) -> sees i v -> v <> GoesOn ->
    follows c s size align ans (Some v).
  Proof.
    intros i m v I M E V NG. destruct v as [f| |]; [| |congruence]; cbn [follows].
    - inversion V as [f' W CH| |]; subst. assert (WR := walk_range s LF i f W I).
      destruct (walk_loop c s size align G LF i f W I) as [k [K1 K2]].
      assert (U := walk_free s i f W).
      destruct (found_act c s size align HC HR G LF f 0 ltac:(lia) CH) as [FS FF]. split.
      + intros CS. destruct (FS CS) as [s' [q [A [FA [Q [D _]]]]]]. exists s', q. split; auto.
        intros fuel F. apply whole_found; auto.
        replace fuel with (m + (k + S (fuel - m - k - 1)))%nat by lia. rewrite E, K2.
        rewrite loop_here by (auto; lia). rewrite A. reflexivity.
      + intros NS DB fuel F. apply whole_abort.
        replace fuel with (m + (k + S (fuel - m - k - 1)))%nat by lia. rewrite E, K2.
        rewrite loop_here by (auto; lia). rewrite (FF NS DB). reflexivity.
    - intros AF fuel F. apply whole_miss; auto.
      replace fuel with (m + (fuel - m))%nat by lia. rewrite E.
      apply sees_ends_loop; auto. lia.
  Qed.

  Lemma whole_outcome : exists v,
    search_from_0 (data s) (BS c) (bc s) (nxt s) (inuse s) size align v /\
    (forall w, search_from_0 (data s) (BS c) (bc s) (nxt s) (inuse s) size align w -> w = v) /\
    follows c s size align ans v.
  Proof.
    assert (B := g_bc _ _ G). assert (UQ := sees_unique c s size align).
    destruct (sees_some c s size align HR G LF 0 ltac:(lia)) as [v V].
    assert (D : v = GoesOn \/ v <> GoesOn) by (destruct v; auto; right; discriminate).
    destruct D as [->|NG].
    - destruct (sees_on_loop c s size align HC HR G LF 0 V ltac:(lia)) as [B1 [k [K1 [_ K2]]]].
      destruct (sees_some c s size align HR G LF 1 ltac:(lia)) as [w W].
      assert (D : w = GoesOn \/ w <> GoesOn) by (destruct w; auto; right; discriminate).
      destruct D as [->|NG].
      + exists None. split; [constructor; auto|]. split.
        * intros w X. inversion X as [v' V' N'|v' V' W' N'|]; subst; auto; exfalso; apply N'; eapply UQ; eauto.
        * cbn [follows]. intros fuel. apply (allocate_searches c s size align ans fuel); auto.
          apply apply_loop_hang with (k := k). replace (fuel + k)%nat with (k + fuel)%nat by lia. rewrite K2.
          apply sees_forever; auto.
      + exists (Some w). split; [apply search_1; auto|]. split.
        * intros x X. inversion X as [v' V' N'|v' V' W' N'|V' W']; subst.
          -- exfalso. apply N'. eapply UQ; eauto.
          -- f_equal. eapply UQ; eauto.
          -- exfalso. apply NG. eapply UQ; eauto.
        * apply (from_there 1 k); auto; lia.
    - exists (Some v). split; [apply search_0; auto|]. split.
      + intros x X. inversion X as [v' V' N'|v' V' W' N'|V' W']; subst.
        * f_equal. eapply UQ; eauto.
        * exfalso. apply NG. eapply UQ; eauto.
        * exfalso. apply NG. eapply UQ; eauto.
      + apply (from_there 0 0); auto; lia.
  Qed.
End Whole.

Lemma guaranteed_less : forall g n m a, pow2 m -> pow2 a -> a <= m -> guaranteed_alignment g n m ->
  guaranteed_alignment g n a.
Proof.
  intros g n m a [i [Hi ->]] [j [Hj ->]] L H p Hp D E. destruct (H p Hp D E) as [q [Q1 Q2]].
  exists q. split; auto. eapply Z.divide_trans; [|exact Q2]. apply pow2_divide.
  split; auto. apply Z.pow_le_mono_r_iff with (a := 2); lia.
Qed.

(** an alignment out of reach: the blocks are not looked at *)
Lemma search_unreached : forall c s fuel size align, cfg_ok c -> geometry c s ->
  ordinary_buffer (data s) (bc s * BS c) -> pow2 align ->
  ~ alignment_within_reach (data s) (bc s * BS c) align ->
  search_buffer c fuel s size align = Ok (s, 0).
Proof.
  intros c s fuel size align HC G O Pa N. destruct (gate_value c s HC G O) as [m [E [g [A [Pm [Gm _]]]]]].
  rewrite E. destruct (Z.leb_spec align m) as [L|L]; [|reflexivity].
  exfalso. apply N. exists g. split; auto. eapply guaranteed_less; eauto.
Qed.

Lemma kept_geometry : forall c s s', geometry c s -> same_place s s' -> geometry c s'.
Proof. intros c s s' [A B C D E] [X [Y _]]. constructor; rewrite ?X, ?Y; auto. Qed.

Lemma debug_state : forall c buffer size up s fuel ops s' es, made c buffer size up s -> DBG c = true ->
  Forall sane_op ops -> run c fuel s ops = Ok (s', es) ->
  cfg_ok c /\ geometry c s' /\ links_forward s' /\ same_place s s' /\ ordinary_buffer (data s) (bc s * BS c).
Proof.
  intros c buffer size up s fuel ops s' es M DB V R.
  destruct (made_wf _ _ _ _ _ M) as [HC [W [_ [_ [O _]]]]].
  destruct (construct_aligned c buffer size up s HC (made_buffer _ _ _ _ _ M) (made_from _ _ _ _ _ M)) as [D [LF _]].
  destruct (run_any c fuel ops s s' es HC D V (fun _ => LF) R) as [[SP K] _].
  split; auto. split; [eapply kept_geometry; eauto; apply (wf_geom _ _ _ W)|]. auto.
Qed.

Lemma search_exact : forall c buffer size up s fuel ops s' es sz align ans,
  made c buffer size up s -> DBG c = true -> Forall sane_op ops -> run c fuel s ops = Ok (s', es) ->
  0 < sz /\ pow2 align /\ sz + align <= 2 ^ 64 ->
  (alignment_within_reach (data s) (bc s * BS c) align ->
   exists v, search_from_0 (data s) (BS c) (bc s) (nxt s') (inuse s') sz align v /\
     (forall w, search_from_0 (data s) (BS c) (bc s) (nxt s') (inuse s') sz align w -> w = v) /\
     follows c s' sz align ans v) /\
  (~ alignment_within_reach (data s) (bc s * BS c) align -> follows c s' sz align ans (Some Ends)).
Proof.
  intros c buffer size up s fuel ops s' es sz align ans M DB V R HR.
  destruct (debug_state _ _ _ _ _ _ _ _ _ M DB V R) as [HC [G [LF [[X [Y _]] O]]]].
  rewrite <- X, <- Y in *. split; intros RE.
  - apply whole_outcome; auto.
  - cbn [follows]. intros AF f _.
    assert (E : search_buffer c f s' sz align = Ok (s', 0)) by (apply search_unreached; auto; apply HR).
    destruct (has_up s') eqn:U.
    + rewrite (allocate_miss c s' _ sz align ans HC HR E); [rewrite U; reflexivity|].
      intros _. destruct (AF eq_refl); auto.
    + assert (Q := allocate_miss c s' f sz align (fun _ _ => 0) HC HR E).
      rewrite U in Q. rewrite <- Q.
      * unfold allocate_impl. rewrite E. cbn [bind]. rewrite U, andb_false_r. reflexivity.
      * intros _. split; [lia|apply Z.divide_0_r].
Qed.

(** * the walk by next_index() *)

Lemma walk_ends : forall s, links_forward s -> forall k i, (Z.to_nat (bc s - i) <= k)%nat -> 0 <= i < bc s ->
  exists l, path (nxt s) i l /\ (forall x, In x l -> i <= x < bc s) /\ StronglySorted Z.lt l.
Proof.
  intros s LF. induction k as [|k IH]; intros i K I; [lia|].
  destruct (LF i) as [E|E].
  - exists [i]. split; [cbn; auto|]. split; [intros x [<-|[]]; lia|]. constructor; constructor.
  - destruct (IH (nxt s i)) as [l [P [Q T]]]; try lia.
    destruct l as [|y l]; [destruct P|]. exists (i :: y :: l). split.
    + cbn [path]. split; auto. split; [lia|]. exact P.
    + split.
      * intros x [<-|X]; [lia|]. specialize (Q x X). lia.
      * constructor; auto. apply Forall_forall. intros x X. specialize (Q x X). lia.
Qed.

Lemma debug_walk : forall c buffer size up s fuel ops s' es i,
  made c buffer size up s -> DBG c = true -> Forall sane_op ops -> run c fuel s ops = Ok (s', es) ->
  0 <= i < bc s ->
  (exists l, path (nxt s') i l /\ (forall x, In x l -> i <= x < bc s) /\ StronglySorted Z.lt l) /\
  exists n, 0 < n <= bc s - i /\ (nxt s' i = i + n \/ nxt s' i = 0 /\ i + n = bc s) /\
    next_index c s' i = Ok (nxt s' i) /\
    block_size c s' i = Ok n /\ block_size_in_bytes c s' i = Ok (n * BS c).
Proof.
  intros c buffer size up s fuel ops s' es i M DB V R I.
  destruct (debug_state _ _ _ _ _ _ _ _ _ M DB V R) as [HC [G [LF [[X [Y _]] O]]]].
  rewrite <- Y in *. assert (GB := g_bc _ _ G). split; [apply (walk_ends s' LF _ i (le_n _)); auto|].
  destruct (fb_len s' LF i I) as [L1 L2].
  exists (rlen (from_block (nxt s') (bc s') i)).
  split; [lia|]. split.
  - unfold from_block. cbn [rlen]. destruct (Z.eqb_spec (nxt s' i) 0); [right|left]; lia.
  - split; [apply next_index_ok; lia|]. split; [apply fb_size; auto|apply fb_bytes; auto].
Qed.

(** * when upstream is asked *)

Lemma loop_more : forall A c pred act f k s (a : A) i x, apply_loop f c pred act s a i = Ok x ->
  apply_loop (f + k) c pred act s a i = Ok x.
Proof.
  intros A c pred act. induction f as [|f IH]; intros k s a i x E; [discriminate E|].
  cbn [apply_loop Nat.add] in *.
  apply bind_ok in E. destruct E as [n [E1 E]]. rewrite E1. cbn [bind].
  apply bind_ok in E. destruct E as [b [E2 E]]. rewrite E2. cbn [bind].
  apply bind_ok in E. destruct E as [[[s1 a1] i1] [E3 E]]. rewrite E1 in E3. cbn [bind] in E3. rewrite E3. cbn [bind].
  destruct (i1 =? 0); auto.
Qed.

Lemma search_more : forall c f k s size align x, search_buffer c f s size align = Ok x ->
  search_buffer c (f + k) s size align = Ok x.
Proof.
  intros c f k s size align x E. unfold search_buffer in *. destruct (data s =? 0); auto.
  apply bind_ok in E. destruct E as [z [E1 E]]. rewrite E1. cbn [bind].
  apply bind_ok in E. destruct E as [y [E2 E]]. rewrite E2. cbn [bind].
  apply bind_ok in E. destruct E as [m [E3 E]]. rewrite E3. cbn [bind].
  destruct (align <=? m); auto. apply loop_more; auto.
Qed.

Lemma allocate_more : forall c f k s size align ans x, allocate_impl c f s size align ans = Ok x ->
  allocate_impl c (f + k) s size align ans = Ok x.
Proof.
  intros c f k s size align ans x E. unfold allocate_impl in *. destruct (size =? 0); auto.
  assert (X : forall m : res (state * Z * list upcall), cassert (DBG c) (is_power_of_2 align) m = Ok x ->
    m = Ok x /\ (forall m' : res (state * Z * list upcall), cassert (DBG c) (is_power_of_2 align) m' = m')).
  { unfold cassert. destruct (DBG c), (is_power_of_2 align); intros m H; auto; discriminate H. }
  destruct (X _ E) as [E' X']. rewrite X'. clear E X X'.
  apply bind_ok in E'. destruct E' as [y [E1 E]]. rewrite (search_more _ _ k _ _ _ _ E1). exact E.
Qed.

(** the alignment is within reach or not *)
Lemma reach_dec : forall c s align, cfg_ok c -> geometry c s -> ordinary_buffer (data s) (bc s * BS c) -> pow2 align ->
  alignment_within_reach (data s) (bc s * BS c) align \/ ~ alignment_within_reach (data s) (bc s * BS c) align.
Proof.
  intros c s align HC G O Pa. destruct (gate_value c s HC G O) as [m [E [g [A [Pm [Gm _]]]]]].
  destruct (Z.leb_spec align m) as [L|L].
  - left. exists g. split; auto. eapply guaranteed_less; eauto.
  - right. intros RE. assert (X := search_reached c s 0 1 align HC G O Pa RE).
    rewrite E in X. destruct (Z.leb_spec align m); [lia|discriminate X].
Qed.

Lemma upstream_exact : forall c buffer size s fuel ops s' es sz align ans,
  made c buffer size true s -> DBG c = true -> Forall sane_op ops -> run c fuel s ops = Ok (s', es) ->
  0 < sz /\ pow2 align /\ sz + align <= 2 ^ 64 -> answer_fits (BS c) (ans sz align) ->
  ((exists f s2 p calls, allocate_impl c f s' sz align ans = Ok (s2, p, calls) /\ calls <> []) <->
   ~ alignment_within_reach (data s) (bc s * BS c) align \/
   search_from_0 (data s) (BS c) (bc s) (nxt s') (inuse s') sz align (Some Ends)) /\
  forall f s2 p calls, allocate_impl c f s' sz align ans = Ok (s2, p, calls) -> calls <> [] ->
    s2 = s' /\ p = ans sz align /\ calls = [UpAllocate sz align].
Proof.
  intros c buffer size s fuel ops s' es sz align ans M DB V R HR AF.
  destruct (search_exact _ _ _ _ _ _ _ _ _ sz align ans M DB V R HR) as [Y N].
  destruct (debug_state _ _ _ _ _ _ _ _ _ M DB V R) as [HC [G [LF [SP O]]]].
  destruct (made_wf _ _ _ _ _ M) as [_ [W [U0 _]]].
  assert (U : has_up s' = true) by (destruct SP as [_ [_ X]]; rewrite X; exact U0).
  assert (Pa : pow2 align) by apply HR.
  assert (DEC := reach_dec c s align HC (wf_geom _ _ _ W) O Pa).
  set (big := (2 * Z.to_nat (bc s') + 2)%nat).
  assert (ENDS : follows c s' sz align ans (Some Ends) -> forall f, (big <= f)%nat ->
    allocate_impl c f s' sz align ans = Ok (s', ans sz align, [UpAllocate sz align])).
  { intros F f L. cbn [follows] in F. rewrite (F (fun _ => AF) f) by (unfold big in L; lia). rewrite U. reflexivity. }
  assert (SAME : forall v, follows c s' sz align ans v -> v <> Some GoesOn ->
    forall f s2 p calls, allocate_impl c f s' sz align ans = Ok (s2, p, calls) -> calls <> [] -> v = Some Ends).
  { intros v F NG f s2 p calls E NC. destruct v as [[i| |]|]; [| reflexivity | contradiction NG; reflexivity |].
    - exfalso. apply (allocate_more _ _ big) in E. cbn [follows] in F. destruct F as [F1 F2].
      assert (L : (2 * Z.to_nat (bc s') + 1 < f + big)%nat) by (unfold big; lia).
      assert (D : can_hold_spare (data s') (BS c) (from_block (nxt s') (bc s') i) sz align \/
                  ~ can_hold_spare (data s') (BS c) (from_block (nxt s') (bc s') i) sz align).
      { destruct Pa as [j [Hj Ej]]. assert (PP := pow2_pos j Hj).
        rewrite can_hold_spare_skip by lia.
        destruct (Z.ltb_spec (skip_of (region_addr (data s') (BS c) (from_block (nxt s') (bc s') i)) align + sz)
                             (rlen (from_block (nxt s') (bc s') i) * BS c)); [left|right]; lia. }
      destruct D as [D|D].
      + destruct (F1 D) as [s3 [q [_ X]]]. rewrite (X _ L) in E. inversion E. congruence.
      + rewrite (F2 D DB _ L) in E. discriminate E.
    - exfalso. cbn [follows] in F. specialize (F f). cbn beta in F. rewrite F in E. discriminate E. }
  assert (NOTON : forall v, search_from_0 (data s) (BS c) (bc s) (nxt s') (inuse s') sz align v -> v <> Some GoesOn).
  { intros v X. inversion X; subst; congruence. }
  assert (ASKED : forall f s2 p calls, allocate_impl c f s' sz align ans = Ok (s2, p, calls) -> calls <> [] ->
    ~ alignment_within_reach (data s) (bc s * BS c) align \/
    search_from_0 (data s) (BS c) (bc s) (nxt s') (inuse s') sz align (Some Ends)).
  { intros f s2 p calls E NC. destruct DEC as [RE|NR]; [right|left; auto].
    destruct (Y RE) as [v [V1 [_ V3]]]. rewrite (SAME v V3 (NOTON v V1) _ _ _ _ E NC) in V1. exact V1. }
  assert (BACK : ~ alignment_within_reach (data s) (bc s * BS c) align \/
    search_from_0 (data s) (BS c) (bc s) (nxt s') (inuse s') sz align (Some Ends) ->
    follows c s' sz align ans (Some Ends)).
  { intros [NR|X]; [apply N; auto|]. destruct DEC as [RE|NR]; [|apply N; auto].
    destruct (Y RE) as [v [_ [V2 V3]]]. rewrite (V2 _ X). exact V3. }
  split.
  - split.
    + intros [f [s2 [p [calls [E NC]]]]]. eapply ASKED; eauto.
    + intros B. exists big, s', (ans sz align), [UpAllocate sz align]. split; [|discriminate].
      apply ENDS; auto.
  - intros f s2 p calls E NC. assert (B := BACK (ASKED _ _ _ _ E NC)).
    apply (allocate_more _ _ big) in E. rewrite (ENDS B) in E by lia. inversion E. auto.
Qed.
