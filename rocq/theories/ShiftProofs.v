(** Proofs for C154: a resource and its displaced twin keep the same books. *)

Require Import ZArith Lia List Bool.
Require Import Verif.Outcome Verif.Machine Verif.BitsModel Verif.BitsSpec Verif.BitsProofs.
Require Import Verif.SimpleModel Verif.SimpleSpec Verif.SimpleView Verif.SimpleProofs Verif.SimpleOpProofs Verif.SimpleAnyProofs
  Verif.SimpleMainProofs.
Require Import Verif.SimpleRefuted Verif.MonoModel Verif.ShiftSpec.
Import ListNotations.
Open Scope Z_scope.
Open Scope res_scope.

Definition map_res {A B : Type} (f : A -> B) (r : res A) : res B := bind r (fun x => Ok (f x)).

Lemma bind_map : forall A B C (f : A -> B) (m : res A) (k : B -> res C),
  bind (map_res f m) k = bind m (fun x => k (f x)).
Proof. intros. destruct m; reflexivity. Qed.
Lemma map_bind : forall A B C (f : B -> C) (m : res A) (k : A -> res B),
  map_res f (bind m k) = bind m (fun x => map_res f (k x)).
Proof. intros. destruct m; reflexivity. Qed.
Lemma bind_same : forall A B (m : res A) (k k' : A -> res B), (forall x, m = Ok x -> k x = k' x) -> bind m k = bind m k'.
Proof. intros. destruct m; cbn [bind]; auto. Qed.
Lemma map_cassert : forall A B (f : A -> B) dbg b (k : res A),
  map_res f (cassert dbg b k) = cassert dbg b (map_res f k).
Proof. intros. destruct dbg, b; reflexivity. Qed.
Lemma map_abort : forall A B (f : A -> B) b (k : res A),
  map_res f (abort_when b k) = abort_when b (map_res f k).
Proof. intros. destruct b; reflexivity. Qed.
Lemma cassert_same : forall A dbg b (k k' : res A), k = k' -> cassert dbg b k = cassert dbg b k'.
Proof. intros. subst. reflexivity. Qed.
Lemma abort_same : forall A b (k k' : res A), k = k' -> abort_when b k = abort_when b k'.
Proof. intros. subst. reflexivity. Qed.
Lemma if_map : forall A B (f : A -> B) (b : bool) (x y : res A),
  map_res f (if b then x else y) = if b then map_res f x else map_res f y.
Proof. intros. destruct b; reflexivity. Qed.

(** * What the books say about themselves does not mention addresses *)
Section Books.
  Variables (c : cfg) (d : Z).
  Notation mv := (moved_simple d).

  Definition mv1 {A : Type} (x : state * A) : state * A := (mv (fst x), snd x).

  Ltac plain := unfold set_prev, set_next, set_prev_next, set_in_use, reset_in_use, at_, in_array, cassert, moved_simple;
    cbn [data bc has_up prv nxt inuse freec busyc];
    repeat match goal with |- context [if ?b then _ else _] => destruct b eqn:? end; reflexivity.

  Lemma v_set_prev : forall s i p, set_prev c (mv s) i p = map_res mv (set_prev c s i p).
  Proof. intros. plain. Qed.
  Lemma v_set_next : forall s i p, set_next c (mv s) i p = map_res mv (set_next c s i p).
  Proof. intros. plain. Qed.
  Lemma v_set_prev_next : forall s i p n, set_prev_next c (mv s) i p n = map_res mv (set_prev_next c s i p n).
  Proof. intros. plain. Qed.
  Lemma v_set_in_use : forall s i, set_in_use c (mv s) i = map_res mv (set_in_use c s i).
  Proof. intros. plain. Qed.
  Lemma v_reset_in_use : forall s i, reset_in_use c (mv s) i = map_res mv (reset_in_use c s i).
  Proof. intros. plain. Qed.
  Lemma v_next : forall s i, next_index c (mv s) i = next_index c s i.
  Proof. reflexivity. Qed.
  Lemma v_prev : forall s i, prev_index c (mv s) i = prev_index c s i.
  Proof. reflexivity. Qed.
  Lemma v_in_use : forall s i, in_use c (mv s) i = in_use c s i.
  Proof. reflexivity. Qed.
  Lemma v_bc : forall s, bc (mv s) = bc s.
  Proof. reflexivity. Qed.
  Lemma v_freec : forall s, freec (mv s) = freec s.
  Proof. reflexivity. Qed.
  Lemma v_busyc : forall s, busyc (mv s) = busyc s.
  Proof. reflexivity. Qed.

  Ltac go := repeat first
    [ rewrite v_set_prev | rewrite v_set_next | rewrite v_set_prev_next | rewrite v_set_in_use | rewrite v_reset_in_use
    | rewrite v_next | rewrite v_prev | rewrite v_in_use | rewrite v_bc | rewrite v_freec | rewrite v_busyc
    | rewrite bind_map | rewrite map_bind | rewrite map_cassert | rewrite map_abort | rewrite if_map
    | apply cassert_same | apply abort_same | apply bind_same; intros ? _; cbv beta zeta | reflexivity
    | match goal with |- (if ?b then _ else _) = (if ?b then _ else _) => destruct b end ].

  Lemma v_not_matched : forall s a b e f, allocate_not_matched c (mv s) a b e f = map_res mv (allocate_not_matched c s a b e f).
  Proof. intros. unfold allocate_not_matched. cbv zeta. go. Qed.
  Lemma v_begin_matched : forall s a b e, allocate_begin_matched c (mv s) a b e = map_res mv (allocate_begin_matched c s a b e).
  Proof. intros. unfold allocate_begin_matched. cbv zeta. go. Qed.
  Lemma v_end_matched : forall s a b e, allocate_end_matched c (mv s) a b e = map_res mv (allocate_end_matched c s a b e).
  Proof. intros. unfold allocate_end_matched. cbv zeta. go. Qed.
  Lemma v_matched : forall s a, allocate_matched c (mv s) a = map_res mv (allocate_matched c s a).
  Proof. intros. unfold allocate_matched. go. Qed.

  Lemma v_merge : forall s l r, merge_if_both_not_in_use c (mv s) l r = map_res mv1 (merge_if_both_not_in_use c s l r).
  Proof. intros. unfold merge_if_both_not_in_use. go. Qed.

  Lemma v_adjacent : forall s i, merge_adjacent_blocks c (mv s) i = map_res mv1 (merge_adjacent_blocks c s i).
  Proof.
    intros. unfold merge_adjacent_blocks. go. rewrite v_merge, bind_map. apply bind_same. intros [s' m] _.
    unfold mv1 at 1. cbn [fst snd]. rewrite v_next, map_bind. apply bind_same. intros n _. apply v_merge.
  Qed.

  Lemma v_deallocate_blocks : forall s i, deallocate_blocks c (mv s) i = map_res mv1 (deallocate_blocks c s i).
  Proof.
    intros. unfold deallocate_blocks. go.
    match goal with |- merge_adjacent_blocks c ?x i = _ => match goal with |- _ = map_res mv1 (merge_adjacent_blocks c ?y i) =>
      change x with (mv y) end end. apply v_adjacent.
  Qed.
  Lemma v_in_use_fun : forall s i, in_use c (mv s) i = in_use c s i.
  Proof. reflexivity. Qed.

  Definition mv2 {A : Type} (x : state * A * bool) : state * A * bool := (mv (fst (fst x)), snd (fst x), snd x).

  Lemma v_release_act : forall s a i, release_act c (mv s) a i = map_res mv2 (release_act c s a i).
  Proof.
    intros. unfold release_act. rewrite v_deallocate_blocks, bind_map, map_bind. apply bind_same. intros [s' m] _.
    unfold mv1. cbn [fst snd]. rewrite v_next, map_bind. reflexivity.
  Qed.

  Lemma v_release_loop : forall fuel s a i,
    apply_loop fuel c (in_use c) (release_act c) (mv s) a i = map_res mv1 (apply_loop fuel c (in_use c) (release_act c) s a i).
  Proof.
    induction fuel as [|fuel IH]; intros s a i; [reflexivity|]. cbn [apply_loop].
    rewrite v_next, map_bind. apply bind_same. intros _ _. rewrite v_in_use, map_bind. apply bind_same. intros b _.
    destruct b.
    - rewrite v_release_act, bind_map. destruct (release_act c s a i) as [[[s' a'] r]| | |]; cbn [bind map_res]; auto.
      unfold mv2. cbn [fst snd bind]. destruct (of_bool r =? 0); [reflexivity|apply IH].
    - destruct (next_index c s i) as [n| | |]; cbn [bind map_res]; auto.
      destruct (n =? 0); [reflexivity|apply IH].
  Qed.

  Lemma v_release : forall fuel s, release c fuel (mv s) = map_res mv (release c fuel s).
  Proof.
    intros. unfold release. rewrite v_release_loop, bind_map, map_bind. apply bind_same. intros [s' a] _. reflexivity.
  Qed.
End Books.

(** * The decision whether an alignment is within reach *)

Lemma pow2_lt_divides : forall g a, pow2 g -> pow2 a -> g <= a -> (g | a).
Proof.
  intros g a [i [Hi ->]] [j [Hj ->]] L. apply pow2_divide. split; auto.
  apply Z.pow_le_mono_r_iff with (a := 2); lia.
Qed.

Lemma gate_one_way : forall x d n align g1 g2 m1 m2, 0 < x -> 0 < x + d -> 0 < n -> pow2 align -> (align | d) ->
  alignment_of x g1 -> best_alignment g1 n m1 -> alignment_of (x + d) g2 -> best_alignment g2 n m2 ->
  align <= m1 -> align <= m2.
Proof.
  intros x d n align g1 g2 m1 m2 X1 X2 N Pa Da [A1 [A2 A3]] [P1 [P2 P3]] [B1 [B2 B3]] [Q1 [Q2 Q3]] L.
  destruct (Z_le_gt_dec align g1) as [C|C].
  - assert (align | x + d).
    { apply Z.divide_add_r; auto. apply Z.divide_trans with g1; auto. apply pow2_lt_divides; auto. }
    apply Q3; auto. intros p Hp Dp _. exists p. split; [lia|].
    apply Z.divide_trans with g2; auto. apply pow2_lt_divides; auto.
  - assert (K : g1 = g2); [|subst g2; apply Z.le_trans with m1; auto].
    apply Z.le_antisymm.
    + apply B3; auto. apply Z.divide_add_r; auto. apply Z.divide_trans with align; auto. apply pow2_lt_divides; auto. lia.
    + destruct (Z_le_gt_dec g2 align) as [C2|C2].
      * apply A3; auto. replace x with (x + d - d) by lia. apply Z.divide_sub_r; auto.
        apply Z.divide_trans with align; auto. apply pow2_lt_divides; auto.
      * exfalso. assert (align <= g1); [|lia]. apply A3; auto. replace x with (x + d - d) by lia. apply Z.divide_sub_r; auto.
        apply Z.divide_trans with g2; auto. apply pow2_lt_divides; auto. lia.
Qed.

Lemma gate_both : forall x d n align g1 g2 m1 m2, 0 < x -> 0 < x + d -> 0 < n -> pow2 align -> (align | d) ->
  alignment_of x g1 -> best_alignment g1 n m1 -> alignment_of (x + d) g2 -> best_alignment g2 n m2 ->
  (align <=? m1) = (align <=? m2).
Proof.
  intros x d n align g1 g2 m1 m2 X1 X2 N Pa Da A B A' B'.
  destruct (Z.leb_spec align m1) as [C|C]; destruct (Z.leb_spec align m2) as [C'|C']; auto; exfalso.
  - assert (align <= m2); [|lia]. eapply (gate_one_way x d n align); eauto.
  - assert (align <= m1); [|lia].
    eapply (gate_one_way (x + d) (- d) n align g2 g1 m2 m1); eauto; try lia.
    + apply Z.divide_opp_r. auto.
    + replace (x + d + - d) with x by lia. auto.
Qed.

(** * Addresses *)
Section Two.
  Variables (c : cfg) (d : Z).
  Hypothesis HC : cfg_ok c.
  Hypothesis DB : (BS c | d).
  Notation mv := (moved_simple d).

  (** both twins are in good places *)
  Record twins (s : state) : Prop := {
    t_one : geometry c s;
    t_two : geometry c (mv s);
    t_ord : ordinary_buffer (data s) (bc s * BS c);
    t_ord2 : ordinary_buffer (data s + d) (bc s * BS c)
  }.
  Lemma twins_same : forall s s', twins s -> same_place s s' -> twins s'.
  Proof.
    intros s s' [[A1 A2 A3 A4 A5] [B1 B2 B3 B4 B5] O1 O2] [E1 [E2 E3]]. cbn [moved_simple data bc] in *.
    constructor; [constructor|constructor| |]; cbn [moved_simple data bc]; rewrite ?E1, ?E2; auto.
  Qed.

  Lemma v_index : forall s p, twins s -> pointer_to_block_index c (mv s) (p + d) = pointer_to_block_index c s p.
  Proof.
    intros s p [G1 G2 _ _]. unfold pointer_to_block_index. cbn [moved_simple data].
    replace (p + d - (data s + d)) with (p - data s) by lia.
    destruct (DBG c) eqn:D; [|reflexivity].
    assert (M1 := g_max _ _ G1 D). assert (M2 := g_max _ _ G2 D). cbn [moved_simple data] in M2.
    assert (P := bs_pos c HC). assert (MR := mb_range _ HC). assert (0 <= MB c * BS c) by (apply Z.mul_nonneg_nonneg; lia).
    assert (X1 := g_data _ _ G1). assert (X2 := g_data _ _ G2). cbn [moved_simple data] in X2.
    rewrite (Z.mul_comm (BS c) (MB c)). rewrite !(wrap_id _ (MB c * BS c)) by lia.
    rewrite (wrap_id _ (data s + MB c * BS c)), (wrap_id _ (data s + d + MB c * BS c)) by lia.
    replace (data s + d <=? p + d) with (data s <=? p).
    2:{ destruct (Z.leb_spec (data s) p); destruct (Z.leb_spec (data s + d) (p + d)); auto; lia. }
    replace (p + d <? data s + d + MB c * BS c) with (p <? data s + MB c * BS c); [reflexivity|].
    destruct (Z.ltb_spec p (data s + MB c * BS c)); destruct (Z.ltb_spec (p + d) (data s + d + MB c * BS c)); auto; lia.
  Qed.

  Lemma v_allocate_blocks : forall s i p size, twins s -> 0 <= p -> 0 <= p + d -> 0 <= size ->
    p + size < 2 ^ 64 -> p + d + size < 2 ^ 64 ->
    allocate_blocks c (mv s) i (p + d) size = map_res mv (allocate_blocks c s i p size).
  Proof.
    intros s i p size T P1 P2 S0 L1 L2. unfold allocate_blocks. rewrite v_index, map_bind by auto.
    apply bind_same. intros first _. rewrite (wrap_id _ (p + size)), (wrap_id _ (p + d + size)) by lia.
    replace (p + d + size) with (p + size + d) by lia.
    rewrite v_index, map_bind by auto. apply bind_same. intros last _. rewrite v_next, map_bind.
    apply bind_same. intros n _. rewrite v_bc. cbv zeta.
    destruct (i =? first); destruct (negb _);
      [apply v_begin_matched|apply v_matched|apply v_not_matched|apply v_end_matched].
  Qed.

  Definition mp (p : Z) : Z := if p =? 0 then 0 else p + d.
  Definition mv3 (x : state * Z * bool) : state * Z * bool := (mv (fst (fst x)), mp (snd (fst x)), snd x).
  Definition mv4 (x : state * Z) : state * Z := (mv (fst x), mp (snd x)).

  Section Request.
    Variables (size align : Z).
    Hypothesis S0 : 0 <= size.
    Hypothesis PA : pow2 align.
    Hypothesis DA : (align | d).

    Definition good (p : Z) : Prop := p = 0 \/ (0 < p < 2 ^ 64 /\ 0 < p + d < 2 ^ 64).
    Definition roomy (s : state) : Prop :=
      data s + MB c * BS c + align + size <= 2 ^ 64 /\ data s + d + MB c * BS c + align + size <= 2 ^ 64.

    Lemma v_skip : forall x dbg, 0 <= x < 2 ^ 64 -> 0 <= x + d < 2 ^ 64 -> align < 2 ^ 64 ->
      skip_to_align dbg (x + d) align = skip_to_align dbg x align /\
      exists k, skip_to_align dbg x align = Ok k /\ 0 <= k < align.
    Proof using PA DA.
      intros x dbg X1 X2 LA. destruct (pow2_cases align 64 ltac:(lia) PA LA) as [k [Hk E]]. revert DA. rewrite E. intros [q Q].
      rewrite !skip_value by lia. assert (PK := pow2_pos k ltac:(lia)). split.
      - f_equal. replace (- (x + d)) with (- x + (- q) * 2 ^ k) by lia. apply Z.mod_add. lia.
      - eexists. split; [reflexivity|]. apply Z.mod_pos_bound. lia.
    Qed.

    Lemma v_alloc_act : forall s p i, twins s -> roomy s ->
      alloc_act c size align (mv s) (mp p) i = map_res mv3 (alloc_act c size align s p i) /\
      (forall s' p' b, alloc_act c size align s p i = Ok (s', p', b) -> (b = true -> s' = s) /\ (good p -> good p')).
    Proof.
      intros s p i T R. unfold alloc_act.
      assert (P := bs_pos c HC). assert (MR := mb_range _ HC).
      assert (X1 := g_data _ _ (t_one _ T)). assert (X2 := g_data _ _ (t_two _ T)). cbn [moved_simple data] in X2.
      assert (0 < align) by (destruct PA as [k [Hk ->]]; apply pow2_pos; auto). destruct R as [R1 R2].
      change (block_size_in_bytes c (mv s) i) with (block_size_in_bytes c s i).
      destruct (block_size_in_bytes c s i) as [n| | |] eqn:EN; cbn [bind]; try (split; [reflexivity|discriminate]).
      assert (I : 0 <= i < MB c).
      { unfold block_size_in_bytes, block_size, next_index, at_, in_array, cassert in EN.
        destruct (Z.leb_spec 0 i); destruct (Z.ltb_spec i (MB c)); auto; exfalso; cbn [andb] in EN; destruct (DBG c); cbn [bind] in EN; try discriminate;
          destruct (i <? bc s); cbn [bind] in EN; discriminate. }
      assert (B : 0 <= i * BS c <= (MB c - 1) * BS c).
      { split; [apply Z.mul_nonneg_nonneg; lia|apply Z.mul_le_mono_nonneg_r; lia]. }
      assert (MB c * BS c = (MB c - 1) * BS c + BS c) by ring.
      assert (BP : forall t, t = s \/ t = mv s -> block_index_to_pointer c t i = cassert (DBG c) (i <? bc s) (Ok (data t + i * BS c))).
      { intros t [->| ->]; unfold block_index_to_pointer; cbn [moved_simple data bc]; rewrite (wrap_id _ (i * BS c)) by lia; rewrite wrap_id by lia; reflexivity. }
      rewrite (BP s), (BP (mv s)) by auto. cbn [moved_simple data].
      destruct (DBG c && negb (i <? bc s)) eqn:DI.
      { apply andb_prop in DI. destruct DI as [D1 D2]. apply negb_true_iff in D2. rewrite D1, D2. cbn [cassert bind]. split; [reflexivity|discriminate]. }
      replace (cassert (DBG c) (i <? bc s) (Ok (data s + i * BS c))) with (Ok (data s + i * BS c)).
      2:{ destruct (DBG c); destruct (i <? bc s); try reflexivity. discriminate DI. }
      replace (cassert (DBG c) (i <? bc s) (Ok (data s + d + i * BS c))) with (Ok (data s + i * BS c + d)).
      2:{ replace (data s + d + i * BS c) with (data s + i * BS c + d) by lia. destruct (DBG c); destruct (i <? bc s); try reflexivity. discriminate DI. }
      cbn [bind].
      destruct (v_skip (data s + i * BS c) (DBG c) ltac:(lia) ltac:(lia) ltac:(lia)) as [-> [k [-> K]]]. cbn [bind].
      destruct (wrap 64 (k + size) <=? n).
      - cbv zeta. rewrite (wrap_id _ (data s + i * BS c + k)), (wrap_id _ (data s + i * BS c + d + k)) by lia.
        replace (data s + i * BS c + d + k) with (data s + i * BS c + k + d) by lia. split.
        + rewrite v_allocate_blocks, bind_map by (auto; lia).
          destruct (allocate_blocks c s i (data s + i * BS c + k) size); cbn [bind map_res]; auto.
          unfold mv3, mp. cbn [fst snd]. rewrite eqb_false by lia. reflexivity.
        + intros s' p' b E. destruct (allocate_blocks c s i (data s + i * BS c + k) size); cbn [bind] in E; try discriminate.
          injection E as <- <- <-. split; [discriminate|]. intros _. right. lia.
      - rewrite v_next. split.
        + destruct (next_index c s i); reflexivity.
        + intros s' p' b E. destruct (next_index c s i); cbn [bind] in E; try discriminate. injection E as <- <- _. auto.
    Qed.

    Lemma v_alloc_loop : forall fuel s p i, twins s -> roomy s ->
      apply_loop fuel c (alloc_pred c) (alloc_act c size align) (mv s) (mp p) i =
      map_res mv4 (apply_loop fuel c (alloc_pred c) (alloc_act c size align) s p i) /\
      (forall s' p', apply_loop fuel c (alloc_pred c) (alloc_act c size align) s p i = Ok (s', p') -> good p -> good p').
    Proof.
      induction fuel as [|fuel IH]; intros s p i T R; [split; [reflexivity|discriminate]|]. cbn [apply_loop].
      rewrite v_next. change (alloc_pred c (mv s) i) with (alloc_pred c s i).
      destruct (next_index c s i) as [n| | |]; cbn [bind]; try (split; [reflexivity|discriminate]).
      destruct (alloc_pred c s i) as [b| | |]; cbn [bind]; try (split; [reflexivity|discriminate]).
      destruct b.
      - destruct (v_alloc_act s p i T R) as [E K]. rewrite E, bind_map.
        destruct (alloc_act c size align s p i) as [[[s' p'] r]| | |]; cbn [bind map_res]; try (split; [reflexivity|discriminate]).
        destruct (K s' p' r eq_refl) as [K1 K2].
        unfold mv3. cbn [fst snd bind]. destruct r.
        + cbn [of_bool]. change (1 =? 0) with false. cbv iota. rewrite (K1 eq_refl). destruct (IH s p' 1 T R) as [I1 I2].
          split; [exact I1|]. intros s2 p2 E2 GP. eapply I2; eauto.
        + cbn [of_bool]. change (0 =? 0) with true. cbv iota. split; [reflexivity|]. intros s2 p2 E2 GP. injection E2 as <- <-. auto.
      - cbn [bind]. destruct (n =? 0); [|apply IH; auto]. split; [reflexivity|]. intros s2 p2 E2 GP. injection E2 as <- <-. auto.
    Qed.

    Lemma v_search : forall fuel s, twins s -> roomy s ->
      search_buffer c fuel (mv s) size align = map_res mv4 (search_buffer c fuel s size align) /\
      (forall s' p, search_buffer c fuel s size align = Ok (s', p) -> good p).
    Proof.
      intros fuel s T R. assert (P := bs_pos c HC).
      destruct (gate_value c s HC (t_one _ T) (t_ord _ T)) as [m1 [E1 [g1 [A1 B1]]]].
      destruct (gate_value c (mv s) HC (t_two _ T) (t_ord2 _ T)) as [m2 [E2 [g2 [A2 B2]]]].
      rewrite E1, E2. cbn [moved_simple data bc] in A2, B2.
      rewrite (gate_both (data s) d (bc s * BS c) align g1 g2 m1 m2); auto.
      - destruct (align <=? m2).
        + destruct (v_alloc_loop fuel s 0 0 T R) as [L1 L2]. split; [exact L1|]. intros s' p E. eapply L2; eauto. left. reflexivity.
        + split; [reflexivity|]. intros s' p E. injection E as <- <-. left. reflexivity.
      - apply (g_data _ _ (t_one _ T)).
      - apply (g_data _ _ (t_two _ T)).
      - destruct (g_bc _ _ (t_one _ T)). apply Z.mul_pos_pos; lia.
    Qed.

    Definition mv5 (x : state * Z * list upcall) : state * Z * list upcall :=
      (mv (fst (fst x)), match snd x with [] => mp (snd (fst x)) | _ => snd (fst x) end, snd x).

    Lemma v_aligned : forall dbg p, 0 <= p < 2 ^ 64 -> 0 <= p + d < 2 ^ 64 -> is_aligned dbg (p + d) (BS c) = is_aligned dbg p (BS c).
    Proof using HC DB.
      intros dbg p P1 P2. rewrite !aligned_bs by auto. destruct DB as [q Q]. rewrite Q. rewrite Z.mod_add; [reflexivity|].
      assert (P := bs_pos c HC). clear - P. lia.
    Qed.

    Lemma v_allocate : forall fuel s ans, twins s -> roomy s ->
      allocate_impl c fuel (mv s) size align ans = map_res mv5 (allocate_impl c fuel s size align ans).
    Proof.
      intros fuel s ans T R. unfold allocate_impl. destruct (size =? 0); [reflexivity|].
      rewrite map_cassert. apply cassert_same. destruct (v_search fuel s T R) as [E K]. rewrite E, bind_map, map_bind. apply bind_same.
      intros [s' p] F. specialize (K s' p F). unfold mv4. cbn [fst snd]. change (has_up (mv s')) with (has_up s').
      assert (Z0 : (mp p =? 0) = (p =? 0)).
      { unfold mp. destruct (Z.eqb_spec p 0) as [->|N]; [reflexivity|]. destruct K as [K|K]; [lia|]. apply eqb_false. lia. }
      rewrite Z0. destruct ((p =? 0) && has_up s') eqn:U.
      - rewrite map_bind. apply bind_same. intros al _. rewrite map_cassert. reflexivity.
      - replace (if DBG c then is_aligned true (mp p) (BS c) else Ok true) with (if DBG c then is_aligned true p (BS c) else Ok true).
        + rewrite map_bind. apply bind_same. intros al _. rewrite map_cassert. reflexivity.
        + destruct (DBG c); [|reflexivity]. unfold mp. destruct (Z.eqb_spec p 0) as [->|N]; [reflexivity|].
          destruct K as [K|K]; [lia|]. symmetry. apply v_aligned; lia.
    Qed.
  End Request.

  (** * Giving back *)
  Section Client.
    Variables (b n : Z).
    Hypothesis B1 : 0 < b.
    Hypothesis B2 : 0 < b + d.
    Hypothesis N0 : 0 <= n.
    Hypothesis E1 : b + n < 2 ^ 64.
    Hypothesis E2 : b + d + n < 2 ^ 64.

    Definition within_buffer (s : state) : Prop := b <= data s /\ data s + bc s * BS c <= b + n.

    Definition mv6 (x : state * list upcall) : state * list upcall := (mv (fst x), map (moved_call b n d) (snd x)).

    Lemma size_value : forall s, geometry c s -> size_ c s = bc s * BS c /\ wrap 64 (data s + size_ c s) = data s + bc s * BS c.
    Proof.
      intros s G. assert (P := bs_pos c HC). destruct G as [G1 G2 G3 G4 G5].
      assert (0 <= bc s * BS c) by (apply Z.mul_nonneg_nonneg; lia).
      unfold size_. rewrite (Z.mul_comm (BS c)). rewrite (wrap_id _ (bc s * BS c)) by lia. split; auto. apply wrap_id. lia.
    Qed.

    Lemma v_deallocate : forall s p, twins s -> within_buffer s -> 0 <= p < 2 ^ 64 ->
      (in_buffer b n p = false -> in_buffer (b + d) n p = false) ->
      deallocate_impl c (mv s) (moved b n d p) = map_res mv6 (deallocate_impl c s p).
    Proof.
      intros s p T [W1 W2] P0 F. assert (P := bs_pos c HC).
      destruct (size_value s (t_one _ T)) as [_ Z1]. destruct (size_value (mv s) (t_two _ T)) as [_ Z2].
      assert (BB := g_bc _ _ (t_one _ T)). assert (0 <= bc s * BS c) by (apply Z.mul_nonneg_nonneg; lia).
      cbn [moved_simple data bc] in Z2. unfold deallocate_impl. rewrite Z1. cbn [moved_simple data bc has_up]. rewrite Z2.
      unfold moved. destruct (in_buffer b n p) eqn:I.
      - assert (J := I). unfold in_buffer in J. apply andb_prop in J. destruct J as [J1 J2]. apply Z.leb_le in J1. apply Z.ltb_lt in J2.
        rewrite !eqb_false by lia. rewrite v_aligned by lia. rewrite map_bind. apply bind_same. intros al _.
        rewrite map_abort. apply abort_same.
        replace (data s + d <=? p + d) with (data s <=? p).
        2:{ destruct (Z.leb_spec (data s) p); destruct (Z.leb_spec (data s + d) (p + d)); auto; lia. }
        replace (p + d <? data s + d) with (p <? data s).
        2:{ destruct (Z.ltb_spec p (data s)); destruct (Z.ltb_spec (p + d) (data s + d)); auto; lia. }
        replace (p + d <? data s + d + bc s * BS c) with (p <? data s + bc s * BS c).
        2:{ destruct (Z.ltb_spec p (data s + bc s * BS c)); destruct (Z.ltb_spec (p + d) (data s + d + bc s * BS c)); auto; lia. }
        replace (data s + d + bc s * BS c <=? p + d) with (data s + bc s * BS c <=? p).
        2:{ destruct (Z.leb_spec (data s + bc s * BS c) p); destruct (Z.leb_spec (data s + d + bc s * BS c) (p + d)); auto; lia. }
        destruct ((data s <=? p) && (p <? data s + bc s * BS c)).
        + rewrite v_index, map_bind by auto. apply bind_same. intros i _. rewrite v_deallocate_blocks, bind_map, map_bind.
          apply bind_same. intros [s' m] _. reflexivity.
        + destruct (has_up s) eqn:U.
          * cbn [map_res bind]. unfold mv6. cbn [fst snd map moved_call]. unfold moved. rewrite I. reflexivity.
          * rewrite !map_abort. apply abort_same. apply abort_same. reflexivity.
      - specialize (F eq_refl). destruct (p =? 0); [reflexivity|]. rewrite map_bind. apply bind_same. intros al _.
        rewrite map_abort. apply abort_same.
        assert (O1 : p < data s \/ data s + bc s * BS c <= p).
        { unfold in_buffer in I. apply andb_false_iff in I. destruct I as [I|I]; [apply Z.leb_gt in I|apply Z.ltb_ge in I]; lia. }
        assert (O2 : p < data s + d \/ data s + d + bc s * BS c <= p).
        { unfold in_buffer in F. apply andb_false_iff in F. destruct F as [F|F]; [apply Z.leb_gt in F|apply Z.ltb_ge in F]; lia. }
        rewrite (proj2 (andb_false_iff (data s <=? p) (p <? data s + bc s * BS c))).
        2:{ destruct O1; [left; apply Z.leb_gt|right; apply Z.ltb_ge]; lia. }
        rewrite (proj2 (andb_false_iff (data s + d <=? p) (p <? data s + d + bc s * BS c))).
        2:{ destruct O2; [left; apply Z.leb_gt|right; apply Z.ltb_ge]; lia. }
        destruct (has_up s) eqn:U.
        + cbn [map_res bind]. unfold mv6. cbn [fst snd map moved_call]. unfold moved. rewrite I. reflexivity.
        + cbn [negb]. rewrite !andb_true_r.
          destruct (Z.ltb_spec p (data s)); destruct (Z.leb_spec (data s + bc s * BS c) p); try lia;
          destruct (Z.ltb_spec p (data s + d)); destruct (Z.leb_spec (data s + d + bc s * BS c) p); try lia; reflexivity.
    Qed.

    (** * Histories *)
    Variable top : Z.
    Hypothesis TM : 0 <= top.

    Definition lower (s : state) : Prop := data s + MB c * BS c <= top.
    Definition mv7 (x : state * event) : state * event := (mv (fst x), moved_event b n d (snd x)).

    Lemma v_step : forall fuel s o, twins s -> within_buffer s -> lower s -> movable b n top d o ->
      step c fuel (mv s) (moved_op b n d o) = map_res mv7 (step c fuel s o).
    Proof.
      intros fuel s o T W L M. destruct o as [size align ans|p|]; cbn [movable moved_op step] in *.
      - destruct M as [M1 [M2 [M3 [M4 M5]]]]. unfold lower in L. rewrite v_allocate; auto.
        + rewrite bind_map, map_bind. apply bind_same. intros [[s' p] calls] _. unfold mv5. cbn [fst snd map_res bind].
          unfold mv7. cbn [fst snd moved_event]. destruct calls; reflexivity.
        + unfold roomy. lia.
      - destruct M as [M1 M2]. rewrite v_deallocate by auto. rewrite bind_map, map_bind. apply bind_same. intros [s' calls] _. reflexivity.
      - rewrite v_release, bind_map, map_bind. reflexivity.
    Qed.

    Lemma v_run : forall fuel ops s, twins s -> within_buffer s -> lower s -> Forall (movable b n top d) ops ->
      run c fuel (mv s) (map (moved_op b n d) ops) = moved_outcome mv b n d (run c fuel s ops).
    Proof.
      intros fuel. induction ops as [|o ops IH]; intros s T W L M; [reflexivity|]. inversion M as [|? ? M1 M2]; subst.
      cbn [map run]. rewrite v_step, bind_map by auto.
      destruct (step c fuel s o) as [[s1 e]| | |] eqn:E; cbn [bind moved_outcome]; auto.
      unfold mv7. cbn [fst snd].
      assert (K : kept c s s1).
      { destruct (step_any c fuel s o s1 e HC (g_aligned _ _ (t_one _ T))) as [K _]; auto.
        destruct o as [size align ans|p|]; cbn [sane_op movable] in *; auto.
        destruct M1 as [X1 [X2 [X3 [X4 X5]]]]. assert (PA : 0 < align) by (destruct X2 as [k [Hk ->]]; apply pow2_pos; auto).
        unfold lower in L. assert (X6 := g_data _ _ (t_one _ T)). assert (MR := mb_range _ HC). assert (P := bs_pos c HC).
        assert (0 < MB c * BS c) by (apply Z.mul_pos_pos; lia). split; [auto|split; [auto|lia]]. }
      destruct K as [SP _]. rewrite IH.
      - destruct (run c fuel s1 ops) as [[s2 es]| | |]; reflexivity.
      - eapply twins_same; eauto.
      - destruct SP as [Q1 [Q2 Q3]]. unfold within_buffer. rewrite Q1, Q2. exact W.
      - destruct SP as [Q1 [Q2 Q3]]. unfold lower. rewrite Q1. exact L.
      - exact M2.
    Qed.
  End Client.
End Two.

(** * The two constructors *)

Lemma made_values : forall c b n up s, made c b n up s ->
  0 < b /\ 0 < n /\ (BS c < 2 ^ 64) /\ exists k, skip_to_align (DBG c) b (BS c) = Ok k /\ 0 <= k < BS c /\ k < n /\
    0 < (n - k) / BS c /\
    s = St (b + k) (Z.min ((n - k) / BS c) (MB c)) up (fun _ => 0) (fun _ => 0) (fun _ => false) 1 0.
Proof.
  intros c b n up s [HC [B1 [B2 B3]] HM HF HB HO].
  unfold construct, origin_and_block_count in HF.
  destruct (b =? 0) eqn:Eb; [cbn [negb andb bind] in HF; injection HF as <-; cbn [bc] in HB; assert (M := mb_range _ HC); lia|].
  destruct (n =? 0) eqn:En; [cbn [negb andb bind] in HF; injection HF as <-; cbn [bc] in HB; assert (M := mb_range _ HC); lia|].
  apply Z.eqb_neq in Eb, En. cbn [negb andb] in HF.
  assert (P := bs_pos c HC). assert (BR := bs_range _ HC).
  destruct (skip_to_align_correct (DBG c) b (BS c) (bs_pow2 _ HC) BR ltac:(lia)) as [k [K1 [[K2 _] [K3 _]]]].
  rewrite K1 in HF. cbn [bind] in HF.
  destruct (Z.ltb_spec k n) as [C|C]; [|cbn [bind] in HF; injection HF as <-; cbn [bc] in HB; assert (M := mb_range _ HC); lia].
  cbv zeta in HF.
  destruct (Z.ltb_spec 0 ((n - k) / BS c)) as [C2|C2]; [|cbn [bind] in HF; injection HF as <-; cbn [bc] in HB; assert (M := mb_range _ HC); lia].
  cbn [bind] in HF. injection HF as <-. rewrite wrap_id by lia.
  split; [lia|]. split; [lia|]. split; [auto|]. exists k. repeat split; auto; lia.
Qed.

Lemma made_twins : forall c b n up s s2 d, made c b n up s -> made c (b + d) n up s2 -> (BS c | d) ->
  s2 = moved_simple d s /\ twins c d s /\ within_buffer c b n s /\ lower c (b + BS c + MB c * BS c) s.
Proof.
  intros c b n up s s2 d M1 M2 D. assert (HC := made_cfg _ _ _ _ _ M1).
  destruct (made_values _ _ _ _ _ M1) as [V1 [V2 [V3 [k [K1 [K2 [K3 [K4 K5]]]]]]]].
  destruct (made_values _ _ _ _ _ M2) as [W1 [W2 [W3 [k2 [L1 [L2 [L3 [L4 L5]]]]]]]].
  assert (B := made_buffer _ _ _ _ _ M1). assert (B' := made_buffer _ _ _ _ _ M2). unfold buffer_ok in B, B'.
  assert (E : k2 = k).
  { destruct (v_skip d (BS c) (bs_pow2 _ HC) D b (DBG c) ltac:(lia) ltac:(lia) V3) as [E _]. rewrite L1, K1 in E. injection E. auto. }
  subst k2. assert (S2 : s2 = moved_simple d s).
  { rewrite K5, L5. unfold moved_simple. cbn [data bc has_up prv nxt inuse freec busyc]. f_equal. lia. }
  destruct (made_wf _ _ _ _ _ M1) as [_ [X1 [_ [_ [O1 _]]]]]. destruct (made_wf _ _ _ _ _ M2) as [_ [X2 [_ [_ [O2 _]]]]].
  split; auto. split; [|split].
  - constructor; auto.
    + apply (wf_geom _ _ _ X1).
    + rewrite <- S2. apply (wf_geom _ _ _ X2).
    + rewrite S2 in O2. exact O2.
  - assert (DM := Z.mul_div_le (n - k) (BS c) ltac:(lia)).
    unfold within_buffer. rewrite K5. cbn [data bc]. split; [lia|].
    assert (Z.min ((n - k) / BS c) (MB c) * BS c <= (n - k) / BS c * BS c) by (apply Z.mul_le_mono_nonneg_r; lia). lia.
  - unfold lower. rewrite K5. cbn [data]. lia.
Qed.

Lemma simple_position : forall c b n up s s2 d fuel ops, made c b n up s -> made c (b + d) n up s2 -> (BS c | d) ->
  Forall (movable b n (b + BS c + MB c * BS c) d) ops ->
  run c fuel s2 (map (moved_op b n d) ops) = moved_outcome (moved_simple d) b n d (run c fuel s ops).
Proof.
  intros c b n up s s2 d fuel ops M1 M2 D F. destruct (made_twins _ _ _ _ _ _ _ M1 M2 D) as [-> [T [W L]]].
  destruct (made_values _ _ _ _ _ M1) as [V1 [V2 _]]. destruct (made_values _ _ _ _ _ M2) as [W1 _].
  assert (B := made_buffer _ _ _ _ _ M1). assert (B' := made_buffer _ _ _ _ _ M2). unfold buffer_ok in B, B'.
  assert (HC := made_cfg _ _ _ _ _ M1).
  apply v_run with (top := b + BS c + MB c * BS c); auto; lia.
Qed.

(** * monotonic_buffer_resource *)
Section Mono.
  Variables (b n d : Z) (up dbg : bool).
  Hypothesis B1 : 0 < b.
  Hypothesis B2 : 0 < b + d.
  Hypothesis N0 : 0 <= n.

  Definition on (s : mono) : Prop := mdata s = b /\ msize s = n /\ b <= mnext s <= b + n.

  Lemma m_step : forall s o, on s -> movable b n (b + n) d o ->
    mono_step dbg (moved_mono d s) (moved_op b n d o) = bind (mono_step dbg s o) (fun x => Ok (moved_mono d (fst x), moved_event b n d (snd x))) /\
    (forall s' e, mono_step dbg s o = Ok (s', e) -> on s').
  Proof.
    intros s o [O1 [O2 O3]] M. destruct o as [size align ans|p|]; cbn [movable moved_op mono_step] in *.
    - destruct M as [M1 [M2 [M3 [M4 M5]]]].
      assert (PA : 0 < align) by (destruct M2 as [k [Hk ->]]; apply pow2_pos; auto).
      unfold mono_allocate. destruct (Z.eqb_spec size 0) as [S0|S0].
      { split; [reflexivity|]. intros s' e E. cbn [bind] in E. injection E as <- _. repeat split; auto; lia. }
      destruct (dbg && negb (is_power_of_2 align)) eqn:DI.
      { apply andb_prop in DI. destruct DI as [D1 D2]. apply negb_true_iff in D2. rewrite D1, D2. split; [reflexivity|discriminate]. }
      assert (CA : forall (k : res (mono * Z * list upcall)), cassert dbg (is_power_of_2 align) k = k).
      { intros k. destruct dbg; destruct (is_power_of_2 align); try reflexivity. discriminate DI. }
      rewrite !CA. cbn [moved_mono mdata msize mup mnext]. rewrite O1, O2. rewrite !eqb_false by lia.
      destruct (v_skip d align M2 M3 (mnext s) dbg ltac:(lia) ltac:(lia) ltac:(lia)) as [-> [k [-> K]]]. cbn [bind].
      cbv zeta. rewrite (wrap_id _ (mnext s + k)), (wrap_id _ (mnext s + d + k)) by lia.
      rewrite (wrap_id _ (mnext s + k + size)), (wrap_id _ (mnext s + d + k + size)) by lia.
      rewrite (wrap_id _ (b + n)), (wrap_id _ (b + d + n)) by lia.
      replace (mnext s + d + k + size <=? b + d + n) with (mnext s + k + size <=? b + n).
      2:{ destruct (Z.leb_spec (mnext s + k + size) (b + n)); destruct (Z.leb_spec (mnext s + d + k + size) (b + d + n)); auto; lia. }
      destruct (Z.leb_spec (mnext s + k + size) (b + n)); cbn [bind].
      + rewrite !eqb_false by lia. cbn [andb bind]. split.
        * cbn [fst snd moved_event]. rewrite eqb_false by lia. unfold moved_mono. cbn [mdata msize mup mnext].
          replace (mnext s + d + k + size) with (mnext s + k + size + d) by lia.
          replace (mnext s + d + k) with (mnext s + k + d) by lia. reflexivity.
        * intros s' e E. injection E as <- _. unfold on. cbn [mdata msize mnext]. repeat split; lia.
      + change (0 =? 0) with true. cbn [andb]. change (mup (moved_mono d s)) with (mup s). destruct (mup s); cbn [bind]; (split; [reflexivity|]);
          intros s' e E; injection E as <- _; repeat split; auto; lia.
    - unfold mono_deallocate. split; [reflexivity|]. intros s' e E. injection E as <- _. repeat split; auto; lia.
    - unfold mono_release. split; [reflexivity|]. intros s' e E. injection E as <- _. unfold on. cbn [mdata msize mnext]. repeat split; auto; lia.
  Qed.

  Lemma m_run : forall ops s, on s -> Forall (movable b n (b + n) d) ops ->
    mono_run dbg (moved_mono d s) (map (moved_op b n d) ops) = moved_outcome (moved_mono d) b n d (mono_run dbg s ops).
  Proof.
    induction ops as [|o ops IH]; intros s O M; [reflexivity|]. inversion M as [|? ? M1 M2]; subst. cbn [map mono_run].
    destruct (m_step s o O M1) as [E K]. rewrite E.
    destruct (mono_step dbg s o) as [[s1 e]| | |] eqn:F; cbn [bind moved_outcome fst snd]; auto.
    rewrite IH; auto; [|eapply K; eauto]. destruct (mono_run dbg s1 ops) as [[s2 es]| | |]; reflexivity.
  Qed.
End Mono.

Lemma mono_position : forall dbg b n up d ops, 0 < b -> 0 < b + d -> 0 < n ->
  Forall (movable b n (b + n) d) ops ->
  mono_run dbg (mono_construct (b + d) n up) (map (moved_op b n d) ops) =
  moved_outcome (moved_mono d) b n d (mono_run dbg (mono_construct b n up) ops).
Proof.
  intros dbg b n up d ops B1 B2 N F.
  replace (mono_construct (b + d) n up) with (moved_mono d (mono_construct b n up)).
  - apply m_run; auto; [lia|]. unfold mono_construct. rewrite !eqb_false by lia. unfold on. cbn [mdata msize mnext]. repeat split; lia.
  - unfold mono_construct. rewrite !eqb_false by lia. reflexivity.
Qed.

(** * Where the position shows *)

Lemma ctz_depends : forall dbg, exists s s2,
  buffer_ok 4096 32 /\ buffer_ok (2 ^ 32) 32 /\ 2 ^ 32 + 4 + 8 * 4 < 2 ^ 64 /\
  construct (conf 8 dbg) 4096 32 false = Ok s /\ construct (conf 8 dbg) (4096 + (2 ^ 32 - 4096)) 32 false = Ok s2 /\
  (4 | 2 ^ 32 - 4096) /\ movable 4096 32 (4096 + 4 + 8 * 4) (2 ^ 32 - 4096) (get 5) /\
  (exists s', run (conf 8 dbg) 1 s [get 5] = Ok (s', [EAllocate 5 1 4096 []])) /\
  (forall fuel, run (conf 8 dbg) fuel s2 [get 5] = UB).
Proof.
  intros dbg. exists (fresh 4096 8 false), (fresh (2 ^ 32) 8 false).
  split; [unfold buffer_ok; lia|]. split; [unfold buffer_ok; lia|]. split; [lia|].
  split; [destruct dbg; vm_compute; reflexivity|]. split; [destruct dbg; vm_compute; reflexivity|].
  split; [exists (2 ^ 30 - 1024); lia|].
  split; [unfold get, movable; split; [lia|]; split; [exact pow2_1|]; split; [apply Z.divide_1_l|]; lia|].
  split; [eexists; destruct dbg; vm_compute; reflexivity|].
  intros fuel. destruct dbg; reflexivity.
Qed.

Lemma made_at : forall dbg b, b = 4096 \/ b = 4100 \/ b = 8192 -> made (conf 8 dbg) b 32 false (fresh b 8 false).
Proof.
  intros dbg b H. constructor.
  - apply conf_ok. lia.
  - unfold buffer_ok. lia.
  - intros _. cbn [MB BS conf]. lia.
  - destruct H as [->|[->| ->]]; destruct dbg; vm_compute; reflexivity.
  - discriminate.
  - destruct H as [->|[->| ->]]; apply ordinary_small; cbn [data bc fresh BS conf]; lia.
Qed.

Lemma distance_matters : forall dbg,
  let o := OAllocate 1 8 (fun _ _ => 0) in
  (exists s', run (conf 8 dbg) 1 (fresh 4096 8 false) [o] = Ok (s', [EAllocate 1 8 4096 []])) /\
  (exists s', run (conf 8 dbg) 1 (fresh 4100 8 false) [o] = Ok (s', [EAllocate 1 8 4104 []])).
Proof. intros dbg. cbv zeta. split; eexists; destruct dbg; vm_compute; reflexivity. Qed.
