(** simple_resource on a platform with addresses of [w] bits does what it does with 64 bits. *)

Require Import ZArith Lia List Bool.
Require Import Verif.Outcome Verif.Machine Verif.BitsModel Verif.BitsSpec Verif.BitsProofs Verif.ArithModel.
Require Import Verif.WordSpec Verif.WordModel Verif.WordProofs.
Require Import Verif.SimpleModel Verif.SimpleSpec Verif.SimpleView Verif.SimpleProofs Verif.SimpleScanProofs Verif.SimpleOpProofs
  Verif.SimpleAnyProofs Verif.SimpleMainProofs Verif.SimpleRefuted.
Require Import Verif.BuildSpec Verif.BuildProofs.
Require Import Verif.WidthSpec Verif.WidthModel.
Import ListNotations.
Open Scope Z_scope.
Open Scope res_scope.

(** * 64 bits: the same functions *)

Lemma loop_ext : forall A c p (f g : state -> A -> Z -> res (state * A * bool)), (forall s a i, f s a i = g s a i) ->
  forall fuel s a i, apply_loop fuel c p f s a i = apply_loop fuel c p g s a i.
Proof.
  intros A c p f g H. induction fuel as [|fuel IH]; intros s a i; [reflexivity|]. cbn [apply_loop].
  destruct (next_index c s i); cbn [bind]; auto. destruct (p s i) as [[]| | |]; cbn [bind]; auto.
  - rewrite H. destruct (g s a i) as [[[s1 a1] r]| | |]; cbn [bind]; auto. destruct (of_bool r =? 0); auto.
  - destruct (_ =? 0); auto.
Qed.

Lemma run_64 : forall c fuel ops s, w_run 64 c fuel s ops = run c fuel s ops.
Proof.
  intros c fuel. induction ops as [|o ops IH]; intros s; [reflexivity|]. cbn [w_run run].
  replace (w_step 64 c fuel s o) with (step c fuel s o).
  - destruct (step c fuel s o) as [[s1 e]| | |]; cbn [bind]; auto. rewrite IH. reflexivity.
  - destruct o as [size align ans|p|]; reflexivity.
Qed.
Lemma construct_64 : forall c buffer size up, w_construct 64 c buffer size up = construct c buffer size up.
Proof. reflexivity. Qed.

(** * Results *)

Definition rmap {A B : Type} (f : A -> B) (r : res A) : res B := bind r (fun x => Ok (f x)).

Lemma bind_rmap : forall A B C (f : A -> B) (r : res A) (k : B -> res C), bind (rmap f r) k = bind r (fun x => k (f x)).
Proof. intros A B C f [] k; reflexivity. Qed.
Lemma rmap_bind : forall A B C (f : B -> C) (r : res A) (k : A -> res B), rmap f (bind r k) = bind r (fun x => rmap f (k x)).
Proof. intros A B C f [] k; reflexivity. Qed.
Lemma bind_ext : forall A B (r : res A) (k k' : A -> res B), (forall x, r = Ok x -> k x = k' x) -> bind r k = bind r k'.
Proof. intros A B [x| | |] k k' H; cbn [bind]; auto. Qed.
Lemma rmap_cassert : forall A B (f : A -> B) d b r, rmap f (cassert d b r) = cassert d b (rmap f r).
Proof. intros A B f [] [] r; reflexivity. Qed.
Lemma rmap_abort : forall A B (f : A -> B) b r, rmap f (abort_when b r) = abort_when b (rmap f r).
Proof. intros A B f [] r; reflexivity. Qed.
Lemma cassert_ext : forall A d b (r r' : res A), ((d = true -> b = true) -> r = r') -> cassert d b r = cassert d b r'.
Proof. intros A [] [] r r' H; cbn; auto. Qed.
Lemma abort_ext : forall A b (r r' : res A), (b = false -> r = r') -> abort_when b r = abort_when b r'.
Proof. intros A [] r r' H; cbn; auto. Qed.

(** * Counters *)

Lemma wrap_wrap : forall w x, 0 < w <= 64 -> wrap w (wrap 64 x) = wrap w x.
Proof.
  intros w x W. unfold wrap. replace (2 ^ 64) with (2 ^ w * 2 ^ (64 - w)) by (rewrite <- Z.pow_add_r by lia; f_equal; lia).
  rewrite Z.rem_mul_r by (pose proof (pow2_pos w ltac:(lia)); pose proof (pow2_pos (64 - w) ltac:(lia)); lia).
  rewrite Z.mul_comm, Z_mod_plus_full, Z.mod_mod by (pose proof (pow2_pos w ltac:(lia)); lia). reflexivity.
Qed.
Lemma w_inc_wrap : forall w x, 0 < w <= 64 -> w_inc w (wrap w x) = wrap w (inc x).
Proof.
  intros w x W. unfold w_inc, inc. rewrite wrap_wrap by auto. unfold wrap. apply Zplus_mod_idemp_l.
Qed.
Lemma w_dec_wrap : forall w x, 0 < w <= 64 -> w_dec w (wrap w x) = wrap w (dec x).
Proof.
  intros w x W. unfold w_dec, dec. rewrite wrap_wrap by auto. unfold wrap. apply Zminus_mod_idemp_l.
Qed.

(** * The functions that do not compute *)

Section Width.
  Variable w : Z.
  Hypothesis W : platform w.
  Lemma W0 : 0 < w <= 64.
  Proof. destruct W; lia. Qed.
  Lemma WP : 2 ^ 32 <= 2 ^ w <= 2 ^ 64.
  Proof. split; apply Z.pow_le_mono_r; destruct W; lia. Qed.

  Notation nar := (narrow w).

  Lemma n_next : forall c s i, next_index c (nar s) i = next_index c s i. Proof. reflexivity. Qed.
  Lemma n_prev : forall c s i, prev_index c (nar s) i = prev_index c s i. Proof. reflexivity. Qed.
  Lemma n_use : forall c s i, in_use c (nar s) i = in_use c s i. Proof. reflexivity. Qed.
  Lemma n_set_in_use : forall c s i, set_in_use c (nar s) i = rmap nar (set_in_use c s i).
  Proof. intros. unfold set_in_use, in_array. rewrite rmap_cassert. destruct (_ && _); reflexivity. Qed.
  Lemma n_reset_in_use : forall c s i, reset_in_use c (nar s) i = rmap nar (reset_in_use c s i).
  Proof. intros. unfold reset_in_use, in_array. rewrite rmap_cassert. destruct (_ && _); reflexivity. Qed.
  Lemma n_set_prev : forall c s i p, set_prev c (nar s) i p = rmap nar (set_prev c s i p).
  Proof.
    intros. unfold set_prev, at_, in_array. rewrite rmap_cassert. destruct (_ || _); [|reflexivity].
    rewrite rmap_cassert. destruct (_ && _); reflexivity.
  Qed.
  Lemma n_set_next : forall c s i p, set_next c (nar s) i p = rmap nar (set_next c s i p).
  Proof.
    intros. unfold set_next, at_, in_array. rewrite rmap_cassert. destruct (_ || _); [|reflexivity].
    rewrite rmap_cassert. destruct (_ && _); reflexivity.
  Qed.
  Lemma n_set_prev_next : forall c s i p n, set_prev_next c (nar s) i p n = rmap nar (set_prev_next c s i p n).
  Proof.
    intros. unfold set_prev_next, at_, in_array. rewrite !rmap_cassert. cbn [bc narrow with_busyc with_freec].
    destruct (_ && _); [|reflexivity]. destruct ((p <? i) || (p =? 0)), ((i <? n) || (n =? 0)); reflexivity.
  Qed.

  Lemma n_both : forall s, with_busyc (with_freec (nar s) (w_inc w (freec (nar s)))) (w_inc w (busyc (nar s))) =
    nar (with_busyc (with_freec s (inc (freec s))) (inc (busyc s))).
  Proof. intros s. unfold narrow. cbn [freec busyc with_busyc with_freec data bc has_up prv nxt inuse]. rewrite !w_inc_wrap by apply W0. reflexivity. Qed.
  Lemma n_busy : forall s, with_busyc (nar s) (w_inc w (busyc (nar s))) = nar (with_busyc s (inc (busyc s))).
  Proof. intros s. unfold narrow. cbn [freec busyc with_busyc with_freec data bc has_up prv nxt inuse]. rewrite !w_inc_wrap by apply W0. reflexivity. Qed.
  Lemma n_swap : forall s, with_busyc (with_freec (nar s) (w_dec w (freec (nar s)))) (w_inc w (busyc (nar s))) =
    nar (with_busyc (with_freec s (dec (freec s))) (inc (busyc s))).
  Proof. intros s. unfold narrow. cbn [freec busyc with_busyc with_freec data bc has_up prv nxt inuse]. rewrite w_inc_wrap, w_dec_wrap by apply W0. reflexivity. Qed.
  Lemma n_free_dec : forall s, with_freec (nar s) (w_dec w (freec (nar s))) = nar (with_freec s (dec (freec s))).
  Proof. intros s. unfold narrow. cbn [freec busyc with_busyc with_freec data bc has_up prv nxt inuse]. rewrite !w_dec_wrap by apply W0. reflexivity. Qed.
  Lemma n_free_inc : forall s, with_freec (nar s) (w_inc w (freec (nar s))) = nar (with_freec s (inc (freec s))).
  Proof. intros s. unfold narrow. cbn [freec busyc with_busyc with_freec data bc has_up prv nxt inuse]. rewrite !w_inc_wrap by apply W0. reflexivity. Qed.
  Lemma n_busy_dec : forall s, with_busyc (nar s) (w_dec w (busyc (nar s))) = nar (with_busyc s (dec (busyc s))).
  Proof. intros s. unfold narrow. cbn [freec busyc with_busyc with_freec data bc has_up prv nxt inuse]. rewrite !w_dec_wrap by apply W0. reflexivity. Qed.

  Ltac push := repeat first
    [ rewrite n_set_in_use | rewrite n_reset_in_use | rewrite n_set_prev | rewrite n_set_next | rewrite n_set_prev_next
    | rewrite n_next | rewrite n_prev | rewrite n_use
    | rewrite bind_rmap | rewrite rmap_bind | rewrite rmap_cassert | rewrite rmap_abort ].
  Ltac walk := repeat (push; first [apply cassert_ext; intros ? | apply abort_ext; intros ? | apply bind_ext; intros ? ?]); push.

  Lemma n_not_matched : forall c s a b d e, w_allocate_not_matched w c (nar s) a b d e = rmap nar (allocate_not_matched c s a b d e).
  Proof. intros. unfold w_allocate_not_matched, allocate_not_matched. walk. cbn [rmap bind]. rewrite n_both. reflexivity. Qed.
  Lemma n_begin_matched : forall c s a b d, w_allocate_begin_matched w c (nar s) a b d = rmap nar (allocate_begin_matched c s a b d).
  Proof. intros. unfold w_allocate_begin_matched, allocate_begin_matched. walk. cbn [rmap bind]. rewrite n_busy. reflexivity. Qed.
  Lemma n_matched : forall c s a, w_allocate_matched w c (nar s) a = rmap nar (allocate_matched c s a).
  Proof. intros. unfold w_allocate_matched, allocate_matched. walk. cbn [rmap bind]. rewrite n_swap. reflexivity. Qed.
  Lemma set_in_use_place : forall c s i s', set_in_use c s i = Ok s' -> bc s' = bc s.
  Proof. intros c s i s' H. unfold set_in_use in H. inv_ok. subst. reflexivity. Qed.
  Lemma n_end_matched : forall c s a b d, 1 <= bc s <= 2 ^ w -> w_allocate_end_matched w c (nar s) a b d = rmap nar (allocate_end_matched c s a b d).
  Proof.
    intros c s a b d B. unfold w_allocate_end_matched, allocate_end_matched. assert (WP' := WP).
    push. apply cassert_ext; intros _. push. apply cassert_ext; intros _. push. apply bind_ext. intros s1 E.
    apply set_in_use_place in E.
    replace (wrap w (bc (nar s1) - 1)) with (wrap 64 (bc s1 - 1)) by (cbn [bc narrow with_busyc with_freec]; rewrite !wrap_id by lia; reflexivity).
    walk. cbn [rmap bind]. rewrite n_busy. reflexivity.
  Qed.

  (** * A resource that lies in the address space *)

  Record fits (c : cfg) (s : state) : Prop := {
    f_cfg : cfg_ok c;
    f_debug : DBG c = true;
    f_data : 0 < data s;
    f_aligned : (BS c | data s);
    f_bc : 1 <= bc s <= MB c;
    f_max : data s + MB c * BS c < 2 ^ w;
    f_links : links_forward s;
    f_ordinary : ordinary_buffer (data s) (bc s * BS c)
  }.
  (** the counters have not come near the ends of their range *)
  Definition tally (m : Z) (s : state) : Prop :=
    exists k, freec s = wrap 64 k /\ 0 <= busyc s /\ Z.abs k + busyc s <= m.

  Lemma fits_place : forall c s s', fits c s -> same_place s s' -> links_forward s' -> fits c s'.
  Proof. intros c s s' [] [P1 [P2 P3]] L. constructor; rewrite ?P1, ?P2; auto. Qed.

  Lemma fits_bounds : forall c s, fits c s -> 0 < BS c /\ MB c <= MB c * BS c /\ 0 <= bc s * BS c <= MB c * BS c /\ MB c < 2 ^ w /\ BS c < 2 ^ w.
  Proof.
    intros c s F. assert (B := bs_pos c (f_cfg _ _ F)). destruct F. assert (M := mb_range _ f_cfg0).
    assert (MB c * 1 <= MB c * BS c) by (apply Z.mul_le_mono_nonneg_l; lia).
    assert (bc s * BS c <= MB c * BS c) by (apply Z.mul_le_mono_nonneg_r; lia).
    assert (0 <= bc s * BS c) by (apply Z.mul_nonneg_nonneg; lia).
    assert (1 * BS c <= MB c * BS c) by (apply Z.mul_le_mono_nonneg_r; lia).
    lia.
  Qed.

  Lemma next_inv : forall c s i n, next_index c s i = Ok n -> n = nxt s i /\ 0 <= i < MB c /\ (DBG c = true -> i < bc s).
  Proof. intros c s i n H. unfold next_index, at_ in H. inv_ok. split; [auto|]. split; [auto|]. intros D. apply Z.ltb_lt. auto. Qed.

  Lemma n_p2bi : forall c s p, fits c s -> w_pointer_to_block_index w c (nar s) p = pointer_to_block_index c s p.
  Proof.
    intros c s p F. destruct (fits_bounds c s F) as [B1 [B2 [B3 [B4 B5]]]]. assert (WP' := WP).
    unfold w_pointer_to_block_index, pointer_to_block_index. cbn [data narrow with_busyc with_freec].
    rewrite (f_debug _ _ F). assert (D := f_data _ _ F). assert (M := f_max _ _ F).
    rewrite (Z.mul_comm (BS c) (MB c)), !(wrap_id _ (MB c * BS c)) by lia.
    rewrite !(wrap_id _ (data s + MB c * BS c)) by lia.
    destruct (Z.leb_spec (data s) p); [|reflexivity]. destruct (Z.ltb_spec p (data s + MB c * BS c)); [|reflexivity].
    rewrite !(wrap_id _ (p - data s)) by lia. reflexivity.
  Qed.

  Lemma block_len : forall c s i n, fits c s -> next_index c s i = Ok n ->
    i < (if n =? 0 then bc s else n) <= bc s /\ 0 <= i < bc s.
  Proof.
    intros c s i n F E. apply next_inv in E. destruct E as [-> [E1 E2]]. specialize (E2 (f_debug _ _ F)).
    destruct (f_links _ _ F i) as [L|L]; [rewrite L; cbn [Z.eqb]; lia|]. rewrite eqb_false by lia. lia.
  Qed.

  Lemma n_bytes : forall c s i, fits c s -> w_block_size_in_bytes w c (nar s) i = block_size_in_bytes c s i.
  Proof.
    intros c s i F. destruct (fits_bounds c s F) as [B1 [B2 [B3 [B4 B5]]]]. assert (WP' := WP).
    assert (M := f_max _ _ F). assert (D := f_data _ _ F). assert (Hbc := f_bc _ _ F).
    unfold w_block_size_in_bytes, block_size_in_bytes, w_block_size, block_size. rewrite n_next.
    destruct (next_index c s i) as [n| | |] eqn:E; [|reflexivity..]. cbn [bind bc narrow with_busyc with_freec].
    apply (block_len c s i n F) in E. destruct E as [E1 E2].
    rewrite !(wrap_id _ ((if n =? 0 then bc s else n) - i)) by lia. set (k := (if n =? 0 then bc s else n) - i) in *.
    assert (0 <= k * BS c <= bc s * BS c) by (split; [apply Z.mul_nonneg_nonneg; lia|apply Z.mul_le_mono_nonneg_r; lia]).
    rewrite !wrap_id by lia. reflexivity.
  Qed.

  Lemma n_bi2p : forall c s i, fits c s -> 0 <= i < bc s -> w_block_index_to_pointer w c (nar s) i = block_index_to_pointer c s i.
  Proof.
    intros c s i F I. destruct (fits_bounds c s F) as [B1 [B2 [B3 [B4 B5]]]]. assert (WP' := WP).
    assert (M := f_max _ _ F). assert (D := f_data _ _ F).
    unfold w_block_index_to_pointer, block_index_to_pointer. cbn [data bc narrow with_busyc with_freec].
    assert (0 <= i * BS c <= bc s * BS c) by (split; [apply Z.mul_nonneg_nonneg; lia|apply Z.mul_le_mono_nonneg_r; lia]).
    rewrite !(wrap_id _ (i * BS c)) by lia. rewrite !(wrap_id _ (data s + i * BS c)) by lia. reflexivity.
  Qed.

  Lemma n_blocks : forall c s r p size, fits c s -> 0 <= p + size < 2 ^ w ->
    w_allocate_blocks w c (nar s) r p size = rmap nar (allocate_blocks c s r p size).
  Proof.
    intros c s r p size F P. destruct (fits_bounds c s F) as [B1 [B2 [B3 [B4 B5]]]]. assert (WP' := WP). assert (B := f_bc _ _ F).
    unfold w_allocate_blocks, allocate_blocks. rewrite !n_p2bi by auto. rewrite !(wrap_id _ (p + size)) by lia.
    push. apply bind_ext. intros first E1. push. apply bind_ext. intros last E2. push. apply bind_ext. intros nx E3.
    cbn [bc narrow with_busyc with_freec]. rewrite !(wrap_id _ (bc s - 1)) by lia.
    destruct (r =? first); destruct (negb _);
      [apply n_begin_matched|apply n_matched|apply n_not_matched|apply n_end_matched; lia].
  Qed.

  Definition nar2 {A : Type} (x : state * A) : state * A := (nar (fst x), snd x).
  Definition nar3 {A B : Type} (x : state * A * B) : state * A * B := (nar (fst (fst x)), snd (fst x), snd x).

  Lemma align_log : forall a, pow2 a -> a < 2 ^ w -> exists k, 0 <= k < w /\ a = 2 ^ k.
  Proof. intros a P L. apply pow2_cases; auto. destruct W; lia. Qed.

  Lemma n_skip : forall d p a, pow2 a -> a < 2 ^ w -> 0 <= p < 2 ^ w -> w_skip_to_align w d p a = Ok (skip_of p a) /\ skip_to_align d p a = Ok (skip_of p a).
  Proof.
    intros d p a P L R. destruct (align_log a P L) as [k [K ->]]. assert (WP' := WP). assert (W0' := W0). split.
    - apply w_skip_value; lia.
    - apply skip_value; lia.
  Qed.
  Lemma n_aligned : forall d p a, pow2 a -> a < 2 ^ w -> 0 <= p < 2 ^ w -> w_is_aligned w d p a = is_aligned d p a.
  Proof.
    intros d p a P L R. destruct (align_log a P L) as [k [K ->]]. assert (WP' := WP). assert (W0' := W0).
    rewrite w_is_aligned_value, is_aligned_value by lia. reflexivity.
  Qed.
  Lemma n_power : forall v, 0 <= v < 2 ^ w -> w_is_power_of_2 w v = is_power_of_2 v.
  Proof.
    intros v V. assert (WP' := WP). assert (W0' := W0). apply eq_true_iff_eq. rewrite w_is_power_of_2_spec, is_power_of_2_spec by lia.
    split; intros [k [K ->]]; exists k; split; auto; [lia|]. split; [lia|]. apply Z.pow_lt_mono_r_iff with (a := 2); lia.
  Qed.

  Lemma n_act : forall c size align s q i, fits c s -> 0 < size -> pow2 align -> size + align <= 2 ^ w ->
    w_alloc_act w c size align (nar s) q i = rmap nar3 (alloc_act c size align s q i).
  Proof.
    intros c size align s q i F S Pa A. destruct (fits_bounds c s F) as [B1 [B2 [B3 [B4 B5]]]]. assert (WP' := WP).
    assert (M := f_max _ _ F). assert (D := f_data _ _ F).
    assert (A0 : 0 < align) by (destruct Pa as [k [K ->]]; apply pow2_pos; lia).
    unfold w_alloc_act, alloc_act. rewrite n_bytes by auto.
    destruct (block_size_in_bytes c s i) as [n| | |] eqn:En; [|reflexivity..].
    assert (I : 0 <= i < bc s /\ n <= bc s * BS c - i * BS c).
    { unfold block_size_in_bytes, block_size in En. inv_ok. subst. apply (block_len c s i) in E0; auto. destruct E0 as [E1 E2].
      split; [auto|]. set (e := if x0 =? 0 then bc s else x0) in *. assert (Hbc := f_bc _ _ F).
      assert (0 <= (e - i) * BS c <= bc s * BS c) by (split; [apply Z.mul_nonneg_nonneg; lia|apply Z.mul_le_mono_nonneg_r; lia]).
      rewrite (wrap_id 64 (e - i)) by lia. rewrite wrap_id by lia. rewrite <- Z.mul_sub_distr_r. apply Z.mul_le_mono_nonneg_r; lia. }
    destruct I as [I1 I2]. cbn [bind]. rewrite n_bi2p by auto.
    assert (I3 : 0 <= i * BS c < bc s * BS c) by (split; [apply Z.mul_nonneg_nonneg; lia|apply Z.mul_lt_mono_pos_r; lia]).
    unfold block_index_to_pointer. push. apply bind_ext. intros x X. inv_ok. subst x.
    rewrite (wrap_id 64 (i * BS c)) by lia. rewrite (wrap_id 64 (data s + i * BS c)) by lia. set (bp := data s + i * BS c).
    destruct (n_skip (DBG c) bp align Pa ltac:(lia) ltac:(unfold bp; lia)) as [-> ->]. cbn [bind].
    assert (SB := skip_bounds bp align A0). set (k := skip_of bp align) in *.
    rewrite !(wrap_id _ (k + size)) by lia. destruct (Z.leb_spec (k + size) n) as [L|L].
    - unfold bp in *. rewrite !(wrap_id _ (data s + i * BS c + k)) by lia. rewrite n_blocks by (auto; lia).
      push. apply bind_ext. intros s' E. reflexivity.
    - push. apply bind_ext. intros m E. reflexivity.
  Qed.

  (** * Loops *)

  Lemma n_loop : forall A c (p : state -> Z -> res bool) (f g : state -> A -> Z -> res (state * A * bool)) (I : state -> Prop),
    (forall s i, p (nar s) i = p s i) ->
    (forall s a i, I s -> f (nar s) a i = rmap nar3 (g s a i)) ->
    (forall s a i s' a', I s -> g s a i = Ok (s', a', true) -> I s') ->
    forall fuel s a i, I s -> apply_loop fuel c p f (nar s) a i = rmap nar2 (apply_loop fuel c p g s a i).
  Proof.
    intros A c p f g I Hp Hf Hg. induction fuel as [|fuel IH]; intros s a i HI; [reflexivity|]. cbn [apply_loop].
    rewrite Hp. push. apply bind_ext. intros _ _. apply bind_ext. intros [] _.
    - rewrite Hf by auto. push. destruct (g s a i) as [[[s1 a1] r]| | |] eqn:E; cbn [bind rmap nar3 fst snd]; [|reflexivity..].
      destruct r; cbn [of_bool Z.eqb]; [|reflexivity]. apply IH. eauto.
    - destruct (next_index c s i) as [n| | |]; cbn [bind rmap]; [|reflexivity..].
      destruct (n =? 0); [reflexivity|]. apply IH. auto.
  Qed.

  Lemma n_search : forall c fuel s size align, fits c s -> 0 < size -> pow2 align -> size + align <= 2 ^ w ->
    w_search_buffer w c fuel (nar s) size align = rmap nar2 (search_buffer c fuel s size align).
  Proof.
    intros c fuel s size align F S Pa A. destruct (fits_bounds c s F) as [B1 [B2 [B3 [B4 B5]]]]. assert (WP' := WP).
    assert (M := f_max _ _ F). assert (D := f_data _ _ F). assert (Hbc := f_bc _ _ F).
    unfold w_search_buffer, search_buffer. cbn [data bc narrow with_busyc with_freec]. rewrite (eqb_false (data s) 0) by lia.
    destruct (ctz_value (DBG c) (data s) D) as [z [Z1 [-> [Z3 [Z4 Z5]]]]]. cbn [bind].
    assert (G := f_ordinary _ _ F (2 ^ z) Z3 Z4). assert (PZ := pow2_pos z Z1).
    assert (0 < bc s * BS c) by (apply Z.mul_pos_pos; lia).
    assert (P31 : 2 ^ 31 < 2 ^ 32) by reflexivity.
    assert (Z31 : z < 31) by (apply Z.pow_lt_mono_r_iff with (a := 2); lia).
    rewrite shl_i32_one by lia. cbn [bind]. change (conv u64 (2 ^ z)) with (wrap 64 (2 ^ z)).
    rewrite !(wrap_id _ (2 ^ z)) by lia. rewrite !(wrap_id _ (bc s * BS c)) by lia.
    rewrite w_max_align_value by (auto; try lia; destruct W; lia). rewrite max_align_value by lia. cbn [bind].
    destruct (align <=? _); [|reflexivity]. apply n_loop with (I := fun s' => s' = s).
    - reflexivity.
    - intros s' a i ->. apply n_act; auto.
    - intros s' a i s1 a1 -> E.
      destruct (alloc_act_any c size align s a i s1 a1 true (f_cfg _ _ F) (f_aligned _ _ F) Pa ltac:(lia) E) as [[E1 _]|[_ [_ [_ [E1 _]]]]]; [auto|discriminate].
    - reflexivity.
  Qed.

  Lemma n_allocate : forall c fuel s size align ans, fits c s -> call_in w (OAllocate size align ans) ->
    w_allocate_impl w c fuel (nar s) size align ans = rmap nar3 (allocate_impl c fuel s size align ans).
  Proof.
    intros c fuel s size align ans F [C1 [C2 [C3 C4]]]. assert (WP' := WP).
    unfold w_allocate_impl, allocate_impl. destruct (Z.eqb_spec size 0) as [->|N]; [reflexivity|].
    rewrite n_power by lia. rewrite (f_debug _ _ F). cbn [cassert].
    destruct (is_power_of_2 align) eqn:Ea; [|reflexivity].
    assert (Pa : pow2 align).
    { apply is_power_of_2_spec in Ea; [|lia]. destruct Ea as [k [K ->]]. exists k. split; [lia|auto]. }
    assert (A0 : 0 < align) by (destruct Pa as [k [K ->]]; apply pow2_pos; lia).
    rewrite n_search by (auto; lia). push.
    destruct (search_buffer c fuel s size align) as [[s1 q]| | |] eqn:E; [|reflexivity..].
    cbn [bind nar2 fst snd].
    assert (Q : 0 <= q < 2 ^ w).
    { destruct (search_any c fuel s size align s1 q (f_cfg _ _ F) (f_aligned _ _ F) Pa ltac:(lia) E) as [[_ ->]|[_ [_ [_ [_ Q]]]]]; [lia|].
      destruct (fits_bounds c s F) as [B1 [B2 [B3 [B4 B5]]]]. assert (M := f_max _ _ F). assert (D := f_data _ _ F). assert (Hbc := f_bc _ _ F).
      destruct (Q (f_debug _ _ F) (f_links _ _ F) ltac:(lia)) as [Q1 Q2]; [unfold in_range; lia|]. cbn [fst snd] in *. lia. }
    cbn [has_up narrow with_busyc with_freec].
    destruct ((q =? 0) && has_up s1); (rewrite n_aligned; [|apply (bs_pow2 _ (f_cfg _ _ F))|apply (fits_bounds c s F)|lia]);
      (destruct (is_aligned true _ (BS c)) as [[]| | |]; reflexivity).
  Qed.

  (** * Giving back *)

  Lemma tally_freec0 : forall m s, tally m s -> m < 2 ^ w - 1 -> (0 <? wrap w (freec s)) = (0 <? freec s).
  Proof.
    intros m s [k [E [B K]]] M. rewrite E, wrap_wrap by apply W0. assert (WP' := WP). unfold wrap.
    destruct (Z_lt_le_dec k 0) as [N|N].
    - rewrite <- (Z_mod_plus_full k 1), <- (Z_mod_plus_full k 1 (2 ^ 64)), !Z.mod_small by lia.
      destruct (Z.ltb_spec 0 (k + 1 * 2 ^ w)), (Z.ltb_spec 0 (k + 1 * 2 ^ 64)); lia.
    - rewrite !Z.mod_small by lia. reflexivity.
  Qed.
  Lemma tally_freec1 : forall m s, tally m s -> m < 2 ^ w - 1 -> (wrap w (freec s) <? 2 ^ w - 1) = (freec s <? 2 ^ 64 - 1).
  Proof.
    intros m s [k [E [B K]]] M. rewrite E, wrap_wrap by apply W0. assert (WP' := WP). unfold wrap.
    destruct (Z_lt_le_dec k 0) as [N|N].
    - rewrite <- (Z_mod_plus_full k 1), <- (Z_mod_plus_full k 1 (2 ^ 64)), !Z.mod_small by lia.
      destruct (Z.ltb_spec (k + 1 * 2 ^ w) (2 ^ w - 1)), (Z.ltb_spec (k + 1 * 2 ^ 64) (2 ^ 64 - 1)); lia.
    - rewrite !Z.mod_small by lia. destruct (Z.ltb_spec k (2 ^ w - 1)), (Z.ltb_spec k (2 ^ 64 - 1)); lia.
  Qed.

  Lemma n_merge : forall c s l r m, tally m s -> m < 2 ^ w - 1 ->
    w_merge_if_both_not_in_use w c (nar s) l r = rmap nar2 (merge_if_both_not_in_use c s l r).
  Proof.
    intros c s l r m T M. unfold w_merge_if_both_not_in_use, merge_if_both_not_in_use.
    destruct ((l =? r) || (r =? 0)); [reflexivity|]. push. apply cassert_ext. intros _. push.
    apply bind_ext. intros lu _. push. apply bind_ext. intros ru _. push. apply cassert_ext. intros _.
    destruct lu; [reflexivity|]. push. apply bind_ext. intros ru' _. destruct ru'; [reflexivity|].
    change (freec (nar s)) with (wrap w (freec s)). rewrite (tally_freec0 m) by auto. walk.
    cbn [rmap bind nar2 fst snd]. rewrite n_free_dec. reflexivity.
  Qed.

  Lemma merge_tally : forall c s l r s' i, merge_if_both_not_in_use c s l r = Ok (s', i) ->
    freec s' = freec s \/ freec s' = dec (freec s).
  Proof.
    intros c s l r s' i H. unfold merge_if_both_not_in_use in H.
    destruct ((l =? r) || (r =? 0)); [inv_ok; subst; auto|]. inv_ok.
    destruct x; [inv_ok; subst; auto|]. inv_ok.
    match type of H with (if ?b then _ else _) = _ => destruct b end; [inv_ok; subst; auto|].
    inv_ok. subst. right. cbn [freec with_freec]. f_equal.
    unfold set_prev, set_next, at_ in *. inv_ok.
    repeat match goal with H : (if ?b then _ else _) = Ok _ |- _ => destruct b end; inv_ok; subst; reflexivity.
  Qed.

  (** what a merge can make of the counters *)
  Lemma merge_counts : forall c s l r s' i k, merge_if_both_not_in_use c s l r = Ok (s', i) -> freec s = wrap 64 k ->
    busyc s' = busyc s /\ (freec s' = wrap 64 k \/ freec s' = wrap 64 (k - 1)).
  Proof.
    intros c s l r s' i k H E. assert (Q := merge_quiet _ _ _ _ _ _ H). destruct Q as [_ [_ [Q _]]]. split; [auto|].
    destruct (merge_tally _ _ _ _ _ _ H) as [->| ->]; [auto|]. right. rewrite E. unfold dec, wrap. apply Zminus_mod_idemp_l.
  Qed.

  Lemma wrap_succ : forall k, inc (wrap 64 k) = wrap 64 (k + 1).
  Proof. intros k. unfold inc, wrap. apply Zplus_mod_idemp_l. Qed.
  Lemma wrap_pred : forall k, dec (wrap 64 k) = wrap 64 (k - 1).
  Proof. intros k. unfold dec, wrap. apply Zminus_mod_idemp_l. Qed.

  Lemma n_adjacent : forall c s i m k, freec s = wrap 64 k -> 0 <= busyc s -> Z.abs k + busyc s <= m -> Z.abs (k - 1) + busyc s <= m ->
    m < 2 ^ w - 1 -> w_merge_adjacent_blocks w c (nar s) i = rmap nar2 (merge_adjacent_blocks c s i).
  Proof.
    intros c s i m k E B K1 K2 M. unfold w_merge_adjacent_blocks, merge_adjacent_blocks. push. apply bind_ext. intros p _. push.
    apply bind_ext. intros u _. push. apply cassert_ext. intros _. rewrite (n_merge c s p i m) by (auto; exists k; auto). push.
    apply bind_ext. intros [s1 j] E1. cbn [nar2 fst snd]. push. apply bind_ext. intros n _.
    apply n_merge with m; [|auto]. destruct (merge_counts _ _ _ _ _ _ k E1 E) as [Y [X|X]].
    - exists k. rewrite Y. auto.
    - exists (k - 1). rewrite Y. auto.
  Qed.

  Lemma adjacent_counts : forall c s i s' j k, merge_adjacent_blocks c s i = Ok (s', j) -> freec s = wrap 64 k ->
    busyc s' = busyc s /\ exists k', freec s' = wrap 64 k' /\ k - 2 <= k' <= k.
  Proof.
    intros c s i s' j k H E. unfold merge_adjacent_blocks in H. inv_ok.
    match goal with A : merge_if_both_not_in_use c s _ _ = _, B : merge_if_both_not_in_use c _ _ _ = Ok (s', j) |- _ =>
      destruct (merge_counts _ _ _ _ _ _ k A E) as [X1 [X2|X2]];
      destruct (merge_counts _ _ _ _ _ _ _ B X2) as [Y1 Y2] end; (split; [congruence|]); destruct Y2 as [Y2|Y2]; (eexists; split; [exact Y2|lia]).
  Qed.

  Lemma n_blocks_back : forall c s i m, DBG c = true -> tally m s -> m < 2 ^ w - 1 ->
    w_deallocate_blocks w c (nar s) i = rmap nar2 (deallocate_blocks c s i) /\
    (forall s' j, deallocate_blocks c s i = Ok (s', j) -> tally m s').
  Proof.
    intros c s i m DB T M. assert (WP' := WP). unfold w_deallocate_blocks, deallocate_blocks. rewrite DB.
    destruct T as [k [K1 [K2 K3]]]. split.
    - push. apply cassert_ext. intros _. push.
      apply bind_ext. intros u _. push. apply abort_ext. intros _. push. apply bind_ext. intros s1 E1.
      assert (X : freec s1 = freec s /\ busyc s1 = busyc s) by (unfold reset_in_use in E1; inv_ok; subst; auto). destruct X as [X1 X2].
      change (busyc (nar s1)) with (wrap w (busyc s1)). rewrite (wrap_id w (busyc s1)) by lia.
      destruct (Z.ltb_spec 0 (busyc s1)) as [L|L]; [|reflexivity]. cbn [cassert negb]. cbv zeta.
      assert (EB : dec (busyc s1) = busyc s1 - 1) by (unfold dec; apply wrap_id; lia).
      assert (EW : w_dec w (busyc s1) = busyc s1 - 1) by (unfold w_dec; apply wrap_id; lia).
      change (freec (with_busyc (nar s1) (w_dec w (busyc s1)))) with (wrap w (freec s1)).
      change (freec (with_busyc s1 (dec (busyc s1)))) with (freec s1).
      rewrite (tally_freec1 m s1) by (auto; exists k; rewrite X1, X2; auto).
      destruct (freec s1 <? 2 ^ 64 - 1); [|reflexivity]. cbn [cassert].
      replace (with_freec (with_busyc (nar s1) (w_dec w (busyc s1))) (w_inc w (wrap w (freec s1))))
        with (nar (with_freec (with_busyc s1 (dec (busyc s1))) (inc (freec s1)))).
      + apply n_adjacent with m (k + 1); cbn [freec busyc with_freec with_busyc]; auto; rewrite ?X1, ?K1, ?EB; try lia.
        apply wrap_succ.
      + unfold narrow. cbn [freec busyc with_freec with_busyc data bc has_up prv nxt inuse]. rewrite w_inc_wrap by apply W0.
        rewrite EB, EW, (wrap_id w (busyc s1 - 1)) by lia. reflexivity.
    - intros s' j H. inv_ok. subst. cbn [busyc with_busyc] in *.
      match goal with A : reset_in_use _ _ _ = Ok ?s1 |- _ =>
        assert (X : freec s1 = freec s /\ busyc s1 = busyc s) by (unfold reset_in_use in A; inv_ok; subst; auto) end.
      destruct X as [X1 X2]. apply adjacent_counts with (k := k + 1) in H.
      + destruct H as [H1 [k' [H2 H3]]]. cbn [busyc with_freec with_busyc] in H1.
        repeat match goal with C : true = true -> _ = true |- _ => specialize (C eq_refl); apply Z.ltb_lt in C end.
        assert (EB : dec (busyc s) = busyc s - 1) by (unfold dec; apply wrap_id; lia).
        exists k'. rewrite H1, X2, EB. split; [auto|]. split; lia.
      + cbn [freec with_freec with_busyc]. rewrite X1, K1. apply wrap_succ.
  Qed.

  Lemma n_deallocate : forall c s p m, fits c s -> tally m s -> m < 2 ^ w - 1 -> 0 <= p < 2 ^ w ->
    w_deallocate_impl w c (nar s) p = rmap nar2 (deallocate_impl c s p).
  Proof.
    intros c s p m F T M P. assert (WP' := WP). destruct (fits_bounds c s F) as [B1 [B2 [B3 [B4 B5]]]].
    assert (Mx := f_max _ _ F). assert (D := f_data _ _ F).
    unfold w_deallocate_impl, deallocate_impl. destruct (p =? 0); [reflexivity|].
    rewrite n_aligned by (auto; apply (bs_pow2 _ (f_cfg _ _ F))). push. apply bind_ext. intros al _. push. apply abort_ext. intros _.
    unfold w_size, size_. cbn [data bc has_up narrow with_busyc with_freec].
    rewrite (Z.mul_comm (BS c) (bc s)), !(wrap_id _ (bc s * BS c)) by lia. rewrite !(wrap_id _ (data s + bc s * BS c)) by lia.
    destruct (_ && _).
    - rewrite n_p2bi by auto. push. apply bind_ext. intros i _. push.
      destruct (n_blocks_back c s i m (f_debug _ _ F) T M) as [-> _]. push. apply bind_ext. intros [s1 j] _. reflexivity.
    - destruct (has_up s); [reflexivity|]. push. apply abort_ext. intros _. push. reflexivity.
  Qed.

  Lemma back_fits : forall c s i s' j, fits c s -> deallocate_blocks c s i = Ok (s', j) -> fits c s'.
  Proof.
    intros c s i s' j F E. apply deallocate_blocks_any in E. destruct E as [E1 [_ [_ E2]]].
    eapply fits_place; eauto. apply E2; [apply F|apply F].
  Qed.

  Definition good (c : cfg) (m : Z) (s : state) : Prop := fits c s /\ tally m s.

  Lemma n_release_act : forall c m s a i, good c m s -> m < 2 ^ w - 1 ->
    w_release_act w c (nar s) a i = rmap nar3 (release_act c s a i).
  Proof.
    intros c m s a i [F T] M. unfold w_release_act, release_act. destruct (n_blocks_back c s i m (f_debug _ _ F) T M) as [-> _].
    push. apply bind_ext. intros [s1 j] _. cbn [nar2 fst snd]. push. apply bind_ext. intros n _. reflexivity.
  Qed.
  Lemma release_act_good : forall c m s a i s' a' b, good c m s -> m < 2 ^ w - 1 -> release_act c s a i = Ok (s', a', b) -> good c m s'.
  Proof.
    intros c m s a i s' a' b [F T] M H. unfold release_act in H. inv_ok. subst.
    match goal with A : deallocate_blocks _ _ _ = Ok _ |- _ => rename A into E end.
    split; [eapply back_fits; eauto|]. destruct (n_blocks_back c s i m (f_debug _ _ F) T M) as [_ X]. eapply X. eauto.
  Qed.
  Lemma n_release : forall c m fuel s, good c m s -> m < 2 ^ w - 1 -> w_release w c fuel (nar s) = rmap nar (release c fuel s).
  Proof.
    intros c m fuel s G M. unfold w_release, release.
    rewrite n_loop with (g := release_act c) (I := good c m); auto.
    - push. apply bind_ext. intros [s1 j] _. reflexivity.
    - intros s1 a i G1. apply n_release_act with m; auto.
    - intros. eapply release_act_good; eauto.
  Qed.
  Lemma release_good : forall c m fuel s s', good c m s -> m < 2 ^ w - 1 -> release c fuel s = Ok s' -> good c m s'.
  Proof.
    intros c m fuel s s' G M H. unfold release in H. apply bind_inv in H. destruct H as [[s1 u] [H E]].
    injection E as ->. revert s u G H. generalize tt at 1. generalize 0 at 1.
    induction fuel as [|fuel IH]; intros i t s u G H; [discriminate H|].
    cbn [apply_loop] in H. apply bind_inv in H. destruct H as [x [E H]].
    apply bind_inv in H. destruct H as [b [Eb H]].
    apply bind_inv in H. destruct H as [[[s1 a1] i1] [E1 H]].
    assert (K : good c m s1).
    { destruct b.
      - apply bind_inv in E1. destruct E1 as [[[s2 a2] b2] [E2 E3]]. injection E3 as -> -> <-.
        eapply release_act_good; eauto.
      - apply bind_inv in E1. destruct E1 as [n [E2 E3]]. injection E3 as <- <- <-. auto. }
    destruct (i1 =? 0); [injection H as -> _; auto|]. eapply IH; eauto.
  Qed.

  (** * Histories *)

  Lemma set_counts : forall c s i x s', (set_in_use c s i = Ok s' \/ set_prev c s i x = Ok s' \/ set_next c s i x = Ok s') -> freec s' = freec s.
  Proof.
    intros c s i x s' [H|[H|H]]; unfold set_in_use, set_prev, set_next, at_ in H; inv_ok; try (subst; reflexivity);
    (match type of H with (if ?b then _ else _) = _ => destruct b end; inv_ok; subst; reflexivity).
  Qed.
  Lemma set_both_counts : forall c s i p n s', set_prev_next c s i p n = Ok s' -> freec s' = freec s.
  Proof.
    intros c s i p n s' H. unfold set_prev_next, at_ in H. inv_ok. subst.
    destruct ((p <? i) || (p =? 0)), ((i <? n) || (n =? 0)); reflexivity.
  Qed.
  Lemma blocks_counts : forall c s r p size s', allocate_blocks c s r p size = Ok s' ->
    freec s' = freec s \/ freec s' = inc (freec s) \/ freec s' = dec (freec s).
  Proof.
    intros c s r p size s' H. unfold allocate_blocks in H. inv_ok.
    destruct (r =? x); destruct (negb _);
      unfold allocate_begin_matched, allocate_matched, allocate_not_matched, allocate_end_matched in H;
      inv_ok; subst; cbn [freec with_busyc with_freec];
      repeat match goal with
        | A : set_in_use _ _ _ = Ok _ |- _ => apply (fun a => set_counts _ _ _ 0 _ (or_introl a)) in A
        | A : set_prev _ _ _ _ = Ok _ |- _ => apply (fun a => set_counts _ _ _ _ _ (or_intror (or_introl a))) in A
        | A : set_next _ _ _ _ = Ok _ |- _ => apply (fun a => set_counts _ _ _ _ _ (or_intror (or_intror a))) in A
        | A : set_prev_next _ _ _ _ _ = Ok _ |- _ => apply set_both_counts in A
        end;
      [left; congruence|right; right; f_equal; congruence|right; left; f_equal; congruence|left; congruence].
  Qed.

  Lemma act_cases : forall c size align s q i s' q' b, alloc_act c size align s q i = Ok (s', q', b) ->
    s' = s \/ (b = false /\ exists r p, allocate_blocks c s r p size = Ok s').
  Proof.
    intros c size align s q i s' q' b H. unfold alloc_act in H. inv_ok.
    match type of H with (if ?b then _ else _) = _ => destruct b end; inv_ok; subst; [|auto].
    right. split; [auto|]. eauto.
  Qed.
  Lemma loop_cases : forall c size align fuel s q i s' q',
    apply_loop fuel c (alloc_pred c) (alloc_act c size align) s q i = Ok (s', q') ->
    s' = s \/ exists r p, allocate_blocks c s r p size = Ok s'.
  Proof.
    intros c size align; induction fuel as [|fuel IH]; intros s q i s' q' H; [discriminate H|].
    cbn [apply_loop] in H. apply bind_inv in H. destruct H as [x [E H]].
    apply bind_inv in H. destruct H as [b [Eb H]]. apply bind_inv in H. destruct H as [[[s1 a1] i1] [E1 H]].
    destruct b.
    - apply bind_inv in E1. destruct E1 as [[[s2 a2] b2] [E2 E3]]. injection E3 as -> -> <-.
      destruct (act_cases _ _ _ _ _ _ _ _ _ E2) as [->|[-> R]].
      + destruct b2; cbn [of_bool Z.eqb] in H; [eapply IH; eauto|]. inv_ok. subst. auto.
      + cbn [of_bool Z.eqb] in H. inv_ok. subst. auto.
    - apply bind_inv in E1. destruct E1 as [n [E2 E3]]. injection E3 as <- <- <-.
      destruct (n =? 0); [inv_ok; subst; auto|]. eapply IH; eauto.
  Qed.
  Lemma allocate_cases : forall c fuel s size align ans s' q calls, allocate_impl c fuel s size align ans = Ok (s', q, calls) ->
    s' = s \/ exists r p, allocate_blocks c s r p size = Ok s'.
  Proof.
    intros c fuel s size align ans s' q calls H. unfold allocate_impl in H. destruct (size =? 0); [inv_ok; subst; auto|].
    apply cassert_inv in H. destruct H as [H _]. apply bind_inv in H. destruct H as [[s1 p] [E H]].
    assert (s' = s1) by (destruct ((p =? 0) && has_up s1); inv_ok; subst; auto). subst s1. clear H.
    unfold search_buffer in E. destruct (data s =? 0); [inv_ok; subst; auto|]. inv_ok.
    destruct (align <=? _); [|inv_ok; subst; auto]. eapply loop_cases; eauto.
  Qed.

  Lemma allocate_good : forall c fuel s size align ans s' q calls m, good c m s -> m + 2 < 2 ^ w ->
    allocate_impl c fuel s size align ans = Ok (s', q, calls) -> good c (m + 2) s'.
  Proof.
    intros c fuel s size align ans s' q calls m [F T] M H. destruct T as [k [K1 [K2 K3]]]. assert (WP' := WP).
    destruct (allocate_cases _ _ _ _ _ _ _ _ _ H) as [->|[r [p B]]].
    - split; [auto|]. exists k. split; [auto|]. split; lia.
    - assert (C := blocks_counts _ _ _ _ _ _ B). apply allocate_blocks_any in B. destruct B as [B1 [_ [B2 B3]]].
      split; [eapply fits_place; eauto; apply B3; apply F|].
      assert (EB : inc (busyc s) = busyc s + 1) by (unfold inc; apply wrap_id; lia). rewrite EB in B2.
      rewrite K1, wrap_succ, wrap_pred in C.
      destruct C as [C|[C|C]]; (eexists; split; [exact C|]); rewrite B2; lia.
  Qed.

  Lemma n_step : forall c fuel s o m, good c m s -> m < 2 ^ w - 1 -> call_in w o ->
    w_step w c fuel (nar s) o = rmap nar2 (step c fuel s o).
  Proof.
    intros c fuel s o m [F T] M V. destruct o as [size align ans|p|]; cbn [w_step step].
    - rewrite n_allocate by auto. push. apply bind_ext. intros [[s1 q] calls] _. reflexivity.
    - rewrite n_deallocate with (m := m) by auto. push. apply bind_ext. intros [s1 calls] _. reflexivity.
    - rewrite n_release with (m := m) by (auto; split; auto). push. apply bind_ext. intros s1 _. reflexivity.
  Qed.
  Lemma good_more : forall c m m' s, good c m s -> m <= m' -> good c m' s.
  Proof. intros c m m' s [F [k [K1 [K2 K3]]]] L. split; [auto|]. exists k. split; [auto|]. split; lia. Qed.
  Lemma step_good : forall c fuel s o s' e m, good c m s -> m + 2 < 2 ^ w -> step c fuel s o = Ok (s', e) -> good c (m + 2) s'.
  Proof.
    intros c fuel s o s' e m G M H. destruct o as [size align ans|p|]; cbn [step] in H; inv_ok; subst.
    - eapply allocate_good; eauto.
    - apply good_more with m; [|lia]. destruct G as [F T]. unfold deallocate_impl in *.
      match goal with A : (if p =? 0 then _ else _) = Ok _ |- _ => rename A into E end.
      destruct (p =? 0); [inv_ok; subst; split; auto|]. inv_ok.
      destruct (_ && _).
      + inv_ok. subst. match goal with A : deallocate_blocks _ _ _ = Ok _ |- _ => rename A into E' end.
        split; [eapply back_fits; eauto|].
        match type of E' with deallocate_blocks _ _ ?i = _ => destruct (n_blocks_back c s i m (f_debug _ _ F) T ltac:(lia)) as [_ X] end. eapply X. eauto.
      + destruct (has_up s); inv_ok; subst; split; auto.
    - apply good_more with m; [|lia]. eapply release_good; eauto. lia.
  Qed.

  Lemma n_run : forall c fuel ops s m, good c m s -> m + 2 * Z.of_nat (length ops) < 2 ^ w - 1 -> Forall (call_in w) ops ->
    w_run w c fuel (nar s) ops = rmap nar2 (run c fuel s ops).
  Proof.
    intros c fuel. induction ops as [|o ops IH]; intros s m G M V; [reflexivity|]. cbn [w_run run].
    inversion V as [|? ? V1 V2]; subst. cbn [length] in M. rewrite Nat2Z.inj_succ in M.
    rewrite n_step with (m := m) by (auto; lia). push. apply bind_ext. intros [s1 e] E. cbn [nar2 fst snd].
    rewrite IH with (m := m + 2); auto; [|eapply step_good; eauto; lia|lia].
    push. apply bind_ext. intros [s2 es] _. reflexivity.
  Qed.

  Lemma step_fits : forall c fuel s o s' e, fits c s -> step c fuel s o = Ok (s', e) -> fits c s'.
  Proof.
    intros c fuel s o s' e F H. destruct o as [size align ans|p|]; cbn [step] in H; inv_ok; subst.
    - match goal with A : allocate_impl _ _ _ _ _ _ = Ok _ |- _ => apply allocate_cases in A; destruct A as [->|[r [p B]]]; [auto|] end.
      apply allocate_blocks_any in B. destruct B as [B1 [_ [_ B2]]]. eapply fits_place; eauto. apply B2; apply F.
    - match goal with A : deallocate_impl _ _ _ = Ok _ |- _ =>
        destruct (deallocate_any _ _ _ _ _ A) as [[_ [-> _]]|[[_ [-> _]]|[_ [[G1 [_ [_ G2]]] _]]]]; auto end.
      eapply fits_place; eauto. apply G2; apply F.
    - match goal with A : release _ _ _ = Ok _ |- _ => apply release_any in A; destruct A as [A1 A2] end.
      eapply fits_place; eauto. apply A2; apply F.
  Qed.

  (** a history of any length whose counters stay in range *)
  Lemma n_run_within : forall c fuel m, m < 2 ^ w - 1 -> forall ops s, fits c s -> Forall (call_in w) ops ->
    (forall pre post s1 es1, ops = pre ++ post -> run c fuel s pre = Ok (s1, es1) -> tally m s1) ->
    w_run w c fuel (nar s) ops = rmap nar2 (run c fuel s ops).
  Proof.
    intros c fuel m M. induction ops as [|o ops IH]; intros s F V T; [reflexivity|]. cbn [w_run run].
    inversion V as [|? ? V1 V2]; subst. assert (T0 : tally m s) by (apply (T [] (o :: ops) s []); reflexivity).
    rewrite n_step with (m := m) by (auto; split; auto). push. apply bind_ext. intros [s1 e] E. cbn [nar2 fst snd].
    rewrite IH; auto; [|eapply step_fits; eauto|].
    - push. apply bind_ext. intros [s2 es] _. reflexivity.
    - intros pre post s2 es E1 E2. apply (T (o :: pre) post s2 (e :: es)); [rewrite E1; reflexivity|].
      cbn [run]. rewrite E. cbn [bind]. rewrite E2. reflexivity.
  Qed.

  (** * Construction *)

  Lemma n_origin : forall c buffer size, cfg_ok c -> buffer_ok buffer size -> within w c buffer size ->
    w_origin_and_block_count w c buffer size = origin_and_block_count c buffer size.
  Proof.
    intros c buffer size HC [B1 [B2 B3]] [V1 V2]. assert (WP' := WP). assert (PB := bs_pos c HC).
    assert (M := mb_range _ HC). assert (0 <= MB c * BS c) by (apply Z.mul_nonneg_nonneg; lia).
    unfold w_origin_and_block_count, origin_and_block_count. destruct (_ && _); [|reflexivity].
    destruct (n_skip (DBG c) buffer (BS c) (bs_pow2 _ HC) ltac:(lia) ltac:(lia)) as [-> ->]. cbn [bind].
    assert (SB := skip_bounds buffer (BS c) PB). destruct (Z.ltb_spec (skip_of buffer (BS c)) size); [|reflexivity].
    cbv zeta. destruct (0 <? _); [|reflexivity]. rewrite !(wrap_id _ (buffer + skip_of buffer (BS c))) by lia. reflexivity.
  Qed.
  Lemma n_construct : forall c buffer size up, cfg_ok c -> buffer_ok buffer size -> within w c buffer size ->
    w_construct w c buffer size up = construct c buffer size up.
  Proof. intros. unfold w_construct, construct. rewrite n_origin by auto. reflexivity. Qed.

  Lemma made_fresh : forall c buffer size up s, made c buffer size up s ->
    s = St (data s) (bc s) up (fun _ => 0) (fun _ => 0) (fun _ => false) 1 0.
  Proof.
    intros c buffer size up s H. assert (F := made_from _ _ _ _ _ H). unfold construct in F. inv_ok. subst. reflexivity.
  Qed.
  Lemma made_nar : forall c buffer size up s, made c buffer size up s -> nar s = s.
  Proof.
    intros c buffer size up s H. rewrite (made_fresh _ _ _ _ _ H). unfold narrow. cbn [freec busyc with_freec with_busyc data bc has_up prv nxt inuse].
    assert (WP' := WP). rewrite !wrap_id by lia. reflexivity.
  Qed.
  Lemma made_good : forall c buffer size up s, made c buffer size up s -> DBG c = true -> within w c buffer size -> good c 1 s.
  Proof.
    intros c buffer size up s H D [V1 V2]. assert (FR := made_fresh _ _ _ _ _ H). assert (PB := bs_pos c (made_cfg _ _ _ _ _ H)).
    destruct (construction c buffer size up (made_cfg _ _ _ _ _ H) (made_buffer _ _ _ _ _ H)) as [s1 [E [_ [_ [_ [_ [X _]]]]]]].
    rewrite (made_from _ _ _ _ _ H) in E. injection E as <-.
    destruct X as [[_ X]|[X1 [X2 [X3 [X4 X5]]]]]; [destruct (made_blocks _ _ _ _ _ H X)|].
    split.
    - constructor; auto; try (apply H; fail); [lia| |].
      + assert (data s <= buffer + BS c); [|lia].
        assert (FM := made_from _ _ _ _ _ H). unfold construct, origin_and_block_count in FM. inv_ok.
        match goal with A : (if _ then _ else _) = Ok _ |- _ => rename A into O end.
        destruct (_ && _); [|inv_ok; subst; cbn [data] in *; lia]. inv_ok.
        match goal with A : skip_to_align _ _ _ = Ok _ |- _ => rename A into K end.
        destruct (made_buffer _ _ _ _ _ H) as [Y1 [Y2 Y3]]. assert (WP' := WP). assert (MR := mb_range _ (made_cfg _ _ _ _ _ H)).
        assert (0 <= MB c * BS c) by (apply Z.mul_nonneg_nonneg; lia).
        destruct (n_skip (DBG c) buffer (BS c) (bs_pow2 _ (made_cfg _ _ _ _ _ H)) ltac:(lia) ltac:(lia)) as [_ K'].
        rewrite K' in K. injection K as <-. assert (SB := skip_bounds buffer (BS c) PB).
        destruct (Z.ltb_spec (skip_of buffer (BS c)) size); [|inv_ok; subst; cbn [data] in *; lia].
        destruct (0 <? _); inv_ok; subst; cbn [data] in *; [|lia]. rewrite wrap_id by lia. lia.
      + intros i. left. rewrite FR. reflexivity.
    - exists 1. rewrite FR. cbn [freec busyc]. split; [reflexivity|]. split; lia.
  Qed.

  Lemma same_run : forall c buffer size up s fuel ops, made c buffer size up s -> DBG c = true -> within w c buffer size ->
    Forall (call_in w) ops -> 2 * Z.of_nat (length ops) + 2 < 2 ^ w ->
    w_run w c fuel s ops = rmap nar2 (run c fuel s ops).
  Proof.
    intros c buffer size up s fuel ops H D V C L. rewrite <- (made_nar c buffer size up s H) at 1.
    apply n_run with 1; auto; [|lia]. eapply made_good; eauto.
  Qed.

  (** * Release builds *)

  Variables m n : Z.
  Notation D := (Cfg m n true).
  Notation R := (Cfg m n false).

  Lemma d_next_multiple : forall x v, agrees (w_next_multiple_of w true x v) (w_next_multiple_of w false x v).
  Proof. intros. unfold w_next_multiple_of. agree. Qed.
  Hint Resolve d_next_multiple : build.
  Lemma d_skip : forall p a, agrees (w_skip_to_align w true p a) (w_skip_to_align w false p a).
  Proof. intros. unfold w_skip_to_align. agree. Qed.
  Lemma d_aligned : forall p a, agrees (w_is_aligned w true p a) (w_is_aligned w false p a).
  Proof. intros. unfold w_is_aligned. agree. Qed.
  Lemma d_max : forall p a, agrees (w_max_alignment_inside_block w true p a) (w_max_alignment_inside_block w false p a).
  Proof. intros. unfold w_max_alignment_inside_block. agree. Qed.
  Hint Resolve d_skip d_aligned d_max : build.
  Hint Resolve s_prev s_next s_in_use s_set_in_use s_reset_in_use s_set_prev s_set_next s_set_prev_next : build.

  Lemma d_pointer : forall s p, agrees (w_pointer_to_block_index w D s p) (w_pointer_to_block_index w R s p).
  Proof. intros. unfold w_pointer_to_block_index. cbn [DBG BS MB]. rewrite s_bindex. agree. Qed.
  Lemma d_index : forall s p, agrees (w_block_index_to_pointer w D s p) (w_block_index_to_pointer w R s p).
  Proof. intros. unfold w_block_index_to_pointer. cbn [DBG BS MB]. agree. Qed.
  Lemma d_block_size : forall s p, agrees (w_block_size w D s p) (w_block_size w R s p).
  Proof. intros. unfold w_block_size. agree. Qed.
  Hint Resolve d_pointer d_index d_block_size : build.
  Lemma d_block_bytes : forall s p, agrees (w_block_size_in_bytes w D s p) (w_block_size_in_bytes w R s p).
  Proof. intros. unfold w_block_size_in_bytes. cbn [BS]. agree. Qed.
  Hint Resolve d_block_bytes : build.
  Lemma d_not_matched : forall s a b d e, agrees (w_allocate_not_matched w D s a b d e) (w_allocate_not_matched w R s a b d e).
  Proof. intros. unfold w_allocate_not_matched. cbn [DBG]. rewrite s_bindex. agree. Qed.
  Lemma d_begin_matched : forall s a b d, agrees (w_allocate_begin_matched w D s a b d) (w_allocate_begin_matched w R s a b d).
  Proof. intros. unfold w_allocate_begin_matched. cbn [DBG]. rewrite s_bindex. agree. Qed.
  Lemma d_end_matched : forall s a b d, agrees (w_allocate_end_matched w D s a b d) (w_allocate_end_matched w R s a b d).
  Proof. intros. unfold w_allocate_end_matched. cbn [DBG]. rewrite s_bindex. agree. Qed.
  Lemma d_matched : forall s a, agrees (w_allocate_matched w D s a) (w_allocate_matched w R s a).
  Proof. intros. unfold w_allocate_matched. cbn [DBG]. agree. Qed.
  Hint Resolve d_not_matched d_begin_matched d_end_matched d_matched : build.
  Lemma d_allocate_blocks : forall s r p k, agrees (w_allocate_blocks w D s r p k) (w_allocate_blocks w R s r p k).
  Proof.
    intros. unfold w_allocate_blocks. apply agrees_bind; [agree|intros f]. apply agrees_bind; [agree|intros l].
    apply agrees_bind; [agree|intros x]. cbv zeta. rewrite !s_bindex. agree.
  Qed.
  Hint Resolve d_allocate_blocks : build.
  Lemma d_merge : forall s l r, agrees (w_merge_if_both_not_in_use w D s l r) (w_merge_if_both_not_in_use w R s l r).
  Proof.
    intros. unfold w_merge_if_both_not_in_use. cbn [DBG]. apply agrees_if; [agree|]. apply agrees_cassert.
    apply agrees_bind; [agree|intros u]. cbn [andb]. apply agrees_check.
    - agree.
    - destruct u; [apply calm_in_use|discriminate].
  Qed.
  Hint Resolve d_merge : build.
  Lemma d_adjacent : forall s i, agrees (w_merge_adjacent_blocks w D s i) (w_merge_adjacent_blocks w R s i).
  Proof.
    intros. unfold w_merge_adjacent_blocks. cbn [DBG]. apply agrees_bind; [agree|intros p]. apply agrees_check; [agree|apply calm_in_use].
  Qed.
  Hint Resolve d_adjacent : build.
  Lemma d_deallocate_blocks : forall s i, agrees (w_deallocate_blocks w D s i) (w_deallocate_blocks w R s i).
  Proof. intros. unfold w_deallocate_blocks. cbn [DBG]. agree. Qed.
  Hint Resolve d_deallocate_blocks : build.
  Lemma d_alloc_act : forall k a s p i, agrees (w_alloc_act w D k a s p i) (w_alloc_act w R k a s p i).
  Proof. intros. unfold w_alloc_act. cbn [DBG]. agree. Qed.
  Lemma d_search : forall fuel s k a, agrees (w_search_buffer w D fuel s k a) (w_search_buffer w R fuel s k a).
  Proof.
    intros. unfold w_search_buffer. cbn [DBG BS]. apply agrees_if; [agree|]. do 3 (apply agrees_bind; [agree|intros]).
    apply agrees_if; [|agree]. apply s_loop; [apply s_alloc_pred|intros; apply d_alloc_act].
  Qed.
  Hint Resolve d_search : build.
  Lemma d_calm_aligned : forall p a, w_is_aligned w true p a <> Hang.
  Proof. intros. unfold w_is_aligned, cassert. destruct (w_is_power_of_2 w a); discriminate. Qed.
  Lemma d_allocate : forall fuel s k a ans, agrees (w_allocate_impl w D fuel s k a ans) (w_allocate_impl w R fuel s k a ans).
  Proof.
    intros. unfold w_allocate_impl. cbn [DBG BS]. apply agrees_if; [agree|]. apply agrees_cassert.
    apply agrees_bind; [agree|]. intros [s1 p]. destruct ((p =? 0) && has_up s1); apply agrees_check; [agree|apply d_calm_aligned|agree|apply d_calm_aligned].
  Qed.
  Lemma d_deallocate : forall s p, agrees (w_deallocate_impl w D s p) (w_deallocate_impl w R s p).
  Proof. intros. unfold w_deallocate_impl. cbn [DBG BS]. unfold w_size. cbn [BS]. agree. Qed.
  Lemma d_release_act : forall s a i, agrees (w_release_act w D s a i) (w_release_act w R s a i).
  Proof. intros. unfold w_release_act. agree. Qed.
  Lemma d_release : forall fuel s, agrees (w_release w D fuel s) (w_release w R fuel s).
  Proof.
    intros. unfold w_release. apply agrees_bind; [|intros [? ?]; agree]. apply s_loop; [intros; agree|apply d_release_act].
  Qed.
  Hint Resolve d_allocate d_deallocate d_release : build.
  Lemma d_step : forall fuel s o, agrees (w_step w D fuel s o) (w_step w R fuel s o).
  Proof. intros fuel s []; cbn [w_step]; agree. Qed.
  Lemma d_run : forall fuel ops s, agrees (w_run w D fuel s ops) (w_run w R fuel s ops).
  Proof.
    intros fuel ops. induction ops as [|o ops IH]; intros s; cbn [w_run]; [agree|].
    apply agrees_bind; [apply d_step|]. intros [s1 e]. apply agrees_bind; [apply IH|]. intros [s2 es]. agree.
  Qed.
End Width.

(** * The theorems *)

Lemma runs_alike : forall w, platform w -> forall c buffer size up s fuel ops, made c buffer size up s -> DBG c = true ->
  within w c buffer size -> Forall (call_in w) ops -> 2 * Z.of_nat (length ops) + 2 < 2 ^ w ->
  alike w (run c fuel s ops) (w_run w c fuel s ops).
Proof.
  intros w W c buffer size up s fuel ops M D V C L. rewrite (same_run w W c buffer size up s fuel ops) by auto.
  destruct (run c fuel s ops) as [[s' es]| | |]; reflexivity.
Qed.

Lemma made_debug : forall m n buffer size up s, made (Cfg m n false) buffer size up s -> buffer + n + m * n < 2 ^ 64 ->
  made (Cfg m n true) buffer size up s.
Proof.
  intros m n buffer size up s [H1 H2 H3 H4 H5 H6] L.
  assert (C : cfg_ok (Cfg m n true)) by (destruct H1; constructor; auto).
  constructor; auto. destruct (construction _ buffer size up C H2) as [s1 [E _]].
  assert (A := s_construct m n buffer size up). rewrite E in A. cbn [agrees] in A. rewrite A in H4. injection H4 as ->. auto.
Qed.

Lemma releases_alike : forall w, platform w -> forall m n buffer size up s fuel ops, made (Cfg m n true) buffer size up s ->
  within w (Cfg m n true) buffer size -> Forall (call_in w) ops -> 2 * Z.of_nat (length ops) + 2 < 2 ^ w ->
  alike_release w (run (Cfg m n true) fuel s ops) (w_run w (Cfg m n false) fuel s ops).
Proof.
  intros w W m n buffer size up s fuel ops M V C L.
  assert (A := runs_alike w W _ _ _ _ _ fuel ops M eq_refl V C L). assert (G := d_run w m n fuel ops s).
  destruct (run (Cfg m n true) fuel s ops) as [[s' es]| | |]; cbn [alike alike_release] in *; auto; rewrite A in G; exact G.
Qed.

Lemma built_alike : forall w, platform w -> forall c buffer size up, cfg_ok c -> buffer_ok buffer size -> within w c buffer size ->
  w_construct w c buffer size up = construct c buffer size up.
Proof. exact n_construct. Qed.

(** what the 64-bit theorems say carries over *)
Lemma within_debug : forall w, platform w -> forall c buffer size, within w c buffer size -> buffer + BS c + MB c * BS c < 2 ^ 64.
Proof. intros w W c buffer size [_ V]. assert (P := WP w W). lia. Qed.

Lemma carry : forall w, platform w -> forall c buffer size up s fuel ops s' es, made c buffer size up s -> within w c buffer size ->
  Forall (call_in w) ops -> 2 * Z.of_nat (length ops) + 2 < 2 ^ w ->
  run (Cfg (MB c) (BS c) true) fuel s ops = Ok (s', es) -> w_run w c fuel s ops = Ok (narrow w s', es).
Proof.
  intros w W [m n d] buffer size up s fuel ops s' es M V C L E. cbn [MB BS] in E. destruct d.
  - assert (A := runs_alike w W _ _ _ _ _ fuel ops M eq_refl V C L). rewrite E in A. exact A.
  - assert (M' := made_debug _ _ _ _ _ _ M (within_debug w W _ _ _ V)).
    assert (A := releases_alike w W m n _ _ _ _ fuel ops M' V C L). rewrite E in A. exact A.
Qed.
Lemma made_build : forall w, platform w -> forall c buffer size up s, made c buffer size up s -> within w c buffer size ->
  made (Cfg (MB c) (BS c) true) buffer size up s.
Proof. intros w W [m n []] buffer size up s M V; [auto|]. apply made_debug; [auto|]. exact (within_debug w W _ _ _ V). Qed.

Lemma valid_prefix : forall d b n up rel al mf pre post rs, valid_client d b n up rel al mf rs (pre ++ post) ->
  valid_client d b n up rel al mf rs pre.
Proof.
  intros d b n up rel al mf. induction pre as [|o pre IH]; intros post rs H; [exact I|]. cbn [app valid_client] in *.
  destruct H as [H1 H2]. split; [auto|]. intros rs' e S. eapply IH. eauto.
Qed.

Lemma wf_tally : forall c s rs, cfg_ok c -> wf c s rs -> tally (bc s) s.
Proof.
  intros c s rs HC W. destruct (wf_counts c s rs HC W) as [C1 [C2 [C3 [C4 C5]]]].
  exists (freec s). split; [symmetry; apply wrap_id; lia|]. split; [lia|]. lia.
Qed.
Lemma wf_narrow : forall w, platform w -> forall c s rs, cfg_ok c -> wf c s rs -> bc s < 2 ^ w -> narrow w s = s.
Proof.
  intros w W c s rs HC H L. destruct (wf_counts c s rs HC H) as [C1 [C2 _]]. unfold narrow.
  rewrite !wrap_id by lia. destruct s. reflexivity.
Qed.

(** histories of any length that keep a resource consistent *)
Lemma carry_wf : forall w, platform w -> forall c buffer size up s fuel ops, made c buffer size up s -> within w c buffer size ->
  Forall (call_in w) ops ->
  (forall pre post, ops = pre ++ post -> exists s1 es1 rs1,
     run (Cfg (MB c) (BS c) true) fuel s pre = Ok (s1, es1) /\ same_place s s1 /\ wf (Cfg (MB c) (BS c) true) s1 rs1) ->
  forall s' es, run (Cfg (MB c) (BS c) true) fuel s ops = Ok (s', es) -> w_run w c fuel s ops = Ok (s', es).
Proof.
  intros w W c buffer size up s fuel ops M V C P s' es E.
  assert (M' := made_build w W _ _ _ _ _ M V). set (D := Cfg (MB c) (BS c) true) in *.
  assert (HC := made_cfg _ _ _ _ _ M').
  assert (G := made_good w W D _ _ _ _ M' eq_refl V). destruct G as [F _].
  assert (B := f_max _ _ _ F). assert (B0 := f_data _ _ _ F). assert (B1 := f_bc _ _ _ F).
  destruct (fits_bounds w _ _ F) as [X1 [X2 [X3 [X4 X5]]]].
  assert (R : w_run w D fuel s ops = Ok (s', es)).
  { rewrite <- (made_nar w W D buffer size up s M') at 1.
    rewrite (n_run_within w W D fuel (bc s) ltac:(lia) ops s F C).
    - rewrite E. unfold rmap, nar2. cbn [bind fst snd].
      destruct (P ops [] ltac:(rewrite app_nil_r; auto)) as [s1 [es1 [rs1 [E1 [[_ [P2 _]] W1]]]]]. rewrite E in E1. injection E1 as <- <-.
      rewrite (wf_narrow w W D s' rs1) by (auto; lia). reflexivity.
    - intros pre post s1 es1 EQ E1. destruct (P pre post EQ) as [s2 [es2 [rs2 [E2 [[_ [P2 _]] W2]]]]].
      rewrite E1 in E2. injection E2 as <- <-. rewrite <- P2. eapply wf_tally; eauto. }
  destruct c as [m n []]; [exact R|]. assert (A := d_run w m n fuel ops s). change (Cfg m n true) with D in A. rewrite R in A. exact A.
Qed.

Lemma w_careful : forall w, platform w -> forall c buffer size up s fuel ops, made c buffer size up s -> within w c buffer size ->
  (Z.to_nat (bc s) < fuel)%nat -> careful_client (data s) (BS c) (bc s) up ops -> Forall (call_in w) ops ->
  forall s' es, run (Cfg (MB c) (BS c) true) fuel s ops = Ok (s', es) -> w_run w c fuel s ops = Ok (s', es).
Proof.
  intros w W c buffer size up s fuel ops M V F CC C. eapply carry_wf; eauto. intros pre post EQ.
  assert (CP : careful_client (data s) (BS c) (bc s) up pre) by (subst ops; eapply valid_prefix; exact CC).
  destruct (careful_history _ _ _ _ _ fuel pre (made_build w W _ _ _ _ _ M V) F CP) as [s1 [rs [es1 [R [W1 [SP _]]]]]].
  exists s1, es1, rs. auto.
Qed.

Lemma w_no_overlap : forall w, platform w -> forall c buffer size up s fuel ops, made c buffer size up s -> within w c buffer size ->
  (Z.to_nat (bc s) < fuel)%nat -> careful_client (data s) (BS c) (bc s) up ops -> Forall (call_in w) ops ->
  exists s' rs es, w_run w c fuel s ops = Ok (s', es) /\
    spec_run (data s) (BS c) (bc s) up [Reg 0 (bc s) false] ops rs es /\
    regions_of s' rs /\ tiling (bc s) rs /\
    pairwise_disjoint (live es) /\ NoDup (map fst (live es)) /\
    (forall a, In a (live es) -> in_bounds (data s) (data s + bc s * BS c) a) /\
    freec s' = Z.of_nat (length (free rs)) /\ busyc s' = Z.of_nat (length (busy rs)).
Proof.
  intros w W c buffer size up s fuel ops M V F CC C. assert (M' := made_build w W _ _ _ _ _ M V).
  destruct (no_overlap _ _ _ _ _ fuel ops M' F CC) as [s' [es [E [A1 [A2 A3]]]]].
  destruct (careful_history _ _ _ _ _ fuel ops M' F CC) as [s1 [rs [es1 [R [W1 [SP [SR [T L]]]]]]]].
  rewrite E in R. injection R as <- <-.
  destruct (made_wf _ _ _ _ _ M') as [_ [_ [U _]]]. rewrite U in SR.
  exists s', rs, es. split; [eapply w_careful; eauto|]. split; [exact SR|]. split; [apply (wf_tiles _ _ _ W1)|].
  split; [exact T|]. split; [auto|]. split; [auto|]. split; [auto|]. split; [apply (wf_free _ _ _ W1)|apply (wf_busy _ _ _ W1)].
Qed.

Lemma w_debug_bounds : forall w, platform w -> forall c buffer size up s fuel ops s' es, made c buffer size up s -> DBG c = true ->
  within w c buffer size -> Forall sane_op ops -> Forall (call_in w) ops -> 2 * Z.of_nat (length ops) + 2 < 2 ^ w ->
  w_run w c fuel s ops = Ok (s', es) ->
  forall sz align p, In (EAllocate sz align p []) es -> p <> 0 -> sz < 2 ^ w -> in_bounds (data s) (data s + bc s * BS c) (p, sz).
Proof.
  intros w W c buffer size up s fuel ops s' es M D V S C L R sz align p I N Z0. assert (P := WP w W).
  assert (A := runs_alike w W _ _ _ _ _ fuel ops M D V C L).
  destruct (run c fuel s ops) as [[s1 es1]| | |] eqn:E; cbn [alike] in A; rewrite A in R; try discriminate. injection R as <- <-.
  eapply debug_bounds; eauto; try apply M. lia.
Qed.

Lemma w_single_block : forall w, platform w -> forall c buffer size up s fuel ops, made c buffer size up s -> within w c buffer size ->
  (enough (bc s) <= fuel)%nat -> 2 * BS c <= 2 ^ w -> single_block_client (data s) (BS c) (bc s) up ops -> Forall (call_in w) ops ->
  exists s' rs es, w_run w c fuel s ops = Ok (s', es) /\
    spec_run (data s) (BS c) (bc s) up [Reg 0 (bc s) false] ops rs es /\
    regions_of s' rs /\ tiling (bc s) rs /\ (forall r, In r (busy rs) -> rlen r = 1) /\
    pairwise_disjoint (live es) /\ (forall a, In a (live es) -> in_bounds (data s) (data s + bc s * BS c) a) /\
    freec s' = Z.of_nat (length (free rs)) /\ busyc s' = Z.of_nat (length (live es)) /\
    destroy s' = (match live es with [] => Ok tt | _ => Abort end).
Proof.
  intros w W c buffer size up s fuel ops M V F B CC C. assert (P := WP w W). assert (M' := made_build w W _ _ _ _ _ M V).
  destruct (single_block_contract _ _ _ _ _ fuel ops M' F ltac:(cbn [BS]; lia) CC) as [s' [rs [es [E A]]]].
  exists s', rs, es. split; [|exact A]. eapply carry_wf; eauto. intros pre post EQ.
  assert (CP : single_block_client (data s) (BS c) (bc s) up pre) by (subst ops; eapply valid_prefix; exact CC).
  destruct (single_block_history _ _ _ _ _ fuel pre M' F ltac:(cbn [BS]; lia) CP) as [s1 [rs1 [es1 [R [W1 [SP _]]]]]].
  exists s1, es1, rs1. auto.
Qed.

(** * Where 32 bits are not enough *)

Lemma made_16 : forall dbg, made (Cfg 16 16 dbg) 65552 256 false (fresh 65552 16 false).
Proof.
  intros dbg. constructor.
  - constructor; cbn [MB BS]; [lia|exact pow2_16|lia].
  - unfold buffer_ok. lia.
  - intros _. cbn [MB BS]. lia.
  - destruct dbg; vm_compute; reflexivity.
  - discriminate.
  - apply ordinary_small; cbn [data bc fresh BS]; lia.
Qed.

(** a size near 2^32: with 64 bits there is no room for it; with 32 bits the release build
    gives out memory for it and the debug build stops *)
Lemma w_oversized :
  let s := fresh 65552 16 false in let ans := fun _ _ => 0 in
  (forall dbg, made (Cfg 16 16 dbg) 65552 256 false s /\ within 32 (Cfg 16 16 dbg) 65552 256) /\
  (forall dbg, allocate_impl (Cfg 16 16 dbg) 50 s (2 ^ 32 - 48) 64 ans = Ok (s, 0, [])) /\
  w_allocate_impl 32 (Cfg 16 16 true) 50 s (2 ^ 32 - 48) 64 ans = Abort /\
  (exists s', w_allocate_impl 32 (Cfg 16 16 false) 50 s (2 ^ 32 - 48) 64 ans = Ok (s', 65600, [])) /\
  ~ in_bounds 65552 (65552 + 256) (65600, 2 ^ 32 - 48).
Proof.
  cbv zeta. split; [intros dbg; split; [apply made_16|unfold within; cbn [BS MB]; lia]|].
  split; [intros []; vm_compute; reflexivity|]. split; [vm_compute; reflexivity|].
  split; [eexists; vm_compute; reflexivity|]. unfold in_bounds. cbn [fst snd]. lia.
Qed.

Definition overlap_ops : list op := [get 5; get 1; ODeallocate 4096; get 9].
Lemma w_overlap : forall w, platform w -> forall dbg, made (conf 4 dbg) 4096 16 false (fresh 4096 4 false) /\
  exists s' es, w_run w (conf 4 dbg) 50 (fresh 4096 4 false) overlap_ops = Ok (s', es) /\
  polite [] es /\ ~ pairwise_disjoint (live es).
Proof.
  intros w W dbg. split; [apply made_4|]. destruct (overlap_history true) as [_ E].
  exists (narrow w (after (conf 4 true) (fresh 4096 4 false) overlap_ops)), (seen (conf 4 true) (fresh 4096 4 false) overlap_ops).
  split; [|split].
  - apply (carry w W (conf 4 dbg) 4096 16 false).
    + apply made_4.
    + unfold within. cbn [BS MB conf]. assert (P := WP w W). lia.
    + assert (P := WP w W). repeat constructor; cbn; lia.
    + assert (P := WP w W). cbn [length overlap_ops]. lia.
    + vm_compute. reflexivity.
  - vm_compute. tauto.
  - unfold overlap_ops. rewrite E. intros D. specialize (D [] (4100, 9) [] (4104, 1) [] eq_refl). unfold disjoint in D. cbn in D. lia.
Qed.
