(** Lemmas about simple_resource that hold in every state, consistent or not. *)

Require Import ZArith Lia List Bool Permutation.
Require Import Verif.Outcome Verif.Machine Verif.BitsModel Verif.BitsSpec Verif.BitsProofs.
Require Import Verif.ArithModel Verif.ArithProofs.
Require Import Verif.SimpleModel Verif.SimpleSpec Verif.SimpleProofs Verif.SimpleAllocProofs.
Require Import Verif.SimpleScanProofs Verif.SimpleOpProofs Verif.SimpleHistProofs.
Import ListNotations.
Open Scope Z_scope.
Open Scope res_scope.

Lemma cassert_inv : forall A dbg b (k : res A) x, cassert dbg b k = Ok x -> k = Ok x /\ (dbg = true -> b = true).
Proof. intros A [] [] k x H; cbn in H; split; auto; discriminate. Qed.
Lemma bind_inv : forall A B (m : res A) (f : A -> res B) x, bind m f = Ok x -> exists a, m = Ok a /\ f a = Ok x.
Proof. intros A B [a| | |] f x H; try discriminate H. exists a. auto. Qed.
Lemma in_array_inv : forall A c i (k : res A) x, in_array c i k = Ok x -> k = Ok x /\ 0 <= i < MB c.
Proof.
  intros A c i k x H. unfold in_array in H. destruct (Z.leb_spec 0 i); destruct (Z.ltb_spec i (MB c)); cbn in H;
    try discriminate H. split; auto.
Qed.
Lemma abort_inv : forall A b (k : res A) x, abort_when b k = Ok x -> k = Ok x /\ b = false.
Proof. intros A [] k x H; cbn in H; [discriminate|auto]. Qed.

Ltac inv_step :=
  match goal with
  | H : cassert _ _ _ = Ok _ |- _ => apply cassert_inv in H; let C := fresh "C" in destruct H as [H C]
  | H : abort_when _ _ = Ok _ |- _ => apply abort_inv in H; let C := fresh "C" in destruct H as [H C]
  | H : in_array _ _ _ = Ok _ |- _ => apply in_array_inv in H; let C := fresh "C" in destruct H as [H C]
  | H : bind _ _ = Ok _ |- _ => apply bind_inv in H; let E := fresh "E" in let x := fresh "x" in destruct H as [x [E H]]
  | H : Ok _ = Ok _ |- _ => injection H; clear H; intros
  | H : (let (_, _) := ?x in _) = Ok _ |- _ => is_var x; destruct x
  end.
Ltac inv_ok := repeat inv_step.

(** the links only lead forward, and stay in the array (debug builds) *)
Definition links_forward (s : state) : Prop := forall i, nxt s i = 0 \/ i < nxt s i < bc s.

Definition quiet (c : cfg) (s s' : state) : Prop :=
  same_place s s' /\ inuse s' = inuse s /\ busyc s' = busyc s /\
  (DBG c = true -> links_forward s -> links_forward s').

Lemma same_place_refl : forall s, same_place s s.
Proof. intros s. repeat split. Qed.
Lemma same_place_trans : forall a b d, same_place a b -> same_place b d -> same_place a d.
Proof. intros a b d [A1 [A2 A3]] [B1 [B2 B3]]. repeat split; congruence. Qed.
Lemma quiet_refl : forall c s, quiet c s s.
Proof. intros. split; [apply same_place_refl|]. auto. Qed.
Lemma quiet_trans : forall c a b d, quiet c a b -> quiet c b d -> quiet c a d.
Proof.
  intros c a b d [A1 [A2 [A3 A4]]] [B1 [B2 [B3 B4]]]. split; [eapply same_place_trans; eauto|].
  split; [congruence|]. split; [congruence|]. auto.
Qed.

Lemma set_prev_quiet : forall c s i p s', set_prev c s i p = Ok s' -> quiet c s s'.
Proof.
  intros c s i p s' H. unfold set_prev, at_ in H. inv_ok. destruct ((p <? i) || (p =? 0)); inv_ok; subst.
  - split; [repeat split|]. split; auto.
  - apply quiet_refl.
Qed.
Lemma upd_links : forall (c : cfg) s i n, links_forward s -> (n < bc s) -> i < n \/ n = 0 ->
  links_forward (with_nxt s (upd (nxt s) i n)).
Proof.
  intros c s i n L H1 H2 j. cbn [nxt bc with_nxt]. unfold upd. destruct (Z.eqb_spec j i); [subst; lia|apply L].
Qed.
Lemma set_next_quiet : forall c s i n s', set_next c s i n = Ok s' -> quiet c s s'.
Proof.
  intros c s i n s' H. unfold set_next, at_ in H. inv_ok.
  destruct ((i <? n) || (n =? 0)) eqn:E; inv_ok; subst; [|apply quiet_refl].
  split; [repeat split|]. split; [auto|]. split; [auto|]. intros D L.
  apply (upd_links c); auto.
  - specialize (C D). apply Z.ltb_lt in C. auto.
  - apply orb_true_iff in E. destruct E as [E|E]; [left; apply Z.ltb_lt|right; apply Z.eqb_eq]; auto.
Qed.
Lemma set_prev_next_quiet : forall c s i p n s', set_prev_next c s i p n = Ok s' -> quiet c s s'.
Proof.
  intros c s i p n s' H. unfold set_prev_next, at_ in H. inv_ok. subst s'.
  destruct ((p <? i) || (p =? 0)); destruct ((i <? n) || (n =? 0)) eqn:E; try apply quiet_refl;
    (split; [repeat split|]); (split; [auto|]); (split; [auto|]); intros D L; auto; apply (upd_links c); auto;
    try (specialize (C0 D); apply Z.ltb_lt in C0; auto);
    apply orb_true_iff in E; destruct E as [E|E]; [left; apply Z.ltb_lt| right; apply Z.eqb_eq|left; apply Z.ltb_lt|right; apply Z.eqb_eq]; auto.
Qed.

(** what one allocation does to the flags and to busy_count() *)
Definition took (c : cfg) (s s' : state) : Prop :=
  same_place s s' /\ (exists i, inuse s' = upd (inuse s) i true) /\ busyc s' = inc (busyc s) /\
  (DBG c = true -> links_forward s -> links_forward s').

Lemma took_quiet : forall c s i s' f,
  quiet c (with_inuse s (upd (inuse s) i true)) s' -> 
  took c s (with_busyc (with_freec s' f) (inc (busyc s'))).
Proof.
  intros c s i s' f [[P1 [P2 P3]] [Q [R T]]].
  cbn [data bc has_up inuse busyc with_inuse] in *. split; [repeat split; auto|].
  split; [exists i; auto|]. split; [cbn [busyc with_busyc]; congruence|].
  intros D L. apply T in D; auto.
Qed.

Lemma with_freec_id : forall s, with_freec s (freec s) = s.
Proof. intros []. reflexivity. Qed.

Ltac quiet_chain :=
  repeat match goal with
  | H : set_prev _ _ _ _ = Ok _ |- _ => apply set_prev_quiet in H
  | H : set_next _ _ _ _ = Ok _ |- _ => apply set_next_quiet in H
  | H : set_prev_next _ _ _ _ _ = Ok _ |- _ => apply set_prev_next_quiet in H
  end.

Ltac chase :=
  repeat match goal with H : quiet _ ?a _ |- quiet _ ?a _ => eapply quiet_trans; [exact H|clear H] end;
  try apply quiet_refl.

Lemma took_plain : forall c s i s', quiet c (with_inuse s (upd (inuse s) i true)) s' ->
  took c s (with_busyc s' (inc (busyc s'))).
Proof. intros c s i s' H. rewrite <- (with_freec_id s') at 1. apply took_quiet with i. auto. Qed.

Lemma allocate_blocks_any : forall c s r p size s', allocate_blocks c s r p size = Ok s' -> took c s s'.
Proof.
  intros c s r p size s' H. unfold allocate_blocks in H. inv_ok.
  destruct (r =? x); destruct (negb _);
    unfold allocate_begin_matched, allocate_matched, allocate_not_matched, allocate_end_matched, set_in_use in H;
    inv_ok; subst; quiet_chain;
    [apply took_plain with r|apply took_quiet with r|apply took_quiet with x|apply took_plain with x]; chase.
Qed.

(** what one deallocation does *)
Definition gave (c : cfg) (s s' : state) : Prop :=
  same_place s s' /\ (exists i, inuse s i = true /\ inuse s' = upd (inuse s) i false) /\
  busyc s' = dec (busyc s) /\ (DBG c = true -> links_forward s -> links_forward s').

Lemma quiet_freec : forall c s f, quiet c s (with_freec s f).
Proof. intros. split; [repeat split|]. auto. Qed.

Lemma merge_quiet : forall c s l r s' i, merge_if_both_not_in_use c s l r = Ok (s', i) -> quiet c s s'.
Proof.
  intros c s l r s' i H. unfold merge_if_both_not_in_use in H.
  destruct ((l =? r) || (r =? 0)); [inv_ok; subst; apply quiet_refl|]. inv_ok.
  destruct x; [inv_ok; subst; apply quiet_refl|]. inv_ok.
  match type of H with (if ?b then _ else _) = _ => destruct b end; [inv_ok; subst; apply quiet_refl|].
  inv_ok. subst. quiet_chain.
  match goal with |- quiet _ _ (with_freec ?a _) => apply quiet_trans with a; [chase|apply quiet_freec] end.
Qed.

Lemma deallocate_blocks_any : forall c s i s' m, deallocate_blocks c s i = Ok (s', m) -> gave c s s'.
Proof.
  intros c s i s' m H. unfold deallocate_blocks, in_use, reset_in_use in H. inv_ok. subst.
  unfold merge_adjacent_blocks in H. inv_ok.
  repeat match goal with H : merge_if_both_not_in_use _ _ _ _ = Ok _ |- _ => apply merge_quiet in H end.
  match goal with |- gave _ _ _ => idtac end.
  assert (Q : quiet c (with_freec (with_busyc (with_inuse s (upd (inuse s) i false)) (dec (busyc s))) (inc (freec s))) s') by chase.
  destruct Q as [[P1 [P2 P3]] [Q1 [Q2 Q3]]].
  cbn [data bc has_up inuse busyc with_inuse with_busyc with_freec] in *.
  split; [repeat split; auto|]. split; [|split; auto].
  exists i. split; [|auto]. apply negb_false_iff. auto.
Qed.

(** * allocate *)

Definition aligned_or_null (c : cfg) (align p : Z) : Prop := p = 0 \/ ((align | p) /\ (BS c | p)).

Lemma wrap_divide : forall k x, 0 <= k <= 64 -> (2 ^ k | x) -> (2 ^ k | wrap 64 x).
Proof.
  intros k x H D. unfold wrap. rewrite Z.mod_eq by (apply Z.pow_nonzero; lia).
  apply Z.divide_sub_r; auto. apply Z.divide_mul_l. apply pow2_divide. lia.
Qed.

Lemma wrap_bounds : forall x, 0 <= wrap 64 x < 2 ^ 64.
Proof. intros. unfold wrap. apply Z.mod_pos_bound. reflexivity. Qed.

(** debug builds notice a request that wraps around *)
Lemma no_wrapped_blocks : forall c s i k size s', cfg_ok c -> DBG c = true -> 0 <= i -> 0 < data s ->
  data s + i * BS c < 2 ^ 64 -> (BS c | k) -> 0 < k -> data s + i * BS c + k <= 2 ^ 64 ->
  0 < size < 2 ^ 64 -> 2 ^ 64 <= k + size ->
  allocate_blocks c s i (wrap 64 (data s + i * BS c + k)) size = Ok s' -> False.
Proof.
  intros c s i k size s' HC DB I D0 D1 DK K KE S W H. assert (P := bs_pos c HC). assert (M := mb_range _ HC).
  assert (ID : 0 <= i * BS c) by nia.
  unfold allocate_blocks, pointer_to_block_index in H. rewrite DB in H. inv_ok. subst.
  repeat match goal with X : true = true -> _ |- _ => specialize (X eq_refl) end.
  repeat match goal with
    | X : (_ <=? _) = true |- _ => apply Z.leb_le in X
    | X : (_ <? _) = true |- _ => apply Z.ltb_lt in X
    end.
  assert (KE' : data s + i * BS c + k < 2 ^ 64).
  { destruct (Z.eq_dec (data s + i * BS c + k) (2 ^ 64)) as [X|X]; [|lia]. rewrite X in *.
    assert (wrap 64 (2 ^ 64) = 0) by reflexivity. lia. }
  rewrite (wrap_id 64 (data s + i * BS c + k)) in * by lia.
  assert (V : wrap 64 (data s + i * BS c + k + size) = data s + i * BS c + (k + size - 2 ^ 64)).
  { unfold wrap. replace (data s + i * BS c + k + size) with (data s + i * BS c + (k + size - 2 ^ 64) + 1 * 2 ^ 64) by lia.
    rewrite Z_mod_plus_full. apply Z.mod_small. lia. }
  rewrite V in *.
  assert (LE : forall x, x < wrap 64 (data s + wrap 64 (BS c * MB c)) -> x < data s + BS c * MB c).
  { intros x X. assert (wrap 64 (BS c * MB c) <= BS c * MB c) by (apply Z.mod_le; nia).
    assert (0 <= wrap 64 (BS c * MB c)) by apply wrap_bounds.
    assert (wrap 64 (data s + wrap 64 (BS c * MB c)) <= data s + wrap 64 (BS c * MB c)) by (apply Z.mod_le; lia). lia. }
  repeat match goal with X : _ < wrap 64 (data s + wrap 64 _) |- _ => apply LE in X end. destruct DK as [j ->].
  assert (F : bindex c (wrap 64 (data s + i * BS c + j * BS c - data s) / BS c) = i + j).
  { replace (data s + i * BS c + j * BS c - data s) with ((i + j) * BS c) by ring.
    rewrite wrap_id by nia. rewrite Z.div_mul by lia. apply bindex_id; auto. nia. }
  set (w := j * BS c + size - 2 ^ 64) in *. assert (Wb : 0 <= w < j * BS c) by (unfold w; lia).
  assert (L : bindex c (wrap 64 (data s + i * BS c + w - data s) / BS c) = i + w / BS c).
  { replace (data s + i * BS c + w - data s) with (w + i * BS c) by ring.
    rewrite wrap_id by nia. rewrite Z.div_add by lia. rewrite bindex_id; auto; [lia|].
    assert (0 <= w / BS c) by (apply Z.div_pos; lia). assert (w / BS c < j) by (apply Z.div_lt_upper_bound; nia). nia. }
  rewrite F, L in H. assert (WJ : w / BS c < j) by (apply Z.div_lt_upper_bound; nia).
  rewrite (eqb_false i (i + j)) in H by nia.
  destruct (negb _); unfold allocate_not_matched, allocate_end_matched in H; rewrite DB in H;
    apply cassert_inv in H; destruct H as [H _]; apply cassert_inv in H; destruct H as [_ H];
    specialize (H eq_refl); apply Z.leb_le in H; lia.
Qed.

(** padding never leads past the last address *)
Lemma skip_to_end : forall p j, 0 <= p < 2 ^ 64 -> 0 <= j < 64 -> p + skip_of p (2 ^ j) <= 2 ^ 64.
Proof.
  intros p j P J. assert (PJ := pow2_pos j ltac:(lia)). unfold skip_of.
  assert (E : 2 ^ 64 = 2 ^ (64 - j) * 2 ^ j) by (rewrite <- Z.pow_add_r by lia; f_equal; lia).
  assert (N : (p + (- p) mod 2 ^ j) = - (- p / 2 ^ j) * 2 ^ j).
  { pose proof (Z.div_mod (- p) (2 ^ j) ltac:(lia)). nia. }
  rewrite N, E. apply Z.mul_le_mono_nonneg_r; [lia|].
  assert (- p / 2 ^ j >= - 2 ^ (64 - j)); [|lia]. apply Z.le_ge. apply Z.div_le_lower_bound; lia.
Qed.

(** what a call of the action can do *)
Lemma alloc_act_any : forall c size align s p i s' p' b, cfg_ok c -> (BS c | data s) ->
  pow2 align -> align < 2 ^ 64 ->
  alloc_act c size align s p i = Ok (s', p', b) ->
  (s' = s /\ p' = p) \/
  (took c s s' /\ (align | p') /\ (BS c | p') /\ b = false /\
   (0 < data s -> data s + MB c * BS c + align <= 2 ^ 64 -> p' <> 0) /\
   (DBG c = true -> links_forward s -> 0 < size < 2 ^ 64 ->
      0 < data s -> data s + bc s * BS c < 2 ^ 64 -> bc s <= MB c ->
      in_bounds (data s) (data s + bc s * BS c) (p', size))).
Proof.
  intros c size align s p i s' p' b HC D Pa La H. assert (P := bs_pos c HC).
  destruct (bs_log c HC) as [k [Hk Ek]].
  assert (AJ : exists j, 0 <= j < 64 /\ align = 2 ^ j).
  { destruct Pa as [j [Hj Ea]]. exists j. split; auto. split; auto.
    apply Z.pow_lt_mono_r_iff with (a := 2); lia. }
  destruct AJ as [j [Hj Ea]].
  unfold alloc_act, block_size_in_bytes, block_size, block_index_to_pointer, next_index, at_ in H. inv_ok. subst.
  set (bp := wrap 64 (data s + wrap 64 (i * BS c))) in *.
  assert (Bbp : 0 <= bp < 2 ^ 64) by apply wrap_bounds.
  assert (Dbp : (BS c | bp)).
  { unfold bp. rewrite Ek. apply wrap_divide; [lia|]. apply Z.divide_add_r; [rewrite <- Ek; auto|].
    apply wrap_divide; [lia|]. apply Z.divide_factor_r. }
  rewrite skip_value in E1 by lia. injection E1 as <-.
  change ((- bp) mod 2 ^ j) with (skip_of bp (2 ^ j)) in *.
  assert (PJ := pow2_pos j ltac:(lia)). assert (SB := skip_bounds bp (2 ^ j) PJ).
  destruct (Z.leb_spec (wrap 64 (skip_of bp (2 ^ j) + size))
    (wrap 64 (wrap 64 ((if nxt s i =? 0 then bc s else nxt s i) - i) * BS c))) as [F|F].
  - right. inv_ok. subst. assert (EB := E). apply allocate_blocks_any in E. split; auto. split.
    { apply wrap_divide; [lia|]. apply skip_aligned. auto. }
    split. { rewrite Ek. apply wrap_divide; [lia|]. rewrite <- Ek. apply Z.divide_add_r; auto.
             apply skip_multiple; auto. apply (bs_pow2 _ HC). }
    split; auto. split.
    { intros D0 D1. assert (i * BS c < MB c * BS c) by nia. assert (0 <= i * BS c) by nia.
      assert (Ebp : bp = data s + i * BS c).
      { unfold bp. rewrite (wrap_id 64 (i * BS c)) by lia. apply wrap_id. lia. }
      rewrite wrap_id by lia. lia. }
    intros DB LF Hs Hd0 Hd1 HB.
    (* in bounds *)
    rewrite DB in *. specialize (C eq_refl). apply Z.ltb_lt in C.
    assert (Hi : 0 <= i < bc s) by lia.
    assert (IB : 0 <= i * BS c < bc s * BS c) by nia.
    assert (Ebp : bp = data s + i * BS c).
    { unfold bp. rewrite (wrap_id 64 (i * BS c)) by lia. apply wrap_id. lia. }
    assert (Hw : skip_of bp (2 ^ j) + size < 2 ^ 64).
    { destruct (Z.lt_ge_cases (skip_of bp (2 ^ j) + size) (2 ^ 64)) as [X|X]; [exact X|]. exfalso.
      assert (DS : (BS c | skip_of bp (2 ^ j))) by (apply skip_multiple; auto; apply (bs_pow2 _ HC)).
      rewrite Ebp in *. eapply (no_wrapped_blocks c s i (skip_of (data s + i * BS c) (2 ^ j)) size); eauto; try lia.
      rewrite <- Ebp. apply skip_to_end; lia. }
    rewrite wrap_id in F by lia.
    assert (N : exists n, 0 < n /\ i + n <= bc s /\
      wrap 64 (wrap 64 ((if nxt s i =? 0 then bc s else nxt s i) - i) * BS c) = n * BS c).
    { assert (M := mb_range _ HC). destruct (LF i) as [E0|E0].
      - rewrite E0. cbn [Z.eqb]. exists (bc s - i). split; [lia|]. split; [lia|].
        rewrite (wrap_id 64 (bc s - i)) by nia. apply wrap_id. nia.
      - rewrite eqb_false by lia. exists (nxt s i - i). split; [lia|]. split; [lia|].
        rewrite (wrap_id 64 (nxt s i - i)) by nia. apply wrap_id. nia. }
    destruct N as [n [N1 [N2 N3]]]. rewrite N3 in F.
    assert (NB : (i + n) * BS c <= bc s * BS c) by (apply Z.mul_le_mono_nonneg_r; lia).
    unfold in_bounds. cbn [fst snd]. rewrite wrap_id by lia. lia.
  - left. inv_ok. subst. auto.
Qed.

Lemma alloc_loop_any : forall c size align, cfg_ok c -> pow2 align -> align < 2 ^ 64 ->
  forall fuel s p i s' p', (BS c | data s) ->
  apply_loop fuel c (alloc_pred c) (alloc_act c size align) s p i = Ok (s', p') ->
  (s' = s /\ p' = p) \/
  (took c s s' /\ (align | p') /\ (BS c | p') /\
   (0 < data s -> data s + MB c * BS c + align <= 2 ^ 64 -> p' <> 0) /\
   (DBG c = true -> links_forward s -> 0 < size < 2 ^ 64 ->
      0 < data s -> data s + bc s * BS c < 2 ^ 64 -> bc s <= MB c ->
      in_bounds (data s) (data s + bc s * BS c) (p', size))).
Proof.
  intros c size align HC Pa La; induction fuel as [|fuel IH]; intros s p i s' p' D H; [discriminate H|].
  cbn [apply_loop] in H. apply bind_inv in H. destruct H as [x [E H]].
  apply bind_inv in H. destruct H as [b [Eb H]].
  apply bind_inv in H. destruct H as [[[s1 a1] i1] [E1 H]].
  destruct b.
  - apply bind_inv in E1. destruct E1 as [[[s2 a2] b2] [E2 E3]]. injection E3 as -> -> <-.
    destruct (alloc_act_any c size align s p i s1 a1 b2 HC D Pa La E2) as [[-> ->]|[T [A1 [A2 [A3 A4]]]]].
    + destruct b2; cbn [of_bool Z.eqb] in H.
      * apply (IH s p 1 s' p'); auto.
      * inv_ok. subst. auto.
    + subst b2. cbn [of_bool Z.eqb] in H. inv_ok. subst. right. auto.
  - apply bind_inv in E1. destruct E1 as [n [E2 E3]]. injection E3 as <- <- <-.
    unfold next_index, at_ in E2. inv_ok. subst n.
    destruct (nxt s i =? 0); [inv_ok; subst; auto|]. apply (IH s p (nxt s i)); auto.
Qed.

(** * whole calls *)

Definition in_range (c : cfg) (s : state) : Prop :=
  0 <= data s /\ data s + bc s * BS c < 2 ^ 64 /\ bc s <= MB c.

Lemma search_any : forall c fuel s size align s' p, cfg_ok c -> (BS c | data s) ->
  pow2 align -> align < 2 ^ 64 -> search_buffer c fuel s size align = Ok (s', p) ->
  (s' = s /\ p = 0) \/
  (took c s s' /\ (align | p) /\ (BS c | p) /\
   (0 <= data s -> data s + MB c * BS c + align <= 2 ^ 64 -> p <> 0) /\
   (DBG c = true -> links_forward s -> 0 < size < 2 ^ 64 -> in_range c s ->
      in_bounds (data s) (data s + bc s * BS c) (p, size))).
Proof.
  intros c fuel s size align s' p HC D Pa La H. unfold search_buffer in H.
  destruct (Z.eqb_spec (data s) 0) as [D0|D0]; [inv_ok; subst; auto|]. inv_ok.
  destruct (align <=? x1); [|inv_ok; subst; auto].
  destruct (alloc_loop_any c size align HC Pa La fuel s 0 0 s' p D H) as [A|[A1 [A2 [A3 [A5 A4]]]]]; [auto|].
  right. split; auto. split; auto. split; auto. split; [intros; apply A5; auto; lia|]. intros DB L S1 [R1 [R2 R3]]. apply A4; auto. lia.
Qed.

(** what any call shows of its effect *)
Definition good_event (c : cfg) (s : state) (e : event) : Prop :=
  match e with
  | EAllocate size align p [] =>
      p <> 0 -> (align | p) /\ (BS c | p) /\
      (DBG c = true -> links_forward s -> size < 2 ^ 64 -> in_range c s ->
       in_bounds (data s) (data s + bc s * BS c) (p, size))
  | _ => True
  end.

Definition kept (c : cfg) (s s' : state) : Prop :=
  same_place s s' /\ (DBG c = true -> links_forward s -> links_forward s').

Lemma kept_refl : forall c s, kept c s s.
Proof. intros. split; [apply same_place_refl|auto]. Qed.
Lemma kept_trans : forall c a b d, kept c a b -> kept c b d -> kept c a d.
Proof. intros c a b d [A1 A2] [B1 B2]. split; [eapply same_place_trans; eauto|auto]. Qed.
Lemma took_kept : forall c s s', took c s s' -> kept c s s'.
Proof. intros c s s' [A [_ [_ B]]]. split; auto. Qed.
Lemma gave_kept : forall c s s', gave c s s' -> kept c s s'.
Proof. intros c s s' [A [_ [_ B]]]. split; auto. Qed.

Lemma allocate_any : forall c fuel s size align ans s' p calls, cfg_ok c -> (BS c | data s) ->
  pow2 align -> align < 2 ^ 64 -> 0 <= size ->
  allocate_impl c fuel s size align ans = Ok (s', p, calls) ->
  (s' = s \/ (took c s s' /\ 0 < size /\
     (0 <= data s -> data s + MB c * BS c + align <= 2 ^ 64 -> calls = [] /\ p <> 0))) /\
  (calls = [] -> p <> 0 -> took c s s' /\ (align | p) /\ (BS c | p) /\
      (DBG c = true -> links_forward s -> size < 2 ^ 64 -> in_range c s ->
       in_bounds (data s) (data s + bc s * BS c) (p, size))) /\
  (size = 0 -> calls = [] /\ p = 0) /\
  (calls <> [] -> calls = [UpAllocate size align] /\ p = ans size align /\ has_up s = true).
Proof.
  intros c fuel s size align ans s' p calls HC D Pa La S0 H. unfold allocate_impl in H.
  destruct (Z.eqb_spec size 0) as [->|S1].
  - inv_ok. subst. split; auto. split; [congruence|]. split; [auto|congruence].
  - apply cassert_inv in H. destruct H as [H _]. apply bind_inv in H. destruct H as [[s1 q] [E H]].
    assert (SA := search_any c fuel s size align s1 q HC D Pa La E).
    destruct ((q =? 0) && has_up s1) eqn:B.
    + inv_ok. subst. apply andb_true_iff in B. destruct B as [B1 B2].
      assert (U : has_up s' = has_up s) by (destruct SA as [[-> _]|[[[_ [_ X]] _] _]]; auto).
      split.
      { destruct SA as [[-> _]|[SA [_ [_ [SN _]]]]]; [auto|]. right. split; auto. split; [lia|].
        intros X Y. apply Z.eqb_eq in B1. exfalso. apply (SN X Y). auto. }
      split; [discriminate|].
      split; [congruence|]. intros _. split; auto. split; auto. congruence.
    + inv_ok. subst. split.
      { destruct SA as [[-> _]|[SA [_ [_ [SN _]]]]]; [auto|]. right. split; auto. split; [lia|]. auto. }
      split. { intros _ N. destruct SA as [[_ SA]|[A1 [A2 [A3 [_ A4]]]]]; [congruence|].
               split; auto. split; auto. split; auto. intros. apply A4; auto. lia. }
      split; congruence.
Qed.

Lemma deallocate_any : forall c s p s' calls, deallocate_impl c s p = Ok (s', calls) ->
  (p = 0 /\ s' = s /\ calls = []) \/ (p <> 0 /\ s' = s /\ calls = [UpDeallocate p] /\ has_up s = true) \/
  (p <> 0 /\ gave c s s' /\ calls = []).
Proof.
  intros c s p s' calls H. unfold deallocate_impl in H.
  destruct (Z.eqb_spec p 0) as [->|P0]; [inv_ok; subst; auto|].
  apply bind_inv in H. destruct H as [al [_ H]]. apply abort_inv in H. destruct H as [H _].
  destruct ((data s <=? p) && (p <? wrap 64 (data s + size_ c s))) eqn:I.
  - apply bind_inv in H. destruct H as [i [_ H]]. apply bind_inv in H. destruct H as [[s1 m] [E H]].
    injection H as <- <-. apply deallocate_blocks_any in E. auto.
  - destruct (has_up s) eqn:U; [inv_ok; subst; right; left; auto|].
    apply abort_inv in H. destruct H as [H C1]. apply abort_inv in H. destruct H as [H C2].
    rewrite andb_true_r in C2. apply Z.ltb_ge in C1. apply Z.leb_gt in C2.
    apply andb_false_iff in I. destruct I as [I|I]; [apply Z.leb_gt in I; lia|apply Z.ltb_ge in I; lia].
Qed.

Lemma release_any : forall c fuel s s', release c fuel s = Ok s' -> kept c s s'.
Proof.
  intros c fuel s s' H. unfold release in H. apply bind_inv in H. destruct H as [[s1 u] [H E]].
  injection E as ->. revert s u H. generalize tt at 1. generalize 0 at 1.
  induction fuel as [|fuel IH]; intros i t s u H; [discriminate H|].
  cbn [apply_loop] in H. apply bind_inv in H. destruct H as [x [E H]].
  apply bind_inv in H. destruct H as [b [Eb H]].
  apply bind_inv in H. destruct H as [[[s1 a1] i1] [E1 H]].
  assert (K : kept c s s1).
  { destruct b.
    - apply bind_inv in E1. destruct E1 as [[[s2 a2] b2] [E2 E3]]. injection E3 as -> -> <-.
      unfold release_act in E2. apply bind_inv in E2. destruct E2 as [[s3 m] [E3 E4]].
      apply bind_inv in E4. destruct E4 as [n [_ E4]]. injection E4 as -> _ _.
      apply gave_kept. eapply deallocate_blocks_any. eauto.
    - apply bind_inv in E1. destruct E1 as [n [E2 E3]]. injection E3 as <- <- <-. apply kept_refl. }
  destruct (i1 =? 0); [injection H as -> _; auto|]. eapply kept_trans; [exact K|]. eapply IH. eauto.
Qed.

Lemma step_any : forall c fuel s o s' e, cfg_ok c -> (BS c | data s) -> sane_op o ->
  step c fuel s o = Ok (s', e) -> kept c s s' /\ good_event c s e.
Proof.
  intros c fuel s o s' e HC D V H. destruct o as [size align ans|p|]; cbn [step sane_op] in *.
  - apply bind_inv in H. destruct H as [[[s1 p] calls] [E H]]. injection H as <- <-.
    destruct V as [V1 [V2 V3]].
    destruct (allocate_any c fuel s size align ans s1 p calls HC D V2 V3 V1 E) as [A [B _]]. split.
    + destruct A as [->|[A _]]; [apply kept_refl|apply took_kept; auto].
    + cbn [good_event]. destruct calls; [|auto]. intros P. destruct (B eq_refl P) as [_ B']. exact B'.
  - apply bind_inv in H. destruct H as [[s1 calls] [E H]]. injection H as <- <-.
    split; [|cbn; auto]. destruct (deallocate_any _ _ _ _ _ E) as [[_ [-> _]]|[[_ [-> _]]|[_ [G _]]]];
      [apply kept_refl|apply kept_refl|apply gave_kept; auto].
  - apply bind_inv in H. destruct H as [s1 [E H]]. injection H as <- <-. split; [|cbn; auto].
    eapply release_any. eauto.
Qed.

Lemma run_any : forall c fuel ops s s' es, cfg_ok c -> (BS c | data s) -> Forall sane_op ops ->
  (DBG c = true -> links_forward s) ->
  run c fuel s ops = Ok (s', es) ->
  kept c s s' /\
  (forall size align p, In (EAllocate size align p []) es -> p <> 0 ->
     (align | p) /\ (BS c | p) /\
     (DBG c = true -> size < 2 ^ 64 -> in_range c s ->
      in_bounds (data s) (data s + bc s * BS c) (p, size))).
Proof.
  intros c fuel ops; induction ops as [|o ops IH]; intros s s' es HC D V L H; cbn [run] in H.
  - injection H as <- <-. split; [apply kept_refl|]. intros size align p [].
  - apply bind_inv in H. destruct H as [[s1 e] [E1 H]]. apply bind_inv in H. destruct H as [[s2 es'] [E2 H]].
    injection H as <- <-. inversion V as [|? ? V1 V2]; subst.
    destruct (step_any c fuel s o s1 e HC D V1 E1) as [K G].
    assert (K0 := K). destruct K0 as [[P1 [P2 P3]] KL].
    destruct (IH s1 s2 es') as [K' G']; auto; [rewrite P1; auto|].
    split; [eapply kept_trans; eauto|]. intros size align p [EQ|I] N.
    + subst e. cbn [good_event] in G. destruct (G N) as [G1 [G2 G3]]. split; auto.
    + destruct (G' _ _ _ I N) as [G1 [G2 G3]]. split; auto. split; auto.
      unfold in_range in *. rewrite P1, P2 in G3. auto.
Qed.

(** * counting *)

Definition flags_within (s : state) (k : Z) : Prop :=
  exists U, NoDup U /\ (forall i, inuse s i = true -> In i U) /\ Z.of_nat (length U) <= k.

Lemma flags_take : forall c s s' k, took c s s' -> flags_within s k -> flags_within s' (k + 1).
Proof.
  intros c s s' k [_ [[i E] _]] [U [N [I L]]]. 
  destruct (in_dec Z.eq_dec i U) as [IU|IU].
  - exists U. split; auto. split; [|lia]. intros j H. rewrite E in H. unfold upd in H.
    destruct (Z.eqb_spec j i) as [Q|Q]; [rewrite Q; auto|auto].
  - exists (i :: U). split; [constructor; auto|]. split; [|cbn [length]; lia].
    intros j H. rewrite E in H. unfold upd in H. destruct (Z.eqb_spec j i) as [Q|Q]; [left; auto|right; auto].
Qed.

Lemma flags_give : forall c s s' k, gave c s s' -> flags_within s k -> flags_within s' (k - 1).
Proof.
  intros c s s' k [_ [[i [T E]] _]] [U [N [I L]]].
  assert (IU := I i T). apply in_split in IU. destruct IU as [U1 [U2 ->]].
  exists (U1 ++ U2). split; [eapply NoDup_remove_1; eauto|]. split.
  - intros j H. rewrite E in H. unfold upd in H. destruct (Z.eqb_spec j i) as [Q|J]; [discriminate|].
    apply I in H. apply in_app_iff in H. apply in_app_iff. destruct H as [H|[H|H]]; [auto|congruence|auto].
  - rewrite app_length in *. cbn [length] in L. lia.
Qed.

Lemma is_served_false : forall size align p calls, (calls = [] -> p = 0) -> is_served (EAllocate size align p calls) = false.
Proof. intros size align p [|u l] H; cbn; auto. rewrite (H eq_refl). reflexivity. Qed.
Lemma is_served_true : forall size align p, p <> 0 -> is_served (EAllocate size align p []) = true.
Proof. intros size align p H. cbn. apply negb_true_iff. apply Z.eqb_neq. auto. Qed.

Lemma step_count : forall c fuel s o s' e k room, cfg_ok c -> (BS c | data s) -> 0 <= data s ->
  0 < room -> data s + MB c * BS c <= room -> counted_op room o ->
  step c fuel s o = Ok (s', e) -> busyc s = wrap 64 k -> flags_within s k ->
  exists k', k' = k + (if is_served e then 1 else 0) - (if is_returned e then 1 else 0) /\
    busyc s' = wrap 64 k' /\ flags_within s' k' /\ same_place s s'.
Proof.
  intros c fuel s o s' e k room HC D D0 R0 R V H B F. eexists. split; [reflexivity|].
  destruct o as [size align ans|p|]; cbn [step counted_op] in *; [| |contradiction].
  - apply bind_inv in H. destruct H as [[[s1 p] calls] [E H]]. injection H as <- <-.
    destruct V as [V1 [V2 V3]].
    destruct (allocate_any c fuel s size align ans s1 p calls HC D V2 ltac:(lia) V1 E) as [A [A' _]].
    cbn [is_returned]. destruct A as [->|[T [S0 T']]].
    + destruct (Z.eq_dec p 0) as [P|P].
      * rewrite is_served_false by auto. rewrite Z.add_0_r, Z.sub_0_r. split; auto. split; auto. apply same_place_refl.
      * destruct calls as [|u l].
        { destruct (A' eq_refl P) as [[_ [[i X] [Y _]]] _].
          exfalso. unfold inc in Y. rewrite B in Y.
          assert (Q := wrap_bounds k). unfold wrap at 2 in Y. destruct (Z.eq_dec (wrap 64 k) (2 ^ 64 - 1)) as [Q1|Q1].
          - rewrite Q1 in Y. discriminate Y.
          - rewrite Z.mod_small in Y by lia. lia. }
        { rewrite is_served_false by discriminate. rewrite Z.add_0_r, Z.sub_0_r. split; auto. split; auto. apply same_place_refl. }
    + destruct (T' D0 ltac:(lia)) as [-> P]. rewrite is_served_true by auto.
      assert (TF := flags_take _ _ _ _ T F). destruct T as [TP [_ [TB _]]]. split; [|split; [|auto]].
      * rewrite TB, B. unfold inc, wrap. rewrite Zplus_mod_idemp_l. f_equal. lia.
      * replace (k + 1 - 0) with (k + 1) by lia. auto.
  - apply bind_inv in H. destruct H as [[s1 calls] [E H]]. injection H as <- <-. cbn [is_served].
    destruct (deallocate_any _ _ _ _ _ E) as [[-> [-> ->]]|[[P [-> [-> _]]]|[P [G ->]]]].
    + cbn [is_returned Z.eqb negb]. rewrite Z.add_0_r, Z.sub_0_r. split; auto. split; auto. apply same_place_refl.
    + cbn [is_returned]. rewrite Z.add_0_r, Z.sub_0_r. split; auto. split; auto. apply same_place_refl.
    + cbn [is_returned]. rewrite (proj2 (Z.eqb_neq p 0) P). cbn [negb].
      assert (GF := flags_give _ _ _ _ G F). destruct G as [GP [_ [GB _]]]. split; [|split; [|auto]].
      * rewrite GB, B. unfold dec, wrap. rewrite Zminus_mod_idemp_l. f_equal. lia.
      * replace (k + 0 - 1) with (k - 1) by lia. auto.
Qed.

Lemma count_cons : forall f e es, count f (e :: es) = (if f e then 1 else 0) + count f es.
Proof. intros. unfold count. cbn [filter]. destruct (f e); cbn [length]; lia. Qed.

Lemma run_count : forall c fuel ops s s' es k room, cfg_ok c -> (BS c | data s) -> 0 <= data s ->
  0 < room -> data s + MB c * BS c <= room -> Forall (counted_op room) ops ->
  run c fuel s ops = Ok (s', es) -> busyc s = wrap 64 k -> flags_within s k ->
  busyc s' = wrap 64 (k + count is_served es - count is_returned es) /\
  flags_within s' (k + count is_served es - count is_returned es).
Proof.
  intros c fuel ops; induction ops as [|o ops IH]; intros s s' es k room HC D D0 R0 R V H B F; cbn [run] in H.
  - injection H as <- <-. unfold count. cbn. replace (k + 0 - 0) with k by lia. auto.
  - apply bind_inv in H. destruct H as [[s1 e] [E1 H]]. apply bind_inv in H. destruct H as [[s2 es'] [E2 H]].
    injection H as <- <-. inversion V as [|? ? V1 V2]; subst.
    destruct (step_count c fuel s o s1 e k room HC D D0 R0 R V1 E1 B F) as [k' [EK [B' [F' [P1 [P2 P3]]]]]].
    destruct (IH s1 s2 es' k' room) as [I1 I2]; auto; try (rewrite P1; auto).
    rewrite !count_cons. subst k'.
    split; [rewrite I1; f_equal; lia|]. destruct I2 as [U [U1 [U2 U3]]]. exists U. split; auto. split; auto. lia.
Qed.

Lemma run_length : forall c fuel ops s s' es, run c fuel s ops = Ok (s', es) -> length es = length ops.
Proof.
  intros c fuel ops; induction ops as [|o ops IH]; intros s s' es H; cbn [run] in H.
  - injection H as <- <-. reflexivity.
  - apply bind_inv in H. destruct H as [[s1 e] [E1 H]]. apply bind_inv in H. destruct H as [[s2 es'] [E2 H]].
    injection H as <- <-. cbn. f_equal. eauto.
Qed.

Lemma filter_length_le : forall (f : event -> bool) es, (length (filter f es) <= length es)%nat.
Proof. intros f es; induction es as [|e es IH]; cbn; auto. destruct (f e); cbn; lia. Qed.

(** busy_count() after any history without release *)
Lemma busy_counts : forall c fuel buffer size up ops s s' es, cfg_ok c ->
  0 <= buffer -> 0 <= size -> buffer + size < 2 ^ 64 -> buffer + BS c + MB c * BS c <= 2 ^ 64 ->
  Forall (counted_op (buffer + BS c + MB c * BS c)) ops -> Z.of_nat (length ops) < 2 ^ 64 ->
  construct c buffer size up = Ok s -> run c fuel s ops = Ok (s', es) ->
  busyc s' = count is_served es - count is_returned es.
Proof.
  intros c fuel buffer size up ops s s' es HC Hb Hs He Hd V L E H.
  assert (P := bs_pos c HC). assert (M := mb_range _ HC).
  destruct (construct_value c buffer size up HC Hb Hs He) as [s1 [E' [H1 [H2 [H3 [H4 [H5 [H6 H7]]]]]]]].
  rewrite E in E'. injection E' as <-. cbv zeta in H7. destruct (skip_bounds buffer (BS c) P) as [S1 S2].
  assert (D : (BS c | data s) /\ 0 <= data s <= buffer + BS c).
  { destruct ((buffer =? 0) || _) in H7; destruct H7 as [-> _].
    - split; [apply Z.divide_0_r|lia].
    - split; [apply skip_aligned; auto|lia]. }
  assert (MP : 0 <= MB c * BS c) by nia.
  destruct (run_count c fuel ops s s' es 0 (buffer + BS c + MB c * BS c)) as [B F]; auto; try tauto; try lia.
  - exists []. split; [constructor|]. split; [rewrite H6; discriminate|cbn; lia].
  - destruct F as [U [_ [_ F]]]. rewrite B. rewrite wrap_id; [lia|].
    assert (X := filter_length_le is_served es). assert (Y := run_length _ _ _ _ _ _ H).
    unfold count in *. lia.
Qed.

(** * requests that fill a free region exactly *)

Lemma exact_blocks : forall c s l r t k size, cfg_ok c -> DBG c = true ->
  wf c s (l ++ r :: t) -> 0 <= k -> 0 < size -> k * BS c + size = rlen r * BS c ->
  allocate_blocks c s (rstart r) (data s + (rstart r + k) * BS c) size = Abort.
Proof.
  intros c s l r t k size HC DB W Hk Hs Hf. assert (P := bs_pos c HC). assert (G := wf_geom _ _ _ W).
  destruct (wf_region c s l r t W) as [R1 [R2 [R3 [R4 [R5 R6]]]]].
  assert (BB := g_bc _ _ G). assert (M := mb_range _ HC). assert (GM := g_max _ _ G DB). assert (GD := g_data _ _ G).
  assert (Kr : k < rlen r) by nia.
  assert (B1 : (rstart r + k) * BS c < MB c * BS c) by nia.
  assert (B0 : 0 <= (rstart r + k) * BS c) by nia.
  unfold allocate_blocks, pointer_to_block_index. rewrite DB.
  assert (W1 : wrap 64 (BS c * MB c) = MB c * BS c) by (rewrite wrap_id; lia).
  rewrite W1. rewrite (wrap_id 64 (data s + MB c * BS c)) by lia.
  rewrite (leb_true (data s)) by lia. rewrite ltb_true by lia. cbn [cassert andb negb].
  replace (data s + (rstart r + k) * BS c - data s) with ((rstart r + k) * BS c) by lia.
  rewrite (wrap_id 64 ((rstart r + k) * BS c)) by lia. rewrite Z.div_mul by lia.
  rewrite bindex_id by (auto; lia). cbn [bind].
  replace (data s + (rstart r + k) * BS c + size) with (data s + (rstart r + rlen r) * BS c) by lia.
  assert (B2 : 0 <= (rstart r + rlen r) * BS c <= MB c * BS c) by nia.
  rewrite (wrap_id 64 (data s + (rstart r + rlen r) * BS c)) by lia.
  rewrite (leb_true (data s)) by lia. cbn [cassert andb negb].
  destruct (Z.ltb_spec (data s + (rstart r + rlen r) * BS c) (data s + MB c * BS c)) as [L|L]; [|reflexivity].
  cbn [cassert].
  replace (data s + (rstart r + rlen r) * BS c - data s) with ((rstart r + rlen r) * BS c) by lia.
  rewrite (wrap_id 64 ((rstart r + rlen r) * BS c)) by lia. rewrite Z.div_mul by lia.
  assert (Lm : rstart r + rlen r < MB c) by nia.
  rewrite bindex_id by (auto; lia). cbn [bind].
  unfold next_index, at_. rewrite DB, ltb_true by lia. cbn [cassert]. rewrite in_array_ok by lia. cbn [bind].
  assert (LF : (if nxt s (rstart r) =? 0 then bindex c (wrap 64 (bc s - 1)) else bindex c (nxt s (rstart r) - 1)) =
               rstart r + rlen r - 1).
  { rewrite R4. unfold link. destruct (Z.eqb_spec (rstart r + rlen r) (bc s)) as [E|E].
    - cbn [Z.eqb]. rewrite wrap_id by lia. rewrite bindex_id by (auto; lia). lia.
    - rewrite eqb_false by lia. rewrite bindex_id by (auto; lia). lia. }
  rewrite LF. rewrite (eqb_false (rstart r + rlen r)) by lia. cbn [negb].
  unfold allocate_begin_matched, allocate_not_matched. rewrite DB.
  rewrite (ltb_false (rstart r + rlen r)) by lia. rewrite leb_true by lia.
  destruct (rstart r =? rstart r + k) eqn:E; cbn [cassert]; [reflexivity|].
  apply Z.eqb_neq in E. rewrite ltb_true by lia. rewrite leb_true by lia. reflexivity.
Qed.

(** the first free region is filled to the last byte: debug builds abort *)
Lemma exact_fill : forall c s l r t fuel size align ans, cfg_ok c -> DBG c = true ->
  wf c s (l ++ r :: t) -> (forall x, In x l -> rbusy x = true) -> rbusy r = false ->
  request size align -> ordinary_buffer (data s) (bc s * BS c) ->
  alignment_within_reach (data s) (bc s * BS c) align ->
  can_hold (data s) (BS c) r size align -> ~ can_hold_spare (data s) (BS c) r size align ->
  (length l < fuel)%nat ->
  allocate_impl c fuel s size align ans = Abort.
Proof.
  intros c s l r t fuel size align ans HC DB W A F R O RE CH CS L. assert (P := bs_pos c HC).
  assert (R0 := R). destruct R0 as [S0 [Pa _]].
  destruct (request_align size align R) as [j [Hj [Ej A0]]].
  unfold allocate_impl. rewrite eqb_false by lia.
  assert (I2 : is_power_of_2 align = true) by (rewrite Ej; apply is_power_of_2_pow; lia).
  rewrite I2, cassert_true. rewrite search_reached; auto; [|exact (wf_geom _ _ _ W)].
  destruct fuel as [|fuel]; [lia|].
  assert (LP : apply_loop (S fuel) c (alloc_pred c) (alloc_act c size align) s 0 0 = Abort).
  { rewrite can_hold_skip in CH by auto. rewrite can_hold_spare_skip in CS by auto.
    set (bp := region_addr (data s) (BS c) r) in *.
    assert (EX : exists k, 0 <= k /\ skip_of bp align = k * BS c).
    { destruct (region_addr_range c s l r t HC W) as [_ [_ D]].
      destruct (skip_multiple (BS c) bp align P A0 (bs_pow2 _ HC) Pa D) as [k K].
      exists k. split; auto. assert (SB := skip_bounds bp align A0). nia. }
    destruct EX as [k [K0 K1]].
    assert (H0 : head_start (l ++ r :: t) = 0).
    { assert (T := wf_tiles _ _ _ W). unfold regions_of in T. destruct l; cbn [app tiles head_start] in *; tauto. }
    rewrite <- H0. replace (S fuel) with (length l + S (fuel - length l))%nat by lia.
    rewrite (loop_skip_busy c s size align [] l r t) by auto.
    rewrite (loop_free c s size align l r t) by auto.
    rewrite (act_start c s l r t) by auto. cbv zeta. fold bp. rewrite leb_true by auto.
    destruct (region_addr_range c s l r t HC W) as [D1 [D2 _]]. fold bp in D1, D2.
    assert (GE := g_end _ _ (wf_geom _ _ _ W)). assert (SB := skip_bounds bp align A0).
    rewrite wrap_id by lia.
    replace (bp + skip_of bp align) with (data s + (rstart r + k) * BS c)
      by (rewrite K1; unfold bp, region_addr; lia).
    rewrite (exact_blocks c s l r t k size) by (auto; lia). reflexivity. }
  rewrite LP. reflexivity.
Qed.

(** a free region too small, not the last one, after a first region of one block *)
Lemma hang_generic : forall c s r0 l f t size align ans, cfg_ok c ->
  wf c s (r0 :: l ++ f :: t) -> rlen r0 = 1 -> (forall x, In x (r0 :: l) -> rbusy x = true) ->
  rbusy f = false -> t <> [] ->
  request size align -> ordinary_buffer (data s) (bc s * BS c) ->
  alignment_within_reach (data s) (bc s * BS c) align ->
  ~ can_hold (data s) (BS c) f size align ->
  forall fuel, allocate_impl c fuel s size align ans = Hang.
Proof.
  intros c s r0 l f t size align ans HC W L0 A F Ht R O RE CH fuel.
  assert (R0 := R). destruct R0 as [S0 [Pa _]].
  destruct (request_align size align R) as [j [Hj [Ej A0]]].
  unfold allocate_impl. rewrite eqb_false by lia.
  assert (I2 : is_power_of_2 align = true) by (rewrite Ej; apply is_power_of_2_pow; lia).
  rewrite I2, cassert_true. rewrite search_reached; auto; [|exact (wf_geom _ _ _ W)].
  assert (LP : apply_loop fuel c (alloc_pred c) (alloc_act c size align) s 0 0 = Hang).
  { apply apply_loop_hang with (k := (length (r0 :: l) + 1)%nat).
    assert (H0 : head_start ((r0 :: l) ++ f :: t) = 0).
    { assert (T := wf_tiles _ _ _ W). unfold regions_of in T. cbn [app tiles head_start] in *; tauto. }
    rewrite <- H0 at 2. replace (fuel + (length (r0 :: l) + 1))%nat with (length (r0 :: l) + S fuel)%nat by lia.
    rewrite (loop_pass c s size align HC R [] (r0 :: l) f t) by auto.
    destruct t as [|y t]; [congruence|].
    apply (loop_hang c s size align HC R r0 l f (y :: t)); auto. intros x Hx. apply A. right. auto. }
  rewrite LP. reflexivity.
Qed.
