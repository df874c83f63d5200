(** Lemmas about the array and memory helpers. *)

Require Import ZArith Lia List Bool.
Require Import Verif.Outcome Verif.Machine Verif.MemModel Verif.MemSpec.
Import ListNotations.
Open Scope Z_scope.
Open Scope res_scope.

(** * Basics *)

Lemma nth_error_ext : forall A (l l' : list A), (forall i, nth_error l i = nth_error l' i) -> l = l'.
Proof.
  intros A; induction l as [|x l IH]; intros [|y l'] H; auto.
  - specialize (H O). discriminate.
  - specialize (H O). discriminate.
  - f_equal; [specialize (H O); cbn in H; congruence|]. apply IH. intros i. apply (H (S i)).
Qed.

Lemma nth_error_firstn_lt : forall A (l : list A) n i, (i < n)%nat ->
  nth_error (firstn n l) i = nth_error l i.
Proof.
  intros A; induction l as [|x l IH]; intros [|n] [|i] H; cbn [firstn nth_error]; auto; try lia.
  apply IH. lia.
Qed.

Lemma accessible_head : forall m p n, accessible m p (S n) -> exists b, m p = Some b.
Proof.
  intros m p n H. specialize (H 0). rewrite Z.add_0_r in H.
  destruct (m p) as [b|]; [exists b; auto|]. exfalso; apply H; [lia|auto].
Qed.

Lemma accessible_tail : forall m p n, accessible m p (S n) -> accessible m (p + 1) n.
Proof.
  intros m p n H i Hi. replace (p + 1 + i) with (p + (i + 1)) by lia. apply H. lia.
Qed.

Lemma accessible_ext : forall m m' p n, (forall a, m a <> None -> m' a <> None) ->
  accessible m p n -> accessible m' p n.
Proof. intros m m' p n H A i Hi. apply H. apply A; auto. Qed.

Lemma store_ok : forall m a b, m a <> None ->
  exists m', store m a b = Ok m' /\ m' a = Some b /\ (forall x, x <> a -> m' x = m x) /\
    (forall x, m x <> None -> m' x <> None).
Proof.
  intros m a b H. unfold store. destruct (m a) eqn:E; [|congruence].
  eexists. split; [reflexivity|]. cbv beta. rewrite Z.eqb_refl.
  split; auto. split.
  - intros x Hx. destruct (Z.eqb_spec x a); congruence.
  - intros x Hx. destruct (x =? a); congruence.
Qed.

(** * memvcmp *)

Lemma memcmp_eq_shift : forall n m p, accessible m p (S n) ->
  exists b, memcmp_eq m p (p + 1) n = Ok b /\
    (b = true <-> forall i, 0 <= i < Z.of_nat n -> m (p + i) = m (p + i + 1)).
Proof.
  induction n as [|n IH]; intros m p H; cbn [memcmp_eq].
  - exists true. split; auto. split; auto. intros _ i Hi. lia.
  - destruct (accessible_head _ _ _ H) as [x Ex].
    assert (H1 := accessible_tail _ _ _ H). destruct (accessible_head _ _ _ H1) as [y Ey].
    unfold load. rewrite Ex, Ey. cbn [bind].
    destruct (IH m (p + 1) H1) as [b [Eb Hb]]. rewrite Eb. cbn [bind].
    eexists. split; [reflexivity|]. rewrite andb_true_iff, Z.eqb_eq, Hb. split.
    + intros [-> G] i Hi. destruct (Z.eq_dec i 0) as [->|N].
      * rewrite Z.add_0_r. congruence.
      * specialize (G (i - 1)). replace (p + 1 + (i - 1)) with (p + i) in G by lia. apply G. lia.
    + intros G. split.
      * specialize (G 0). rewrite Z.add_0_r in G. rewrite Ex, Ey in G.
        assert (Some x = Some y) by (apply G; lia). congruence.
      * intros i Hi. specialize (G (i + 1)). replace (p + 1 + i) with (p + (i + 1)) by lia.
        apply G. lia.
Qed.

Lemma memvcmp_correct : forall m p val size, accessible m p size ->
  exists b, memvcmp m p val size = Ok b /\
    (b = true <-> p <> 0 /\ (0 < size)%nat /\
       forall i, 0 <= i < Z.of_nat size -> m (p + i) = Some val).
Proof.
  intros m p val size H. unfold memvcmp.
  destruct size as [|n].
  { exists false. split; auto. split; [discriminate|]. lia. }
  cbn [Nat.eqb orb]. destruct (Z.eqb_spec p 0) as [->|Np].
  { exists false. split; auto. split; [discriminate|]. intros [N _]. congruence. }
  destruct (accessible_head _ _ _ H) as [x Ex]. unfold load. rewrite Ex. cbn [bind].
  destruct (Z.eqb_spec x val) as [->|Nx].
  - replace (S n - 1)%nat with n by lia.
    destruct (memcmp_eq_shift n m p H) as [b [Eb Hb]]. exists b. split; auto.
    rewrite Hb. split.
    + intros G. split; auto. split; [lia|].
      assert (K : forall k, (k < S n)%nat -> m (p + Z.of_nat k) = Some val).
      { induction k as [|k IHk]; intros Hk; [rewrite Z.add_0_r; auto|].
        rewrite Nat2Z.inj_succ. unfold Z.succ. rewrite Z.add_assoc.
        rewrite <- G by lia. apply IHk. lia. }
      intros i Hi. replace i with (Z.of_nat (Z.to_nat i)) by lia. apply K. lia.
    + intros [_ [_ G]] i Hi. rewrite G by lia. symmetry. rewrite <- Z.add_assoc. apply G. lia.
  - exists false. split; auto. split; [discriminate|]. intros [_ [_ G]].
    specialize (G 0). rewrite Z.add_0_r in G. rewrite Ex in G.
    assert (Some x = Some val) by (apply G; lia). congruence.
Qed.

(** the result is independent of the rest of memory *)
Lemma memvcmp_local : forall m m' p val size, accessible m p size ->
  (forall i, 0 <= i < Z.of_nat size -> m' (p + i) = m (p + i)) ->
  memvcmp m' p val size = memvcmp m p val size.
Proof.
  intros m m' p val size A E.
  assert (A' : accessible m' p size) by (intros i Hi; rewrite E by auto; apply A; auto).
  destruct (memvcmp_correct m p val size A) as [b [-> Hb]].
  destruct (memvcmp_correct m' p val size A') as [b' [-> Hb']].
  f_equal. apply eq_true_iff_eq. rewrite Hb, Hb'.
  split; intros [H1 [H2 H3]]; split; auto; split; auto; intros i Hi;
    [rewrite <- E by auto | rewrite E by auto]; auto.
Qed.

(** * Zeroing *)

Lemma zero_loop_correct : forall size m p i, accessible m (p + Z.of_nat i) size ->
  exists m', zero_loop m p i size = Ok m' /\
    range_replaced m m' (p + Z.of_nat i) size (fun _ => Some 0).
Proof.
  induction size as [|n IH]; intros m p i H; cbn [zero_loop].
  - exists m. split; auto. split; [lia|auto].
  - destruct (accessible_head _ _ _ H) as [x Ex].
    destruct (store_ok m (p + Z.of_nat i) 0) as [m1 [E1 [S1 [O1 A1]]]]; [congruence|].
    rewrite E1. cbn [bind].
    destruct (IH m1 p (S i)) as [m2 [E2 [R1 R2]]].
    { replace (p + Z.of_nat (S i)) with (p + Z.of_nat i + 1) by lia.
      apply accessible_ext with m; auto. apply accessible_tail; auto. }
    exists m2. split; auto. replace (p + Z.of_nat (S i)) with (p + Z.of_nat i + 1) in * by lia.
    split.
    + intros j Hj. destruct (Z.eq_dec j 0) as [->|N].
      * rewrite Z.add_0_r. rewrite R2 by lia. auto.
      * replace (p + Z.of_nat i + j) with (p + Z.of_nat i + 1 + (j - 1)) by lia. apply R1. lia.
    + intros a Ha. rewrite R2 by lia. apply O1. lia.
Qed.

Lemma secure_zero_correct : forall m p size, accessible m p size ->
  exists m', secure_zero_memory m p size = Ok m' /\ range_replaced m m' p size (fun _ => Some 0).
Proof.
  intros m p size H. unfold secure_zero_memory.
  destruct (zero_loop_correct size m p 0) as [m' [E R]]; [rewrite Z.add_0_r; auto|].
  exists m'. rewrite Z.add_0_r in R. auto.
Qed.

Lemma secure_zero_safe_correct : forall m p size,
  (p = 0 -> secure_zero_memory_safe m p size = Ok (-1, m)) /\
  (p <> 0 -> size = O -> secure_zero_memory_safe m p size = Ok (-2, m)) /\
  (p <> 0 -> (0 < size)%nat -> accessible m p size ->
   exists m', secure_zero_memory_safe m p size = Ok (0, m') /\
     range_replaced m m' p size (fun _ => Some 0)).
Proof.
  intros m p size. unfold secure_zero_memory_safe. split; [|split].
  - intros ->. reflexivity.
  - intros N ->. destruct (Z.eqb_spec p 0); [contradiction|reflexivity].
  - intros N P A. destruct (Z.eqb_spec p 0); [contradiction|].
    destruct (Nat.eqb_spec size 0); [lia|].
    destruct (secure_zero_correct m p size A) as [m' [E R]]. rewrite E. exists m'. auto.
Qed.

(** * Copying *)

Lemma copy_loop_forward : forall cast dst src count i m,
  accessible m (dst + Z.of_nat i) count -> accessible m (src + Z.of_nat i) count ->
  (dst <= src \/ src + Z.of_nat i + Z.of_nat count <= dst) ->
  exists m', copy_loop cast m dst src i count = Ok m' /\
    range_replaced m m' (dst + Z.of_nat i) count
      (fun j => option_map cast (m (src + Z.of_nat i + j))).
Proof.
  intros cast dst src; induction count as [|n IH]; intros i m Ad As Hd; cbn [copy_loop].
  - exists m. split; auto. split; [lia|auto].
  - destruct (accessible_head _ _ _ Ad) as [x Ex]. destruct (accessible_head _ _ _ As) as [y Ey].
    unfold load. rewrite Ey. cbn [bind].
    destruct (store_ok m (dst + Z.of_nat i) (cast y)) as [m1 [E1 [S1 [O1 A1]]]]; [congruence|].
    rewrite E1. cbn [bind].
    destruct (IH (S i) m1) as [m2 [E2 [R1 R2]]].
    + replace (dst + Z.of_nat (S i)) with (dst + Z.of_nat i + 1) by lia.
      apply accessible_ext with m; auto. apply accessible_tail; auto.
    + replace (src + Z.of_nat (S i)) with (src + Z.of_nat i + 1) by lia.
      apply accessible_ext with m; auto. apply accessible_tail; auto.
    + lia.
    + exists m2. split; auto.
      replace (dst + Z.of_nat (S i)) with (dst + Z.of_nat i + 1) in * by lia.
      replace (src + Z.of_nat (S i)) with (src + Z.of_nat i + 1) in * by lia.
      split.
      * intros j Hj. destruct (Z.eq_dec j 0) as [->|N].
        -- rewrite Z.add_0_r. rewrite R2 by lia. rewrite Z.add_0_r, S1, Ey. reflexivity.
        -- replace (dst + Z.of_nat i + j) with (dst + Z.of_nat i + 1 + (j - 1)) by lia.
           rewrite R1 by lia. f_equal.
           replace (src + Z.of_nat i + 1 + (j - 1)) with (src + Z.of_nat i + j) by lia.
           apply O1. lia.
      * intros a Ha. rewrite R2 by lia. apply O1. lia.
Qed.

Lemma copy_loop_zero : forall cast dst src count m,
  accessible m dst count -> accessible m src count ->
  (dst <= src \/ src + Z.of_nat count <= dst) ->
  exists m', copy_loop cast m dst src 0 count = Ok m' /\
    range_replaced m m' dst count (fun j => option_map cast (m (src + j))).
Proof.
  intros cast dst src count m Ad As H.
  destruct (copy_loop_forward cast dst src count 0 m) as [m' [E R]];
    try (cbn [Z.of_nat]; rewrite ?Z.add_0_r; auto; lia).
  exists m'. split; auto. cbn [Z.of_nat] in R. rewrite !Z.add_0_r in R. auto.
Qed.

(** a forward loop onto a destination inside the source repeats the first bytes *)
Lemma copy_loop_repeats : forall m src k, 0 < k -> forall count i mi,
  (forall j, 0 <= j < Z.of_nat i + k -> mi (src + j) = m (src + j mod k)) ->
  accessible mi (src + k + Z.of_nat i) count ->
  (forall j, 0 <= j < k -> m (src + j) <> None) ->
  exists m', copy_loop (fun b => b) mi (src + k) src i count = Ok m' /\
    (forall j, 0 <= j < Z.of_nat i + Z.of_nat count + k -> m' (src + j) = m (src + j mod k)) /\
    (forall a, a < src + k + Z.of_nat i \/ src + k + Z.of_nat i + Z.of_nat count <= a -> m' a = mi a).
Proof.
  intros m src k Hk; induction count as [|n IH]; intros i mi Inv Ad As; cbn [copy_loop].
  - exists mi. split; auto. split; auto. intros j Hj. apply Inv. lia.
  - assert (MB := Z.mod_pos_bound (Z.of_nat i) k Hk).
    destruct (m (src + Z.of_nat i mod k)) as [y|] eqn:Ey; [|exfalso; eapply As; [|exact Ey]; lia].
    unfold load. rewrite (Inv (Z.of_nat i)) by lia. rewrite Ey. cbn [bind].
    destruct (accessible_head _ _ _ Ad) as [x Ex].
    destruct (store_ok mi (src + k + Z.of_nat i) y) as [m1 [E1 [S1 [O1 A1]]]]; [congruence|].
    rewrite E1. cbn [bind].
    destruct (IH (S i) m1) as [m2 [E2 [R1 R2]]]; auto.
    + intros j Hj. destruct (Z.eq_dec j (Z.of_nat i + k)) as [->|N].
      * replace (src + (Z.of_nat i + k)) with (src + k + Z.of_nat i) by lia. rewrite S1, <- Ey.
        f_equal. f_equal. replace (Z.of_nat i + k) with (Z.of_nat i + 1 * k) by lia.
        rewrite Z.mod_add by lia. reflexivity.
      * rewrite O1 by lia. apply Inv. lia.
    + replace (src + k + Z.of_nat (S i)) with (src + k + Z.of_nat i + 1) by lia.
      apply accessible_ext with mi; auto. apply accessible_tail; auto.
    + exists m2. split; auto. split.
      * intros j Hj. apply R1. lia.
      * intros a Ha. rewrite R2 by lia. apply O1. lia.
Qed.

Lemma load_range_ok : forall n m a, accessible m a n ->
  exists l, load_range m a n = Ok l /\ length l = n /\
    forall i, (i < n)%nat -> nth_error l i = m (a + Z.of_nat i).
Proof.
  induction n as [|n IH]; intros m a H; cbn [load_range].
  - exists []. split; auto. split; auto. intros; lia.
  - destruct (accessible_head _ _ _ H) as [x Ex]. unfold load. rewrite Ex. cbn [bind].
    destruct (IH m (a + 1) (accessible_tail _ _ _ H)) as [l [El [Ll Hl]]]. rewrite El. cbn [bind].
    exists (x :: l). split; auto. split; [cbn; lia|].
    intros [|i] Hi; cbn [nth_error].
    + rewrite Z.add_0_r. auto.
    + rewrite Hl by lia. f_equal. lia.
Qed.

Lemma store_range_ok : forall l m a, accessible m a (length l) ->
  exists m', store_range m a l = Ok m' /\
    (forall i, (i < length l)%nat -> m' (a + Z.of_nat i) = nth_error l i) /\
    (forall x, x < a \/ a + Z.of_nat (length l) <= x -> m' x = m x).
Proof.
  induction l as [|b l IH]; intros m a H; cbn [store_range].
  - exists m. split; auto. split; [cbn; lia|auto].
  - cbn [length] in H. destruct (accessible_head _ _ _ H) as [x Ex].
    destruct (store_ok m a b) as [m1 [E1 [S1 [O1 A1]]]]; [congruence|].
    rewrite E1. cbn [bind].
    destruct (IH m1 (a + 1)) as [m2 [E2 [R1 R2]]].
    { apply accessible_ext with m; auto. apply accessible_tail; auto. }
    exists m2. split; auto. cbn [length]. split.
    + intros [|i] Hi; cbn [nth_error].
      * rewrite Z.add_0_r. rewrite R2 by lia. auto.
      * replace (a + Z.of_nat (S i)) with (a + 1 + Z.of_nat i) by lia. apply R1. lia.
    + intros y Hy. rewrite R2 by lia. apply O1. lia.
Qed.

Lemma copy_range : forall m dst src n, accessible m dst n -> accessible m src n ->
  exists l m', load_range m src n = Ok l /\ store_range m dst l = Ok m' /\
    range_replaced m m' dst n (fun i => m (src + i)).
Proof.
  intros m dst src n Ad As.
  destruct (load_range_ok n m src As) as [l [El [Ll Hl]]].
  destruct (store_range_ok l m dst) as [m' [Es [R1 R2]]]; [rewrite Ll; auto|].
  exists l, m'. split; auto. split; auto. rewrite Ll in *. split; auto.
  intros i Hi. replace i with (Z.of_nat (Z.to_nat i)) by lia. rewrite R1 by lia. apply Hl. lia.
Qed.

Lemma memmove_runtime_correct : forall m dst src n, accessible m dst n -> accessible m src n ->
  exists m', memmove_runtime m dst src n = Ok (dst, m') /\
    range_replaced m m' dst n (fun i => m (src + i)).
Proof.
  intros m dst src n Ad As. destruct (copy_range m dst src n Ad As) as [l [m' [El [Es R]]]].
  unfold memmove_runtime. rewrite El. cbn [bind]. rewrite Es. exists m'. auto.
Qed.

Lemma option_map_id : forall (o : option Z), option_map (fun b => b) o = o.
Proof. intros [x|]; reflexivity. Qed.

Lemma range_replaced_ext : forall m m' dst n f g, (forall i, f i = g i) ->
  range_replaced m m' dst n f -> range_replaced m m' dst n g.
Proof. intros m m' dst n f g E [H1 H2]. split; auto. intros i Hi. rewrite <- E. auto. Qed.

Lemma memmove_constant_correct : forall m dst src n, accessible m dst n -> accessible m src n ->
  ~ (src < dst < src + Z.of_nat n) ->
  exists m', memmove_constant m dst src n = Ok (dst, m') /\
    range_replaced m m' dst n (fun i => m (src + i)).
Proof.
  intros m dst src n Ad As H. unfold memmove_constant.
  destruct (Z.eqb_spec dst src) as [->|N].
  - exists m. split; auto. split; auto.
  - destruct (copy_loop_zero (fun b => b) dst src n m Ad As) as [m' [E R]]; [lia|].
    rewrite E. exists m'. split; auto. eapply range_replaced_ext; [|exact R].
    intros i. cbv beta. apply option_map_id.
Qed.

Lemma memmove_constant_repeats : forall m dst src n,
  accessible m src n -> accessible m dst n -> src < dst < src + Z.of_nat n ->
  exists m', memmove_constant m dst src n = Ok (dst, m') /\
    range_replaced m m' dst n (fun i => m (src + i mod (dst - src))).
Proof.
  intros m dst src n As Ad H. unfold memmove_constant.
  destruct (Z.eqb_spec dst src); [lia|].
  destruct (copy_loop_repeats m src (dst - src) ltac:(lia) n 0 m) as [m' [E [R1 R2]]].
  - intros j Hj. rewrite Z.mod_small by lia. reflexivity.
  - replace (src + (dst - src) + Z.of_nat 0) with dst by lia. auto.
  - intros j Hj. apply As. lia.
  - replace (src + (dst - src)) with dst in E by lia. rewrite E. exists m'. split; auto. split.
    + intros i Hi. replace (dst + i) with (src + (i + (dst - src))) by lia. rewrite R1 by lia.
      f_equal. f_equal. replace (i + (dst - src)) with (i + 1 * (dst - src)) by lia.
      rewrite Z.mod_add by lia. reflexivity.
    + intros a Ha. apply R2. lia.
Qed.

Lemma not_overlapping : forall a b n, disjoint_ranges a b n -> overlapping a b (Z.of_nat n) = false.
Proof.
  intros a b n H. unfold overlapping. apply not_true_is_false. rewrite !andb_true_iff, !Z.ltb_lt.
  unfold disjoint_ranges in H. lia.
Qed.

Lemma memcpy_runtime_correct : forall dbg m dst src n, dst <> 0 -> src <> 0 ->
  accessible m dst n -> accessible m src n -> disjoint_ranges dst src n ->
  exists m', memcpy_runtime dbg m dst src n = Ok m' /\
    range_replaced m m' dst n (fun i => m (src + i)).
Proof.
  intros dbg m dst src n Nd Ns Ad As D.
  destruct (copy_range m dst src n Ad As) as [l [m' [El [Es R]]]].
  exists m'. split; auto. unfold memcpy_runtime, std_memcpy, cassert.
  rewrite not_overlapping by auto. rewrite El. cbn [bind].
  destruct (Z.eqb_spec dst 0); [contradiction|]. destruct (Z.eqb_spec src 0); [contradiction|].
  destruct dbg; auto.
Qed.

Lemma memcpy_constant_correct : forall dbg to from m dst src n, dst <> 0 -> src <> 0 ->
  to <> BVoid -> from <> BVoid ->
  accessible m dst n -> accessible m src n -> disjoint_ranges dst src n ->
  exists m', memcpy_constant dbg to from m dst src n = Some (Ok m') /\
    range_replaced m m' dst n (fun i => option_map (byte_cast to) (m (src + i))).
Proof.
  intros dbg to from m dst src n Nd Ns Nt Nf Ad As D.
  destruct (copy_loop_zero (byte_cast to) dst src n m Ad As) as [m' [E R]].
  { unfold disjoint_ranges in D. lia. }
  exists m'. split; auto. unfold memcpy_constant, cassert.
  destruct (Z.eqb_spec dst 0); [contradiction|]. destruct (Z.eqb_spec src 0); [contradiction|].
  rewrite E. destruct to; destruct from; try congruence; destruct dbg; reflexivity.
Qed.

Lemma memcpy_agree : forall dbg to from m dst src n, dst <> 0 -> src <> 0 ->
  to <> BVoid -> from <> BVoid ->
  (to = BBool -> forall i, 0 <= i < Z.of_nat n -> m (src + i) = Some 0 \/ m (src + i) = Some 1) ->
  accessible m dst n -> accessible m src n -> disjoint_ranges dst src n ->
  exists mc mr, memcpy_constant dbg to from m dst src n = Some (Ok mc) /\
    memcpy_runtime dbg m dst src n = Ok mr /\
    range_replaced m mc dst n (fun i => m (src + i)) /\
    range_replaced m mr dst n (fun i => m (src + i)) /\ forall a, mc a = mr a.
Proof.
  intros dbg to from m dst src n Nd Ns Nt Nf Hb Ad As D.
  destruct (memcpy_constant_correct dbg to from m dst src n Nd Ns Nt Nf Ad As D) as [mc [Ec [C1 C2]]].
  destruct (memcpy_runtime_correct dbg m dst src n Nd Ns Ad As D) as [mr [Er [R1 R2]]].
  exists mc, mr. split; auto. split; auto.
  assert (C1' : forall i, 0 <= i < Z.of_nat n -> mc (dst + i) = m (src + i)).
  { intros i Hi. rewrite C1 by auto. destruct to; cbn [byte_cast]; try apply option_map_id.
    destruct (Hb eq_refl i Hi) as [->| ->]; reflexivity. }
  split; [split; auto|]. split; [split; auto|].
  intros a. destruct (Z_lt_le_dec a dst); [rewrite C2, R2 by lia; auto|].
  destruct (Z_le_gt_dec (dst + Z.of_nat n) a); [rewrite C2, R2 by lia; auto|].
  replace a with (dst + (a - dst)) by lia. rewrite C1', R1 by lia. auto.
Qed.

(** * bit_cast *)

Lemma bit_cast_correct : forall m dst src n, accessible m dst n -> accessible m src n ->
  disjoint_ranges dst src n ->
  exists l, bit_cast m dst src n n = Some (Ok l) /\ load_range m src n = Ok l /\ length l = n.
Proof.
  intros m dst src n Ad As D. destruct (copy_range m dst src n Ad As) as [l [m' [El [Es [R1 R2]]]]].
  exists l. unfold bit_cast, std_memcpy. rewrite Nat.eqb_refl, not_overlapping by auto.
  rewrite El. cbn [bind]. rewrite Es. cbn [bind].
  assert (Ad' : accessible m' dst n) by (intros i Hi; rewrite R1 by auto; apply As; auto).
  destruct (load_range_ok n m' dst Ad') as [l' [El' [Ll' Hl']]].
  destruct (load_range_ok n m src As) as [l2 [El2 [Ll2 Hl2]]].
  assert (l2 = l) by congruence. subst l2.
  assert (l' = l).
  { apply nth_error_ext. intros i. destruct (Nat.lt_ge_cases i n) as [L|L].
    - rewrite Hl', Hl2 by lia. apply R1. lia.
    - rewrite !(proj2 (nth_error_None _ _)) by lia. auto. }
  rewrite El', H. auto.
Qed.

(** To -> From: the cast back gives the original bytes.  [m2] is any memory in
    which the object returned by the first cast lives at [src2]. *)
Lemma bit_cast_round_trip : forall m dst src n l m2 dst2 src2 l2,
  accessible m dst n -> accessible m src n -> disjoint_ranges dst src n ->
  bit_cast m dst src n n = Some (Ok l) ->
  load_range m2 src2 n = Ok l -> accessible m2 src2 n ->
  accessible m2 dst2 n -> disjoint_ranges dst2 src2 n ->
  bit_cast m2 dst2 src2 n n = Some (Ok l2) ->
  load_range m src n = Ok l2.
Proof.
  intros m dst src n l m2 dst2 src2 l2 Ad As D E Es2 As2 Ad2 D2 E2.
  destruct (bit_cast_correct m dst src n Ad As D) as [x [X1 [X2 _]]].
  destruct (bit_cast_correct m2 dst2 src2 n Ad2 As2 D2) as [y [Y1 [Y2 _]]].
  congruence.
Qed.

(** * Arrays *)

Lemma all_some_get : forall T (a : list T), all_some (map (get T a) (seq 0 (length a))) = Some a.
Proof.
  intros T a.
  assert (G : forall pre suf, all_some (map (get T (pre ++ suf)) (seq (length pre) (length suf))) = Some suf).
  { intros pre suf; revert pre; induction suf as [|x suf IH]; intros pre; [reflexivity|].
    cbn [length seq map all_some]. unfold get at 1.
    rewrite nth_error_app2, Nat.sub_diag by lia. cbn [nth_error].
    replace (pre ++ x :: suf) with ((pre ++ [x]) ++ suf) by (rewrite <- app_assoc; reflexivity).
    replace (S (length pre)) with (length (pre ++ [x])) by (rewrite app_length; cbn; lia).
    rewrite IH. reflexivity. }
  exact (G [] a).
Qed.

Lemma all_some_app : forall A (l1 l2 : list (option A)) r1 r2,
  all_some l1 = Some r1 -> all_some l2 = Some r2 -> all_some (l1 ++ l2) = Some (r1 ++ r2).
Proof.
  intros A; induction l1 as [|[a|] l1 IH]; intros l2 r1 r2 H1 H2; cbn [all_some app] in *.
  - injection H1; intros <-. auto.
  - destruct (all_some l1) as [r|] eqn:E; [|discriminate]. injection H1; intros <-.
    rewrite (IH l2 r r2) by auto. reflexivity.
  - discriminate.
Qed.

Lemma concatenate_2 : forall T (a1 a2 : list T),
  concatenate_2_arrays T a1 a2 (seq 0 (length a1)) (seq 0 (length a2)) = Some (a1 ++ a2).
Proof. intros. apply all_some_app; apply all_some_get. Qed.

Lemma concatenate_arrays_correct : forall T (arrays : list (list T)), arrays <> [] ->
  concatenate_arrays T arrays = Some (concat arrays).
Proof.
  intros T [|a rest] H; [congruence|]. cbn [concatenate_arrays concat]. clear H.
  revert a; induction rest as [|b rest IH]; intros a; cbn [concatenate_arrays_impl concat].
  - rewrite app_nil_r. reflexivity.
  - rewrite concatenate_2, IH, app_assoc. reflexivity.
Qed.

Lemma fill_copies : forall T (mv : T -> T * T) v n, mv v = (v, v) -> fill_moving T mv v n = repeat v n.
Proof.
  intros T mv v n H; induction n as [|n IH]; [reflexivity|].
  cbn [fill_moving repeat]. rewrite H, IH. reflexivity.
Qed.

Lemma iter_inside : forall (A : Type) (f : A -> A) k x, Nat.iter (S k) f x = Nat.iter k f (f x).
Proof. intros A f k x. induction k as [|k IH]; [reflexivity|]. change (f (Nat.iter (S k) f x) = f (Nat.iter k f (f x))). congruence. Qed.
(** element k is moved from what k moves have left of the value *)
Lemma fill_element : forall T (mv : T -> T * T) n v k, (k < n)%nat ->
  nth_error (fill_moving T mv v n) k = Some (fst (mv (Nat.iter k (fun x => snd (mv x)) v))).
Proof.
  intros T mv n. induction n as [|n IH]; intros v k H; [lia|]. cbn [fill_moving].
  destruct (mv v) as [e v'] eqn:E. destruct k as [|k]; cbn [nth_error].
  - cbn [Nat.iter nat_rect]. rewrite E. reflexivity.
  - rewrite IH by lia. rewrite iter_inside, E. reflexivity.
Qed.
Lemma fill_length : forall T (mv : T -> T * T) n v, length (fill_moving T mv v n) = n.
Proof. intros T mv n. induction n as [|n IH]; intros v; cbn [fill_moving]; [reflexivity|]. destruct (mv v). cbn. auto. Qed.
Lemma nth_error_ext_len : forall (A : Type) (l l' : list A), length l = length l' ->
  (forall k, (k < length l)%nat -> nth_error l k = nth_error l' k) -> l = l'.
Proof.
  intros A l. induction l as [|x l IH]; intros [|y l'] L H; try discriminate L; [reflexivity|].
  assert (E := H 0%nat ltac:(cbn; lia)). cbn in E. injection E as <-. f_equal. apply IH; [cbn in L; lia|].
  intros k K. apply (H (S k)). cbn. lia.
Qed.
Lemma fill_exact : forall T (mv : T -> T * T) v n,
  length (fill_moving T mv v n) = n /\
  (forall k, (k < n)%nat -> nth_error (fill_moving T mv v n) k = Some (fst (mv (Nat.iter k (fun x => snd (mv x)) v)))) /\
  (fill_moving T mv v n = repeat v n <-> forall k, (k < n)%nat -> fst (mv (Nat.iter k (fun x => snd (mv x)) v)) = v).
Proof.
  intros T mv v n. split; [apply fill_length|]. split; [intros k; apply fill_element|].
  assert (R : forall k, (k < n)%nat -> nth_error (repeat v n) k = Some v).
  { clear. induction n as [|n IH]; intros k K; [lia|]. destruct k; cbn; auto. apply IH. lia. }
  split.
  - intros E k K. pose proof (fill_element T mv n v k K) as F. rewrite E, R in F by auto. congruence.
  - intros H. apply nth_error_ext_len; rewrite fill_length; [symmetry; apply repeat_length|].
    intros k K. rewrite fill_element, R, H by auto. reflexivity.
Qed.

(** any move constructor: the first element gets the value, the others what is
    left after earlier moves *)
Lemma fill_moved_from : forall T (mv : T -> T * T) v n, (1 < n)%nat ->
  nth_error (fill_moving T mv v n) 0 = Some (fst (mv v)) /\
  nth_error (fill_moving T mv v n) 1 = Some (fst (mv (snd (mv v)))).
Proof.
  intros T mv v n H. destruct n as [|[|n]]; try lia. cbn [fill_moving].
  destruct (mv v) as [e v'] eqn:E1. cbn [fst snd]. destruct (mv v') as [e' v''] eqn:E2.
  cbn [nth_error fst]. auto.
Qed.

Lemma sv_select_ok : forall T U (cast : T -> U) sv is, (forall i, In i is -> (i < length sv)%nat) ->
  exists l, sv_select T cast sv is = Ok l /\ length l = length is /\
    forall k i, nth_error is k = Some i -> nth_error l k = option_map cast (nth_error sv i).
Proof.
  intros T U cast sv is; induction is as [|i is IH]; intros H; cbn [sv_select].
  - exists []. split; auto. split; auto. intros [|k] i E; discriminate.
  - destruct (nth_error sv i) as [c|] eqn:E.
    + unfold sv_at. rewrite E. cbn [bind].
      destruct IH as [l [El [Ll Hl]]]; [intros; apply H; right; auto|]. rewrite El. cbn [bind].
      exists (cast c :: l). split; auto. split; [cbn; lia|].
      intros [|k] j Ej; cbn [nth_error] in *; auto.
      injection Ej; intros <-. rewrite E. reflexivity.
    + apply nth_error_None in E. specialize (H i (or_introl eq_refl)). lia.
Qed.

Lemma sv_select_bad : forall T U (cast : T -> U) sv is i, In i is -> (length sv <= i)%nat ->
  sv_select T cast sv is = UB.
Proof.
  intros T U cast sv is i; induction is as [|j is IH]; intros Hi Hl; [contradiction|].
  cbn [sv_select]. destruct Hi as [->|Hi].
  - unfold sv_at. rewrite (proj2 (nth_error_None sv i)) by lia. reflexivity.
  - unfold sv_at. destruct (nth_error sv j); cbn [bind]; auto. rewrite IH by auto. reflexivity.
Qed.

Lemma make_array_sv_correct : forall T U (cast : T -> U) dbg n sv, (n <= length sv)%nat ->
  make_array_sv T cast dbg n sv = Ok (map cast (firstn n sv)).
Proof.
  intros T U cast dbg n sv H. unfold make_array_sv, cassert.
  destruct (Nat.leb_spec n (length sv)); [|lia].
  destruct (sv_select_ok T U cast sv (seq 0 n)) as [l [El [Ll Hl]]].
  { intros i Hi. apply in_seq in Hi. lia. }
  assert (l = map cast (firstn n sv)).
  { rewrite seq_length in Ll. apply nth_error_ext. intros k. destruct (Nat.lt_ge_cases k n) as [L|L].
    - rewrite (Hl k k); [|rewrite (nth_error_nth' _ O) by (rewrite seq_length; lia);
        rewrite seq_nth by lia; reflexivity].
      rewrite nth_error_map, nth_error_firstn_lt by lia. reflexivity.
    - rewrite !(proj2 (nth_error_None _ _)); auto; rewrite ?map_length, ?firstn_length; lia. }
  rewrite El, H1. destruct dbg; reflexivity.
Qed.

Lemma make_array_sv_short : forall T U (cast : T -> U) n sv, (length sv < n)%nat ->
  make_array_sv T cast true n sv = Abort /\ make_array_sv T cast false n sv = UB.
Proof.
  intros T U cast n sv H. unfold make_array_sv, cassert.
  destruct (Nat.leb_spec n (length sv)); [lia|]. split; auto.
  apply sv_select_bad with (length sv); auto. apply in_seq. lia.
Qed.

Lemma sv_to_array_correct : forall T is (sv : list T), (forall i, In i is -> (i < length sv)%nat) ->
  exists l, sv_to_array T is sv = Ok l /\ length l = length is /\
    forall k i, nth_error is k = Some i -> nth_error l k = nth_error sv i.
Proof.
  intros T is sv H. destruct (sv_select_ok T T (fun c => c) sv is H) as [l [E [L G]]].
  exists l. split; auto. split; auto. intros k i Hk. rewrite (G k i Hk).
  destruct (nth_error sv i); reflexivity.
Qed.

Lemma make_array_ints_values : forall args l,
  (forall a, In a args -> std_ity (fst a) /\ inty (fst a) (snd a)) ->
  make_array_ints args = Some l -> l = map snd args.
Proof.
  intros [|[t0 v0] rest] l H E; cbn [make_array_ints] in E; [injection E; intros <-; reflexivity|].
  set (c := common_list t0 (map fst rest)) in *.
  destruct (forallb _ _) eqn:F; [|discriminate]. injection E; intros <-. clear E.
  rewrite forallb_forall in F.
  apply (map_ext_in (fun a => conv c (snd a)) snd ((t0, v0) :: rest)). intros a Ha.
  assert (Fa := F a Ha). unfold no_narrowing in Fa. apply andb_true_iff in Fa.
  rewrite !Z.leb_le in Fa. destruct (H a Ha) as [Sa Ia].
  assert (P : 0 < bits c).
  { clearbody c. unfold inty, minv, maxv in *. assert (B := std_bits_pos _ Sa).
    assert (Q := Z.pow_pos_nonneg 2 (bits (fst a) - 1)).
    destruct (Z_lt_le_dec 0 (bits c)) as [|N]; auto. exfalso.
    assert (Q2 := Z.pow_lt_mono_r 2 0 (bits (fst a))). rewrite Z.pow_0_r in Q2.
    assert (Z0 : 2 ^ (bits c - 1) = 0) by (apply Z.pow_neg_r; lia).
    assert (Z1 : 2 ^ bits c <= 1).
    { destruct (Z.eq_dec (bits c) 0) as [->|]; [cbn; lia|]. rewrite Z.pow_neg_r by lia. lia. }
    destruct (sgn c), (sgn (fst a)); lia. }
  apply conv_id; auto. unfold inty in *. lia.
Qed.

Lemma common_list_same : forall t ts, (forall u, In u ts -> u = t) -> common_list t ts = t.
Proof.
  intros t ts; induction ts as [|u ts IH]; intros H; [reflexivity|].
  unfold common_list in *. cbn [fold_left].
  rewrite (H u (or_introl eq_refl)). unfold common at 2, ity_eqb.
  rewrite Z.eqb_refl, Bool.eqb_reflx. cbn [andb]. apply IH. intros v Hv. apply H. right; auto.
Qed.

Lemma make_array_ints_same : forall t vs, std_ity t -> (forall v, In v vs -> inty t v) ->
  make_array_ints (map (fun v => (t, v)) vs) = Some vs.
Proof.
  intros t vs St H. destruct vs as [|v vs]; [reflexivity|].
  assert (E : exists l, make_array_ints (map (fun v => (t, v)) (v :: vs)) = Some l).
  { cbn [map make_array_ints]. rewrite common_list_same.
    - replace (forallb _ _) with true; [eexists; reflexivity|]. symmetry.
      change ((t, v) :: map (fun v0 => (t, v0)) vs) with (map (fun v0 => (t, v0)) (v :: vs)).
      apply forallb_forall. intros a Ha. apply in_map_iff in Ha. destruct Ha as [x [<- _]].
      cbn [fst]. unfold no_narrowing. rewrite !Z.leb_refl. reflexivity.
    - intros u Hu. rewrite map_map in Hu. apply in_map_iff in Hu. destruct Hu as [x [<- _]]. reflexivity. }
  destruct E as [l E]. rewrite E. f_equal.
  assert (K : forall a, In a (map (fun v => (t, v)) (v :: vs)) -> std_ity (fst a) /\ inty (fst a) (snd a)).
  { intros a Ha. apply in_map_iff in Ha. destruct Ha as [x [<- Hx]]. cbn [fst snd]. auto. }
  rewrite (make_array_ints_values _ _ K E), map_map. apply map_id.
Qed.

Lemma is_equal_loop_spec : forall T eqb (lhs rhs : list T) count i,
  (i + count <= length lhs)%nat -> length rhs = length lhs ->
  exists b, is_equal_loop T eqb lhs rhs i count = Ok b /\
    (b = true <-> forall j x y, (i <= j < i + count)%nat -> nth_error lhs j = Some x ->
       nth_error rhs j = Some y -> eqb x y = true).
Proof.
  intros T eqb lhs rhs; induction count as [|n IH]; intros i H1 H2; cbn [is_equal_loop].
  - exists true. split; auto. split; auto. intros; lia.
  - unfold sv_at. destruct (nth_error lhs i) as [x|] eqn:Ex; [|apply nth_error_None in Ex; lia].
    destruct (nth_error rhs i) as [y|] eqn:Ey; [|apply nth_error_None in Ey; lia]. cbn [bind].
    destruct (eqb x y) eqn:Q; cbn [negb].
    + destruct (IH (S i)) as [b [Eb Hb]]; try lia. exists b. split; auto. rewrite Hb. split.
      * intros G j u v Hj Eu Ev. destruct (Nat.eq_dec j i) as [->|N]; [congruence|].
        apply (G j u v); auto; lia.
      * intros G j u v Hj Eu Ev. apply (G j u v); auto; lia.
    + exists false. split; auto. split; [discriminate|]. intros G.
      assert (eqb x y = true) by (apply (G i x y); auto; lia). congruence.
Qed.

Lemma is_equal_correct : forall T eqb dbg (lhs rhs : list T) count,
  (count <= length lhs)%nat -> length rhs = length lhs ->
  exists b, is_equal T eqb dbg lhs rhs count = Ok b /\
    (b = true <-> forall j x y, (j < count)%nat -> nth_error lhs j = Some x ->
       nth_error rhs j = Some y -> eqb x y = true).
Proof.
  intros T eqb dbg lhs rhs count H1 H2. unfold is_equal, cassert.
  destruct (Nat.leb_spec count (length lhs)); [|lia].
  destruct (is_equal_loop_spec T eqb lhs rhs count 0) as [b [E G]]; auto.
  exists b. split; [destruct dbg; auto|]. rewrite G. split; intros K j x y Hj; apply K; lia.
Qed.

Lemma is_equal_local : forall T eqb dbg (lhs rhs lhs' rhs' : list T) count,
  (count <= length lhs)%nat -> length rhs = length lhs ->
  length lhs' = length lhs -> length rhs' = length lhs ->
  firstn count lhs' = firstn count lhs -> firstn count rhs' = firstn count rhs ->
  is_equal T eqb dbg lhs' rhs' count = is_equal T eqb dbg lhs rhs count.
Proof.
  intros T eqb dbg lhs rhs lhs' rhs' count H1 H2 L1 L2 F1 F2.
  destruct (is_equal_correct T eqb dbg lhs rhs count H1 H2) as [b [-> Hb]].
  destruct (is_equal_correct T eqb dbg lhs' rhs' count) as [b' [-> Hb']]; try lia.
  f_equal. apply eq_true_iff_eq. rewrite Hb, Hb'.
  assert (N : forall (u v : list T) j, firstn count u = firstn count v -> (j < count)%nat ->
    nth_error u j = nth_error v j).
  { intros u v j E Hj. rewrite <- (nth_error_firstn_lt _ u count j Hj).
    rewrite <- (nth_error_firstn_lt _ v count j Hj). congruence. }
  split; intros G j x y Hj Ex Ey; apply (G j x y); auto.
  - rewrite (N lhs' lhs); auto.
  - rewrite (N rhs' rhs); auto.
  - rewrite <- (N lhs' lhs); auto.
  - rewrite <- (N rhs' rhs); auto.
Qed.

Lemma is_equal_misuse : forall T eqb (lhs rhs : list T) count, (length lhs < count)%nat ->
  is_equal T eqb true lhs rhs count = Abort.
Proof.
  intros T eqb lhs rhs count H. unfold is_equal, cassert.
  destruct (Nat.leb_spec count (length lhs)); [lia|reflexivity].
Qed.

(** * for_each *)

Lemma for_each_arg_correct : forall S A O (f : S -> A -> S * O) ts s s' log,
  for_each_arg f ts s = (s', log) ->
  map fst log = ts /\ chain f s ts s' (map snd log).
Proof.
  intros S A O f ts; induction ts as [|t ts IH]; intros s s' log E; cbn [for_each_arg] in E.
  - injection E; intros <- <-. split; [reflexivity|constructor].
  - destruct (f s t) as [s1 o] eqn:Ef. destruct (for_each_arg f ts s1) as [s2 l] eqn:El.
    injection E; intros <- <-. destruct (IH _ _ _ El) as [M C]. cbn [map fst snd].
    split; [f_equal; auto|]. econstructor; eauto.
Qed.

Lemma for_each_in_tuple_correct : forall S A O (f : S -> A -> S * O) ts s,
  exists s' log, for_each_in_tuple f ts s = Some (s', log) /\
    map fst log = ts /\ chain f s ts s' (map snd log).
Proof.
  intros S A O f ts s. unfold for_each_in_tuple. rewrite all_some_get.
  destruct (for_each_arg f ts s) as [s' log] eqn:E. exists s', log. split; auto.
  apply for_each_arg_correct; auto.
Qed.

Lemma chain_deterministic : forall S A O (f : S -> A -> S * O) s ts s1 o1,
  chain f s ts s1 o1 -> forall s2 o2, chain f s ts s2 o2 -> s1 = s2 /\ o1 = o2.
Proof.
  intros S A O f s ts s1 o1 H; induction H as [s|s t sa o ts sb os E C IH]; intros s2 o2 H2.
  - inversion H2; auto.
  - inversion H2 as [|a b sc o' d e os' E' C']; subst. rewrite E in E'. injection E'; intros <- <-.
    destruct (IH _ _ C') as [-> ->]. auto.
Qed.
