(** Lemmas about the memory helpers: accesses outside the accessible memory,
    overlapping ranges, and the exact conditions under which the two modes agree. *)

Require Import ZArith List Bool Lia.
Require Import Verif.Outcome Verif.Machine Verif.MemModel Verif.MemSpec Verif.MemProofs.
Import ListNotations.
Open Scope Z_scope.
Open Scope res_scope.

Lemma accessible_dec : forall n m p, accessible m p n \/ exists i, 0 <= i < Z.of_nat n /\ m (p + i) = None.
Proof.
  induction n as [|n IH]; intros m p.
  - left. intros i Hi. lia.
  - destruct (m p) as [b|] eqn:E.
    + destruct (IH m (p + 1)) as [A|[i [Hi N]]].
      * left. intros i Hi. destruct (Z.eq_dec i 0) as [->|K]; [rewrite Z.add_0_r; congruence|].
        replace (p + i) with (p + 1 + (i - 1)) by lia. apply A. lia.
      * right. exists (i + 1). split; [lia|]. replace (p + (i + 1)) with (p + 1 + i) by lia. auto.
    + right. exists 0. split; [lia|]. rewrite Z.add_0_r. auto.
Qed.

Lemma not_accessible : forall m p n, ~ accessible m p n -> exists i, 0 <= i < Z.of_nat n /\ m (p + i) = None.
Proof. intros m p n H. destruct (accessible_dec n m p); [contradiction|auto]. Qed.

Lemma store_domain : forall m a b m1, store m a b = Ok m1 -> forall x, m1 x = None <-> m x = None.
Proof.
  intros m a b m1 H x. unfold store in H. destruct (m a) eqn:E; [|discriminate]. injection H as <-.
  destruct (Z.eqb_spec x a) as [->|N]; [rewrite E|]; split; congruence.
Qed.
Lemma store_cases : forall m a b, store m a b = UB \/ exists m1, store m a b = Ok m1.
Proof. intros m a b. unfold store. destruct (m a); eauto. Qed.
Lemma store_none : forall m a b, m a = None -> store m a b = UB.
Proof. intros m a b H. unfold store. rewrite H. reflexivity. Qed.

Lemma load_range_bad : forall n m a i, 0 <= i < Z.of_nat n -> m (a + i) = None -> load_range m a n = UB.
Proof.
  induction n as [|n IH]; intros m a i Hi N; [lia|]. cbn [load_range]. unfold load.
  destruct (m a) as [b|] eqn:E; [|reflexivity]. cbn [bind].
  assert (i <> 0) by (intros ->; rewrite Z.add_0_r in N; congruence).
  rewrite (IH m (a + 1) (i - 1)); [reflexivity|lia|]. replace (a + 1 + (i - 1)) with (a + i) by lia. auto.
Qed.

Lemma store_range_bad : forall l m a i, 0 <= i < Z.of_nat (length l) -> m (a + i) = None -> store_range m a l = UB.
Proof.
  induction l as [|b l IH]; intros m a i Hi N; cbn [length] in Hi; [lia|]. cbn [store_range].
  destruct (store_cases m a b) as [E|[m1 E]]; rewrite E; [reflexivity|]. cbn [bind].
  assert (i <> 0).
  { intros ->. rewrite Z.add_0_r in N. rewrite store_none in E by auto. discriminate. }
  apply (IH m1 (a + 1) (i - 1)); [lia|]. replace (a + 1 + (i - 1)) with (a + i) by lia.
  apply (store_domain _ _ _ _ E). auto.
Qed.

Lemma zero_loop_bad : forall size m p k i, 0 <= i < Z.of_nat size -> m (p + Z.of_nat k + i) = None ->
  zero_loop m p k size = UB.
Proof.
  induction size as [|n IH]; intros m p k i Hi N; [lia|]. cbn [zero_loop].
  destruct (store_cases m (p + Z.of_nat k) 0) as [E|[m1 E]]; rewrite E; [reflexivity|]. cbn [bind].
  assert (i <> 0).
  { intros ->. rewrite Z.add_0_r in N. rewrite store_none in E by auto. discriminate. }
  apply (IH m1 p (S k) (i - 1)); [lia|].
  replace (p + Z.of_nat (S k) + (i - 1)) with (p + Z.of_nat k + i) by lia. apply (store_domain _ _ _ _ E). auto.
Qed.

Lemma copy_loop_bad : forall cast dst src count m k i, 0 <= i < Z.of_nat count ->
  m (dst + Z.of_nat k + i) = None \/ m (src + Z.of_nat k + i) = None ->
  copy_loop cast m dst src k count = UB.
Proof.
  intros cast dst src. induction count as [|n IH]; intros m k i Hi N; [lia|]. cbn [copy_loop]. unfold load.
  destruct (m (src + Z.of_nat k)) as [b|] eqn:L; [|reflexivity]. cbn [bind].
  destruct (store_cases m (dst + Z.of_nat k) (cast b)) as [E|[m1 E]]; rewrite E; [reflexivity|]. cbn [bind].
  assert (i <> 0).
  { intros ->. rewrite !Z.add_0_r in N. destruct N as [N|N]; [|congruence].
    rewrite store_none in E by auto. discriminate. }
  apply (IH m1 (S k) (i - 1)); [lia|].
  replace (dst + Z.of_nat (S k) + (i - 1)) with (dst + Z.of_nat k + i) by lia.
  replace (src + Z.of_nat (S k) + (i - 1)) with (src + Z.of_nat k + i) by lia.
  destruct N; [left|right]; apply (store_domain _ _ _ _ E); auto.
Qed.

Lemma memcmp_eq_bad : forall n m a b i, 0 <= i < Z.of_nat n -> m (a + i) = None \/ m (b + i) = None ->
  memcmp_eq m a b n = UB.
Proof.
  induction n as [|n IH]; intros m a b i Hi N; [lia|]. cbn [memcmp_eq]. unfold load.
  destruct (m a) as [x|] eqn:Ea; [|reflexivity]. cbn [bind].
  destruct (m b) as [y|] eqn:Eb; [|reflexivity]. cbn [bind].
  assert (i <> 0) by (intros ->; rewrite !Z.add_0_r in N; destruct N; congruence).
  rewrite (IH m (a + 1) (b + 1) (i - 1)); [reflexivity|lia|].
  replace (a + 1 + (i - 1)) with (a + i) by lia. replace (b + 1 + (i - 1)) with (b + i) by lia. auto.
Qed.

(** C25 *)
Lemma memvcmp_reads : forall m p val size, p <> 0 -> (0 < size)%nat ->
  (memvcmp m p val size = UB <->
   m p = None \/ (m p = Some val /\ exists i, 0 <= i < Z.of_nat size /\ m (p + i) = None)).
Proof.
  intros m p val size Hp Hs. unfold memvcmp, load.
  destruct (Nat.eqb_spec size 0); [lia|]. destruct (Z.eqb_spec p 0); [contradiction|]. cbn [orb].
  destruct (m p) as [b|] eqn:E; cbn [bind]; [|split; auto].
  destruct (Z.eqb_spec b val) as [->|NE].
  - split.
    + intros U. right. split; auto. apply not_accessible. intros A.
      destruct (memvcmp_correct m p val size A) as [r [R _]]. unfold memvcmp, load in R.
      destruct (Nat.eqb_spec size 0); [lia|]. destruct (Z.eqb_spec p 0); [contradiction|]. cbn [orb] in R.
      rewrite E in R. cbn [bind] in R. rewrite Z.eqb_refl in R. congruence.
    + intros [U|[_ [i [Hi N]]]]; [discriminate|].
      assert (i <> 0) by (intros ->; rewrite Z.add_0_r in N; congruence).
      apply (memcmp_eq_bad _ m p (p + 1) (i - 1)); [lia|]. right. replace (p + 1 + (i - 1)) with (p + i) by lia. auto.
  - split; [discriminate|]. intros [U|[U _]]; congruence.
Qed.
Lemma memvcmp_first : forall m p val size b, m p = Some b -> b <> val -> memvcmp m p val size = Ok false.
Proof.
  intros m p val size b E N. unfold memvcmp, load. destruct (_ || _); auto. rewrite E. cbn [bind].
  destruct (Z.eqb_spec b val); [contradiction|reflexivity].
Qed.

(** C26 *)
Lemma secure_zero_undefined : forall m p size,
  secure_zero_memory m p size = UB <-> ~ accessible m p size.
Proof.
  intros m p size. split.
  - intros U A. destruct (secure_zero_correct m p size A) as [m' [E _]]. congruence.
  - intros A. destruct (not_accessible _ _ _ A) as [i [Hi N]]. unfold secure_zero_memory.
    apply zero_loop_bad with i; [lia|]. rewrite Z.add_0_r. auto.
Qed.
Lemma secure_zero_safe_undefined : forall m p size,
  secure_zero_memory_safe m p size = UB <-> p <> 0 /\ ~ accessible m p size.
Proof.
  intros m p size. unfold secure_zero_memory_safe. destruct (Z.eqb_spec p 0) as [E|E].
  - split; [discriminate|intros [K _]; contradiction].
  - destruct (Nat.eqb_spec size 0) as [->|N0].
    + split; [discriminate|]. intros [_ K]. exfalso. apply K. intros i Hi. lia.
    + rewrite <- secure_zero_undefined. destruct (secure_zero_memory m p size) as [m'| | |]; cbn [bind]; split; intros H; auto; try discriminate;
        try (destruct H; discriminate).
Qed.

(** C27 *)
Lemma memmove_runtime_undefined : forall m dst src n,
  memmove_runtime m dst src n = UB <-> ~ (accessible m dst n /\ accessible m src n).
Proof.
  intros m dst src n. split.
  - intros U [Ad As]. destruct (memmove_runtime_correct m dst src n Ad As) as [m' [E _]]. congruence.
  - intros H. unfold memmove_runtime. destruct (accessible_dec n m src) as [As|[i [Hi N]]].
    + destruct (accessible_dec n m dst) as [Ad|[i [Hi N]]]; [exfalso; auto|].
      destruct (load_range_ok n m src As) as [l [El [Ll _]]]. rewrite El. cbn [bind].
      rewrite (store_range_bad l m dst i) by (auto; lia). reflexivity.
    + rewrite (load_range_bad n m src i); auto.
Qed.
Lemma copy_loop_total : forall cast dst src count m k, accessible m (dst + Z.of_nat k) count ->
  accessible m (src + Z.of_nat k) count -> exists m', copy_loop cast m dst src k count = Ok m'.
Proof.
  intros cast dst src. induction count as [|n IH]; intros m k Ad As; cbn [copy_loop]; [eauto|].
  destruct (accessible_head _ _ _ Ad) as [x Ex]. destruct (accessible_head _ _ _ As) as [y Ey].
  unfold load. rewrite Ey. cbn [bind].
  destruct (store_ok m (dst + Z.of_nat k) (cast y)) as [m1 [E1 [_ [_ A1]]]]; [congruence|]. rewrite E1. cbn [bind].
  apply IH.
  - replace (dst + Z.of_nat (S k)) with (dst + Z.of_nat k + 1) by lia.
    apply accessible_ext with m; auto. apply accessible_tail; auto.
  - replace (src + Z.of_nat (S k)) with (src + Z.of_nat k + 1) by lia.
    apply accessible_ext with m; auto. apply accessible_tail; auto.
Qed.
Lemma copy_loop_undefined : forall cast m dst src n,
  copy_loop cast m dst src 0 n = UB <-> ~ (accessible m dst n /\ accessible m src n).
Proof.
  intros cast m dst src n. split.
  - intros U [Ad As]. destruct (copy_loop_total cast dst src n m 0) as [m' E]; rewrite ?Z.add_0_r; auto. congruence.
  - intros H. destruct (accessible_dec n m src) as [As|[i [Hi N]]].
    + destruct (accessible_dec n m dst) as [Ad|[i [Hi N]]]; [exfalso; auto|].
      apply copy_loop_bad with i; auto. left. rewrite Z.add_0_r. auto.
    + apply copy_loop_bad with i; auto. right. rewrite Z.add_0_r. auto.
Qed.
Lemma memmove_constant_undefined : forall m dst src n,
  memmove_constant m dst src n = UB <-> dst <> src /\ ~ (accessible m dst n /\ accessible m src n).
Proof.
  intros m dst src n. unfold memmove_constant. destruct (Z.eqb_spec dst src) as [E|E].
  - split; [discriminate|intros [K _]; contradiction].
  - rewrite <- (copy_loop_undefined (fun b => b)).
    destruct (copy_loop (fun b => b) m dst src 0 n); cbn [bind]; split; intros H; auto; try discriminate;
      try (destruct H; discriminate).
Qed.

(** [m] repeats itself every [k] bytes from [a] to [a + n] *)
Lemma periodic_mod : forall (m : Z -> option Z) a n k, 0 < k ->
  (forall i, 0 <= i -> i + k < n -> m (a + i + k) = m (a + i)) ->
  forall i, 0 <= i < n -> m (a + i) = m (a + i mod k).
Proof.
  intros m a n k Hk P i Hi. assert (D := Z.div_mod i k ltac:(lia)). assert (B := Z.mod_pos_bound i k Hk).
  assert (Q : 0 <= i / k) by (apply Z.div_pos; lia).
  assert (G : forall q, 0 <= q -> forall j, 0 <= j < k -> q * k + j < n -> m (a + (q * k + j)) = m (a + j)).
  { intros q Hq j Hj. revert q Hq. apply (natlike_ind (fun q => q * k + j < n -> m (a + (q * k + j)) = m (a + j))).
    - intros _. replace (0 * k + j) with j by lia. reflexivity.
    - intros x Hx IH L. rewrite <- IH by lia. rewrite <- (P (x * k + j)) by nia. f_equal. lia. }
  rewrite D at 1. rewrite Z.mul_comm. apply G; auto. lia.
Qed.

Lemma memmove_constant_exact : forall m dst src n, accessible m dst n -> accessible m src n ->
  exists m', memmove_constant m dst src n = Ok (dst, m') /\
    (range_replaced m m' dst n (fun i => m (src + i)) <->
     (src < dst -> forall i, 0 <= i -> i + (dst - src) < Z.of_nat n ->
        m (src + i + (dst - src)) = m (src + i))).
Proof.
  intros m dst src n Ad As.
  assert (C : ~ (src < dst < src + Z.of_nat n) \/ src < dst < src + Z.of_nat n) by lia.
  destruct C as [C|C].
  - destruct (memmove_constant_correct m dst src n Ad As C) as [m' [E R]]. exists m'. split; auto.
    split; auto. intros _ L i H1 H2. lia.
  - destruct (memmove_constant_repeats m dst src n As Ad C) as [m' [E [R1 R2]]]. exists m'. split; auto. split.
    + intros [Q1 _] _ i H1 H2.
      rewrite <- Z.add_assoc. rewrite <- (Q1 (i + (dst - src))), R1 by lia. rewrite <- (Q1 i), R1 by lia. f_equal. f_equal.
      replace (i + (dst - src)) with (i + 1 * (dst - src)) by lia. apply Z.mod_add. lia.
    + intros P. split; auto. intros i Hi. rewrite R1 by auto. symmetry.
      apply (periodic_mod m src (Z.of_nat n) (dst - src)); try lia. apply P. lia.
Qed.

(** C28 *)
Lemma overlapping_iff : forall a b n, overlapping a b (Z.of_nat n) = true <-> ~ disjoint_ranges a b n.
Proof.
  intros a b n. unfold overlapping, disjoint_ranges. rewrite !andb_true_iff, !Z.ltb_lt. lia.
Qed.
Lemma memcpy_runtime_undefined : forall dbg m dst src n, dst <> 0 -> src <> 0 ->
  (memcpy_runtime dbg m dst src n = UB <->
   ~ (accessible m dst n /\ accessible m src n /\ disjoint_ranges dst src n)).
Proof.
  intros dbg m dst src n Nd Ns. split.
  - intros U [Ad [As D]]. destruct (memcpy_runtime_correct dbg m dst src n Nd Ns Ad As D) as [m' [E _]]. congruence.
  - intros H. unfold memcpy_runtime, cassert.
    destruct (Z.eqb_spec dst 0); [contradiction|]. destruct (Z.eqb_spec src 0); [contradiction|].
    cbn [negb]. assert (U : std_memcpy m dst src n = UB).
    { unfold std_memcpy. destruct (overlapping dst src (Z.of_nat n)) eqn:O; auto.
      assert (D : disjoint_ranges dst src n).
      { unfold disjoint_ranges. unfold overlapping in O. rewrite !andb_false_iff, !Z.ltb_ge in O. lia. }
      assert (K : memmove_runtime m dst src n = UB) by (apply memmove_runtime_undefined; intros [K1 K2]; auto).
      unfold memmove_runtime in K. destruct (load_range m src n) as [l| | |]; cbn [bind] in *; try congruence.
      destruct (store_range m dst l); cbn [bind] in K; congruence. }
    destruct dbg; auto.
Qed.
Lemma memcpy_constant_forward : forall dbg to from m dst src n, dst <> 0 -> src <> 0 ->
  to <> BVoid -> from <> BVoid -> accessible m dst n -> accessible m src n -> ~ (src < dst < src + Z.of_nat n) ->
  exists m', memcpy_constant dbg to from m dst src n = Some (Ok m') /\
    range_replaced m m' dst n (fun i => option_map (byte_cast to) (m (src + i))).
Proof.
  intros dbg to from m dst src n Nd Ns Nt Nf Ad As D.
  destruct (copy_loop_zero (byte_cast to) dst src n m Ad As) as [m' [E R]]; [lia|].
  exists m'. split; auto. unfold memcpy_constant, cassert.
  destruct (Z.eqb_spec dst 0); [contradiction|]. destruct (Z.eqb_spec src 0); [contradiction|].
  rewrite E. destruct to; destruct from; try congruence; destruct dbg; reflexivity.
Qed.
Lemma memcpy_constant_undefined : forall dbg to from m dst src n, dst <> 0 -> src <> 0 ->
  to <> BVoid -> from <> BVoid ->
  (memcpy_constant dbg to from m dst src n = Some UB <-> ~ (accessible m dst n /\ accessible m src n)).
Proof.
  intros dbg to from m dst src n Nd Ns Nt Nf. rewrite <- (copy_loop_undefined (byte_cast to)).
  unfold memcpy_constant, cassert.
  destruct (Z.eqb_spec dst 0); [contradiction|]. destruct (Z.eqb_spec src 0); [contradiction|].
  destruct to; destruct from; try congruence; destruct dbg; cbn [negb]; split; congruence.
Qed.
Lemma memcpy_modes_exact : forall dbg to from m dst src n, dst <> 0 -> src <> 0 ->
  to <> BVoid -> from <> BVoid ->
  accessible m dst n -> accessible m src n -> disjoint_ranges dst src n ->
  exists mc mr, memcpy_constant dbg to from m dst src n = Some (Ok mc) /\
    memcpy_runtime dbg m dst src n = Ok mr /\
    ((forall a, mc a = mr a) <->
     (to = BBool -> forall i, 0 <= i < Z.of_nat n -> m (src + i) = Some 0 \/ m (src + i) = Some 1)).
Proof.
  intros dbg to from m dst src n Nd Ns Nt Nf Ad As D.
  destruct (memcpy_constant_correct dbg to from m dst src n) as [mc [Ec [C1 C2]]]; auto.
  destruct (memcpy_runtime_correct dbg m dst src n) as [mr [Er [R1 R2]]]; auto.
  exists mc, mr. split; auto. split; auto. split.
  - intros EQ -> i Hi. specialize (EQ (dst + i)). rewrite C1, R1 in EQ by auto.
    destruct (m (src + i)) as [b|] eqn:E; [|exfalso; eapply As; eauto].
    cbn [option_map byte_cast] in EQ. destruct (Z.eqb_spec b 0) as [->|N]; auto.
  - intros H a.
    assert (K : (a < dst \/ dst + Z.of_nat n <= a) \/ exists i, 0 <= i < Z.of_nat n /\ a = dst + i).
    { destruct (Z_lt_ge_dec a dst); [auto|]. destruct (Z_le_gt_dec (dst + Z.of_nat n) a); [auto|].
      right. exists (a - dst). lia. }
    destruct K as [K|[i [Hi ->]]]; [rewrite C2, R2 by auto; auto|]. rewrite C1, R1 by auto.
    destruct to; cbn [byte_cast]; try congruence.
    + apply option_map_id.
    + destruct (H eq_refl i Hi) as [E|E]; rewrite E; reflexivity.
Qed.

(** C29 *)
Lemma bit_cast_undefined : forall m dst src n, accessible m dst n -> disjoint_ranges dst src n ->
  ~ accessible m src n -> bit_cast m dst src n n = Some UB.
Proof.
  intros m dst src n Ad D As. unfold bit_cast, std_memcpy. rewrite Nat.eqb_refl.
  rewrite not_overlapping by auto. destruct (not_accessible _ _ _ As) as [i [Hi N]].
  rewrite (load_range_bad n m src i) by auto. reflexivity.
Qed.
