(** Lemmas about calls that break a precondition. *)

Require Import ZArith List Lia Bool.
Require Import Verif.Outcome Verif.Machine Verif.TypeListModel Verif.TypeListProofs.
Require Import Verif.BitsModel Verif.BitsSpec Verif.BitsProofs Verif.ArithModel Verif.MemModel.
Require Import Verif.SimpleSpec Verif.MonoModel Verif.SimpleModel.
Import ListNotations.
Open Scope Z_scope.
Open Scope res_scope.

(** * Alignments *)

Lemma alignment_arguments : forall a p, 0 <= a < 2 ^ 64 -> 0 <= p < 2 ^ 64 ->
  (next_multiple_of true a p = Abort <-> ~ pow2 a) /\
  (skip_to_align true p a = Abort <-> ~ pow2 a) /\
  (is_aligned true p a = Abort <-> ~ pow2 a).
Proof.
  intros a p Ha Hp. split; [|split]; split; intros H.
  - intros Q. destruct (next_multiple_of_correct true a p Q) as (r & _ & A & B); [lia|lia|].
    destruct (Z_lt_le_dec r (2 ^ 64)); [rewrite A in H by auto|rewrite B in H by auto]; discriminate.
  - destruct (not_power_asserts a p Ha H) as (A & _ & _). exact A.
  - intros Q. destruct (skip_to_align_correct true p a Q) as (r & A & _); [lia|lia|].
    rewrite A in H. discriminate.
  - destruct (not_power_asserts a p Ha H) as (_ & A & _). exact A.
  - intros Q. destruct (is_aligned_correct true p a Q) as (r & A & _); [lia|lia|].
    rewrite A in H. discriminate.
  - destruct (not_power_asserts a p Ha H) as (_ & _ & A). exact A.
Qed.

Lemma shl_no_abort : forall t a n, shl t a n <> Abort.
Proof.
  intros t a n. unfold shl.
  destruct ((n <? 0) || (bits t <=? n)); [discriminate|]. destruct (sgn t); [|discriminate].
  destruct ((a <? 0) || (2 ^ bits t <=? a * 2 ^ n)); discriminate.
Qed.

Lemma shr_no_abort : forall t a n, shr t a n <> Abort.
Proof. intros t a n. unfold shr. destruct ((n <? 0) || (bits t <=? n)); discriminate. Qed.

Lemma power_or_not : forall a, 0 <= a < 2 ^ 64 ->
  (is_power_of_2 a = true /\ pow2 a) \/ (is_power_of_2 a = false /\ ~ pow2 a).
Proof.
  intros a Ha. destruct (is_power_of_2 a) eqn:E.
  - left. split; auto. apply is_power_of_2_spec in E; auto. destruct E as (k & Hk & ->). exists k. lia.
  - right. split; auto. intros (k & Hk & ->).
    assert (k < 64) by (apply pow2_lt_inv; lia).
    rewrite is_power_of_2_pow in E by lia. discriminate.
Qed.

Lemma max_alignment_arguments : forall a n, 0 <= a < 2 ^ 64 -> 0 <= n < 2 ^ 64 ->
  (max_alignment_inside_block true a n = Abort <-> ~ pow2 a \/ n = 0).
Proof.
  intros a n Ha Hn. unfold max_alignment_inside_block, cassert.
  destruct (power_or_not a Ha) as [[E P]|[E P]]; rewrite E; [|tauto].
  destruct (Z.ltb_spec 0 n); [|split; auto; intros; right; lia].
  split; [|intros [Q|Q]; [tauto|lia]].
  set (v := wrap 64 (wrap 64 (a + n) - 1)).
  rewrite bits_count_value by (apply wrap_range; lia). cbn [bind].
  match goal with |- context [shl i32 1 ?m] => pose proof (shl_no_abort i32 1 m) as Q; destruct (shl i32 1 m) end;
    cbn [bind]; intros D; congruence.
Qed.

(** * Leading and trailing zeros *)

(** what a call with a zero gives *)
Definition stopped {A : Type} (dbg : bool) : res A := if dbg then Abort else UB.

Lemma wrap_zero : forall w, wrap w 0 = 0.
Proof. intros. unfold wrap. apply Zmod_0_l. Qed.

Lemma calc_clz_zero : forall dbg s, calc_clz dbg s 0 = stopped dbg.
Proof. intros [|] s; reflexivity. Qed.
Lemma calc_ctz_zero : forall dbg, calc_ctz dbg 0 = stopped dbg.
Proof. intros [|]; reflexivity. Qed.

Lemma clz_zero' : forall dbg sz supported t, clz dbg sz supported t 1 <> None ->
  clz dbg sz supported t 0 = Some (stopped dbg).
Proof.
  intros dbg sz supported t. unfold clz.
  destruct (sort_sizeof_ascending sz supported) as [sorted|]; [|congruence].
  rewrite list_of_pred_filter. cbv zeta.
  destruct (negb (length (filter (fun u => is_equal_sizes u t) sorted) =? 0)%nat).
  - destruct (at_impl 0 _); [|congruence]. intros _. rewrite wrap_zero, calc_clz_zero. reflexivity.
  - destruct (index_of (fun u => less_eq_pred u t) sorted <? length sorted)%nat; [|congruence].
    destruct (at_impl _ sorted); [|congruence]. intros _. rewrite wrap_zero, calc_clz_zero.
    destruct dbg; reflexivity.
Qed.

Lemma ctz_zero' : forall dbg sz supported t, ctz dbg sz supported t 1 <> None ->
  ctz dbg sz supported t 0 = Some (stopped dbg).
Proof.
  intros dbg sz supported t. unfold ctz.
  destruct (sort_sizeof_ascending sz supported) as [sorted|]; [|congruence].
  rewrite list_of_pred_filter. cbv zeta.
  destruct (negb (length (filter (fun u => is_equal_sizes u t) sorted) =? 0)%nat).
  - destruct (at_impl 0 _); [|congruence]. intros _. rewrite wrap_zero, calc_ctz_zero. reflexivity.
  - destruct (index_of (fun u => less_eq_pred u t) sorted <? length sorted)%nat; [|congruence].
    destruct (at_impl _ sorted); [|congruence]. intros _. rewrite wrap_zero, calc_ctz_zero. reflexivity.
Qed.

Lemma one_fits : forall t, (0 < sizeof t)%nat -> 0 < 1 < 2 ^ (8 * Z.of_nat (sizeof t)).
Proof.
  intros t H. split; [lia|]. apply Z.lt_le_trans with (2 ^ 8); [reflexivity|apply Z.pow_le_mono_r; lia].
Qed.

Lemma zero_has_no_bits : forall dbg sz supported t, (length supported < sz)%nat -> (0 < sizeof t)%nat ->
  (exists u, In u supported /\ (sizeof t <= sizeof u)%nat) ->
  clz dbg sz supported t 0 = Some (if dbg then Abort else UB) /\
  ctz dbg sz supported t 0 = Some (if dbg then Abort else UB) /\
  get_alignment dbg sz supported t 0 = Some (if dbg then Abort else UB).
Proof.
  intros dbg sz supported t Hsz Ht Hu.
  assert (C : ctz dbg sz supported t 0 = Some (stopped dbg)).
  { apply ctz_zero'. destruct (ctz_correct dbg sz supported t 1 Hsz (one_fits t Ht)) as (A & _).
    destruct (A Hu) as (n & E & _). congruence. }
  split; [|split; [exact C|]].
  - apply clz_zero'. destruct (clz_correct dbg sz supported t 1 Hsz (one_fits t Ht)) as (A & _).
    destruct (A Hu) as (n & E & _). congruence.
  - unfold get_alignment. rewrite C. destruct dbg; reflexivity.
Qed.

Lemma crafted_clz_loop_zero : forall fuel t mask n, std_ity t ->
  0 <= n <= bits t - 1 -> bits t - n <= Z.of_nat fuel -> crafted_clz_loop fuel t 0 mask n = Ok (bits t - 1).
Proof.
  induction fuel as [|f IH]; intros t mask n Ht Hn Hf; [lia|].
  cbn [crafted_clz_loop]. rewrite Z.land_0_l. change (0 =? 0) with true. rewrite andb_true_r.
  destruct (Z.ltb_spec n (bits t - 1)).
  - assert (E : shr (promote t) mask 1 = Ok (mask / 2 ^ 1)).
    { unfold shr, promote. destruct t as [w s]. cbn [bits] in *. destruct Ht as [E1|[E1|[E1|E1]]]; cbn [bits] in E1; subst w; reflexivity. }
    rewrite E. cbn [bind]. apply IH; auto; lia.
  - f_equal. lia.
Qed.

Lemma crafted_ctz_loop_zero : forall fuel t n, std_ity t ->
  0 <= n <= bits t - 1 -> bits t - n <= Z.of_nat fuel -> crafted_ctz_loop fuel t 0 n = Ok (bits t - 1).
Proof.
  induction fuel as [|f IH]; intros t n Ht Hn Hf; [lia|].
  cbn [crafted_ctz_loop]. rewrite Z.land_0_l. change (0 =? 0) with true. rewrite andb_true_r.
  destruct (Z.ltb_spec n (bits t - 1)).
  - assert (E : shr (promote t) 0 1 = Ok 0).
    { unfold shr, promote. destruct t as [w s]. cbn [bits] in *. destruct Ht as [E1|[E1|[E1|E1]]]; cbn [bits] in E1; subst w; reflexivity. }
    rewrite E. cbn [bind].
    replace (conv t 0) with 0; [apply IH; auto; lia|].
    unfold conv. destruct t as [w s]. cbn [bits sgn] in *.
    destruct Ht as [E1|[E1|[E1|E1]]]; cbn [bits] in E1; subst w; destruct s; reflexivity.
  - f_equal. lia.
Qed.

Lemma crafted_zero : forall fuel t, std_ity t -> (64 <= fuel)%nat -> sgn t = false ->
  crafted_clz true fuel t 0 = Abort /\ crafted_clz false fuel t 0 = Ok (bits t - 1) /\
  crafted_ctz true fuel t 0 = Abort /\ crafted_ctz false fuel t 0 = Ok (bits t - 1).
Proof.
  intros fuel t Ht Hf Hs. assert (B : 8 <= bits t <= 64) by (destruct Ht as [E|[E|[E|E]]]; lia).
  split; [reflexivity|split; [|split; [reflexivity|]]].
  - unfold crafted_clz, cassert.
    assert (E : exists m, shl (promote t) 1 (bits t - 1) = Ok m).
    { unfold shl, promote. destruct t as [w s]. cbn [bits sgn] in *. subst s.
      destruct Ht as [E1|[E1|[E1|E1]]]; cbn [bits] in E1; subst w; cbn [bits sgn Z.ltb Z.compare]; eexists; reflexivity. }
    destruct E as (m & ->). cbn [bind]. apply crafted_clz_loop_zero; auto; lia.
  - unfold crafted_ctz, cassert. apply crafted_ctz_loop_zero; auto; lia.
Qed.

(** * Shifts and division *)

Lemma shift_arguments : forall t v n, std_ity t -> inty t v -> 0 <= n ->
  (shift_left true t v n = Abort <-> bits t <= n) /\
  (shift_right true t v n = Abort <-> bits t <= n) /\
  (bits t <= n -> 32 <= n -> shift_left false t v n = UB /\ shift_right false t v n = UB).
Proof.
  intros t v n Ht Hv Hn. split; [|split].
  - unfold shift_left, cassert. destruct (Z.ltb_spec n (bits t)).
    + split; [|lia]. pose proof (shl_no_abort (promote t) v n).
      destruct (shl (promote t) v n); cbn [bind]; intros; congruence.
    + tauto.
  - unfold shift_right, cassert. destruct (Z.ltb_spec n (bits t)).
    + split; [|lia]. pose proof (shr_no_abort (promote t) v n).
      destruct (shr (promote t) v n); cbn [bind]; intros; congruence.
    + tauto.
  - intros H1 H2. unfold shift_left, shift_right, cassert, shl, shr.
    assert (Q : (bits (promote t) <=? n) = true).
    { apply Z.leb_le. unfold promote. destruct (bits t <? 32); [exact H2|exact H1]. }
    rewrite Q, orb_true_r. auto.
Qed.

Lemma quotrem_no_abort : forall t n d, quotrem t n d <> Abort.
Proof. intros. unfold quotrem. destruct (d =? 0); [discriminate|]. destruct (intyb t (Z.quot n d)); discriminate. Qed.

Lemma conv_zero : forall t, std_ity t -> conv t 0 = 0.
Proof. intros [w s] [E|[E|[E|E]]]; cbn in E; subst w; destruct s; reflexivity. Qed.

Lemma common_std : forall t u, std_ity t -> std_ity u -> std_ity (common t u).
Proof.
  intros [w s] [x r] Ht Hu. unfold std_ity in *. cbn [bits] in *.
  destruct Ht as [E1|[E1|[E1|E1]]]; cbn [bits] in E1; subst w; destruct Hu as [E2|[E2|[E2|E2]]]; cbn [bits] in E2; subst x; destruct s, r; vm_compute; tauto.
Qed.

Lemma work_std : forall c, std_ity c -> std_ity (work_t c).
Proof.
  intros [w s] H. unfold std_ity in *. cbn [bits] in *.
  destruct H as [E1|[E1|[E1|E1]]]; cbn [bits] in E1; subst w; destruct s; vm_compute; tauto.
Qed.

Lemma quotrem_zero : forall t n, quotrem t n 0 = UB.
Proof. reflexivity. Qed.

Lemma div_arguments : forall t u n d, std_ity t -> std_ity u ->
  (div_constant true t u n d = Abort <-> d = 0) /\ (div_runtime true t u n d = Abort <-> d = 0) /\
  div_constant false t u n 0 = UB /\ div_runtime false t u n 0 = UB.
Proof.
  intros t u n d Ht Hu.
  assert (N : forall (r : res (Z * Z)) c, r <> Abort -> (' (q, m) <- r;; Ok (conv c q, conv c m)) <> Abort)
    by (intros [[q m]| | |] c H; cbn [bind]; congruence).
  repeat split; try (intros ->; reflexivity).
  - unfold div_constant, cassert. destruct (Z.eqb_spec d 0); auto. cbn [negb]. cbv zeta.
    intros Q. exfalso. revert Q. apply N. apply quotrem_no_abort.
  - unfold div_runtime, cassert. destruct (Z.eqb_spec d 0); auto. cbn [negb]. cbv zeta.
    intros Q. exfalso. revert Q. apply N. apply quotrem_no_abort.
  - unfold div_constant, cassert. cbv zeta. rewrite conv_zero by (apply common_std; auto).
    rewrite quotrem_zero. reflexivity.
  - unfold div_runtime, cassert. cbv zeta. rewrite conv_zero by (apply work_std; apply common_std; auto).
    rewrite quotrem_zero. reflexivity.
Qed.

(** div_as converts first: the divisor that counts is the converted one *)
Lemma div_as_arguments : forall r n d, std_ity r ->
  (div_as_constant true r n d = Abort <-> conv r d = 0) /\
  (div_as_runtime true r n d = Abort <-> conv r d = 0) /\
  (conv r d = 0 -> div_as_constant false r n d = UB /\ div_as_runtime false r n d = UB).
Proof.
  intros r n d Hr. unfold div_as_constant, div_as_runtime.
  destruct (div_arguments r r (conv r n) (conv r d) Hr Hr) as (A & B & C & D).
  split; [exact A|split; [exact B|]]. intros ->. auto.
Qed.

(** * memcpy *)

Lemma load_no_abort : forall m a, load m a <> Abort.
Proof. intros. unfold load. destruct (m a); discriminate. Qed.
Lemma store_no_abort : forall m a b, store m a b <> Abort.
Proof. intros. unfold store. destruct (m a); discriminate. Qed.

Lemma load_range_no_abort : forall n m a, load_range m a n <> Abort.
Proof.
  induction n as [|n IH]; intros m a; [discriminate|]. cbn [load_range].
  pose proof (load_no_abort m a). destruct (load m a); cbn [bind]; try congruence.
  specialize (IH m (a + 1)). destruct (load_range m (a + 1) n); cbn [bind]; congruence.
Qed.

Lemma store_range_no_abort : forall l m a, store_range m a l <> Abort.
Proof.
  induction l as [|b l IH]; intros m a; [discriminate|]. cbn [store_range].
  pose proof (store_no_abort m a b). destruct (store m a b); cbn [bind]; solve [apply IH|congruence].
Qed.

Lemma copy_loop_no_abort : forall n cast m dst src i, copy_loop cast m dst src i n <> Abort.
Proof.
  induction n as [|n IH]; intros; [discriminate|]. cbn [copy_loop].
  pose proof (load_no_abort m (src + Z.of_nat i)).
  destruct (load m (src + Z.of_nat i)) as [b| | |]; cbn [bind]; try congruence.
  pose proof (store_no_abort m (dst + Z.of_nat i) (cast b)).
  destruct (store m (dst + Z.of_nat i) (cast b)); cbn [bind]; solve [apply IH|congruence].
Qed.

Lemma memcpy_arguments : forall to from m dst src n, to <> BVoid -> from <> BVoid ->
  (memcpy_runtime true m dst src n = Abort <-> dst = 0 \/ src = 0) /\
  (memcpy_constant true to from m dst src n = Some Abort <-> dst = 0 \/ src = 0).
Proof.
  intros to from m dst src n Ht Hf. split.
  - unfold memcpy_runtime, cassert. destruct (Z.eqb_spec dst 0); cbn [negb]; [tauto|].
    destruct (Z.eqb_spec src 0); cbn [negb]; [tauto|]. split; [|tauto].
    unfold std_memcpy. destruct (overlapping dst src (Z.of_nat n)); [discriminate|].
    pose proof (load_range_no_abort n m src). destruct (load_range m src n) as [l| | |]; cbn [bind]; try congruence.
    intros Q. exfalso. revert Q. apply store_range_no_abort.
  - assert (E : memcpy_constant true to from m dst src n =
      Some (cassert true (negb (dst =? 0)) (cassert true (negb (src =? 0))
             (copy_loop (byte_cast to) m dst src 0 n)))) by (destruct to, from; solve [reflexivity|congruence]).
    rewrite E. unfold cassert. destruct (Z.eqb_spec dst 0); cbn [negb]; [tauto|].
    destruct (Z.eqb_spec src 0); cbn [negb]; [tauto|]. split; [|tauto].
    intros Q. injection Q as Q. exfalso. revert Q. apply copy_loop_no_abort.
Qed.

(** * The resources *)

Lemma mono_arguments : forall s size a ans, 0 <= mnext s < 2 ^ 64 -> 0 <= a < 2 ^ 64 ->
  (mono_allocate true s size a ans = Abort <-> size <> 0 /\ ~ pow2 a).
Proof.
  intros s size a ans Hn Ha. unfold mono_allocate.
  destruct (Z.eqb_spec size 0); [split; [discriminate|tauto]|].
  unfold cassert at 1. destruct (power_or_not a Ha) as [[E P]|[E P]]; rewrite E; [|tauto].
  split; [|tauto]. intros Q. exfalso. revert Q.
  destruct (skip_to_align_correct true (mnext s) a P) as (k & S & _); [lia|lia|].
  rewrite S. cbn [bind].
  destruct (mdata s =? 0); cbn [bind].
  - destruct ((0 =? 0) && mup s); discriminate.
  - destruct (wrap 64 (wrap 64 (mnext s + k) + size) <=? wrap 64 (mdata s + msize s)); cbn [bind];
      match goal with |- context [if ?b then _ else _] => destruct b end; discriminate.
Qed.

Lemma simple_arguments : forall c fuel s size a ans, DBG c = true -> 0 <= a < 2 ^ 64 ->
  size <> 0 -> ~ pow2 a -> allocate_impl c fuel s size a ans = Abort.
Proof.
  intros c fuel s size a ans D Ha Hs P. unfold allocate_impl.
  destruct (Z.eqb_spec size 0); [contradiction|]. rewrite D. unfold cassert at 1.
  destruct (power_or_not a Ha) as [[E Q]|[E Q]]; [contradiction|]. rewrite E. reflexivity.
Qed.
