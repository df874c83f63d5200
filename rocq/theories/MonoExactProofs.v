(** Histories of monotonic_buffer_resource with requests of every size. *)

Require Import ZArith List Bool Lia.
Require Import Verif.Outcome Verif.Machine Verif.BitsSpec Verif.BitsModel Verif.BitsProofs
  Verif.SimpleSpec Verif.MonoSpec Verif.MonoModel Verif.MonoProofs.
Import ListNotations.
Open Scope Z_scope.

(** after the allocations [l] of any history: either all is well or one of them
    runs past the last address *)
Record mono_any (s : mono) (l : list alloc) : Prop := {
  ma_range : 0 <= mnext s < 2 ^ 64;
  ma_data : 0 <= mdata s;
  ma_size : 0 <= msize s;
  ma_end : mdata s + msize s < 2 ^ 64;
  ma_null : mdata s = 0 -> msize s = 0;
  ma_pos : mdata s <> 0 -> 0 < msize s;
  ma_or : mono_inv s l \/ exists a, In a l /\ 2 ^ 64 <= fst a + snd a
}.

Lemma room_multiple : forall k, 0 <= k <= 64 -> (2 ^ k | 2 ^ 64 - 2 ^ k).
Proof.
  intros k K. apply Z.divide_sub_r; [|apply Z.divide_refl].
  exists (2 ^ (64 - k)). rewrite <- Z.pow_add_r by lia. f_equal. lia.
Qed.

Lemma wrap64_range : forall x, 0 <= wrap 64 x < 2 ^ 64.
Proof. intros. unfold wrap. apply Z.mod_pos_bound. lia. Qed.

Lemma multiple_wraps : forall k x, 0 <= k <= 64 -> (2 ^ k | x) -> (2 ^ k | wrap 64 x).
Proof.
  intros k x K D. unfold wrap. rewrite Z.mod_eq by lia. apply Z.divide_sub_r; [exact D|].
  apply Z.divide_mul_l. exists (2 ^ (64 - k)). rewrite <- Z.pow_add_r by lia. f_equal. lia.
Qed.

(** any request in any state: it returns, and an answer of the buffer is aligned *)
Lemma mono_alloc_total : forall dbg s size align ans, 0 <= mnext s < 2 ^ 64 ->
  0 <= size < 2 ^ 64 -> pow2 align -> align < 2 ^ 64 ->
  exists s' p calls, mono_allocate dbg s size align ans = Ok (s', p, calls) /\
    0 <= mnext s' < 2 ^ 64 /\ mdata s' = mdata s /\ msize s' = msize s /\ mup s' = mup s /\
    (calls = [] -> p <> 0 -> (align | p)).
Proof.
  intros dbg s size align ans N S A AB. unfold mono_allocate.
  destruct (Z.eqb_spec size 0) as [Zs|Zs].
  { do 3 eexists. split; [reflexivity|]. repeat split; auto; try lia. }
  destruct A as [k [K ->]].
  assert (K64 : k < 64) by (apply (Z.pow_lt_mono_r_iff 2); lia).
  rewrite is_power_of_2_pow by lia.
  replace (cassert dbg true) with (@id (res (mono * Z * list upcall))) by (destruct dbg; reflexivity). unfold id.
  destruct (mdata s =? 0).
  - cbn [bind]. rewrite Z.eqb_refl. cbn [andb].
    destruct (mup s) eqn:U; do 3 eexists; (split; [reflexivity|]); repeat split; auto; try lia; congruence.
  - rewrite skip_value by lia. cbn [bind].
    assert (D : (2 ^ k | wrap 64 (mnext s + (- mnext s) mod 2 ^ k))).
    { apply multiple_wraps; [lia|]. apply place; [lia|exists k; auto]. }
    destruct (_ <=? _); cbn [bind].
    + destruct (_ =? 0); cbn [andb mup].
      * destruct (mup s) eqn:U; do 3 eexists; (split; [reflexivity|]); cbn [mnext mdata msize mup];
        repeat split; auto; try apply wrap64_range; discriminate.
      * do 3 eexists; (split; [reflexivity|]); cbn [mnext mdata msize mup];
        repeat split; auto; try apply wrap64_range.
    + rewrite Z.eqb_refl. cbn [andb].
      destruct (mup s) eqn:U; do 3 eexists; (split; [reflexivity|]); repeat split; auto; try lia; try congruence; try discriminate.
Qed.

(** one request while all is well: served inside the buffer, served past the last
    address, or not served *)
Lemma mono_alloc_well : forall dbg s l size align ans s' p calls, mono_any s l -> mono_inv s l ->
  0 < size < 2 ^ 64 -> pow2 align -> align < 2 ^ 64 -> mdata s + msize s + align <= 2 ^ 64 ->
  mono_allocate dbg s size align ans = Ok (s', p, calls) ->
  (calls = [] /\ p <> 0 /\ ((p + size < 2 ^ 64 /\ mono_inv s' ((p, size) :: l)) \/ 2 ^ 64 <= p + size)) \/
  ((calls <> [] \/ p = 0) /\ s' = s).
Proof.
  intros dbg s l size align ans s' p calls Y I S A AB RM.
  destruct Y as [R0 _ _ E63 N0 NZ _]. destruct I as [D0 M0 E0 Z0 X0 T0 A0 B0].
  unfold mono_allocate. replace (size =? 0) with false by (symmetry; apply Z.eqb_neq; lia).
  destruct A as [k [K ->]]. pose proof (pow2_pos k K) as P.
  assert (K64 : k < 64) by (apply (Z.pow_lt_mono_r_iff 2); lia).
  rewrite is_power_of_2_pow by lia.
  replace (cassert dbg true) with (@id (res (mono * Z * list upcall))) by (destruct dbg; reflexivity). unfold id.
  destruct (Z.eqb_spec (mdata s) 0) as [Zd|Zd].
  - cbn [bind]. rewrite Z.eqb_refl. cbn [andb].
    destruct (mup s); intros H; injection H as <- <- <-; right; split; auto. left. discriminate.
  - rewrite X0, skip_value by lia. cbn [bind].
    set (t := top (mdata s) l) in *. set (q := t + (- t) mod 2 ^ k).
    assert (LM : least_multiple (2 ^ k) t q) by (apply place; [lia|exists k; auto]).
    assert (Q : t <= q < 2 ^ 64).
    { split; [apply LM|]. apply Z.le_lt_trans with (2 ^ 64 - 2 ^ k); [|lia]. apply LM; [apply room_multiple|]; lia. }
    rewrite (wrap_id 64 q) by lia.
    rewrite (wrap_id 64 (mdata s + msize s)) by lia.
    destruct (Z.leb_spec (wrap 64 (q + size)) (mdata s + msize s)) as [L|L]; cbn [bind].
    + replace (q =? 0) with false by (symmetry; apply Z.eqb_neq; lia). cbn [andb].
      intros H; injection H as <- <- <-. left. split; auto. split; [lia|].
      destruct (Z.lt_ge_cases (q + size) (2 ^ 64)) as [B|B]; [left|right; lia]. split; [exact B|].
      rewrite wrap_id in L |- * by lia.
      constructor; cbn [mdata msize mnext mup top fst snd]; auto; try lia; try (intro; contradiction).
      * apply (ascending_cons (mdata s)); auto; [|cbn; fold t; lia].
        apply top_last; auto. intros a Ia. apply (B0 a Ia).
      * intros a [<-|Ia]; [unfold in_bounds; cbn; lia|apply B0; auto].
    + rewrite Z.eqb_refl. cbn [andb].
      destruct (mup s); intros H; injection H as <- <- <-; right; split; auto. left. discriminate.
Qed.

Lemma mono_step_any : forall dbg s l o, mono_any s l -> roomy_op (mdata s + msize s) o ->
  exists s' e, mono_step dbg s o = Ok (s', e) /\ mono_any s' (handed_after l e) /\ same_buffer s s' /\
    (forall sz al p, e = EAllocate sz al p [] -> p <> 0 -> (al | p)).
Proof.
  intros dbg s l [size align ans|p|] I F; cbn [mono_step].
  - destruct F as [F1 [F2 [F3 F4]]].
    destruct (mono_alloc_total dbg s size align ans (ma_range _ _ I) F1 F2 F3)
      as [s' [p [calls [E [Q1 [Q2 [Q3 [Q4 Q5]]]]]]]].
    rewrite E. cbn [bind]. exists s', (EAllocate size align p calls). split; [reflexivity|].
    split; [|split; [repeat split; auto|intros sz al p' H; injection H as <- <- <- ->; auto]].
    destruct (Z.eq_dec size 0) as [->|N].
    { cbn in E. injection E as <- <- <-. cbn. exact I. }
    destruct I as [I1 I2 I3 I4 I5 I6 I7]. pose proof {| ma_range := I1; ma_data := I2; ma_size := I3;
      ma_end := I4; ma_null := I5; ma_pos := I6; ma_or := I7 |} as I.
    constructor; try rewrite Q2; try rewrite Q3; auto.
    destruct I7 as [G|[a [B1 B2]]].
    + destruct (mono_alloc_well dbg s l size align ans s' p calls I G ltac:(lia) F2 F3 F4 E)
        as [[-> [P [[W1 W2]|W]]]|[C ->]]; cbn [handed_after].
      * left. replace (p =? 0) with false by (symmetry; apply Z.eqb_neq; auto). exact W2.
      * right. replace (p =? 0) with false by (symmetry; apply Z.eqb_neq; auto).
        exists (p, size). split; [left; reflexivity|exact W].
      * left. destruct C as [C|C]; destruct calls; try congruence; auto. subst p. rewrite Z.eqb_refl. exact G.
    + right. exists a. split; [|exact B2]. cbn. destruct calls; auto. destruct (p =? 0); auto. right. exact B1.
  - exists s, (EDeallocate p []). split; [reflexivity|]. split; [exact I|]. split; [repeat split|]. discriminate.
  - exists (mono_release s), ERelease. split; [reflexivity|]. split; [|split; [repeat split|discriminate]].
    destruct I as [I1 I2 I3 I4 I5 I6 I7].
    assert (N64 : mdata s + msize s < 2 ^ 64) by lia.
    constructor; cbn [mono_release mdata msize mnext mup]; auto; try lia.
    left. constructor; cbn; auto; try lia; try tauto.
    intros l1 a l2 b l3 Q. destruct l1; discriminate Q.
Qed.

Lemma mono_run_any : forall dbg ops s l, mono_any s l -> Forall (roomy_op (mdata s + msize s)) ops ->
  exists s' es, mono_run dbg s ops = Ok (s', es) /\ mono_any s' (fold_left handed_after es l) /\ same_buffer s s' /\
    (forall sz al p, In (EAllocate sz al p []) es -> p <> 0 -> (al | p)).
Proof.
  intros dbg. induction ops as [|o ops IH]; intros s l I F.
  - exists s, []. cbn. split; [reflexivity|]. split; [exact I|]. split; [repeat split|]. contradiction.
  - inversion F as [|? ? Fo Fs]; subst.
    destruct (mono_step_any dbg s l o I Fo) as [s1 [e [E [I1 [[S1 [S2 S3]] A1]]]]].
    destruct (IH s1 _ I1 ltac:(rewrite S1, S2; exact Fs)) as [s2 [es [E2 [I2 [[T1 [T2 T3]] A2]]]]].
    exists s2, (e :: es). cbn [mono_run]. rewrite E. cbn [bind]. rewrite E2. cbn [bind fold_left].
    split; [reflexivity|]. split; [exact I2|]. split; [repeat split; congruence|].
    intros sz al p [->|H] P; [apply (A1 sz al p eq_refl P)|apply (A2 sz al p H P)].
Qed.

Lemma start_any : forall buffer size up, mono_made buffer size ->
  mono_any (mono_construct buffer size up) [].
Proof.
  intros b n up M. pose proof (start_inv b n up M) as I. destruct M as [B [N E]].
  constructor; try (left; exact I); unfold mono_construct; cbn [mdata msize mnext];
  destruct (Z.eqb_spec n 0), (Z.eqb_spec b 0); lia.
Qed.

Lemma roomy_less : forall e e' o, e' <= e -> roomy_op e o -> roomy_op e' o.
Proof. intros e e' [size align ans|p|] L; cbn; auto. intros [A [B [C D]]]. repeat split; auto; lia. Qed.

Lemma start_roomy : forall buffer size up ops, mono_made buffer size ->
  Forall (roomy_op (buffer + size)) ops ->
  Forall (roomy_op (mdata (mono_construct buffer size up) + msize (mono_construct buffer size up))) ops.
Proof.
  intros b n up ops [B [N E]] F. eapply Forall_impl; [|exact F]. intros o. apply roomy_less.
  unfold mono_construct; cbn [mdata msize]. destruct (Z.eqb_spec n 0), (Z.eqb_spec b 0); lia.
Qed.

Lemma mono_contract_exact : forall dbg buffer size up ops, mono_made buffer size ->
  Forall (roomy_op (buffer + size)) ops ->
  exists s es, mono_run dbg (mono_construct buffer size up) ops = Ok (s, es) /\
    (forall sz al p, In (EAllocate sz al p []) es -> p <> 0 -> (al | p)) /\
    (ascending (handed es) /\ pairwise_disjoint (handed es) /\
     (forall a, In a (handed es) -> in_bounds buffer (buffer + size) a) <->
     forall a, In a (handed es) -> fst a + snd a < 2 ^ 64).
Proof.
  intros dbg b n up ops M F. destruct (made_end b n up M) as [E1 [E2 [E3 E4]]].
  destruct (mono_run_any dbg ops _ [] (start_any b n up M) (start_roomy b n up ops M F)) as [s [es [R [I [[S1 [S2 S3]] A]]]]].
  exists s, es. split; [exact R|]. split; [exact A|]. fold (handed es) in I. destruct M as [M1 [M2 M3]]. split.
  - intros [_ [_ B]] a Ia. destruct (B a Ia). lia.
  - intros W. destruct (ma_or _ _ I) as [G|[a [Ia B]]]; [|specialize (W a Ia); lia].
    split; [apply (mi_asc _ _ G)|]. split; [apply ascending_disjoint, (mi_asc _ _ G)|].
    intros a Ia. destruct (mi_bounds _ _ G a Ia) as [[B1 B2] _].
    assert (Nz : mdata s <> 0). { intros Z. destruct (mi_null _ _ G Z) as [_ N]. rewrite N in Ia. destruct Ia. }
    rewrite S1 in B1, B2, Nz. rewrite S2 in B2. destruct (E2 Nz) as [H1 H2]. rewrite H1 in B1, B2. rewrite H2 in B2. split; assumption.
Qed.

(** any request after any history in which nothing ran past the last address *)
Lemma mono_exact_any : forall dbg buffer size up ops s es sz align ans, mono_made buffer size ->
  Forall (roomy_op (buffer + size)) ops ->
  mono_run dbg (mono_construct buffer size up) ops = Ok (s, es) ->
  (forall a, In a (handed es) -> fst a + snd a < 2 ^ 64) ->
  0 < sz < 2 ^ 64 -> pow2 align -> align < 2 ^ 64 ->
  exists s' p calls, mono_allocate dbg s sz align ans = Ok (s', p, calls) /\
    (forall q, calls = [] /\ p = q /\ q <> 0 <-> wrapped_fits buffer size (handed es) sz align q) /\
    (~ (exists q, wrapped_fits buffer size (handed es) sz align q) ->
       if up then calls = [UpAllocate sz align] /\ p = ans sz align else calls = [] /\ p = 0).
Proof.
  intros dbg b n up ops s es sz align ans M F R W S A AB. destruct (made_end b n up M) as [E1 [E2 [E3 E4]]].
  destruct (mono_run_any dbg ops _ [] (start_any b n up M) (start_roomy b n up ops M F)) as [s0 [es0 [R0 [Y [[S1 [S2 S3]] _]]]]].
  rewrite R in R0. injection R0 as <- <-. fold (handed es) in Y. destruct M as [M1 [M2 M3]].
  destruct (ma_or _ _ Y) as [I|[a [Ia B]]]; [|specialize (W a Ia); lia].
  destruct (mono_alloc_any dbg s (handed es) sz align ans I S A AB (ma_pos _ _ Y)) as [s' [p [calls [E D]]]].
  exists s', p, calls. split; [exact E|].
  assert (Q : forall q, wrapped_fits (mdata s) (msize s) (handed es) sz align q <-> wrapped_fits b n (handed es) sz align q).
  { intros q. destruct (Z.eq_dec (mdata s) 0) as [Z|Z].
    - split; [intros [Q _]; lia|]. intros [H1 [H2 _]]. exfalso.
      rewrite S1 in Z. unfold mono_construct in Z. cbn in Z. destruct (Z.eqb_spec n 0); lia.
    - rewrite S1 in Z. destruct (E2 Z) as [H1 H2]. rewrite S1, S2, H1, H2. reflexivity. }
  rewrite S3, E3 in D. destruct D as [[q [Wq [-> [-> N]]]]|[Wq D]].
  - apply Q in Wq. split; [|intros X; destruct X; exists q; exact Wq].
    intros q'. split; [intros [_ [<- _]]; exact Wq|]. intros W'.
    assert (q = q') as <- by (eapply least_multiple_unique; [apply Wq|apply W']). auto.
  - split; [|intros _; exact D]. intros q. split.
    + intros [-> [-> N]]. destruct up; destruct D as [D1 D2]; [discriminate|contradiction].
    + intros X. apply Q in X. destruct (Wq q X).
Qed.

(** a request that cannot be served leaves the resource as it was *)
Lemma mono_alloc_kept : forall dbg s l size align ans s' p calls, mono_any s l -> mono_inv s l ->
  0 < size < 2 ^ 64 -> pow2 align -> align < 2 ^ 64 -> mdata s + msize s + align <= 2 ^ 64 ->
  mono_allocate dbg s size align ans = Ok (s', p, calls) -> ~ (calls = [] /\ p <> 0) -> s' = s.
Proof.
  intros dbg s l size align ans s' p calls Y I S A AB RM E N. unfold mono_allocate in E.
  replace (size =? 0) with false in E by (symmetry; apply Z.eqb_neq; lia).
  destruct A as [k [K ->]]. pose proof (pow2_pos k K) as P.
  assert (K64 : k < 64) by (apply (Z.pow_lt_mono_r_iff 2); lia).
  rewrite is_power_of_2_pow in E by lia.
  replace (cassert dbg true) with (@id (res (mono * Z * list upcall))) in E by (destruct dbg; reflexivity). unfold id in E.
  destruct (Z.eqb_spec (mdata s) 0) as [Zd|Zd].
  - cbn [bind] in E. destruct ((0 =? 0) && mup s); injection E as <- <- <-; reflexivity.
  - pose proof (ma_range _ _ Y) as R. pose proof (ma_end _ _ Y) as EN. pose proof (mi_end _ _ I) as ME.
    pose proof (mi_next _ _ I) as X. pose proof (ma_data _ _ Y) as D0.
    rewrite skip_value in E by lia. cbn [bind] in E. set (t := mnext s) in *.
    assert (LM : least_multiple (2 ^ k) t (t + (- t) mod 2 ^ k)) by (apply place; [lia|exists k; auto]).
    assert (T : 0 < t <= mdata s + msize s).
    { pose proof (mi_top _ _ I). unfold t in *. rewrite X in *. lia. }
    assert (Q : t <= t + (- t) mod 2 ^ k < 2 ^ 64).
    { split; [apply LM|]. apply Z.le_lt_trans with (2 ^ 64 - 2 ^ k); [|lia]. apply LM; [apply room_multiple|]; lia. }
   
    assert (V : wrap 64 (t + (- t) mod 2 ^ k) = t + (- t) mod 2 ^ k) by (apply Z.mod_small; lia).
    rewrite V in E. destruct (_ <=? _); cbn [bind] in E.
    + replace (t + (- t) mod 2 ^ k =? 0) with false in E by (symmetry; apply Z.eqb_neq; lia).
      cbn [andb] in E. injection E as <- <- <-. destruct N. split; [reflexivity|lia].
    + destruct ((0 =? 0) && mup s); injection E as <- <- <-; reflexivity.
Qed.

Lemma mono_upstream_exact : forall dbg buffer size up ops s es sz align ans, mono_made buffer size ->
  Forall (roomy_op (buffer + size)) ops ->
  mono_run dbg (mono_construct buffer size up) ops = Ok (s, es) ->
  (forall a, In a (handed es) -> fst a + snd a < 2 ^ 64) ->
  0 < sz < 2 ^ 64 -> pow2 align -> align < 2 ^ 64 ->
  exists s' p calls, mono_allocate dbg s sz align ans = Ok (s', p, calls) /\
    (calls = [] \/ calls = [UpAllocate sz align] /\ up = true /\ p = ans sz align) /\
    (calls = [UpAllocate sz align] \/ up = false /\ p = 0 <->
       ~ exists q, wrapped_fits buffer size (handed es) sz align q) /\
    (buffer + size + align <= 2 ^ 64 -> calls <> [] \/ p = 0 -> s' = s).
Proof.
  intros dbg b n up ops s es sz align ans M F R W S A AB.
  destruct (mono_exact_any dbg b n up ops s es sz align ans M F R W S A AB) as [s' [p [calls [E [D1 D2]]]]].
  destruct (mono_run_any dbg ops _ [] (start_any b n up M) (start_roomy b n up ops M F)) as [s0 [es0 [R0 [Y [[S1 [S2 S3]] _]]]]].
  rewrite R in R0. injection R0 as <- <-. fold (handed es) in Y.
  destruct (ma_or _ _ Y) as [I|[a [Ia B]]]; [|specialize (W a Ia); lia].
  exists s', p, calls. split; [exact E|].
  assert (C : calls = [] /\ p <> 0 \/ ~ (calls = [] /\ p <> 0)).
  { destruct calls; [|right; intros [? _]; discriminate]. destruct (Z.eq_dec p 0); [right; lia|left; auto]. }
  destruct C as [[-> Np]|C].
  - split; [left; reflexivity|]. split; [|intros _ [X|X]; [destruct X; reflexivity|lia]].
    split; [intros [X|[_ X]]; [discriminate|lia]|]. intros X. destruct X. exists p. apply D1. auto.
  - assert (NW : ~ exists q, wrapped_fits b n (handed es) sz align q).
    { intros [q Hq]. apply D1 in Hq. destruct Hq as [X [-> Y0]]. apply C. auto. }
    specialize (D2 NW). split; [|split].
    + destruct up; destruct D2 as [-> ->]; auto.
    + split; [intros _; exact NW|]. intros _. destruct up; destruct D2 as [-> ->]; auto.
    + intros RM _. assert (mdata s + msize s <= b + n).
      { rewrite S1, S2. destruct M as [M1 [M2 M3]]. unfold mono_construct; cbn [mdata msize].
        destruct (Z.eqb_spec n 0), (Z.eqb_spec b 0); lia. }
      eapply mono_alloc_kept; eauto. lia.
Qed.

(** in the upper half of the address space the padding can lead to address 0, which is
    taken for a failure after the resource has moved on *)
Lemma mono_upstream_moves : forall dbg, exists s es,
  mono_run dbg (mono_construct (2 ^ 63 + 8) 32 true)
    [OAllocate 8 (2 ^ 63) (fun _ _ => 0); OAllocate 4 4 (fun _ _ => 0)] = Ok (s, es) /\
  es = [EAllocate 8 (2 ^ 63) 0 [UpAllocate 8 (2 ^ 63)]; EAllocate 4 4 8 []].
Proof. intros [|]; do 2 eexists; (split; [vm_compute; reflexivity|reflexivity]). Qed.

Lemma mono_no_room : forall dbg, exists s es,
  mono_run dbg (mono_construct (2 ^ 63 + 8) 32 false)
    [OAllocate 8 (2 ^ 63) (fun _ _ => 0); OAllocate 4 4 (fun _ _ => 0)] = Ok (s, es) /\
  handed es = [(8, 4)] /\ ~ in_bounds (2 ^ 63 + 8) (2 ^ 63 + 8 + 32) (8, 4).
Proof.
  intros [|]; do 2 eexists; (split; [vm_compute; reflexivity|]); (split; [reflexivity|]); unfold in_bounds; cbn [fst snd]; lia.
Qed.

Lemma lower_half : forall e o, e <= 2 ^ 63 -> legal_op o -> roomy_op e o.
Proof.
  intros e [size align ans|p|] L; cbn [legal_op roomy_op]; auto. intros [A [B C]]. repeat split; auto; try lia.
  destruct B as [k [K ->]]. assert (k < 64) by (apply (Z.pow_lt_mono_r_iff 2); lia).
  assert (2 ^ k <= 2 ^ 63) by (apply Z.pow_le_mono_r; lia). lia.
Qed.
