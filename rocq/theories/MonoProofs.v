(** Lemmas about monotonic_buffer_resource. *)

Require Import ZArith List Bool Lia.
Require Import Verif.Outcome Verif.Machine Verif.BitsSpec Verif.BitsModel Verif.BitsProofs
  Verif.SimpleSpec Verif.MonoSpec Verif.MonoModel.
Import ListNotations.
Open Scope Z_scope.

(** after the allocations [l] of a history *)
Record mono_inv (s : mono) (l : list alloc) : Prop := {
  mi_data : 0 <= mdata s;
  mi_size : 0 <= msize s;
  mi_end : mdata s + msize s < 2 ^ 64;
  mi_null : mdata s = 0 -> msize s = 0 /\ l = [];
  mi_next : mnext s = top (mdata s) l;
  mi_top : mdata s <= top (mdata s) l <= mdata s + msize s;
  mi_asc : ascending l;
  mi_bounds : forall a, In a l -> in_bounds (mdata s) (mdata s + msize s) a /\ 0 < snd a /\ 0 < fst a
}.

Lemma start_inv : forall buffer size up, mono_made buffer size -> mono_inv (mono_construct buffer size up) [].
Proof.
  intros b n up [B [N E]]. unfold mono_construct.
  destruct (Z.eqb_spec n 0), (Z.eqb_spec b 0); constructor; cbn in *; subst; try lia; auto;
  try (intros l1 a l2 c l3 H; destruct l1; discriminate H); try tauto.
Qed.

Lemma ascending_cons : forall d l a, (forall x, In x l -> fst x + snd x <= top d l) ->
  ascending l -> top d l <= fst a -> ascending (a :: l).
Proof.
  intros d l a T A H l1 x l2 y l3 E. destruct l1 as [|z l1]; cbn in E; injection E as <- E.
  - assert (I : In y l) by (rewrite E; apply in_elt). apply T in I. lia.
  - apply (A l1 x l2 y l3 E).
Qed.

Lemma top_last : forall d l, ascending l -> (forall a, In a l -> 0 < snd a) ->
  forall x, In x l -> fst x + snd x <= top d l.
Proof.
  intros d [|a l] A P x I; [destruct I|]. cbn. destruct I as [<-|I]; [lia|].
  apply in_split in I. destruct I as [l1 [l2 I]]. specialize (A [] a l1 x l2). rewrite I in A.
  specialize (A eq_refl). assert (0 < snd a) by (apply P; left; auto). lia.
Qed.

(** the least multiple of the alignment from the top *)
Lemma place : forall align v, 0 <= v -> pow2 align ->
  least_multiple align v (v + (- v) mod align).
Proof.
  intros align v V [k [K ->]]. pose proof (pow2_pos k K) as P.
  pose proof (Z.mod_pos_bound (- v) (2 ^ k) P) as M.
  assert (D : (2 ^ k | v + (- v) mod 2 ^ k)).
  { apply Z.mod_divide; [lia|]. rewrite Zplus_mod_idemp_r. replace (v + - v) with 0 by lia. apply Z.mod_0_l. lia. }
  split; [exact D|]. split; [lia|]. intros s S1 S2.
  destruct S1 as [x X], D as [y Y].
  assert (y <= x \/ x < y) as [H|H] by lia; [nia|]. exfalso. nia.
Qed.

Lemma fits_place : forall d n l size align q, d <> 0 -> least_multiple align (top d l) q ->
  (fits_behind d n l size align <-> q + size <= d + n).
Proof.
  intros d n l size align q D [M1 [M2 M3]]. split.
  - intros [_ [q' [Q1 [Q2 Q3]]]]. specialize (M3 q' Q2 Q1). lia.
  - intros H. split; auto. exists q. auto.
Qed.

(** one allocation *)
Lemma mono_alloc : forall dbg s l size align ans, mono_inv s l -> 0 < size -> pow2 align ->
  mdata s + msize s + align + size <= 2 ^ 64 ->
  exists s' p calls, mono_allocate dbg s size align ans = Ok (s', p, calls) /\
    (fits_behind (mdata s) (msize s) l size align ->
       calls = [] /\ p <> 0 /\ least_multiple align (top (mdata s) l) p /\
       s' = Mono (mdata s) (msize s) (mup s) (p + size) /\ mono_inv s' ((p, size) :: l)) /\
    (~ fits_behind (mdata s) (msize s) l size align ->
       s' = s /\ (if mup s then calls = [UpAllocate size align] /\ p = ans size align
                  else calls = [] /\ p = 0)) /\
    (fits_behind (mdata s) (msize s) l size align \/ ~ fits_behind (mdata s) (msize s) l size align).
Proof.
  intros dbg s l size align ans I S A R. destruct I as [D0 N0 E0 Z0 X0 T0 A0 B0].
  unfold mono_allocate. replace (size =? 0) with false by (symmetry; apply Z.eqb_neq; lia).
  destruct A as [k [K ->]]. pose proof (pow2_pos k K) as P.
  assert (K64 : k < 64) by (apply (Z.pow_lt_mono_r_iff 2); lia).
  rewrite is_power_of_2_pow by lia.
  replace (cassert dbg true) with (@id (res (mono * Z * list upcall))) by (destruct dbg; reflexivity). unfold id.
  destruct (Z.eqb_spec (mdata s) 0) as [Zd|Zd].
  - cbn [bind]. rewrite Z.eqb_refl. cbn [andb].
    assert (NF : ~ fits_behind (mdata s) (msize s) l size (2 ^ k)) by (intros [H _]; auto).
    destruct (mup s) eqn:U; do 3 eexists; (split; [reflexivity|]; split; [intro; contradiction|split; [|right; exact NF]]); intros _; auto.
  - rewrite X0. rewrite skip_value by lia. cbn [bind].
    set (q := top (mdata s) l + (- top (mdata s) l) mod 2 ^ k).
    assert (LM : least_multiple (2 ^ k) (top (mdata s) l) q) by (apply place; [lia|exists k; auto]).
    assert (FP := fits_place (mdata s) (msize s) l size (2 ^ k) q Zd LM).
    assert (Q : top (mdata s) l <= q < top (mdata s) l + 2 ^ k).
    { unfold q. pose proof (Z.mod_pos_bound (- top (mdata s) l) (2 ^ k) P). lia. }
    unfold wrap. rewrite (Z.mod_small q) by lia.
    assert (W : (q + size) mod 2 ^ 64 <= (mdata s + msize s) mod 2 ^ 64 <-> q + size <= mdata s + msize s).
    { rewrite (Z.mod_small (mdata s + msize s)) by lia.
      destruct (Z.eq_dec (q + size) (2 ^ 64)) as [E|E]; [lia|]. rewrite Z.mod_small by lia. reflexivity. }
    destruct (Z.leb_spec ((q + size) mod 2 ^ 64) ((mdata s + msize s) mod 2 ^ 64)) as [L|L].
    + assert (F : q + size <= mdata s + msize s) by (apply W; exact L).
      rewrite (Z.mod_small (q + size)) by lia. cbn [bind].
      replace (q =? 0) with false by (symmetry; apply Z.eqb_neq; lia). cbn [andb].
      do 3 eexists. split; [reflexivity|]. split; [intros _|split; [intros H; apply FP in F; contradiction|left; apply FP; exact F]].
      split; auto. split; [lia|]. split; [exact LM|]. split; [reflexivity|].
      constructor; cbn [mdata msize mnext mup top fst snd]; auto; try lia; try (intro; contradiction).
      * apply (ascending_cons (mdata s)); auto; [|cbn; lia].
        apply top_last; auto. intros a Ia. apply (B0 a Ia).
      * intros a [<-|Ia]; [unfold in_bounds; cbn; lia|apply B0; auto].
    + assert (F : ~ fits_behind (mdata s) (msize s) l size (2 ^ k)) by (rewrite FP; intros H; apply W in H; lia).
      cbn [bind]. rewrite Z.eqb_refl. cbn [andb].
      destruct (mup s) eqn:U; do 3 eexists; (split; [reflexivity|]; split; [intro; contradiction|split; [|right; exact F]]); intros _; auto.
Qed.

Lemma release_inv : forall s l, mono_inv s l -> mono_inv (mono_release s) [].
Proof.
  intros s l I. destruct I. constructor; cbn in *; auto; try lia; try tauto.
  intros l1 a l2 b l3 H. destruct l1; discriminate H.
Qed.

Definition same_buffer (s s' : mono) : Prop := mdata s' = mdata s /\ msize s' = msize s /\ mup s' = mup s.

Lemma mono_step_ok : forall dbg s l o, mono_inv s l -> fair_op (mdata s + msize s) o ->
  exists s' e, mono_step dbg s o = Ok (s', e) /\ mono_inv s' (handed_after l e) /\ same_buffer s s' /\
    (forall sz al p, e = EAllocate sz al p [] -> p <> 0 -> (al | p)).
Proof.
  intros dbg s l [size align ans|p|] I F; cbn [mono_step].
  - destruct F as [F1 [F2 F3]]. destruct (Z.eq_dec size 0) as [->|N].
    + exists s, (EAllocate 0 align 0 []). cbn. split; [reflexivity|]. split; [exact I|].
      split; [repeat split|]. intros sz al p E. injection E as <- <- <-. intros H. contradiction H. reflexivity.
    + destruct (mono_alloc dbg s l size align ans I ltac:(lia) F2 F3) as [s' [p [calls [E [Y [X [H|H]]]]]]];
      rewrite E; cbn [bind]; exists s', (EAllocate size align p calls); (split; [reflexivity|]).
      * destruct (Y H) as [-> [P [LM [-> I']]]]. cbn [handed_after].
        replace (p =? 0) with false by (symmetry; apply Z.eqb_neq; auto).
        split; [exact I'|]. split; [repeat split|].
        intros sz al p' E'. injection E' as <- <- <-. intros _. apply LM.
      * destruct (X H) as [-> C]. destruct (mup s); destruct C as [-> ->]; cbn [handed_after].
        -- split; [exact I|]. split; [repeat split|]. intros sz al p' E'. discriminate E'.
        -- rewrite Z.eqb_refl. split; [exact I|]. split; [repeat split|].
           intros sz al p' E'. injection E' as <- <- <-. intros Q; contradiction Q; reflexivity.
  - exists s, (EDeallocate p []). split; [reflexivity|]. split; [exact I|]. split; [repeat split|]. discriminate.
  - exists (mono_release s), ERelease. split; [reflexivity|]. split; [apply (release_inv s l I)|]. split; [repeat split|]. discriminate.
Qed.

Lemma mono_run_ok : forall dbg ops s l, mono_inv s l -> Forall (fair_op (mdata s + msize s)) ops ->
  exists s' es, mono_run dbg s ops = Ok (s', es) /\ mono_inv s' (fold_left handed_after es l) /\ same_buffer s s' /\
    (forall sz al p, In (EAllocate sz al p []) es -> p <> 0 -> (al | p)).
Proof.
  intros dbg. induction ops as [|o ops IH]; intros s l I F.
  - exists s, []. cbn. split; [reflexivity|]. split; [exact I|]. split; [repeat split|]. contradiction.
  - inversion F as [|? ? Fo Fs]; subst.
    destruct (mono_step_ok dbg s l o I Fo) as [s1 [e [E [I1 [[S1 [S2 S3]] A1]]]]].
    destruct (IH s1 _ I1) as [s2 [es [E2 [I2 [[T1 [T2 T3]] A2]]]]]; [rewrite S1, S2; exact Fs|].
    exists s2, (e :: es). cbn [mono_run]. rewrite E. cbn [bind]. rewrite E2. cbn [bind fold_left].
    split; [reflexivity|]. split; [exact I2|]. split; [repeat split; congruence|].
    intros sz al p [->|H] P; [apply (A1 sz al p eq_refl P)|apply (A2 sz al p H P)].
Qed.

(** * The theorems *)

Lemma made_end : forall buffer size up, mono_made buffer size ->
  let s := mono_construct buffer size up in mdata s + msize s <= buffer + size /\
  (mdata s <> 0 -> mdata s = buffer /\ msize s = size) /\ mup s = up /\ mnext s = mdata s.
Proof.
  intros b n up [B [N E]]. unfold mono_construct. destruct (Z.eqb_spec n 0), (Z.eqb_spec b 0); cbn; repeat split; lia.
Qed.

Lemma fair_weaken : forall e e' ops, e' <= e -> Forall (fair_op e) ops -> Forall (fair_op e') ops.
Proof.
  intros e e' ops H. apply Forall_impl. intros [size align ans|p|]; cbn; auto. intros [A [B C]]. repeat split; auto. lia.
Qed.

Lemma ascending_disjoint : forall l, ascending l -> pairwise_disjoint l.
Proof. intros l A l1 a l2 b l3 E. right. apply (A l1 a l2 b l3 E). Qed.

Lemma mono_contract : forall dbg buffer size up ops, mono_made buffer size -> Forall (fair_op (buffer + size)) ops ->
  exists s es, mono_run dbg (mono_construct buffer size up) ops = Ok (s, es) /\
    ascending (handed es) /\ pairwise_disjoint (handed es) /\
    (forall a, In a (handed es) -> in_bounds buffer (buffer + size) a) /\
    (forall sz al p, In (EAllocate sz al p []) es -> p <> 0 -> (al | p)).
Proof.
  intros dbg b n up ops M F. destruct (made_end b n up M) as [E1 [E2 [E3 E4]]].
  destruct (mono_run_ok dbg ops _ [] (start_inv b n up M)) as [s [es [R [I [[S1 [S2 S3]] A]]]]].
  { eapply fair_weaken; [|exact F]. exact E1. }
  exists s, es. split; [exact R|]. fold (handed es) in I. split; [apply (mi_asc _ _ I)|].
  split; [apply ascending_disjoint, (mi_asc _ _ I)|]. split; [|exact A].
  intros a Ia. destruct (mi_bounds _ _ I a Ia) as [[B1 B2] _].
  assert (Nz : mdata s <> 0). { intros Z. destruct (mi_null _ _ I Z) as [_ N]. rewrite N in Ia. destruct Ia. }
  rewrite S1 in B1, B2, Nz. rewrite S2 in B2. destruct (E2 Nz) as [H1 H2]. rewrite H1 in B1, B2. rewrite H2 in B2. split; assumption.
Qed.

(** a request after any history *)
Lemma mono_request : forall dbg buffer size up ops s es sz align ans, mono_made buffer size ->
  Forall (fair_op (buffer + size)) ops -> mono_run dbg (mono_construct buffer size up) ops = Ok (s, es) ->
  0 < sz -> pow2 align -> buffer + size + align + sz <= 2 ^ 64 ->
  exists s' p calls, mono_allocate dbg s sz align ans = Ok (s', p, calls) /\
    (fits_behind buffer size (handed es) sz align ->
       calls = [] /\ p <> 0 /\ least_multiple align (top buffer (handed es)) p) /\
    (~ fits_behind buffer size (handed es) sz align ->
       s' = s /\ (if up then calls = [UpAllocate sz align] /\ p = ans sz align else calls = [] /\ p = 0)) /\
    (fits_behind buffer size (handed es) sz align \/ ~ fits_behind buffer size (handed es) sz align).
Proof.
  intros dbg b n up ops s es sz align ans M F R S A G. destruct (made_end b n up M) as [E1 [E2 [E3 E4]]].
  destruct (mono_run_ok dbg ops _ [] (start_inv b n up M)) as [s0 [es0 [R0 [I [[S1 [S2 S3]] _]]]]].
  { eapply fair_weaken; [|exact F]. exact E1. }
  rewrite R in R0. injection R0 as <- <-. fold (handed es) in I.
  destruct (mono_alloc dbg s (handed es) sz align ans I S A) as [s' [p [calls [E [Y [X D]]]]]].
  { rewrite S1, S2. lia. }
  exists s', p, calls. split; [exact E|].
  assert (Q : fits_behind (mdata s) (msize s) (handed es) sz align <-> fits_behind b n (handed es) sz align).
  { destruct (Z.eq_dec (mdata s) 0) as [Z|Z].
    - split; [intros [H _]; contradiction|]. intros [H [q [Q1 [_ Q3]]]]. exfalso.
      destruct (mi_null _ _ I Z) as [Z1 Z2]. rewrite Z2 in Q1. cbn in Q1.
      rewrite S1 in Z. unfold mono_construct in Z. cbn in Z. destruct (Z.eqb_spec n 0); [lia|contradiction].
    - rewrite S1 in Z. destruct (E2 Z) as [H1 H2]. rewrite S1, S2, H1, H2. reflexivity. }
  rewrite Q in Y, X, D. rewrite S3, E3 in X. split; [|split; [exact X|exact D]].
  intros H. destruct (Y H) as [Y1 [Y2 [Y3 _]]]. split; auto. split; auto.
  destruct (handed es) eqn:Hn; [|exact Y3]. cbn in *.
  assert (Z : mdata s <> 0) by (apply Q in H; apply H). rewrite S1 in Y3, Z. destruct (E2 Z) as [Eq _]. rewrite Eq in Y3. exact Y3.
Qed.

Lemma mono_served : forall dbg buffer size up ops s es sz align ans, mono_made buffer size ->
  Forall (fair_op (buffer + size)) ops -> mono_run dbg (mono_construct buffer size up) ops = Ok (s, es) ->
  0 < sz -> pow2 align -> buffer + size + align + sz <= 2 ^ 64 ->
  exists s' p calls, mono_allocate dbg s sz align ans = Ok (s', p, calls) /\
    (calls = [] /\ p <> 0 <-> fits_behind buffer size (handed es) sz align) /\
    (calls = [] -> p <> 0 -> least_multiple align (top buffer (handed es)) p).
Proof.
  intros dbg b n up ops s es sz align ans M F R S A G.
  destruct (mono_request dbg b n up ops s es sz align ans M F R S A G) as [s' [p [calls [E [Y [X D]]]]]].
  exists s', p, calls. split; [exact E|]. destruct D as [D|D].
  - destruct (Y D) as [Y1 [Y2 Y3]]. tauto.
  - destruct (X D) as [_ X']. destruct up; destruct X' as [-> ->].
    + split; [|discriminate]. split; [intros [H _]; discriminate H|contradiction].
    + split; [|intros _ H; contradiction H; reflexivity]. split; [intros [_ H]; contradiction H; reflexivity|contradiction].
Qed.

Lemma mono_upstream : forall dbg buffer size up ops s es sz align ans, mono_made buffer size ->
  Forall (fair_op (buffer + size)) ops -> mono_run dbg (mono_construct buffer size up) ops = Ok (s, es) ->
  0 <= sz -> pow2 align -> buffer + size + align + sz <= 2 ^ 64 ->
  exists s' p calls, mono_allocate dbg s sz align ans = Ok (s', p, calls) /\
    (sz = 0 -> p = 0 /\ calls = [] /\ s' = s) /\
    (0 < sz -> fits_behind buffer size (handed es) sz align -> calls = []) /\
    (0 < sz -> ~ fits_behind buffer size (handed es) sz align ->
       s' = s /\ (up = true -> calls = [UpAllocate sz align] /\ p = ans sz align) /\
       (up = false -> calls = [] /\ p = 0)).
Proof.
  intros dbg b n up ops s es sz align ans M F R S A G. destruct (Z.eq_dec sz 0) as [->|N].
  - exists s, 0, []. split; [reflexivity|]. split; [auto|]. split; lia.
  - destruct (mono_request dbg b n up ops s es sz align ans M F R ltac:(lia) A G) as [s' [p [calls [E [Y [X _]]]]]].
    exists s', p, calls. split; [exact E|]. split; [lia|]. split; [intros _ H; apply (Y H)|].
    intros _ H. destruct (X H) as [X1 X2]. split; [exact X1|]. destruct up; split; intros Q; auto; discriminate Q.
Qed.

(** one allocation of any size *)
Lemma mono_alloc_any : forall dbg s l size align ans, mono_inv s l -> 0 < size < 2 ^ 64 -> pow2 align -> align < 2 ^ 64 ->
  (mdata s <> 0 -> 0 < msize s) ->
  exists s' p calls, mono_allocate dbg s size align ans = Ok (s', p, calls) /\
    ((exists q, wrapped_fits (mdata s) (msize s) l size align q /\ calls = [] /\ p = q /\ p <> 0) \/
     ((forall q, ~ wrapped_fits (mdata s) (msize s) l size align q) /\
      (if mup s then calls = [UpAllocate size align] /\ p = ans size align else calls = [] /\ p = 0))).
Proof.
  intros dbg s l size align ans I S A AB NZ. destruct I as [D0 N0 E0 Z0 X0 T0 A0 B0].
  unfold mono_allocate. replace (size =? 0) with false by (symmetry; apply Z.eqb_neq; lia).
  destruct A as [k [K ->]]. pose proof (pow2_pos k K) as P.
  assert (K64 : k < 64) by (apply (Z.pow_lt_mono_r_iff 2); lia).
  rewrite is_power_of_2_pow by lia.
  replace (cassert dbg true) with (@id (res (mono * Z * list upcall))) by (destruct dbg; reflexivity). unfold id.
  destruct (Z.eqb_spec (mdata s) 0) as [Zd|Zd].
  - cbn [bind]. rewrite Z.eqb_refl. cbn [andb].
    assert (NF : forall q, ~ wrapped_fits (mdata s) (msize s) l size (2 ^ k) q) by (intros q [H _]; lia).
    destruct (mup s) eqn:U; do 3 eexists; (split; [reflexivity|]); right; auto.
  - rewrite X0. rewrite skip_value by lia. cbn [bind]. specialize (NZ Zd).
    set (t := top (mdata s) l) in *. set (q := t + (- t) mod 2 ^ k).
    assert (LM : least_multiple (2 ^ k) t q) by (apply place; [lia|exists k; auto]).
    assert (U : forall q', wrapped_fits (mdata s) (msize s) l size (2 ^ k) q' -> q' = q).
    { intros q' [_ [_ [H _]]]. eapply least_multiple_unique; eauto. }
    assert (Q : t <= q <= 2 ^ 64).
    { split; [apply LM|]. apply LM; [|lia]. exists (2 ^ (64 - k)). rewrite <- Z.pow_add_r by lia. f_equal. lia. }
    unfold wrap. rewrite (Z.mod_small (mdata s + msize s)) by lia.
    destruct (Z.eq_dec q (2 ^ 64)) as [Eq|Eq].
    + assert (NF : forall q', ~ wrapped_fits (mdata s) (msize s) l size (2 ^ k) q').
      { intros q' H. pose proof (U q' H). destruct H as [_ [_ [_ [H _]]]]. lia. }
      rewrite Eq, Z_mod_same_full. destruct (Z.leb_spec ((0 + size) mod 2 ^ 64) (mdata s + msize s)); cbn [bind mup];
      rewrite Z.eqb_refl; cbn [andb]; destruct (mup s); do 3 eexists; (split; [reflexivity|]); right; auto.
    + rewrite (Z.mod_small q) by lia.
      assert (W : (q + size) mod 2 ^ 64 <= mdata s + msize s <-> q + size <= mdata s + msize s \/ 2 ^ 64 <= q + size <= 2 ^ 64 + (mdata s + msize s)).
      { destruct (Z.lt_ge_cases (q + size) (2 ^ 64)) as [H|H].
        - rewrite Z.mod_small by lia. lia.
        - replace (q + size) with ((q + size - 2 ^ 64) + 1 * 2 ^ 64) at 1 by lia.
          rewrite Z_mod_plus_full, Z.mod_small by lia. lia. }
      destruct (Z.leb_spec ((q + size) mod 2 ^ 64) (mdata s + msize s)) as [L|L]; cbn [bind].
      * replace (q =? 0) with false by (symmetry; apply Z.eqb_neq; lia). cbn [andb].
        do 3 eexists. split; [reflexivity|]. left. exists q. split; [|repeat split; lia].
        split; [lia|]. split; [lia|]. split; [exact LM|]. split; [lia|]. apply W. exact L.
      * assert (NF : forall q', ~ wrapped_fits (mdata s) (msize s) l size (2 ^ k) q').
        { intros q' H. pose proof (U q' H) as ->. destruct H as [_ [_ [_ [_ H]]]]. apply W in H. lia. }
        rewrite Z.eqb_refl. cbn [andb]. destruct (mup s); do 3 eexists; (split; [reflexivity|]); right; auto.
Qed.

(** any request after a fair history *)
Lemma mono_exact : forall dbg buffer size up ops s es sz align ans, mono_made buffer size ->
  Forall (fair_op (buffer + size)) ops -> mono_run dbg (mono_construct buffer size up) ops = Ok (s, es) ->
  0 < sz < 2 ^ 64 -> pow2 align -> align < 2 ^ 64 ->
  exists s' p calls, mono_allocate dbg s sz align ans = Ok (s', p, calls) /\
    (forall q, calls = [] /\ p = q /\ q <> 0 <-> wrapped_fits buffer size (handed es) sz align q) /\
    (~ (exists q, wrapped_fits buffer size (handed es) sz align q) ->
       if up then calls = [UpAllocate sz align] /\ p = ans sz align else calls = [] /\ p = 0).
Proof.
  intros dbg b n up ops s es sz align ans M F R S A AB. destruct (made_end b n up M) as [E1 [E2 [E3 E4]]].
  destruct (mono_run_ok dbg ops _ [] (start_inv b n up M)) as [s0 [es0 [R0 [I [[S1 [S2 S3]] _]]]]].
  { eapply fair_weaken; [|exact F]. exact E1. }
  rewrite R in R0. injection R0 as <- <-. fold (handed es) in I. destruct M as [M1 [M2 M3]].
  assert (NZ : mdata s <> 0 -> 0 < msize s).
  { rewrite S1, S2. unfold mono_construct. cbn. destruct (Z.eqb_spec n 0), (Z.eqb_spec b 0); lia. }
  destruct (mono_alloc_any dbg s (handed es) sz align ans I S A AB NZ) as [s' [p [calls [E D]]]].
  exists s', p, calls. split; [exact E|].
  assert (Q : forall q, wrapped_fits (mdata s) (msize s) (handed es) sz align q <-> wrapped_fits b n (handed es) sz align q).
  { intros q. destruct (Z.eq_dec (mdata s) 0) as [Z|Z].
    - split; [intros [H _]; lia|]. intros [H1 [H2 _]]. exfalso.
      rewrite S1 in Z. unfold mono_construct in Z. cbn in Z. destruct (Z.eqb_spec n 0); lia.
    - rewrite S1 in Z. destruct (E2 Z) as [H1 H2]. rewrite S1, S2, H1, H2. reflexivity. }
  rewrite S3, E3 in D. destruct D as [[q [W [-> [-> N]]]]|[W D]].
  - apply Q in W. split; [|intros H; destruct H; exists q; exact W].
    intros q'. split; [intros [_ [<- _]]; exact W|]. intros W'.
    assert (q = q') as <- by (eapply least_multiple_unique; [apply W|apply W']). auto.
  - split; [|intros _; exact D]. intros q. split.
    + intros [-> [-> N]]. destruct up; destruct D as [D1 D2]; [discriminate|contradiction].
    + intros H. apply Q in H. destruct (W q H).
Qed.

(** * Release and deallocate *)

Lemma mono_run_app : forall dbg a b s, mono_run dbg s (a ++ b) =
  bind (mono_run dbg s a) (fun r => let (s1, e1) := r in bind (mono_run dbg s1 b) (fun r2 => let (s2, e2) := r2 in Ok (s2, e1 ++ e2))).
Proof.
  intros dbg a b. induction a as [|o a IH]; intros s.
  - cbn. destruct (mono_run dbg s b) as [[s2 e2]| | |]; reflexivity.
  - cbn [app mono_run]. destruct (mono_step dbg s o) as [[s1 e]| | |]; cbn [bind]; auto.
    rewrite IH. destruct (mono_run dbg s1 a) as [[s2 e2]| | |]; cbn [bind]; auto.
    destruct (mono_run dbg s2 b) as [[s3 e3]| | |]; reflexivity.
Qed.

Lemma mono_alloc_same : forall dbg s size align ans s' p calls,
  mono_allocate dbg s size align ans = Ok (s', p, calls) -> same_buffer s s'.
Proof.
  intros dbg s size align ans s' p calls. unfold mono_allocate.
  destruct (size =? 0); [intros H; injection H as <- <- <-; repeat split|].
  unfold cassert. assert (Q : forall k : res (mono * Z * list upcall), (if dbg then if is_power_of_2 align then k else Abort else k) = Ok (s', p, calls) -> k = Ok (s', p, calls)).
  { intros k. destruct dbg; auto. destruct (is_power_of_2 align); auto. discriminate. }
  intros H. apply Q in H. apply bind_ok in H. destruct H as [[s1 q] [H1 H2]].
  assert (B : same_buffer s s1).
  { destruct (mdata s =? 0); [injection H1 as <- <-; repeat split|].
    apply bind_ok in H1. destruct H1 as [k [_ H1]]. cbv zeta in H1.
    destruct (_ <=? _); injection H1 as <- <-; repeat split. }
  destruct ((q =? 0) && mup s1); injection H2 as <- <- <-; exact B.
Qed.

Lemma mono_run_same : forall dbg ops s s' es, mono_run dbg s ops = Ok (s', es) -> same_buffer s s'.
Proof.
  intros dbg. induction ops as [|o ops IH]; intros s s' es H; cbn [mono_run] in H.
  - injection H as <- <-. repeat split.
  - apply bind_ok in H. destruct H as [[s1 e] [H1 H2]]. apply bind_ok in H2. destruct H2 as [[s2 es2] [H2 H3]].
    injection H3 as <- <-. apply IH in H2.
    assert (B : same_buffer s s1).
    { destruct o; cbn [mono_step] in H1.
      - apply bind_ok in H1. destruct H1 as [[[s1' p] calls] [A1 A2]]. injection A2 as <- _. eapply mono_alloc_same; eauto.
      - injection H1 as <- _. repeat split.
      - injection H1 as <- _. repeat split. }
    destruct B as [B1 [B2 B3]], H2 as [C1 [C2 C3]]. repeat split; congruence.
Qed.

(** after release everything is as after construction, whatever came before *)
Lemma mono_rewind : forall dbg buffer size up before s1 es1 later,
  mono_run dbg (mono_construct buffer size up) before = Ok (s1, es1) ->
  mono_run dbg (mono_construct buffer size up) (before ++ ORelease :: later) =
  bind (mono_run dbg (mono_construct buffer size up) later)
    (fun r => let (s2, es2) := r in Ok (s2, es1 ++ ERelease :: es2)).
Proof.
  intros dbg b n up before s1 es1 later H. rewrite mono_run_app, H. cbn [bind mono_run mono_step].
  apply mono_run_same in H. destruct H as [H1 [H2 H3]].
  replace (mono_release s1) with (mono_construct b n up).
  - destruct (mono_run dbg (mono_construct b n up) later) as [[s2 e2]| | |]; reflexivity.
  - unfold mono_release. rewrite H1, H2, H3. reflexivity.
Qed.

Lemma mono_ignore : forall dbg ops s s' es, mono_run dbg s ops = Ok (s', es) ->
  mono_run dbg s (filter (fun o => negb (is_dealloc_op o)) ops) =
    Ok (s', filter (fun e => negb (is_dealloc_event e)) es).
Proof.
  intros dbg. induction ops as [|o ops IH]; intros s s' es H; cbn [mono_run] in H.
  - injection H as <- <-. reflexivity.
  - apply bind_ok in H. destruct H as [[s1 e] [H1 H2]]. apply bind_ok in H2. destruct H2 as [[s2 es2] [H2 H3]].
    injection H3 as <- <-. destruct o; cbn [filter is_dealloc_op negb].
    + cbn [mono_run]. rewrite H1. cbn [bind].
      cbn [mono_step] in H1. apply bind_ok in H1. destruct H1 as [[[s1' p] calls] [A1 A2]]. injection A2 as <- <-.
      cbn [filter is_dealloc_event negb]. rewrite (IH _ _ _ H2). reflexivity.
    + cbn [mono_step mono_deallocate] in H1. injection H1 as <- <-. cbn [filter is_dealloc_event negb]. apply IH; auto.
    + cbn [mono_run]. rewrite H1. cbn [bind]. cbn [mono_step] in H1. injection H1 as <- <-.
      cbn [filter is_dealloc_event negb]. rewrite (IH _ _ _ H2). reflexivity.
Qed.

(** the upstream never gets anything back *)
Lemma mono_keeps : forall dbg ops s s' es, mono_run dbg s ops = Ok (s', es) ->
  forall e p, In e es -> ~ In (UpDeallocate p) (calls_of e).
Proof.
  intros dbg. induction ops as [|o ops IH]; intros s s' es H e p I; cbn [mono_run] in H.
  - injection H as <- <-. destruct I.
  - apply bind_ok in H. destruct H as [[s1 e1] [H1 H2]]. apply bind_ok in H2. destruct H2 as [[s2 es2] [H2 H3]].
    injection H3 as <- <-. destruct I as [<-|I]; [|eapply IH; eauto].
    destruct o; cbn [mono_step] in H1.
    + apply bind_ok in H1. destruct H1 as [[[s1' q] calls] [A1 A2]]. injection A2 as <- <-. cbn [calls_of].
      unfold mono_allocate in A1. destruct (size =? 0); [injection A1 as <- <- <-; auto|].
      unfold cassert in A1. assert (Q : exists k : res (mono * Z), bind k (fun '(s, p) => if (p =? 0) && mup s then Ok (s, ans size align, [UpAllocate size align]) else Ok (s, p, [])) = Ok (s1', q, calls)).
      { destruct dbg; [destruct (is_power_of_2 align); [|discriminate A1]|]; eexists; exact A1. }
      destruct Q as [k Q]. apply bind_ok in Q. destruct Q as [[s3 q3] [_ Q]].
      destruct ((q3 =? 0) && mup s3); injection Q as <- <- <-; cbn; [|tauto]. intros [C|[]]. discriminate C.
    + injection H1 as <- <-. cbn. tauto.
    + injection H1 as <- <-. cbn. tauto.
Qed.

(** * Counterexamples *)

Definition ask (n : Z) : op := OAllocate n 1 (fun _ _ => 0).

(** a request of 2^64 - 4 bytes is served and moves the buffer's end backwards *)
Lemma mono_overlap : forall dbg, exists s es,
  mono_run dbg (mono_construct 4096 32 false) [ask 8; ask (2 ^ 64 - 4); ask 4] = Ok (s, es) /\
  ~ pairwise_disjoint (handed es).
Proof.
  intros dbg. destruct dbg; eexists; eexists; (split; [vm_compute; reflexivity|]);
  intros D; specialize (D [] (4100, 4) [(4104, 2 ^ 64 - 4)] (4096, 8) [] eq_refl); unfold disjoint in D; cbn in D; lia.
Qed.

(** it is served although it fits nowhere *)
Lemma mono_nowhere : forall dbg, exists s,
  mono_allocate dbg (Mono 4096 32 true 4104) (2 ^ 64 - 4) 1 (fun _ _ => 0) = Ok (s, 4104, []) /\
  mono_run dbg (mono_construct 4096 32 true) [ask 8] = Ok (Mono 4096 32 true 4104, [EAllocate 8 1 4096 []]) /\
  ~ fits_behind 4096 32 [(4096, 8)] (2 ^ 64 - 4) 1.
Proof.
  intros dbg. destruct dbg; eexists; (split; [vm_compute; reflexivity|]; split; [vm_compute; reflexivity|]);
  intros [_ [q [Q1 [_ Q2]]]]; cbn in Q1; lia.
Qed.
