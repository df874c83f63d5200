(** Lemmas about the buffer resources under the rule for pointer arithmetic. *)

Require Import ZArith Lia List Bool.
Require Import Verif.Outcome Verif.Machine Verif.BitsModel Verif.BitsSpec Verif.BitsProofs.
Require Import Verif.SimpleSpec Verif.SimpleModel Verif.SimpleView Verif.SimpleProofs Verif.SimpleScanProofs
  Verif.SimpleOpProofs Verif.SimpleAnyProofs Verif.SimpleMainProofs Verif.SimpleWalkProofs Verif.SimpleRefuted Verif.BuildProofs.
Require Import Verif.MonoSpec Verif.MonoModel Verif.MonoProofs.
Require Import Verif.StrictSpec Verif.StrictModel.
Import ListNotations.
Open Scope Z_scope.
Open Scope res_scope.

Lemma padd_in : forall lo hi p n, lo <= p + n <= hi -> padd lo hi p n = Ok (p + n).
Proof.
  intros lo hi p n H. unfold padd. destruct (Z.eqb_spec n 0) as [->|]; [f_equal; lia|].
  destruct (Z.leb_spec lo (p + n)), (Z.leb_spec (p + n) hi); cbn [andb]; auto; lia.
Qed.
Lemma padd_beyond : forall lo hi p n, 0 < n -> hi < p + n -> padd lo hi p n = UB.
Proof.
  intros lo hi p n N H. unfold padd. destruct (Z.eqb_spec n 0); [lia|].
  destruct (Z.leb_spec (p + n) hi); [lia|]. rewrite andb_false_r. reflexivity.
Qed.

(** * monotonic_buffer_resource *)

Section Mono.
  Variables (dbg : bool) (lo hi : Z).
  Hypothesis LO : 0 < lo.
  Hypothesis HI : hi < 2 ^ 64.

  (** one request, exactly *)
  Lemma strict_alloc : forall s l size align ans q, mono_inv s l -> lo <= mdata s -> 0 < msize s ->
    mdata s + msize s <= hi -> 0 < size < 2 ^ 64 -> pow2 align -> align < 2 ^ 64 ->
    least_multiple align (top (mdata s) l) q ->
    (q + size <= mdata s + msize s ->
       strict_mono_allocate dbg lo hi s size align ans = Ok (Mono (mdata s) (msize s) (mup s) (q + size), q, []) /\
       mono_allocate dbg s size align ans = Ok (Mono (mdata s) (msize s) (mup s) (q + size), q, []) /\
       mono_inv (Mono (mdata s) (msize s) (mup s) (q + size)) ((q, size) :: l)) /\
    (mdata s + msize s < q + size <= hi ->
       strict_mono_allocate dbg lo hi s size align ans =
         Ok (s, fst (passed_on (mup s) size align ans), snd (passed_on (mup s) size align ans)) /\
       mono_allocate dbg s size align ans =
         Ok (s, fst (passed_on (mup s) size align ans), snd (passed_on (mup s) size align ans))) /\
    (hi < q + size -> strict_mono_allocate dbg lo hi s size align ans = UB).
  Proof.
    intros s l size align ans q I DL NZ DH SZ A AB LM. destruct I as [D0 N0 E0 Z0 X0 T0 A0 B0].
    unfold mono_allocate, strict_mono_allocate. replace (size =? 0) with false by (symmetry; apply Z.eqb_neq; lia).
    destruct A as [k [K ->]]. pose proof (pow2_pos k K) as P.
    assert (K64 : k < 64) by (apply (Z.pow_lt_mono_r_iff 2); lia).
    rewrite is_power_of_2_pow by lia.
    replace (cassert dbg true) with (@id (res (mono * Z * list upcall))) by (destruct dbg; reflexivity). unfold id.
    replace (mdata s =? 0) with false by (symmetry; apply Z.eqb_neq; lia).
    rewrite X0. rewrite skip_value by lia. cbn [bind].
    set (t := top (mdata s) l) in *.
    assert (Q : q = t + (- t) mod 2 ^ k).
    { eapply least_multiple_unique; [exact LM|]. apply place; [lia|exists k; auto]. }
    pose proof (Z.mod_pos_bound (- t) (2 ^ k) P) as MB0. set (sk := (- t) mod 2 ^ k) in *.
    assert (FE : padd lo hi (mdata s) (msize s) = Ok (mdata s + msize s)) by (apply padd_in; lia).
    split; [|split].
    - intros H. rewrite padd_in by lia. cbn [bind]. rewrite <- Q. rewrite padd_in by lia. cbn [bind].
      rewrite FE. cbn [bind]. unfold wrap. rewrite (Z.mod_small q), (Z.mod_small (q + size)), (Z.mod_small (mdata s + msize s)) by lia.
      replace (q + size <=? mdata s + msize s) with true by (symmetry; apply Z.leb_le; lia). cbn [bind].
      replace (q =? 0) with false by (symmetry; apply Z.eqb_neq; lia). cbn [andb].
      split; [reflexivity|]. split; [reflexivity|].
      constructor; cbn [mdata msize mnext mup top fst snd]; auto; try lia.
      + apply (ascending_cons (mdata s)); auto; [|cbn [fst]; fold t; lia].
        apply top_last; auto. intros a Ia. apply (B0 a Ia).
      + intros a [<-|Ia]; [unfold in_bounds; cbn [fst snd]; lia|apply B0; auto].
    - intros H. rewrite padd_in by lia. cbn [bind]. rewrite <- Q. rewrite padd_in by lia. cbn [bind].
      rewrite FE. cbn [bind]. unfold wrap. rewrite (Z.mod_small q), (Z.mod_small (q + size)), (Z.mod_small (mdata s + msize s)) by lia.
      replace (q + size <=? mdata s + msize s) with false by (symmetry; apply Z.leb_gt; lia). cbn [bind].
      rewrite Z.eqb_refl. cbn [andb]. unfold passed_on. destruct (mup s); split; reflexivity.
    - intros H. unfold padd at 1. destruct (Z.eqb_spec sk 0) as [S0|S0].
      + cbn [bind]. rewrite padd_beyond by lia. reflexivity.
      + destruct (Z.leb_spec lo (t + sk)); [|lia]. destruct (Z.leb_spec (t + sk) hi); cbn [andb]; [|reflexivity].
        cbn [bind]. rewrite padd_beyond by lia. reflexivity.
  Qed.

  (** a step that does not leave the array *)
  Lemma strict_mono_step_ok : forall s l o s' e, mono_inv s l -> lo <= mdata s -> 0 < msize s ->
    mdata s + msize s <= hi -> word_op o -> strict_mono_step dbg lo hi s o = Ok (s', e) ->
    mono_step dbg s o = Ok (s', e) /\ mono_inv s' (handed_after l e) /\ same_buffer s s' /\
    (forall sz al p, e = EAllocate sz al p [] -> p <> 0 -> (al | p)) /\
    (hi = mdata s + msize s -> forall sz al p calls, e = EAllocate sz al p calls -> calls = []).
  Proof.
    intros s l [size align ans|p|] s' e I DL NZ DH W H; cbn [strict_mono_step mono_step] in *.
    - destruct W as [W1 [W2 W3]]. destruct (Z.eq_dec size 0) as [->|N].
      + cbn [strict_mono_allocate mono_allocate Z.eqb bind] in *. injection H as <- <-. cbn [handed_after].
        split; [reflexivity|]. split; [exact I|]. split; [repeat split|]. split.
        * intros sz al p E. injection E as <- <- <-. intros Q; contradiction Q; reflexivity.
        * intros _ sz al p calls E. injection E as <- <- <- <-. reflexivity.
      + assert (T := mi_top _ _ I).
        assert (LM := place align (top (mdata s) l) ltac:(lia) W2).
        set (q := top (mdata s) l + (- top (mdata s) l) mod align) in *.
        destruct (strict_alloc s l size align ans q I DL NZ DH ltac:(lia) W2 W3 LM) as [Y [U X]].
        destruct (Z.le_gt_cases (q + size) (mdata s + msize s)) as [F|F].
        { destruct (Y F) as [E1 [E2 E3]]. rewrite E1 in H. rewrite E2. cbn [bind] in *. injection H as <- <-.
          destruct LM as [L1 [L2 _]]. cbn [handed_after]. replace (q =? 0) with false by (symmetry; apply Z.eqb_neq; lia).
          split; [reflexivity|]. split; [exact E3|]. split; [repeat split|]. split.
          - intros sz al p E. injection E as <- <- <-. intros _. exact L1.
          - intros _ sz al p calls E. injection E as <- <- <- <-. reflexivity. }
        destruct (Z.le_gt_cases (q + size) hi) as [G|G].
        { destruct (U (conj F G)) as [E1 E2]. rewrite E1 in H. rewrite E2. cbn [bind] in *. injection H as <- <-.
          split; [reflexivity|]. unfold passed_on. destruct (mup s); cbn [fst snd handed_after].
          - split; [exact I|]. split; [repeat split|]. split; [discriminate|]. intros E. lia.
          - rewrite Z.eqb_refl. split; [exact I|]. split; [repeat split|]. split; [|intros E; lia].
            intros sz al p E. injection E as <- <- <-. intros Q; contradiction Q; reflexivity. }
        rewrite (X G) in H. discriminate H.
    - cbn [mono_deallocate] in *. injection H as <- <-. split; [reflexivity|]. split; [exact I|]. split; [repeat split|]. split; discriminate.
    - injection H as <- <-. split; [reflexivity|]. split; [apply (release_inv s l I)|]. split; [repeat split|]. split; discriminate.
  Qed.

  Lemma strict_mono_run_ok : forall ops s l s' es, mono_inv s l -> lo <= mdata s -> 0 < msize s ->
    mdata s + msize s <= hi -> Forall word_op ops -> strict_mono_run dbg lo hi s ops = Ok (s', es) ->
    mono_run dbg s ops = Ok (s', es) /\ mono_inv s' (fold_left handed_after es l) /\ same_buffer s s' /\
    (forall sz al p, In (EAllocate sz al p []) es -> p <> 0 -> (al | p)) /\
    (hi = mdata s + msize s -> forall sz al p calls, In (EAllocate sz al p calls) es -> calls = []).
  Proof.
    induction ops as [|o ops IH]; intros s l s' es I DL NZ DH W H; cbn [strict_mono_run mono_run] in *.
    - injection H as <- <-. split; [reflexivity|]. split; [exact I|]. split; [repeat split|]. split; intros; contradiction.
    - inversion W as [|? ? Wo Ws]; subst.
      destruct (strict_mono_step dbg lo hi s o) as [[s1 e]| | |] eqn:E; try discriminate H. cbn [bind] in H.
      destruct (strict_mono_run dbg lo hi s1 ops) as [[s2 es2]| | |] eqn:E2; try discriminate H. cbn [bind] in H.
      injection H as <- <-.
      destruct (strict_mono_step_ok s l o s1 e I DL NZ DH Wo E) as [F1 [I1 [[S1 [S2 S3]] [A1 C1]]]].
      destruct (IH s1 _ s2 es2 I1) as [F2 [I2 [[T1 [T2 T3]] [A2 C2]]]]; rewrite ?S1, ?S2; auto.
      rewrite F1. cbn [bind]. rewrite F2. cbn [bind fold_left].
      split; [reflexivity|]. split; [exact I2|]. split; [repeat split; congruence|]. split.
      + intros sz al p [->|J] N; [apply (A1 sz al p eq_refl N)|apply (A2 sz al p J N)].
      + intros B sz al p calls [->|J]; [apply (C1 B sz al p calls eq_refl)|].
        apply (C2 ltac:(rewrite S1, S2; exact B) sz al p calls J).
  Qed.
End Mono.

Lemma strict_start : forall lo hi buffer size up, part_of_array lo hi buffer size ->
  mono_made buffer size /\ mono_construct buffer size up = Mono buffer size up buffer.
Proof.
  intros lo hi b n up [A [B [C [D E]]]]. split; [repeat split; lia|]. unfold mono_construct.
  replace (n =? 0) with false by (symmetry; apply Z.eqb_neq; lia).
  replace (b =? 0) with false by (symmetry; apply Z.eqb_neq; lia). reflexivity.
Qed.

Lemma strict_mono_contract : forall dbg lo hi buffer size up ops s es, part_of_array lo hi buffer size ->
  Forall word_op ops -> strict_mono_run dbg lo hi (mono_construct buffer size up) ops = Ok (s, es) ->
  mono_run dbg (mono_construct buffer size up) ops = Ok (s, es) /\
  ascending (handed es) /\ pairwise_disjoint (handed es) /\
  (forall a, In a (handed es) -> in_bounds buffer (buffer + size) a) /\
  (forall sz al p, In (EAllocate sz al p []) es -> p <> 0 -> (al | p)).
Proof.
  intros dbg lo hi b n up ops s es PA W R. destruct (strict_start lo hi b n up PA) as [M E].
  assert (I := start_inv b n up M). destruct PA as [A [B [C [D F]]]].
  rewrite E in *. destruct (strict_mono_run_ok dbg lo hi A F ops _ [] s es I) as [R2 [I2 [[S1 [S2 S3]] [A2 _]]]]; auto.
  cbn [mdata msize] in *. fold (handed es) in I2.
  split; [exact R2|]. split; [apply (mi_asc _ _ I2)|]. split; [apply ascending_disjoint, (mi_asc _ _ I2)|].
  split; [|exact A2]. intros a Ia. destruct (mi_bounds _ _ I2 a Ia) as [H _]. rewrite S1, S2 in H. exact H.
Qed.

Lemma strict_mono_exact : forall dbg lo hi buffer size up ops s es sz align ans q, part_of_array lo hi buffer size ->
  Forall word_op ops -> strict_mono_run dbg lo hi (mono_construct buffer size up) ops = Ok (s, es) ->
  0 < sz < 2 ^ 64 -> pow2 align -> align < 2 ^ 64 -> least_multiple align (top buffer (handed es)) q ->
  (q + sz <= buffer + size -> exists s', strict_mono_allocate dbg lo hi s sz align ans = Ok (s', q, [])) /\
  (buffer + size < q + sz <= hi -> strict_mono_allocate dbg lo hi s sz align ans =
     Ok (s, fst (passed_on up sz align ans), snd (passed_on up sz align ans))) /\
  (hi < q + sz -> strict_mono_allocate dbg lo hi s sz align ans = UB).
Proof.
  intros dbg lo hi b n up ops s es sz align ans q PA W R SZ A AB LM. destruct (strict_start lo hi b n up PA) as [M E].
  assert (I := start_inv b n up M). destruct PA as [A1 [A2 [A3 [A4 A5]]]].
  rewrite E in *. destruct (strict_mono_run_ok dbg lo hi A1 A5 ops _ [] s es I) as [R2 [I2 [[S1 [S2 S3]] _]]]; auto.
  cbn [mdata msize mup] in *. fold (handed es) in I2. rewrite <- S1, <- S2, <- S3 in *.
  destruct (strict_alloc dbg lo hi A1 A5 s (handed es) sz align ans q I2 A2 A3 A4 SZ A AB LM) as [X [Y Z0]].
  split; [|split].
  - intros H. destruct (X H) as [H1 _]. rewrite H1. eexists. reflexivity.
  - intros H. apply (Y H).
  - exact Z0.
Qed.

Lemma strict_mono_alone : forall dbg lo hi buffer size up ops s es, part_of_array lo hi buffer size ->
  hi = buffer + size -> Forall word_op ops ->
  strict_mono_run dbg lo hi (mono_construct buffer size up) ops = Ok (s, es) ->
  forall sz al p calls, In (EAllocate sz al p calls) es -> calls = [].
Proof.
  intros dbg lo hi b n up ops s es PA HH W R. destruct (strict_start lo hi b n up PA) as [M E].
  assert (I := start_inv b n up M). destruct PA as [A1 [A2 [A3 [A4 A5]]]].
  rewrite E in *. destruct (strict_mono_run_ok dbg lo hi A1 A5 ops _ [] s es I) as [_ [_ [_ [_ C]]]]; auto. exact (C HH).
Qed.

(** * simple_resource *)

(** the strict outcome is the flat one, or the program is undefined *)
Definition tighter {A : Type} (x y : res A) : Prop := x = y \/ x = UB.

Lemma tighter_refl : forall A (x : res A), tighter x x.
Proof. intros. left. reflexivity. Qed.
Lemma tighter_bind : forall A B (x y : res A) (f g : A -> res B), tighter x y ->
  (forall a, y = Ok a -> tighter (f a) (g a)) -> tighter (bind x f) (bind y g).
Proof.
  intros A B x y f g [->| ->] H; [|right; reflexivity]. destruct y; cbn [bind]; [apply H; reflexivity| | |]; apply tighter_refl.
Qed.
Lemma tighter_cassert : forall A dbg b (x y : res A), (dbg = false \/ b = true -> tighter x y) ->
  tighter (cassert dbg b x) (cassert dbg b y).
Proof. intros A [] [] x y H; cbn [cassert]; auto. apply tighter_refl. Qed.
Lemma tighter_abort : forall A b (x y : res A), tighter x y -> tighter (abort_when b x) (abort_when b y).
Proof. intros A [] x y H; cbn [abort_when]; auto. apply tighter_refl. Qed.
Lemma tighter_ok : forall A (x y : res A) a, tighter x y -> x = Ok a -> y = Ok a.
Proof. intros A x y a [->| ->] H; [exact H|discriminate H]. Qed.

Section Strict.
  Variables (c : cfg) (lo hi : Z).
  Hypothesis HC : cfg_ok c.
  Hypothesis LO : 0 < lo.
  Hypothesis HI : hi < 2 ^ 64.

  Lemma padd_cases : forall p n, lo <= p <= hi ->
    padd lo hi p n = UB \/ (padd lo hi p n = Ok (wrap 64 (p + n)) /\ lo <= wrap 64 (p + n) <= hi).
  Proof.
    intros p n P. unfold padd. destruct (Z.eqb_spec n 0) as [->|N].
    - right. rewrite wrap_id by lia. rewrite Z.add_0_r. auto.
    - destruct (Z.leb_spec lo (p + n)), (Z.leb_spec (p + n) hi); cbn [andb]; auto.
      right. rewrite wrap_id by lia. auto.
  Qed.

  Lemma strict_index : forall s p, lo <= data s <= hi ->
    tighter (strict_pointer_to_block_index c lo hi s p) (pointer_to_block_index c s p).
  Proof.
    intros s p D. unfold strict_pointer_to_block_index, pointer_to_block_index.
    apply tighter_cassert. intros _. destruct (DBG c); cbn [cassert bind]; [|apply tighter_refl].
    destruct (padd_cases (data s) (wrap 64 (BS c * MB c)) D) as [->|[-> _]]; cbn [bind]; [right; reflexivity|].
    apply tighter_refl.
  Qed.
  Lemma strict_pointer : forall s i, lo <= data s <= hi ->
    tighter (strict_block_index_to_pointer c lo hi s i) (block_index_to_pointer c s i) /\
    (forall p, strict_block_index_to_pointer c lo hi s i = Ok p -> lo <= p <= hi).
  Proof.
    intros s i D. unfold strict_block_index_to_pointer, block_index_to_pointer.
    destruct (padd_cases (data s) (wrap 64 (i * BS c)) D) as [->|[-> B]].
    - split; [apply tighter_cassert; intros _; right; reflexivity|].
      intros p H. destruct (DBG c), (i <? bc s); discriminate H.
    - split; [apply tighter_refl|]. intros p H. apply cassert_inv in H. destruct H as [H _].
      apply (f_equal (fun r => match r with Ok x => x | _ => 0 end)) in H. cbn beta iota in H. subst p. exact B.
  Qed.
  Lemma strict_blocks : forall s i p size, lo <= data s <= hi -> lo <= p <= hi ->
    tighter (strict_allocate_blocks c lo hi s i p size) (allocate_blocks c s i p size).
  Proof.
    intros s i p size D P. unfold strict_allocate_blocks, allocate_blocks.
    apply tighter_bind; [apply strict_index; auto|]. intros f _.
    destruct (padd_cases p size P) as [->|[-> B]]; cbn [bind]; [right; reflexivity|].
    apply tighter_bind; [apply strict_index; auto|]. intros l _. apply tighter_refl.
  Qed.

  Lemma strict_act : forall size align s a i, lo <= data s <= hi ->
    tighter (strict_alloc_act c lo hi size align s a i) (alloc_act c size align s a i).
  Proof.
    intros size align s a i D. unfold strict_alloc_act, alloc_act.
    apply tighter_bind; [apply tighter_refl|]. intros n _.
    destruct (strict_pointer s i D) as [T B]. destruct T as [T|T]; [|rewrite T; right; reflexivity].
    rewrite <- T. destruct (strict_block_index_to_pointer c lo hi s i) as [bp| | |] eqn:E; try apply tighter_refl.
    specialize (B bp eq_refl). cbn [bind].
    apply tighter_bind; [apply tighter_refl|]. intros sk _.
    destruct (wrap 64 (sk + size) <=? n); [|apply tighter_refl].
    destruct (padd_cases bp sk B) as [->|[-> B2]]; cbn [bind]; [right; reflexivity|].
    apply tighter_bind; [apply strict_blocks; auto|]. intros s' _. apply tighter_refl.
  Qed.

  Lemma act_stays : forall size align s a i s' a', alloc_act c size align s a i = Ok (s', a', true) -> s' = s /\ a' = a.
  Proof.
    intros size align s a i s' a' H. unfold alloc_act in H.
    destruct (block_size_in_bytes c s i) as [n| | |]; try discriminate H. cbn [bind] in H.
    destruct (block_index_to_pointer c s i) as [bp| | |]; try discriminate H. cbn [bind] in H.
    destruct (skip_to_align (DBG c) bp align) as [sk| | |]; try discriminate H. cbn [bind] in H.
    destruct (wrap 64 (sk + size) <=? n).
    - destruct (allocate_blocks c s i (wrap 64 (bp + sk)) size) as [s1| | |]; try discriminate H.
    - destruct (next_index c s i) as [m| | |]; try discriminate H. cbn [bind] in H.
      split; [apply (f_equal (fun r => match r with Ok (x, _, _) => x | _ => s end)) in H|
              apply (f_equal (fun r => match r with Ok (_, x, _) => x | _ => a end)) in H]; cbn beta iota in H; congruence.
  Qed.

  Lemma strict_loop : forall size align fuel s a i, lo <= data s <= hi ->
    tighter (apply_loop fuel c (alloc_pred c) (strict_alloc_act c lo hi size align) s a i)
            (apply_loop fuel c (alloc_pred c) (alloc_act c size align) s a i).
  Proof.
    intros size align. induction fuel as [|fuel IH]; intros s a i D; cbn [apply_loop]; [apply tighter_refl|].
    apply tighter_bind; [apply tighter_refl|]. intros _ _.
    apply tighter_bind; [apply tighter_refl|]. intros b _. destruct b.
    - destruct (strict_act size align s a i D) as [->| ->]; [|right; reflexivity].
      destruct (alloc_act c size align s a i) as [[[s' a'] r]| | |] eqn:E; cbn [bind]; try apply tighter_refl.
      destruct r; cbn [of_bool]; [|apply tighter_refl]. destruct (act_stays _ _ _ _ _ _ _ E) as [-> ->].
      cbn [Z.eqb]. apply IH. exact D.
    - destruct (next_index c s i) as [n| | |]; cbn [bind]; try apply tighter_refl.
      destruct (n =? 0); [apply tighter_refl|]. apply IH. exact D.
  Qed.

  (** the blocks lie in the array, if there are any *)
  Definition placed (s : state) : Prop := lo <= data s <= hi \/ (data s = 0 /\ bc s = 0).

  Lemma strict_allocate : forall fuel s size align ans, placed s ->
    tighter (strict_allocate_impl c lo hi fuel s size align ans) (allocate_impl c fuel s size align ans).
  Proof.
    intros fuel s size align ans PL. unfold strict_allocate_impl, allocate_impl.
    destruct (size =? 0); [apply tighter_refl|]. apply tighter_cassert. intros _.
    apply tighter_bind; [|intros [s' p] _; apply tighter_refl].
    unfold strict_search_buffer, search_buffer. destruct (Z.eqb_spec (data s) 0) as [D|D]; [apply tighter_refl|].
    apply tighter_bind; [apply tighter_refl|]. intros z _.
    apply tighter_bind; [apply tighter_refl|]. intros x _.
    apply tighter_bind; [apply tighter_refl|]. intros m _.
    destruct (align <=? m); [|apply tighter_refl]. apply strict_loop. destruct PL as [PL|[PL _]]; [exact PL|contradiction].
  Qed.

  Lemma size_none : forall s, bc s = 0 -> size_ c s = 0.
  Proof. intros s E. unfold size_. rewrite E, Z.mul_0_r. reflexivity. Qed.

  Lemma padd_size : forall s, placed s ->
    padd lo hi (data s) (size_ c s) = UB \/ padd lo hi (data s) (size_ c s) = Ok (wrap 64 (data s + size_ c s)).
  Proof.
    intros s [PL|[P1 P2]].
    - destruct (padd_cases (data s) (size_ c s) PL) as [H|[H _]]; auto.
    - right. rewrite size_none, P1 by auto. reflexivity.
  Qed.

  Lemma strict_deallocate : forall s p, placed s ->
    tighter (strict_deallocate_impl c lo hi s p) (deallocate_impl c s p).
  Proof.
    intros s p PL. unfold strict_deallocate_impl, deallocate_impl.
    destruct (p =? 0); [apply tighter_refl|]. apply tighter_bind; [apply tighter_refl|]. intros al _.
    apply tighter_abort. destruct (data s <=? p) eqn:LE; cbn [andb bind].
    - destruct (padd_size s PL) as [->| ->]; cbn [bind]; [right; reflexivity|].
      destruct (p <? wrap 64 (data s + size_ c s)) eqn:IN.
      + apply tighter_bind; [|intros; apply tighter_refl]. apply strict_index.
        destruct PL as [PL|[P1 P2]]; [exact PL|]. rewrite size_none, P1 in IN by auto. rewrite P1 in LE.
        apply Z.leb_le in LE. apply Z.ltb_lt in IN. change (wrap 64 (0 + 0)) with 0 in IN. lia.
      + apply tighter_refl.
    - destruct (has_up s); [apply tighter_refl|]. apply tighter_abort.
      destruct (padd_size s PL) as [->| ->]; cbn [bind]; [right; reflexivity|apply tighter_refl].
  Qed.

  Lemma strict_steps : forall fuel s o, placed s -> tighter (strict_step c lo hi fuel s o) (step c fuel s o).
  Proof.
    intros fuel s [size align ans|p|] PL; cbn [strict_step step]; [| |apply tighter_refl];
    (apply tighter_bind; [|intros; apply tighter_refl]).
    - apply strict_allocate. exact PL.
    - apply strict_deallocate. exact PL.
  Qed.

  Lemma placed_same : forall s s', placed s -> same_place s s' -> placed s'.
  Proof. intros s s' P [A [B _]]. unfold placed in *. rewrite A, B. exact P. Qed.

  Lemma strict_runs : forall fuel ops s, placed s -> (BS c | data s) -> Forall sane_op ops ->
    tighter (strict_run c lo hi fuel s ops) (run c fuel s ops).
  Proof.
    intros fuel. induction ops as [|o ops IH]; intros s PL D V; cbn [strict_run run]; [apply tighter_refl|].
    inversion V as [|? ? Vo Vs]; subst.
    apply tighter_bind; [apply strict_steps; exact PL|]. intros [s1 e] E.
    destruct (step_any c fuel s o s1 e HC D Vo E) as [[K _] _].
    apply tighter_bind; [|intros; apply tighter_refl]. apply IH; auto.
    - eapply placed_same; eauto.
    - destruct K as [-> _]. exact D.
  Qed.
End Strict.

(** ** Where every pointer stays inside *)

Section Inside.
  Variables (c : cfg) (lo hi : Z) (s : state).
  Hypothesis HC : cfg_ok c.
  Hypothesis LO : 0 < lo.
  Hypothesis HI : hi < 2 ^ 64.
  Hypothesis G : geometry c s.
  Hypothesis LF : links_forward s.
  Hypothesis D : lo <= data s.
  Hypothesis E : data s + bc s * BS c <= hi.
  Notation d := (data s).
  Notation b := (BS c).
  Notation fb := (from_block (nxt s) (bc s)).

  Lemma block_inside : forall i, 0 <= i < bc s -> strict_block_index_to_pointer c lo hi s i = Ok (d + i * b).
  Proof.
    intros i I. assert (P := bs_pos c HC). unfold strict_block_index_to_pointer.
    rewrite wrap_id by nia. rewrite padd_in by nia. destruct (DBG c); cbn [cassert]; auto.
    replace (i <? bc s) with true by (symmetry; apply Z.ltb_lt; lia). reflexivity.
  Qed.

  (** what the search does in one region *)
  Lemma act_inside : forall size align i p, request size align -> 0 <= i < bc s ->
    let bp := region_addr d b (fb i) in
    strict_alloc_act c lo hi size align s p i =
      if skip_of bp align + size <=? rlen (fb i) * b then
        s' <- strict_allocate_blocks c lo hi s i (bp + skip_of bp align) size;;
        Ok (s', bp + skip_of bp align, false)
      else Ok (s, p, negb (nxt s i =? 0)).
  Proof.
    intros size align i p HR I bp. destruct (request_align _ _ HR) as [j [Hj [Ea Ha]]]. destruct HR as [R0 [R1 R2]].
    assert (B := g_bc _ _ G). assert (GE := g_end _ _ G). assert (GD := g_data _ _ G). assert (P := bs_pos c HC).
    destruct (fb_len s LF i I) as [L1 L2].
    unfold strict_alloc_act. rewrite (fb_bytes c s HC G LF) by auto. cbn [bind]. rewrite block_inside by auto. cbn [bind].
    change (d + i * b) with bp.
    assert (HB : lo <= bp /\ bp + rlen (fb i) * b <= hi).
    { unfold bp, region_addr. cbn [rstart from_block]. split; nia. }
    assert (HB2 : 0 < bp < 2 ^ 64) by nia.
    rewrite Ea. rewrite skip_value by lia. cbn [bind]. change ((- bp) mod 2 ^ j) with (skip_of bp (2 ^ j)).
    rewrite <- Ea. destruct (skip_bounds bp align Ha). rewrite (wrap_id 64 (skip_of bp align + size)) by lia.
    destruct (Z.leb_spec (skip_of bp align + size) (rlen (fb i) * b)).
    - rewrite padd_in by nia. reflexivity.
    - rewrite next_index_ok by lia. reflexivity.
  Qed.

  Definition whole : Prop := DBG c = true -> d + MB c * b <= hi.

  Lemma index_inside : whole -> forall p, strict_pointer_to_block_index c lo hi s p = pointer_to_block_index c s p.
  Proof.
    intros W p. assert (P := bs_pos c HC). assert (M := mb_range _ HC).
    unfold strict_pointer_to_block_index, pointer_to_block_index. unfold whole in W.
    destruct (DBG c) eqn:DB; cbn [cassert bind]; [|reflexivity]. specialize (W eq_refl).
    assert (GM := g_max _ _ G DB). assert (GD := g_data _ _ G).
    rewrite (wrap_id 64 (b * MB c)) by nia. rewrite padd_in by nia. cbn [bind].
    rewrite (wrap_id 64 (d + b * MB c)) by nia. reflexivity.
  Qed.

  Lemma act_same : whole -> forall size align i p, request size align -> 0 <= i < bc s ->
    strict_alloc_act c lo hi size align s p i = alloc_act c size align s p i.
  Proof.
    intros W size align i p HR I. rewrite act_inside by auto. rewrite (fb_act c s size align HC HR G LF) by auto.
    destruct (fb_len s LF i I) as [L1 L2]. destruct (request_align _ _ HR) as [j [Hj [Ea Ha]]].
    assert (P := bs_pos c HC). set (bp := region_addr d b (fb i)).
    assert (HB : lo <= bp /\ bp + rlen (fb i) * b <= hi).
    { unfold bp, region_addr. cbn [rstart from_block]. split; nia. }
    destruct (skip_bounds bp align Ha). destruct HR as [R0 [R1 R2]].
    destruct (Z.leb_spec (skip_of bp align + size) (rlen (fb i) * b)); [|reflexivity].
    rewrite (wrap_id 64 (bp + skip_of bp align)) by nia.
    f_equal. unfold strict_allocate_blocks, allocate_blocks. rewrite index_inside by auto.
    rewrite padd_in by nia. cbn [bind]. rewrite index_inside by auto. rewrite (wrap_id 64 (bp + skip_of bp align + size)) by nia.
    reflexivity.
  Qed.

  Lemma next_inside : forall i, 0 <= i < bc s -> nxt s i <> 0 -> 0 <= nxt s i < bc s /\ 1 < bc s.
  Proof. intros i I N. destruct (LF i); lia. Qed.

  Lemma loop_same : whole -> forall size align fuel i p, request size align -> 0 <= i < bc s ->
    apply_loop fuel c (alloc_pred c) (strict_alloc_act c lo hi size align) s p i =
    apply_loop fuel c (alloc_pred c) (alloc_act c size align) s p i.
  Proof.
    intros W size align. induction fuel as [|fuel IH]; intros i p HR I; cbn [apply_loop]; [reflexivity|].
    assert (B := g_bc _ _ G). rewrite next_index_ok by lia. cbn [bind]. unfold alloc_pred. rewrite in_use_ok by lia. cbn [bind].
    destruct (inuse s i); cbn [negb bind].
    - destruct (Z.eqb_spec (nxt s i) 0) as [N|N]; [reflexivity|]. apply IH; auto. apply next_inside; auto.
    - rewrite act_same by auto. destruct (alloc_act c size align s p i) as [[[s' a'] r]| | |] eqn:A; cbn [bind]; try reflexivity.
      destruct r; cbn [of_bool]; [|reflexivity]. destruct (act_stays _ _ _ _ _ _ _ _ A) as [-> ->].
      cbn [Z.eqb]. apply IH; auto.
      rewrite (fb_act c s size align HC HR G LF) in A by auto.
      destruct (_ <=? _) in A.
      + destruct (allocate_blocks _ _ _ _ _) in A; discriminate A.
      + destruct (Z.eqb_spec (nxt s i) 0) as [N|N]; [discriminate A|]. destruct (next_inside i I N). lia.
  Qed.

  Lemma allocate_same : whole -> forall fuel size align ans, 0 <= size -> pow2 align -> size + align <= 2 ^ 64 ->
    strict_allocate_impl c lo hi fuel s size align ans = allocate_impl c fuel s size align ans.
  Proof.
    intros W fuel size align ans S0 A SA. unfold strict_allocate_impl, allocate_impl.
    destruct (Z.eqb_spec size 0); [reflexivity|]. f_equal. f_equal.
    unfold strict_search_buffer, search_buffer. destruct (d =? 0); [reflexivity|].
    assert (B := g_bc _ _ G). assert (HR : request size align) by (repeat split; auto; lia).
    destruct (calc_ctz (DBG c) d); cbn [bind]; auto. destruct (shl i32 1 a); cbn [bind]; auto.
    destruct (max_alignment_inside_block (DBG c) (conv u64 a0) (wrap 64 (bc s * b))); cbn [bind]; auto.
    destruct (align <=? a1); [|reflexivity]. apply loop_same; auto. lia.
  Qed.

  Lemma size_inside : size_ c s = bc s * b /\ padd lo hi d (size_ c s) = Ok (d + bc s * b) /\
    wrap 64 (d + size_ c s) = d + bc s * b.
  Proof.
    assert (P := bs_pos c HC). assert (B := g_bc _ _ G). assert (GD := g_data _ _ G).
    assert (S : size_ c s = bc s * b) by (unfold size_; rewrite wrap_id by nia; lia).
    rewrite S. split; [reflexivity|]. rewrite padd_in by nia. rewrite wrap_id by nia. auto.
  Qed.

  Lemma deallocate_same : whole -> forall p, strict_deallocate_impl c lo hi s p = deallocate_impl c s p.
  Proof.
    intros W p. unfold strict_deallocate_impl, deallocate_impl. destruct size_inside as [_ [S2 S3]]. rewrite S2, S3.
    destruct (p =? 0); [reflexivity|]. destruct (is_aligned (DBG c) p b) as [al| | |]; cbn [bind]; auto.
    f_equal. destruct (d <=? p); cbn [bind andb]; [|reflexivity].
    destruct (p <? d + bc s * b); [|reflexivity]. rewrite index_inside by auto. reflexivity.
  Qed.

  Lemma step_same : whole -> forall fuel o, small_op o -> strict_step c lo hi fuel s o = step c fuel s o.
  Proof.
    intros W fuel [size align ans|p|] V; cbn [strict_step step small_op] in *; [| |reflexivity].
    - destruct V as [V1 [V2 [V3 V4]]]. rewrite allocate_same by auto. reflexivity.
    - rewrite deallocate_same by auto. reflexivity.
  Qed.

  (** ** debug builds, where the array ends before the largest resource would *)

  Hypothesis DB : DBG c = true.
  Hypothesis SH : hi < d + MB c * b.

  Lemma index_short : forall p, strict_pointer_to_block_index c lo hi s p = if d <=? p then UB else Abort.
  Proof.
    intros p. assert (P := bs_pos c HC). assert (M := mb_range _ HC). assert (GM := g_max _ _ G DB). assert (GD := g_data _ _ G).
    unfold strict_pointer_to_block_index. rewrite DB. cbn [cassert]. rewrite (wrap_id 64 (b * MB c)) by nia.
    rewrite padd_beyond by nia. reflexivity.
  Qed.

  Lemma loop_short : forall size align fuel i s' a, request size align -> 0 <= i < bc s ->
    apply_loop fuel c (alloc_pred c) (alloc_act c size align) s 0 i = Ok (s', a) ->
    apply_loop fuel c (alloc_pred c) (strict_alloc_act c lo hi size align) s 0 i =
      if a =? 0 then Ok (s', a) else UB.
  Proof.
    intros size align. induction fuel as [|fuel IH]; intros i s' a HR I H; cbn [apply_loop] in *; [discriminate H|].
    assert (B := g_bc _ _ G). rewrite next_index_ok in * by lia. cbn [bind] in *.
    unfold alloc_pred in *. rewrite in_use_ok in * by lia. cbn [bind] in *.
    destruct (inuse s i); cbn [negb bind] in *.
    - destruct (Z.eqb_spec (nxt s i) 0) as [N|N]; [injection H as <- <-; reflexivity|]. apply IH; auto. apply next_inside; auto.
    - rewrite act_inside by auto. rewrite (fb_act c s size align HC HR G LF) in H by auto.
      destruct (fb_len s LF i I) as [L1 L2]. destruct (request_align _ _ HR) as [j [Hj [Ea Ha]]].
      assert (P := bs_pos c HC). set (bp := region_addr d b (fb i)) in *.
      assert (HB : lo <= bp /\ bp + rlen (fb i) * b <= hi).
      { unfold bp, region_addr. cbn [rstart from_block]. split; nia. }
      destruct (skip_bounds bp align Ha). assert (GD := g_data _ _ G). destruct HR as [R0 [R1 R2]].
      destruct (Z.leb_spec (skip_of bp align + size) (rlen (fb i) * b)).
      + rewrite wrap_id in H by nia.
        destruct (allocate_blocks c s i (bp + skip_of bp align) size) as [s1| | |]; try discriminate H. cbn [bind of_bool Z.eqb] in H.
        injection H as <- <-. replace (bp + skip_of bp align =? 0) with false by (symmetry; apply Z.eqb_neq; lia).
        unfold strict_allocate_blocks. rewrite index_short.
        replace (d <=? bp + skip_of bp align) with true; [reflexivity|]. symmetry. apply Z.leb_le.
        assert (Bp : bp = d + i * b) by reflexivity. nia.
      + cbn [bind] in *. destruct (Z.eqb_spec (nxt s i) 0) as [N|N]; cbn [negb of_bool Z.eqb] in *.
        * injection H as <- <-. reflexivity.
        * apply IH; auto; [repeat split; auto; lia|]. destruct (next_inside i I N). lia.
  Qed.

  Lemma step_short : forall fuel o s' e, small_op o -> step c fuel s o = Ok (s', e) ->
    (touches d (d + bc s * b) e -> strict_step c lo hi fuel s o = UB) /\
    (~ touches d (d + bc s * b) e -> strict_step c lo hi fuel s o = Ok (s', e)).
  Proof.
    intros fuel [size align ans|p|] s' e V H; cbn [strict_step step small_op] in *.
    - destruct V as [V1 [V2 [V3 V4]]].
      destruct (allocate_impl c fuel s size align ans) as [[[s1 q] calls]| | |] eqn:A; try discriminate H.
      cbn [bind] in H. injection H as <- <-. cbn [touches].
      unfold allocate_impl, strict_allocate_impl in *. destruct (Z.eqb_spec size 0) as [Z0|Z0].
      { injection A as <- <- <-. split; [intros X; contradiction X; reflexivity|]. reflexivity. }
      assert (HR : request size align) by (repeat split; auto; lia).
      rewrite DB in *. cbn [cassert] in *. destruct (is_power_of_2 align); [|discriminate A].
      assert (GD := g_data _ _ G). assert (B := g_bc _ _ G).
      assert (SB : forall s2 p2, search_buffer c fuel s size align = Ok (s2, p2) ->
        strict_search_buffer c lo hi fuel s size align = if p2 =? 0 then Ok (s2, p2) else UB).
      { intros s2 p2 X. unfold search_buffer, strict_search_buffer in *. destruct (Z.eqb_spec d 0); [lia|].
        destruct (calc_ctz (DBG c) d); try discriminate X. cbn [bind] in *. destruct (shl i32 1 a); try discriminate X.
        cbn [bind] in *. destruct (max_alignment_inside_block (DBG c) (conv u64 a0) (wrap 64 (bc s * b))); try discriminate X.
        cbn [bind] in *. destruct (align <=? a1); [|injection X as <- <-; reflexivity]. apply loop_short; auto. lia. }
      destruct (search_buffer c fuel s size align) as [[s2 p2]| | |] eqn:S2; try discriminate A.
      rewrite (SB s2 p2 eq_refl). cbn [bind] in A. destruct (Z.eqb_spec p2 0) as [P0|P0]; cbn [bind].
      + subst p2. cbn [Z.eqb andb] in *. destruct (has_up s2).
        * apply bind_inv in A. destruct A as [al [A1 A2]]. destruct al; [|discriminate A2].
          rewrite A1. cbn [bind cassert]. injection A2 as <- <- <-. cbn [bind]. split; [contradiction|reflexivity].
        * apply bind_inv in A. destruct A as [al [A1 A2]]. destruct al; [|discriminate A2].
          rewrite A1. cbn [bind cassert]. injection A2 as <- <- <-. cbn [bind].
          split; [intros X; contradiction X; reflexivity|reflexivity].
      + cbn [andb] in A. apply bind_inv in A. destruct A as [al [A1 A2]]. destruct al; [|discriminate A2].
        injection A2 as <- <- <-. split; [reflexivity|]. intros X. exfalso. apply X. exact P0.
    - destruct (deallocate_impl c s p) as [[s1 calls]| | |] eqn:A; try discriminate H. cbn [bind] in H. injection H as <- <-.
      cbn [touches]. assert (GD := g_data _ _ G).
      unfold deallocate_impl, strict_deallocate_impl in *. destruct size_inside as [_ [S2 S3]]. rewrite S2. rewrite S3 in A.
      destruct (Z.eqb_spec p 0) as [Z0|Z0].
      { injection A as <- <-. split; [lia|reflexivity]. }
      destruct (is_aligned (DBG c) p b) as [al| | |]; try discriminate A. cbn [bind] in *.
      destruct al; [|discriminate A]. cbn [negb abort_when] in *.
      destruct (Z.leb_spec d p); cbn [andb bind] in *.
      + destruct (Z.ltb_spec p (d + bc s * b)).
        * rewrite index_short. replace (d <=? p) with true by (symmetry; apply Z.leb_le; lia). cbn [bind].
          split; [reflexivity|]. intros X. exfalso. apply X. lia.
        * split; [lia|]. intros _. destruct (has_up s); [injection A as <- <-; reflexivity|].
          destruct (p <? d); [discriminate A|]. cbn [abort_when] in *.
          destruct (d + bc s * b <=? p); cbn [andb negb abort_when] in *; [discriminate A|]. injection A as <- <-. reflexivity.
      + split; [lia|]. intros _. destruct (has_up s); [injection A as <- <-; reflexivity|].
        destruct (p <? d); [discriminate A|]. cbn [abort_when] in *.
        destruct (d + bc s * b <=? p); cbn [andb negb abort_when] in *; [discriminate A|]. injection A as <- <-. reflexivity.
    - split; [|intros _; exact H]. destruct (release c fuel s) as [s1| | |]; try discriminate H. cbn [bind] in H.
      injection H as <- <-. cbn [touches]. contradiction.
  Qed.
End Inside.

(** ** Histories *)

Lemma strict_origin : forall c lo hi buffer size up, cfg_ok c -> part_of_array lo hi buffer size ->
  strict_construct c lo hi buffer size up = construct c buffer size up.
Proof.
  intros c lo hi b n up HC [A [B [C [D E]]]]. unfold strict_construct, construct. f_equal.
  unfold strict_origin_and_block_count, origin_and_block_count.
  replace (b =? 0) with false by (symmetry; apply Z.eqb_neq; lia).
  replace (n =? 0) with false by (symmetry; apply Z.eqb_neq; lia). cbn [negb andb].
  destruct (bs_pow2 _ HC) as [k [K Ek]]. assert (BR := bs_range _ HC).
  assert (K64 : k < 64) by (apply (Z.pow_lt_mono_r_iff 2); lia).
  rewrite Ek. rewrite skip_value by lia. cbn [bind].
  pose proof (Z.mod_pos_bound (- b) (2 ^ k) (pow2_pos k K)) as M.
  destruct (Z.ltb_spec ((- b) mod 2 ^ k) n); [|reflexivity]. destruct (0 <? (n - (- b) mod 2 ^ k) / 2 ^ k); [|reflexivity].
  rewrite padd_in by lia. cbn [bind]. rewrite wrap_id by lia. reflexivity.
Qed.

Lemma strict_made : forall c lo hi buffer size up, cfg_ok c ->
  part_of_array lo hi buffer size \/ buffer = 0 \/ size = 0 ->
  strict_construct c lo hi buffer size up = construct c buffer size up.
Proof.
  intros c lo hi b n up HC [PA|E]; [apply strict_origin; auto|].
  unfold strict_construct, construct, strict_origin_and_block_count, origin_and_block_count.
  assert (X : negb (b =? 0) && negb (n =? 0) = false) by (destruct E as [->| ->]; cbn; [|destruct (b =? 0)]; reflexivity).
  rewrite X. reflexivity.
Qed.

Lemma part_buffer : forall lo hi buffer size, part_of_array lo hi buffer size -> buffer_ok buffer size.
Proof. intros lo hi b n [A [B [C [D E]]]]. repeat split; lia. Qed.

Lemma small_sane : forall ops, Forall small_op ops -> Forall sane_op ops.
Proof. intros ops. apply Forall_impl. intros [size align ans|p|]; cbn; tauto. Qed.
Lemma word_sane : forall ops, Forall word_op ops -> Forall sane_op ops.
Proof. intros ops. apply Forall_impl. intros [size align ans|p|]; cbn; tauto. Qed.

Lemma strict_sound : forall c lo hi buffer size up s fuel ops s' es, cfg_ok c -> part_of_array lo hi buffer size ->
  strict_construct c lo hi buffer size up = Ok s -> Forall word_op ops ->
  strict_run c lo hi fuel s ops = Ok (s', es) ->
  construct c buffer size up = Ok s /\ run c fuel s ops = Ok (s', es).
Proof.
  intros c lo hi b n up s fuel ops s' es HC PA M V R. rewrite (strict_origin c lo hi b n up HC PA) in M.
  split; [exact M|]. assert (BO := part_buffer _ _ _ _ PA). destruct PA as [A [B [C [D E]]]].
  destruct (construct_aligned _ _ _ _ _ HC BO M) as [DV _].
  refine (tighter_ok _ _ _ _ (strict_runs c lo hi HC A E fuel ops s _ DV (word_sane _ V)) R). unfold placed.
  destruct (construction c b n up HC BO) as [s1 [E1 [_ [_ [_ [_ [H5 _]]]]]]]. rewrite M in E1. injection E1 as <-.
  assert (P := bs_pos c HC). destruct H5 as [H5|[_ [_ [H5 [H6 H7]]]]]; [right; exact H5|left; nia].
Qed.

Lemma made_inside : forall c lo hi buffer size up s, made c buffer size up s -> part_of_array lo hi buffer size ->
  cfg_ok c /\ geometry c s /\ links_forward s /\ (BS c | data s) /\ lo <= data s /\ data s + bc s * BS c <= hi.
Proof.
  intros c lo hi b n up s M PA. destruct (made_wf _ _ _ _ _ M) as [HC [W [_ [_ [_ [_ [_ [_ [DV B1]]]]]]]]].
  destruct (construct_aligned c b n up s HC (made_buffer _ _ _ _ _ M) (made_from _ _ _ _ _ M)) as [_ [LF _]].
  destruct (construction c b n up HC (made_buffer _ _ _ _ _ M)) as [s1 [E1 [_ [_ [_ [_ [H5 _]]]]]]].
  rewrite (made_from _ _ _ _ _ M) in E1. injection E1 as <-. destruct PA as [A [B [C [D E]]]].
  split; [exact HC|]. split; [apply (wf_geom _ _ _ W)|]. split; [exact LF|]. split; [exact DV|].
  destruct H5 as [[_ H5]|[_ [_ [H5 [H6 H7]]]]]; lia.
Qed.

(** debug builds on an array with room for the largest resource: no pointer ever leaves *)
Lemma strict_whole : forall c lo hi buffer size up s fuel ops, made c buffer size up s -> DBG c = true ->
  part_of_array lo hi buffer size -> data s + MB c * BS c <= hi -> Forall small_op ops ->
  strict_run c lo hi fuel s ops = run c fuel s ops.
Proof.
  intros c lo hi b n up s fuel ops M DB PA W V.
  destruct (made_inside _ _ _ _ _ _ _ M PA) as [HC [G [LF [DV [L1 L2]]]]]. destruct PA as [A [_ [_ [_ E]]]].
  clear M. revert s G LF DV L1 L2 W. induction V as [|o ops Vo Vs IH]; intros s G LF DV L1 L2 W; cbn [strict_run run]; [reflexivity|].
  rewrite (step_same c lo hi s HC A E G LF L1 L2 (fun _ => W)) by auto.
  destruct (step c fuel s o) as [[s1 e]| | |] eqn:S1; cbn [bind]; try reflexivity.
  assert (So : sane_op o) by (destruct o; cbn in *; tauto).
  destruct (step_any c fuel s o s1 e HC DV So S1) as [[SP K] _]. assert (G1 := kept_geometry _ _ _ G SP).
  destruct SP as [X [Y _]]. rewrite IH; auto; rewrite ?X, ?Y; auto.
Qed.

(** release builds: every history that the debug build passes *)
Lemma strict_release : forall m b lo hi buffer size up s fuel ops s' es,
  made (Cfg m b true) buffer size up s -> part_of_array lo hi buffer size -> Forall small_op ops ->
  run (Cfg m b true) fuel s ops = Ok (s', es) ->
  strict_run (Cfg m b false) lo hi fuel s ops = Ok (s', es).
Proof.
  intros m b lo hi buffer size up s fuel ops s' es M PA V.
  destruct (made_inside _ _ _ _ _ _ _ M PA) as [HC [G [LF [DV [L1 L2]]]]]. destruct PA as [A [_ [_ [_ E]]]].
  assert (HR : cfg_ok (Cfg m b false)) by (destruct HC; constructor; assumption).
  clear M. revert s s' es G LF DV L1 L2. induction V as [|o ops Vo Vs IH]; intros s s' es G LF DV L1 L2 R; cbn [strict_run run] in *; [exact R|].
  destruct (step (Cfg m b true) fuel s o) as [[s1 e]| | |] eqn:S1; try discriminate R. cbn [bind] in R.
  destruct (run (Cfg m b true) fuel s1 ops) as [[s2 es2]| | |] eqn:R2; try discriminate R. cbn [bind] in R. injection R as <- <-.
  assert (GR : geometry (Cfg m b false) s) by (destruct G; constructor; cbn [DBG MB BS] in *; auto; discriminate).
  assert (S2 := s_step m b fuel s o). rewrite S1 in S2. cbn in S2.
  rewrite (step_same (Cfg m b false) lo hi s HR A E GR LF L1 L2) by (auto; intros X; discriminate X). rewrite S2. cbn [bind].
  assert (So : sane_op o) by (destruct o; cbn in *; tauto).
  destruct (step_any _ fuel s o s1 e HC DV So S1) as [[SP K] _]. assert (G1 := kept_geometry _ _ _ G SP).
  destruct SP as [X [Y _]]. rewrite (IH s1 s2 es2); auto; rewrite ?X, ?Y; auto.
Qed.

(** debug builds on a shorter array *)
Lemma strict_short_run : forall c lo hi buffer size up s fuel ops s' es, made c buffer size up s -> DBG c = true ->
  part_of_array lo hi buffer size -> hi < data s + MB c * BS c -> Forall small_op ops ->
  strict_run c lo hi fuel s ops = Ok (s', es) ->
  (cfg_ok c /\ geometry c s' /\ links_forward s' /\ same_place s s' /\ lo <= data s /\ data s + bc s * BS c <= hi) /\
  run c fuel s ops = Ok (s', es) /\
  forall e, In e es -> ~ touches (data s) (data s + bc s * BS c) e.
Proof.
  intros c lo hi b n up s fuel ops s' es M DB PA W V.
  destruct (made_inside _ _ _ _ _ _ _ M PA) as [HC [G [LF [DV [L1 L2]]]]]. destruct PA as [A [_ [_ [_ E]]]].
  clear M. revert s s' es G LF DV L1 L2 W. induction V as [|o ops Vo Vs IH]; intros s s' es G LF DV L1 L2 W R; cbn [strict_run run] in *.
  - injection R as <- <-. split; [|split; [reflexivity|contradiction]]. auto 10 using same_place_refl.
  - destruct (strict_step c lo hi fuel s o) as [[s1 e]| | |] eqn:S1; try discriminate R. cbn [bind] in R.
    destruct (strict_run c lo hi fuel s1 ops) as [[s2 es2]| | |] eqn:R2; try discriminate R. cbn [bind] in R. injection R as <- <-.
    assert (S2 : step c fuel s o = Ok (s1, e)).
    { assert (P := bs_pos c HC). assert (B := g_bc _ _ G). assert (PL : placed lo hi s) by (left; nia).
      apply (tighter_ok _ _ _ _ (strict_steps c lo hi A E fuel s o PL) S1). }
    rewrite S2. cbn [bind].
    assert (So : sane_op o) by (destruct o; cbn in *; tauto).
    destruct (step_any c fuel s o s1 e HC DV So S2) as [[SP K] _]. assert (G1 := kept_geometry _ _ _ G SP).
    assert (SP' := SP). destruct SP as [X [Y _]].
    destruct (IH s1 s2 es2) as [[_ [G2 [LF2 [SP2 _]]]] [R3 N]]; auto; rewrite ?X, ?Y; auto.
    rewrite R3. cbn [bind]. split; [|split; [reflexivity|]].
    + split; [exact HC|]. split; [exact G2|]. split; [exact LF2|]. split; [eapply same_place_trans; eauto|]. auto.
    + intros x [<-|J].
      * intros T. destruct (step_short c lo hi s HC A E G LF L1 L2 DB W fuel o s1 e Vo S2) as [U _].
        rewrite (U T) in S1. discriminate S1.
      * rewrite <- X, <- Y. apply N. exact J.
Qed.

Lemma strict_short : forall c lo hi buffer size up s fuel ops s' es, made c buffer size up s -> DBG c = true ->
  part_of_array lo hi buffer size -> hi < data s + MB c * BS c -> Forall small_op ops ->
  strict_run c lo hi fuel s ops = Ok (s', es) ->
  forall e, In e es -> ~ touches (data s) (data s + bc s * BS c) e.
Proof. intros. eapply strict_short_run; eauto. Qed.

Lemma strict_short_exact : forall c lo hi buffer size up s fuel ops s' es o s2 e, made c buffer size up s -> DBG c = true ->
  part_of_array lo hi buffer size -> hi < data s + MB c * BS c -> Forall small_op ops ->
  strict_run c lo hi fuel s ops = Ok (s', es) -> small_op o -> step c fuel s' o = Ok (s2, e) ->
  (touches (data s) (data s + bc s * BS c) e -> strict_step c lo hi fuel s' o = UB) /\
  (~ touches (data s) (data s + bc s * BS c) e -> strict_step c lo hi fuel s' o = Ok (s2, e)).
Proof.
  intros c lo hi b n up s fuel ops s' es o s2 e M DB PA W V R Vo S1.
  destruct (strict_short_run c lo hi b n up s fuel ops s' es M DB PA W V R) as [[HC [G [LF [[X [Y _]] [L1 L2]]]]] _].
  destruct PA as [A [_ [_ [_ E]]]]. rewrite <- X, <- Y in *.
  apply (step_short c lo hi s' HC A E G LF L1 L2 DB W fuel o s2 e Vo S1).
Qed.

(** a size at which padding and size wrap around, in a release build *)
Lemma strict_size : exists c lo hi buffer size s s2 p, DBG c = false /\ made c buffer size false s /\
  part_of_array lo hi buffer size /\
  allocate_impl c 50 s (2 ^ 64 - 48) 64 (fun _ _ => 0) = Ok (s2, p, []) /\ p <> 0 /\
  strict_allocate_impl c lo hi 50 s (2 ^ 64 - 48) 64 (fun _ _ => 0) = UB.
Proof.
  assert (M : made (Cfg 16 16 false) 65552 256 false (fresh 65552 16 false)).
  { constructor.
    - constructor; cbn [MB BS]; [lia|exact pow2_16|lia].
    - unfold buffer_ok. lia.
    - intros _. cbn [MB BS]. lia.
    - vm_compute; reflexivity.
    - discriminate.
    - apply ordinary_small; cbn [data bc fresh BS]; lia. }
  exists (Cfg 16 16 false), 65536, 65808, 65552, 256, (fresh 65552 16 false). do 2 eexists.
  split; [reflexivity|]. split; [exact M|]. split; [unfold part_of_array; lia|].
  split; [vm_compute; reflexivity|]. split; [discriminate|vm_compute; reflexivity].
Qed.

(** a null buffer: no pointer is formed at all *)
Lemma strict_mono_null_step : forall dbg lo hi s o, mdata s = 0 ->
  strict_mono_step dbg lo hi s o = mono_step dbg s o /\
  (forall s' e, mono_step dbg s o = Ok (s', e) -> mdata s' = 0).
Proof.
  intros dbg lo hi s o H. destruct o as [size align ans|p|]; cbn [strict_mono_step mono_step].
  - unfold strict_mono_allocate, mono_allocate. rewrite H. change (0 =? 0) with true. cbn iota.
    destruct (size =? 0); [split; [reflexivity|]; cbn; intros s' e E; now injection E as <- _|].
    destruct (is_power_of_2 align), dbg; cbn [cassert negb andb orb bind]; (split; [reflexivity|]); intros s' e;
      try discriminate; destruct (mup s); cbn; intros E; now injection E as <- _.
  - split; [reflexivity|]. cbn. intros s' e E. now injection E as <- _.
  - split; [reflexivity|]. intros s' e E. injection E as <- _. exact H.
Qed.

Lemma strict_mono_null : forall dbg lo hi buffer size up ops, buffer = 0 \/ size = 0 ->
  strict_mono_run dbg lo hi (mono_construct buffer size up) ops = mono_run dbg (mono_construct buffer size up) ops.
Proof.
  intros dbg lo hi buffer size up ops D. assert (H : mdata (mono_construct buffer size up) = 0).
  { destruct D as [-> | ->]; cbn; [now destruct (size =? 0)|reflexivity]. }
  revert H. generalize (mono_construct buffer size up). induction ops as [|o ops IH]; intros s H; [reflexivity|].
  cbn [strict_mono_run mono_run]. destruct (strict_mono_null_step dbg lo hi s o H) as [E K]. rewrite E.
  destruct (mono_step dbg s o) as [[s1 e]| | |] eqn:St; cbn [bind]; try reflexivity.
  rewrite (IH s1 (K _ _ eq_refl)). reflexivity.
Qed.

Lemma strict_mono_null_events : forall dbg lo hi buffer size up ops s es, buffer = 0 \/ size = 0 ->
  strict_mono_run dbg lo hi (mono_construct buffer size up) ops = Ok (s, es) ->
  mono_run dbg (mono_construct buffer size up) ops = Ok (s, es) /\
  (forall sz al p calls, In (EAllocate sz al p calls) es ->
     (sz = 0 /\ p = 0 /\ calls = []) \/
     (sz <> 0 /\ exists ans, In (OAllocate sz al ans) ops /\ (p, calls) = passed_on up sz al ans)).
Proof.
  intros dbg lo hi buffer size up ops s es D. rewrite (strict_mono_null dbg lo hi buffer size up ops D).
  intros R. split; [exact R|]. assert (H : mdata (mono_construct buffer size up) = 0).
  { destruct D as [-> | ->]; cbn; [now destruct (size =? 0)|reflexivity]. }
  assert (U : mup (mono_construct buffer size up) = up) by reflexivity.
  revert H U es R. generalize (mono_construct buffer size up). intros s0.
  revert s0. induction ops as [|o ops IH]; intros s0 H U es R sz al p calls I.
  - cbn in R. injection R as _ <-. destruct I.
  - cbn [mono_run] in R. destruct (mono_step dbg s0 o) as [[s1 e]| | |] eqn:St; try discriminate R.
    cbn [bind] in R. destruct (mono_run dbg s1 ops) as [[s2 es2]| | |] eqn:Rn; try discriminate R.
    cbn [bind] in R. injection R as E2 <-. subst s2.
    destruct (strict_mono_null_step dbg lo hi s0 o H) as [_ K]. pose proof (K _ _ St) as H1.
    assert (Main : mup s1 = up /\ (e = EAllocate sz al p calls ->
       (sz = 0 /\ p = 0 /\ calls = []) \/
       (sz <> 0 /\ exists ans, In (OAllocate sz al ans) (o :: ops) /\ (p, calls) = passed_on up sz al ans))).
    { clear IH Rn I. destruct o as [z a ans|q|]; cbn [mono_step] in St.
      - unfold mono_allocate in St. rewrite H in St. change (0 =? 0) with true in St.
        destruct (z =? 0) eqn:Z0.
        + cbn [bind] in St. injection St as <- <-. split; [exact U|]. intros Q. injection Q as <- <- <- <-.
          left. apply Z.eqb_eq in Z0. auto.
        + apply Z.eqb_neq in Z0.
          destruct (is_power_of_2 a), dbg; cbn [cassert negb andb orb bind] in St; try discriminate St;
          destruct (mup s0) eqn:M; cbn [bind] in St; injection St as <- <-; (split; [congruence|]);
          intros Q; injection Q as <- <- <- <-; right; (split; [exact Z0|]); exists ans;
          (split; [now left|]); unfold passed_on; rewrite <- U; reflexivity.
      - cbn in St. injection St as <- <-. split; [exact U|discriminate].
      - injection St as <- <-. split; [exact U|discriminate]. }
    destruct Main as [U1 Me]. destruct I as [I|I]; [exact (Me I)|].
    destruct (IH s1 H1 U1 es2 Rn sz al p calls I) as [A|[A [f [B C]]]]; [now left|right].
    split; [exact A|]. exists f. split; [now right|exact C].
Qed.

Lemma strict_mono_null_all : forall dbg lo hi buffer size up ops, buffer = 0 \/ size = 0 ->
  strict_mono_run dbg lo hi (mono_construct buffer size up) ops = mono_run dbg (mono_construct buffer size up) ops /\
  (forall s es, strict_mono_run dbg lo hi (mono_construct buffer size up) ops = Ok (s, es) ->
   forall sz al p calls, In (EAllocate sz al p calls) es ->
     (sz = 0 /\ p = 0 /\ calls = []) \/
     (sz <> 0 /\ exists ans, In (OAllocate sz al ans) ops /\ (p, calls) = passed_on up sz al ans)).
Proof.
  intros. split; [now apply strict_mono_null|]. intros s es R.
  exact (proj2 (strict_mono_null_events dbg lo hi buffer size up ops s es H R)).
Qed.
