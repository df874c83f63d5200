(** Proofs for C158: a chain behaves like its resources apart, asked in turn. *)

Require Import ZArith Lia List Bool.
Require Import Verif.Outcome Verif.Machine Verif.BitsModel Verif.BitsSpec Verif.BitsProofs.
Require Import Verif.SimpleModel Verif.SimpleSpec Verif.SimpleView Verif.SimpleProofs Verif.SimpleOpProofs Verif.SimpleAnyProofs
  Verif.SimpleMainProofs Verif.SimpleRefuted Verif.MonoModel Verif.WorldModel Verif.ChainSpec Verif.ChainModel Verif.LoneSpec Verif.LoneProofs Verif.ChainView.
Import ListNotations.
Open Scope Z_scope.
Open Scope res_scope.

(** * What stays true *)
Definition standing (dbg up : bool) (b : body) : Prop :=
  match b with
  | BMono s => mup s = up
  | BSimple m n s => cfg_ok (Cfg m n dbg) /\ geometry (Cfg m n dbg) s /\ has_up s = up
  | BNull => False
  end.
Lemma sound_standing : forall dbg up b, sound dbg up b -> standing dbg up b.
Proof.
  intros dbg up [s|m n s|] H; cbn [sound standing] in *; auto.
  - destruct H as [buffer [size ->]]. reflexivity.
  - destruct H as [buffer [size M]]. destruct (made_wf _ _ _ _ _ M) as [HC [W [U _]]]. split; auto. split; auto. apply (wf_geom _ _ _ W).
Qed.
Lemma chained_standing : forall dbg l, chained (sound dbg) l -> chained (standing dbg) l.
Proof.
  intros dbg. induction l as [|b l IH]; [intros []|]. destruct l as [|b' l'].
  - apply sound_standing.
  - intros [A [B C]]. split; [apply sound_standing; exact A|]. split; [exact B|exact (IH C)].
Qed.

(** same class, same place *)
Definition same_body (b b' : body) : Prop :=
  match b, b' with
  | BMono s, BMono s' => mup s' = mup s
  | BSimple m n s, BSimple m' n' s' => m' = m /\ n' = n /\ data s' = data s /\ bc s' = bc s /\ has_up s' = has_up s
  | _, _ => False
  end.

Lemma standing_same : forall dbg up b b', standing dbg up b -> same_body b b' -> standing dbg up b'.
Proof.
  intros dbg up [s|m n s|] [s'|m' n' s'|] S B; cbn in B; try contradiction; cbn [standing] in *.
  - congruence.
  - destruct B as [-> [-> [Q1 [Q2 Q3]]]]. destruct S as [S1 [[G1 G2 G3 G4 G5] S3]]. split; auto. split; [|congruence].
    constructor; rewrite ?Q1, ?Q2; auto.
Qed.
Lemma stands_same : forall b b' a, same_body b b' -> stands_on b a -> stands_on b' a.
Proof. intros [s|m n s|] [s'|m' n' s'|] a B S; cbn in *; try tauto. destruct B as [_ [-> _]]. auto. Qed.
Lemma stood_same : forall b b' a, same_body b b' -> stands_on a b -> stands_on a b'.
Proof.
  intros b b' [|m n s|] B; cbn [stands_on]; auto. destruct b; destruct b'; cbn in *; try tauto. destruct B as [_ [-> _]]. auto.
Qed.
Lemma holds_same : forall b b' p, same_body b b' -> holds_one b' p = holds_one b p.
Proof.
  intros [s|m n s|] [s'|m' n' s'|] p B; cbn in *; try contradiction; auto. destruct B as [_ [-> [-> [-> _]]]]. reflexivity.
Qed.

Lemma body_same : forall dbg up fuel b o b' e, standing dbg up b -> sane_op o -> body_step dbg fuel b o = Ok (b', e) -> same_body b b'.
Proof.
  intros dbg up fuel [s|m n s|] o b' e S O H; cbn [body_step standing] in *; [| |contradiction].
  - apply bind_inv in H. destruct H as [[s' e'] [E H]]. injection H as <- <-. cbn.
    destruct o as [size align ans|p|]; cbn [mono_step] in E; [|injection E as <- _; reflexivity|injection E as <- _; reflexivity].
    apply bind_inv in E. destruct E as [[[s1 p] calls] [E E']]. injection E' as <- _. unfold mono_allocate in E.
    destruct (size =? 0); [injection E as <- _; reflexivity|]. apply cassert_inv in E. destruct E as [E _].
    apply bind_inv in E. destruct E as [[s2 q] [E E2]]. assert (mup s2 = mup s).
    { destruct (mdata s =? 0); [injection E as <- _; reflexivity|]. apply bind_inv in E. destruct E as [k [_ E]].
      destruct (wrap 64 (wrap 64 (mnext s + k) + size) <=? wrap 64 (mdata s + msize s)); injection E as <- _; reflexivity. }
    destruct ((q =? 0) && mup s2); injection E2 as <- _; auto.
  - destruct S as [HC [G U]]. apply bind_inv in H. destruct H as [[s' e'] [E H]]. injection H as <- <-. cbn.
    destruct (step_any _ _ _ _ _ _ HC (g_aligned _ _ G) O E) as [[[Q1 [Q2 Q3]] _] _]. auto.
Qed.

(** * One resource, with and without its upstream *)
Definition fits_below (dbg : bool) (b : body) (q : Z) : Prop :=
  match b with BSimple m n s => dbg = true -> answer_fits n q | _ => True end.

Lemma fits_zero : forall dbg b, fits_below dbg b 0.
Proof. intros dbg [s|m n s|]; cbn; auto. intros _. split; [lia|apply Z.divide_0_r]. Qed.

Lemma alloc_alone : forall dbg up fuel b size align q, standing dbg up b -> fits_below dbg b q ->
  body_step dbg fuel (alone b) (OAllocate size align (fun _ _ => 0)) =
  map_res (fun x => (alone (fst x), lone_event 0 0 (snd x))) (body_step dbg fuel b (OAllocate size align (fun _ _ => q))).
Proof.
  intros dbg up fuel [s|m n s|] size align q S F; cbn [standing fits_below] in *; [| |contradiction].
  - cbn [alone body_step]. change (OAllocate size align (fun _ _ => 0)) with (lone_op 0 0 (OAllocate size align (fun _ _ => q))).
    rewrite mono_step_lone, bind_map, map_bind. apply bind_same. intros [s' e] _. reflexivity.
  - destruct S as [HC [G U]]. cbn [alone body_step step].
    rewrite (v_allocate _ HC fuel s size align (fun _ _ => q)) by exact F.
    rewrite bind_map, !map_bind.
    destruct (allocate_impl (Cfg m n dbg) fuel s size align (fun _ _ => q)) as [[[s' p] calls]| | |]; cbn [bind]; auto.
    unfold mv5. cbn [fst snd]. destruct calls; reflexivity.
Qed.

Lemma alloc_shape : forall dbg up fuel b size align ans b' e, standing dbg up b -> pow2 align -> align < 2 ^ 64 ->
  body_step dbg fuel b (OAllocate size align ans) = Ok (b', e) ->
  exists p calls, e = EAllocate size align p calls /\
    (calls = [] \/ (up = true /\ size <> 0 /\ calls = [UpAllocate size align] /\ p = ans size align)) /\
    (calls = [] -> up = true -> p = 0 -> size = 0).
Proof.
  intros dbg up fuel [s|m n s|] size align ans b' e S PA LA H; cbn [standing body_step] in *; [| |contradiction].
  - apply bind_inv in H. destruct H as [[s' e'] [E H]]. injection H as <- <-. cbn [mono_step] in E.
    apply bind_inv in E. destruct E as [[[s1 p] calls] [E E']]. injection E' as <- <-. exists p, calls. split; [reflexivity|].
    unfold mono_allocate in E.
    destruct (Z.eqb_spec size 0); [injection E as <- <- <-; auto|]. apply cassert_inv in E. destruct E as [E _].
    apply bind_inv in E. destruct E as [[s2 q] [E E2]]. assert (mup s2 = mup s).
    { destruct (mdata s =? 0); [injection E as <- _; reflexivity|]. apply bind_inv in E. destruct E as [k [_ E]].
      destruct (wrap 64 (wrap 64 (mnext s + k) + size) <=? wrap 64 (mdata s + msize s)); injection E as <- _; reflexivity. }
    destruct (Z.eqb_spec q 0) as [->|N]; cbn [andb] in E2.
    + destruct (mup s2) eqn:U; injection E2 as <- <- <-; [|split; [auto|congruence]].
      split; [right; repeat split; auto; congruence|discriminate].
    + injection E2 as <- <- <-. split; auto. intros _ _ Q. contradiction.
  - destruct S as [HC [G U]]. apply bind_inv in H. destruct H as [[s' e'] [E H]]. injection H as <- <-. cbn [step] in E.
    apply bind_inv in E. destruct E as [[[s1 p] calls] [E E']]. injection E' as <- <-. exists p, calls. split; [reflexivity|].
    unfold allocate_impl in E. destruct (Z.eqb_spec size 0); [injection E as <- <- <-; auto|].
    apply cassert_inv in E. destruct E as [E _]. apply bind_inv in E. destruct E as [[s2 q] [E E2]].
    assert (HU : has_up s2 = up).
    { destruct (search_any _ _ _ _ _ _ _ HC (g_aligned _ _ G) PA LA E) as [[-> _]|[[[_ [_ Q]] _] _]]; congruence. }
    destruct (Z.eqb_spec q 0) as [->|N]; cbn [andb] in E2.
    + rewrite HU in E2. destruct up; cbv iota beta in E2; apply bind_inv in E2; destruct E2 as [al [_ E2]]; apply cassert_inv in E2; destruct E2 as [E2 _];
        injection E2 as <- <- <-; [|split; [auto|discriminate]].
      split; [right; repeat split; auto|discriminate].
    + apply bind_inv in E2; destruct E2 as [al [_ E2]]; apply cassert_inv in E2; destruct E2 as [E2 _]. injection E2 as <- <- <-.
      split; auto. intros _ _ Q. contradiction.
Qed.

Lemma act_range : forall c size align s p i s' p' r, alloc_act c size align s p i = Ok (s', p', r) -> 0 <= p < 2 ^ 64 -> 0 <= p' < 2 ^ 64.
Proof.
  intros c size align s p i s' p' r H R. unfold alloc_act in H. inv_ok.
  match type of H with (if ?b then _ else _) = _ => destruct b end; inv_ok; subst; auto. apply Z.mod_pos_bound. lia.
Qed.
Lemma loop_range : forall c size align fuel s p i s' p',
  apply_loop fuel c (alloc_pred c) (alloc_act c size align) s p i = Ok (s', p') -> 0 <= p < 2 ^ 64 -> 0 <= p' < 2 ^ 64.
Proof.
  intros c size align. induction fuel as [|fuel IH]; intros s p i s' p' H R; [discriminate H|]. cbn [apply_loop] in H.
  apply bind_inv in H. destruct H as [x [_ H]]. apply bind_inv in H. destruct H as [b [_ H]].
  apply bind_inv in H. destruct H as [[[s1 p1] i1] [E H]].
  assert (R1 : 0 <= p1 < 2 ^ 64).
  { destruct b; apply bind_inv in E; [destruct E as [[[s2 p2] r] [E E2]]|destruct E as [n [E E2]]]; injection E2; intros; subst; auto.
    apply (act_range _ _ _ _ _ _ _ _ _ E R). }
  destruct (i1 =? 0); [injection H as <- <-; auto|]. apply (IH _ _ _ _ _ H R1).
Qed.
Lemma search_range : forall c fuel s size align s' p, search_buffer c fuel s size align = Ok (s', p) -> 0 <= p < 2 ^ 64.
Proof.
  intros c fuel s size align s' p H. unfold search_buffer in H. destruct (data s =? 0); [injection H as <- <-; lia|]. inv_ok.
  destruct (align <=? x1); [apply (loop_range _ _ _ _ _ _ _ _ _ H); lia|injection H as <- <-; lia].
Qed.

Lemma alloc_fits : forall dbg up fuel b size align q b' e, standing dbg up b -> pow2 align -> align < 2 ^ 64 ->
  body_step dbg fuel b (OAllocate size align (fun _ _ => q)) = Ok (b', e) -> fits_below dbg b q -> fits_below dbg b (pointer_of e).
Proof.
  intros dbg up fuel [s|m n s|] size align q b' e S PA LA H F; cbn [fits_below standing body_step] in *; auto. intros D. specialize (F D).
  destruct S as [HC [G U]]. apply bind_inv in H. destruct H as [[s' e'] [E H]]. injection H as <- <-. cbn [step] in E.
  apply bind_inv in E. destruct E as [[[s1 p] calls] [E E']]. injection E' as <- <-. cbn [pointer_of].
  unfold allocate_impl in E. destruct (size =? 0); [injection E as <- <- <-; split; [lia|apply Z.divide_0_r]|].
  apply cassert_inv in E. destruct E as [E _]. apply bind_inv in E. destruct E as [[s2 r] [E E2]].
  assert (K : answer_fits n r).
  { split; [apply (search_range _ _ _ _ _ _ _ E)|].
    destruct (search_any _ _ _ _ _ _ _ HC (g_aligned _ _ G) PA LA E) as [[_ ->]|[_ [_ [Q _]]]]; [apply Z.divide_0_r|exact Q]. }
  destruct ((r =? 0) && has_up s2); apply bind_inv in E2; destruct E2 as [al [_ E2]]; apply cassert_inv in E2; destruct E2 as [E2 _];
    injection E2 as <- <- <-; auto.
Qed.

(** * allocate *)
Lemma chained_tail : forall good b b' l, chained good (b :: b' :: l) -> good true b /\ stands_on b b' /\ chained good (b' :: l).
Proof. intros good b b' l H. exact H. Qed.

Lemma chained_same : forall dbg l l', chained (standing dbg) l -> Forall2 same_body l l' -> chained (standing dbg) l'.
Proof.
  intros dbg l l' C F. induction F as [|b b' l l' B F IH]; auto. destruct F as [|c c' l l' B' F].
  - apply (standing_same dbg false b b' C B).
  - apply chained_tail in C. destruct C as [C1 [C2 C3]]. split; [apply (standing_same dbg true b b' C1 B)|].
    split; [apply (stands_same b b' c' B); apply (stood_same c c' b B' C2)|exact (IH C3)].
Qed.

Lemma same_refl : forall dbg up b, standing dbg up b -> same_body b b.
Proof. intros dbg up [s|m n s|] S; cbn in *; auto. Qed.
Lemma chain_same_refl : forall dbg l, chained (standing dbg) l -> Forall2 same_body l l.
Proof.
  intros dbg. induction l as [|b l IH]; intros C; constructor.
  - destruct l; [apply (same_refl dbg false b C)|apply chained_tail in C; apply (same_refl dbg true b); tauto].
  - destruct l; [constructor|]. apply chained_tail in C. apply IH. tauto.
Qed.

Definition above (l : list body) : bool := match l with [] => false | _ => true end.
Lemma chained_head : forall dbg b l, chained (standing dbg) (b :: l) -> standing dbg (above l) b /\ (l <> [] -> chained (standing dbg) l).
Proof.
  intros dbg b l C. destruct l; [split; [exact C|intros X; congruence]|]. apply chained_tail in C. cbn [above]. tauto.
Qed.

Lemma chain_allocate_keeps : forall dbg fuel size align, 0 <= size -> pow2 align -> align < 2 ^ 64 -> forall l l' p, chained (standing dbg) l ->
  chain_allocate dbg fuel l size align = Ok (l', p) -> Forall2 same_body l l' /\ (forall b up, l = b :: up -> fits_below dbg b p).
Proof.
  intros dbg fuel size align SZ PA LA. induction l as [|b up IH]; intros l' p C H; [destruct C|].
  destruct (chained_head _ _ _ C) as [S T]. cbn [chain_allocate] in H. apply bind_inv in H. destruct H as [[b1 e1] [E1 H]].
  assert (SA : forall q, sane_op (OAllocate size align (fun _ _ => q))) by (intros q; split; auto).
  destruct (alloc_shape _ _ _ _ _ _ _ _ _ S PA LA E1) as [p1 [calls [-> [X _]]]]. cbn [calls_of pointer_of] in H.
  destruct X as [->|[U [_ [-> _]]]].
  - injection H as <- <-. split.
    + constructor; [apply (body_same _ _ _ _ _ _ _ S (SA 0) E1)|]. destruct up; [constructor|]. apply (chain_same_refl dbg). apply T. discriminate.
    + intros b0 up0 Q. injection Q as <- _. apply (alloc_fits _ _ _ _ _ _ _ _ _ S PA LA E1). apply fits_zero.
  - apply bind_inv in H. destruct H as [[up' q] [E2 H]]. apply bind_inv in H. destruct H as [[b2 e2] [E3 H]]. injection H as <- <-.
    destruct up as [|b' up]; [discriminate U|]. destruct (IH up' q (T ltac:(discriminate)) E2) as [F K].
    assert (FQ : fits_below dbg b q).
    { specialize (K b' up eq_refl). apply chained_tail in C. destruct C as [_ [C _]].
      destruct b as [s|m n s|]; cbn; auto. intros D. destruct b' as [s'|m' n' s'|]; cbn in C, K; try contradiction.
      destruct (K D) as [K1 K2]. split; auto. eapply Z.divide_trans; eauto. }
    split; [constructor; auto; apply (body_same _ _ _ _ _ _ _ S (SA q) E3)|].
    intros b0 up0 Q. injection Q as <- _. apply (alloc_fits _ _ _ _ _ _ _ _ _ S PA LA E3 FQ).
Qed.

Lemma room_zero : forall dbg fuel align l, (forall b, In b l -> exists up, standing dbg up b) ->
  first_with_room body (get_one dbg fuel) (map alone l) 0 align = Ok (map alone l, 0).
Proof.
  intros dbg fuel align. induction l as [|b l IH]; intros S; [reflexivity|]. cbn [map first_with_room].
  replace (get_one dbg fuel (alone b) 0 align) with (Ok (alone b, 0)).
  - cbn [bind]. change (0 =? 0) with true. cbv iota. rewrite IH by (intros b' I; apply S; right; auto). reflexivity.
  - destruct (S b (or_introl eq_refl)) as [u SB]. destruct b as [s|m n s|]; cbn in SB; [| |contradiction]; reflexivity.
Qed.

Lemma chained_in : forall dbg l, chained (standing dbg) l -> forall b, In b l -> exists up, standing dbg up b.
Proof.
  intros dbg. induction l as [|b l IH]; intros C b0 I; [destruct I|]. destruct (chained_head _ _ _ C) as [S T].
  destruct I as [<-|I]; [eauto|]. apply IH; auto. apply T. intros ->. destruct I.
Qed.

Definition apart_list {A} (x : list body * A) : list body * A := (map alone (fst x), snd x).

Lemma allocate_apart : forall dbg fuel size align, 0 <= size -> pow2 align -> align < 2 ^ 64 -> forall l, chained (standing dbg) l ->
  first_with_room body (get_one dbg fuel) (map alone l) size align = map_res apart_list (chain_allocate dbg fuel l size align).
Proof.
  intros dbg fuel size align SZ PA LA. induction l as [|b up IH]; intros C; [destruct C|].
  destruct (chained_head _ _ _ C) as [S T]. cbn [map first_with_room chain_allocate]. unfold get_one at 1.
  rewrite (alloc_alone dbg (above up) fuel b size align 0 S (fits_zero _ _)).
  destruct (body_step dbg fuel b (OAllocate size align (fun _ _ => 0))) as [[b1 e1]| | |] eqn:E1; [|reflexivity|reflexivity|reflexivity].
  change (map_res (fun x => (alone (fst x), lone_event 0 0 (snd x))) (Ok (b1, e1))) with (Ok (alone b1, lone_event 0 0 e1)).
  destruct (alloc_shape _ _ _ _ _ _ _ _ _ S PA LA E1) as [p1 [calls [-> [X Y]]]]. cbn [bind].
  destruct X as [->|[U [NZ [-> _]]]]; cbn [lone_event pointer_of calls_of].
  - destruct (Z.eqb_spec p1 0) as [->|N]; [|reflexivity]. destruct up as [|b' up]; [reflexivity|].
    rewrite (Y eq_refl eq_refl eq_refl). rewrite room_zero; [reflexivity|]. apply chained_in. apply T. discriminate.
  - change (0 =? 0) with true. cbv iota. destruct up as [|b' up]; [discriminate U|]. assert (CU := T ltac:(discriminate)).
    rewrite (IH CU). destruct (chain_allocate dbg fuel (b' :: up) size align) as [[up' q]| | |] eqn:E2; [|reflexivity|reflexivity|reflexivity].
    change (map_res apart_list (Ok (up', q))) with (Ok (map alone up', q)). cbn [bind].
    assert (FQ : fits_below dbg b q).
    { destruct (chain_allocate_keeps dbg fuel size align SZ PA LA (b' :: up) up' q CU E2) as [_ K].
      specialize (K b' up eq_refl). apply chained_tail in C. destruct C as [_ [C _]].
      destruct b as [s|m n s|]; cbn; auto. intros D. destruct b' as [s'|m' n' s'|]; cbn in C, K; try contradiction.
      destruct (K D) as [K1 K2]. split; auto. eapply Z.divide_trans; eauto. }
    assert (Q1 := alloc_alone dbg true fuel b size align 0 S (fits_zero _ _)). rewrite E1 in Q1.
    rewrite (alloc_alone dbg true fuel b size align q S FQ) in Q1.
    destruct (body_step dbg fuel b (OAllocate size align (fun _ _ => q))) as [[b2 e2]| | |] eqn:E3; try discriminate Q1.
    destruct (alloc_shape _ _ _ _ _ _ _ _ _ S PA LA E3) as [p2 [calls2 [-> [X2 Y2]]]].
    cbv beta iota delta [ShiftProofs.map_res bind fst snd lone_event] in Q1.
    assert (Q2 : alone b2 = alone b1) by congruence. cbn [bind pointer_of].
    change (Ok (alone b1 :: map alone up', q) = Ok (alone b2 :: map alone up', p2)). rewrite Q2.
    destruct X2 as [->|[_ [_ [_ ->]]]]; [|reflexivity].
    assert (p2 = 0) by congruence. exfalso. apply NZ. apply Y2; auto.
Qed.

(** * deallocate *)
Lemma end_of_blocks : forall c s, geometry c s -> cfg_ok c -> wrap 64 (data s + size_ c s) = data s + bc s * BS c.
Proof.
  intros c s [G1 G2 G3 G4 G5] HC. assert (P := bs_pos c HC). assert (0 <= bc s * BS c) by (apply Z.mul_nonneg_nonneg; lia).
  unfold size_. rewrite (Z.mul_comm (BS c)). rewrite (wrap_id _ (bc s * BS c)) by lia. apply wrap_id. lia.
Qed.

Lemma back_last : forall dbg b, standing dbg false b -> alone b = b.
Proof.
  intros dbg [s|m n s|] S; cbn in *; [| |contradiction].
  - destruct s. cbn in S. subst. reflexivity.
  - destruct S as [_ [_ U]]. destruct s. cbn in U. subst. reflexivity.
Qed.

(** a simple_resource in front of others *)
Lemma back_own : forall m n dbg s p, cfg_ok (Cfg m n dbg) -> geometry (Cfg m n dbg) s -> 0 <= p < 2 ^ 64 -> own (data s) (bc s * n) p = true ->
  exists r, deallocate_impl (Cfg m n dbg) s p = map_res (fun s' => (s', [])) r /\
    deallocate_impl (Cfg m n dbg) (lone s) p = map_res (fun s' => (lone s', [])) r.
Proof.
  intros m n dbg s p HC G P O. assert (EB := end_of_blocks _ _ G HC). unfold own in O. cbn [BS] in EB. 
  unfold deallocate_impl. change (wrap 64 (data (lone s) + size_ (Cfg m n dbg) (lone s))) with (wrap 64 (data s + size_ (Cfg m n dbg) s)).
  change (data (lone s)) with (data s). rewrite EB, O.
  destruct (p =? 0); [exists (Ok s); split; reflexivity|]. rewrite aligned_bs by auto. cbn [bind].
  destruct (p mod BS (Cfg m n dbg) =? 0); cbn [negb abort_when]; [|exists Abort; split; reflexivity].
  change (pointer_to_block_index (Cfg m n dbg) (lone s) p) with (pointer_to_block_index (Cfg m n dbg) s p).
  destruct (pointer_to_block_index (Cfg m n dbg) s p) as [i| | |]; cbn [bind];
    [|exists Abort; split; reflexivity|exists UB; split; reflexivity|exists Hang; split; reflexivity].
  rewrite v_deallocate_blocks. destruct (deallocate_blocks (Cfg m n dbg) s i) as [[s' k]| | |];
    [exists (Ok s')|exists Abort|exists UB|exists Hang]; split; reflexivity.
Qed.
Lemma back_foreign : forall m n dbg s p, cfg_ok (Cfg m n dbg) -> geometry (Cfg m n dbg) s -> has_up s = true -> 0 <= p < 2 ^ 64 ->
  own (data s) (bc s * n) p = false ->
  deallocate_impl (Cfg m n dbg) s p = if p =? 0 then Ok (s, []) else if p mod n =? 0 then Ok (s, [UpDeallocate p]) else Abort.
Proof.
  intros m n dbg s p HC G U P O. assert (EB := end_of_blocks _ _ G HC). unfold own in O. cbn [BS] in EB.
  unfold deallocate_impl. rewrite EB, O, U. destruct (p =? 0); auto. rewrite aligned_bs by auto. cbn [bind BS].
  destruct (p mod n =? 0); reflexivity.
Qed.
Lemma back_odd : forall m n dbg s p, cfg_ok (Cfg m n dbg) -> 0 <= p < 2 ^ 64 -> p mod n <> 0 ->
  deallocate_impl (Cfg m n dbg) s p = Abort.
Proof.
  intros m n dbg s p HC P O. assert (PB := bs_pos _ HC). cbn [BS] in PB. unfold deallocate_impl.
  destruct (Z.eqb_spec p 0) as [->|N]; [exfalso; apply O; apply Z.mod_0_l; lia|]. rewrite aligned_bs by auto. cbn [bind BS].
  destruct (Z.eqb_spec (p mod n) 0); [contradiction|reflexivity].
Qed.

Lemma back_zero : forall dbg fuel b, (exists up, standing dbg up b) -> back_one dbg fuel (alone b) 0 = Ok (alone b).
Proof. intros dbg fuel [s|m n s|] [up S]; cbn in S; [| |contradiction]; reflexivity. Qed.

Lemma owner_cons : forall R back holds (r r' : R) l p, owner_takes R back holds (r :: r' :: l) p =
  if holds r p then r1 <- back r p;; Ok (r1 :: r' :: l) else l'' <- owner_takes R back holds (r' :: l) p;; Ok (r :: l'').
Proof. reflexivity. Qed.

Lemma owner_zero : forall dbg fuel l, chained (standing dbg) l ->
  owner_takes body (back_one dbg fuel) holds_one (map alone l) 0 = Ok (map alone l).
Proof.
  intros dbg fuel. induction l as [|b l IH]; intros C; [destruct C|]. destruct (chained_head _ _ _ C) as [S T].
  destruct l as [|b' l]; cbn [map].
  - cbn [owner_takes]. rewrite back_zero by eauto. reflexivity.
  - rewrite owner_cons. rewrite back_zero by eauto. destruct (holds_one (alone b) 0); [reflexivity|].
    change (alone b' :: map alone l) with (map alone (b' :: l)). rewrite IH by (apply T; discriminate). reflexivity.
Qed.

Lemma owner_odd : forall dbg fuel p n l, 0 <= p < 2 ^ 64 -> 0 < n -> p mod n <> 0 -> chained (standing dbg) l ->
  (forall m' n' s' up, l = BSimple m' n' s' :: up -> (n | n')) -> (exists m' n' s' up, l = BSimple m' n' s' :: up) ->
  owner_takes body (back_one dbg fuel) holds_one (map alone l) p = Abort.
Proof.
  intros dbg fuel p n l P N O. induction l as [|b l IH]; intros C D X; [destruct C|].
  destruct X as [m' [n' [s' [up X]]]]. injection X as -> <-. destruct (chained_head _ _ _ C) as [S T].
  specialize (D m' n' s' l eq_refl). destruct S as [HC [G U]].
  assert (O' : p mod n' <> 0).
  { intros Z0. apply O. apply Z.mod_divide; [lia|]. apply Z.mod_divide in Z0; [eapply Z.divide_trans; eauto|].
    assert (PB := bs_pos _ HC). cbn [BS] in PB. lia. }
  assert (B : back_one dbg fuel (alone (BSimple m' n' s')) p = Abort).
  { cbn [alone back_one body_step step]. unfold back_one. cbn [body_step step]. rewrite back_odd; auto. }
  destruct l as [|b' l]; cbn [map].
  - cbn [owner_takes]. rewrite B. reflexivity.
  - rewrite owner_cons, B. destruct (holds_one _ p); [reflexivity|].
    change (alone b' :: map alone l) with (map alone (b' :: l)). rewrite IH; auto.
    + apply T. discriminate.
    + intros m2 n2 s2 up2 Q. injection Q as -> _. apply chained_tail in C. destruct C as [_ [C _]]. cbn in C. eapply Z.divide_trans; eauto.
    + apply chained_tail in C. destruct C as [_ [C _]]. destruct b' as [|m2 n2 s2|]; cbn in C; try contradiction. eauto.
Qed.

Lemma chain_back_cons : forall dbg fuel b up p, chain_deallocate dbg fuel (b :: up) p =
  (' (b1, e1) <- body_step dbg fuel b (ODeallocate p);;
   match calls_of e1 with
   | UpDeallocate q :: _ => up' <- chain_deallocate dbg fuel up q;; Ok (b1 :: up')
   | _ => Ok (b1 :: up)
   end).
Proof. reflexivity. Qed.

Lemma deallocate_apart : forall dbg fuel p, 0 <= p < 2 ^ 64 -> forall l, chained (standing dbg) l ->
  owner_takes body (back_one dbg fuel) holds_one (map alone l) p = map_res (map alone) (chain_deallocate dbg fuel l p).
Proof.
  intros dbg fuel p P. induction l as [|b up IH]; intros C; [destruct C|].
  destruct (chained_head _ _ _ C) as [S T]. destruct up as [|b' up].
  - cbn [map owner_takes chain_deallocate]. cbn [above] in S. rewrite (back_last dbg b S). unfold back_one.
    destruct (body_step dbg fuel b (ODeallocate p)) as [[b1 e1]| | |] eqn:E; try reflexivity. cbn [bind].
    assert (S1 := standing_same _ _ _ _ S (body_same dbg false fuel b (ODeallocate p) b1 e1 S I E)).
    assert (calls_of e1 = []) as ->.
    { destruct b as [s|m n s|]; cbn [body_step mono_step mono_deallocate step] in E; cbn [standing] in S; [| |contradiction].
      - injection E as _ <-. reflexivity.
      - apply bind_inv in E. destruct E as [[s' e'] [E Q]]. injection Q as <- <-. apply bind_inv in E. destruct E as [[s2 calls] [E Q]]. injection Q as <- <-.
        cbn [calls_of]. destruct S as [HC [G U]]. unfold deallocate_impl in E. destruct (p =? 0); [inv_ok; congruence|]. inv_ok.
        destruct ((data s <=? p) && (p <? wrap 64 (data s + size_ (Cfg m n dbg) s))); inv_ok; [congruence|]. rewrite U in E. inv_ok. congruence. }
    change (Ok [b1] = Ok [alone b1]). rewrite (back_last dbg b1 S1). reflexivity.
  - cbn [map]. rewrite owner_cons. change (alone b' :: map alone up) with (map alone (b' :: up)).
    assert (CU := T ltac:(discriminate)). cbn [above] in S. rewrite chain_back_cons.
    destruct b as [s|m n s|]; cbn [standing] in S; [| |contradiction].
    + reflexivity.
    + destruct S as [HC [G U]]. change (holds_one (alone (BSimple m n s)) p) with (own (data s) (bc s * n) p).
      destruct (own (data s) (bc s * n) p) eqn:O.
      * destruct (back_own m n dbg s p HC G P O) as [r [R1 R2]]. unfold back_one. cbn [alone body_step step]. rewrite R1, R2.
        destruct r as [s'| | |]; reflexivity.
      * cbn [body_step step]. rewrite (back_foreign m n dbg s p HC G U P O).
        destruct (Z.eqb_spec p 0) as [->|N].
        -- rewrite owner_zero by auto. reflexivity.
        -- destruct (Z.eqb_spec (p mod n) 0) as [Z0|Z0].
           ++ cbn [bind calls_of]. rewrite IH by auto. 
              destruct (chain_deallocate dbg fuel (b' :: up) p) as [l'| | |]; reflexivity.
           ++ assert (PB := bs_pos _ HC). cbn [BS] in PB. apply chained_tail in C. destruct C as [_ [C _]].
              destruct b' as [|m2 n2 s2|]; cbn in C; try contradiction.
              rewrite (owner_odd dbg fuel p n); auto; [intros m3 n3 s3 up3 Q; injection Q as <- <- <- <-; auto|eauto 6].
Qed.

Lemma chain_back_keeps : forall dbg fuel p l l', chained (standing dbg) l -> chain_deallocate dbg fuel l p = Ok l' -> Forall2 same_body l l'.
Proof.
  intros dbg fuel p l. revert p. induction l as [|b up IH]; intros p l' C H; [destruct C|]. destruct (chained_head _ _ _ C) as [S T].
  rewrite chain_back_cons in H. apply bind_inv in H. destruct H as [[b1 e1] [E H]].
  assert (B := body_same dbg (above up) fuel b (ODeallocate p) b1 e1 S I E).
  assert (R : Forall2 same_body up up) by (destruct up; [constructor|apply (chain_same_refl dbg); apply T; discriminate]).
  destruct (calls_of e1) as [|[sz al|q] calls]; try (injection H as <-; constructor; auto; fail).
  apply bind_inv in H. destruct H as [up' [E2 H]]. injection H as <-. constructor; auto.
  destruct up as [|b' up]; [discriminate E2|]. apply (IH q up' (T ltac:(discriminate)) E2).
Qed.

(** * Whole programs *)
Lemma clear_apart : forall dbg fuel b up, standing dbg up b ->
  clear_one dbg fuel (alone b) = map_res alone (' (b', _) <- body_step dbg fuel b ORelease;; Ok b').
Proof.
  intros dbg fuel [s|m n s|] up S; cbn in S; [| |contradiction]; unfold clear_one; cbn [alone body_step mono_step step].
  - reflexivity.
  - rewrite v_release. destruct (release (Cfg m n dbg) fuel s) as [s'| | |]; reflexivity.
Qed.

Definition apart_one (dbg : bool) (fuel : nat) := apart_step body (get_one dbg fuel) (back_one dbg fuel) (clear_one dbg fuel) holds_one.

Lemma step_apart : forall dbg fuel n o l, sane_call (n, o) -> chained (standing dbg) l ->
  apart_one dbg fuel (map alone l) o = map_res apart_list (chain_step dbg fuel l o).
Proof.
  intros dbg fuel n o l SC C. destruct o as [size align|p|]; cbn [sane_call snd] in SC; unfold apart_one; cbn [apart_step chain_step].
  - destruct SC as [A [B D]]. apply allocate_apart; auto.
  - rewrite deallocate_apart by auto. destruct (chain_deallocate dbg fuel l p) as [l'| | |]; reflexivity.
  - destruct l as [|b up]; [destruct C|]. destruct (chained_head _ _ _ C) as [S T]. cbn [map]. rewrite (clear_apart dbg fuel b _ S).
    destruct (body_step dbg fuel b ORelease) as [[b' e]| | |]; reflexivity.
Qed.
Lemma step_keeps : forall dbg fuel n o l l' p, sane_call (n, o) -> chained (standing dbg) l ->
  chain_step dbg fuel l o = Ok (l', p) -> Forall2 same_body l l'.
Proof.
  intros dbg fuel n o l l' p SC C H. destruct o as [size align|q|]; cbn [sane_call snd] in SC; cbn [chain_step] in H.
  - destruct SC as [A [B D]]. apply (chain_allocate_keeps dbg fuel size align A B D l l' p C H).
  - apply bind_inv in H. destruct H as [l1 [E H]]. injection H as <- _. apply (chain_back_keeps _ _ _ _ _ C E).
  - destruct l as [|b up]; [discriminate H|]. destruct (chained_head _ _ _ C) as [S T]. apply bind_inv in H. destruct H as [[b1 e] [E H]]. injection H as <- _.
    constructor; [apply (body_same _ _ _ _ ORelease _ _ S I E)|]. destruct up; [constructor|]. apply (chain_same_refl dbg). apply T. discriminate.
Qed.

Lemma from_apart : forall dbg fuel o n l, sane_call (n, o) -> chained (standing dbg) l ->
  from n (fun l => apart_one dbg fuel l o) (map alone l) = map_res apart_list (from n (fun l => chain_step dbg fuel l o) l).
Proof.
  intros dbg fuel o. induction n as [|n IH]; intros l SC C; (destruct l as [|b up]; [destruct C|]).
  - cbn [map from]. change (alone b :: map alone up) with (map alone (b :: up)). apply (step_apart dbg fuel 0%nat); auto.
  - cbn [map from]. destruct up as [|b' up]; [destruct n; reflexivity|]. rewrite IH; auto; [|apply (chained_tail _ _ _ _ C)].
    destruct (from n (fun l => chain_step dbg fuel l o) (b' :: up)) as [[l' p]| | |]; reflexivity.
Qed.
Lemma from_keeps : forall dbg fuel o n l l' p, sane_call (n, o) -> chained (standing dbg) l ->
  from n (fun l => chain_step dbg fuel l o) l = Ok (l', p) -> Forall2 same_body l l'.
Proof.
  intros dbg fuel o. induction n as [|n IH]; intros l l' p SC C H; (destruct l as [|b up]; [destruct C|]); cbn [from] in H.
  - apply (step_keeps dbg fuel 0%nat o _ _ _ SC C H).
  - apply bind_inv in H. destruct H as [[l1 q] [E H]]. injection H as <- _. destruct (chained_head _ _ _ C) as [S T].
    constructor; [apply (same_refl _ _ _ S)|]. destruct up as [|b' up]; [destruct n; discriminate E|]. apply (IH _ _ q SC (T ltac:(discriminate)) E).
Qed.

Lemma run_apart : forall dbg fuel ops l, Forall sane_call ops -> chained (standing dbg) l ->
  apart_run body (get_one dbg fuel) (back_one dbg fuel) (clear_one dbg fuel) holds_one (map alone l) ops =
  map_res apart_list (chain_run dbg fuel l ops).
Proof.
  intros dbg fuel. induction ops as [|[n o] ops IH]; intros l F C; [reflexivity|]. inversion F as [|? ? F1 F2]; subst.
  cbn [apart_run chain_run]. change (fun l0 => apart_step body (get_one dbg fuel) (back_one dbg fuel) (clear_one dbg fuel) holds_one l0 o)
    with (fun l0 => apart_one dbg fuel l0 o). rewrite from_apart by auto.
  destruct (from n (fun l0 => chain_step dbg fuel l0 o) l) as [[l1 p]| | |] eqn:E; [|reflexivity|reflexivity|reflexivity].
  change (map_res apart_list (Ok (l1, p))) with (Ok (map alone l1, p)). cbn [bind].
  rewrite IH; auto; [|apply (chained_same dbg l l1 C); apply (from_keeps _ _ _ _ _ _ _ F1 C E)].
  destruct (chain_run dbg fuel l1 ops) as [[l2 ps]| | |]; reflexivity.
Qed.

Lemma chain_apart : forall dbg fuel ops l, Forall sane_call ops -> chained (sound dbg) l ->
  apart_run body (get_one dbg fuel) (back_one dbg fuel) (clear_one dbg fuel) holds_one (map alone l) ops =
  match chain_run dbg fuel l ops with
  | Ok (l', ps) => Ok (map alone l', ps)
  | Abort => Abort
  | UB => UB
  | Hang => Hang
  end.
Proof.
  intros dbg fuel ops l F C. rewrite run_apart by (auto; apply chained_standing; auto).
  destruct (chain_run dbg fuel l ops) as [[l' ps]| | |]; reflexivity.
Qed.

(** * Witnesses *)
Definition front (n d k : Z) (up : bool) : body := BSimple 8 n (St d k up (fun _ => 0) (fun _ => 0) (fun _ => false) 1 0).
Definition one_byte : nat * chain_op := (1%nat, ChAllocate 1 1).

Lemma small_blocks : forall dbg,
  let ops := [one_byte; (0%nat, ChAllocate 17 1); (0%nat, ChDeallocate 8196)] in
  chain_run dbg 9 [front 8 4096 2 true; front 4 8192 8 false] ops = Abort /\
  (exists l, apart_run body (get_one dbg 9) (back_one dbg 9) (clear_one dbg 9) holds_one
     [front 8 4096 2 false; front 4 8192 8 false] ops = Ok (l, [8192; 8196; 0])).
Proof. intros dbg. cbv zeta. split; [|eexists]; destruct dbg; vm_compute; reflexivity. Qed.

Lemma mono_behind : forall dbg,
  let ops := [one_byte; (0%nat, ChAllocate 17 1); (0%nat, ChDeallocate 8193)] in
  chain_run dbg 9 [front 4 4096 4 true; BMono (mono_construct 8192 32 false)] ops = Abort /\
  (exists l, apart_run body (get_one dbg 9) (back_one dbg 9) (clear_one dbg 9) holds_one
     [front 4 4096 4 false; BMono (mono_construct 8192 32 false)] ops = Ok (l, [8192; 8193; 0])).
Proof. intros dbg. cbv zeta. split; [|eexists]; destruct dbg; vm_compute; reflexivity. Qed.

Lemma mono_before : forall dbg, exists a s,
  chain_run dbg 9 [BMono (mono_construct 1024 8 true); front 4 4096 8 false] [(0%nat, ChAllocate 9 1); (0%nat, ChDeallocate 4096)] =
    Ok ([a; BSimple 8 4 s], [4096; 0]) /\ busyc s = 1.
Proof. intros dbg. destruct dbg; eexists; eexists; (split; [vm_compute; reflexivity|reflexivity]). Qed.

Lemma made_wide : forall dbg, made (Cfg 8 8 dbg) 8192 64 false (St 8192 8 false (fun _ => 0) (fun _ => 0) (fun _ => false) 1 0).
Proof.
  intros dbg. constructor.
  - constructor; cbn; try lia. exists 3. split; [lia|reflexivity].
  - unfold buffer_ok. lia.
  - intros _. cbn [MB BS]. lia.
  - destruct dbg; vm_compute; reflexivity.
  - discriminate.
  - apply ordinary_small; cbn [data bc BS]; lia.
Qed.
