(** Proofs for C157: requests that need the same number of blocks. *)

Require Import ZArith Lia List Bool.
Require Import Verif.Outcome Verif.Machine Verif.BitsModel Verif.BitsSpec Verif.BitsProofs.
Require Import Verif.SimpleModel Verif.SimpleSpec Verif.SimpleView Verif.SimpleProofs Verif.SimpleScanProofs Verif.SimpleOpProofs
  Verif.SimpleAnyProofs Verif.SimpleMainProofs Verif.SimpleRefuted Verif.ShiftProofs Verif.RoundSpec.
Import ListNotations.
Open Scope Z_scope.
Open Scope res_scope.

(** * Sizes of one class *)
Lemma same_add : forall b k x y, same_size b x y -> (b | k) -> same_size b (k + x) (k + y).
Proof.
  intros b k x y [->|[q Q]] [j ->]; [left; reflexivity|]. right. exists (j + q). lia.
Qed.
Lemma same_sub : forall b k x y, same_size b x y -> (b | k) -> same_size b (x - k) (y - k).
Proof.
  intros b k x y [->|[q Q]] [j ->]; [left; reflexivity|]. right. exists (q - j). lia.
Qed.
Lemma between : forall b q j, 0 < b -> j * b <= q * b \/ q * b + b <= j * b.
Proof. intros b q j P. destruct (Z_le_gt_dec j q); [left|right]; nia. Qed.
Lemma same_leb : forall b n x y, 0 < b -> same_size b x y -> (b | n) -> (x <=? n) = (y <=? n).
Proof.
  intros b n x y P [->|[q Q]] [j ->]; [reflexivity|].
  destruct (Z.leb_spec x (j * b)); destruct (Z.leb_spec y (j * b)); auto; exfalso; destruct (between b q j P); lia.
Qed.
Lemma same_geb : forall b n x y, 0 < b -> same_size b x y -> (b | n) -> (n <=? x) = (n <=? y).
Proof.
  intros b n x y P [->|[q Q]] [j ->]; [reflexivity|].
  destruct (Z.leb_spec (j * b) x); destruct (Z.leb_spec (j * b) y); auto; exfalso; destruct (between b q j P); lia.
Qed.
Lemma same_ltb : forall b n x y, 0 < b -> same_size b x y -> (b | n) -> (x <? n) = (y <? n).
Proof. intros b n x y P S D. rewrite !Z.ltb_antisym, (same_geb b n x y); auto. Qed.
Lemma same_div : forall b x y, 0 < b -> same_size b x y -> x / b = y / b.
Proof.
  intros b x y P [->|[q Q]]; [reflexivity|].
  rewrite <- (Z.div_unique_pos x b q (x - q * b)) by lia. rewrite <- (Z.div_unique_pos y b q (y - q * b)) by lia. reflexivity.
Qed.
Lemma same_wrap : forall b x y, 0 < b -> (b | 2 ^ 64) -> same_size b x y -> same_size b (wrap 64 x) (wrap 64 y).
Proof.
  intros b x y P D S.
  assert (E : x / 2 ^ 64 = y / 2 ^ 64).
  { destruct D as [j J]. rewrite J. assert (0 < j) by (assert (0 < 2 ^ 64) by lia; nia).
    rewrite (Z.mul_comm j), <- !Z.div_div by lia. rewrite (same_div b x y); auto. }
  unfold wrap. rewrite !Z.mod_eq by lia. rewrite E. apply same_sub; auto.
  destruct D as [j ->]. exists (j * (y / (j * b))). ring.
Qed.
Lemma same_zero : forall b x y, 0 < b -> same_size b x y -> (x =? 0) = (y =? 0).
Proof.
  intros b x y P [->|[q Q]]; [reflexivity|].
  destruct (Z.eqb_spec x 0); destruct (Z.eqb_spec y 0); auto; exfalso; destruct (between b q 0 P); lia.
Qed.

Section Classes.
  Variable c : cfg.
  Hypothesis HC : cfg_ok c.

  Lemma divides_64 : (BS c | 2 ^ 64).
  Proof using HC. destruct (bs_log c HC) as [k [K ->]]. exists (2 ^ (64 - k)). rewrite <- Z.pow_add_r by lia. f_equal. lia. Qed.
  Lemma divides_wrap : forall x, (BS c | x) -> (BS c | wrap 64 x).
  Proof using HC.
    intros x D. unfold wrap. rewrite Z.mod_eq by lia. apply Z.divide_sub_r; auto. apply Z.divide_mul_l. apply divides_64.
  Qed.

  Variable s : state.
  Hypothesis G : geometry c s.

  Lemma class_index : forall p q, same_size (BS c) p q -> pointer_to_block_index c s p = pointer_to_block_index c s q.
  Proof using HC G.
    intros p q S. assert (P := bs_pos c HC). unfold pointer_to_block_index.
    rewrite (same_geb (BS c) (data s) p q) by (auto; apply (g_aligned _ _ G)).
    rewrite (same_ltb (BS c) (wrap 64 (data s + wrap 64 (BS c * MB c))) p q); auto.
    - rewrite (same_div (BS c) (wrap 64 (p - data s)) (wrap 64 (q - data s))); auto.
      apply same_wrap; auto; [apply divides_64|]. apply same_sub; auto. apply (g_aligned _ _ G).
    - apply divides_wrap. apply Z.divide_add_r; [apply (g_aligned _ _ G)|]. apply divides_wrap. apply Z.divide_factor_l.
  Qed.

  Lemma class_skip : forall p align align', 0 <= p < 2 ^ 64 -> (BS c | p) -> pow2 align -> align < 2 ^ 64 -> pow2 align' -> align' < 2 ^ 64 ->
    same_alignment (BS c) align align' ->
    exists k, skip_to_align (DBG c) p align = Ok k /\ skip_to_align (DBG c) p align' = Ok k /\ (BS c | k).
  Proof using HC.
    intros p align align' R D A L A' L' S. assert (PB := bs_pos c HC).
    assert (V : forall a, pow2 a -> a < 2 ^ 64 -> skip_to_align (DBG c) p a = Ok (skip_of p a)).
    { intros a [k [K ->]] H. apply skip_value; auto. split; auto. apply Z.pow_lt_mono_r_iff with (a := 2); lia. }
    assert (Q : forall a, pow2 a -> 0 < a) by (intros a [k [K ->]]; apply pow2_pos; auto).
    assert (Z0 : forall a, pow2 a -> a <= BS c -> skip_of p a = 0).
    { intros a Pa La. assert (a | p).
      { eapply Z.divide_trans; [|exact D]. destruct Pa as [k [K ->]]. destruct (bs_log c HC) as [j [J E]]. rewrite E in *.
        apply pow2_divide. split; auto. apply Z.pow_le_mono_r_iff with (a := 2); lia. }
      specialize (Q a Pa). assert (B := skip_bounds p a Q). assert (X := skip_least p a p Q (Z.le_refl p) H). lia. }
    rewrite (V align), (V align') by auto. destruct S as [<-|[S1 S2]].
    - exists (skip_of p align). split; auto. split; auto. apply skip_multiple; auto. apply (bs_pow2 _ HC).
    - rewrite !Z0 by auto. exists 0. split; auto. split; auto. apply Z.divide_0_r.
  Qed.

  Lemma class_act : forall size size' align align' p i, same_size (BS c) size size' ->
    pow2 align -> align < 2 ^ 64 -> pow2 align' -> align' < 2 ^ 64 -> same_alignment (BS c) align align' ->
    alloc_act c size align s p i = alloc_act c size' align' s p i.
  Proof using HC G.
    intros size size' align align' p i S A L A' L' SA. assert (PB := bs_pos c HC). unfold alloc_act.
    apply bind_same. intros n N. apply bind_same. intros bp B.
    assert (DN : (BS c | n)).
    { unfold block_size_in_bytes in N. inv_ok. subst. apply divides_wrap. apply Z.divide_factor_r. }
    assert (DB : 0 <= bp < 2 ^ 64 /\ (BS c | bp)).
    { unfold block_index_to_pointer in B. inv_ok. subst. split; [apply Z.mod_pos_bound; lia|]. apply divides_wrap.
      apply Z.divide_add_r; [apply (g_aligned _ _ G)|]. apply divides_wrap. apply Z.divide_factor_r. }
    destruct DB as [DB1 DB2]. destruct (class_skip bp align align') as [k [-> [-> DK]]]; auto. cbn [bind].
    rewrite (same_leb (BS c) n (wrap 64 (k + size)) (wrap 64 (k + size'))); auto.
    - destruct (wrap 64 (k + size') <=? n); auto. cbv zeta. f_equal. unfold allocate_blocks. apply bind_same. intros first _.
      rewrite (class_index (wrap 64 (wrap 64 (bp + k) + size)) (wrap 64 (wrap 64 (bp + k) + size'))); auto.
      apply same_wrap; auto; [apply divides_64|]. apply same_add; auto. apply divides_wrap. apply Z.divide_add_r; auto.
    - apply same_wrap; auto; [apply divides_64|]. apply same_add; auto.
  Qed.

  Lemma act_true : forall size align p i s' p', alloc_act c size align s p i = Ok (s', p', true) -> s' = s.
  Proof using. 
    intros size align p i s' p' H. unfold alloc_act in H. inv_ok. destruct (wrap 64 (x1 + size) <=? x); inv_ok; congruence.
  Qed.

  Lemma class_loop : forall size size' align align', same_size (BS c) size size' ->
    pow2 align -> align < 2 ^ 64 -> pow2 align' -> align' < 2 ^ 64 -> same_alignment (BS c) align align' ->
    forall fuel p i,
    apply_loop fuel c (alloc_pred c) (alloc_act c size align) s p i = apply_loop fuel c (alloc_pred c) (alloc_act c size' align') s p i.
  Proof using HC G.
    intros size size' align align' S A L A' L' SA. induction fuel as [|fuel IH]; intros p i; [reflexivity|]. cbn [apply_loop].
    apply bind_same. intros n _. apply bind_same. intros u _. destruct u.
    - rewrite (class_act size size' align align') by auto.
      destruct (alloc_act c size' align' s p i) as [[[s' p'] r]| | |] eqn:E; cbn [bind]; auto.
      destruct r; [|reflexivity]. apply act_true in E. subst s'. destruct (of_bool true =? 0); [reflexivity|apply IH].
    - destruct (next_index c s i) as [m| | |]; cbn [bind]; auto. destruct (m =? 0); [reflexivity|apply IH].
  Qed.

  Hypothesis O : ordinary_buffer (data s) (bc s * BS c).

  Lemma class_search : forall size size' align align' fuel, same_size (BS c) size size' ->
    pow2 align -> align < 2 ^ 64 -> pow2 align' -> align' < 2 ^ 64 -> same_alignment (BS c) align align' ->
    search_buffer c fuel s size align = search_buffer c fuel s size' align'.
  Proof using HC G O.
    intros size size' align align' fuel S A L A' L' SA. destruct SA as [<-|[S1 S2]].
    - destruct (gate_value c s HC G O) as [m [E _]]. rewrite !E. destruct (align <=? m); [|reflexivity].
      apply class_loop; auto. left; reflexivity.
    - rewrite !search_reached by (auto; apply reach_small; auto). apply class_loop; auto. right; auto.
  Qed.

  Lemma power_pow2 : forall a, pow2 a -> a < 2 ^ 64 -> is_power_of_2 a = true.
  Proof using. intros a [k [K ->]] H. apply is_power_of_2_pow. split; auto. apply Z.pow_lt_mono_r_iff with (a := 2); lia. Qed.

  Definition seen_step (r : res (state * event)) : res (state * event) := map_res (fun x => (fst x, seen (snd x))) r.

  Lemma class_step : forall fuel o o', sane_op o -> sane_op o' -> same_request (BS c) o o' ->
    seen_step (step c fuel s o) = seen_step (step c fuel s o').
  Proof using HC G O.
    intros fuel o o' S S' R. assert (PB := bs_pos c HC).
    destruct o as [size align ans|p|]; destruct o' as [size' align' ans'|p'|]; try destruct R; cbn [step]; try reflexivity.
    - destruct H0 as [R1 R2]. destruct S as [S1 [S2 S3]]. destruct S' as [S1' [S2' S3']].
      unfold allocate_impl. rewrite (same_zero (BS c) size size') by auto. destruct (size' =? 0); [reflexivity|].
      rewrite (power_pow2 align), (power_pow2 align') by auto. unfold cassert at 1 3.
      rewrite (class_search size size' align align') by auto.
      destruct (DBG c); destruct (search_buffer c fuel s size' align') as [[s1 p]| | |]; cbn [bind]; try reflexivity;
        rewrite R2; destruct ((p =? 0) && has_up s1); cbn [bind]; try reflexivity;
        match goal with |- context [is_aligned true ?q (BS c)] => destruct (is_aligned true q (BS c)) as [[]| | |] end; reflexivity.
  Qed.
End Classes.

Lemma class_run : forall c fuel ops ops' s, cfg_ok c -> geometry c s -> ordinary_buffer (data s) (bc s * BS c) ->
  Forall sane_op ops -> Forall sane_op ops' -> Forall2 (same_request (BS c)) ops ops' ->
  seen_of (run c fuel s ops) = seen_of (run c fuel s ops').
Proof.
  intros c fuel ops ops' s HC G O S S' F. revert s G O S S'. induction F as [|o o' ops ops' R F IH]; intros s G O S S'; [reflexivity|].
  inversion S as [|? ? S1 S2]; subst. inversion S' as [|? ? T1 T2]; subst. cbn [run].
  assert (E := class_step c HC s G O fuel o o' S1 T1 R).
  destruct (step c fuel s o) as [[s1 e]| | |] eqn:E1; destruct (step c fuel s o') as [[s2 e']| | |]; cbv beta iota delta [seen_step map_res bind fst snd] in E; try discriminate E; try reflexivity.
  assert (s2 = s1) by congruence. subst s2. assert (SE : seen e = seen e') by congruence. cbn [bind].
  destruct (step_any c fuel s o s1 e HC (g_aligned _ _ G) S1 E1) as [[[Q1 [Q2 Q3]] _] _].
  assert (G' : geometry c s1) by (destruct G as [G1 G2 G3 G4 G5]; constructor; rewrite ?Q1, ?Q2; auto).
  rewrite <- Q1, <- Q2 in O. specialize (IH s1 G' O S2 T2).
  destruct (run c fuel s1 ops) as [[s3 es]| | |]; destruct (run c fuel s1 ops') as [[s4 es']| | |]; cbn [seen_of bind] in *; try discriminate IH; try reflexivity.
  assert (s4 = s3) by congruence. subst s4. assert (map seen es = map seen es') by congruence. cbn [map]. congruence.
Qed.

Lemma same_blocks_alike : forall c b n up s fuel ops ops', made c b n up s -> Forall sane_op ops -> Forall sane_op ops' ->
  Forall2 (same_request (BS c)) ops ops' -> seen_of (run c fuel s ops) = seen_of (run c fuel s ops').
Proof.
  intros c b n up s fuel ops ops' M S S' F. destruct (made_wf _ _ _ _ _ M) as [HC [W _]].
  apply class_run; auto; [apply (wf_geom _ _ _ W)|apply (made_ordinary _ _ _ _ _ M)].
Qed.

(** * Full blocks *)
Lemma full_blocks : forall dbg,
  (exists s', run (conf 8 dbg) 9 (fresh 4096 8 false) [get 3; get 3] = Ok (s', [EAllocate 3 1 4096 []; EAllocate 3 1 4100 []])) /\
  (exists s', run (conf 8 dbg) 9 (fresh 4096 8 false) [get 4; get 4] = Ok (s', [EAllocate 4 1 4096 []; EAllocate 4 1 4104 []])).
Proof. intros dbg. split; eexists; destruct dbg; vm_compute; reflexivity. Qed.

(** * Exactly which sizes are served alike *)
Lemma first_given : forall c b n up s fuel x ans, made c b n up s -> (Z.to_nat (bc s) < fuel)%nat -> 0 < x < bc s * BS c ->
  exists s' rs, allocate_impl c fuel s x 1 ans = Ok (s', data s, []) /\ wf c s' rs /\ busy rs = [Reg 0 (x / BS c + 1) true].
Proof.
  intros c b n up s fuel x ans M F X. destruct (made_wf _ _ _ _ _ M) as (HC & W & _ & _ & O & D0 & PB & _ & _ & B1).
  assert (G := wf_geom _ _ _ W). assert (GE := g_end _ _ G). assert (P1 : pow2 1) by (exists 0; split; [lia|reflexivity]).
  assert (H : forall q, first_aligned (data s) (BS c) (Reg 0 (bc s) false) 1 q -> q = data s).
  { intros q (A & _ & L). unfold region_addr in *. cbn [rstart] in *. specialize (L (data s)).
    assert (q <= data s) by (apply L; [lia|apply Z.divide_1_l]). lia. }
  destruct (first_fit_served c s [Reg 0 (bc s) false] fuel x 1 ans [] (Reg 0 (bc s) false) [] HC W O F) as (s' & q & i & rs & E & FA & Q & W' & _ & B); auto; try lia.
  - apply (reach_small c s 1 HC G P1). lia.
  - split.
    + intros [|r l] f t E _ _; [injection E as <- <-; auto|]. destruct l; discriminate E.
    + intros l f t (E & _). destruct l as [|r l]; [injection E as <- <-|destruct l; discriminate E].
      exists (data s). unfold region_addr. cbn [rstart rlen]. split; [lia|]. split; [apply Z.divide_1_l|lia].
  - split; [reflexivity|]. split; [reflexivity|]. split; [|intros r []].
    exists (data s). unfold region_addr. cbn [rstart rlen]. split; [lia|]. split; [apply Z.divide_1_l|lia].
  - apply H in FA. rewrite FA in E, Q. exists s', rs. split; [exact E|]. split; [exact W'|]. rewrite B.
    assert (i = 0) by nia. subst i. reflexivity.
Qed.

Theorem round_exact : forall c b n up s x y k a, made c b n up s -> 0 <= k -> k + 1 < bc s ->
  k * BS c < x <= k * BS c + BS c -> k * BS c < y <= k * BS c + BS c -> x <> y ->
  ((forall fuel rest, Forall sane_op rest ->
      seen_of (run c fuel s (OAllocate x 1 (fun _ _ => a) :: rest)) = seen_of (run c fuel s (OAllocate y 1 (fun _ _ => a) :: rest))) <->
   x < k * BS c + BS c /\ y < k * BS c + BS c).
Proof.
  intros c b n up s x y k a M K KB X Y N. destruct (made_wf _ _ _ _ _ M) as (HC & W & _ & _ & O & D0 & PB & _ & _ & B1).
  assert (P1 : pow2 1) by (exists 0; split; [lia|reflexivity]).
  assert (0 <= k * BS c) by nia. assert (k * BS c + BS c < bc s * BS c) by nia. split.
  - intros F. specialize (F (S (Z.to_nat (bc s))) [] (Forall_nil _)). cbn [run step] in F.
    destruct (first_given c b n up s (S (Z.to_nat (bc s))) x (fun _ _ => a) M ltac:(lia) ltac:(lia)) as (sx & rx & EX & WX & BX).
    destruct (first_given c b n up s (S (Z.to_nat (bc s))) y (fun _ _ => a) M ltac:(lia) ltac:(lia)) as (sy & ry & EY & WY & BY).
    rewrite EX, EY in F. cbn [bind seen_of map] in F. injection F as F. subst sy.
    assert (E : rx = ry) by (apply (regions_unique _ _ _ _ _ _ _ _ _ (wf_tiles _ _ _ WX) (wf_tiles _ _ _ WY)); lia).
    subst ry. rewrite BX in BY. injection BY as BY.
    assert (DX := Z.div_mod x (BS c) ltac:(lia)). assert (DY := Z.div_mod y (BS c) ltac:(lia)).
    assert (MX := Z.mod_pos_bound x (BS c) PB). assert (MY := Z.mod_pos_bound y (BS c) PB).
    assert (E : x / BS c = y / BS c) by lia. rewrite E in *.
    assert (y / BS c < k + 1 \/ y / BS c = k + 1 \/ k + 2 <= y / BS c) as [L|[L|L]] by lia; nia.
  - intros [X1 Y1] fuel rest S. apply (same_blocks_alike c b n up); auto.
    + constructor; auto. cbn [sane_op]. split; [lia|]. split; [exact P1|lia].
    + constructor; auto. cbn [sane_op]. split; [lia|]. split; [exact P1|lia].
    + constructor.
      * cbn [same_request]. split; [right; exists k; lia|]. split; [left; reflexivity|reflexivity].
      * clear. induction rest as [|[size align ans|p|] rest IH]; constructor; auto; cbn [same_request]; auto. split; [left; reflexivity|]. split; [left; reflexivity|reflexivity].
Qed.
