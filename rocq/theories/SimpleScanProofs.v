(** Lemmas about simple_resource: the search for a free region. *)

Require Import ZArith Lia List Bool Permutation.
Require Import Verif.Outcome Verif.Machine Verif.BitsModel Verif.BitsSpec Verif.BitsProofs.
Require Import Verif.ArithModel Verif.ArithProofs.
Require Import Verif.SimpleModel Verif.SimpleSpec Verif.SimpleProofs Verif.SimpleAllocProofs.
Import ListNotations.
Open Scope Z_scope.
Open Scope res_scope.

(** * Requests *)

Definition request (size align : Z) : Prop := 0 < size /\ pow2 align /\ size + align <= 2 ^ 64.

Lemma request_align : forall size align, request size align ->
  exists j, 0 <= j < 64 /\ align = 2 ^ j /\ 0 < align.
Proof.
  intros size align [H1 [[j [Hj ->]] H2]]. exists j.
  assert (2 ^ j < 2 ^ 64) by lia. assert (P := pow2_pos j Hj).
  split; [|split; auto]. split; auto. apply Z.pow_lt_mono_r_iff with (a := 2); lia.
Qed.

Definition skip_of (p align : Z) : Z := (- p) mod align.

Lemma pow2_compare : forall a b, pow2 a -> pow2 b -> (a | b) \/ (b | a).
Proof.
  intros a b [i [Hi ->]] [j [Hj ->]]. destruct (Z_le_gt_dec i j).
  - left. apply pow2_divide; lia.
  - right. apply pow2_divide; lia.
Qed.

Lemma skip_multiple : forall b p align, 0 < b -> 0 < align -> pow2 b -> pow2 align -> (b | p) ->
  (b | skip_of p align).
Proof.
  intros b p align Hb Ha Pb Pa D. unfold skip_of. destruct (pow2_compare b align Pb Pa) as [E|E].
  - rewrite Z.mod_eq by lia. apply Z.divide_sub_r; [apply Z.divide_opp_r; auto|].
    apply Z.divide_mul_l. auto.
  - replace ((- p) mod align) with 0; [apply Z.divide_0_r|].
    symmetry. apply Z.mod_divide; [lia|]. apply Z.divide_opp_r. eapply Z.divide_trans; eauto.
Qed.

Lemma skip_bounds : forall p align, 0 < align -> 0 <= skip_of p align < align.
Proof. intros. apply Z.mod_pos_bound. auto. Qed.

Lemma skip_aligned : forall p align, 0 < align -> (align | p + skip_of p align).
Proof.
  intros p align H. unfold skip_of. apply Z.mod_divide; [lia|].
  rewrite Zplus_mod_idemp_r, Z.add_opp_diag_r. apply Z.mod_0_l. lia.
Qed.

Lemma skip_least : forall p align q, 0 < align -> p <= q -> (align | q) -> p + skip_of p align <= q.
Proof.
  intros p align q H Hq D. destruct (skip_aligned p align H) as [x Hx]. destruct D as [y Hy].
  destruct (skip_bounds p align H). rewrite Hx, Hy in *. apply Z.mul_le_mono_nonneg_r; [lia|].
  destruct (Z_le_gt_dec x y); auto.
  assert (y * align <= (x - 1) * align) by (apply Z.mul_le_mono_nonneg_r; lia). lia.
Qed.

Lemma first_aligned_skip : forall d b r align, 0 < align ->
  first_aligned d b r align (region_addr d b r + skip_of (region_addr d b r) align).
Proof.
  intros d b r align H. destruct (skip_bounds (region_addr d b r) align H). split; [lia|].
  split; [apply skip_aligned; auto|]. intros. apply skip_least; auto.
Qed.
Lemma can_hold_skip : forall d b r size align, 0 < align ->
  can_hold d b r size align <-> skip_of (region_addr d b r) align + size <= rlen r * b.
Proof.
  intros d b r size align H. split.
  - intros [q [Q1 [Q2 Q3]]]. assert (K := skip_least _ _ _ H Q1 Q2). lia.
  - intros K. exists (region_addr d b r + skip_of (region_addr d b r) align).
    destruct (first_aligned_skip d b r align H) as [F1 [F2 _]]. repeat split; auto; lia.
Qed.
Lemma can_hold_spare_skip : forall d b r size align, 0 < align ->
  can_hold_spare d b r size align <-> skip_of (region_addr d b r) align + size < rlen r * b.
Proof.
  intros d b r size align H. split.
  - intros [q [Q1 [Q2 Q3]]]. assert (K := skip_least _ _ _ H Q1 Q2). lia.
  - intros K. exists (region_addr d b r + skip_of (region_addr d b r) align).
    destruct (first_aligned_skip d b r align H) as [F1 [F2 _]]. repeat split; auto; lia.
Qed.

(** * One region *)

Lemma wf_region : forall c s l r t, wf c s (l ++ r :: t) ->
  0 <= rstart r /\ 0 < rlen r /\ rstart r + rlen r <= bc s /\
  nxt s (rstart r) = link (bc s) (rstart r + rlen r) /\ inuse s (rstart r) = rbusy r /\
  (t = [] <-> rstart r + rlen r = bc s).
Proof.
  intros c s l r t W. assert (T := wf_tiles _ _ _ W). unfold regions_of in T.
  apply tiles_app in T. destruct T as [q [b [S T]]].
  destruct (seg_bounds _ _ _ _ _ _ _ _ _ S) as [S1 [S2 S3]]. cbn [tiles] in T.
  destruct T as [X1 [X2 [X3 [X4 [X5 [X6 T]]]]]]. subst b.
  repeat split; auto; try lia.
  - intros ->. exact T.
  - intros E. destruct t as [|y t]; auto. cbn [tiles] in T. lia.
Qed.

Lemma wf_next_region : forall c s l r y t, wf c s (l ++ r :: y :: t) ->
  nxt s (rstart r) = rstart y /\ rstart y = rstart r + rlen r.
Proof.
  intros c s l r y t W. assert (R := wf_region _ _ _ _ _ W).
  assert (T := wf_tiles _ _ _ W). unfold regions_of in T.
  apply tiles_app in T. destruct T as [q [b [S T]]]. cbn [tiles] in T.
  assert (E : rstart y = rstart r + rlen r) by lia. split; auto.
  destruct R as [_ [_ [R1 [R2 [_ R3]]]]]. rewrite R2. unfold link.
  destruct (Z.eqb_spec (rstart r + rlen r) (bc s)); [|auto].
  apply R3 in e. discriminate e.
Qed.

Lemma block_bytes : forall c s l r t, cfg_ok c -> wf c s (l ++ r :: t) ->
  block_size_in_bytes c s (rstart r) = Ok (rlen r * BS c).
Proof.
  intros c s l r t HC W. destruct (wf_region _ _ _ _ _ W) as [R1 [R2 [R3 [R4 [R5 R6]]]]].
  assert (G := wf_geom _ _ _ W). assert (B := g_bc _ _ G). assert (GE := g_end _ _ G). assert (GD := g_data _ _ G).
  assert (P := bs_pos c HC). assert (M := mb_range _ HC).
  unfold block_size_in_bytes, block_size. rewrite next_index_ok by lia. cbn [bind]. rewrite R4.
  unfold link. destruct (Z.eqb_spec (rstart r + rlen r) (bc s)) as [E|E].
  - cbn [Z.eqb]. rewrite (wrap_id 64 (bc s - rstart r)) by lia.
    replace (bc s - rstart r) with (rlen r) by lia. rewrite wrap_id by nia. reflexivity.
  - rewrite eqb_false by lia. replace (rstart r + rlen r - rstart r) with (rlen r) by lia.
    rewrite (wrap_id 64 (rlen r)) by lia. rewrite wrap_id by nia. reflexivity.
Qed.

Lemma index_pointer : forall c s i, cfg_ok c -> geometry c s -> 0 <= i < bc s ->
  block_index_to_pointer c s i = Ok (data s + i * BS c).
Proof.
  intros c s i HC G H. assert (B := g_bc _ _ G). assert (GE := g_end _ _ G). assert (GD := g_data _ _ G).
  assert (P := bs_pos c HC). unfold block_index_to_pointer.
  rewrite ltb_true by lia. rewrite cassert_true.
  rewrite (wrap_id 64 (i * BS c)) by nia. rewrite wrap_id by nia. reflexivity.
Qed.

Lemma region_addr_range : forall c s l r t, cfg_ok c -> wf c s (l ++ r :: t) ->
  0 < region_addr (data s) (BS c) r /\ region_addr (data s) (BS c) r + rlen r * BS c <= data s + bc s * BS c /\
  (BS c | region_addr (data s) (BS c) r).
Proof.
  intros c s l r t HC W. destruct (wf_region _ _ _ _ _ W) as [R1 [R2 [R3 _]]].
  assert (G := wf_geom _ _ _ W). assert (GD := g_data _ _ G). assert (P := bs_pos c HC).
  unfold region_addr. split; [nia|]. split; [nia|]. apply Z.divide_add_r; [apply (g_aligned _ _ G)|].
  apply Z.divide_factor_r.
Qed.

(** the part of the action before it decides *)
Lemma act_start : forall c s l r t size align p, cfg_ok c -> wf c s (l ++ r :: t) ->
  request size align ->
  let bp := region_addr (data s) (BS c) r in
  alloc_act c size align s p (rstart r) =
    if skip_of bp align + size <=? rlen r * BS c then
      s' <- allocate_blocks c s (rstart r) (wrap 64 (bp + skip_of bp align)) size;;
      Ok (s', wrap 64 (bp + skip_of bp align), false)
    else Ok (s, p, negb (nxt s (rstart r) =? 0)).
Proof.
  intros c s l r t size align p HC W R bp.
  destruct (request_align _ _ R) as [j [Hj [Ea Ha]]]. destruct R as [R0 [R1 R2]].
  destruct (wf_region _ _ _ _ _ W) as [Q1 [Q2 [Q3 _]]].
  assert (G := wf_geom _ _ _ W). assert (B := g_bc _ _ G). assert (GE := g_end _ _ G).
  destruct (region_addr_range _ _ _ _ _ HC W) as [A1 [A2 A3]]. fold bp in A1, A2, A3.
  assert (P := bs_pos c HC).
  unfold alloc_act. rewrite (block_bytes c s l r t) by auto. cbn [bind].
  rewrite index_pointer by (auto; lia). cbn [bind]. change (data s + rstart r * BS c) with bp.
  rewrite Ea. rewrite skip_value by nia. cbn [bind]. change ((- bp) mod 2 ^ j) with (skip_of bp (2 ^ j)).
  rewrite <- Ea. destruct (skip_bounds bp align Ha). rewrite (wrap_id 64 (skip_of bp align + size)) by lia.
  destruct (skip_of bp align + size <=? rlen r * BS c); [reflexivity|].
  rewrite next_index_ok by lia. reflexivity.
Qed.

Lemma act_pass : forall c s l r t size align p, cfg_ok c -> wf c s (l ++ r :: t) ->
  request size align -> ~ can_hold (data s) (BS c) r size align ->
  alloc_act c size align s p (rstart r) = Ok (s, p, negb (nxt s (rstart r) =? 0)).
Proof.
  intros c s l r t size align p HC W R N. rewrite (act_start c s l r t) by auto. cbv zeta.
  destruct (request_align _ _ R) as [j [Hj [Ea Ha]]].
  rewrite can_hold_skip in N by auto. rewrite leb_false by lia. reflexivity.
Qed.

Definition served (c : cfg) (s : state) (l : list region) (r : region) (t : list region)
    (size align : Z) (s' : state) (q : Z) : Prop :=
  first_aligned (data s) (BS c) r align q /\ 0 < q /\
  exists k, 0 <= k /\ q = data s + (rstart r + k) * BS c /\
    k * BS c + size < rlen r * BS c /\
    wf c s' (l ++ carve r k (size / BS c + 1) ++ t) /\
    data s' = data s /\ bc s' = bc s /\ has_up s' = has_up s /\
    inuse s' = upd (inuse s) (rstart r + k) true /\
    (forall j, ~ In j (map rstart (carve r k (size / BS c + 1))) -> nxt s' j = nxt s j).

Lemma act_serve : forall c s l r t size align p, cfg_ok c -> wf c s (l ++ r :: t) ->
  rbusy r = false -> request size align -> can_hold_spare (data s) (BS c) r size align ->
  exists s' q, alloc_act c size align s p (rstart r) = Ok (s', q, false) /\
    served c s l r t size align s' q.
Proof.
  intros c s l r t size align p HC W Br R N. rewrite (act_start c s l r t) by auto. cbv zeta.
  destruct (request_align _ _ R) as [j [Hj [Ea Ha]]]. destruct R as [R0 [R1 R2]].
  rewrite can_hold_spare_skip in N by auto. rewrite leb_true by lia.
  destruct (region_addr_range _ _ _ _ _ HC W) as [A1 [A2 A3]].
  assert (GE := g_end _ _ (wf_geom _ _ _ W)). assert (P := bs_pos c HC).
  assert (F := first_aligned_skip (data s) (BS c) r align Ha).
  set (bp := region_addr (data s) (BS c) r) in *.
  destruct (skip_bounds bp align Ha). rewrite wrap_id by lia.
  destruct (skip_multiple (BS c) bp align P Ha (bs_pow2 _ HC) R1 A3) as [k Ek].
  destruct (allocate_blocks_ok c s l r t k size) as [s' [E1 E2]]; auto; [nia|lia|].
  assert (Eq : bp + skip_of bp align = data s + (rstart r + k) * BS c).
  { rewrite Ek. unfold bp, region_addr. lia. }
  exists s', (bp + skip_of bp align). rewrite Eq, E1. cbn [bind]. split; auto.
  rewrite <- Eq. split; auto. split; [lia|]. exists k. split; [nia|]. split; auto. split; [nia|]. exact E2.
Qed.

(** * The scan *)

Section Scan.
  Variables (c : cfg) (s : state) (size align : Z).
  Hypothesis HC : cfg_ok c.
  Notation loop fuel := (apply_loop fuel c (alloc_pred c) (alloc_act c size align)).

  Definition head_start (rs : list region) : Z := match rs with [] => 0 | r :: _ => rstart r end.

  Lemma loop_busy : forall l r t fuel p, wf c s (l ++ r :: t) -> rbusy r = true ->
    loop (S fuel) s p (rstart r) =
      if nxt s (rstart r) =? 0 then Ok (s, p) else loop fuel s p (nxt s (rstart r)).
  Proof.
    intros l r t fuel p W B. destruct (wf_region _ _ _ _ _ W) as [Q1 [Q2 [Q3 [Q4 [Q5 Q6]]]]].
    assert (BB := g_bc _ _ (wf_geom _ _ _ W)).
    cbn [apply_loop]. rewrite next_index_ok by lia. cbn [bind].
    unfold alloc_pred. rewrite in_use_ok by lia. cbn [bind]. rewrite Q5, B. cbn [negb].
    rewrite ?next_index_ok by lia. cbn [bind]. reflexivity.
  Qed.

  Lemma loop_free : forall l r t fuel p, wf c s (l ++ r :: t) -> rbusy r = false ->
    loop (S fuel) s p (rstart r) =
      ' (s', a', b) <- alloc_act c size align s p (rstart r);;
      (if b then loop fuel s' a' 1 else Ok (s', a')).
  Proof.
    intros l r t fuel p W B. destruct (wf_region _ _ _ _ _ W) as [Q1 [Q2 [Q3 [Q4 [Q5 Q6]]]]].
    assert (BB := g_bc _ _ (wf_geom _ _ _ W)).
    cbn [apply_loop]. rewrite next_index_ok by lia. cbn [bind].
    unfold alloc_pred. rewrite in_use_ok by lia. cbn [bind]. rewrite Q5, B. cbn [negb].
    destruct (alloc_act c size align s p (rstart r)) as [[[s' a'] b]| | |]; cbn [bind]; auto.
    destruct b; reflexivity.
  Qed.

  (** busy regions are walked over *)
  Lemma loop_skip_busy : forall l0 l f t fuel p, wf c s (l0 ++ l ++ f :: t) ->
    (forall r, In r l -> rbusy r = true) ->
    loop (length l + fuel)%nat s p (head_start (l ++ f :: t)) = loop fuel s p (rstart f).
  Proof.
    intros l0 l. revert l0. induction l as [|r l IH]; intros l0 f t fuel p W A; [reflexivity|].
    cbn [app head_start length Nat.add]. rewrite (loop_busy l0 r (l ++ f :: t)); auto; [|apply A; left; auto].
    assert (N : nxt s (rstart r) = head_start (l ++ f :: t) /\ head_start (l ++ f :: t) <> 0).
    { destruct (wf_region _ _ _ _ _ W) as [Q1 [Q2 _]].
      destruct l as [|y l]; cbn [app head_start] in *;
        destruct (wf_next_region _ _ _ _ _ _ W); split; auto; lia. }
    destruct N as [N1 N2]. rewrite N1, eqb_false by auto.
    apply (IH (l0 ++ [r])).
    - rewrite <- app_assoc. exact W.
    - intros x X. apply A. right. auto.
  Qed.

  (** only busy regions from here on *)
  Lemma loop_all_busy : forall l l0 fuel p, wf c s (l0 ++ l) -> l <> [] ->
    (forall r, In r l -> rbusy r = true) -> (length l <= fuel)%nat ->
    loop fuel s p (head_start l) = Ok (s, p).
  Proof.
    intros l l0 fuel p W N A H. destruct (exists_last N) as [k [f E]]. subst l.
    rewrite app_length in H. cbn [length] in H.
    replace fuel with (length k + S (fuel - length k - 1))%nat by lia.
    rewrite (loop_skip_busy l0 k f []); auto.
    - rewrite (loop_busy (l0 ++ k) f []).
      + assert (W' : wf c s ((l0 ++ k) ++ f :: [])) by (rewrite <- app_assoc; exact W).
        destruct (wf_region _ _ _ _ _ W') as [Q1 [Q2 [Q3 [Q4 [Q5 Q6]]]]].
        rewrite Q4, (proj1 Q6 eq_refl). unfold link. rewrite Z.eqb_refl. reflexivity.
      + rewrite <- app_assoc. exact W.
      + apply A. apply in_app_iff. right. left. auto.
    - intros r Hr. apply A. apply in_app_iff. auto.
  Qed.
End Scan.

(** * Fuel *)

Lemma apply_loop_fuel : forall A c pred act fuel k s (a : A) i,
  apply_loop fuel c pred act s a i <> Hang ->
  apply_loop (fuel + k) c pred act s a i = apply_loop fuel c pred act s a i.
Proof.
  intros A c pred act; induction fuel as [|fuel IH]; intros k s a i H; [exfalso; apply H; reflexivity|].
  cbn [apply_loop Nat.add] in *.
  destruct (next_index c s i); cbn [bind] in *; auto.
  destruct (pred s i) as [b| | |]; cbn [bind] in *; auto.
  destruct (if b then _ else _) as [[[s' a'] i']| | |]; cbn [bind] in *; auto.
  destruct (i' =? 0); auto.
Qed.

Lemma apply_loop_hang : forall A c pred act fuel k s (a : A) i,
  apply_loop (fuel + k) c pred act s a i = Hang -> apply_loop fuel c pred act s a i = Hang.
Proof.
  intros A c pred act fuel k s a i H.
  assert (K := apply_loop_fuel A c pred act fuel k s a i).
  destruct (apply_loop fuel c pred act s a i); auto;
    rewrite K in H; try discriminate; exact H.
Qed.

(** * Outcomes of the scan *)

Lemma first_free : forall rs,
  (forall r, In r rs -> rbusy r = true) \/
  exists l f t, rs = l ++ f :: t /\ (forall r, In r l -> rbusy r = true) /\ rbusy f = false.
Proof.
  induction rs as [|r rs IH]; [left; intros r []|]. destruct (rbusy r) eqn:B.
  - destruct IH as [A|[l [f [t [-> [A F]]]]]].
    + left. intros x [<-|I]; auto.
    + right. exists (r :: l), f, t. repeat split; auto. intros x [<-|I]; auto.
  - right. exists [], r, rs. split; [reflexivity|split; [intros x []|auto]].
Qed.

Lemma can_hold_dec : forall d b r size align, 0 < align ->
  can_hold d b r size align \/ ~ can_hold d b r size align.
Proof. intros. rewrite can_hold_skip by auto. lia. Qed.

Lemma split_unique_first : forall l f t l' f' t' (P : region -> Prop),
  l ++ f :: t = l' ++ f' :: t' -> P f -> P f' ->
  (forall r, In r l -> ~ P r) -> (forall r, In r l' -> ~ P r) -> l = l' /\ f = f' /\ t = t'.
Proof.
  induction l as [|x l IH]; intros f t l' f' t' P E Pf Pf' N N'; destruct l' as [|y l']; cbn in E.
  - injection E; auto.
  - injection E; intros; subst. exfalso. apply (N' y); [left|]; auto.
  - injection E; intros; subst. exfalso. apply (N f'); [left|]; auto.
  - injection E; intros E2 ->. destruct (IH f t l' f' t' P) as [-> [-> ->]]; auto.
    + intros r I. apply N. right. auto.
    + intros r I. apply N'. right. auto.
Qed.

Section Outcomes.
  Variables (c : cfg) (s : state) (size align : Z).
  Hypothesis HC : cfg_ok c.
  Hypothesis HR : request size align.
  Notation loop fuel := (apply_loop fuel c (alloc_pred c) (alloc_act c size align)).
  Notation d := (data s).
  Notation b := (BS c).

  Lemma loop_serve : forall l0 l f t fuel p, wf c s (l0 ++ l ++ f :: t) ->
    (forall r, In r l -> rbusy r = true) -> rbusy f = false -> can_hold_spare d b f size align ->
    (length l < fuel)%nat ->
    exists s' q, loop fuel s p (head_start (l ++ f :: t)) = Ok (s', q) /\
      served c s (l0 ++ l) f t size align s' q.
  Proof.
    intros l0 l f t fuel p W A F H L.
    replace fuel with (length l + S (fuel - length l - 1))%nat by lia.
    rewrite (loop_skip_busy c s size align l0 l f t); auto.
    assert (W' : wf c s ((l0 ++ l) ++ f :: t)) by (rewrite <- app_assoc; exact W).
    rewrite (loop_free c s size align (l0 ++ l) f t) by auto.
    destruct (act_serve c s (l0 ++ l) f t size align p) as [s' [q [E1 E2]]]; auto.
    rewrite E1. cbn [bind]. eauto.
  Qed.

  Lemma loop_pass : forall l0 l f t fuel p, wf c s (l0 ++ l ++ f :: t) ->
    (forall r, In r l -> rbusy r = true) -> rbusy f = false -> ~ can_hold d b f size align ->
    loop (length l + S fuel) s p (head_start (l ++ f :: t)) =
      match t with [] => Ok (s, p) | _ => loop fuel s p 1 end.
  Proof.
    intros l0 l f t fuel p W A F H.
    rewrite (loop_skip_busy c s size align l0 l f t); auto.
    assert (W' : wf c s ((l0 ++ l) ++ f :: t)) by (rewrite <- app_assoc; exact W).
    rewrite (loop_free c s size align (l0 ++ l) f t) by auto.
    rewrite (act_pass c s (l0 ++ l) f t) by auto. cbn [bind].
    destruct (wf_region _ _ _ _ _ W') as [Q1 [Q2 [Q3 [Q4 [Q5 Q6]]]]]. rewrite Q4.
    destruct t as [|y t].
    - rewrite (proj1 Q6 eq_refl). unfold link. rewrite Z.eqb_refl. reflexivity.
    - assert (N : rstart f + rlen f <> bc s) by (intros E; apply Q6 in E; discriminate E).
      unfold link. rewrite (eqb_false _ (bc s)) by exact N. rewrite eqb_false by lia. reflexivity.
  Qed.

  (** the search is right under [search_safe] *)
  Lemma loop_safe : forall rs fuel p, wf c s rs -> search_safe d b rs size align ->
    (length rs < fuel)%nat ->
    (nothing_fits d b rs size align -> loop fuel s p 0 = Ok (s, p)) /\
    (forall l f t, first_fit d b rs size align l f t ->
       exists s' q, loop fuel s p 0 = Ok (s', q) /\ served c s l f t size align s' q).
  Proof.
    intros rs fuel p W [S1 S2] L.
    destruct (request_align _ _ HR) as [j [Hj [Ea Ha]]].
    assert (H0 : head_start rs = 0 /\ rs <> []).
    { assert (T := wf_tiles _ _ _ W). assert (BB := g_bc _ _ (wf_geom _ _ _ W)). unfold regions_of in T.
      destruct rs as [|r rs]; cbn [tiles] in T; [lia|]. split; [apply T|discriminate]. }
    destruct H0 as [H0 Hne].
    assert (Z0 : loop fuel s p 0 = loop fuel s p (head_start rs)) by (rewrite H0; reflexivity).
    rewrite Z0. clear Z0.
    assert (FFu : forall l f t l' f' t', rs = l ++ f :: t -> rbusy f = false ->
      can_hold d b f size align -> nothing_fits d b l size align ->
      first_fit d b rs size align l' f' t' -> l = l' /\ f = f' /\ t = t').
    { intros l f t l' f' t' E1 E2 E3 E4 [F1 [F2 [F3 F4]]].
      apply split_unique_first with (fun r => rbusy r = false /\ can_hold d b r size align); auto.
      - congruence.
      - intros r I [X Y]. apply (E4 r); auto.
      - intros r I [X Y]. apply (F4 r); auto. }
    destruct (first_free rs) as [A|[l [f [t [E [A F]]]]]].
    - split.
      + intros _. apply loop_all_busy with []; auto. lia.
      + intros l f t [E [F _]]. exfalso. assert (rbusy f = true); [|congruence].
        apply A. rewrite E. apply in_app_iff. right. left. auto.
    - assert (NL : nothing_fits d b l size align).
      { intros r I B. assert (X := A r I). congruence. }
      destruct (can_hold_dec d b f size align Ha) as [Y|N].
      + split.
        * intros NF. exfalso. apply (NF f); auto. rewrite E. apply in_app_iff. right. left. auto.
        * intros l' f' t' FF. destruct (FFu l f t l' f' t' E F Y NL FF) as [-> [-> ->]].
          rewrite E. apply loop_serve with (l0 := []); auto.
          -- rewrite <- E. exact W.
          -- eapply S2; eauto.
          -- rewrite E, app_length in L. cbn in L. lia.
      + (* the first free region is too small *)
        assert (NLF : nothing_fits d b (l ++ [f]) size align).
        { intros r I B. apply in_app_iff in I. destruct I as [I|[<-|[]]]; auto. }
        destruct (S1 l f t E F NLF) as [Et|[El Ef]].
        * subst t. assert (NFr : nothing_fits d b rs size align) by (rewrite E; exact NLF).
          split.
          -- intros _. rewrite E, app_length in L. cbn in L.
             rewrite E. replace fuel with (length l + S (fuel - length l - 1))%nat by lia.
             rewrite (loop_pass [] l f []); auto. rewrite <- E. exact W.
          -- intros l' f' t' [E' [F' [C' _]]]. exfalso. apply (NFr f'); auto.
             rewrite E'. apply in_app_iff. right. left. auto.
        * subst l. cbn [app] in E. rewrite E in L. cbn [length] in L.
          destruct fuel as [|fuel]; [lia|].
          assert (LP := loop_pass [] [] f t fuel p). cbn [app length Nat.add] in LP.
          rewrite E in W |- *. rewrite LP by auto.
          destruct t as [|y t].
          { split; auto. intros l' f' t' [E' [F' [C' _]]]. exfalso. apply (NLF f'); auto.
            cbn [app]. rewrite E'. apply in_app_iff. right. left. auto. }
          assert (H1 : head_start (y :: t) = 1).
          { assert (N1 := wf_next_region c s [] f y t W). cbn [head_start].
            assert (HH : rstart f = 0) by (rewrite E in H0; exact H0). lia. }
          rewrite <- H1.
          destruct (first_free (y :: t)) as [A2|[l2 [f2 [t2 [E2 [A2 F2]]]]]].
          { split.
            - intros _. apply loop_all_busy with [f]; auto; [discriminate|lia].
            - intros l' f' t' [E' [F' [C' N']]]. exfalso.
              destruct l' as [|z l']; injection E'; intros E'' ->.
              + auto.
              + assert (rbusy f' = true); [|congruence]. apply A2. rewrite E''.
                apply in_app_iff. right. left. auto. }
          assert (NL2 : nothing_fits d b (f :: l2) size align).
          { intros r [<-|I] B; auto. assert (X := A2 r I). congruence. }
          assert (E2' : rs = (f :: l2) ++ f2 :: t2) by (rewrite E, E2; reflexivity).
          destruct (can_hold_dec d b f2 size align Ha) as [Y2|N2].
          -- split.
             ++ intros NF. exfalso. apply (NF f2); auto. rewrite <- E, E2'. apply in_app_iff. right. left. auto.
             ++ intros l' f' t' FF. rewrite <- E in FF.
                destruct (FFu (f :: l2) f2 t2 l' f' t' E2' F2 Y2 NL2 FF) as [<- [<- <-]].
                rewrite E2. change (f :: l2) with ([f] ++ l2).
                apply loop_serve; auto.
                ** cbn [app]. rewrite <- E2. exact W.
                ** eapply S2; eauto.
                ** rewrite E2, app_length in L. cbn in L. lia.
          -- assert (NLF2 : nothing_fits d b ((f :: l2) ++ [f2]) size align).
             { intros r I B. apply in_app_iff in I. destruct I as [I|[<-|[]]]; auto. }
             destruct (S1 (f :: l2) f2 t2 E2' F2 NLF2) as [Et|[El _]]; [|discriminate El]. subst t2.
             split.
             ++ intros _. rewrite E2, app_length in L. cbn in L.
                rewrite E2. replace fuel with (length l2 + S (fuel - length l2 - 1))%nat by lia.
                rewrite (loop_pass [f] l2 f2 []); auto. cbn [app]. rewrite <- E2. exact W.
             ++ intros l' f' t' [E' [F' [C' _]]]. exfalso. apply (NLF2 f'); auto.
                rewrite <- E2', E, E'. apply in_app_iff. right. left. auto.
  Qed.

  (** the scan never ends when it meets, from block 1 on, a free region that is too
      small and not the last *)
  Lemma loop_hang : forall r0 l f t p, wf c s (r0 :: l ++ f :: t) -> rlen r0 = 1 ->
    (forall r, In r l -> rbusy r = true) -> rbusy f = false -> ~ can_hold d b f size align ->
    t <> [] -> forall fuel, loop fuel s p 1 = Hang.
  Proof.
    intros r0 l f t p W L0 A F H Ht fuel.
    assert (H1 : head_start (l ++ f :: t) = 1).
    { assert (T := wf_tiles _ _ _ W). unfold regions_of in T. cbn [tiles] in T.
      destruct l; cbn [app] in *; destruct (wf_next_region c s [] _ _ _ W); cbn [head_start]; lia. }
    assert (K : forall n, loop (n * (length l + 1))%nat s p 1 = Hang).
    { induction n as [|n IH]; [reflexivity|].
      replace (S n * (length l + 1))%nat with (length l + S (n * (length l + 1)))%nat by lia.
      rewrite <- H1. rewrite (loop_pass [r0] l f t); auto.
      destruct t; [congruence|]. exact IH. }
    specialize (K (fuel + 1)%nat).
    replace ((fuel + 1) * (length l + 1))%nat with (fuel + (length l + 1 + fuel * length l))%nat in K by lia.
    eapply apply_loop_hang. exact K.
  Qed.
End Outcomes.
