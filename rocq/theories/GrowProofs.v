(** Lemmas about simple_resource: arrays that grow by moving to larger memory. *)

Require Import ZArith Lia List Bool Permutation.
Require Import Verif.Outcome Verif.Machine Verif.BitsModel Verif.BitsSpec Verif.BitsProofs.
Require Import Verif.SimpleModel Verif.SimpleSpec Verif.SimpleView Verif.SimpleProofs Verif.SimpleAllocProofs.
Require Import Verif.SimpleScanProofs Verif.SimpleOpProofs Verif.SimpleHistProofs
  Verif.SimpleMainProofs Verif.SimpleExactProofs Verif.SimpleAstrayProofs Verif.SimpleReleaseProofs.
Require Import Verif.GrowSpec.
Import ListNotations.
Open Scope Z_scope.
Open Scope res_scope.

Lemma split_before : forall (l : list region) f t l' f' t', l ++ f :: t = l' ++ f' :: t' ->
  (exists l2, l = l' ++ f' :: l2) \/ In f (l' ++ [f']).
Proof.
  induction l as [|x l IH]; intros f t l' f' t' E; destruct l' as [|y l']; cbn [app] in E; injection E as E1 E2; subst.
  - right. left. auto.
  - right. left. auto.
  - left. exists l. auto.
  - destruct (IH _ _ _ _ _ E2) as [[l2 ->]|I]; [left; exists l2; auto|right; right; auto].
Qed.

Lemma run_app : forall c fuel ops1 ops2 s, run c fuel s (ops1 ++ ops2) =
  bind (run c fuel s ops1) (fun r => let (s1, es1) := r in
    bind (run c fuel s1 ops2) (fun r2 => let (s2, es2) := r2 in Ok (s2, es1 ++ es2))).
Proof.
  intros c fuel. induction ops1 as [|o ops1 IH]; intros ops2 s; cbn [app run].
  - cbn [bind]. destruct (run c fuel s ops2) as [[s2 es2]| | |]; reflexivity.
  - destruct (step c fuel s o) as [[s1 e]| | |]; cbn [bind]; auto. rewrite IH.
    destruct (run c fuel s1 ops1) as [[s2 es1]| | |]; cbn [bind]; auto.
    destruct (run c fuel s2 ops2) as [[s3 es2]| | |]; cbn [bind]; reflexivity.
Qed.

Section Grow.
  Variables (c : cfg) (buffer size0 : Z) (up : bool) (s0 : state).
  Hypothesis M : made c buffer size0 up s0.
  Variable fuel : nat.
  Hypothesis F : (Z.to_nat (bc s0) < fuel)%nat.
  Variable align : Z.
  Hypothesis Pa : pow2 align.
  Hypothesis La : align <= BS c.
  Notation b := (BS c).
  Notation d := (data s0).

  Lemma HC : cfg_ok c.
  Proof. apply (made_cfg _ _ _ _ _ M). Qed.

  Lemma align_pos : 0 < align.
  Proof. destruct Pa as [j [J ->]]. apply Z.pow_pos_nonneg; lia. Qed.

  (** the first region with room comes after busy ones and perhaps one free first block *)
  Lemma serve : forall s l f t size ans, wf c s (l ++ f :: t) -> same_place s0 s ->
    (forall l1 x l2, l = l1 ++ x :: l2 -> rbusy x = false -> l1 = [] /\ rlen x = 1 /\ b < size) ->
    rbusy f = false -> 0 < size < rlen f * b ->
    exists s', step c fuel s (OAllocate size align ans) = Ok (s', EAllocate size align (region_addr d b f) []) /\
      wf c s' (l ++ carve f 0 (size / b + 1) ++ t) /\ same_place s0 s' /\
      (forall j, ~ In j (map rstart (carve f 0 (size / b + 1))) -> nxt s' j = nxt s j).
  Proof.
    intros s l f t size ans W SP A B S. assert (SP' := SP). destruct SP' as [D1 [D2 D3]].
    destruct (made_wf _ _ _ _ _ M) as [C [_ [_ [_ [O [D [P [PB [DV N]]]]]]]]].
    assert (GE := g_end _ _ (wf_geom _ _ _ W)). assert (GD := g_data _ _ (wf_geom _ _ _ W)).
    assert (If : In f (l ++ f :: t)) by (apply in_app_iff; right; left; auto).
    assert (T := wf_bounds _ _ _ f W If). rewrite D1, D2 in *.
    assert (AD : (align | region_addr d b f)).
    { eapply Z.divide_trans; [apply (pow2_le_divide _ _ Pa PB La)|]. unfold region_addr. apply Z.divide_add_r; auto. apply Z.divide_factor_r. }
    assert (CH : can_hold_spare d b f size align) by (exists (region_addr d b f); split; [lia|split; auto; lia]).
    assert (CH' : can_hold d b f size align) by (exists (region_addr d b f); split; [lia|split; auto; lia]).
    assert (NF : nothing_fits d b l size align).
    { intros x Ix Bx [q [Q1 [_ Q2]]]. destruct (in_split _ _ Ix) as [l1 [l2 El]]. destruct (A _ _ _ El Bx) as [_ [X1 X2]].
      rewrite X1 in Q2. lia. }
    assert (FF : first_fit d b (l ++ f :: t) size align l f t) by (repeat split; auto).
    assert (AP := align_pos). assert (DB : b <= d) by (apply Z.divide_pos_le; auto).
    assert (R : request size align) by (split; [lia|split; auto; nia]).
    destruct (allocate_serve c s (l ++ f :: t) fuel size align ans l f t) as [s' [q [E SV]]]; rewrite ?D1, ?D2; auto.
    - apply reach_divides; auto; [nia|]. eapply Z.divide_trans; [apply (pow2_le_divide _ _ Pa PB La)|auto].
    - split.
      + intros l' f' t' E' B' N'. destruct (split_before l f t l' f' t' E') as [[l2 El]|I'].
        * right. destruct (A _ _ _ El B') as [X1 [X2 _]]. auto.
        * exfalso. apply (N' f); auto.
      + intros l' f' t' FF'. destruct FF' as [E' [B' [C' N']]].
        destruct (split_unique_first l' f' t' l f t (fun x => rbusy x = false /\ can_hold d b x size align)) as [-> [-> ->]]; auto.
        * intros x Ix [X Y]. apply (N' x); auto.
        * intros x Ix [X Y]. apply (NF x); auto.
    - apply (region_count_fuel c s); auto. rewrite D2. exact F.
    - destruct SV as [[Q1 [Q2 Q3]] [_ [k [K0 [K1 [K2 [W' [E1 [E2 [E3 [_ E4]]]]]]]]]]]. rewrite D1 in *.
      assert (X := Q3 (region_addr d b f) ltac:(lia) AD). unfold region_addr in X, Q1.
      assert (k = 0) by nia. subst k. exists s'. split.
      + cbn [step]. rewrite E. cbn [bind]. unfold region_addr. rewrite K1, Z.add_0_r. reflexivity.
      + split; auto. split; [|auto]. unfold same_place. repeat split; congruence.
  Qed.

  (** a region is given back *)
  Lemma give : forall s l r t, wf c s (l ++ r :: t) -> same_place s0 s -> rbusy r = true ->
    exists s' a n l' t', step c fuel s (ODeallocate (region_addr d b r)) = Ok (s', EDeallocate (region_addr d b r) []) /\
      wf c s' (l' ++ Reg a n false :: t') /\ freed l r t a n l' t' /\ same_place s0 s' /\
      (forall j, j <> a -> nxt s' j = nxt s j).
  Proof.
    intros s l r t W SP B. destruct SP as [D1 [D2 D3]].
    destruct (deallocate_live c s l r t HC W B) as [s' [a [n [l' [t' [E1 [W' [FR [E2 [E3 [E4 [_ E5]]]]]]]]]]]].
    exists s', a, n, l', t'. unfold addr in E1. rewrite D1 in E1. split; [cbn [step]; rewrite E1; reflexivity|].
    split; auto. split; auto. split; auto. unfold same_place. repeat split; congruence.
  Qed.

  (** what is free behind block [a] *)
  Definition trail (a : Z) : list region := if a =? bc s0 then [] else [Reg a (bc s0 - a) false].

  Lemma carve_trail : forall a m, carve (Reg a (bc s0 - a) false) 0 m = Reg a m true :: trail (a + m).
  Proof.
    intros a m. unfold carve, trail. cbn [Z.eqb rstart rlen app]. rewrite !Z.add_0_r, Z.add_0_l.
    destruct (Z.eqb_spec m (bc s0 - a)), (Z.eqb_spec (a + m) (bc s0)); try lia; auto.
    do 3 f_equal. lia.
  Qed.

  Lemma b_pos : 0 < b.
  Proof. apply bs_pos, HC. Qed.

  Lemma fits_blocks : forall n k, 0 < n -> (n < k * b <-> blocks_for b n <= k).
  Proof.
    intros n k N. unfold blocks_for. assert (P := b_pos). split; intros H.
    - assert (n / b < k) by (apply Z.div_lt_upper_bound; lia). lia.
    - assert (X := Z.mul_succ_div_gt n b P). nia.
  Qed.

  Lemma blocks_pos : forall n, 0 < n -> 1 <= blocks_for b n.
  Proof. intros n N. unfold blocks_for. assert (0 <= n / b) by (apply Z.div_pos; [lia|apply b_pos]). lia. Qed.

  Lemma busy_only : forall (l : list region) n, (forall x, In x l -> rbusy x = true) ->
    forall l1 x l2, l = l1 ++ x :: l2 -> rbusy x = false -> l1 = [] /\ rlen x = 1 /\ b < n.
  Proof.
    intros l n A l1 x l2 E B. rewrite (A x) in B; [discriminate B|]. rewrite E. apply in_app_iff. right. left. auto.
  Qed.

  (** the first memory *)
  Lemma first_get : forall n ans, 0 < n < bc s0 * b ->
    exists s', step c fuel s0 (OAllocate n align ans) = Ok (s', EAllocate n align d []) /\
      wf c s' (Reg 0 (blocks_for b n) true :: trail (blocks_for b n)) /\ same_place s0 s' /\
      (forall j, j <> 0 -> j <> blocks_for b n -> nxt s' j = 0).
  Proof.
    intros n ans S. destruct (made_wf _ _ _ _ _ M) as [_ [W [_ [NX _]]]].
    destruct (serve s0 [] (Reg 0 (bc s0) false) [] n ans) as [s' [E [W' [SP X]]]]; auto.
    - unfold same_place. auto.
    - apply busy_only. intros x [].
    - exists s'. unfold region_addr in E. cbn [rstart] in E. rewrite Z.mul_0_l, Z.add_0_r in E. split; auto.
      fold (blocks_for b n) in W', X. cbn [app] in W'. rewrite app_nil_r in W'.
      assert (CT := carve_trail 0 (blocks_for b n)). rewrite Z.sub_0_r, Z.add_0_l in CT. rewrite CT in W', X.
      split; auto. split; auto. intros j J0 J1. rewrite X; [rewrite NX; reflexivity|].
      cbn [map rstart]. unfold trail. intros [Y|Y]; [lia|]. destruct (_ =? _); [destruct Y|destruct Y as [Y|[]]]. cbn [rstart] in Y. lia.
  Qed.

  (** memory behind it *)
  Lemma second_get : forall s k m ans, wf c s (Reg 0 k true :: trail k) -> same_place s0 s ->
    0 < m -> 0 < k -> k + blocks_for b m <= bc s0 ->
    exists s', step c fuel s (OAllocate m align ans) = Ok (s', EAllocate m align (d + k * b) []) /\
      wf c s' (Reg 0 k true :: Reg k (blocks_for b m) true :: trail (k + blocks_for b m)) /\ same_place s0 s' /\
      (forall j, j <> k -> j <> k + blocks_for b m -> nxt s' j = nxt s j).
  Proof.
    intros s k m ans W SP S K L. assert (B := blocks_pos m S).
    assert (TK : trail k = [Reg k (bc s0 - k) false]) by (unfold trail; destruct (Z.eqb_spec k (bc s0)); [lia|auto]).
    rewrite TK in W. destruct (serve s [Reg 0 k true] (Reg k (bc s0 - k) false) [] m ans) as [s' [E [W' [SP' X]]]]; auto.
    - apply busy_only. intros x [<-|[]]. reflexivity.
    - split; auto. apply fits_blocks; auto. cbn [rlen]. lia.
    - exists s'. split; [exact E|]. fold (blocks_for b m) in W', X. rewrite carve_trail in W', X. rewrite app_nil_r in W'.
      split; auto. split; auto. intros j J0 J1. apply X. cbn [map rstart]. unfold trail.
      intros [Y|Y]; [lia|]. destruct (_ =? _); [destruct Y|destruct Y as [Y|[]]]. cbn [rstart] in Y. lia.
  Qed.

  (** the first is given back *)
  Lemma first_give : forall s k km T, wf c s (Reg 0 k true :: Reg k km true :: T) -> same_place s0 s ->
    exists s', step c fuel s (ODeallocate d) = Ok (s', EDeallocate d []) /\
      wf c s' (Reg 0 k false :: Reg k km true :: T) /\ same_place s0 s' /\
      (forall j, j <> 0 -> nxt s' j = nxt s j).
  Proof.
    intros s k km T W SP. destruct (give s [] (Reg 0 k true) (Reg k km true :: T) W SP eq_refl) as [s' [a [n [l' [t' [E [W' [FR [SP' X]]]]]]]]].
    unfold region_addr in E. cbn [rstart] in E. rewrite Z.mul_0_l, Z.add_0_r in E.
    assert (Y : a = 0 /\ n = k /\ l' = [] /\ t' = Reg k km true :: T).
    { destruct FR as [[[-> [-> _]]|[x [Ex _]]] FR]; [|destruct l'; discriminate Ex]. cbn [rstart rlen] in FR.
      destruct FR as [[-> [Z1 _]]|[y [Ey [By _]]]]; [repeat split; lia|]. injection Ey as <- _. discriminate By. }
    destruct Y as [-> [-> [-> ->]]]. exists s'. auto.
  Qed.

  (** memory in its place *)
  Lemma place_get : forall s k km T n ans, wf c s (Reg 0 k false :: Reg k km true :: T) -> same_place s0 s ->
    0 < n < k * b ->
    exists s' mid, step c fuel s (OAllocate n align ans) = Ok (s', EAllocate n align d []) /\
      wf c s' (Reg 0 (blocks_for b n) true :: mid ++ Reg k km true :: T) /\ same_place s0 s' /\
      mid = (if blocks_for b n =? k then [] else [Reg (blocks_for b n) (k - blocks_for b n) false]) /\
      (forall j, j <> 0 -> j <> blocks_for b n -> nxt s' j = nxt s j).
  Proof.
    intros s k km T n ans W SP S.
    destruct (serve s [] (Reg 0 k false) (Reg k km true :: T) n ans W SP) as [s' [E [W' [SP' X]]]]; auto.
    - apply busy_only. intros x [].
    - unfold region_addr in E. cbn [rstart] in E. rewrite Z.mul_0_l, Z.add_0_r in E.
      exists s'. eexists. split; auto. split; [|split; [auto|split; [reflexivity|]]].
      2:{ intros j J0 J1. apply X. fold (blocks_for b n). unfold carve. cbn [Z.eqb rstart rlen app map]. rewrite !Z.add_0_l.
          intros [Y|Y]; [lia|]. destruct (_ =? _); [destruct Y|destruct Y as [Y|[]]]. cbn [rstart] in Y. lia. }
      fold (blocks_for b n) in W'. unfold carve in W'. cbn [Z.eqb rstart rlen app] in W'. rewrite !Z.add_0_l, Z.sub_0_r in W'. exact W'.
  Qed.

  (** and the other is given back *)
  Lemma second_give : forall s k km kn, kn <= k -> 0 < kn -> k + km <= bc s0 -> 0 < km ->
    wf c s (Reg 0 kn true :: (if kn =? k then [] else [Reg kn (k - kn) false]) ++ Reg k km true :: trail (k + km)) ->
    same_place s0 s ->
    exists s', step c fuel s (ODeallocate (d + k * b)) = Ok (s', EDeallocate (d + k * b) []) /\
      wf c s' (Reg 0 kn true :: trail kn) /\ same_place s0 s' /\ (forall j, j <> kn -> nxt s' j = nxt s j).
  Proof.
    intros s k km kn K1 K2 K3 K4 W SP. set (mid := if kn =? k then [] else _) in *.
    destruct (give s (Reg 0 kn true :: mid) (Reg k km true) (trail (k + km)) W SP eq_refl) as [s' [a [n [l' [t' [E [W' [FR [SP' X]]]]]]]]].
    exists s'. split; auto.
    assert (Y : a = kn /\ n = bc s0 - kn /\ l' = [Reg 0 kn true] /\ t' = []).
    { destruct FR as [F1 F2]. cbn [rstart rlen] in F1, F2.
      assert (A1 : a = kn /\ l' = [Reg 0 kn true]).
      { unfold mid in F1. destruct (Z.eqb_spec kn k) as [Ek|Ek].
        - destruct F1 as [[-> [-> _]]|[x [Ex [Bx _]]]]; [split; [lia|auto]|].
          destruct l' as [|y l']; [injection Ex as <-; discriminate Bx|]. destruct l'; discriminate Ex.
        - destruct F1 as [[-> [-> [Z1|[q [x [Z1 Bx]]]]]]|[x [Ex [Bx ->]]]]; [discriminate Z1| |].
          + exfalso. destruct q as [|y q]; [discriminate Z1|]. destruct q as [|z q].
            * injection Z1 as _ <-. discriminate Bx.
            * destruct q; discriminate Z1.
          + destruct l' as [|y l']; [discriminate Ex|]. destruct l' as [|z l']; [|destruct l'; discriminate Ex].
            injection Ex as <- <-. auto. }
      destruct A1 as [-> ->]. split; auto. unfold trail in F2. destruct (Z.eqb_spec (k + km) (bc s0)) as [Et|Et].
      - destruct F2 as [[-> [Z1 _]]|[y [Ey _]]]; [|discriminate Ey]. repeat split; auto. lia.
      - destruct F2 as [[-> [Z1 [Z2|[y [q [Z2 By]]]]]]|[y [Ey [By Z1]]]]; [discriminate Z2| |].
        + injection Z2 as <- _. discriminate By.
        + injection Ey as <- <-. cbn [rstart rlen] in Z1. repeat split; auto. lia. }
    destruct Y as [-> [-> [-> ->]]]. split; [|split; auto]. unfold trail. destruct (Z.eqb_spec kn (bc s0)); [lia|exact W'].
  Qed.

  Lemma moves_end : forall ans sizes s k, wf c s (Reg 0 k true :: trail k) -> same_place s0 s -> 0 < k ->
    fit b (bc s0) k sizes ->
    exists s', run c fuel s (moves b d align ans k sizes) = Ok (s', moved b d align k sizes) /\
      wf c s' (Reg 0 (held b k sizes) true :: trail (held b k sizes)) /\ same_place s0 s' /\ 0 < held b k sizes /\
      (2 <= k -> Forall (fun mn => b <= snd mn) sizes -> 2 <= held b k sizes /\ nxt s' 1 = nxt s 1).
  Proof.
    intros ans. induction sizes as [|[m n] sizes IH]; intros s k W SP K H; [exists s; cbn [held]; split; [reflexivity|auto 10]|].
    cbn [fit] in H. destruct H as [H1 [H2 [H3 H4]]].
    assert (Bm := blocks_pos m H1). assert (Bn := blocks_pos n (proj1 H3)).
    assert (Bk := proj1 (fits_blocks n k (proj1 H3)) (proj2 H3)).
    destruct (second_get s k m ans W SP H1 K H2) as [s1 [E1 [W1 [SP1 N1]]]].
    destruct (first_give s1 _ _ _ W1 SP1) as [s2 [E2 [W2 [SP2 N2]]]].
    destruct (place_get s2 _ _ _ n ans W2 SP2 H3) as [s3 [mid [E3 [W3 [SP3 [-> N3]]]]]].
    destruct (second_give s3 k (blocks_for b m) (blocks_for b n) Bk ltac:(lia) H2 ltac:(lia) W3 SP3) as [s4 [E4 [W4 [SP4 N4]]]].
    destruct (IH s4 _ W4 SP4 ltac:(lia) H4) as [s' [E5 [W5 [SP5 [P5 N5]]]]]. exists s'. split; [|split; [exact W5|split; [exact SP5|split; [exact P5|]]]].
    - cbn [moves moved run]. rewrite E1. cbn [bind]. rewrite E2. cbn [bind]. rewrite E3. cbn [bind]. rewrite E4. cbn [bind].
      rewrite E5. reflexivity.
    - intros K2 F2. inversion F2 as [|? ? F3 F4]; subst. cbn [snd] in F3.
      assert (B2 : 2 <= blocks_for b n).
      { unfold blocks_for. assert (1 <= n / b) by (apply Z.div_le_lower_bound; [apply b_pos|lia]). lia. }
      destruct (N5 B2 F4) as [L5 X5]. split; [exact L5|]. rewrite X5, N4, N3, N2, N1 by lia. reflexivity.
  Qed.

  Lemma container_right : forall ans n sizes, 0 < n < bc s0 * b -> fit b (bc s0) (blocks_for b n) sizes ->
    exists s', run c fuel s0 (OAllocate n align ans :: moves b d align ans (blocks_for b n) sizes) =
      Ok (s', EAllocate n align d [] :: moved b d align (blocks_for b n) sizes).
  Proof.
    intros ans n sizes S H. destruct (first_get n ans S) as [s1 [E1 [W1 [SP1 _]]]].
    assert (Bn := blocks_pos n (proj1 S)).
    destruct (moves_end ans sizes s1 _ W1 SP1 ltac:(lia) H) as [s' [E _]]. exists s'.
    cbn [run]. rewrite E1. cbn [bind]. rewrite E. reflexivity.
  Qed.

  Lemma place_short : forall s k km T n, wf c s (Reg 0 k false :: Reg k km true :: T) -> same_place s0 s -> k * b < n ->
    passes_first_free d b (Reg 0 k false :: Reg k km true :: T) n align.
  Proof.
    intros s k km T n W SP H. exists [], (Reg 0 k false), (Reg k km true :: T). split; auto.
    split; [intros x []|]. split; auto. split; [|discriminate].
    intros [q [Q1 [_ Q2]]]. unfold region_addr in Q1, Q2. cbn [rstart rlen] in *. lia.
  Qed.

  Lemma third_astray : forall ans x y n, b <= x -> 0 < y -> blocks_for b x + blocks_for b y <= bc s0 ->
    blocks_for b x * b < n -> b + n < bc s0 * b ->
    exists s', run c fuel s0 [OAllocate x align ans; OAllocate y align ans; ODeallocate d; OAllocate n align ans] =
      Ok (s', [EAllocate x align d []; EAllocate y align (d + blocks_for b x * b) []; EDeallocate d []; EAllocate n align (d + b) []]) /\
      share (d + b) n (d + blocks_for b x * b) y.
  Proof.
    intros ans x y n X Y XY N NB. assert (P := b_pos).
    assert (B2 : 2 <= blocks_for b x). { unfold blocks_for. assert (1 <= x / b) by (apply Z.div_le_lower_bound; lia). lia. }
    assert (By := blocks_pos y Y).
    destruct (first_get x ans) as [s1 [E1 [W1 [SP1 N1]]]]; [split; [lia|apply fits_blocks; lia]|].
    destruct (second_get s1 _ y ans W1 SP1 Y ltac:(lia) XY) as [s2 [E2 [W2 [SP2 N2]]]].
    destruct (first_give s2 _ _ _ W2 SP2) as [s3 [E3 [W3 [SP3 N3]]]].
    assert (NX : nxt s3 1 = 0) by (rewrite N3, N2, N1 by lia; reflexivity).
    assert (S3 := SP3). destruct S3 as [D1 [D2 D3]].
    destruct (made_wf _ _ _ _ _ M) as [C [_ [_ [_ [O [D [_ [PB [DV _]]]]]]]]].
    assert (GE := g_end _ _ (wf_geom _ _ _ W3)). rewrite D1, D2 in GE.
    assert (AP := align_pos). assert (DB : b <= d) by (apply Z.divide_pos_le; auto).
    destruct (astray_overlap c s3 _ _ fuel n align ans C W3) as [s4 [q [E4 [Q _]]]]; rewrite ?D1, ?D2; auto.
    - split; [lia|]. split; auto. nia.
    - apply (place_short s3 _ _ _ n W3 SP3 N).
    - exists (d + b). unfold from_block_1, region_addr. rewrite NX. cbn [Z.eqb rstart rlen]. split; [lia|]. split; [|lia].
      eapply Z.divide_trans; [apply (pow2_le_divide _ _ Pa PB La)|]. apply Z.divide_add_r; auto. apply Z.divide_refl.
    - exists s4. rewrite D1 in Q. subst q. split.
      + cbn [run]. rewrite E1. cbn [bind]. rewrite E2. cbn [bind]. rewrite E3. cbn [bind]. cbn [step]. rewrite E4. reflexivity.
      + exists (d + blocks_for b x * b). nia.
  Qed.

  (** at any time *)
  Lemma next_exact : forall ans x sizes y n, b <= x < bc s0 * b -> fit b (bc s0) (blocks_for b x) sizes ->
    Forall (fun mn => b <= snd mn) sizes ->
    let k := held b (blocks_for b x) sizes in
    0 < y -> k + blocks_for b y <= bc s0 -> 0 < n -> n <> k * b -> b + n < bc s0 * b ->
    exists s' q, run c fuel s0 (OAllocate x align ans :: moves b d align ans (blocks_for b x) sizes ++
          [OAllocate y align ans; ODeallocate d; OAllocate n align ans]) =
      Ok (s', EAllocate x align d [] :: moved b d align (blocks_for b x) sizes ++
          [EAllocate y align (d + k * b) []; EDeallocate d []; EAllocate n align q []]) /\
      (share q n (d + k * b) y <-> k * b < n).
  Proof.
    intros ans x sizes y n X FT FB k Y KY N NK NB. assert (P := b_pos).
    assert (B2 : 2 <= blocks_for b x). { unfold blocks_for. assert (1 <= x / b) by (apply Z.div_le_lower_bound; lia). lia. }
    assert (By := blocks_pos y Y).
    destruct (first_get x ans ltac:(lia)) as [s1 [E1 [W1 [SP1 N1]]]].
    destruct (moves_end ans sizes s1 _ W1 SP1 ltac:(lia) FT) as [s2 [E2 [W2 [SP2 [P2 N2]]]]].
    destruct (N2 B2 FB) as [L2 X2]. fold k in L2, W2, P2. clear N2.
    destruct (second_get s2 _ y ans W2 SP2 Y P2 KY) as [s3 [E3 [W3 [SP3 N3]]]].
    destruct (first_give s3 _ _ _ W3 SP3) as [s4 [E4 [W4 [SP4 N4]]]].
    assert (RUN : forall s5 q, step c fuel s4 (OAllocate n align ans) = Ok (s5, EAllocate n align q []) ->
      run c fuel s0 (OAllocate x align ans :: moves b d align ans (blocks_for b x) sizes ++
          [OAllocate y align ans; ODeallocate d; OAllocate n align ans]) =
      Ok (s5, EAllocate x align d [] :: moved b d align (blocks_for b x) sizes ++
          [EAllocate y align (d + k * b) []; EDeallocate d []; EAllocate n align q []])).
    { intros s5 q E5. cbn [run]. rewrite E1. cbn [bind]. rewrite run_app, E2. cbn [bind run]. rewrite E3. cbn [bind].
      rewrite E4. cbn [bind]. rewrite E5. reflexivity. }
    destruct (Z_lt_le_dec n (k * b)) as [C|C].
    - destruct (place_get s4 _ _ _ n ans W4 SP4 ltac:(lia)) as [s5 [mid [E5 _]]].
      exists s5, d. split; [apply RUN; exact E5|]. split; [|lia]. intros [w [Q1 Q2]]. lia.
    - assert (NX : nxt s4 1 = 0) by (rewrite N4, N3, X2, N1 by lia; reflexivity).
      assert (S4 := SP4). destruct S4 as [D1 [D2 D3]].
      destruct (made_wf _ _ _ _ _ M) as [C0 [_ [_ [_ [O [D [_ [PB [DV _]]]]]]]]].
      assert (GE := g_end _ _ (wf_geom _ _ _ W4)). rewrite D1, D2 in GE.
      assert (AP := align_pos). assert (DB : b <= d) by (apply Z.divide_pos_le; auto).
      destruct (astray_overlap c s4 _ _ fuel n align ans C0 W4) as [s5 [q [E5 [Q _]]]]; rewrite ?D1, ?D2; auto.
      + split; [lia|]. split; auto. nia.
      + apply (place_short s4 _ _ _ n W4 SP4). lia.
      + exists (d + b). unfold from_block_1, region_addr. rewrite NX. cbn [Z.eqb rstart rlen]. split; [lia|]. split; [|lia].
        eapply Z.divide_trans; [apply (pow2_le_divide _ _ Pa PB La)|]. apply Z.divide_add_r; auto. apply Z.divide_refl.
      + exists s5, (d + b). rewrite D1 in Q. subst q. split; [apply RUN; cbn [step]; rewrite E5; reflexivity|].
        split; [lia|]. intros _. exists (d + k * b). nia.
  Qed.

  Lemma fourth_hangs : forall ans x y z n, 0 < x < b -> 0 < y -> b < z ->
    1 + blocks_for b y + blocks_for b z <= bc s0 -> (1 + blocks_for b y) * b < n -> n < bc s0 * b ->
    exists s', run c fuel s0 [OAllocate x align ans; OAllocate y align ans; ODeallocate d; OAllocate z align ans; ODeallocate (d + b)] =
      Ok (s', [EAllocate x align d []; EAllocate y align (d + b) []; EDeallocate d [];
               EAllocate z align (d + (1 + blocks_for b y) * b) []; EDeallocate (d + b) []]) /\
      never_returns (fun fuel' => step c fuel' s' (OAllocate n align ans)).
  Proof.
    intros ans x y z n X Y Z YZ N NB. assert (P := b_pos).
    assert (B1 : blocks_for b x = 1) by (unfold blocks_for; rewrite Z.div_small; lia).
    assert (By := blocks_pos y Y). assert (Bz := blocks_pos z ltac:(lia)).
    destruct (first_get x ans) as [s1 [E1 [W1 [SP1 N1]]]]; [split; [lia|apply fits_blocks; lia]|]. rewrite B1 in *.
    destruct (second_get s1 1 y ans W1 SP1 Y ltac:(lia) ltac:(lia)) as [s2 [E2 [W2 [SP2 N2]]]].
    destruct (first_give s2 _ _ _ W2 SP2) as [s3 [E3 [W3 [SP3 N3]]]].
    assert (TK : trail (1 + blocks_for b y) = [Reg (1 + blocks_for b y) (bc s0 - (1 + blocks_for b y)) false]).
    { unfold trail. destruct (Z.eqb_spec (1 + blocks_for b y) (bc s0)); [lia|auto]. }
    rewrite TK in W3.
    destruct (serve s3 [Reg 0 1 false; Reg 1 (blocks_for b y) true] (Reg (1 + blocks_for b y) (bc s0 - (1 + blocks_for b y)) false) [] z ans W3 SP3)
      as [s4 [E4 [W4 [SP4 N4]]]]; auto.
    - intros l1 r l2 E B. destruct l1 as [|r1 l1]; [injection E as <- _; auto|]. destruct l1 as [|r2 l1].
      + injection E as _ <- _. discriminate B.
      + destruct l1; discriminate E.
    - split; [lia|]. apply fits_blocks; [lia|]. cbn [rlen]. lia.
    - fold (blocks_for b z) in W4, N4. rewrite carve_trail, app_nil_r in W4.
      destruct (wf_region c s4 [Reg 0 1 false] (Reg 1 (blocks_for b y) true) _ W4) as [_ [_ [_ [NX _]]]]. cbn [rstart rlen] in NX.
      assert (S4 := SP4). destruct S4 as [D41 [D42 _]].
      unfold link in NX. rewrite D42 in NX. destruct (Z.eqb_spec (1 + blocks_for b y) (bc s0)) as [|_]; [lia|].
      destruct (give s4 [Reg 0 1 false] (Reg 1 (blocks_for b y) true) _ W4 SP4 eq_refl) as [s5 [a [m [l' [t' [E5 [W5 [FR [SP5 N5]]]]]]]]].
      assert (A : a = 0 /\ m = 1 + blocks_for b y /\ l' = [] /\
                  t' = Reg (1 + blocks_for b y) (blocks_for b z) true :: trail (1 + blocks_for b y + blocks_for b z)).
      { destruct FR as [F1 F2]. cbn [rstart rlen] in F1, F2.
        assert (A1 : a = 0 /\ l' = []).
        { destruct F1 as [[_ [_ [Q|[q [r [Q Bq]]]]]]|[r [Er [_ ->]]]]; [discriminate Q| |].
          - exfalso. destruct q as [|w q]; [injection Q as <-; discriminate Bq|]. destruct q; discriminate Q.
          - destruct l' as [|w l']; [injection Er as <-; auto|destruct l'; discriminate Er]. }
        destruct A1 as [-> ->]. destruct F2 as [[-> [Q _]]|[w [Ew [Bw _]]]]; [repeat split; auto; lia|].
        injection Ew as <- _. discriminate Bw. }
      destruct A as [-> [-> [-> ->]]]. cbn [app] in W5.
      assert (NX5 : nxt s5 1 = 1 + blocks_for b y) by (rewrite N5 by lia; exact NX).
      assert (S5 := SP5). destruct S5 as [D51 [D52 _]].
      destruct (made_wf _ _ _ _ _ M) as [C [_ [_ [_ [O [D [_ [PB [DV _]]]]]]]]].
      assert (GE := g_end _ _ (wf_geom _ _ _ W5)). rewrite D51, D52 in GE.
      assert (AP := align_pos). assert (DB : b <= d) by (apply Z.divide_pos_le; auto).
      exists s5. split.
      + unfold region_addr in E5, E4. cbn [rstart] in E5, E4. rewrite Z.mul_1_l in *.
        cbn [run]. rewrite E1. cbn [bind]. rewrite E2. cbn [bind]. rewrite E3. cbn [bind]. rewrite E4. cbn [bind]. rewrite E5. reflexivity.
      + assert (R : request n align) by (split; [nia|split; auto; nia]).
        assert (NR : never_returns (fun fuel0 => allocate_impl c fuel0 s5 n align ans)).
        { apply (returns_exactly_long c s5 _ _ n align ans C W5); rewrite ?D51, ?D52; auto.
          - cbn [rlen]. lia.
          - rewrite NX5. lia.
          - apply reach_divides; auto; [nia|]. eapply Z.divide_trans; [apply (pow2_le_divide _ _ Pa PB La)|auto].
          - split; [apply (place_short s5 _ _ _ n W5 SP5 N)|]. rewrite NX5. split; [lia|].
            intros [q [Q1 [_ Q2]]]. unfold from_block_1, region_addr in Q1, Q2. rewrite NX5 in Q1, Q2. cbn [rstart rlen] in Q1, Q2.
            destruct (Z.eqb_spec (1 + blocks_for b y) 0); nia. }
        intros fuel0. cbn [step]. rewrite (NR fuel0). reflexivity.
  Qed.
End Grow.

(** an array that doubles *)
Lemma doubling_fails : forall c buffer size up s fuel align ans x, made c buffer size up s -> (Z.to_nat (bc s) < fuel)%nat ->
  pow2 align -> align <= BS c ->
  (BS c <= x -> BS c + 4 * x < bc s * BS c ->
    exists s' es p q, run c fuel s [OAllocate x align ans; OAllocate (2 * x) align ans; ODeallocate (data s); OAllocate (4 * x) align ans] =
      Ok (s', EAllocate x align (data s) [] :: EAllocate (2 * x) align p [] :: EDeallocate (data s) [] :: EAllocate (4 * x) align q [] :: es) /\
      share p (2 * x) q (4 * x)) /\
  (x < BS c <= 2 * x -> 3 * BS c + 4 * x < bc s * BS c -> 8 * x < bc s * BS c ->
    exists s' es, run c fuel s [OAllocate x align ans; OAllocate (2 * x) align ans; ODeallocate (data s); OAllocate (4 * x) align ans;
        ODeallocate (data s + BS c)] = Ok (s', es) /\
      never_returns (fun fuel' => step c fuel' s' (OAllocate (8 * x) align ans))).
Proof.
  intros c buffer size up s fuel align ans x M F Pa La.
  assert (P := bs_pos c (made_cfg _ _ _ _ _ M)). split.
  - intros X R.
    assert (B1 : blocks_for (BS c) x * BS c <= x + BS c) by (unfold blocks_for; assert (Y := Z.mul_div_le x (BS c) P); nia).
    assert (B2 : blocks_for (BS c) (2 * x) * BS c <= 2 * x + BS c) by (unfold blocks_for; assert (Y := Z.mul_div_le (2 * x) (BS c) P); nia).
    destruct (third_astray c buffer size up s M fuel F align Pa La ans x (2 * x) (4 * x)) as [s' [E S]]; try lia; [nia|].
    exists s', [], (data s + blocks_for (BS c) x * BS c), (data s + BS c). split; [exact E|].
    destruct S as [w [W1 W2]]. exists w. auto.
  - intros X R R2.
    assert (B2 : blocks_for (BS c) (2 * x) = 2).
    { unfold blocks_for. replace (2 * x / BS c) with 1; [lia|]. apply (Z.div_unique_pos _ _ _ (2 * x - BS c)); lia. }
    assert (B4 : blocks_for (BS c) (4 * x) * BS c <= 4 * x + BS c) by (unfold blocks_for; assert (Y := Z.mul_div_le (4 * x) (BS c) P); nia).
    destruct (fourth_hangs c buffer size up s M fuel F align Pa La ans x (2 * x) (4 * x) (8 * x)) as [s' [E S]]; rewrite ?B2; try lia; [nia|].
    exists s'. eexists. split; [exact E|exact S].
Qed.
