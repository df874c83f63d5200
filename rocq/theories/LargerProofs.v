(** Lemmas for C163. *)

Require Import ZArith Lia List Bool.
Require Import Verif.Outcome Verif.Machine Verif.BitsModel Verif.BitsSpec Verif.BitsProofs.
Require Import Verif.SimpleModel Verif.SimpleSpec Verif.SimpleView Verif.SimpleProofs Verif.SimpleScanProofs Verif.SimpleAllocProofs Verif.SimpleOpProofs
  Verif.SimpleAnyProofs Verif.SimpleHistProofs Verif.SimpleMainProofs Verif.SimpleRefuted.
Require Import Verif.MonoModel Verif.MonoSpec Verif.PastProofs Verif.LargerSpec.
Import ListNotations.
Open Scope Z_scope.
Open Scope res_scope.

(** * Regions of a smaller and of a larger buffer *)

Lemma no_busy : forall r rs, coalesced (r :: rs) -> rbusy r = false -> busy rs = [] -> rs = [].
Proof.
  intros r [|x rs] C F B; auto. destruct (coalesced_head _ _ _ C) as [X|X]; [congruence|].
  rewrite busy_cons_busy in B by auto. discriminate B.
Qed.

Lemma after_free : forall r rs x bs, coalesced (r :: rs) -> rbusy r = false -> busy rs = x :: bs -> exists t, rs = x :: t.
Proof.
  intros r [|y rs] x bs C F B; [discriminate B|]. destruct (coalesced_head _ _ _ C) as [X|X]; [congruence|].
  rewrite busy_cons_busy in B by auto. injection B as -> _. eauto.
Qed.

Lemma grown : forall n n' rs rs' z, n < n' -> z <= n -> contiguous n z rs -> contiguous n' z rs' -> coalesced rs -> coalesced rs' ->
  busy rs' = busy rs ->
  exists l a, a <= n /\ rs' = l ++ [Reg a (n' - a) false] /\ (rs = l /\ a = n \/ rs = l ++ [Reg a (n - a) false] /\ a < n).
Proof.
  intros n n'. induction rs as [|r rs IH]; intros rs' z N Z C C' K K' B.
  - cbn [contiguous] in C. subst z. destruct rs' as [|x rs']; cbn [contiguous] in C'; [lia|]. destruct C' as [C1 [C2 C3]].
    assert (FX : rbusy x = false).
    { destruct (rbusy x) eqn:X; auto. rewrite busy_cons_busy in B by auto. discriminate B. }
    rewrite busy_cons_free in B by auto. assert (E := no_busy _ _ K' FX B). subst rs'. cbn [contiguous] in C3.
    exists [], n. split; [lia|]. split; [|auto]. destruct x as [a k u]. cbn [rstart rlen rbusy] in *. subst. cbn [app]. f_equal. f_equal. lia.
  - destruct rs' as [|r' rs'].
    { cbn [contiguous] in C'. lia. }
    cbn [contiguous] in C, C'. destruct C as [C1 [C2 C3]]. destruct C' as [C1' [C2' C3']].
    destruct (contiguous_bounds _ _ _ C3) as [CB1 CB2]. destruct (contiguous_bounds _ _ _ C3') as [CB1' CB2'].
    assert (STEP : r' = r -> busy rs' = busy rs ->
      exists l a, a <= n /\ r' :: rs' = l ++ [Reg a (n' - a) false] /\ (r :: rs = l /\ a = n \/ r :: rs = l ++ [Reg a (n - a) false] /\ a < n)).
    { intros -> BB. destruct (IH rs' (z + rlen r) N ltac:(lia) C3 C3' (coalesced_tail _ _ K) (coalesced_tail _ _ K') BB)
        as [l [a [A1 [A2 A3]]]]. exists (r :: l), a. split; [exact A1|]. split; [rewrite A2; reflexivity|].
      destruct A3 as [[-> A3]|[-> A3]]; [left|right]; auto. }
    destruct (rbusy r) eqn:U, (rbusy r') eqn:U'.
    + rewrite !busy_cons_busy in B by auto. injection B as -> B. auto.
    + rewrite busy_cons_free, (busy_cons_busy r) in B by auto. destruct (after_free _ _ _ _ K' U' B) as [t ->].
      cbn [contiguous] in C3'. lia.
    + rewrite (busy_cons_free r), (busy_cons_busy r') in B by auto. destruct (after_free _ _ _ _ K U (eq_sym B)) as [t ->].
      cbn [contiguous] in C3. lia.
    + rewrite !busy_cons_free in B by auto. destruct (busy rs) as [|x bs] eqn:BS.
      * assert (E := no_busy _ _ K U BS). assert (E' := no_busy _ _ K' U' B). subst rs rs'. cbn [contiguous] in C3, C3'.
        exists [], z. split; [lia|]. destruct r as [a k u], r' as [a' k' u']. cbn [rstart rlen rbusy app] in *. subst.
        split; [f_equal; f_equal; lia|]. right. split; [f_equal; f_equal; lia|lia].
      * destruct (after_free _ _ _ _ K U BS) as [t E]. destruct (after_free _ _ _ _ K' U' B) as [t' E'].
        assert (L : r' = r).
        { rewrite E in C3. rewrite E' in C3'. cbn [contiguous] in C3, C3'. destruct r as [a k u], r' as [a' k' u'].
          cbn [rstart rlen rbusy] in *. subst. f_equal. lia. }
        apply STEP; auto.
Qed.

Lemma wider_holds : forall d b a k k' size align, 0 < b -> k <= k' ->
  can_hold d b (Reg a k false) size align -> can_hold d b (Reg a k' false) size align.
Proof.
  intros d b a k k' size align B K [q [Q1 [Q2 Q3]]]. exists q. unfold region_addr in *. cbn [rstart rlen] in *.
  split; auto. split; auto. nia.
Qed.
Lemma wider_spare : forall d b a k k' size align, 0 < b -> k <= k' ->
  can_hold_spare d b (Reg a k false) size align -> can_hold_spare d b (Reg a k' false) size align.
Proof.
  intros d b a k k' size align B K [q [Q1 [Q2 Q3]]]. exists q. unfold region_addr in *. cbn [rstart rlen] in *.
  split; auto. split; auto. nia.
Qed.

Lemma busy_same : forall n n' rs rs' l a, rs' = l ++ [Reg a (n' - a) false] ->
  (rs = l /\ a = n \/ rs = l ++ [Reg a (n - a) false] /\ a < n) -> busy rs = busy l /\ busy rs' = busy l.
Proof.
  intros n n' rs rs' l a -> [[-> _]|[-> _]]; rewrite ?busy_app; cbn [busy filter rbusy]; rewrite ?app_nil_r; auto.
Qed.

(** a request that fits in the smaller buffer *)
Lemma fit_grown : forall d b n n' rs rs' size align l f t, 0 < b -> n <= n' -> tiling n rs -> tiling n' rs' -> busy rs' = busy rs ->
  first_fit d b rs size align l f t ->
  exists f' t', first_fit d b rs' size align l f' t' /\ rstart f' = rstart f /\ busy t' = busy t /\
    (can_hold_spare d b f size align -> can_hold_spare d b f' size align) /\
    (search_safe d b rs size align -> search_safe d b rs' size align).
Proof.
  intros d b n n' rs rs' size align l f t Hb N T T' B FF.
  destruct (Z.eq_dec n n') as [<-|NE].
  { assert (rs' = rs) by (eapply tiling_unique; eauto). subst rs'. exists f, t. auto. }
  assert (N' : n < n') by lia. destruct (contiguous_bounds _ _ _ (proj1 T)) as [Z0 _].
  destruct (grown n n' rs rs' 0 N' Z0 (proj1 T) (proj1 T') (proj2 T) (proj2 T') B) as [m [a [A1 [A2 A3]]]].
  assert (FF0 := FF). destruct FF0 as [E [F [C NF]]].
  assert (M : exists f' t', first_fit d b rs' size align l f' t' /\ rstart f' = rstart f /\ busy t' = busy t /\
    (can_hold_spare d b f size align -> can_hold_spare d b f' size align)).
  { assert (IN : forall w, m = l ++ f :: w -> busy w = busy t ->
      exists f' t', first_fit d b rs' size align l f' t' /\ rstart f' = rstart f /\ busy t' = busy t /\
        (can_hold_spare d b f size align -> can_hold_spare d b f' size align)).
    { intros w -> BW. exists f, (w ++ [Reg a (n' - a) false]). split.
      - split; [rewrite A2, <- app_assoc; reflexivity|]. auto.
      - split; auto. split; [|auto]. rewrite busy_app. cbn [busy filter rbusy]. rewrite app_nil_r. exact BW. }
    destruct A3 as [[A3 A4]|[A3 A4]].
    - apply (IN t); [congruence|reflexivity].
    - destruct t as [|x t _] using rev_ind.
      + rewrite E in A3. apply app_inj_tail in A3. destruct A3 as [-> ->].
        exists (Reg a (n' - a) false), []. split; [split; [exact A2|split; [reflexivity|split; [|exact NF]]]|].
        * apply wider_holds with (n - a); auto. lia.
        * split; [reflexivity|]. split; [reflexivity|]. apply wider_spare; auto. lia.
      + rewrite E in A3. rewrite app_comm_cons, app_assoc in A3. apply app_inj_tail in A3. destruct A3 as [A3 ->].
        apply (IN t); [auto|]. rewrite busy_app. cbn [busy filter rbusy]. rewrite app_nil_r. reflexivity. }
  destruct M as [f' [t' [M1 [M2 [M3 M4]]]]]. exists f', t'. split; auto. split; auto. split; auto. split; auto.
  intros [S1 S2]. split.
  - intros l0 f0 t0 E0 F0 NF0. destruct t0 as [|x t0 _] using rev_ind; [auto|].
    assert (EM : m = l0 ++ f0 :: t0).
    { rewrite A2, app_comm_cons, app_assoc in E0. apply app_inj_tail in E0. destruct E0 as [-> _]. reflexivity. }
    destruct A3 as [[A3 A4]|[A3 A4]].
    + rewrite EM in A3. destruct (S1 l0 f0 t0 A3 F0 NF0) as [X|X]; [|auto]. subst t0. exfalso.
      rewrite EM, <- app_assoc in A2. cbn [app] in A2.
      destruct (proj2 T' _ _ _ _ A2) as [Y|Y]; [congruence|discriminate Y].
    + rewrite EM, <- app_assoc in A3. cbn [app] in A3. destruct (S1 l0 f0 _ A3 F0 NF0) as [X|X]; [|auto].
      destruct t0; discriminate X.
  - intros l0 f0 t0 FF0. destruct (first_fit_unique _ _ _ _ _ _ _ _ _ _ _ M1 FF0) as [_ [<- _]].
    apply M4. eapply S2. exact FF.
Qed.

Lemma wider_reach : forall d n n' align, n <= n' -> alignment_within_reach d n align -> alignment_within_reach d n' align.
Proof.
  intros d n n' align N [g [A G]]. exists g. split; auto. intros p P D E. destruct (G p P D ltac:(lia)) as [q [Q1 Q2]].
  exists q. split; auto. lia.
Qed.

(** * simple_resource: careful clients, both builds *)

Lemma first_aligned_start : forall d b f f' align q, rstart f' = rstart f -> first_aligned d b f align q -> first_aligned d b f' align q.
Proof. intros d b f f' align q E A. unfold first_aligned, region_addr in *. rewrite E. exact A. Qed.

Lemma first_aligned_unique : forall d b f align q q', first_aligned d b f align q -> first_aligned d b f align q' -> q = q'.
Proof.
  intros d b f align q q' [A1 [A2 A3]] [B1 [B2 B3]]. assert (q <= q') by auto. assert (q' <= q) by auto. lia.
Qed.

Lemma same_start : forall n rs z r x, contiguous n z rs -> In r rs -> In x rs -> rstart r = rstart x -> r = x.
Proof.
  intros n; induction rs as [|y rs IH]; intros z r x C I J E; [destruct I|]. cbn [contiguous] in C.
  destruct C as [C1 [C2 C3]]. destruct (contiguous_bounds _ _ _ C3) as [_ CB].
  destruct I as [->|I], J as [->|J]; [reflexivity| | |eapply IH; eauto].
  - specialize (CB x J). lia.
  - specialize (CB r I). lia.
Qed.

Lemma removed_same : forall (r : region) l t l2 t2, l ++ r :: t = l2 ++ r :: t2 -> ~ In r l -> ~ In r l2 -> l ++ t = l2 ++ t2.
Proof.
  intros r. induction l as [|x l IH]; intros t l2 t2 E A A2; destruct l2 as [|y l2]; cbn [app] in *; inversion E; subst; auto.
  - exfalso. apply A2. left. reflexivity.
  - exfalso. apply A. left. reflexivity.
  - f_equal. apply IH; auto; intros X; [apply A|apply A2]; right; exact X.
Qed.

Lemma not_before : forall n z l r t, contiguous n z (l ++ r :: t) -> ~ In r (busy l).
Proof.
  intros n z l r t C I. apply in_busy in I. destruct I as [I _]. assert (X := contiguous_nodup _ _ _ C). apply NoDup_map_inv in X.
  apply NoDup_remove_2 in X. apply X. apply in_app_iff. auto.
Qed.

(** one call *)
Lemma op_grown : forall d b n n' up rs rs' o rs1 e, 0 < b -> 0 < d -> n <= n' -> tiling n rs -> tiling n' rs' -> busy rs' = busy rs ->
  valid_op d b n up false (careful d b n) any_order rs o -> spec_step d b n up rs o rs1 e -> from_buffer e ->
  valid_op d b n' up false (careful d b n') any_order rs' o /\
  forall rs1' e', tiling n' rs1' -> spec_step d b n' up rs' o rs1' e' -> e' = e /\ busy rs1' = busy rs1.
Proof.
  intros d b n n' up rs rs' o rs1 e Hb Hd N T T' B V S FB.
  assert (CB := proj2 (contiguous_bounds _ _ _ (proj1 T))). assert (CB' := proj2 (contiguous_bounds _ _ _ (proj1 T'))).
  inversion S as [r0 al0 an0|r0 sz al ans l f t q i r1 Hs FF FA Q T1 B1|r0 sz al ans Hs NF U|r0 sz al ans Hs NF U|r0
    |r0 l r t r1 E R T1 B1|r0 p P1 P2 U|r0]; subst; cbn [from_buffer] in FB.
  - split; [left; reflexivity|]. intros rs1' e' _ S'. inversion S'; subst; try lia. auto.
  - cbn [valid_op] in V. destruct V as [V|[_ [PA [[C1 [C2 C3]] AN]]]]; [lia|].
    destruct (fit_grown d b n n' rs rs' sz al l f t Hb N T T' B FF) as [f' [t' [FF' [ST [BT [_ SS]]]]]].
    split.
    { right. split; auto. split; auto. split; [|exact AN]. split; auto. split; [|apply SS; exact C3]. left.
      destruct C2 as [C2|C2].
      - apply wider_reach with (n * b); [nia|exact C2].
      - exfalso. destruct FF as [-> [F [C _]]]. apply (C2 f); auto. apply in_app_iff. right. left. reflexivity. }
    assert (NN : ~ nothing_fits d b rs' sz al).
    { intros X. destruct FF' as [-> [F [C _]]]. apply (X f'); auto. apply in_app_iff. right. left. reflexivity. }
    intros rs1' e' T1' S'.
    inversion S' as [|y0 y1 y2 y3 l2 f2 t2 q2 i2 y4 Hs2 FF2 FA2 Q2 T2 B2|y0 y1 y2 y3 Y1 Y2|y0 y1 y2 y3 Y1 Y2| | | |]; subst; try lia; try contradiction.
    destruct (first_fit_unique _ _ _ _ _ _ _ _ _ _ _ FF' FF2) as [<- [<- <-]].
    assert (EQ := first_aligned_unique _ _ _ _ _ _ (first_aligned_start _ _ _ _ _ _ ST FA) FA2).
    assert (i2 = i) by nia. subst i2. split; [reflexivity|]. rewrite B2, B1, BT. reflexivity.
  - destruct FB as [_ [FB|FB]]; [lia|congruence].
  - destruct FB as [FB _]. discriminate FB.
  - split; [left; reflexivity|]. intros rs1' e' _ S'.
    inversion S' as [| | | |y0 EY1 EY2 EY3|y0 l r t r1 E R T1 B1|y0 p P1 P2 U|]; subst; auto.
    + exfalso. assert (X := CB' r ltac:(apply in_app_iff; right; left; reflexivity)). unfold region_addr in *. nia.
    + lia.
  - assert (IB : In r (busy rs')).
    { rewrite B. apply in_busy. split; auto. apply in_app_iff. right. left. reflexivity. }
    apply in_busy in IB. destruct IB as [IB _].
    assert (RB := CB' r IB). split.
    { right. left. exists r. split; auto. split; auto. split; [exact I|reflexivity]. }
    intros rs1' e' T1' S'.
    inversion S' as [| | | |y0 EY1 EY2 EY3|y0 l2 r2 t2 y1 E2 R2 T2 B2|y0 p P1 P2 U|]; subst.
    + exfalso. unfold region_addr in *. nia.
    + split; [reflexivity|].
      assert (XR := CB' r2 ltac:(apply in_app_iff; right; left; reflexivity)).
      assert (ER : r2 = r).
      { apply (same_start _ _ _ _ _ (proj1 T')); auto; [apply in_app_iff; right; left; reflexivity|unfold region_addr in *; nia]. }
      subst r2. rewrite B2, B1. rewrite !busy_app, !busy_cons_busy in B by auto.
      apply (removed_same r); auto; [eapply not_before; exact (proj1 T')|eapply not_before; exact (proj1 T)].
    + exfalso. unfold region_addr in *. nia.
  - discriminate FB.
  - cbn [valid_op] in V. discriminate V.
Qed.

Lemma one_step : forall c fuel s rs o, cfg_ok c -> wf c s rs -> ordinary_buffer (data s) (bc s * BS c) -> (Z.to_nat (bc s) < fuel)%nat ->
  valid_op (data s) (BS c) (bc s) (has_up s) false (careful (data s) (BS c) (bc s)) any_order rs o ->
  exists s' rs' e, step c fuel s o = Ok (s', e) /\ wf c s' rs' /\ same_place s s' /\
    spec_step (data s) (BS c) (bc s) (has_up s) rs o rs' e.
Proof.
  intros c fuel s rs o HC W O F V.
  destruct (run_careful c fuel [o] s rs HC W O F) as [s' [rs' [es [R [W' [SP SR]]]]]]; [cbn [valid_client]; auto|].
  inversion SR as [|x1 x2 x3 e x5 x6 x7 S1 S2]; subst. inversion S2; subst.
  cbn [run] in R. apply bind_inv in R. destruct R as [[s1 e1] [R1 R2]]. cbn [bind] in R2. injection R2 as -> ->.
  exists s', rs', e. auto.
Qed.

Lemma run_grown : forall c c' fuel fuel', cfg_ok c -> cfg_ok c' -> BS c' = BS c ->
  forall ops s s' rs rs' s1 es, wf c s rs -> wf c' s' rs' -> ordinary_buffer (data s) (bc s * BS c) ->
  ordinary_buffer (data s') (bc s' * BS c') -> (Z.to_nat (bc s) < fuel)%nat -> (Z.to_nat (bc s') < fuel')%nat ->
  data s' = data s -> has_up s' = has_up s -> bc s <= bc s' -> busy rs' = busy rs ->
  valid_client (data s) (BS c) (bc s) (has_up s) false (careful (data s) (BS c) (bc s)) any_order rs ops ->
  run c fuel s ops = Ok (s1, es) -> Forall from_buffer es ->
  exists s1', run c' fuel' s' ops = Ok (s1', es).
Proof.
  intros c c' fuel fuel' HC HC' EB. induction ops as [|o ops IH]; intros s s' rs rs' s1 es W W' O O' F F' ED EU LB B V R FB.
  - cbn [run] in R. injection R as <- <-. exists s'. reflexivity.
  - cbn [run] in R. apply bind_inv in R. destruct R as [[s2 e] [R1 R]]. apply bind_inv in R. destruct R as [[s3 es2] [R2 R]].
    injection R as -> <-. inversion FB as [|x1 x2 FB1 FB2]; subst. cbn [valid_client] in V. destruct V as [V1 V2].
    destruct (one_step c fuel s rs o HC W O F V1) as [s4 [rs2 [e4 [S1 [W2 [SP S2]]]]]].
    rewrite R1 in S1. injection S1 as <- <-.
    assert (G := wf_geom _ _ _ W).
    destruct (op_grown (data s) (BS c) (bc s) (bc s') (has_up s) rs rs' o rs2 e (bs_pos c HC) (g_data _ _ G) LB
      (wf_tiling _ _ _ W) (wf_tiling _ _ _ W') B V1 S2 FB1) as [V' K].
    destruct (one_step c' fuel' s' rs' o HC' W' O' F') as [s4' [rs2' [e' [S1' [W2' [SP' S2']]]]]].
    { rewrite ED, EB, EU. exact V'. }
    destruct SP as [P1 [P2 P3]]. destruct SP' as [P1' [P2' P3']].
    assert (T' := wf_tiling _ _ _ W2'). rewrite P2' in T'. rewrite ED, EB, EU in S2'. destruct (K _ _ T' S2') as [-> BB].
    assert (VC := V2 _ _ S2).
    destruct (IH s2 s4' rs2 rs2' s1 es2) as [s1' R']; auto; try (rewrite ?P1, ?P2, ?P3, ?P1', ?P2', ?P3'; auto; fail).
    exists s1'. cbn [run]. rewrite S1'. cbn [bind]. rewrite R'. reflexivity.
Qed.

Lemma made_more : forall c c' buffer size size' up up' s s', made c buffer size up s -> made c' buffer size' up' s' ->
  BS c' = BS c -> MB c <= MB c' -> size <= size' -> data s' = data s /\ bc s <= bc s'.
Proof.
  intros c c' buffer size size' up up' s s' [HC [B1 [B2 B3]] HM HF HB HO] [HC' [B1' [B2' B3']] HM' HF' HB' HO'] EB LM LS.
  destruct (construct_value c buffer size up HC B1 B2 B3) as [s2 [E [_ [_ [_ [_ [_ [_ V]]]]]]]]. rewrite HF in E. injection E as <-.
  destruct (construct_value c' buffer size' up' HC' B1' B2' B3') as [s3 [E' [_ [_ [_ [_ [_ [_ V']]]]]]]]. rewrite HF' in E'. injection E' as <-.
  cbv zeta in V, V'. rewrite EB in V'. assert (P := bs_pos c HC).
  destruct ((buffer =? 0) || _) in V; [destruct V; congruence|].
  destruct ((buffer =? 0) || _) in V'; [destruct V'; congruence|].
  destruct V as [-> ->]. destruct V' as [-> ->]. split; [reflexivity|].
  assert ((size - skip_of buffer (BS c)) / BS c <= (size' - skip_of buffer (BS c)) / BS c) by (apply Z.div_le_mono; lia). lia.
Qed.

Lemma careful_larger : forall c c' buffer size size' up s s', made c buffer size up s -> made c' buffer size' up s' ->
  BS c' = BS c -> MB c <= MB c' -> size <= size' ->
  forall fuel fuel', (Z.to_nat (bc s) < fuel)%nat -> (Z.to_nat (bc s') < fuel')%nat ->
  forall ops s1 es, careful_client (data s) (BS c) (bc s) up ops -> run c fuel s ops = Ok (s1, es) -> Forall from_buffer es ->
  exists s1', run c' fuel' s' ops = Ok (s1', es).
Proof.
  intros c c' buffer size size' up s s' M M' EB LM LS fuel fuel' F F' ops s1 es V R FB.
  destruct (made_more _ _ _ _ _ _ _ _ _ M M' EB LM LS) as [ED LB].
  destruct (made_wf _ _ _ _ _ M) as [HC [W [U [_ [O _]]]]]. destruct (made_wf _ _ _ _ _ M') as [HC' [W' [U' [_ [O' _]]]]].
  unfold careful_client in V. rewrite <- U in V.
  eapply (run_grown c c' fuel fuel' HC HC' EB ops s s' _ _ s1 es W W'); auto. congruence.
Qed.

(** * A monotonic buffer, every history *)

Lemma mono_larger_run : forall dbg d n n' up ops x s es, 0 < d -> 0 <= n <= n' -> d + n' < 2 ^ 64 ->
  mono_run dbg (Mono d n up x) ops = Ok (s, es) -> Forall from_buffer es ->
  exists s', mono_run dbg (Mono d n' up x) ops = Ok (s', es) /\ mnext s' = mnext s.
Proof.
  intros dbg d n n' up. induction ops as [|o ops IH]; intros x s es D N E R FB.
  - cbn [mono_run] in *. injection R as <- <-. eexists. split; reflexivity.
  - cbn [mono_run] in R. apply bind_inv in R. destruct R as [[s2 e] [R1 R]]. apply bind_inv in R. destruct R as [[s3 es2] [R2 R]].
    injection R as -> <-. inversion FB as [|x1 x2 FB1 FB2]; subst.
    assert (ST : exists y, s2 = Mono d n up y /\ mono_step dbg (Mono d n' up x) o = Ok (Mono d n' up y, e)).
    { destruct o as [sz al ans|p|]; cbn [mono_step] in R1 |- *.
      - apply bind_inv in R1. destruct R1 as [[[s4 p] calls] [A A2]]. injection A2 as -> <-. cbn [from_buffer] in FB1.
        unfold mono_allocate in *. destruct (sz =? 0) eqn:Z0.
        { injection A as <- <- <-. exists x. split; reflexivity. }
        cbn [mdata msize mup mnext] in *. rewrite (proj2 (Z.eqb_neq d 0)) in * by lia.
        destruct (dbg && negb (is_power_of_2 al)) eqn:DP.
        { exfalso. destruct dbg, (is_power_of_2 al); cbn in DP, A; discriminate. }
        assert (CA : forall T (k : res T), cassert dbg (is_power_of_2 al) k = k).
        { intros T k. destruct dbg, (is_power_of_2 al); cbn in DP |- *; congruence. }
        rewrite CA in *. destruct (skip_to_align dbg x al) as [k| | |]; cbn [bind] in *; try discriminate A.
        cbv zeta in *. rewrite (wrap_id _ (d + n)) in A by lia. rewrite (wrap_id _ (d + n')) by lia.
        destruct (Z.leb_spec (wrap 64 (wrap 64 (x + k) + sz)) (d + n)) as [L|L]; cbn [bind mup] in A.
        + rewrite (proj2 (Z.leb_le (wrap 64 (wrap 64 (x + k) + sz)) (d + n'))) by lia. cbn [bind mup].
          destruct ((wrap 64 (x + k) =? 0) && up); injection A as <- <- <-; eexists; split; reflexivity.
        + exfalso. apply Z.eqb_neq in Z0. destruct up; cbn in A; injection A as <- <- <-; destruct FB1 as [F1 F2];
            [discriminate F1|destruct F2; congruence].
      - unfold mono_deallocate in *. injection R1 as <- <-. eexists. split; reflexivity.
      - injection R1 as <- <-. eexists. split; reflexivity. }
    destruct ST as [y [-> ST]]. destruct (IH y s es2 D N E R2 FB2) as [s' [R' NX]].
    exists s'. split; [|exact NX]. cbn [mono_run]. rewrite ST. cbn [bind]. rewrite R'. reflexivity.
Qed.

(** a null buffer serves nothing *)
Lemma mono_null_run : forall dbg up ops s es, mono_run dbg (Mono 0 0 up 0) ops = Ok (s, es) -> Forall from_buffer es ->
  forall t, exists t', mono_run dbg t ops = Ok (t', es).
Proof.
  intros dbg up. induction ops as [|o ops IH]; intros s es R FB t.
  - cbn [mono_run] in *. injection R as <- <-. eexists. reflexivity.
  - cbn [mono_run] in R. apply bind_inv in R. destruct R as [[s2 e] [R1 R]]. apply bind_inv in R. destruct R as [[s3 es2] [R2 R]].
    injection R as -> <-. inversion FB as [|x1 x2 FB1 FB2]; subst.
    assert (ST : s2 = Mono 0 0 up 0 /\ exists t2, mono_step dbg t o = Ok (t2, e)).
    { destruct o as [sz al ans|p|]; cbn [mono_step] in R1 |- *.
      - apply bind_inv in R1. destruct R1 as [[[s4 p] calls] [A A2]]. injection A2 as -> <-. cbn [from_buffer] in FB1.
        unfold mono_allocate in *. destruct (sz =? 0) eqn:Z0.
        { injection A as <- <- <-. split; [reflexivity|]. exists t. reflexivity. }
        exfalso. apply Z.eqb_neq in Z0. cbn [mdata] in A. change (0 =? 0) with true in A. cbv iota in A.
        destruct dbg, (is_power_of_2 al); cbn in A; try discriminate A; destruct up; cbn in A; injection A as <- <- <-;
          destruct FB1 as [F1 F2]; try discriminate F1; destruct F2; congruence.
      - unfold mono_deallocate in *. injection R1 as <- <-. split; [reflexivity|]. eexists. reflexivity.
      - injection R1 as <- <-. split; [reflexivity|]. eexists. reflexivity. }
    destruct ST as [-> [t2 ST]]. destruct (IH s es2 R2 FB2 t2) as [t' R'].
    exists t'. cbn [mono_run]. rewrite ST. cbn [bind]. rewrite R'. reflexivity.
Qed.

Lemma mono_larger : forall dbg buffer size size' up ops s es, mono_made buffer size -> mono_made buffer size' -> size <= size' ->
  mono_run dbg (mono_construct buffer size up) ops = Ok (s, es) -> Forall from_buffer es ->
  exists s', mono_run dbg (mono_construct buffer size' up) ops = Ok (s', es).
Proof.
  intros dbg buffer size size' up ops s es [B [N E]] [_ [N' E']] L R FB. unfold mono_construct in R at 1.
  destruct (Z.eqb_spec size 0) as [Z1|Z1].
  { assert (X : (if buffer =? 0 then 0 else size) = 0) by (destruct (buffer =? 0); auto). rewrite X in R.
    eapply mono_null_run; eauto. }
  destruct (Z.eqb_spec buffer 0) as [Z2|Z2].
  { subst buffer. eapply mono_null_run; eauto. }
  unfold mono_construct. rewrite (proj2 (Z.eqb_neq size' 0)) by lia. rewrite (proj2 (Z.eqb_neq buffer 0)) by lia.
  destruct (mono_larger_run dbg buffer size size' up ops buffer s es ltac:(lia) ltac:(lia) ltac:(lia) R FB) as [s' [R' _]].
  eauto.
Qed.

(** * Witness *)

Lemma made_n : forall m n dbg, 2 <= m < 100 -> 1 <= n <= m -> made (conf m dbg) 4096 (4 * n) false (fresh 4096 n false).
Proof.
  intros m n dbg HM HN. constructor.
  - apply conf_ok. lia.
  - unfold buffer_ok. lia.
  - intros _. cbn [MB BS conf]. lia.
  - unfold construct, origin_and_block_count. cbn [BS MB DBG conf].
    rewrite (proj2 (Z.eqb_neq (4 * n) 0)) by lia. change (4096 =? 0) with false. cbn [negb andb].
    replace (skip_to_align dbg 4096 4) with (Ok 0) by (destruct dbg; vm_compute; reflexivity). cbn [bind].
    rewrite (proj2 (Z.ltb_lt 0 (4 * n))) by lia. rewrite Z.sub_0_r. rewrite Z.mul_comm, Z.div_mul by lia. cbv zeta.
    rewrite (proj2 (Z.ltb_lt 0 n)) by lia. cbn [bind]. rewrite Z.min_l by lia. reflexivity.
  - cbn [bc fresh]. lia.
  - cbn [data bc fresh BS conf]. apply ordinary_small; lia.
Qed.

Definition twice : list op := [get 3; get 13; ODeallocate 4096; ODeallocate 4100; get 11; get 7; ODeallocate 4096; get 15; ODeallocate 4108].

Lemma larger_aborts : exists s1 s2 es, Forall from_buffer es /\
  run (conf 16 true) 60 (fresh 4096 5 false) (twice ++ [ODeallocate 4100]) = Ok (s1, es ++ [EDeallocate 4100 []]) /\
  run (conf 16 true) 60 (fresh 4096 9 false) twice = Ok (s2, es) /\
  run (conf 16 true) 60 (fresh 4096 9 false) (twice ++ [ODeallocate 4100]) = Abort.
Proof.
  eexists. eexists. exists [EAllocate 3 1 4096 []; EAllocate 13 1 4100 []; EDeallocate 4096 []; EDeallocate 4100 []; EAllocate 11 1 4096 [];
    EAllocate 7 1 4108 []; EDeallocate 4096 []; EAllocate 15 1 4100 []; EDeallocate 4108 []].
  split; [repeat (apply Forall_cons; [cbn [from_buffer]; first [reflexivity|split; [reflexivity|right; lia]]|]); apply Forall_nil|].
  split; [vm_compute; reflexivity|]. split; [vm_compute; reflexivity|]. vm_compute. reflexivity.
Qed.

(** In release builds: the smaller buffer is filled to the last byte, and lends out what lies behind it. *)
Lemma larger_refuses : exists s1 s2,
  run (conf 16 false) 60 (fresh 4096 3 false) [get 12; OAllocate 20 16 (fun _ _ => 0)] =
    Ok (s1, [EAllocate 12 1 4096 []; EAllocate 20 16 4112 []]) /\
  run (conf 16 false) 60 (fresh 4096 5 false) [get 12; OAllocate 20 16 (fun _ _ => 0)] =
    Ok (s2, [EAllocate 12 1 4096 []; EAllocate 20 16 0 []]).
Proof. do 2 eexists. split; vm_compute; reflexivity. Qed.
