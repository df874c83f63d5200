(** Lemmas about simple_resource: exactly what allocate does when the first region
    is a single block. *)

Require Import ZArith Lia List Bool Permutation.
Require Import Verif.Outcome Verif.Machine Verif.BitsModel Verif.BitsSpec Verif.BitsProofs.
Require Import Verif.ArithModel Verif.ArithProofs.
Require Import Verif.SimpleModel Verif.SimpleSpec Verif.SimpleView Verif.SimpleProofs Verif.SimpleAllocProofs.
Require Import Verif.SimpleScanProofs Verif.SimpleOpProofs Verif.SimpleHistProofs Verif.SimpleAnyProofs
  Verif.SimpleMainProofs.
Import ListNotations.
Open Scope Z_scope.
Open Scope res_scope.

(** * Nothing but the loop can hang *)

Lemma bind_hang : forall A B (m : res A) (k : A -> res B), m <> Hang -> (forall x, m = Ok x -> k x <> Hang) ->
  bind m k <> Hang.
Proof. intros A B [x| | |] k H K; cbn [bind]; auto; discriminate. Qed.
Lemma cassert_hang : forall A dbg b (k : res A), k <> Hang -> cassert dbg b k <> Hang.
Proof. intros A [|] [|] k H; cbn; auto; discriminate. Qed.
Lemma in_array_hang : forall A c i (k : res A), k <> Hang -> in_array c i k <> Hang.
Proof. intros A c i k H. unfold in_array. destruct (_ && _); auto; discriminate. Qed.
Lemma ok_hang : forall A (x : A), Ok x <> Hang.
Proof. discriminate. Qed.

Ltac calm :=
  repeat first
  [ apply ok_hang | assumption
  | apply bind_hang; [|intros ? _] | apply cassert_hang | apply in_array_hang
  | match goal with
    | |- (if ?b then _ else _) <> _ => destruct b
    | |- (let _ := _ in _) <> _ => cbv zeta
    end
  | discriminate ].

Lemma next_index_calm : forall c s i, next_index c s i <> Hang.
Proof. intros. unfold next_index, at_. calm. Qed.
Lemma set_in_use_calm : forall c s i, set_in_use c s i <> Hang.
Proof. intros. unfold set_in_use. calm. Qed.
Lemma set_prev_calm : forall c s i p, set_prev c s i p <> Hang.
Proof. intros. unfold set_prev, at_. calm. Qed.
Lemma set_next_calm : forall c s i p, set_next c s i p <> Hang.
Proof. intros. unfold set_next, at_. calm. Qed.
Lemma set_prev_next_calm : forall c s i p n, set_prev_next c s i p n <> Hang.
Proof. intros. unfold set_prev_next, at_. calm. Qed.
Lemma pointer_index_calm : forall c s p, pointer_to_block_index c s p <> Hang.
Proof. intros. unfold pointer_to_block_index. calm. Qed.
Lemma skip_calm : forall dbg p a, skip_to_align dbg p a <> Hang.
Proof. intros. unfold skip_to_align. calm. Qed.
Lemma aligned_calm : forall dbg p a, is_aligned dbg p a <> Hang.
Proof. intros. unfold is_aligned, skip_to_align. calm. Qed.

Ltac calm_more :=
  repeat first
  [ apply next_index_calm | apply set_in_use_calm | apply set_prev_calm | apply set_next_calm
  | apply set_prev_next_calm | apply pointer_index_calm | apply skip_calm | apply aligned_calm
  | apply ok_hang | assumption
  | apply bind_hang; [|intros ? _] | apply cassert_hang | apply in_array_hang
  | match goal with
    | |- (if ?b then _ else _) <> _ => destruct b
    | |- (let _ := _ in _) <> _ => cbv zeta
    end
  | discriminate ].

Lemma allocate_blocks_calm : forall c s r p size, allocate_blocks c s r p size <> Hang.
Proof.
  intros. unfold allocate_blocks, allocate_begin_matched, allocate_matched, allocate_not_matched, allocate_end_matched.
  calm_more.
Qed.
Lemma alloc_act_calm : forall c size align s p i, alloc_act c size align s p i <> Hang.
Proof.
  intros. unfold alloc_act, block_size_in_bytes, block_size, block_index_to_pointer.
  repeat first [apply allocate_blocks_calm | progress calm_more].
Qed.

Lemma allocate_hang : forall c fuel s size align ans,
  allocate_impl c fuel s size align ans = Hang -> search_buffer c fuel s size align = Hang.
Proof.
  intros c fuel s size align ans H. destruct (search_buffer c fuel s size align) as [[s' p]| | |] eqn:E; auto;
    exfalso; revert H; unfold allocate_impl; destruct (size =? 0); try discriminate;
    apply cassert_hang; rewrite E; cbn [bind]; try discriminate.
  destruct (if (p =? 0) && has_up s' then _ else _) as [p' calls]. calm_more.
Qed.

Lemma allocate_fuel : forall c fuel k s size align ans,
  allocate_impl c fuel s size align ans <> Hang ->
  allocate_impl c (fuel + k) s size align ans = allocate_impl c fuel s size align ans.
Proof.
  intros c fuel k s size align ans H. unfold allocate_impl in *. destruct (size =? 0); auto.
  destruct (DBG c && negb (is_power_of_2 align)) eqn:G.
  { apply andb_prop in G. destruct G as [G1 G2]. rewrite G1 in *. cbn [cassert].
    destruct (is_power_of_2 align); [discriminate|reflexivity]. }
  assert (X : forall A (m : res A), cassert (DBG c) (is_power_of_2 align) m = m).
  { intros A m. unfold cassert. destruct (DBG c); auto. destruct (is_power_of_2 align); auto. discriminate. }
  rewrite X in H |- *. rewrite X.
  assert (S : search_buffer c (fuel + k) s size align = search_buffer c fuel s size align); [|rewrite S; auto].
  unfold search_buffer in *. destruct (data s =? 0); auto.
  destruct (calc_ctz (DBG c) (data s)) as [z| | |]; cbn [bind] in *; auto.
  destruct (shl i32 1 z) as [a| | |]; cbn [bind] in *; auto.
  destruct (max_alignment_inside_block (DBG c) (conv u64 a) (wrap 64 (bc s * BS c))) as [m| | |]; cbn [bind] in *; auto.
  destruct (align <=? m); auto.
  apply apply_loop_fuel. intros E. rewrite E in H. cbn [bind] in H. auto.
Qed.

(** * The search when the first region is one block *)

Section One.
  Variables (c : cfg) (s : state) (size align : Z) (r0 : region) (rs : list region).
  Hypothesis HC : cfg_ok c.
  Hypothesis HR : request size align.
  Hypothesis W : wf c s (r0 :: rs).
  Hypothesis L0 : rlen r0 = 1.
  Notation loop fuel := (apply_loop fuel c (alloc_pred c) (alloc_act c size align)).
  Notation d := (data s).
  Notation b := (BS c).

  (** the condition under which the search ends: a free region that is too small
      and comes before the first fit is the first or the last region *)
  Definition clear_way : Prop := forall l f t, r0 :: rs = l ++ f :: t -> rbusy f = false ->
    nothing_fits d b (l ++ [f]) size align -> l = [] \/ t = [].

  Lemma start_0 : rstart r0 = 0.
  Proof. assert (T := wf_tiles _ _ _ W). unfold regions_of in T. cbn [tiles] in T. apply T. Qed.

  Lemma one_pass : rbusy r0 = false -> ~ can_hold d b r0 size align -> rs <> [] -> forall fuel p,
    loop (S fuel) s p 0 = loop fuel s p 1.
  Proof.
    intros F N Ne fuel p. assert (LP := loop_pass c s size align HC HR [] [] r0 rs fuel p).
    cbn [app length Nat.add head_start] in LP. rewrite start_0 in LP. rewrite LP by auto.
    destruct rs; [congruence|reflexivity].
  Qed.

  Lemma one_start : rs <> [] -> head_start rs = 1.
  Proof.
    intros Ne. assert (Z0 := start_0). assert (W' := W). revert Ne W'. generalize rs. intros [|y t] Ne W'; [congruence|].
    destruct (wf_next_region c s [] r0 y t W') as [_ E]. cbn [head_start]. rewrite E, Z0, L0. reflexivity.
  Qed.

  (** the search arrives at a free region when nothing before it fits *)
  Lemma one_arrives : forall l f t fuel p, clear_way -> r0 :: rs = l ++ f :: t ->
    rbusy f = false -> nothing_fits d b l size align ->
    loop (length l + fuel) s p 0 = loop fuel s p (rstart f).
  Proof.
    intros l f t fuel p CW E F N.
    destruct l as [|x l]; cbn [app] in E.
    { injection E as <- <-. rewrite start_0. reflexivity. }
    injection E as <- E.
    assert (A : forall x, In x l -> rbusy x = true).
    { intros x I. destruct (rbusy x) eqn:B; auto. exfalso. apply in_split in I. destruct I as [l1 [l2 ->]].
      destruct (CW (r0 :: l1) x (l2 ++ f :: t)) as [X|X]; auto.
      - rewrite E, <- app_assoc. reflexivity.
      - intros y I. apply N. cbn [app] in I |- *. destruct I as [I|I]; [left; auto|right].
        apply in_app_iff in I. apply in_app_iff. destruct I as [I|[<-|[]]]; [left; auto|right; left; auto].
      - discriminate X.
      - destruct l2; discriminate X. }
    destruct (rbusy r0) eqn:B0.
    - assert (K := loop_skip_busy c s size align [] (r0 :: l) f t fuel p). cbn [app head_start] in K.
      rewrite start_0 in K. apply K.
      + rewrite <- E. exact W.
      + intros x [<-|I]; auto.
    - cbn [length Nat.add]. assert (Ne : rs <> []) by (rewrite E; destruct l; discriminate).
      rewrite one_pass; auto; [|apply N; [left|]; auto].
      rewrite <- (one_start Ne). rewrite E.
      apply (loop_skip_busy c s size align [r0] l f t); auto. cbn [app]. rewrite <- E. exact W.
  Qed.

  Lemma one_fits : forall l f t fuel, clear_way -> first_fit d b (r0 :: rs) size align l f t ->
    (length (r0 :: rs) < fuel)%nat ->
    (can_hold_spare d b f size align ->
       exists s' q, loop fuel s 0 0 = Ok (s', q) /\ served c s l f t size align s' q) /\
    (~ can_hold_spare d b f size align -> DBG c = true -> loop fuel s 0 0 = Abort) /\
    loop fuel s 0 0 <> Hang.
  Proof.
    intros l f t fuel CW [E [F [CH N]]] L.
    assert (Lf : exists k, fuel = (length l + S k)%nat).
    { exists (fuel - length l - 1)%nat. rewrite E, app_length in L. cbn [length] in L. lia. }
    destruct Lf as [k ->]. rewrite (one_arrives l f t); auto.
    assert (W' := W). rewrite E in W'. rewrite (loop_free c s size align l f t) by auto.
    split; [|split].
    - intros CS. destruct (act_serve c s l f t size align 0) as [s' [q [X1 X2]]]; auto.
      rewrite X1. cbn [bind]. eauto.
    - intros CS DB. rewrite (act_start c s l f t) by auto. cbv zeta.
      destruct (request_align size align HR) as [j [Hj [Ej A0]]]. assert (P := bs_pos c HC).
      rewrite can_hold_skip in CH by auto. rewrite can_hold_spare_skip in CS by auto.
      set (bp := region_addr d b f) in *.
      assert (EX : exists m, 0 <= m /\ skip_of bp align = m * BS c).
      { destruct (region_addr_range c s l f t HC W') as [_ [_ D]]. destruct HR as [_ [Pa _]].
        destruct (skip_multiple (BS c) bp align P A0 (bs_pow2 _ HC) Pa D) as [m K].
        exists m. split; auto. assert (SB := skip_bounds bp align A0). nia. }
      destruct EX as [m [K0 K1]]. rewrite leb_true by auto.
      destruct (region_addr_range c s l f t HC W') as [D1 [D2 _]]. fold bp in D1, D2.
      assert (GE := g_end _ _ (wf_geom _ _ _ W)). assert (SB := skip_bounds bp align A0).
      destruct HR as [S0 _]. rewrite wrap_id by lia.
      replace (bp + skip_of bp align) with (data s + (rstart f + m) * BS c)
        by (rewrite K1; unfold bp, region_addr; lia).
      rewrite (exact_blocks c s l f t m size) by (auto; lia). reflexivity.
    - destruct (alloc_act c size align s 0 (rstart f)) as [[[s' a'] x]| | |] eqn:X; cbn [bind]; try discriminate.
      + destruct x; [|discriminate]. exfalso. revert X. rewrite (act_start c s l f t) by auto. cbv zeta.
        destruct (request_align size align HR) as [j [Hj [Ej A0]]].
        rewrite can_hold_skip in CH by auto. rewrite leb_true by auto.
        destruct (allocate_blocks c s (rstart f) _ size); cbn [bind]; discriminate.
      + exfalso. exact (alloc_act_calm _ _ _ _ _ _ X).
  Qed.

  Lemma clear_safe : clear_way -> nothing_fits d b (r0 :: rs) size align ->
    search_safe d b (r0 :: rs) size align.
  Proof.
    intros CW NF. split.
    - intros l f t E F N. destruct (CW l f t E F N) as [El|Et]; auto. subst l. right. split; auto.
      cbn [app] in E. injection E as <- _. exact L0.
    - intros l f t [E [F [CH _]]]. exfalso. apply (NF f); auto. rewrite E. apply in_app_iff. right. left. auto.
  Qed.

  Lemma one_nothing : forall fuel, clear_way -> nothing_fits d b (r0 :: rs) size align ->
    (length (r0 :: rs) < fuel)%nat -> loop fuel s 0 0 = Ok (s, 0).
  Proof.
    intros fuel CW NF L. apply (proj1 (loop_safe c s size align HC HR (r0 :: rs) fuel 0 W (clear_safe CW NF) L) NF).
  Qed.

  (** otherwise the search never ends *)
  Lemma one_hangs : forall l f t, r0 :: rs = l ++ f :: t -> rbusy f = false ->
    nothing_fits d b (l ++ [f]) size align -> l <> [] -> t <> [] -> forall fuel, loop fuel s 0 0 = Hang.
  Proof.
    intros l f t E F N Nl Nt fuel. destruct l as [|x l]; [congruence|]. cbn [app] in E. injection E as <- E.
    (* the first free region after the first one *)
    assert (FF : exists l1 f1 t1, rs = l1 ++ f1 :: t1 /\ (forall x, In x l1 -> rbusy x = true) /\
      rbusy f1 = false /\ ~ can_hold d b f1 size align /\ t1 <> []).
    { destruct (first_free (l ++ [f])) as [A|[l1 [f1 [t1 [E1 [A F1]]]]]].
      - exfalso. assert (rbusy f = true); [|congruence]. apply A. apply in_app_iff. right. left. auto.
      - exists l1, f1, (t1 ++ t). repeat split; auto.
        + rewrite E. change (f :: t) with ([f] ++ t). rewrite app_assoc, E1, <- app_assoc. reflexivity.
        + apply N; auto. cbn [app]. right. rewrite E1. apply in_app_iff. right. left. auto.
        + intros X. apply app_eq_nil in X. tauto. }
    destruct FF as [l1 [f1 [t1 [E1 [A [F1 [N1 Nt1]]]]]]].
    assert (W' := W). rewrite E1 in W'.
    assert (H1 : forall k, loop k s 0 1 = Hang).
    { apply (loop_hang c s size align HC HR r0 l1 f1 t1); auto. }
    destruct (rbusy r0) eqn:B0.
    - apply apply_loop_hang with (k := (length (r0 :: l1) + 1)%nat).
      replace (fuel + (length (r0 :: l1) + 1))%nat with (length (r0 :: l1) + S fuel)%nat by lia.
      assert (LP := loop_pass c s size align HC HR [] (r0 :: l1) f1 t1 fuel 0).
      cbn [app head_start] in LP. rewrite start_0 in LP. rewrite LP; auto.
      + destruct t1; [congruence|]. apply H1.
      + intros x [<-|I]; auto.
    - destruct fuel as [|fuel]; [reflexivity|]. rewrite one_pass; auto.
      + apply N; [left|]; auto.
      + rewrite E1. destruct l1; discriminate.
  Qed.

  Lemma clear_dec : clear_way \/
    exists l f t, r0 :: rs = l ++ f :: t /\ rbusy f = false /\ nothing_fits d b (l ++ [f]) size align /\
      l <> [] /\ t <> [].
  Proof.
    destruct (request_align size align HR) as [j [Hj [Ej A0]]].
    (* go through the list; [p] is what has been passed *)
    assert (G : forall t p, nothing_fits d b p size align ->
      (forall l f t', t = l ++ f :: t' -> rbusy f = false -> nothing_fits d b (p ++ l ++ [f]) size align ->
         p ++ l = [] \/ t' = []) \/
      exists l f t', t = l ++ f :: t' /\ rbusy f = false /\ nothing_fits d b (p ++ l ++ [f]) size align /\
        p ++ l <> [] /\ t' <> []).
    { induction t as [|x t IH]; intros p NP.
      - left. intros l f t' E. destruct l; discriminate E.
      - assert (NX : nothing_fits d b (p ++ [x]) size align \/ ~ nothing_fits d b (p ++ [x]) size align).
        { destruct (rbusy x) eqn:B.
          - left. intros y I. apply in_app_iff in I. destruct I as [I|[<-|[]]]; auto. congruence.
          - destruct (can_hold_dec d b x size align A0) as [Y|N].
            + right. intros K. apply (K x); auto. apply in_app_iff. right. left. auto.
            + left. intros y I. apply in_app_iff in I. destruct I as [I|[<-|[]]]; auto. }
        destruct NX as [NX|NX].
        + destruct (IH (p ++ [x]) NX) as [G|[l [f [t' [E [F [N [N1 N2]]]]]]]].
          * destruct (rbusy x) eqn:B; [|destruct p as [|y p]; [|destruct t as [|z t]]].
            -- left. intros l f t' E F N. destruct l as [|y l]; cbn [app] in E; injection E as <- E.
               ++ congruence.
               ++ destruct (G l f t' E F) as [K|K]; auto; [rewrite <- app_assoc; exact N|].
                  destruct p; discriminate K.
            -- left. intros l f t' E F N. destruct l as [|y l]; cbn [app] in E; injection E as <- E; auto.
               destruct (G l f t' E F) as [K|K]; auto; discriminate K.
            -- left. intros l f t' E F N. destruct l as [|z l]; cbn [app] in E; injection E as <- E; auto.
               destruct l; discriminate E.
            -- right. exists [], x, (z :: t). repeat split; auto; try discriminate.
          * right. exists (x :: l), f, t'. subst t. repeat split; auto.
            -- rewrite <- app_assoc in N. exact N.
            -- destruct p; discriminate.
        + left. intros l f t' E F N. exfalso. apply NX. intros y I. apply N.
          destruct l as [|z l]; cbn [app] in E; injection E as <- E; auto.
          apply in_app_iff in I. apply in_app_iff. destruct I as [I|[<-|[]]]; [left; auto|right; left; auto]. }
    destruct (G (r0 :: rs) [] ltac:(intros x [])) as [K|K]; [left; exact K|right; exact K].
  Qed.
End One.

(** * allocate *)

Lemma allocate_searches : forall c s size align ans fuel, cfg_ok c -> geometry c s -> request size align ->
  ordinary_buffer (data s) (bc s * BS c) -> alignment_within_reach (data s) (bc s * BS c) align ->
  (allocate_impl c fuel s size align ans = Hang <->
   apply_loop fuel c (alloc_pred c) (alloc_act c size align) s 0 0 = Hang) /\
  (apply_loop fuel c (alloc_pred c) (alloc_act c size align) s 0 0 = Abort ->
   allocate_impl c fuel s size align ans = Abort).
Proof.
  intros c s size align ans fuel HC G R O RE. assert (R0 := R). destruct R0 as [S0 [Pa _]].
  destruct (request_align size align R) as [j [Hj [Ej A0]]].
  assert (SR := search_reached c s fuel size align HC G O Pa RE).
  assert (I2 : is_power_of_2 align = true) by (rewrite Ej; apply is_power_of_2_pow; lia).
  rewrite <- SR. split; [split|].
  - apply allocate_hang.
  - intros E. unfold allocate_impl. rewrite eqb_false by lia. rewrite I2, cassert_true, E. reflexivity.
  - intros E. unfold allocate_impl. rewrite eqb_false by lia. rewrite I2, cassert_true, E. reflexivity.
Qed.

(** C52 *)
Lemma returns_exactly : forall c s r0 rs size align ans, cfg_ok c -> wf c s (r0 :: rs) -> rlen r0 = 1 ->
  request size align -> ordinary_buffer (data s) (bc s * BS c) ->
  alignment_within_reach (data s) (bc s * BS c) align ->
  (never_returns (fun fuel => allocate_impl c fuel s size align ans) <->
   exists l f t, r0 :: rs = l ++ f :: t /\ rbusy f = false /\
     nothing_fits (data s) (BS c) (l ++ [f]) size align /\ l <> [] /\ t <> []).
Proof.
  intros c s r0 rs size align ans HC W L0 R O RE.
  assert (AS := fun fuel => allocate_searches c s size align ans fuel HC (wf_geom _ _ _ W) R O RE).
  split.
  - intros NR. destruct (clear_dec c s size align r0 rs R) as [CW|X]; auto. exfalso.
    destruct (request_align size align R) as [j [Hj [Ej A0]]].
    set (fuel := S (length (r0 :: rs))). specialize (NR fuel). apply (proj1 (proj1 (AS fuel))) in NR.
    destruct (nothing_or_first (data s) (BS c) (r0 :: rs) size align A0) as [NF|[l [f [t FF]]]].
    + rewrite (one_nothing c s size align r0 rs) in NR by (auto; unfold fuel; lia). discriminate NR.
    + apply (proj2 (proj2 (one_fits c s size align r0 rs HC R W L0 l f t fuel CW FF ltac:(unfold fuel; lia)))). exact NR.
  - intros [l [f [t [E [F [N [Nl Nt]]]]]]] fuel. apply (proj2 (proj1 (AS fuel))).
    apply (one_hangs c s size align r0 rs HC R W L0 l f t); auto.
Qed.

(** C53, C54: what a debug build returns is what the ideal allocator returns *)
Lemma debug_conforms : forall c s r0 rs size align ans fuel s' p calls, cfg_ok c -> DBG c = true ->
  wf c s (r0 :: rs) -> rlen r0 = 1 -> request size align ->
  ordinary_buffer (data s) (bc s * BS c) -> alignment_within_reach (data s) (bc s * BS c) align ->
  allocate_impl c fuel s size align ans = Ok (s', p, calls) ->
  exists rs', wf c s' rs' /\ same_place s s' /\
    spec_step (data s) (BS c) (bc s) (has_up s) (r0 :: rs) (OAllocate size align ans) rs' (EAllocate size align p calls).
Proof.
  intros c s r0 rs size align ans fuel s' p calls HC DB W L0 R O RE H.
  assert (Hbig : allocate_impl c (fuel + S (length (r0 :: rs))) s size align ans = Ok (s', p, calls)).
  { rewrite allocate_fuel; auto. rewrite H. discriminate. }
  set (big := (fuel + S (length (r0 :: rs)))%nat) in *.
  assert (LB : (length (r0 :: rs) < big)%nat) by (unfold big; lia).
  destruct (allocate_searches c s size align ans big HC (wf_geom _ _ _ W) R O RE) as [AH AA].
  destruct (request_align size align R) as [j [Hj [Ej A0]]].
  destruct (clear_dec c s size align r0 rs R) as [CW|[l [f [t [E [F [N [Nl Nt]]]]]]]].
  - destruct (nothing_or_first (data s) (BS c) (r0 :: rs) size align A0) as [NF|[l [f [t FF]]]].
    + assert (X := one_nothing c s size align r0 rs HC R W L0 big CW NF LB).
      assert (Pa : pow2 align) by apply R.
      assert (SR := search_reached c s big size align HC (wf_geom _ _ _ W) O Pa RE).
      rewrite X in SR. revert Hbig. unfold allocate_impl. destruct R as [S0 _]. rewrite eqb_false by lia.
      assert (I2 : is_power_of_2 align = true) by (rewrite Ej; apply is_power_of_2_pow; lia).
      rewrite I2, cassert_true, SR. cbn [bind]. rewrite Z.eqb_refl. cbn [andb].
      destruct (has_up s) eqn:U; intros K; apply bind_inv in K; destruct K as [al [_ K]];
        apply cassert_inv in K; destruct K as [K _]; injection K as <- <- <-;
        exists (r0 :: rs); (split; [auto|]); (split; [repeat split|]).
      * apply spec_pass_on; auto.
      * apply spec_refuse; auto.
    + destruct (one_fits c s size align r0 rs HC R W L0 l f t big CW FF LB) as [F1 [F2 _]].
      assert (CS : can_hold_spare (data s) (BS c) f size align \/ ~ can_hold_spare (data s) (BS c) f size align).
      { rewrite can_hold_spare_skip by auto. lia. }
      destruct CS as [CS|CS].
      * destruct (F1 CS) as [s2 [q [X S]]].
        destruct (served_step c s (r0 :: rs) l f t size align s2 q ans HC W ltac:(apply R) FF S) as [rs' [W' [SP ST]]].
        assert (Pa : pow2 align) by apply R.
        assert (SR := search_reached c s big size align HC (wf_geom _ _ _ W) O Pa RE). rewrite X in SR.
        revert Hbig. unfold allocate_impl. destruct R as [S0 _]. rewrite eqb_false by lia.
        assert (I2 : is_power_of_2 align = true) by (rewrite Ej; apply is_power_of_2_pow; lia).
        rewrite I2, cassert_true, SR. cbn [bind]. destruct S as [_ [Q0 _]]. rewrite eqb_false by lia. cbn [andb].
        intros K; apply bind_inv in K; destruct K as [al [_ K]];
          apply cassert_inv in K; destruct K as [K _]. injection K as <- <- <-.
        exists rs'. auto.
      * rewrite (AA (F2 CS DB)) in Hbig. discriminate Hbig.
  - rewrite (proj2 AH) in Hbig; [discriminate Hbig|].
    apply (one_hangs c s size align r0 rs HC R W L0 l f t); auto.
Qed.

(** * Histories of a client that keeps block 0 *)

Definition pinned (rs : list region) : Prop := exists t, rs = Reg 0 1 true :: t.

Lemma pinned_head : forall n rs B, tiling n rs -> busy rs = Reg 0 1 true :: B -> pinned rs.
Proof.
  intros n rs B [C _] E. destruct rs as [|r rs]; [discriminate E|]. cbn [contiguous] in C.
  destruct C as [C1 [C2 C3]]. destruct (rbusy r) eqn:F.
  - rewrite busy_cons_busy in E by auto. injection E as -> _. exists rs. reflexivity.
  - exfalso. rewrite busy_cons_free in E by auto.
    assert (I : In (Reg 0 1 true) rs) by (apply in_busy; rewrite E; left; auto).
    destruct (contiguous_bounds _ _ _ C3) as [_ CB]. specialize (CB _ I). cbn [rstart] in CB. lia.
Qed.

Lemma pinned_step : forall d b n up rs o rs' e, pinned rs ->
  valid_op d b n up false (reachable_request d b n) keeps_first rs o ->
  (forall r, o = ODeallocate (region_addr d b r) -> In r rs -> rbusy r = true -> rstart r <> 0) ->
  spec_step d b n up rs o rs' e -> pinned rs'.
Proof.
  intros d b n up rs o rs' e [t0 ->] V K S.
  inversion S as [x1 x2 x3 X1 X2 X3|x1 size align ans l f t q i x2 Hs FF FA Q T1 E|x1 size align ans Hs NF U
    |x1 size align ans Hs NF U|x1|x1 l r t x2 E1 B T1 E|x1 p Hp Ho U|x1]; subst; try (exists t0; reflexivity).
  - destruct FF as [EF [F2 _]]. destruct l as [|x l]; cbn [app] in EF; injection EF as <- EF; [discriminate F2|].
    rewrite busy_cons_busy in E by reflexivity. eapply pinned_head; [exact T1|exact E].
  - destruct l as [|x l]; cbn [app] in E1; injection E1 as <- E1.
    + exfalso. apply (K (Reg 0 1 true)); auto. left. auto.
    + rewrite busy_cons_busy in E by reflexivity. eapply pinned_head; [exact T1|exact E].
  - discriminate V.
Qed.

Lemma step_pinned : forall c s rs fuel o s' e, cfg_ok c -> DBG c = true -> wf c s rs -> pinned rs ->
  ordinary_buffer (data s) (bc s * BS c) ->
  valid_op (data s) (BS c) (bc s) (has_up s) false (reachable_request (data s) (BS c) (bc s)) keeps_first rs o ->
  step c fuel s o = Ok (s', e) ->
  exists rs', wf c s' rs' /\ same_place s s' /\
    spec_step (data s) (BS c) (bc s) (has_up s) rs o rs' e /\ pinned rs'.
Proof.
  intros c s rs fuel o s' e HC DB W PN O V H.
  assert (KF : forall r, o = ODeallocate (region_addr (data s) (BS c) r) -> In r rs -> rbusy r = true -> rstart r <> 0).
  { intros r -> I B. cbn [valid_op] in V. assert (P := bs_pos c HC). assert (GD := g_data _ _ (wf_geom _ _ _ W)).
    assert (T := wf_tiling _ _ _ W). destruct T as [T _]. destruct (contiguous_bounds _ _ _ T) as [_ CB].
    assert (CR := CB r I).
    destruct V as [V|[[r' [I' [B' [M E]]]]|[_ [_ [_ V]]]]].
    - unfold region_addr in V. nia.
    - assert (ER : rstart r = rstart r') by (unfold region_addr in E; nia). rewrite ER. exact M.
    - exfalso. apply V. unfold region_addr. nia. }
  assert (PS := fun rs' e' => pinned_step (data s) (BS c) (bc s) (has_up s) rs o rs' e' PN V KF).
  destruct o as [size align ans|p|].
  - cbn [valid_op] in V. destruct V as [->|[V1 [V2 [[V3 V4] _]]]].
    + cbn [step] in H. rewrite allocate_zero in H. cbn [bind] in H. injection H as <- <-.
      exists rs. split; auto. split; [repeat split|]. split; [constructor|auto].
    + cbn [step] in H. apply bind_inv in H. destruct H as [[[s1 p] calls] [H1 H2]]. injection H2 as <- <-.
      destruct PN as [t0 ->].
      destruct (debug_conforms c s (Reg 0 1 true) t0 size align ans fuel s1 p calls) as [rs' [W' [SP ST]]]; auto.
      { split; auto. }
      exists rs'. split; auto. split; auto. split; auto. eapply PS. exact ST.
  - assert (V' : valid_op (data s) (BS c) (bc s) (has_up s) false (careful (data s) (BS c) (bc s)) any_order rs (ODeallocate p)).
    { cbn [valid_op] in *. destruct V as [V|[[r [I [B [M E]]]]|V]]; auto. right. left. exists r.
      split; auto. split; auto. split; [exact Coq.Init.Logic.I|exact E]. }
    destruct (step_careful c s rs (S (Z.to_nat (bc s))) (ODeallocate p) HC W O ltac:(lia) V')
      as [s2 [rs2 [e2 [E [W2 [SP ST]]]]]].
    cbn [step] in H, E. rewrite E in H. injection H as <- <-.
    exists rs2. split; auto. split; auto. split; auto. eapply PS. exact ST.
  - discriminate V.
Qed.

Lemma run_pinned : forall c fuel ops s rs s' es, cfg_ok c -> DBG c = true -> wf c s rs -> pinned rs ->
  ordinary_buffer (data s) (bc s * BS c) ->
  valid_client (data s) (BS c) (bc s) (has_up s) false (reachable_request (data s) (BS c) (bc s)) keeps_first rs ops ->
  run c fuel s ops = Ok (s', es) ->
  exists rs', wf c s' rs' /\ same_place s s' /\
    spec_run (data s) (BS c) (bc s) (has_up s) rs ops rs' es /\ pinned rs'.
Proof.
  intros c fuel; induction ops as [|o ops IH]; intros s rs s' es HC DB W PN O V H.
  - cbn [run] in H. injection H as <- <-. exists rs. split; auto. split; [repeat split|]. split; [constructor|auto].
  - cbn [valid_client] in V. destruct V as [V1 V2]. cbn [run] in H.
    apply bind_inv in H. destruct H as [[s1 e] [H1 H2]]. apply bind_inv in H2. destruct H2 as [[s2 es2] [H2 H3]].
    injection H3 as <- <-.
    destruct (step_pinned c s rs fuel o s1 e HC DB W PN O V1 H1) as [rs1 [W1 [[P1 [P2 P3]] [ST PN1]]]].
    specialize (V2 rs1 e ST).
    destruct (IH s1 rs1 s2 es2) as [rs2 [W2 [[Q1 [Q2 Q3]] [SR PN2]]]]; auto; try (rewrite ?P1, ?P2, ?P3; auto).
    exists rs2. split; auto. split; [repeat split; congruence|]. split; [|auto].
    econstructor; [exact ST|]. rewrite P1, P2, P3 in SR. exact SR.
Qed.

Lemma pinned_run : forall c buffer size up s fuel sz align ans ops s' es, made c buffer size up s ->
  DBG c = true -> 0 < sz < BS c -> pow2 align -> align <= BS c -> sz + align <= 2 ^ 64 ->
  pinned_client (data s) (BS c) (bc s) up ops ->
  run c fuel s (OAllocate sz align ans :: ops) = Ok (s', es) ->
  exists rs, wf c s' rs /\ pinned rs /\ same_place s s' /\
    spec_run (data s) (BS c) (bc s) up [Reg 0 (bc s) false] (OAllocate sz align ans :: ops) rs es /\
    tiling (bc s) rs /\ live_inv (data s) (BS c) rs (live es).
Proof.
  intros c buffer size up s fuel sz align ans ops s' es M DB Hs Pa Hal Hw PC H.
  destruct (made_wf _ _ _ _ _ M) as [HC [W [U [_ [O [D [B [PB [DV N]]]]]]]]].
  cbn [run] in H. apply bind_inv in H. destruct H as [[s1 e] [H1 H2]]. apply bind_inv in H2. destruct H2 as [[s2 es2] [H2 H3]].
  injection H3 as <- <-.
  assert (A0 : 0 < align) by (apply pow2_gt_0; auto).
  assert (DA : (align | BS c)) by (apply pow2_le_divide; auto; apply (bs_pow2 _ HC)).
  assert (CH : can_hold_spare (data s) (BS c) (Reg 0 (bc s) false) sz align).
  { exists (data s). unfold region_addr. cbn [rstart rlen]. split; [lia|]. split; [eapply Z.divide_trans; eauto|nia]. }
  assert (RE : alignment_within_reach (data s) (bc s * BS c) align).
  { apply reach_divides; auto; [nia|eapply Z.divide_trans; eauto]. }
  assert (SS : search_safe (data s) (BS c) [Reg 0 (bc s) false] sz align).
  { split.
    - intros l f t E _ _. destruct l as [|x l]; [injection E as _ <-; auto|]. destruct l; discriminate E.
    - intros l f t [E _]. destruct l as [|x l]; [injection E as <- _; auto|]. destruct l; discriminate E. }
  assert (FF : first_fit (data s) (BS c) [Reg 0 (bc s) false] sz align [] (Reg 0 (bc s) false) []).
  { split; auto. split; auto. split; [|intros x []]. destruct CH as [q [Q1 [Q2 Q3]]]. exists q. repeat split; auto. lia. }
  assert (R : request sz align) by (split; [lia|auto]).
  cbn [step] in H1. apply bind_inv in H1. destruct H1 as [[[s1' p] calls] [H1 H1']]. injection H1' as <- <-.
  assert (Hb : allocate_impl c (fuel + 2) s sz align ans = Ok (s1', p, calls)).
  { rewrite allocate_fuel; auto. rewrite H1. discriminate. }
  destruct (allocate_serve c s [Reg 0 (bc s) false] (fuel + 2)%nat sz align ans [] (Reg 0 (bc s) false) []) as [s3 [q [E S]]]; auto.
  { cbn [length]. lia. }
  rewrite Hb in E. injection E as <- <- ->.
  destruct (served_step c s _ [] (Reg 0 (bc s) false) [] sz align s1' p ans HC W ltac:(lia) FF S) as [rs1 [W1 [SP ST]]].
  assert (BR : busy rs1 = [Reg 0 1 true]).
  { inversion ST as [|x1 x2 x3 x4 l f t y i x5 Hs' FF' FA Q T1 EB|x1 x2 x3 x4 x5 NF x6| | | | |]; subst.
    - lia.
    - destruct FF' as [EF _]. destruct l as [|x l]; [injection EF as <- <-|destruct l; discriminate EF].
      rewrite EB. cbn [app busy filter]. 
      assert (I0 : i = 0).
      { destruct FA as [A1 [_ A3]]. specialize (A3 (data s)). unfold region_addr in *. cbn [rstart] in *.
        assert ((align | data s)) by (eapply Z.divide_trans; eauto).
        specialize (A3 ltac:(lia) H). nia. }
      rewrite I0, Z.div_small by lia. reflexivity.
    - exfalso. apply (NF (Reg 0 (bc s) false)); [left; auto|reflexivity|]. apply FF. }
  assert (T1 : tiling (bc s) rs1). { destruct SP as [_ [<- _]]. eapply wf_tiling. exact W1. }
  assert (V := PC rs1 T1 BR).
  destruct SP as [P1 [P2 P3]].
  destruct (run_pinned c fuel ops s1' rs1 s2 es2) as [rs [W2 [[Q1 [Q2 Q3]] [SR PN]]]]; auto.
  { eapply pinned_head; eauto. }
  { rewrite P1, P2. exact O. }
  { rewrite P1, P2, P3, U. exact V. }
  rewrite P1, P2, P3 in SR.
  assert (SRA : spec_run (data s) (BS c) (bc s) (has_up s) [Reg 0 (bc s) false] (OAllocate sz align ans :: ops) rs
    (EAllocate sz align p [] :: es2)) by (econstructor; [exact ST|exact SR]).
  destruct (spec_run_live _ _ _ _ _ _ _ _ [] D B N (wf_tiling _ _ _ W) (live_inv_start _ _ _) SRA) as [T LI].
  fold (live (EAllocate sz align p [] :: es2)) in LI.
  exists rs. rewrite <- U. split; auto. split; auto. split; [repeat split; congruence|]. auto.
Qed.

(** C50, C53, C54, C57, C59, C60 *)
Lemma pinned_history : forall c buffer size up s fuel sz align ans ops s' es, made c buffer size up s ->
  DBG c = true -> 0 < sz < BS c -> pow2 align -> align <= BS c -> sz + align <= 2 ^ 64 ->
  pinned_client (data s) (BS c) (bc s) up ops ->
  run c fuel s (OAllocate sz align ans :: ops) = Ok (s', es) ->
  exists rs, spec_run (data s) (BS c) (bc s) up [Reg 0 (bc s) false] (OAllocate sz align ans :: ops) rs es /\
    regions_of s' rs /\ tiling (bc s) rs /\
    pairwise_disjoint (live es) /\ NoDup (map fst (live es)) /\
    (forall a, In a (live es) -> in_bounds (data s) (data s + bc s * BS c) a) /\
    freec s' = Z.of_nat (length (free rs)) /\ busyc s' = Z.of_nat (length (busy rs)) /\
    busyc s' = Z.of_nat (length (live es)).
Proof.
  intros c buffer size up s fuel sz align ans ops s' es M DB Hs Pa Hal Hw PC H.
  destruct (made_wf _ _ _ _ _ M) as [HC [W [U [_ [O [D [B _]]]]]]].
  destruct (pinned_run _ _ _ _ _ _ _ _ _ _ _ _ M DB Hs Pa Hal Hw PC H) as [rs [W2 [PN [SP [SR [T LI]]]]]].
  exists rs. split; auto. split; [apply (wf_tiles _ _ _ W2)|]. split; auto.
  split; [eapply live_inv_disjoint; [exact B|exact T|exact LI]|].
  split; [eapply live_inv_nodup; [exact B|exact T|exact LI]|].
  split; [eapply live_inv_bounds; [exact B|exact T|exact LI]|]. split; [apply (wf_free _ _ _ W2)|]. split; [apply (wf_busy _ _ _ W2)|].
  rewrite (wf_busy _ _ _ W2), (live_inv_count _ _ _ _ LI). reflexivity.
Qed.
