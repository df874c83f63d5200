(** Proofs about ScanModel.v. *)

Require Import ZArith List Bool Lia Permutation.
Require Import Verif.Outcome Verif.Machine Verif.ListSpec Verif.TypeListModel Verif.TypeListProofs
  Verif.BitsSpec Verif.BitsModel Verif.BitsProofs Verif.ScanSpec Verif.ScanModel.
Import ListNotations.
Open Scope Z_scope.

Lemma chosen_correct : forall sz supported t, (length supported < sz)%nat ->
  ((exists u, In u supported /\ (sizeof t <= sizeof u)%nat) ->
   exists same u, chosen sz supported t = Some (same, u) /\ In u supported /\
     if same then sizeof u = sizeof t else (sizeof t < sizeof u)%nat) /\
  ((forall u, In u supported -> (sizeof u < sizeof t)%nat) -> chosen sz supported t = None).
Proof.
  intros sz supported t Hsz. unfold chosen.
  destruct (dispatch sz supported t Hsz) as [sorted [E [IFF [D1 D2]]]]. rewrite E.
  rewrite list_of_pred_filter.
  destruct (filter (fun u => is_equal_sizes u t) sorted) as [|u0 us] eqn:Ef.
  - cbn [length Nat.eqb negb].
    set (i := index_of (fun u => less_eq_pred u t) sorted) in *.
    destruct (Nat.ltb_spec i (length sorted)) as [L|L].
    + rewrite at_impl_nth. destruct (nth_error sorted i) as [u|] eqn:Eu;
        [|apply nth_error_None in Eu; lia].
      assert (SU := D1 eq_refl i u eq_refl Eu). assert (Iu := nth_error_In _ _ Eu). apply IFF in Iu. split.
      * intros _. exists false, u. auto.
      * intros H. specialize (H u Iu). lia.
    + split; [|reflexivity]. intros [u [Hu1 Hu2]]. exfalso.
      assert (i = length sorted).
      { pose proof (index_of_spec (fun u => less_eq_pred u t)
          (fun x => (sizeof t <= sizeof x)%nat) sorted) as FP.
        destruct FP as [_ [[x [Hx _]]|F]]; [intros; apply Nat.leb_le| |exact F].
        assert (index_of (fun u => less_eq_pred u t) sorted < length sorted)%nat
          by (apply nth_error_Some; congruence). unfold i in L. lia. }
      specialize (D2 H u Hu1). lia.
  - cbn [length Nat.eqb negb]. cbn [at_impl].
    assert (Hu0 : In u0 (filter (fun u => is_equal_sizes u t) sorted)) by (rewrite Ef; left; auto).
    apply filter_In in Hu0. destruct Hu0 as [I0 S0]. apply is_equal_sizes_spec in S0. apply IFF in I0. split.
    + intros _. exists true, u0. auto.
    + intros H. specialize (H u0 I0). lia.
Qed.

Lemma operand_sizes : forall c u, In u (operand_types c) ->
  (sizeof u = 4 \/ sizeof u = 8)%nat /\ (sizeof u <= widest_operand c)%nat.
Proof.
  intros [] u H; cbn in H;
    repeat (destruct H as [<-|H]; [cbn; auto with arith|]); contradiction.
Qed.

Lemma widest_there : forall c, exists u, In u (operand_types c) /\ sizeof u = widest_operand c.
Proof.
  intros []; [exists (TAtom 2 8)|exists (TAtom 2 8)|exists (TAtom 2 8)|exists (TAtom 1 4)]; cbn; auto.
Qed.

Lemma chosen_platform : forall c t,
  ((sizeof t <= widest_operand c)%nat ->
   exists same u, chosen 100 (operand_types c) t = Some (same, u) /\
     (sizeof u = 4 \/ sizeof u = 8)%nat /\ (sizeof u <= widest_operand c)%nat /\
     if same then sizeof u = sizeof t else (sizeof t < sizeof u)%nat) /\
  ((widest_operand c < sizeof t)%nat -> chosen 100 (operand_types c) t = None).
Proof.
  intros c t. destruct (chosen_correct 100 (operand_types c) t) as [Y N]; [destruct c; cbn; lia|].
  destruct (widest_there c) as [x [X1 X2]]. split.
  - intros L. destruct Y as [same [u [E [I S]]]]; [exists x; split; auto; lia|].
    exists same, u. destruct (operand_sizes c u I). auto.
  - intros L. apply N. intros u I. destruct (operand_sizes c u I). lia.
Qed.

Lemma clz_operand_value : forall c ph dbg s v, (s = 4 \/ s = 8)%nat -> 0 < v < 2 ^ (8 * Z.of_nat s) ->
  clz_operand c ph dbg s v = Ok (8 * Z.of_nat s - 1 - Z.log2 v).
Proof.
  intros c ph dbg s v S V. unfold clz_operand, cassert.
  replace (0 <? v) with true by (symmetry; apply Z.ltb_lt; lia).
  assert (L1 : 0 <= Z.log2 v) by apply Z.log2_nonneg.
  assert (L2 : Z.log2 v < 8 * Z.of_nat s) by (apply Z.log2_lt_pow2; lia).
  assert (B : 8 * Z.of_nat s <= 64) by lia.
  assert (N0 : (v =? 0) = false) by (apply Z.eqb_neq; lia).
  assert (CI : conv i32 (8 * Z.of_nat s - 1 - Z.log2 v) = 8 * Z.of_nat s - 1 - Z.log2 v).
  { apply conv_id; [cbn; lia|]. unfold inty, minv, maxv. cbn [sgn bits i32]. lia. }
  assert (CU : forall w, 32 <= w -> conv u32 (wrap w (wrap w (wrap w (8 * Z.of_nat s) - Z.log2 v) - 1)) =
                                    8 * Z.of_nat s - 1 - Z.log2 v).
  { intros w W. assert (2 ^ 32 <= 2 ^ w) by (apply Z.pow_le_mono_r; lia).
    rewrite (wrap_id w (8 * Z.of_nat s)) by lia. rewrite (wrap_id w (8 * Z.of_nat s - Z.log2 v)) by lia.
    rewrite wrap_id by lia. unfold conv. cbn [sgn u32 bits]. rewrite wrap_id; lia. }
  assert (CR : crafted_clz dbg 64 (Ity (8 * Z.of_nat s) false) v = Ok (8 * Z.of_nat s - 1 - Z.log2 v)).
  { rewrite crafted_clz_value; cbn [bits sgn]; auto. unfold std_ity. cbn [bits]. lia. }
  unfold builtin_clz, bit_scan_reverse. rewrite N0.
  destruct dbg, c, ph; cbn [bind size_bits]; try rewrite CI; try rewrite CR; try rewrite CU by lia; reflexivity.
Qed.

Lemma ctz_operand_value : forall c ph dbg s p, (s = 4 \/ s = 8)%nat -> Zpos p < 2 ^ (8 * Z.of_nat s) ->
  ctz_operand c ph dbg s (Zpos p) = Ok (trailing_zeros p).
Proof.
  intros c ph dbg s p S V. unfold ctz_operand, cassert.
  replace (0 <? Z.pos p) with true by (symmetry; apply Z.ltb_lt; lia).
  pose proof (tz_nonneg p) as L1.
  pose proof (tz_bound p (8 * Z.of_nat s) ltac:(lia) V) as L2.
  assert (CI : conv i32 (trailing_zeros p) = trailing_zeros p).
  { apply conv_id; [cbn; lia|]. unfold inty, minv, maxv. cbn [sgn bits i32]. lia. }
  assert (CR : crafted_ctz dbg 64 (Ity (8 * Z.of_nat s) false) (Zpos p) = Ok (trailing_zeros p)).
  { rewrite crafted_ctz_value; cbn [bits sgn]; auto. unfold std_ity. cbn [bits]. lia. }
  unfold builtin_ctz, bit_scan_forward.
  destruct dbg, c, ph; cbn [bind]; try rewrite CI; try rewrite CR; reflexivity.
Qed.

(** what the call returns, as a number *)
Definition answer (q : question) (w v : Z) : Z :=
  match q with
  | Leading => w - 1 - Z.log2 v
  | Trailing => match v with Zpos p => trailing_zeros p | _ => 0 end
  end.

Lemma answer_right : forall q w v, 0 < v < 2 ^ w -> right_count q w v (answer q w v) /\ 0 <= answer q w v < w.
Proof.
  intros [] w v V; cbn [right_count answer].
  - split; [apply leading_zeros_log2; auto|].
    assert (0 <= w). { destruct (Z.lt_ge_cases w 0); auto. rewrite Z.pow_neg_r in V by auto. lia. }
    pose proof (Z.log2_nonneg v). assert (Z.log2 v < w) by (apply Z.log2_lt_pow2; lia). lia.
  - destruct v as [|p|p]; try lia. split; [apply tz_spec|].
    assert (0 <= w). { destruct (Z.lt_ge_cases w 0); auto. rewrite Z.pow_neg_r in V by auto. lia. }
    split; [apply tz_nonneg|apply tz_bound; lia].
Qed.

Lemma trailing_unique : forall v n m, trailing_zero_count v n -> trailing_zero_count v m -> n = m.
Proof.
  assert (G : forall v n m, trailing_zero_count v n -> trailing_zero_count v m -> m <= n).
  { intros v n m [N0 [_ N]] [M0 [M _]]. destruct (Z_le_gt_dec m n); auto. exfalso. apply N.
    apply Z.divide_trans with (2 ^ m); auto. exists (2 ^ (m - (n + 1))). rewrite <- Z.pow_add_r by lia. f_equal. lia. }
  intros. apply Z.le_antisymm; eauto.
Qed.

Lemma right_unique : forall q w v n m, right_count q w v n -> right_count q w v m -> n = m.
Proof. intros [] w v n m; cbn [right_count]; [apply leading_unique|apply trailing_unique]. Qed.

Lemma count_value : forall q c ph dbg t v, (sizeof t <= widest_operand c)%nat ->
  0 < v < 2 ^ (8 * Z.of_nat (sizeof t)) ->
  count_zeros q c ph dbg t v = Some (Ok (answer q (8 * Z.of_nat (sizeof t)) v)).
Proof.
  intros q c ph dbg t v L V. unfold count_zeros.
  destruct (proj1 (chosen_platform c t) L) as [same [u [-> [S4 [SW S]]]]].
  assert (TU : (sizeof t <= sizeof u)%nat) by (destruct same; lia).
  rewrite (wrap_wider (sizeof t)) by lia.
  assert (VU : v < 2 ^ (8 * Z.of_nat (sizeof u))).
  { assert (2 ^ (8 * Z.of_nat (sizeof t)) <= 2 ^ (8 * Z.of_nat (sizeof u))) by (apply pow2_le; lia). lia. }
  destruct q; cbn [answer].
  - rewrite clz_operand_value by (auto; lia). cbn [bind].
    destruct same; [rewrite S; reflexivity|].
    assert (L1 : 0 <= Z.log2 v) by apply Z.log2_nonneg.
    assert (L2 : Z.log2 v < 8 * Z.of_nat (sizeof t)) by (apply Z.log2_lt_pow2; lia).
    set (d := 8 * (Z.of_nat (sizeof u) - Z.of_nat (sizeof t))).
    assert (D : wrap (size_bits c) (wrap (size_bits c) (Z.of_nat (sizeof u) - Z.of_nat (sizeof t)) * 8) = d).
    { assert (2 ^ 32 <= 2 ^ size_bits c) by (apply Z.pow_le_mono_r; [lia|destruct c; cbn; lia]).
      rewrite (wrap_id _ (Z.of_nat (sizeof u) - _)) by lia. rewrite wrap_id by lia. unfold d. lia. }
    cbv zeta. rewrite D. assert (C : conv (result_type c) d = d).
    { apply conv_id; [destruct c; cbn; lia|]. unfold inty, minv, maxv, d.
      destruct c; cbn [result_type sgn bits i32 u32]; lia. }
    rewrite C. unfold arith. assert (R : 0 <= 8 * Z.of_nat (sizeof u) - 1 - Z.log2 v - d < 64) by (unfold d; lia).
    f_equal. replace (8 * Z.of_nat (sizeof t) - 1 - Z.log2 v) with (8 * Z.of_nat (sizeof u) - 1 - Z.log2 v - d) by (unfold d; lia).
    destruct c; cbn [result_type sgn bits i32 u32]; try (rewrite wrap_id by lia; reflexivity);
      (replace (intyb _ _) with true; [reflexivity|]); symmetry; unfold intyb, minv, maxv; cbn [sgn bits i32];
      apply andb_true_iff; split; apply Z.leb_le; lia.
  - destruct v as [|p|p]; try lia. rewrite ctz_operand_value by (auto; lia). reflexivity.
Qed.

Lemma count_right : forall q c ph dbg t v, 0 < v < 2 ^ (8 * Z.of_nat (sizeof t)) ->
  ((sizeof t <= widest_operand c)%nat ->
   exists n, count_zeros q c ph dbg t v = Some (Ok n) /\ right_count q (8 * Z.of_nat (sizeof t)) v n) /\
  ((widest_operand c < sizeof t)%nat -> count_zeros q c ph dbg t v = None).
Proof.
  intros q c ph dbg t v V. split; intros L.
  - exists (answer q (8 * Z.of_nat (sizeof t)) v). split; [apply count_value; auto|apply answer_right; auto].
  - unfold count_zeros. rewrite (proj2 (chosen_platform c t) L). reflexivity.
Qed.

Lemma count_same : forall q c c' ph ph' dbg dbg' t v, 0 < v < 2 ^ (8 * Z.of_nat (sizeof t)) ->
  (sizeof t <= widest_operand c)%nat -> (sizeof t <= widest_operand c')%nat ->
  count_zeros q c ph dbg t v = count_zeros q c' ph' dbg' t v.
Proof. intros. rewrite !count_value by auto. reflexivity. Qed.

(** the abbreviated model of BitsModel.v computes the same *)
Lemma count_abbreviates : forall c ph dbg t v, 0 < v < 2 ^ (8 * Z.of_nat (sizeof t)) ->
  count_zeros Leading c ph dbg t v = clz dbg 100 (operand_types c) t v /\
  count_zeros Trailing c ph dbg t v = ctz dbg 100 (operand_types c) t v.
Proof.
  intros c ph dbg t v V.
  destruct (clz_correct dbg 100 (operand_types c) t v) as [CY CN]; [destruct c; cbn; lia|exact V|].
  destruct (ctz_correct dbg 100 (operand_types c) t v) as [TY TN]; [destruct c; cbn; lia|exact V|].
  destruct (count_right Leading c ph dbg t v V) as [LY LN].
  destruct (count_right Trailing c ph dbg t v V) as [RY RN].
  destruct (widest_there c) as [x [X1 X2]].
  destruct (Nat.le_gt_cases (sizeof t) (widest_operand c)) as [L|L].
  - destruct (LY L) as [n [-> R]]. destruct (RY L) as [m [-> R']].
    destruct CY as [n' [-> Q]]; [exists x; split; auto; lia|]. destruct TY as [m' [-> [Q' _]]]; [exists x; split; auto; lia|].
    cbn [right_count] in *. split; do 2 f_equal; [eapply leading_unique|eapply trailing_unique]; eauto.
  - rewrite LN, RN by auto. split; symmetry; [apply CN|apply TN]; intros u I; destruct (operand_sizes c u I); lia.
Qed.

(** * differences and comparisons *)

Lemma small_result : forall c x, 0 <= x < 64 -> conv (usual (result_type c) i32) x = x.
Proof.
  intros c x X. apply conv_id; [destruct c; cbn; lia|]. unfold inty, minv, maxv.
  destruct c; cbn [result_type usual promote sgn bits i32 u32 Z.ltb Z.compare Pos.compare Pos.compare_cont]; lia.
Qed.

Definition signed_results (c : compiler) : bool := match c with Gcc64 | Gcc32 => true | _ => false end.

Lemma difference_value : forall c x y, 0 <= x < 64 -> 0 <= y < 64 ->
  difference c x y = Ok (if signed_results c || (y <=? x) then x - y else 2 ^ 32 + (x - y)).
Proof.
  intros c x y X Y. unfold difference, arith.
  assert (U : wrap 32 (x - y) = if y <=? x then x - y else 2 ^ 32 + (x - y)).
  { destruct (Z.leb_spec y x); [apply wrap_id; lia|]. unfold wrap.
    symmetry. apply Z.mod_unique with (-1); lia. }
  destruct c; cbn [result_type sgn bits i32 u32 signed_results orb]; try (rewrite U; reflexivity);
    (replace (intyb _ _) with true; [reflexivity|]); symmetry; unfold intyb, minv, maxv; cbn [sgn bits i32]; apply andb_true_iff; split; apply Z.leb_le; lia.
Qed.

Lemma count_small : forall q w v n, 0 < v < 2 ^ w -> w <= 64 -> right_count q w v n -> 0 <= n < 64.
Proof.
  intros q w v n V W R. destruct (answer_right q w v V) as [A B]. rewrite (right_unique q w v n _ R A). lia.
Qed.

Lemma as_int : forall c x y, 0 <= x < 64 -> 0 <= y < 64 ->
  exists d, difference c x y = Ok d /\ conv i32 d = x - y.
Proof.
  intros c x y X Y. rewrite difference_value by auto.
  eexists. split; [reflexivity|].
  assert (I : conv i32 (x - y) = x - y).
  { apply conv_id; [cbn; lia|]. unfold inty, minv, maxv. cbn [sgn bits i32]. lia. }
  destruct (signed_results c || (y <=? x)) eqn:E; [exact I|].
  transitivity (conv i32 (x - y)); [|exact I]. unfold conv. cbn [sgn bits i32]. unfold swrap.
  replace ((2 ^ 32 + (x - y)) mod 2 ^ 32) with ((x - y) mod 2 ^ 32); [reflexivity|].
  rewrite <- (Z.mod_add (x - y) 1 (2 ^ 32)) by lia. f_equal. lia.
Qed.

Lemma compare_value : forall c x k, 0 <= x < 64 -> inty i32 k ->
  less_than_int c x k = (if signed_results c || (0 <=? k) then x <? k else true) /\
  int_less_than c k x = (if signed_results c || (0 <=? k) then k <? x else false).
Proof.
  intros c x k X K. unfold less_than_int, int_less_than. cbv zeta. rewrite small_result by auto.
  unfold inty, minv, maxv in K. cbn [sgn bits i32] in K.
  destruct c; cbn [signed_results orb].
  1,2: assert (C : conv (usual (result_type Gcc64) i32) k = k)
      by (apply conv_id; [cbn; lia|unfold inty, minv, maxv; cbn [result_type usual promote sgn bits i32 Z.ltb Z.compare Pos.compare Pos.compare_cont]; lia]);
    change (result_type Gcc32) with (result_type Gcc64); rewrite C; auto.
  all: assert (C : conv (usual (result_type Msvc64) i32) k = if 0 <=? k then k else 2 ^ 32 + k)
      by (change (conv (usual (result_type Msvc64) i32) k) with (wrap 32 k);
          destruct (Z.leb_spec 0 k); [apply wrap_id; lia|unfold wrap; symmetry; apply Z.mod_unique with (-1); lia]);
    change (result_type Msvc32) with (result_type Msvc64); rewrite C;
    destruct (Z.leb_spec 0 k); auto; split; [apply Z.ltb_lt|apply Z.ltb_ge]; lia.
Qed.

Lemma ok_inj : forall A (x y : A), Ok x = Ok y -> x = y.
Proof. intros A x y H. injection H. auto. Qed.

Lemma same_meaning_exact : forall q c t1 t2 a b n m,
  (sizeof t1 <= widest_operand c)%nat -> (sizeof t2 <= widest_operand c)%nat ->
  0 < a < 2 ^ (8 * Z.of_nat (sizeof t1)) -> 0 < b < 2 ^ (8 * Z.of_nat (sizeof t2)) ->
  right_count q (8 * Z.of_nat (sizeof t1)) a n -> right_count q (8 * Z.of_nat (sizeof t2)) b m ->
  (difference c n m = Ok (n - m) <-> c = Gcc64 \/ c = Gcc32 \/ m <= n) /\
  (~ (c = Gcc64 \/ c = Gcc32 \/ m <= n) -> difference c n m = Ok (2 ^ 32 + (n - m))) /\
  exists d, difference c n m = Ok d /\ conv i32 d = n - m.
Proof.
  intros q c t1 t2 a b n m L1 L2 A B N M.
  assert (W : (widest_operand c <= 8)%nat) by (destruct c; cbn; lia).
  apply (count_small q _ a) in N; [|auto|lia]. apply (count_small q _ b) in M; [|auto|lia].
  rewrite difference_value by auto.
  split; [|split; [|rewrite <- difference_value by auto; apply as_int; auto]].
  - split.
    + intros H. apply ok_inj in H. destruct c; auto; cbn [signed_results orb] in H;
      destruct (Z.leb_spec m n) in H; auto; lia.
    + intros H. destruct c; cbn [signed_results orb]; try reflexivity;
      (destruct H as [D|[D|D]]; [discriminate D|discriminate D|]; apply Z.leb_le in D; rewrite D; reflexivity).
  - intros X. destruct c; cbn [signed_results orb]; [exfalso; auto|exfalso; auto| |];
      (destruct (Z.leb_spec m n); [exfalso; auto|reflexivity]).
Qed.

Lemma comparison_exact : forall q c t v n k, (sizeof t <= widest_operand c)%nat ->
  0 < v < 2 ^ (8 * Z.of_nat (sizeof t)) -> right_count q (8 * Z.of_nat (sizeof t)) v n -> inty i32 k ->
  ((less_than_int c n k = true <-> n < k) /\ (int_less_than c k n = true <-> k < n) <->
   c = Gcc64 \/ c = Gcc32 \/ 0 <= k).
Proof.
  intros q c t v n k L V N K.
  assert (W : (widest_operand c <= 8)%nat) by (destruct c; cbn; lia).
  apply (count_small q _ v) in N; [|auto|lia].
  destruct (compare_value c n k N K) as [-> ->].
  destruct c; cbn [signed_results orb]; rewrite ?Z.ltb_lt; try tauto;
    (destruct (Z.leb_spec 0 k); rewrite ?Z.ltb_lt; [tauto|]; split; [intros [[H1 _] _]; specialize (H1 eq_refl); lia|
     intros [D|[D|D]]; try discriminate; lia]).
Qed.

Lemma difference_differs : forall dbg ph,
  count_zeros Leading Msvc64 ph dbg (TAtom 9 4) 8 = Some (Ok 28) /\
  count_zeros Leading Msvc64 ph dbg (TAtom 9 4) 4 = Some (Ok 29) /\
  difference Msvc64 28 29 = Ok (2 ^ 32 - 1) /\ difference Gcc64 28 29 = Ok (-1) /\
  int_less_than Msvc64 (-1) 28 = false /\ int_less_than Gcc64 (-1) 28 = true.
Proof. intros [] []; vm_compute; repeat split. Qed.

(** * the value 0 *)

Lemma zero_cases : forall q c ph dbg t, (0 < sizeof t <= widest_operand c)%nat ->
  count_zeros q c ph dbg t 0 =
    Some (if dbg then Abort
          else match c, ph with
               | Msvc64, Compiling | Msvc32, Compiling =>
                 Ok (match q with
                     | Leading => 8 * Z.of_nat (sizeof t) - 1
                     | Trailing => if (4 <? sizeof t)%nat then 63 else 31
                     end)
               | _, _ => UB
               end).
Proof.
  intros q c ph dbg t [P L]. unfold count_zeros.
  destruct (proj1 (chosen_platform c t) L) as [same [u [E [S4 [SW S]]]]].
  assert (SU : (c = Msvc64 \/ c = Msvc32) -> (sizeof u = if (4 <? sizeof t)%nat then 8 else 4)%nat).
  { intros C. destruct (Nat.ltb_spec 4 (sizeof t)); [destruct same; lia|].
    destruct S4 as [|S8]; auto. exfalso.
    destruct C as [-> | ->]; [|cbn in SW; lia].
    assert (X : forall s, (0 < s <= 4)%nat -> sizeof t = s -> False); [|eapply X; eauto].
    intros s Hs Hst. unfold chosen in E. unfold is_equal_sizes, less_eq_pred in E. rewrite Hst in E.
    destruct s as [|[|[|[|[|s]]]]]; try lia; vm_compute in E; injection E as <- <-; cbn in S8; lia. }
  rewrite E. replace (wrap (8 * Z.of_nat (sizeof u)) 0) with 0
    by (unfold wrap; rewrite Z.mod_0_l; auto; pose proof (pow2_pos (8 * Z.of_nat (sizeof u)) ltac:(lia)); lia).
  unfold clz_operand, ctz_operand, builtin_clz, builtin_ctz, bit_scan_reverse, bit_scan_forward.
  change (0 <? 0) with false. change (0 =? 0) with true.
  destruct dbg; [destruct q, c; reflexivity|]. cbn [cassert].
  destruct c, ph; try (destruct q; reflexivity).
  all: specialize (SU ltac:(auto)); destruct q.
  - assert (CZ : crafted_clz false 64 (Ity (8 * Z.of_nat (sizeof u)) false) 0 = Ok (8 * Z.of_nat (sizeof u) - 1))
      by (destruct S4 as [-> | ->]; vm_compute; reflexivity).
    rewrite CZ. cbn [bind]. destruct same; [rewrite S; reflexivity|]. cbv zeta. cbn [size_bits result_type].
    f_equal. destruct S4 as [S4|S4]; rewrite S4 in *;
    destruct (sizeof t) as [|[|[|[|[|[|[|[|s]]]]]]]]; try lia; vm_compute; reflexivity.
  - destruct (4 <? sizeof t)%nat; rewrite SU; vm_compute; reflexivity.
  - assert (CZ : crafted_clz false 64 (Ity (8 * Z.of_nat (sizeof u)) false) 0 = Ok (8 * Z.of_nat (sizeof u) - 1))
      by (destruct S4 as [-> | ->]; vm_compute; reflexivity).
    rewrite CZ. cbn [bind]. destruct same; [rewrite S; reflexivity|]. cbv zeta. cbn [size_bits result_type].
    f_equal. destruct S4 as [S4|S4]; rewrite S4 in *;
    destruct (sizeof t) as [|[|[|[|[|[|[|[|s]]]]]]]]; try lia; vm_compute; reflexivity.
  - destruct (4 <? sizeof t)%nat; rewrite SU; vm_compute; reflexivity.
Qed.

Lemma zero_exact : forall q c ph dbg t, (0 < sizeof t <= widest_operand c)%nat ->
  ((exists n, count_zeros q c ph dbg t 0 = Some (Ok n)) <->
   dbg = false /\ ph = Compiling /\ (c = Msvc64 \/ c = Msvc32)) /\
  (dbg = true -> count_zeros q c ph dbg t 0 = Some Abort).
Proof.
  intros q c ph dbg t L. rewrite zero_cases by auto. split; [|intros ->; reflexivity].
  destruct dbg; [split; [intros [n H]; discriminate H|intros [H _]; discriminate H]|].
  destruct c, ph; (split; [intros [n H]; try discriminate H; auto 6|intros [_ [H1 [H2|H2]]]; try discriminate; eexists; reflexivity]).
Qed.

Lemma zero_answers : forall t, (0 < sizeof t <= 4)%nat ->
  count_zeros Leading Msvc64 Compiling false t 0 = Some (Ok (8 * Z.of_nat (sizeof t) - 1)) /\
  count_zeros Leading Msvc64 Compiling false t 1 = Some (Ok (8 * Z.of_nat (sizeof t) - 1)) /\
  count_zeros Trailing Msvc64 Compiling false t 0 = Some (Ok 31).
Proof.
  intros t L. rewrite !zero_cases by (cbn; lia). replace (4 <? sizeof t)%nat with false by (symmetry; apply Nat.ltb_ge; lia).
  split; [reflexivity|]. split; [|reflexivity]. rewrite count_value; [cbn [answer]; change (Z.log2 1) with 0; rewrite Z.sub_0_r; reflexivity|cbn; lia|].
  assert (2 ^ 1 <= 2 ^ (8 * Z.of_nat (sizeof t))) by (apply pow2_le; lia). lia.
Qed.
