(** Lemmas about callables in timers that are moved. *)

Require Import ZArith List Bool Lia Permutation.
Require Import Verif.Outcome Verif.TimerSpec Verif.TimerModel Verif.TimerProofs Verif.RelocateSpec.
Import ListNotations.
Open Scope Z_scope.

Lemma bytes_length : forall n x, length (bytes_of n x) = n.
Proof. induction n as [|n IH]; intros x; cbn [bytes_of length]; [|rewrite IH]; reflexivity. Qed.

Lemma bytes_inj : forall n x y, 0 <= x < 256 ^ Z.of_nat n -> 0 <= y < 256 ^ Z.of_nat n ->
  bytes_of n x = bytes_of n y -> x = y.
Proof.
  induction n as [|n IH]; intros x y X Y E.
  - cbn in X, Y. lia.
  - cbn [bytes_of] in E. injection E as E1 E2.
    assert (Q : 256 ^ Z.of_nat (S n) = 256 * 256 ^ Z.of_nat n).
    { rewrite Nat2Z.inj_succ, Z.pow_succ_r by lia. reflexivity. }
    assert (x / 256 = y / 256).
    { apply IH; auto; (split; [apply Z.div_pos; lia|apply Z.div_lt_upper_bound; lia]). }
    rewrite (Z.div_mod x 256), (Z.div_mod y 256) by lia. congruence.
Qed.

Lemma mod_shift : forall m a b o, 0 < m -> 0 <= a < m -> 0 <= b < m -> (a + o) mod m = (b + o) mod m -> a = b.
Proof.
  intros m a b o M A B E. rewrite <- (Z.mod_small a m), <- (Z.mod_small b m) by lia.
  replace a with ((a + o) - o) at 1 by lia. replace b with ((b + o) - o) at 1 by lia.
  rewrite (Zminus_mod (a + o)), (Zminus_mod (b + o)), E. reflexivity.
Qed.

Lemma part_moves : forall a b p, 0 <= a < 2 ^ 64 -> 0 <= b < 2 ^ 64 ->
  (part_at a p = part_at b p <-> a = b \/ is_fixed p).
Proof.
  intros a b [l|o] A B; cbn [part_at is_fixed]; [tauto|]. split; [|intros [->|[]]; reflexivity].
  intros E. left. apply bytes_inj in E.
  - eapply mod_shift; [|exact A|exact B|exact E]. lia.
  - replace (256 ^ Z.of_nat 8) with (2 ^ 64) by reflexivity. apply Z.mod_pos_bound. lia.
  - replace (256 ^ Z.of_nat 8) with (2 ^ 64) by reflexivity. apply Z.mod_pos_bound. lia.
Qed.

Lemma part_length : forall a b p, length (part_at a p) = length (part_at b p).
Proof. intros a b [l|o]; cbn [part_at]; [reflexivity|]. rewrite !bytes_length. reflexivity. Qed.

Lemma app_same_length : forall (a b c d : list Z), length a = length c -> a ++ b = c ++ d -> a = c /\ b = d.
Proof.
  induction a as [|x a IH]; intros b [|y c] d L E; try discriminate L; [auto|].
  cbn in E. injection E as -> E. injection L as L. destruct (IH b c d L E) as [-> ->]. auto.
Qed.

Lemma object_moves : forall a b l, 0 <= a < 2 ^ 64 -> 0 <= b < 2 ^ 64 ->
  (object_at a l = object_at b l <-> a = b \/ Forall is_fixed l).
Proof.
  intros a b l A B. induction l as [|p l IH].
  - split; intros _; [right; constructor|reflexivity].
  - unfold object_at in *. cbn [flat_map]. split.
    + intros E. apply app_same_length in E; [|apply part_length]. destruct E as [E1 E2].
      apply (part_moves a b p A B) in E1. apply IH in E2. destruct E1 as [->|F1]; [auto|].
      destruct E2 as [->|F2]; [auto|]. right. constructor; auto.
    + intros [->|F]; [reflexivity|]. inversion F as [|? ? F1 F2]; subst.
      f_equal; [apply part_moves; auto|apply IH; auto].
Qed.

(** the bytes that are called are bytes that were stored *)
Lemma called_given : forall N ops st es d c z, timer_run N no_timers ops = Ok (st, es) ->
  In (TCalled d c z) es -> exists s now, In (TNew s now c) ops.
Proof.
  intros N ops st es d c z H I. destruct (at_most_once N ops st es H) as [rest P].
  assert (C : In c (called es)).
  { unfold called. apply in_flat_map. exists (TCalled d c z). split; [exact I|left; reflexivity]. }
  assert (G : In c (given ops)).
  { eapply Permutation_in; [apply Permutation_sym; exact P|]. apply in_app_iff. left. exact C. }
  unfold given in G. apply in_flat_map in G. destruct G as [[s now c'| | | | | |] [G1 G2]]; try contradiction.
  destruct G2 as [->|[]]. eauto.
Qed.

Lemma relocated_exact : forall N ops st es addr parts d ty bytes z, timer_run N no_timers ops = Ok (st, es) ->
  built addr parts ops -> (forall s, 0 <= addr s < 2 ^ 64) -> In (TCalled d (ty, bytes) z) es ->
  exists s now, In (TNew s now (ty, bytes)) ops /\ intact addr parts s ty bytes /\
    (intact addr parts d ty bytes <-> addr s = addr d \/ Forall is_fixed (parts ty)).
Proof.
  intros N ops st es addr parts d ty bytes z H B A I.
  destruct (called_given _ _ _ _ _ _ _ H I) as [s [now G]]. exists s, now. split; [exact G|].
  assert (E := B _ _ _ _ G). split; [exact E|]. unfold intact. rewrite E at 1. apply object_moves; apply A.
Qed.

Lemma relocated_fixed : forall N ops st es addr parts d ty bytes z, timer_run N no_timers ops = Ok (st, es) ->
  built addr parts ops -> Forall is_fixed (parts ty) -> In (TCalled d (ty, bytes) z) es ->
  intact addr parts d ty bytes.
Proof.
  intros N ops st es addr parts d ty bytes z H B F I.
  destruct (called_given _ _ _ _ _ _ _ H I) as [s [now G]].
  unfold intact. rewrite (B _ _ _ _ G). generalize (addr s), (addr d). intros a b.
  induction F as [|p l Fp F IH]; [reflexivity|].
  unfold object_at in *. cbn [flat_map]. rewrite IH. destruct p; [reflexivity|destruct Fp].
Qed.

Lemma relocated_broken : forall addr o, 0 <= addr 0%nat < 2 ^ 64 -> 0 <= addr 1%nat < 2 ^ 64 -> addr 0%nat <> addr 1%nat ->
  let parts := fun _ : nat => [Inside o] in
  let ops := [TNew 0 1 (5%nat, object_at (addr 0%nat) [Inside o]); TMove 1 0; TDestroy 0; TDestroy 1] in
  built addr parts ops /\ exists st bytes, timer_run 8 no_timers ops = Ok (st, [TCalled 1 (5%nat, bytes) 1]) /\
    ~ intact addr parts 1 5 bytes.
Proof.
  intros addr o A0 A1 D parts ops. split.
  - intros s now ty bytes [E|[E|[E|[E|[]]]]]; try discriminate E. injection E as <- <- <- <-. reflexivity.
  - do 2 eexists. split.
    + unfold ops, object_at. cbn [flat_map part_at app]. cbn [timer_run timer_step bind no_timers timer_new].
      rewrite app_nil_r, bytes_length. reflexivity.
    + intros E. unfold intact in E.
      assert (X : object_at (addr 0%nat) [Inside o] = object_at (addr 1%nat) [Inside o]) by exact E.
      apply object_moves in X; auto. destruct X as [X|X]; [contradiction|]. inversion X as [|? ? F]; subst. exact F.
Qed.
