(** Proofs about AcceptModel.v. *)

Require Import Bool Arith Lia.
Require Import Verif.AcceptSpec Verif.AcceptModel.

Lemma accepted_storable : forall sz al ps pa a, constructor_compiles sz al ps pa a = true ->
  can_be_stored_and_called sz al ps pa a.
Proof.
  intros sz al ps pa a H. unfold constructor_compiles, storable in H.
  destruct (invocable_with_duration a) as [[]|]; try discriminate.
  destruct a as [v e p|p|f c l]; cbn -[Nat.leb] in *.
  - destruct v, e, p; cbn -[Nat.leb] in H; try discriminate;
      apply andb_true_iff in H as [H1 H2]; apply Nat.leb_le in H1, H2; auto.
  - apply andb_true_iff in H as [H1 H]. apply andb_true_iff in H as [H2 H3]. apply Nat.leb_le in H2, H3. auto.
  - apply andb_true_iff in H as [H H0]. apply andb_true_iff in H as [H1 H2].
    apply andb_true_iff in H0 as [H3 H4]. apply andb_true_iff in H3 as [H5 H6]. apply Nat.leb_le in H5, H6. auto.
Qed.

(** the exact condition *)
Lemma accepted_exact : forall sz al ps pa a,
  constructor_compiles sz al ps pa a = true <->
  can_be_stored_and_called sz al ps pa a /\
  match a with
  | Function v e p => v = true /\ e = true /\ p = ConstTimerRef
  | Pointer p => p = ConstTimerRef
  | Object f c l => operator_fits f c l = true /\ (call_param f = Plain ConstTimerRef \/ call_param f = Generic true true)
  end.
Proof.
  intros sz al ps pa a. split.
  - intros H. split; [apply accepted_storable; auto|].
    unfold constructor_compiles, storable in H.
    destruct a as [v e p|p|f c l]; cbn -[Nat.leb] in *.
    + destruct v, e, p; cbn -[Nat.leb] in H; try discriminate; auto.
    + destruct p; cbn -[Nat.leb] in H; try discriminate; auto.
    + destruct (operator_fits f c l); [|discriminate]. split; [reflexivity|].
      destruct (call_param f) as [[]|[] []] eqn:Ep; cbn -[Nat.leb] in H; rewrite ?Ep in H; cbn -[Nat.leb] in H; try discriminate; auto;
        rewrite ?andb_false_r in H; cbn -[Nat.leb] in H; try discriminate; auto.
  - intros [S H]. unfold constructor_compiles, storable.
    destruct a as [v e p|p|f c l]; cbn -[Nat.leb] in *.
    + destruct H as (-> & -> & ->). destruct S as (_ & S1 & S2). cbn -[Nat.leb].
      apply Nat.leb_le in S1, S2. rewrite S1, S2. reflexivity.
    + destruct S as (S0 & S1 & S2). apply Nat.leb_le in S1, S2.
      subst p. cbn -[Nat.leb]. rewrite S1, S2. reflexivity.
    + destruct S as (S0 & S1 & S2 & S3 & S4). apply Nat.leb_le in S3, S4. destruct H as [-> [H|H]]; rewrite H;
        cbn -[Nat.leb]; rewrite S1, S2, S3, S4, H; reflexivity.
Qed.
