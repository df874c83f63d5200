(** Proofs for OffersProps.v. *)

Require Import Bool List ZArith Lia.
Require Import Verif.OffersSpec Verif.OffersModel.
Import ListNotations.

Lemma timer_offers : forall d, let C := answers_of c_timer in
  says C d = (match d with Move | MoveAssign | Destroy => true | _ => false end) /\
  compiles C d = says C d /\ says_quiet C d = says C d.
Proof. intros []; vm_compute; auto. Qed.
Lemma allocator_offers : forall d, let C := answers_of c_allocator in
  says C d = (match d with CopyAssign | MoveAssign => false | _ => true end) /\
  compiles C d = says C d /\ says_quiet C d = says C d.
Proof. intros []; vm_compute; auto. Qed.
Lemma resource_offers : forall c, In c [c_monotonic_buffer_resource; c_simple_resource; c_system_memory_resource; c_null_memory_resource] ->
  forall d, let C := answers_of c in
  says C d = (match d with Default | Copy | Move => false | _ => true end) /\
  compiles C d = says C d /\ says_quiet C d = says C d.
Proof. intros c [<-|[<-|[<-|[<-|[]]]]] []; vm_compute; auto. Qed.
Lemma base_offers : forall d, let C := answers_of c_memory_resource in
  says C d = (match d with Default | Copy | Move => false | _ => true end) /\
  compiles C d = says C d /\ says_quiet C d = says C d.
Proof. intros []; vm_compute; auto. Qed.

Lemma pimpl_says : forall T size align Size Alignment d, says (answers_of (c_fast_pimpl T size align Size Alignment)) d = true.
Proof. intros T size align Size Alignment []; reflexivity. Qed.

Lemma pimpl_compiles : forall T size align d, compiles (answers_of (c_fast_pimpl T size align size align)) d = can T d.
Proof.
  intros T size align d. unfold can. cbn -[Z.eqb]. unfold both, c_fast_pimpl. rewrite !Z.eqb_refl.
  destruct d; cbn; rewrite ?andb_true_r; reflexivity.
Qed.

Lemma pimpl_quiet : forall T size align Size Alignment d, d <> Destroy ->
  says_quiet (answers_of (c_fast_pimpl T size align Size Alignment)) d = says_quiet (as_is T) d.
Proof. intros T size align Size Alignment [] N; try congruence; cbn; unfold both; cbn; rewrite ?andb_true_r; reflexivity. Qed.

Lemma pimpl_misfit : forall T size align Size Alignment d, ~ (Size = size /\ Alignment = align) ->
  compiles (answers_of (c_fast_pimpl T size align Size Alignment)) d =
  (match d with CopyAssign | MoveAssign => able T d | _ => false end).
Proof.
  intros T size align Size Alignment d N.
  assert (F : (Size =? size)%Z && (Alignment =? align)%Z = false).
  { apply andb_false_iff. rewrite !Z.eqb_neq. lia. }
  cbn. unfold both, c_fast_pimpl. rewrite F. destruct d; cbn; rewrite ?andb_false_r, ?andb_true_r; reflexivity.
Qed.

Lemma pimpl_truthful : forall T size align Size Alignment,
  truthful (answers_of (c_fast_pimpl T size align Size Alignment)) <->
  Size = size /\ Alignment = align /\ forall d, can T d = true.
Proof.
  intros T size align Size Alignment. unfold truthful. split.
  - intros H. assert (F : {Size = size /\ Alignment = align} + {~ (Size = size /\ Alignment = align)}).
    { destruct (Z.eq_dec Size size), (Z.eq_dec Alignment align); try (left; lia); right; lia. }
    destruct F as [[-> ->]|F].
    + repeat split; auto. intros d. rewrite <- (pimpl_compiles T size align d), <- H. apply pimpl_says.
    + specialize (H Destroy). rewrite pimpl_says, (pimpl_misfit _ _ _ _ _ _ F) in H. discriminate H.
  - intros [-> [-> H]] d. rewrite pimpl_says, pimpl_compiles, H. reflexivity.
Qed.

Lemma pimpl_not_copyable : forall T size align, can T Copy = false ->
  says (answers_of (c_fast_pimpl T size align size align)) Copy = true /\
  compiles (answers_of (c_fast_pimpl T size align size align)) Copy = false.
Proof. intros T size align H. rewrite pimpl_says, pimpl_compiles. auto. Qed.

Lemma pimpl_vector : forall T size align, let C := answers_of (c_fast_pimpl T size align size align) in
  vector_grows C <> vector_grows (as_is T) <->
  can T Move = true /\ can T Copy = false /\ (quiet T Move = false \/ quiet T Destroy = false).
Proof.
  intros T size align. cbv zeta. unfold vector_grows, grows_by. rewrite pimpl_says, pimpl_quiet by discriminate.
  cbn [says says_quiet compiles as_is negb constructs orb]. rewrite andb_true_r.
  destruct (can T Move) eqn:M, (can T Copy) eqn:C, (quiet T Move) eqn:Q, (quiet T Destroy) eqn:D; cbn [negb andb];
    rewrite ?pimpl_compiles, ?M, ?C; cbn; intuition congruence.
Qed.

Lemma all_destroyed : forall ps d, constructs d = true -> forallb (fun p => can p d) ps = true ->
  forallb (fun p => can p Destroy) ps = true.
Proof.
  intros ps d K H. rewrite forallb_forall in *. intros p I. specialize (H p I). unfold can in *.
  rewrite K in H. cbn in *. apply andb_true_iff in H. destruct H as [_ H]. rewrite H. reflexivity.
Qed.

Lemma destroyed_or : forall ps d, constructs d = true ->
  forallb (fun p => can p d) ps && forallb (fun p => can p Destroy) ps = forallb (fun p => can p d) ps.
Proof.
  intros ps d K. destruct (forallb (fun p => can p d) ps) eqn:E; [|reflexivity]. rewrite (all_destroyed ps d K E). reflexivity.
Qed.

Lemma holder_offers : forall mention ps d, let C := answers_of (c_holder mention ps) in
  says C d = holder_can mention ps d /\ compiles C d = holder_can mention ps d /\
  ((forall p, In p ps -> forall e, quiet p e = true) -> says_quiet C d = holder_can mention ps d) /\
  (forall p, In p ps -> quiet p Destroy = false -> constructs d = true -> says_quiet C d = false).
Proof.
  intros mention ps d. cbv zeta.
  assert (Q : forall e, (forall p, In p ps -> forall e, quiet p e = true) -> forallb (fun p => quiet p e) ps = true).
  { intros e H. apply forallb_forall. intros p I. exact (H p I e). }
  assert (N : forall p, In p ps -> quiet p Destroy = false -> forallb (fun p => quiet p Destroy) ps = false).
  { intros p I H. destruct (forallb (fun p => quiet p Destroy) ps) eqn:E; [|reflexivity].
    rewrite forallb_forall in E. rewrite (E p I) in H. discriminate H. }
  pose proof (all_destroyed ps Default eq_refl) as D1. pose proof (all_destroyed ps Copy eq_refl) as D2.
  pose proof (all_destroyed ps Move eq_refl) as D3.
  split; [|split; [|split]].
  - destruct mention as [[]|], d; cbn; unfold both, found_for, copy_found, copy_assign_found, memberwise, holder_can; cbn; unfold memberwise; cbn;
    repeat match goal with |- context [forallb (fun p => can p ?e) ps] => destruct (forallb (fun p => can p e) ps) end; cbn; try reflexivity; try discriminate (D1 eq_refl); try discriminate (D2 eq_refl); try discriminate (D3 eq_refl).
  - destruct mention as [[]|], d; cbn; unfold both, found_for, copy_found, copy_assign_found, memberwise, holder_can; cbn; unfold memberwise; cbn;
    repeat match goal with |- context [forallb (fun p => can p ?e) ps] => destruct (forallb (fun p => can p e) ps) end; cbn; try reflexivity; try discriminate (D1 eq_refl); try discriminate (D2 eq_refl); try discriminate (D3 eq_refl).
  - intros H. pose proof (fun e => Q e H) as QQ.
    destruct mention as [[]|], d; cbn; unfold both, found_for, copy_found, copy_assign_found, memberwise, holder_can; cbn; unfold memberwise; cbn;
    rewrite ?QQ; repeat match goal with |- context [forallb (fun p => can p ?e) ps] => destruct (forallb (fun p => can p e) ps) end; cbn; rewrite ?QQ; try reflexivity; try discriminate (D1 eq_refl); try discriminate (D2 eq_refl); try discriminate (D3 eq_refl).
  - intros p I H K. pose proof (N p I H) as NN. cbn. unfold both. rewrite K. cbn [negb orb].
    assert (Z : nothrow_of (found_for (c_holder mention ps) Destroy) = false).
    { destruct mention as [[]|]; cbn; unfold memberwise; cbn; rewrite NN; destruct (forallb (fun p => can p Destroy) ps); reflexivity. }
    rewrite Z. cbn. apply andb_false_r.
Qed.

Lemma derived_default : forall mention ps,
  compiles (answers_of (c_holder mention (powers_of c_memory_resource :: ps))) Default = false.
Proof.
  intros mention ps. destruct (holder_offers mention (powers_of c_memory_resource :: ps) Default) as [_ [H _]].
  rewrite H. destruct mention as [[]|]; reflexivity.
Qed.
