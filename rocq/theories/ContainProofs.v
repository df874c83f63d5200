Require Import ZArith List Bool String PeanoNat Lia.
Require Import Verif.Outcome Verif.AllocModel Verif.ForwardSpec Verif.ForwardModel Verif.DefaultSpec Verif.DefaultModel Verif.DefaultProofs Verif.OffersSpec Verif.OffersModel.
Require Import Verif.ContainSpec Verif.ContainModel.
Import ListNotations.
Open Scope string_scope.

Lemma give_back_never : forall W C T, traits_compile W C T GiveBack = false.
Proof.
  intros W C T. unfold traits_compile, member_call, members. cbn. rewrite Nat.eqb_refl. reflexivity.
Qed.

Lemma get_always : forall W C T, traits_compile W C T Get = true.
Proof. intros. reflexivity. Qed.

Lemma converts_exact : forall W C T U, traits_compile W C T (Convert U) = true <-> U = T.
Proof.
  intros W C T U. unfold traits_compile. pose proof (allocators_exact T U 0%Z 0%Z) as [E _].
  destruct (allocator_from T (AllocOf U 0%Z)) as [a|] eqn:A.
  - split; [|reflexivity]. intros _. destruct (proj1 (E a) eq_refl). auto.
  - split; [discriminate|]. intros ->. pose proof (proj2 (E (AllocOf T 0%Z)) (conj eq_refl eq_refl)). discriminate.
Qed.

Lemma same_as_exact : forall W C T U, traits_compile W C T (SameAs U) = true <-> U = T.
Proof.
  intros W C T U. unfold traits_compile. pose proof (allocators_exact T U 0%Z 0%Z) as [_ [E D]].
  destruct (allocators_equal (AllocOf T 0%Z) (AllocOf U 0%Z)) as [a|] eqn:A.
  - destruct (proj1 (E a) eq_refl) as [<- _].
    rewrite (proj2 (D (negb (0 =? 0)%Z)) (conj eq_refl eq_refl)). split; auto.
  - split; [discriminate|]. intros ->. pose proof (proj2 (E (0 =? 0)%Z) (conj eq_refl eq_refl)). discriminate.
Qed.

Lemma same_always : forall W C T, traits_compile W C T Same = true.
Proof. intros W C T. exact (proj2 (same_as_exact W C T T) eq_refl). Qed.

Lemma make_exact : forall W C T U args, traits_compile W C T (Make U args) = true <->
  exists b, construct_calls W (C U) T false args = Some b.
Proof.
  intros W C T U args. unfold traits_compile.
  replace (member_call T "construct" (GPtr U :: map (fun _ => GOther) args)) with true.
  2: { symmetry. unfold member_call, members. cbn. destruct (map (fun _ : argument => GOther) args); reflexivity. }
  destruct (construct_calls W (C U) T false args) as [b|].
  - split; eauto.
  - split; [discriminate|]. intros [b B]. discriminate.
Qed.

Lemma requests_exact : forall W C T q,
  traits_compile W C T q = true <->
  match q with
  | GiveBack => False
  | Convert U | SameAs U => U = T
  | Make U args => exists b, construct_calls W (C U) T false args = Some b
  | _ => True
  end.
Proof.
  intros W C T [| |U| |U| | |U args|U|].
  - split; auto.
  - split; auto.
  - apply converts_exact.
  - split; auto; intros _; apply same_always.
  - apply same_as_exact.
  - split; auto.
  - rewrite give_back_never. split; [discriminate|tauto].
  - apply make_exact.
  - split; auto.
  - split; auto.
Qed.

Lemma no_container : forall W C T uses, owns_memory uses -> container_compiles W C T uses = false.
Proof.
  intros W C T uses [_ I]. unfold container_compiles. apply not_true_is_false. intros A.
  rewrite forallb_forall in A. specialize (A _ I). rewrite give_back_never in A. discriminate.
Qed.

Lemma container_exact : forall W C T uses,
  container_compiles W C T uses = true <->
  ~ In GiveBack uses /\
  forall q, In q uses ->
    match q with
    | Convert U | SameAs U => U = T
    | Make U args => exists b, construct_calls W (C U) T false args = Some b
    | _ => True
    end.
Proof.
  intros W C T uses. unfold container_compiles. rewrite forallb_forall. split.
  - intros A. split.
    + intros I. specialize (A _ I). rewrite give_back_never in A. discriminate.
    + intros q I. pose proof (proj1 (requests_exact W C T q) (A q I)) as P. destruct q; tauto.
  - intros [N A] q I. apply requests_exact. specialize (A q I). destruct q; tauto.
Qed.

(** containers insert copies of const elements *)
Lemma insert_never : forall W C T U, traits_compile W C T (Make U [Arg T true LValue]) = false.
Proof.
  intros W C T U. apply not_true_is_false. rewrite make_exact. intros [b B].
  unfold construct_calls, construct_args, forward_as in B. cbn in B. rewrite Nat.eqb_refl in B. discriminate.
Qed.

Lemma null_answer : forall count size align, allocate_count null_resource tt count size align = Ok (tt, 0%Z).
Proof. intros. reflexivity. Qed.
