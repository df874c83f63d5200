(** Proofs about the arguments of construct and new_object. *)

Require Import List Bool PeanoNat Lia.
Require Import Verif.ForwardSpec Verif.ForwardModel.
Import ListNotations.

(** what arrives for one argument *)
Definition one (W : types) (T : nat) (k : bool) (a : argument) (r : arrival) : Prop :=
  as_arg r = Arg T k RValue /\
  (is_a W (of_type a) T /\ (is_const a = true -> k = true) /\ own_object r = true \/
   ~ is_a W (of_type a) T /\ converts W (Arg (of_type a) (is_const a) LValue) T = true /\ own_object r = false).

Lemma is_a_ok : forall W X T, Nat.eqb X T || derives W X T = true <-> is_a W X T.
Proof.
  intros W X T. unfold is_a. rewrite orb_true_iff, Nat.eqb_eq. reflexivity.
Qed.

Lemma forward_one : forall W T k a r, forward_as W T k (named a) = Some r <-> one W T k a r.
Proof.
  intros W T k [X c v] [b o]. unfold forward_as, named, one. cbn [of_type is_const as_arg own_object].
  pose proof (is_a_ok W X T) as I. destruct (Nat.eqb X T || derives W X T).
  - assert (IA : is_a W X T) by (apply I; reflexivity). destruct c, k; cbn [implb]; split; intros H;
      try discriminate H; try (injection H as <- <-; split; [reflexivity|]; left; intuition).
    all: destruct H as [E [[_ [C O]]|[N _]]]; [|contradiction]; subst; try reflexivity.
    discriminate (C eq_refl).
  - assert (NA : ~ is_a W X T) by (intros H; apply I in H; discriminate H).
    destruct (converts W (Arg X c LValue) T) eqn:C; split; intros H; try discriminate H.
    + injection H as <- <-. split; [reflexivity|]. right. auto.
    + destruct H as [E [[H _]|[_ [_ O]]]]; [contradiction|]. subst. reflexivity.
    + destruct H as [_ [[H _]|[_ [H _]]]]; [contradiction|discriminate H].
Qed.

Lemma all_some_spec : forall (A B : Type) (f : A -> option B) l r,
  all_some (map f l) = Some r <-> Forall2 (fun a b => f a = Some b) l r.
Proof.
  intros A B f l. induction l as [|a l IH]; intros r; cbn [map all_some].
  - split; intros H; [injection H as <-; constructor|inversion H; reflexivity].
  - destruct (f a) as [b|] eqn:E.
    + destruct (all_some (map f l)) as [bs|].
      * split; intros H.
        -- injection H as <-. constructor; [exact E|]. apply IH. reflexivity.
        -- inversion H; subst. assert (X : Some bs = Some l') by (apply IH; assumption). congruence.
      * split; intros H; [discriminate H|]. inversion H; subst.
        assert (X : None = Some l') by (apply IH; assumption). discriminate X.
    + split; intros H; [discriminate H|]. inversion H; subst. congruence.
Qed.

Lemma Forall2_iff : forall (A B : Type) (P Q : A -> B -> Prop), (forall a b, P a b <-> Q a b) ->
  forall l r, Forall2 P l r <-> Forall2 Q l r.
Proof.
  intros A B P Q H l r. split; intros F; induction F; constructor; auto; apply H; auto.
Qed.

Lemma construct_exact : forall W T k args res,
  construct_args W T k args = Some res <-> Forall2 (one W T k) args res.
Proof.
  intros W T k args res. unfold construct_args. rewrite all_some_spec. apply Forall2_iff. apply forward_one.
Qed.

Lemma construct_named : forall W T k args, construct_args W T k (map named args) = construct_args W T k args.
Proof. intros W T k args. unfold construct_args. rewrite map_map. reflexivity. Qed.
Lemma new_exact : forall W T k args res,
  new_object_args W T k args = Some res <-> Forall2 (one W T k) args res.
Proof. intros W T k args res. unfold new_object_args. rewrite construct_named. apply construct_exact. Qed.

Lemma both_exact : forall W T k args res,
  (construct_args W T k args = Some res <-> new_object_args W T k args = Some res) /\
  (new_object_args W T k args = Some res <->
   Forall2 (fun a r => as_arg r = Arg T k RValue /\
     (is_a W (of_type a) T /\ (is_const a = true -> k = true) /\ own_object r = true \/
      ~ is_a W (of_type a) T /\ converts W (Arg (of_type a) (is_const a) LValue) T = true /\ own_object r = false))
     args res).
Proof.
  intros W T k args res. split; [|apply new_exact]. rewrite construct_exact, new_exact. reflexivity.
Qed.

Lemma unchanged_one : forall W T k a, one W T k a (unchanged a) <-> a = Arg T k RValue.
Proof.
  intros W T k a. unfold one, unchanged. cbn [as_arg own_object]. split.
  - intros [H _]. exact H.
  - intros ->. split; [reflexivity|]. left. cbn. split; [left; reflexivity|]. auto.
Qed.

Lemma unchanged_all : forall W T k args,
  Forall2 (one W T k) args (map unchanged args) <-> forall a, In a args -> a = Arg T k RValue.
Proof.
  intros W T k args. induction args as [|a args IH]; cbn [map].
  - split; [intros _ a []|constructor].
  - split; intros H.
    + inversion H as [|x y l r O F E1 E2]; subst. intros b [<-|I].
      * apply (proj1 (unchanged_one W T k a) O).
      * apply (proj1 IH F b I).
    + constructor; [apply unchanged_one; apply H; left; reflexivity|]. apply IH. intros b I. apply H. right. exact I.
Qed.

Lemma arrive_unchanged : forall W T k args,
  (new_object_args W T k args = Some (map unchanged args) <-> forall a, In a args -> a = Arg T k RValue) /\
  (construct_args W T k args = Some (map unchanged args) <-> forall a, In a args -> a = Arg T k RValue).
Proof.
  intros W T k args. rewrite new_exact, construct_exact. split; apply unchanged_all.
Qed.

Lemma unchanged_enough : forall W T k args, (forall a, In a args -> a = Arg T k RValue) ->
  new_object_args W T k args = Some (map unchanged args) /\
  construct_args W T k args = Some (map unchanged args).
Proof. intros W T k args H. split; apply arrive_unchanged; exact H. Qed.

Lemma one_arg : forall W T k a,
  match new_object_args W T k [a] with
  | Some res => exists r, res = [r] /\ one W T k a r
  | None => forall r, ~ one W T k a r
  end.
Proof.
  intros W T k a. destruct (new_object_args W T k [a]) as [res|] eqn:E.
  - apply new_exact in E. inversion E; subst. inversion H3; subst. eauto.
  - intros r O. assert (X : new_object_args W T k [a] = Some [r]) by (apply new_exact; constructor; [exact O|constructor]).
    congruence.
Qed.

Lemma not_forwarded : forall W T,
  new_object_args W T false [Arg T false LValue] = Some [Arrives (Arg T false RValue) true] /\
  (forall k, new_object_args W T false [Arg T true k] = None) /\
  forall X c k kt, ~ is_a W X T ->
    new_object_args W T kt [Arg X c k] =
      if converts W (Arg X c LValue) T then Some [Arrives (Arg T kt RValue) false] else None.
Proof.
  intros W T. split; [|split].
  - apply new_exact. constructor; [|constructor]. split; [reflexivity|]. left. cbn. split; [left; reflexivity|auto].
  - intros k. pose proof (one_arg W T false (Arg T true k)) as H. destruct (new_object_args _ _ _ _) as [res|]; [|reflexivity].
    destruct H as [r [_ [_ [[_ [H _]]|[H _]]]]]; [discriminate (H eq_refl)|]. exfalso. apply H. left. reflexivity.
  - intros X c k kt N. pose proof (one_arg W T kt (Arg X c k)) as H. destruct (converts W (Arg X c LValue) T) eqn:C.
    + apply new_exact. constructor; [|constructor]. split; [reflexivity|]. right. auto.
    + destruct (new_object_args _ _ _ _) as [res|]; [|reflexivity].
      destruct H as [r [_ [_ [[H _]|[_ [H _]]]]]]; [contradiction|]. cbn in H. congruence.
Qed.

(** * Which constructor is called *)

Lemma arrivals_args : forall W T k args res, Forall2 (one W T k) args res ->
  map as_arg res = repeat (Arg T k RValue) (length args).
Proof.
  intros W T k args res H. induction H as [|a r args res [E _] F IH]; [reflexivity|].
  cbn [map length repeat]. rewrite E, IH. reflexivity.
Qed.

Lemma calls_construct : forall W U T k args b,
  construct_calls W U T k args = Some b <->
  (exists res, construct_args W T k args = Some res) /\ U (repeat (Arg T k RValue) (length args)) = Some b.
Proof.
  intros W U T k args b. unfold construct_calls. destruct (construct_args W T k args) as [res|] eqn:E.
  - apply construct_exact in E. rewrite (arrivals_args _ _ _ _ _ E). split; [intros H; split; [eauto|exact H]|intros [_ H]; exact H].
  - split; [discriminate|]. intros [[r H] _]. discriminate H.
Qed.

Lemma calls_new : forall W U T k args b,
  new_object_calls W U T k args = Some b <->
  U args = Some true /\ (exists res, new_object_args W T k args = Some res) /\
  U (repeat (Arg T k RValue) (length args)) = Some b.
Proof.
  intros W U T k args b. unfold new_object_calls, new_object_args. destruct (U args) as [[]|].
  - rewrite calls_construct, map_length. split; [intros [A B]; auto|intros [_ [A B]]; auto].
  - split; [discriminate|]. intros [H _]. discriminate H.
  - split; [discriminate|]. intros [H _]. discriminate H.
Qed.

Lemma same_args : forall T k args, (forall a, In a args -> a = Arg T k RValue) ->
  args = repeat (Arg T k RValue) (length args).
Proof.
  intros T k args H. induction args as [|a args IH]; [reflexivity|]. cbn [length repeat].
  rewrite (H a (or_introl eq_refl)). f_equal. apply IH. intros b I. apply H. right. exact I.
Qed.

Lemma nothrow_rvalues : forall W U T k args, (forall a, In a args -> a = Arg T k RValue) ->
  (U args = Some true <-> exists b, new_object_calls W U T k args = Some b) /\
  forall b, new_object_calls W U T k args = Some b -> b = true.
Proof.
  intros W U T k args H. pose proof (same_args T k args H) as E.
  assert (R : exists res, new_object_args W T k args = Some res)
    by (eexists; apply (proj1 (unchanged_enough W T k args H))).
  split; [split|].
  - intros A. exists true. apply calls_new. split; [exact A|]. split; [exact R|]. rewrite <- E. exact A.
  - intros [b B]. apply calls_new in B. apply B.
  - intros b B. apply calls_new in B. destruct B as [A [_ B]]. rewrite <- E in B. congruence.
Qed.

(** a constructor from const T& that is noexcept and one from T&& that is not *)
Definition copies_quietly (T : nat) : constructors := fun args =>
  match args with
  | [Arg X _ LValue] => if Nat.eqb X T then Some true else None
  | [Arg X true RValue] => if Nat.eqb X T then Some true else None
  | [Arg X false RValue] => if Nat.eqb X T then Some false else None
  | _ => None
  end.

Lemma nothrow_refuted : forall W T,
  copies_quietly T [Arg T false LValue] = Some true /\
  new_object_calls W (copies_quietly T) T false [Arg T false LValue] = Some false.
Proof.
  intros W T. assert (A : copies_quietly T [Arg T false LValue] = Some true) by (cbn; rewrite Nat.eqb_refl; reflexivity).
  split; [exact A|]. apply calls_new. split; [exact A|]. split.
  - eexists. apply not_forwarded.
  - cbn. rewrite Nat.eqb_refl. reflexivity.
Qed.

(** an argument of an unrelated type that does not convert is refused whatever U is *)
Lemma refused : forall W T X c k kt, ~ is_a W X T -> converts W (Arg X c LValue) T = false ->
  forall U, construct_calls W U T kt [Arg X c k] = None /\ new_object_calls W U T kt [Arg X c k] = None.
Proof.
  intros W T X c k kt N C U. assert (R : new_object_args W T kt [Arg X c k] = None).
  { destruct (not_forwarded W T) as [_ [_ H]]. rewrite (H X c k kt N), C. reflexivity. }
  split.
  - destruct (construct_calls W U T kt [Arg X c k]) as [b|] eqn:E; [|reflexivity]. apply calls_construct in E.
    destruct E as [[res E] _]. apply construct_exact in E. apply new_exact in E. congruence.
  - destruct (new_object_calls W U T kt [Arg X c k]) as [b|] eqn:E; [|reflexivity]. apply calls_new in E.
    destruct E as [_ [[res E] _]]. congruence.
Qed.
