Require Import List Arith Bool Lia Permutation.
Require Import Verif.ListSpec Verif.TypeListModel Verif.TypeListProofs Verif.TypeListMoreProofs Verif.PartialSpec Verif.PartialModel.
Import ListNotations.

(** ** predicates *)

Lemma index_exact_from : forall p l idx k,
  index_of_impl_asking idx p l = Some k <->
  exists i, k = idx + i /\ (forall j x, j < i -> nth_error l j = Some x -> p x = Some false) /\
    ((exists x, nth_error l i = Some x /\ p x = Some true) \/ i = length l).
Proof.
  intros p l. induction l as [|u v IH]; intros idx k; cbn [index_of_impl_asking].
  - split.
    + intros H. injection H as <-. exists 0. split; [lia|]. split; [intros j x J; lia|]. right. reflexivity.
    + intros [i [-> [_ [[x [N _]]|E]]]]; [destruct i; discriminate|]. cbn in E. subst i. f_equal. lia.
  - destruct (p u) as [[]|] eqn:P.
    + split.
      * intros H. injection H as <-. exists 0. split; [lia|]. split; [intros j x J; lia|]. left. exists u. auto.
      * intros [i [-> [B E]]]. destruct i as [|i]; [f_equal; lia|].
        specialize (B 0 u ltac:(lia) eq_refl). congruence.
    + rewrite IH. split.
      * intros [i [-> [B E]]]. exists (S i). split; [lia|]. split.
        -- intros [|j] x J N; cbn in N; [congruence|]. apply (B j); [lia|exact N].
        -- destruct E as [E|E]; [left; exact E|right; cbn; lia].
      * intros [i [-> [B E]]]. destruct i as [|i].
        -- destruct E as [[x [N T]]|E]; [cbn in N; congruence|discriminate].
        -- exists i. split; [lia|]. split.
           ++ intros j x J N. apply (B (S j)); [lia|exact N].
           ++ destruct E as [E|E]; [left; exact E|right; cbn in E; lia].
    + split; [discriminate|]. intros [i [-> [B E]]]. destruct i as [|i].
      * destruct E as [[x [N T]]|E]; [cbn in N; congruence|discriminate].
      * specialize (B 0 u ltac:(lia) eq_refl). congruence.
Qed.

Lemma index_exact : forall p l k,
  index_of_asking p l = Some k <->
  (forall j x, j < k -> nth_error l j = Some x -> p x = Some false) /\
  ((exists x, nth_error l k = Some x /\ p x = Some true) \/ k = length l).
Proof.
  intros p l k. unfold index_of_asking. rewrite index_exact_from. split.
  - intros [i [-> H]]. exact H.
  - intros H. exists k. auto.
Qed.

Lemma at_asking_total : forall p l i, (forall x, In x l -> p x <> None) ->
  at_asking p i l = at_with_predicate (says p) i l.
Proof.
  intros p l. induction l as [|u v IH]; intros i A; cbn [at_asking at_with_predicate]; [reflexivity|].
  assert (R : forall i, at_asking p i v = at_with_predicate (says p) i v)
    by (intros j; apply IH; intros x I; apply A; right; exact I).
  unfold says at 1. destruct (p u) as [[]|] eqn:P.
  - destruct i; auto.
  - destruct i; auto.
  - destruct (A u (or_introl eq_refl) P).
Qed.

Lemma occurrences_cons : forall (A : Type) (P : A -> Prop) x l n,
  occurrences P l n -> (P x -> occurrences P (x :: l) (S n)) /\ (~ P x -> occurrences P (x :: l) n).
Proof.
  intros A P x l n [ps [ND [L E]]]. split; intros H.
  - exists (0 :: map S ps). split; [|split].
    + constructor.
      * intros I. apply in_map_iff in I. destruct I as [j [J _]]. discriminate.
      * apply FinFun.Injective_map_NoDup; [intros a b; lia|exact ND].
    + cbn. rewrite map_length. lia.
    + intros [|i]; split.
      * intros _. exists x. auto.
      * intros _. left. reflexivity.
      * intros [I|I]; [discriminate|]. apply in_map_iff in I. destruct I as [j [J I]]. injection J as <-. apply E. exact I.
      * intros I. right. apply in_map. apply E. exact I.
  - exists (map S ps). split; [|split].
    + apply FinFun.Injective_map_NoDup; [intros a b; lia|exact ND].
    + rewrite map_length. exact L.
    + intros [|i]; split.
      * intros I. apply in_map_iff in I. destruct I as [j [J _]]. discriminate.
      * intros [y [N Py]]. cbn in N. injection N as <-. contradiction.
      * intros I. apply in_map_iff in I. destruct I as [j [J I]]. injection J as <-. apply E. exact I.
      * intros I. apply in_map. apply E. exact I.
Qed.

Lemma occurrences_nil : forall (A : Type) (P : A -> Prop), occurrences P [] 0.
Proof.
  intros. exists []. split; [constructor|]. split; [reflexivity|]. intros i. split; [intros []|].
  intros [x [N _]]. destruct i; discriminate.
Qed.

Lemma occurrences_same : forall (A : Type) (P : A -> Prop) l n m, occurrences P l n -> occurrences P l m -> n = m.
Proof.
  intros A P l n m [ps [D [<- E]]] [qs [D' [<- E']]].
  apply Permutation_length. apply NoDup_Permutation; auto. intros i. rewrite E, E'. reflexivity.
Qed.

Lemma occurrences_exists : forall (A : Type) (P : A -> Prop) l, (forall x, {P x} + {~ P x}) -> exists n, occurrences P l n.
Proof.
  intros A P l D. induction l as [|x l [n O]]; [exists 0; apply occurrences_nil|].
  destruct (occurrences_cons A P x l n O) as [Y N]. destruct (D x); eauto.
Qed.

Lemma occurrences_uncons : forall (A : Type) (P : A -> Prop) x l n, (forall x, {P x} + {~ P x}) ->
  occurrences P (x :: l) n -> exists m, occurrences P l m /\ (P x -> n = S m) /\ (~ P x -> n = m).
Proof.
  intros A P x l n D W. destruct (occurrences_exists A P l D) as [m O]. exists m. split; [exact O|].
  destruct (occurrences_cons A P x l m O) as [Y N]. split; intros H; eapply occurrences_same; eauto.
Qed.

Lemma at_exact : forall p l i t,
  at_asking p i l = Some t <->
  exists k, nth_error l k = Some t /\ p t = Some true /\
    (forall j x, j < k -> nth_error l j = Some x -> p x <> None) /\
    occurrences (fun x => p x = Some true) (firstn k l) i.
Proof.
  assert (Dec : forall (p : ty -> option bool) x, {p x = Some true} + {p x <> Some true})
    by (intros p x; destruct (p x) as [[]|]; [left|right|right]; congruence).
  intros p l. induction l as [|u v IH]; intros i t; cbn [at_asking].
  - split; [discriminate|]. intros [[|k] [N _]]; discriminate.
  - destruct (p u) as [b|] eqn:Pu.
    + destruct b.
      * destruct i as [|i].
        -- split.
           ++ intros H. injection H as <-. exists 0. split; [reflexivity|]. split; [exact Pu|].
              split; [intros j x J; lia|]. cbn. apply occurrences_nil.
           ++ intros [[|k] [N [T [B O]]]]; [exact N|]. cbn [firstn] in O.
              destruct (occurrences_uncons _ _ u (firstn k v) 0 (Dec p) O) as [m [_ [Y _]]]. specialize (Y Pu). lia.
        -- rewrite IH. split.
           ++ intros [k [N [T [B O]]]]. exists (S k). split; [exact N|]. split; [exact T|]. split.
              ** intros [|j] x J M; cbn in M; [congruence|]. apply (B j); [lia|exact M].
              ** cbn [firstn]. apply (proj1 (occurrences_cons _ _ _ _ _ O)). exact Pu.
           ++ intros [[|k] [N [T [B O]]]].
              ** cbn in O. pose proof (occurrences_same _ _ _ _ _ O (occurrences_nil _ _)). lia.
              ** exists k. split; [exact N|]. split; [exact T|]. split.
                 --- intros j x J M. apply (B (S j)); [lia|exact M].
                 --- cbn [firstn] in O. destruct (occurrences_uncons _ _ u (firstn k v) (S i) (Dec p) O) as [m [Om [Y _]]].
                     specialize (Y Pu). replace i with m by lia. exact Om.
      * rewrite IH. split.
        -- intros [k [N [T [B O]]]]. exists (S k). split; [exact N|]. split; [exact T|]. split.
           ++ intros [|j] x J M; cbn in M; [congruence|]. apply (B j); [lia|exact M].
           ++ cbn [firstn]. apply (proj2 (occurrences_cons _ _ _ _ _ O)). congruence.
        -- intros [[|k] [N [T [B O]]]].
           ++ cbn in N. congruence.
           ++ exists k. split; [exact N|]. split; [exact T|]. split.
              ** intros j x J M. apply (B (S j)); [lia|exact M].
              ** cbn [firstn] in O. destruct (occurrences_uncons _ _ u (firstn k v) i (Dec p) O) as [m [Om [_ Y]]].
                 rewrite Y by congruence. exact Om.
    + split; [discriminate|]. intros [[|k] [N [T [B O]]]].
      * cbn in N. congruence.
      * destruct (B 0 u ltac:(lia) eq_refl Pu).
Qed.

Lemma count_from : forall p l acc n,
  count_fold p acc l = Some n <->
  (forall x, In x l -> p x <> None) /\ exists m, n = acc + m /\ occurrences (fun x => p x = Some true) l m.
Proof.
  assert (Dec : forall (p : ty -> option bool) x, {p x = Some true} + {p x <> Some true})
    by (intros p x; destruct (p x) as [[]|]; [left|right|right]; congruence).
  intros p l. induction l as [|u v IH]; intros acc n; cbn [count_fold].
  - split.
    + intros H. injection H as <-. split; [intros x []|]. exists 0. split; [lia|apply occurrences_nil].
    + intros [_ [m [-> O]]]. rewrite (occurrences_same _ _ _ _ _ O (occurrences_nil _ _)). f_equal. lia.
  - destruct (p u) as [b|] eqn:Pu.
    + rewrite IH. split.
      * intros [A [m [-> O]]]. split.
        -- intros x [<-|I]; [congruence|auto].
        -- destruct b.
           ++ exists (S m). split; [lia|]. apply (proj1 (occurrences_cons _ _ _ _ _ O)). exact Pu.
           ++ exists m. split; [lia|]. apply (proj2 (occurrences_cons _ _ _ _ _ O)). congruence.
      * intros [A [m [-> O]]]. split; [intros x I; apply A; right; exact I|].
        destruct (occurrences_uncons _ _ u v m (Dec p) O) as [k [Ok [Y N]]]. exists k. split; [|exact Ok].
        destruct b; [rewrite Y by exact Pu|rewrite N by congruence]; lia.
    + split; [discriminate|]. intros [A _]. destruct (A u (or_introl eq_refl) Pu).
Qed.

Lemma count_exact : forall p l n,
  count_asking p l = Some n <->
  (forall x, In x l -> p x <> None) /\ occurrences (fun x => p x = Some true) l n.
Proof.
  intros p l n. unfold count_asking. rewrite count_from. split.
  - intros [A [m [-> O]]]. split; assumption.
  - intros [A O]. split; [exact A|]. exists n. split; [lia|exact O].
Qed.

Lemma contains_exact : forall p l b,
  contains_asking p l = Some b <->
  (forall x, In x l -> p x <> None) /\ (b = true <-> exists x, In x l /\ p x = Some true).
Proof.
  intros p l b. unfold contains_asking.
  assert (E : forall n, occurrences (fun x => p x = Some true) l n -> (negb (n =? 0) = true <-> exists x, In x l /\ p x = Some true)).
  { intros n [ps [ND [<- H]]]. destruct ps as [|i ps]; cbn.
    - split; [discriminate|]. intros [x [I T]]. apply In_nth_error in I. destruct I as [i N].
      destruct (proj2 (H i) (ex_intro _ x (conj N T))).
    - split; [|reflexivity]. intros _. destruct (proj1 (H i) (or_introl eq_refl)) as [x [N T]].
      exists x. split; [apply (nth_error_In _ _ N)|exact T]. }
  destruct (count_asking p l) as [n|] eqn:C.
  - destruct (proj1 (count_exact p l n) C) as [A O]. split.
    + intros H. injection H as <-. split; [exact A|apply E; exact O].
    + intros [_ B]. f_equal. apply eq_true_iff_eq. rewrite B. apply E. exact O.
  - split; [discriminate|]. intros [A _]. exfalso.
    assert (X : exists n, count_asking p l = Some n); [|destruct X; congruence].
    unfold count_asking. generalize 0. clear - A. induction l as [|u v IH]; intros acc; cbn [count_fold]; [eauto|].
    destruct (p u) as [c|] eqn:Pu; [|destruct (A u (or_introl eq_refl) Pu)].
    apply IH. intros x I. apply A. right. exact I.
Qed.

Lemma all_some_exact : forall (A B : Type) (f : A -> option B) l r,
  all_some (map f l) = Some r <-> Forall2 (fun x y => f x = Some y) l r.
Proof.
  intros A B f l. induction l as [|x l IH]; intros r; cbn [map all_some].
  - split; [intros H; injection H as <-; constructor|]. intros H. inversion H. reflexivity.
  - destruct (f x) as [y|] eqn:F.
    + destruct (all_some (map f l)) as [r'|] eqn:R.
      * split.
        -- intros H. injection H as <-. constructor; [exact F|]. apply IH. reflexivity.
        -- intros H. inversion H; subst. replace y0 with y by congruence. f_equal. f_equal.
           assert (Some r' = Some l') by (apply IH; assumption). congruence.
      * split; [discriminate|]. intros H. inversion H; subst.
        assert (None = Some l') by (apply IH; assumption). congruence.
    + split; [discriminate|]. intros H. inversion H. congruence.
Qed.

Lemma list_exact : forall p l r,
  list_of_asking p l = Some r <->
  (forall x, In x l -> p x <> None) /\ r = TTypes (filter (says p) l).
Proof.
  intros p l r. destruct l as [|u v].
  - cbn. split; [intros H; injection H as <-; split; [intros x []|reflexivity]|]. intros [_ ->]. reflexivity.
  - set (l := u :: v). unfold list_of_asking. change (match l with [] => Some (TTypes []) | _ => _ end) with
      (match all_some (map (fun t => match p t with Some b => Some (if b then TTypes [t] else TTypes []) | None => None end) l) with
       | Some ts => concatenate ts | None => None end).
    assert (S : (forall x, In x l -> p x <> None) ->
      all_some (map (fun t => match p t with Some b => Some (if b then TTypes [t] else TTypes []) | None => None end) l) =
      Some (map (fun t => if says p t then TTypes [t] else TTypes []) l)).
    { intros A. apply all_some_exact. revert A. generalize l. clear. intros l. induction l as [|x l IH]; intros A; cbn [map]; constructor.
      - unfold says. destruct (p x) eqn:E; [reflexivity|]. destruct (A x (or_introl eq_refl) E).
      - apply IH. intros y I. apply A. right. exact I. }
    assert (F : concatenate (map (fun t => if says p t then TTypes [t] else TTypes []) l) = Some (TTypes (filter (says p) l)))
      by (exact (list_of_pred_filter (says p) l)).
    destruct (all_some _) as [ts|] eqn:E.
    + assert (A : forall x, In x l -> p x <> None).
      { apply all_some_exact in E. revert E. generalize l. clear. intros l E. induction E as [|x y l ts H _ IH]; intros z [].
        - subst z. destruct (p x); [discriminate|congruence].
        - apply IH. assumption. }
      pose proof (S A) as Q. apply (f_equal (fun o => match o with Some x => x | None => ts end)) in Q. cbv beta iota in Q. rewrite Q, F. split.
      * intros H. injection H as <-. auto.
      * intros [_ ->]. reflexivity.
    + split; [discriminate|]. intros [A _]. pose proof (S A) as Q. discriminate.
Qed.

(** ** sizes *)

Lemma min_fold_exact : forall sized rest i index mn,
  min_fold_asking sized i rest index mn =
  if forallb sized rest then Some (min_sizeof_fold i rest index mn) else None.
Proof.
  intros sized rest. induction rest as [|r rest IH]; intros i index mn; cbn [min_fold_asking min_sizeof_fold forallb]; [reflexivity|].
  unfold sizeof_asking. destruct (sized r); cbn [andb]; [|reflexivity]. destruct (sizeof r <? mn); apply IH.
Qed.
Lemma max_fold_exact : forall sized rest i index mn,
  max_fold_asking sized i rest index mn =
  if forallb sized rest then Some (max_sizeof_fold i rest index mn) else None.
Proof.
  intros sized rest. induction rest as [|r rest IH]; intros i index mn; cbn [max_fold_asking max_sizeof_fold forallb]; [reflexivity|].
  unfold sizeof_asking. destruct (sized r); cbn [andb]; [|reflexivity]. destruct (mn <? sizeof r); apply IH.
Qed.

Lemma min_index_eq : forall sized l, min_index_asking sized l = if forallb sized l then min_sizeof_index l else None.
Proof.
  intros sized [|t rest]; [reflexivity|]. cbn [min_index_asking min_sizeof_index forallb]. unfold sizeof_asking.
  destruct (sized t); cbn [andb]; [|reflexivity]. apply min_fold_exact.
Qed.
Lemma max_index_eq : forall sized l, max_index_asking sized l = if forallb sized l then max_sizeof_index l else None.
Proof.
  intros sized [|t rest]; [reflexivity|]. cbn [max_index_asking max_sizeof_index forallb]. unfold sizeof_asking.
  destruct (sized t); cbn [andb]; [|reflexivity]. apply max_fold_exact.
Qed.

Lemma extreme_exact : forall sized l k,
  (min_index_asking sized l = Some k <-> (forall t, In t l -> sized t = true) /\ min_sizeof_index l = Some k) /\
  (max_index_asking sized l = Some k <-> (forall t, In t l -> sized t = true) /\ max_sizeof_index l = Some k).
Proof.
  intros sized l k. rewrite min_index_eq, max_index_eq. pose proof (forallb_forall sized l) as F.
  destruct (forallb sized l).
  - pose proof (proj1 F eq_refl) as A. tauto.
  - assert (N : ~ forall t, In t l -> sized t = true) by (intros A; apply F in A; discriminate).
    split; (split; [discriminate|tauto]).
Qed.

Lemma sort_by_sized : forall (index : list ty -> option nat) (sized : ty -> bool) sz fuel l,
  length l < sz -> length l <= fuel ->
  (forall l k, index l = Some k -> k < length l) ->
  (forall t, In t l -> sized t = true) ->
  sort_by (fun l => if forallb sized l then index l else None) sz fuel l = sort_by index sz fuel l.
Proof.
  intros index sized sz fuel. induction fuel as [|fuel IH]; intros l Z F K A.
  - destruct l; [reflexivity|cbn in F; lia].
  - destruct l as [|t1 [|t2 l0]]; [reflexivity|reflexivity|]. set (l := t1 :: t2 :: l0) in *.
    change (sort_by (fun l => if forallb sized l then index l else None) sz (S fuel) l) with
      (match (if forallb sized l then index l else None) with
       | None => None
       | Some k => match at_impl k l, exclude_at sz l k with
         | Some t, Some l' => match sort_by (fun l => if forallb sized l then index l else None) sz fuel l' with
             | Some r => match concatenate [TTypes [t]; TTypes r] with Some (TTypes c) => Some c | _ => None end
             | None => None end
         | _, _ => None end end).
    change (sort_by index sz (S fuel) l) with
      (match index l with
       | None => None
       | Some k => match at_impl k l, exclude_at sz l k with
         | Some t, Some l' => match sort_by index sz fuel l' with
             | Some r => match concatenate [TTypes [t]; TTypes r] with Some (TTypes c) => Some c | _ => None end
             | None => None end
         | _, _ => None end end).
    rewrite (proj2 (forallb_forall sized l) A). destruct (index l) as [k|] eqn:E; [|reflexivity].
    pose proof (K l k E) as Kl. rewrite exclude_at_spec by lia.
    destruct (at_impl k l); [|reflexivity]. rewrite IH; [reflexivity| | |exact K|].
    + rewrite app_length, firstn_length, skipn_length. lia.
    + rewrite app_length, firstn_length, skipn_length. lia.
    + intros x I. apply A. apply in_app_or in I.
      destruct I as [I|I]; [rewrite <- (firstn_skipn k l)|rewrite <- (firstn_skipn (S k) l)]; apply in_or_app; auto.
Qed.

Lemma index_bound : forall l k, (min_sizeof_index l = Some k \/ max_sizeof_index l = Some k) -> k < length l.
Proof.
  intros l k H. apply nth_error_Some.
  destruct H as [H|H]; [destruct (min_sizeof_index_spec l k H) as [t [-> _]]|destruct (max_sizeof_index_spec l k H) as [t [-> _]]]; discriminate.
Qed.

Lemma sort_by_ext : forall f g sz fuel l, (forall l, f l = g l) -> sort_by f sz fuel l = sort_by g sz fuel l.
Proof.
  intros f g sz fuel. induction fuel as [|fuel IH]; intros l E; destruct l as [|t1 [|t2 l0]]; try reflexivity.
  cbn [sort_by]. rewrite E. destruct (g (t1 :: t2 :: l0)) as [k|]; [|reflexivity].
  destruct (at_impl k (t1 :: t2 :: l0)); [|reflexivity]. destruct (exclude_at sz (t1 :: t2 :: l0) k); [|reflexivity].
  rewrite IH by exact E. reflexivity.
Qed.

Lemma sort_unsized : forall (index : list ty -> option nat) sized sz fuel t1 t2 l0,
  forallb sized (t1 :: t2 :: l0) = false ->
  sort_by (fun l => if forallb sized l then index l else None) sz fuel (t1 :: t2 :: l0) = None.
Proof. intros index sized sz [|fuel] t1 t2 l0 H; [reflexivity|]. cbn [sort_by]. rewrite H. reflexivity. Qed.

Lemma sorts_exact : forall sized sz l r, length l < sz ->
  (sort_ascending_asking sized sz l = Some r <->
   (length l <= 1 \/ forall t, In t l -> sized t = true) /\ stable_sort sizeof le l r) /\
  (sort_descending_asking sized sz l = Some r <->
   (length l <= 1 \/ forall t, In t l -> sized t = true) /\ stable_sort sizeof ge l r).
Proof.
  intros sized sz l r Z.
  assert (G : forall (index indexp : list ty -> option nat) (le : nat -> nat -> Prop),
    (forall l, indexp l = if forallb sized l then index l else None) ->
    (forall l k, index l = Some k -> k < length l) ->
    (exists r, sort_by index sz (length l) l = Some r /\ stable_sort sizeof le l r) ->
    (forall r1 r2, stable_sort sizeof le l r1 -> stable_sort sizeof le l r2 -> r1 = r2) ->
    sort_by indexp sz (length l) l = Some r <->
    (length l <= 1 \/ forall t, In t l -> sized t = true) /\ stable_sort sizeof le l r).
  { intros index indexp R E K [r0 [S0 SS]] U. rewrite (sort_by_ext indexp _ sz (length l) l E).
    assert (Same : (length l <= 1 \/ forall t, In t l -> sized t = true) ->
      sort_by (fun l => if forallb sized l then index l else None) sz (length l) l = Some r0).
    { intros [L|A].
      - destruct l as [|t1 [|t2 l0]]; [exact S0|exact S0|cbn in L; lia].
      - rewrite sort_by_sized; auto. }
    split.
    - intros H.
      assert (C : length l <= 1 \/ forall t, In t l -> sized t = true).
      { destruct l as [|t1 [|t2 l0]]; [left; cbn; lia|left; cbn; lia|]. right.
        apply forallb_forall. destruct (forallb sized (t1 :: t2 :: l0)) eqn:F; [reflexivity|].
        rewrite sort_unsized in H by exact F. discriminate. }
      split; [exact C|]. rewrite (Same C) in H. injection H as <-. exact SS.
    - intros [C S]. rewrite (Same C). f_equal. apply U; assumption. }
  split.
  - apply (G min_sizeof_index (min_index_asking sized) le).
    + apply min_index_eq.
    + intros l0 k H. apply index_bound. auto.
    + destruct (sort_asc_spec sz l Z) as [r0 H]. exists r0. exact H.
    + intros r1 r2. apply (proj1 (stable_sorts_unique _ _ _ _ _)).
  - apply (G max_sizeof_index (max_index_asking sized) ge).
    + apply max_index_eq.
    + intros l0 k H. apply index_bound. auto.
    + destruct (sort_desc_spec sz l Z) as [r0 H]. exists r0. exact H.
    + intros r1 r2. apply (proj2 (stable_sorts_unique _ _ _ _ _)).
Qed.

(** ** queries that only compare types *)

Lemma eqb_renamed : forall f, injective f -> forall a b, ty_eqb (f a) (f b) = ty_eqb a b.
Proof.
  intros f I a b. apply eq_true_iff_eq. rewrite !ty_eqb_eq. split; [apply I|intros ->; reflexivity].
Qed.

Lemma at_renamed : forall f l i, at_impl i (map f l) = option_map f (at_impl i l).
Proof.
  intros f l. induction l as [|u v IH]; intros [|i]; cbn; auto.
Qed.

Lemma count_renamed : forall f, injective f -> forall t l, count_of (f t) (map f l) = count_of t l.
Proof.
  intros f I t l. unfold count_of.
  assert (E : forall n, fold_left (fun acc u => acc + (if ty_eqb (f t) u then 1 else 0)) (map f l) n =
    fold_left (fun acc u => acc + (if ty_eqb t u then 1 else 0)) l n).
  { induction l as [|u v IH]; intros n; cbn [map fold_left]; [reflexivity|]. rewrite eqb_renamed by exact I. apply IH. }
  apply E.
Qed.

Lemma first_index_renamed : forall f, injective f -> forall t l, first_index_of_type (f t) (map f l) = first_index_of_type t l.
Proof.
  intros f I t l. unfold first_index_of_type. rewrite map_length.
  assert (E : forall i k, first_index_fold (f t) i (map f l) k = first_index_fold t i l k).
  { induction l as [|u v IH]; intros i k; cbn [map first_index_fold]; [reflexivity|].
    rewrite eqb_renamed by exact I. cbv zeta. destruct (_ =? 0); [apply IH|reflexivity]. }
  rewrite E. reflexivity.
Qed.

Lemma same_options : forall (A : Type) (a b : option A), (forall r, a = Some r <-> b = Some r) -> a = b.
Proof.
  intros A [x|] b H; [symmetry; apply H; reflexivity|]. destruct b as [y|]; [|reflexivity].
  destruct (proj2 (H y) eq_refl). reflexivity.
Qed.

Lemma mapped : forall (A B : Type) (f : A -> B) o r, option_map f o = Some r <-> exists x, o = Some x /\ r = f x.
Proof.
  intros A B f [x|] r; cbn; split.
  - intros H. injection H as <-. eauto.
  - intros [y [E ->]]. congruence.
  - discriminate.
  - intros [y [E _]]. discriminate.
Qed.

Lemma sublist_renamed : forall f sz l first count, length l < sz -> first < sz -> count < sz ->
  sublist sz (map f l) first count = option_map (map f) (sublist sz l first count).
Proof.
  intros f sz l first count L F C. apply same_options. intros r.
  rewrite mapped, sublist_full by (rewrite ?map_length; assumption). rewrite map_length, skipn_map, firstn_map. split.
  - intros [-> H]. eexists. split; [apply sublist_full; auto; split; [reflexivity|]|reflexivity].
    destruct H as [H|[H [K|[K M]]]]; [left; exact H|right; auto|right; split; [exact H|right]].
    destruct l; [auto|discriminate].
  - intros [x [E ->]]. apply sublist_full in E; auto. destruct E as [-> H]. split; [reflexivity|].
    destruct H as [H|[H [K|[K M]]]]; [left; exact H|right; auto|right; split; [exact H|right]]. subst l. auto.
Qed.

Lemma exclude_renamed : forall f sz l i, length l < sz ->
  exclude_at sz (map f l) i = option_map (map f) (exclude_at sz l i).
Proof.
  intros f sz l i L. destruct (Nat.lt_ge_cases i (length l)) as [H|H].
  - rewrite !exclude_at_spec by (rewrite ?map_length; assumption). cbn [option_map].
    rewrite map_app, firstn_map, skipn_map. reflexivity.
  - unfold exclude_at. rewrite map_length. rewrite (proj2 (Nat.ltb_ge _ _) H). reflexivity.
Qed.

Lemma is_same_renamed : forall f, injective f -> forall l, is_same (map f l) = is_same l.
Proof.
  intros f I [|t l]; [reflexivity|]. cbn [map is_same]. induction l as [|u v IH]; [reflexivity|].
  cbn [map forallb]. rewrite eqb_renamed by exact I. rewrite IH. reflexivity.
Qed.

Lemma copies_renamed : forall f, injective f -> forall l, contains_copies (map f l) = contains_copies l.
Proof.
  intros f I l. unfold contains_copies.
  assert (G : forall k, existsb (fun t => more_than_once t (map f l)) (map f k) = existsb (fun t => more_than_once t l) k).
  { induction k as [|u v IH]; [reflexivity|]. cbn [map existsb]. unfold more_than_once at 1 3.
    rewrite count_renamed by exact I. rewrite IH. reflexivity. }
  apply G.
Qed.

Lemma renaming : forall f, injective f -> forall sz l t i first count,
  length l < sz -> first < sz -> count < sz ->
  at_impl i (map f l) = option_map f (at_impl i l) /\
  first_index_of_type (f t) (map f l) = first_index_of_type t l /\
  count_of (f t) (map f l) = count_of t l /\
  is_same (map f l) = is_same l /\ contains_copies (map f l) = contains_copies l /\
  sublist sz (map f l) first count = option_map (map f) (sublist sz l first count) /\
  exclude_at sz (map f l) i = option_map (map f) (exclude_at sz l i).
Proof.
  intros f I sz l t i first count L F C.
  split; [apply at_renamed|]. split; [apply first_index_renamed; exact I|]. split; [apply count_renamed; exact I|].
  split; [apply is_same_renamed; exact I|]. split; [apply copies_renamed; exact I|].
  split; [apply sublist_renamed; assumption|apply exclude_renamed; assumption].
Qed.
