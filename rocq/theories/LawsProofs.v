(** Lemmas about the list metaprograms: how the operations combine. *)

Require Import List Arith Bool Lia ZArith Permutation Sorted.
Require Import Verif.TypeListModel Verif.ListSpec Verif.TypeListProofs Verif.TypeListMoreProofs.
Import ListNotations.
Local Open Scope nat_scope.

(** * cutting and joining *)

Lemma join_types : forall a b, concatenate [TTypes a; TTypes b] = Some (TTypes (a ++ b)).
Proof. intros a b. reflexivity. Qed.

Lemma cut_join : forall sz l k, length l < sz -> k < length l ->
  exists a b, sublist sz l 0 k = Some a /\ sublist sz l k (length l - k) = Some b /\
    concatenate [TTypes a; TTypes b] = Some (TTypes l).
Proof.
  intros sz l k S K. exists (firstn k l), (skipn k l).
  assert (SF := fun f c H1 H2 => sublist_full sz l f c S H1 H2).
  split; [apply SF; try lia|].
  - split; [reflexivity|]. destruct k; [right; split; auto|left; lia].
  - split.
    + apply SF; try lia. split; [|left; lia]. symmetry. apply firstn_all2. rewrite skipn_length. lia.
    + rewrite join_types, firstn_skipn. reflexivity.
Qed.

Lemma cut_at_end : forall sz l, length l < sz -> l <> [] -> sublist sz l (length l) 0 = None.
Proof.
  intros sz l S N. destruct (sublist sz l (length l) 0) as [r|] eqn:E; auto.
  apply (sublist_full sz l (length l) 0 S) in E; [|lia|lia]. destruct E as [_ [E|[_ [E|[E _]]]]]; try lia. contradiction.
Qed.

Lemma skipn_twice : forall {A} m n (l : list A), skipn m (skipn n l) = skipn (n + m) l.
Proof.
  intros A m n. induction n as [|n IH]; intros l; [reflexivity|]. destruct l as [|x l]; [rewrite !skipn_nil; reflexivity|]. apply IH.
Qed.

Lemma window_of_window : forall sz l f n m f' n' r, length l < sz -> f < sz -> n < sz -> f' < sz -> n' < sz ->
  sublist sz l f n = Some m -> sublist sz m f' n' = Some r -> sublist sz l (f + f') n' = Some r.
Proof.
  intros sz l f n m f' n' r S1 S2 S3 S4 S5 E1 E2.
  apply (sublist_full sz l f n S1 S2 S3) in E1. destruct E1 as [-> C1].
  assert (LM : length (firstn n (skipn f l)) = n).
  { rewrite firstn_length, skipn_length. destruct C1 as [C1|[-> C1]]; lia. }
  assert (LL : n <= length l) by (destruct C1 as [C1|[-> C1]]; lia).
  apply (sublist_full sz (firstn n (skipn f l)) f' n') in E2; auto; [|lia]. destruct E2 as [-> C2].
  assert (SK : firstn n' (skipn f' (firstn n (skipn f l))) = firstn n' (skipn (f + f') l)).
  { rewrite skipn_firstn_comm, firstn_firstn, skipn_twice. f_equal.
    rewrite LM in C2. destruct C2 as [C2|[-> C2]]; lia. }
  assert (L0 : firstn n (skipn f l) = [] -> n = 0) by (intros E; rewrite E in LM; auto).
  assert (B : f + f' < sz).
  { rewrite LM in C2. destruct C1 as [C1|[-> C1]]; destruct C2 as [C2|[-> [C2|[C2 ->]]]]; try lia; destruct C1 as [C1|[-> ->]]; lia. }
  apply (sublist_full sz l (f + f') n'); auto. split; [exact SK|].
  rewrite LM in C2. destruct C2 as [C2|[-> [C2|[C2 ->]]]].
  - left. split; [lia|]. destruct C1 as [C1|[-> C1]]; lia.
  - right. split; auto. left. destruct C1 as [C1|[-> C1]]; lia.
  - right. split; auto. specialize (L0 C2). subst n. rewrite Nat.add_0_r. destruct C1 as [C1|[_ C1]]; [lia|exact C1].
Qed.

Lemma exclude_value : forall sz l i, length l < sz -> i < length l ->
  exclude_at sz l i = Some (firstn i l ++ skipn (S i) l).
Proof.
  intros sz l i S I. apply (proj1 (exclude_full sz l i S)).
  destruct (nth_error l i) as [t|] eqn:E; [|apply nth_error_None in E; lia].
  destruct (nth_error_split l i E) as [a [b [El La]]]. exists a, t, b. split; auto. split; auto.
  subst l. rewrite <- La. rewrite firstn_app, Nat.sub_diag, firstn_all, app_nil_r. f_equal.
  rewrite skipn_app, skipn_all2 by lia. replace (Datatypes.S (length a) - length a) with 1 by lia. reflexivity.
Qed.

Lemma exclude_joins : forall sz l i a b, length l < sz -> i < length l ->
  sublist sz l 0 i = Some a -> sublist sz l (i + 1) (length l - i - 1) = Some b ->
  exists r, exclude_at sz l i = Some r /\ concatenate [TTypes a; TTypes b] = Some (TTypes r).
Proof.
  intros sz l i a b S I E1 E2. exists (firstn i l ++ skipn (Datatypes.S i) l).
  apply (sublist_full sz l 0 i) in E1; auto; try lia. apply (sublist_full sz l (i + 1)) in E2; auto; try lia.
  destruct E1 as [-> _], E2 as [-> _]. split; [apply exclude_value; auto|].
  rewrite join_types. replace (i + 1) with (Datatypes.S i) by lia. change (skipn 0 l) with l. f_equal. f_equal. f_equal.
  apply firstn_all2. rewrite skipn_length. lia.
Qed.

Lemma exclude_swap : forall sz l i j li lj, length l < sz -> i < j -> exclude_at sz l i = Some li -> exclude_at sz l j = Some lj ->
  exclude_at sz li (j - 1) = exclude_at sz lj i /\ exclude_at sz lj i <> None.
Proof.
  intros sz l i j li lj S IJ E1 E2.
  apply (proj1 (exclude_full sz l i S)) in E1. apply (proj1 (exclude_full sz l j S)) in E2.
  destruct E1 as [a [t [b [El [La ->]]]]]. destruct E2 as [a2 [t2 [b2 [El2 [La2 ->]]]]].
  assert (X : exists m, b = m ++ t2 :: b2 /\ a2 = a ++ t :: m).
  { subst l. clear S. revert a2 i j IJ La La2 El2. induction a as [|x a IH]; intros a2 i j IJ La La2 E; cbn [length] in *.
    - destruct a2 as [|y a2]; cbn [length] in La2; [lia|]. cbn [app] in E. injection E as <- ->. exists a2. auto.
    - destruct a2 as [|y a2]; cbn [length] in La2; [lia|]. cbn [app] in E. injection E as <- E.
      destruct (IH a2 (length a) (length a2) ltac:(lia) eq_refl eq_refl E) as [m [-> ->]]. exists m. auto. }
  destruct X as [m [-> ->]]. rewrite El in S. rewrite !app_length in S. cbn [length] in S. rewrite app_length in S. cbn [length] in S.
  rewrite app_length in La2. cbn [length] in La2.
  assert (R1 : exclude_at sz (a ++ m ++ t2 :: b2) (j - 1) = Some (a ++ m ++ b2)).
  { apply exclude_full; [rewrite !app_length; cbn [length]; lia|]. exists (a ++ m), t2, b2. rewrite <- !app_assoc, app_length. repeat split; auto. lia. }
  assert (R2 : exclude_at sz ((a ++ t :: m) ++ b2) i = Some (a ++ m ++ b2)).
  { apply exclude_full; [rewrite !app_length; cbn [length]; lia|]. exists a, t, (m ++ b2). rewrite <- !app_assoc. repeat split; auto. }
  rewrite R1, R2. split; [reflexivity|discriminate].
Qed.

(** * picking and counting *)

Lemma filter_and : forall {A} (p q : A -> bool) l, filter q (filter p l) = filter (fun x => p x && q x) l.
Proof.
  induction l as [|x l IH]; cbn [filter]; auto. destruct (p x); cbn [filter andb]; rewrite IH; auto.
Qed.

Lemma first_position_here : forall {A} (P : A -> Prop) a b n, first_position P a n -> n < length a -> first_position P (a ++ b) n.
Proof.
  intros A P a b n [H1 H2] L. split.
  - intros i x I E. apply (H1 i x I). rewrite nth_error_app1 in E by lia. exact E.
  - left. destruct H2 as [[x [E Px]]|H2]; [|lia]. exists x. split; auto. rewrite nth_error_app1 by lia. exact E.
Qed.

Lemma first_position_later : forall {A} (P : A -> Prop) a b n, (forall x, In x a -> ~ P x) -> first_position P b n ->
  first_position P (a ++ b) (length a + n).
Proof.
  intros A P a b n N [H1 H2]. split.
  - intros i x I E. destruct (Nat.lt_ge_cases i (length a)) as [L|L].
    + rewrite nth_error_app1 in E by lia. apply N. eapply nth_error_In. exact E.
    + rewrite nth_error_app2 in E by lia. apply (H1 (i - length a) x); [lia|exact E].
  - destruct H2 as [[x [E Px]]|H2].
    + left. exists x. split; auto. rewrite nth_error_app2 by lia. replace (length a + n - length a) with n by lia. exact E.
    + right. rewrite app_length. lia.
Qed.

Lemma count_pred_filter : forall p l, count_of_predicate_compliant p l = length (filter p l).
Proof. intros p l. unfold count_of_predicate_compliant. rewrite fold_count. reflexivity. Qed.

Lemma contains_pred_exists : forall p l, contains_predicate_compliant p l = true <-> exists x, In x l /\ p x = true.
Proof. intros p l. apply (proj1 (proj2 (proj2 (count_queries p (fun x => p x = true) (TTypes []) l (fun x => iff_refl _))))). Qed.

Lemma index_join : forall p a b,
  index_of p (a ++ b) = (if contains_predicate_compliant p a then index_of p a else length a + index_of p b).
Proof.
  intros p a b. assert (PA := index_of_spec p (fun x => p x = true) a (fun x => iff_refl _)).
  assert (PB := index_of_spec p (fun x => p x = true) b (fun x => iff_refl _)).
  assert (PAB := index_of_spec p (fun x => p x = true) (a ++ b) (fun x => iff_refl _)).
  eapply first_position_unique; [exact PAB|]. destruct (contains_predicate_compliant p a) eqn:E.
  - apply first_position_here; auto. apply contains_pred_exists in E. destruct E as [x [I Px]].
    destruct PA as [H1 H2]. destruct H2 as [[y [E _]]|H2]; [apply nth_error_Some; rewrite E; discriminate|].
    exfalso. destruct (In_nth_error _ _ I) as [i Ei]. apply (H1 i x); auto.
    rewrite H2. apply nth_error_Some. rewrite Ei. discriminate.
  - apply first_position_later; auto. intros x I Px. assert (contains_predicate_compliant p a = true) by (apply contains_pred_exists; eauto). congruence.
Qed.

Lemma first_index_join : forall t a b, first_index_of_type t (a ++ b) =
  (if count_of t a =? 0 then length a + first_index_of_type t b else first_index_of_type t a).
Proof.
  intros t a b. eapply first_position_unique; [apply first_index_of_type_spec|].
  assert (PA := first_index_of_type_spec t a). assert (CP := count_pos_in t a).
  destruct (count_of t a =? 0) eqn:E.
  - apply first_position_later; [|apply first_index_of_type_spec]. intros x I ->. apply CP in I. discriminate I.
  - apply first_position_here; auto. assert (I : In t a) by (apply CP; reflexivity).
    destruct PA as [H1 H2]. destruct H2 as [[y [Ey _]]|H2]; [apply nth_error_Some; rewrite Ey; discriminate|].
    exfalso. destruct (In_nth_error _ _ I) as [i Ei]. apply (H1 i t); auto.
    rewrite H2. apply nth_error_Some. rewrite Ei. discriminate.
Qed.

Lemma picking : forall p q a b,
  (exists pa pb, list_of_predicate_compliant p a = Some (TTypes pa) /\ list_of_predicate_compliant p b = Some (TTypes pb) /\
     list_of_predicate_compliant p (a ++ b) = concatenate [TTypes pa; TTypes pb] /\
     list_of_predicate_compliant p pa = Some (TTypes pa) /\
     list_of_predicate_compliant q pa = list_of_predicate_compliant (fun t => p t && q t) a /\
     count_of_predicate_compliant p a = length pa /\
     (forall i, at_with_predicate p i a = at_impl i pa)) /\
  count_of_predicate_compliant p (a ++ b) = count_of_predicate_compliant p a + count_of_predicate_compliant p b /\
  contains_predicate_compliant p (a ++ b) = contains_predicate_compliant p a || contains_predicate_compliant p b /\
  index_of p (a ++ b) = (if contains_predicate_compliant p a then index_of p a else length a + index_of p b) /\
  (forall t, count_of t (a ++ b) = count_of t a + count_of t b) /\
  (forall t, first_index_of_type t (a ++ b) =
     (if count_of t a =? 0 then length a + first_index_of_type t b else first_index_of_type t a)).
Proof.
  intros p q a b. split; [|split; [|split; [|split; [|split]]]].
  - exists (filter p a), (filter p b). rewrite !list_of_pred_filter. do 2 (split; [reflexivity|]).
    split; [rewrite join_types, filter_app; reflexivity|]. split.
    + do 2 f_equal. rewrite filter_and. apply filter_ext. intros x. apply andb_diag.
    + split; [rewrite filter_and; reflexivity|]. split; [apply count_pred_filter|].
      intros i. rewrite at_impl_nth. apply at_with_predicate_filter.
  - rewrite !count_pred_filter, filter_app, app_length. reflexivity.
  - unfold contains_predicate_compliant. apply Bool.eq_true_iff_eq. rewrite orb_true_iff.
    fold (contains_predicate_compliant p (a ++ b)) (contains_predicate_compliant p a) (contains_predicate_compliant p b).
    rewrite !contains_pred_exists. split.
    + intros [x [I X]]. apply in_app_iff in I. destruct I; [left|right]; eauto.
    + intros [[x [I X]]|[x [I X]]]; exists x; (split; [apply in_app_iff|]; auto).
  - apply index_join.
  - intros t. rewrite !count_of_filter, filter_app, app_length. reflexivity.
  - intros t. apply first_index_join.
Qed.

(** * sorting *)

Lemma ssorted_filter : forall {A} (R : A -> A -> Prop) (p : A -> bool) l, StronglySorted R l -> StronglySorted R (filter p l).
Proof.
  intros A R p l H. induction H as [|x l H IH F]; cbn [filter]; [constructor|]. destruct (p x); auto. constructor; auto.
  apply Forall_forall. intros y I. apply filter_In in I. rewrite Forall_forall in F. apply F. tauto.
Qed.

Lemma filter_perm : forall {A} (p : A -> bool) l r, Permutation l r -> Permutation (filter p l) (filter p r).
Proof.
  intros A p l r H. induction H; cbn [filter]; auto.
  - destruct (p x); auto.
  - destruct (p x), (p y); auto. apply perm_swap.
  - eapply Permutation_trans; eauto.
Qed.

Lemma filter_swap : forall {A} (p q : A -> bool) l, filter p (filter q l) = filter q (filter p l).
Proof. intros A p q l. rewrite !filter_and. apply filter_ext. intros x. apply andb_comm. Qed.

Section Sort.
  Variables (A : Type) (key : A -> nat) (R : nat -> nat -> Prop).
  Lemma sort_filter : forall p l r, stable_sort key R l r -> stable_sort key R (filter p l) (filter p r).
  Proof.
    intros p l r [H1 [H2 H3]]. split; [apply filter_perm; auto|]. split; [apply ssorted_filter; auto|].
    intros k. rewrite (filter_swap _ p), H3. apply filter_swap.
  Qed.
  Lemma sort_again : forall l r, stable_sort key R l r -> stable_sort key R r r.
  Proof. intros l r [H1 [H2 H3]]. split; auto. Qed.
  Lemma sort_other : forall (R' : nat -> nat -> Prop) l m r, stable_sort key R' l m -> stable_sort key R l r -> stable_sort key R m r.
  Proof.
    intros R' l m r [H1 [H2 H3]] [G1 [G2 G3]]. split; [eapply Permutation_trans; [apply Permutation_sym; eauto|eauto]|].
    split; auto. intros k. rewrite G3, H3. reflexivity.
  Qed.
  Lemma sort_parts : forall (R' : nat -> nat -> Prop) a b a' b' r, stable_sort key R' a a' -> stable_sort key R' b b' ->
    stable_sort key R (a ++ b) r -> stable_sort key R (a' ++ b') r.
  Proof.
    intros R' a b a' b' r [A1 [A2 A3]] [B1 [B2 B3]] [G1 [G2 G3]]. split.
    - eapply Permutation_trans; [|exact G1]. apply Permutation_app; apply Permutation_sym; auto.
    - split; auto. intros k. rewrite G3, !filter_app, A3, B3. reflexivity.
  Qed.
End Sort.

Lemma asc_value : forall sz l r, length l < sz -> (sort_sizeof_ascending sz l = Some r <-> stable_sort sizeof le l r).
Proof.
  intros sz l r S. destruct (proj1 (sort_full sz l S)) as [r' [E H]]. rewrite E. split.
  - intros X. injection X as <-. exact H.
  - intros X. f_equal. apply (proj1 (stable_sorts_unique ty sizeof l r' r)); auto.
Qed.
Lemma desc_value : forall sz l r, length l < sz -> (sort_sizeof_descending sz l = Some r <-> stable_sort sizeof ge l r).
Proof.
  intros sz l r S. destruct (proj2 (sort_full sz l S)) as [r' [E H]]. rewrite E. split.
  - intros X. injection X as <-. exact H.
  - intros X. f_equal. apply (proj2 (stable_sorts_unique ty sizeof l r' r)); auto.
Qed.

Lemma sorting : forall sz l a d, length l < sz -> sort_sizeof_ascending sz l = Some a -> sort_sizeof_descending sz l = Some d ->
  length a = length l /\ length d = length l /\
  sort_sizeof_ascending sz a = Some a /\ sort_sizeof_descending sz d = Some d /\
  sort_sizeof_ascending sz d = Some a /\ sort_sizeof_descending sz a = Some d /\
  (forall p pl pa pd, list_of_predicate_compliant p l = Some (TTypes pl) ->
     list_of_predicate_compliant p a = Some (TTypes pa) -> list_of_predicate_compliant p d = Some (TTypes pd) ->
     sort_sizeof_ascending sz pl = Some pa /\ sort_sizeof_descending sz pl = Some pd) /\
  (forall t, count_of t a = count_of t l /\ count_of t d = count_of t l) /\
  (contains_copies a = contains_copies l /\ contains_copies d = contains_copies l) /\
  (is_same a = is_same l /\ is_same d = is_same l) /\
  (l <> [] -> exists i j, min_sizeof_index l = Some i /\ max_sizeof_index l = Some j /\
     at_impl 0 a = at_impl i l /\ at_impl 0 d = at_impl j l).
Proof.
  intros sz l a d S EA ED. assert (HA := proj1 (asc_value sz l a S) EA). assert (HD := proj1 (desc_value sz l d S) ED).
  assert (PA : Permutation l a) by apply HA. assert (PD : Permutation l d) by apply HD.
  assert (LA := Permutation_length PA). assert (LD := Permutation_length PD).
  split; auto. split; auto.
  split; [apply asc_value; [lia|]; eapply sort_again; eauto|]. split; [apply desc_value; [lia|]; eapply sort_again; eauto|].
  split; [apply asc_value; [lia|]; eapply sort_other; eauto|]. split; [apply desc_value; [lia|]; eapply sort_other; eauto|].
  split.
  { intros p pl pa pd. rewrite !list_of_pred_filter. intros X Y Z. injection X as <-. injection Y as <-. injection Z as <-.
    assert (FL : length (filter p l) <= length l).
    { clear. induction l as [|x l IH]; cbn [filter length]; auto. destruct (p x); cbn [length]; lia. }
    split; [apply asc_value; [lia|]|apply desc_value; [lia|]]; apply sort_filter; auto. }
  assert (CNT : forall m, Permutation l m -> forall t, count_of t m = count_of t l).
  { intros m P t. rewrite !count_of_filter. symmetry. apply Permutation_length, filter_perm, P. }
  split; [intros t; split; apply CNT; auto|].
  assert (CC : forall m, Permutation l m -> contains_copies m = contains_copies l).
  { intros m P. apply Bool.eq_true_iff_eq. rewrite !contains_copies_spec. split; intros N D; apply N; [apply (Permutation_NoDup P D)|apply (Permutation_NoDup (Permutation_sym P) D)]. }
  split; [split; apply CC; auto|].
  assert (IS : forall m, Permutation l m -> is_same m = is_same l).
  { intros m P. apply Bool.eq_true_iff_eq. rewrite !is_same_spec. split; intros N x y X Y; apply N; first [apply (Permutation_in _ P); assumption|apply (Permutation_in _ (Permutation_sym P)); assumption]. }
  split; [split; apply IS; auto|].
  intros N. destruct (extreme_index_full l) as [M1 [M2 [M3 M4]]].
  destruct (min_sizeof_index l) as [i|] eqn:Ei; [|exfalso; apply N, M1; auto].
  destruct (max_sizeof_index l) as [j|] eqn:Ej; [|exfalso; apply N, M2; auto].
  exists i, j. do 2 (split; [reflexivity|]). rewrite !at_impl_nth.
  destruct (M3 i eq_refl) as [t [T1 [T2 T3]]]. destruct (M4 j eq_refl) as [u [U1 [U2 U3]]].
  assert (HEAD : forall (R : nat -> nat -> Prop) m k x, (forall y z, R y z -> R z y -> y = z) -> stable_sort sizeof R l m ->
    nth_error l k = Some x -> (forall y, In y l -> R (sizeof x) (sizeof y)) ->
    (forall i y, i < k -> nth_error l i = Some y -> sizeof y <> sizeof x) -> nth_error m 0 = Some x).
  { intros R m k x AS [P [SS ST]] K1 K2 K3. destruct m as [|h m]; [apply Permutation_length in P; destruct l; [contradiction|discriminate P]|].
    cbn [nth_error]. f_equal.
    assert (Ix : In x (h :: m)) by (eapply Permutation_in; [exact P|]; eapply nth_error_In; eauto).
    assert (Ih : In h l) by (eapply Permutation_in; [apply Permutation_sym; exact P|left; auto]).
    assert (KE : sizeof h = sizeof x).
    { apply AS; [|apply K2; auto]. destruct Ix as [<-|Ix]; [apply K2; auto|]. inversion SS as [|? ? _ FA]; subst.
      rewrite Forall_forall in FA. apply FA; auto. }
    specialize (ST (sizeof x)). cbn [filter] in ST. rewrite KE, Nat.eqb_refl in ST.
    destruct (nth_error_split l k K1) as [l1 [l2 [El L1]]]. rewrite El, filter_app in ST. cbn [filter] in ST. rewrite Nat.eqb_refl in ST.
    assert (F1 : filter (fun y => sizeof y =? sizeof x) l1 = []).
    { apply length_zero_iff_nil, filter_nil_iff. intros y Iy. apply Nat.eqb_neq. destruct (In_nth_error _ _ Iy) as [w Ew].
      assert (w < length l1) by (apply nth_error_Some; rewrite Ew; discriminate).
      apply (K3 w y); [lia|]. rewrite El, nth_error_app1 by auto. exact Ew. }
    rewrite F1 in ST. cbn [app] in ST. injection ST as ST _. exact ST. }
  rewrite T1, U1. split.
  - apply (HEAD le a i t); auto; [intros; lia|]. intros w y W Y. specialize (T3 w y W Y). lia.
  - apply (HEAD ge d j u); auto; [intros; lia|]. intros w y W Y. specialize (U3 w y W Y). lia.
Qed.

Lemma sorting_parts : forall sz a b a' b', length (a ++ b) < sz ->
  sort_sizeof_ascending sz a = Some a' -> sort_sizeof_ascending sz b = Some b' ->
  sort_sizeof_ascending sz (a ++ b) = sort_sizeof_ascending sz (a' ++ b').
Proof.
  intros sz a b a' b' S EA EB. rewrite app_length in S.
  apply asc_value in EA; [|lia]. apply asc_value in EB; [|lia].
  destruct (proj1 (sort_full sz (a ++ b) ltac:(rewrite app_length; lia))) as [r [E H]]. rewrite E. symmetry. apply asc_value.
  - rewrite app_length. rewrite <- (Permutation_length (proj1 EA)), <- (Permutation_length (proj1 EB)). lia.
  - eapply sort_parts; eauto.
Qed.
Lemma sorting_parts_down : forall sz a b a' b', length (a ++ b) < sz ->
  sort_sizeof_descending sz a = Some a' -> sort_sizeof_descending sz b = Some b' ->
  sort_sizeof_descending sz (a ++ b) = sort_sizeof_descending sz (a' ++ b').
Proof.
  intros sz a b a' b' S EA EB. rewrite app_length in S.
  apply desc_value in EA; [|lia]. apply desc_value in EB; [|lia].
  destruct (proj2 (sort_full sz (a ++ b) ltac:(rewrite app_length; lia))) as [r [E H]]. rewrite E. symmetry. apply desc_value.
  - rewrite app_length. rewrite <- (Permutation_length (proj1 EA)), <- (Permutation_length (proj1 EB)). lia.
  - eapply sort_parts; eauto.
Qed.

(** * products *)

Lemma product_join : forall (a b : list ty) ls, a <> [] -> b <> [] -> ls <> [] -> (forall l, In l (removelast ls) -> l <> []) ->
  exists x y, cartesian_product (map TTypes (a :: ls)) = Some x /\ cartesian_product (map TTypes (b :: ls)) = Some y /\
    cartesian_product (map TTypes ((a ++ b) :: ls)) = concatenate [x; y].
Proof.
  intros a b ls A B L H.
  assert (CP : forall m, m <> [] -> cartesian_product (map TTypes (m :: ls)) = Some (TTypes (map TTypes (lex_product (m :: ls))))).
  { intros m M. apply cartesian_product_types; [destruct ls; [contradiction|cbn [length]; lia]|].
    intros l I. destruct ls as [|z ls]; [contradiction|]. cbn [removelast] in I. destruct I as [<-|I]; auto. }
  do 2 eexists. split; [apply CP; auto|]. split; [apply CP; auto|]. rewrite CP by (destruct a; [contradiction|discriminate]).
  rewrite join_types, <- map_app. cbn [lex_product]. rewrite flat_map_app. reflexivity.
Qed.

(** * values *)

Lemma values_join : forall t a b,
  (exists va vb, v_list_all_of t a = Some (TValues va) /\ v_list_all_of t b = Some (TValues vb) /\
     v_list_all_of t (a ++ b) = concatenate [TValues va; TValues vb] /\ v_list_all_of t va = Some (TValues va)) /\
  (forall m n, v_min t a = Some m -> v_min t b = Some n -> v_min t (a ++ b) = Some (Z.min m n)) /\
  (forall m n, v_max t a = Some m -> v_max t b = Some n -> v_max t (a ++ b) = Some (Z.max m n)) /\
  (v_min t a = None -> v_min t (a ++ b) = v_min t b) /\ (v_min t b = None -> v_min t (a ++ b) = v_min t a) /\
  (v_max t a = None -> v_max t (a ++ b) = v_max t b) /\ (v_max t b = None -> v_max t (a ++ b) = v_max t a).
Proof.
  intros t a b.
  destruct (value_all_of_full t a) as [LA [_ [MA [XA [NA NXA]]]]]. destruct (value_all_of_full t b) as [LB [_ [MB [XB [NB NXB]]]]].
  destruct (value_all_of_full t (a ++ b)) as [LAB [_ [MAB [XAB [NAB NXAB]]]]].
  split.
  - do 2 eexists. split; [exact LA|]. split; [exact LB|]. split; [rewrite LAB, filter_app; reflexivity|].
    rewrite (proj1 (value_all_of_full t _)), filter_and. do 2 f_equal. apply filter_ext. intros x. apply andb_diag.
  - assert (IN : forall x, In (Val t x) (a ++ b) <-> In (Val t x) a \/ In (Val t x) b) by (intros; apply in_app_iff).
    split; [|split; [|split; [|split; [|split]]]].
    + intros m n M N. apply MA in M. apply MB in N. destruct M as [M1 M2], N as [N1 N2]. apply MAB. split.
      * apply IN. destruct (Z.min_spec m n) as [[_ ->]|[_ ->]]; auto.
      * intros x X. apply IN in X. destruct X as [X|X]; [specialize (M2 x X)|specialize (N2 x X)]; lia.
    + intros m n M N. apply XA in M. apply XB in N. destruct M as [M1 M2], N as [N1 N2]. apply XAB. split.
      * apply IN. destruct (Z.max_spec m n) as [[_ ->]|[_ ->]]; auto.
      * intros x X. apply IN in X. destruct X as [X|X]; [specialize (M2 x X)|specialize (N2 x X)]; lia.
    + intros N. assert (NN := proj1 NA N). destruct (v_min t b) as [m|] eqn:E.
      * destruct (proj1 (MB m) eq_refl) as [E1 E2]. apply MAB. split; [apply IN; auto|]. intros x X. apply IN in X. destruct X as [X|X]; [destruct (NN x X)|auto].
      * apply NAB. intros x X. apply IN in X. destruct X as [X|X]; [destruct (NN x X)|]. apply (proj1 NB eq_refl x X).
    + intros N. assert (NN := proj1 NB N). destruct (v_min t a) as [m|] eqn:E.
      * destruct (proj1 (MA m) eq_refl) as [E1 E2]. apply MAB. split; [apply IN; auto|]. intros x X. apply IN in X. destruct X as [X|X]; [auto|destruct (NN x X)].
      * apply NAB. intros x X. apply IN in X. destruct X as [X|X]; [|destruct (NN x X)]. apply (proj1 NA eq_refl x X).
    + intros N. assert (NN := proj1 NXA N). destruct (v_max t b) as [m|] eqn:E.
      * destruct (proj1 (XB m) eq_refl) as [E1 E2]. apply XAB. split; [apply IN; auto|]. intros x X. apply IN in X. destruct X as [X|X]; [destruct (NN x X)|auto].
      * apply NXAB. intros x X. apply IN in X. destruct X as [X|X]; [destruct (NN x X)|]. apply (proj1 NXB eq_refl x X).
    + intros N. assert (NN := proj1 NXB N). destruct (v_max t a) as [m|] eqn:E.
      * destruct (proj1 (XA m) eq_refl) as [E1 E2]. apply XAB. split; [apply IN; auto|]. intros x X. apply IN in X. destruct X as [X|X]; [auto|destruct (NN x X)].
      * apply NXAB. intros x X. apply IN in X. destruct X as [X|X]; [|destruct (NN x X)]. apply (proj1 NXA eq_refl x X).
Qed.

Lemma cut_exactly : forall sz l k, length l < sz -> k <= length l ->
  ((exists a b, sublist sz l 0 k = Some a /\ sublist sz l k (length l - k) = Some b) <-> (k < length l \/ l = [])) /\
  (forall a b, sublist sz l 0 k = Some a -> sublist sz l k (length l - k) = Some b ->
     concatenate [TTypes a; TTypes b] = Some (TTypes l)).
Proof.
  intros sz l k S K. assert (J : forall a b, sublist sz l 0 k = Some a -> sublist sz l k (length l - k) = Some b ->
     concatenate [TTypes a; TTypes b] = Some (TTypes l)).
  { intros a b E1 E2. destruct l as [|t l'].
    - assert (k = 0) by (cbn [length] in K; lia). subst k. injection E1 as <-. injection E2 as <-. reflexivity.
    - set (l := t :: l') in *. assert (L : 0 < length l) by (unfold l; cbn [length]; lia).
      destruct (Nat.eq_dec k (length l)) as [->|NE].
      + rewrite Nat.sub_diag, cut_at_end in E2; [discriminate E2|auto|discriminate].
      + destruct (cut_join sz l k S ltac:(lia)) as [a' [b' [F1 [F2 F3]]]]. congruence. }
  split; auto. split.
  - intros [a [b [E1 E2]]]. destruct l as [|t l']; auto. left.
    destruct (Nat.eq_dec k (length (t :: l'))) as [->|NE]; [|lia].
    rewrite Nat.sub_diag, cut_at_end in E2; [discriminate E2|auto|discriminate].
  - intros [L| ->].
    + destruct (cut_join sz l k S L) as [a [b [F1 [F2 _]]]]. eauto.
    + assert (k = 0) by (cbn [length] in K; lia). subst k. exists [], []. split; reflexivity.
Qed.
