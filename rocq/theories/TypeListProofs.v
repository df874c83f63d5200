(** Lemmas about the model of type_list.h, value_list.h, cartesian_product.h. *)

Require Import List Arith ZArith Bool Lia Permutation Sorted.
Require Import Verif.TypeListModel Verif.ListSpec.
Import ListNotations.

(** * Decidable equality of entities *)

Lemma val_eqb_eq : forall a b, val_eqb a b = true <-> a = b.
Proof.
  intros [t v] [t' v']. unfold val_eqb; simpl.
  rewrite andb_true_iff, Nat.eqb_eq, Z.eqb_eq. split.
  - intros [-> ->]; reflexivity.
  - intros H; injection H; auto.
Qed.

Lemma list_eqb_eq : forall A (e : A -> A -> bool) l,
  (forall x, In x l -> forall y, e x y = true <-> x = y) ->
  forall l', list_eqb e l l' = true <-> l = l'.
Proof.
  intros A e l. induction l as [|x l IH]; intros He [|y l']; simpl;
    try (split; intro; (reflexivity || discriminate)).
  rewrite andb_true_iff. rewrite (He x (or_introl eq_refl)).
  rewrite IH by (intros; apply He; right; assumption).
  split; [intros [-> ->]; reflexivity | intro H; injection H; auto].
Qed.

Section TyInd.
  Variable P : ty -> Prop.
  Hypothesis HA : forall n s, P (TAtom n s).
  Hypothesis HT : forall l, (forall x, In x l -> P x) -> P (TTypes l).
  Hypothesis HV : forall l, P (TValues l).
  Fixpoint ty_ind' (t : ty) : P t :=
    match t with
    | TAtom n s => HA n s
    | TTypes l =>
      HT l ((fix go (l : list ty) : forall x, In x l -> P x :=
        match l with
        | [] => fun x h => match h with end
        | y :: r => fun x h =>
          match h with
          | or_introl e => eq_ind y P (ty_ind' y) x e
          | or_intror h' => go r x h'
          end
        end) l)
    | TValues l => HV l
    end.
End TyInd.

Lemma ty_eqb_eq : forall a b, ty_eqb a b = true <-> a = b.
Proof.
  induction a as [n s|l IH|l] using ty_ind'; intros [n' s'|l'|l']; simpl;
    try (split; intro; discriminate).
  - rewrite andb_true_iff, !Nat.eqb_eq. split.
    + intros [-> ->]; reflexivity.
    + intros H; injection H; auto.
  - rewrite (list_eqb_eq _ _ l IH). split; [intros ->; reflexivity|intros H; injection H; auto].
  - rewrite (list_eqb_eq _ _ l (fun x _ y => val_eqb_eq x y)).
    split; [intros ->; reflexivity|intros H; injection H; auto].
Qed.

Lemma ty_eqb_refl : forall a, ty_eqb a a = true.
Proof. intros; apply ty_eqb_eq; reflexivity. Qed.

Lemma v_is_same_eq : forall a b, v_is_same a b = true <-> a = b.
Proof.
  intros [t v] [t' v']. unfold v_is_same; simpl.
  destruct (Nat.eqb_spec t t').
  - rewrite Z.eqb_eq. subst. split; [intros ->; reflexivity|intros H; injection H; auto].
  - split; [discriminate|intros H; injection H; congruence].
Qed.

(** * Generic lemmas *)

Lemma first_position_cons_no : forall A (P : A -> Prop) x l n,
  ~ P x -> first_position P l n -> first_position P (x :: l) (S n).
Proof.
  intros A P x l n Hx [H1 H2]. split.
  - intros [|i] y Hi E; simpl in E.
    + injection E; intros; subst; auto.
    + eapply H1; eauto; lia.
  - destruct H2 as [[y [E Hy]]| ->]; [left; exists y; auto | right; reflexivity].
Qed.

Lemma first_position_unique : forall A (P : A -> Prop) l n m,
  first_position P l n -> first_position P l m -> n = m.
Proof.
  intros A P l n m [H1 H2] [H3 H4].
  destruct (lt_eq_lt_dec n m) as [[L|E]|L]; auto.
  - destruct H2 as [[x [E Hx]]| ->].
    + exfalso; eapply H3; eauto.
    + destruct H4 as [[x [E Hx]]| ->]; [|lia].
      assert (length l <= m) by lia. apply nth_error_None in H. congruence.
  - destruct H4 as [[x [E Hx]]| ->].
    + exfalso; eapply H1; eauto.
    + destruct H2 as [[x [E Hx]]| ->]; [|lia].
      assert (length l <= n) by lia. apply nth_error_None in H. congruence.
Qed.

Lemma fold_count : forall A (p : A -> bool) l a,
  fold_left (fun acc u => acc + (if p u then 1 else 0)) l a = a + length (filter p l).
Proof.
  intros A p l; induction l as [|x l IH]; intros a; simpl.
  - lia.
  - rewrite IH. destruct (p x); simpl; lia.
Qed.

Lemma occurrences_filter : forall A (p : A -> bool) (P : A -> Prop) l,
  (forall x, p x = true <-> P x) -> occurrences P l (length (filter p l)).
Proof.
  intros A p P l Hp.
  exists (filter (fun i => match nth_error l i with Some x => p x | None => false end)
                 (seq 0 (length l))).
  split; [|split].
  - apply NoDup_filter, seq_NoDup.
  - clear Hp P. induction l as [|x l IH]; [reflexivity|].
    change (seq 0 (length (x :: l))) with (0 :: seq 1 (length l)). rewrite <- seq_shift.
    assert (E : length (filter (fun i => match nth_error (x :: l) i with Some x0 => p x0 | None => false end) (map S (seq 0 (length l))))
      = length (filter (fun i => match nth_error l i with Some x0 => p x0 | None => false end) (seq 0 (length l)))).
    { generalize (seq 0 (length l)) as s. intros s; induction s as [|i s IHs]; [reflexivity|].
      simpl. destruct (nth_error l i); [destruct (p a)|]; simpl; auto. }
    cbn [filter nth_error]. destruct (p x); cbn [length]; rewrite E, IH; reflexivity.
  - intros i. rewrite filter_In, in_seq. split.
    + intros [_ H]. destruct (nth_error l i) eqn:E; [|discriminate].
      exists a; split; auto. apply Hp; auto.
    + intros [x [E H]]. split.
      * assert (i < length l) by (apply nth_error_Some; congruence). lia.
      * rewrite E. apply Hp; auto.
Qed.

Lemma occurrences_unique : forall A (P : A -> Prop) l n m,
  occurrences P l n -> occurrences P l m -> n = m.
Proof.
  intros A P l n m [ps [H1 [H2 H3]]] [qs [H4 [H5 H6]]]. subst.
  apply Nat.le_antisymm; apply NoDup_incl_length; auto; intros i Hi;
    [apply H6, H3|apply H3, H6]; auto.
Qed.

(** * type_list queries *)

Lemma at_impl_nth : forall l i, at_impl i l = nth_error l i.
Proof. induction l; intros [|i]; simpl; auto. Qed.

Lemma at_with_predicate_filter : forall p l i,
  at_with_predicate p i l = nth_error (filter p l) i.
Proof.
  intros p l; induction l as [|u v IH]; intros i; simpl.
  - destruct i; reflexivity.
  - destruct (p u); [destruct i; [reflexivity|apply IH]|apply IH].
Qed.

Lemma index_of_impl_spec : forall p (P : ty -> Prop) l idx,
  (forall x, p x = true <-> P x) ->
  exists n, index_of_impl idx p l = idx + n /\ first_position P l n.
Proof.
  intros p P l idx Hp; revert idx; induction l as [|u v IH]; intros idx; simpl.
  - exists 0; split; [lia|]. split; [intros; lia|right; reflexivity].
  - destruct (p u) eqn:E.
    + exists 0. split; [lia|]. split; [intros; lia|]. left; exists u; split; auto. apply Hp; auto.
    + destruct (IH (S idx)) as [n [E1 E2]]. exists (S n). split; [lia|].
      apply first_position_cons_no; auto. rewrite <- Hp. congruence.
Qed.

Lemma index_of_spec : forall p (P : ty -> Prop) l,
  (forall x, p x = true <-> P x) -> first_position P l (index_of p l).
Proof.
  intros p P l Hp. destruct (index_of_impl_spec p P l 0 Hp) as [n [E H]].
  unfold index_of. rewrite E. exact H.
Qed.

Lemma first_index_fold_spec : forall t l i,
  exists n, first_position (fun x => x = t) l n /\
    first_index_fold t i l 0 = if n <? length l then i + n + 1 else 0.
Proof.
  intros t l; induction l as [|u v IH]; intros i; simpl.
  - exists 0. split; [split; [intros; lia|right; reflexivity]|reflexivity].
  - destruct (ty_eqb t u) eqn:E.
    + apply ty_eqb_eq in E; subst u. exists 0.
      split; [split; [intros; lia|left; exists t; auto]|].
      destruct (Nat.eqb_spec (1 * (i + 1)) 0); [lia|].
      destruct (Nat.ltb_spec 0 (S (length v))); lia.
    + destruct (IH (S i)) as [n [H1 H2]]. exists (S n). split.
      * apply first_position_cons_no; auto. intros ->. rewrite ty_eqb_refl in E; discriminate.
      * simpl. rewrite H2. change (S n <? S (length v)) with (n <? length v).
        destruct (n <? length v); lia.
Qed.

Lemma first_index_of_type_spec : forall t l,
  first_position (fun x => x = t) l (first_index_of_type t l).
Proof.
  intros t l. unfold first_index_of_type.
  destruct (first_index_fold_spec t l 0) as [n [H1 H2]]. rewrite H2.
  destruct (Nat.ltb_spec n (length l)).
  - destruct (Nat.eqb_spec (0 + n + 1) 0); [lia|].
    replace (0 + n + 1 - 1) with n by lia. exact H1.
  - simpl. destruct H1 as [H1 [[x [E Hx]]|E]].
    + apply nth_error_None in H. congruence.
    + subst n. split; auto.
Qed.

Lemma count_of_filter : forall t l, count_of t l = length (filter (ty_eqb t) l).
Proof. intros; unfold count_of. rewrite fold_count. reflexivity. Qed.

Lemma count_of_occurrences : forall t l, occurrences (fun x => x = t) l (count_of t l).
Proof.
  intros. rewrite count_of_filter. apply occurrences_filter.
  intros x. rewrite ty_eqb_eq. split; auto.
Qed.

Lemma count_pred_occurrences : forall p (P : ty -> Prop) l,
  (forall x, p x = true <-> P x) -> occurrences P l (count_of_predicate_compliant p l).
Proof.
  intros. unfold count_of_predicate_compliant. rewrite fold_count. simpl.
  apply occurrences_filter; auto.
Qed.

Lemma filter_nil_iff : forall A (p : A -> bool) l,
  length (filter p l) = 0 <-> forall x, In x l -> p x = false.
Proof.
  intros A p l; induction l as [|y l IH]; simpl.
  - split; [intros _ x []|reflexivity].
  - destruct (p y) eqn:E; simpl.
    + split; [discriminate|]. intros H. rewrite H in E by auto. discriminate.
    + rewrite IH. split; [intros H x [->|Hx]; auto|intros H x Hx; auto].
Qed.

Lemma count_pos_in : forall t l, negb (count_of t l =? 0) = true <-> In t l.
Proof.
  intros. rewrite negb_true_iff, Nat.eqb_neq, count_of_filter, filter_nil_iff.
  split.
  - intros H. destruct (in_dec (fun a b => match Bool.bool_dec (ty_eqb a b) true with
       | left e => left (proj1 (ty_eqb_eq a b) e)
       | right n => right (fun e => n (proj2 (ty_eqb_eq a b) e)) end) t l) as [i|n]; auto.
    exfalso. apply H. intros x Hx. destruct (ty_eqb t x) eqn:E; auto.
    apply ty_eqb_eq in E. subst. contradiction.
  - intros Hin H. specialize (H t Hin). rewrite ty_eqb_refl in H. discriminate.
Qed.

Lemma contains_not_list : forall l t,
  (forall us, t <> TTypes us) -> (contains l t = true <-> In t l).
Proof.
  intros l [n s|us|vs] H; try (apply count_pos_in).
  exfalso. apply (H us). reflexivity.
Qed.

Lemma contains_list : forall l us,
  contains l (TTypes us) = true <-> (forall u, In u us -> contains l u = true).
Proof. intros. simpl. apply forallb_forall. Qed.

Lemma contains_copies_spec : forall l, contains_copies l = true <-> ~ NoDup l.
Proof.
  intros l. unfold contains_copies. rewrite existsb_exists. unfold more_than_once.
  split.
  - intros [t [Hin H]] ND. apply Nat.ltb_lt in H. rewrite count_of_filter in H.
    assert (NoDup (filter (ty_eqb t) l)) by (apply NoDup_filter; auto).
    assert (Hall : forall x, In x (filter (ty_eqb t) l) -> x = t).
    { intros x Hx. apply filter_In in Hx. destruct Hx as [_ E]. apply ty_eqb_eq in E. auto. }
    destruct (filter (ty_eqb t) l) as [|a [|b r]]; simpl in H; try lia.
    inversion H0; subst. apply H3. rewrite (Hall a), (Hall b); simpl; auto.
  - intros H. induction l as [|x l IH].
    + exfalso; apply H; constructor.
    + destruct (in_dec (fun a b => match Bool.bool_dec (ty_eqb a b) true with
       | left e => left (proj1 (ty_eqb_eq a b) e)
       | right n => right (fun e => n (proj2 (ty_eqb_eq a b) e)) end) x l) as [i|n].
      * exists x. split; [left; auto|]. apply Nat.ltb_lt. rewrite count_of_filter. simpl.
        rewrite ty_eqb_refl. simpl.
        destruct (Nat.eq_dec (length (filter (ty_eqb x) l)) 0) as [E|E]; [|lia].
        rewrite filter_nil_iff in E. specialize (E x i). rewrite ty_eqb_refl in E. discriminate.
      * destruct IH as [t [Hin Ht]].
        { intro ND. apply H. constructor; auto. }
        exists t. split; [right; auto|]. rewrite count_of_filter in *. simpl.
        apply Nat.ltb_lt in Ht. apply Nat.ltb_lt. destruct (ty_eqb t x); simpl; lia.
Qed.

Lemma is_same_spec : forall l,
  is_same l = true <-> (forall a b, In a l -> In b l -> a = b).
Proof.
  intros [|t r]; simpl.
  - split; [intros _ a b []|reflexivity].
  - rewrite forallb_forall. split.
    + intros H. assert (G : forall a, t = a \/ In a r -> t = a).
      { intros a [E|Hin]; auto. apply ty_eqb_eq. auto. }
      intros a b Ha Hb. rewrite <- (G a Ha). apply G; auto.
    + intros H x Hx. apply ty_eqb_eq. apply H; auto.
Qed.

(** * concatenate *)

Lemma concatenate_from_types : forall ls a,
  concatenate_from (TTypes a) (map TTypes ls) = Some (TTypes (a ++ concat ls)).
Proof.
  induction ls as [|l ls IH]; intros a; simpl.
  - rewrite app_nil_r. reflexivity.
  - rewrite IH, app_assoc. reflexivity.
Qed.

Lemma concatenate_types : forall ls, ls <> [] ->
  concatenate (map TTypes ls) = Some (TTypes (concat ls)).
Proof.
  intros [|l ls] H; [congruence|]. simpl. apply concatenate_from_types.
Qed.

Lemma concatenate_from_values : forall ls a,
  concatenate_from (TValues a) (map TValues ls) = Some (TValues (a ++ concat ls)).
Proof.
  induction ls as [|l ls IH]; intros a; simpl.
  - rewrite app_nil_r. reflexivity.
  - rewrite IH, app_assoc. reflexivity.
Qed.

Lemma concatenate_values : forall ls, ls <> [] ->
  concatenate (map TValues ls) = Some (TValues (concat ls)).
Proof.
  intros [|l ls] H; [congruence|]. simpl. apply concatenate_from_values.
Qed.

Lemma concatenate_from_some : forall ts a r,
  concatenate_from a ts = Some r ->
  (exists l ls, a = TTypes l /\ ts = map TTypes ls) \/
  (exists l ls, a = TValues l /\ ts = map TValues ls).
Proof.
  induction ts as [|b ts IH]; intros a r; simpl.
  - destruct a; [discriminate| |]; intros _; [left|right]; exists l, []; auto.
  - destruct a as [|l|l], b as [|l'|l']; try discriminate; intros H; apply IH in H;
      destruct H as [[x [ls [E1 E2]]]|[x [ls [E1 E2]]]]; try discriminate;
      [left|right]; exists l, (l' :: ls); subst; auto.
Qed.

Lemma concatenate_defined_iff : forall ts,
  concatenate ts <> None <->
  ts <> [] /\ ((exists ls, ts = map TTypes ls) \/ (exists ls, ts = map TValues ls)).
Proof.
  intros ts. split.
  - destruct ts as [|a ts]; [simpl; congruence|]. intros H. split; [congruence|]. simpl in H.
    destruct (concatenate_from a ts) eqn:E; [|congruence].
    apply concatenate_from_some in E.
    destruct E as [[l [ls [-> ->]]]|[l [ls [-> ->]]]]; [left|right]; exists (l :: ls); reflexivity.
  - intros [N [[ls ->]|[ls ->]]].
    + rewrite concatenate_types; [congruence|]. intros ->; apply N; reflexivity.
    + rewrite concatenate_values; [congruence|]. intros ->; apply N; reflexivity.
Qed.

Lemma list_of_pred_filter : forall p l,
  list_of_predicate_compliant p l = Some (TTypes (filter p l)).
Proof.
  intros p l. unfold list_of_predicate_compliant. destruct l as [|x l]; [reflexivity|].
  replace (map (fun t => if p t then TTypes [t] else TTypes []) (x :: l))
    with (map TTypes (map (fun t => if p t then [t] else []) (x :: l))).
  - rewrite concatenate_types by discriminate. do 2 f_equal.
    generalize (x :: l) as k. induction k as [|y k IH]; simpl; [reflexivity|].
    rewrite IH. destruct (p y); reflexivity.
  - rewrite map_map. apply map_ext. intros a. destruct (p a); reflexivity.
Qed.

(** * min / max index *)

Definition argmin_ok (key : ty -> nat) (le : nat -> nat -> Prop) (l : list ty) (k : nat) : Prop :=
  exists t, nth_error l k = Some t /\
    (forall i u, nth_error l i = Some u -> le (key t) (key u)) /\
    (forall i u, i < k -> nth_error l i = Some u -> ~ le (key u) (key t)).

Lemma min_fold_spec : forall rest pre index mn,
  argmin_ok sizeof le pre index ->
  (forall t, nth_error pre index = Some t -> sizeof t = mn) ->
  pre <> [] ->
  argmin_ok sizeof le (pre ++ rest) (min_sizeof_fold (length pre - 1) rest index mn).
Proof.
  induction rest as [|r rest IH]; intros pre index mn H Hm Hne; simpl.
  - rewrite app_nil_r. auto.
  - assert (L : length pre > 0) by (destruct pre; [congruence|simpl; lia]).
    replace (pre ++ r :: rest) with ((pre ++ [r]) ++ rest) by (rewrite <- app_assoc; reflexivity).
    replace (S (length pre - 1)) with (length (pre ++ [r]) - 1) by (rewrite app_length; simpl; lia).
    destruct H as [t [E [H1 H2]]]. pose proof (Hm t E) as Em.
    assert (index < length pre) by (apply nth_error_Some; congruence).
    destruct (Nat.ltb_spec (sizeof r) mn).
    + apply IH.
      * exists r. replace (length pre - 1 + 1) with (length pre) by lia.
        split; [rewrite nth_error_app2 by lia; rewrite Nat.sub_diag; reflexivity|]. split.
        -- intros i u Hu. destruct (Nat.lt_ge_cases i (length pre)).
           ++ rewrite nth_error_app1 in Hu by lia. apply H1 in Hu. lia.
           ++ rewrite nth_error_app2 in Hu by lia.
              destruct (i - length pre) as [|[|j]]; simpl in Hu; try discriminate.
              injection Hu; intros; subst; lia.
        -- intros i u Hi Hu. rewrite nth_error_app1 in Hu by lia. apply H1 in Hu. lia.
      * intros t'. replace (length pre - 1 + 1) with (length pre) by lia.
        rewrite nth_error_app2 by lia. rewrite Nat.sub_diag. simpl. intros Q; injection Q; intros; subst; reflexivity.
      * destruct pre; discriminate.
    + apply IH.
      * exists t. split; [rewrite nth_error_app1 by lia; auto|]. split.
        -- intros i u Hu. destruct (Nat.lt_ge_cases i (length pre)).
           ++ rewrite nth_error_app1 in Hu by lia. eauto.
           ++ rewrite nth_error_app2 in Hu by lia.
              destruct (i - length pre) as [|[|j]]; simpl in Hu; try discriminate.
              injection Hu; intros; subst; lia.
        -- intros i u Hi Hu. rewrite nth_error_app1 in Hu by lia. eauto.
      * intros t' Ht'. rewrite nth_error_app1 in Ht' by lia. auto.
      * destruct pre; discriminate.
Qed.

Lemma max_fold_spec : forall rest pre index mx,
  argmin_ok sizeof ge pre index ->
  (forall t, nth_error pre index = Some t -> sizeof t = mx) ->
  pre <> [] ->
  argmin_ok sizeof ge (pre ++ rest) (max_sizeof_fold (length pre - 1) rest index mx).
Proof.
  induction rest as [|r rest IH]; intros pre index mx H Hm Hne; simpl.
  - rewrite app_nil_r. auto.
  - assert (L : length pre > 0) by (destruct pre; [congruence|simpl; lia]).
    replace (pre ++ r :: rest) with ((pre ++ [r]) ++ rest) by (rewrite <- app_assoc; reflexivity).
    replace (S (length pre - 1)) with (length (pre ++ [r]) - 1) by (rewrite app_length; simpl; lia).
    destruct H as [t [E [H1 H2]]]. pose proof (Hm t E) as Em.
    assert (index < length pre) by (apply nth_error_Some; congruence).
    destruct (Nat.ltb_spec mx (sizeof r)).
    + apply IH.
      * exists r. replace (length pre - 1 + 1) with (length pre) by lia.
        split; [rewrite nth_error_app2 by lia; rewrite Nat.sub_diag; reflexivity|]. split.
        -- intros i u Hu. destruct (Nat.lt_ge_cases i (length pre)).
           ++ rewrite nth_error_app1 in Hu by lia. apply H1 in Hu. lia.
           ++ rewrite nth_error_app2 in Hu by lia.
              destruct (i - length pre) as [|[|j]]; simpl in Hu; try discriminate.
              injection Hu; intros; subst; lia.
        -- intros i u Hi Hu. rewrite nth_error_app1 in Hu by lia. apply H1 in Hu. lia.
      * intros t'. replace (length pre - 1 + 1) with (length pre) by lia.
        rewrite nth_error_app2 by lia. rewrite Nat.sub_diag. simpl. intros Q; injection Q; intros; subst; reflexivity.
      * destruct pre; discriminate.
    + apply IH.
      * exists t. split; [rewrite nth_error_app1 by lia; auto|]. split.
        -- intros i u Hu. destruct (Nat.lt_ge_cases i (length pre)).
           ++ rewrite nth_error_app1 in Hu by lia. eauto.
           ++ rewrite nth_error_app2 in Hu by lia.
              destruct (i - length pre) as [|[|j]]; simpl in Hu; try discriminate.
              injection Hu; intros; subst; lia.
        -- intros i u Hi Hu. rewrite nth_error_app1 in Hu by lia. eauto.
      * intros t' Ht'. rewrite nth_error_app1 in Ht' by lia. auto.
      * destruct pre; discriminate.
Qed.

Lemma argmin_single : forall key (le : nat -> nat -> Prop) t,
  (forall n, le n n) -> argmin_ok key le [t] 0.
Proof.
  intros key le t R. exists t. split; [reflexivity|]. split.
  - intros [|[|i]] u E; simpl in E; try discriminate. injection E; intros; subst; auto.
  - intros; lia.
Qed.

Lemma min_sizeof_index_spec : forall l k,
  min_sizeof_index l = Some k -> argmin_ok sizeof le l k.
Proof.
  intros [|t rest] k; simpl; [discriminate|]. intros H; injection H; intros <-.
  apply (min_fold_spec rest [t] 0 (sizeof t)).
  - apply argmin_single. intros; lia.
  - simpl. intros t' Q; injection Q; intros; subst; reflexivity.
  - discriminate.
Qed.

Lemma max_sizeof_index_spec : forall l k,
  max_sizeof_index l = Some k -> argmin_ok sizeof ge l k.
Proof.
  intros [|t rest] k; simpl; [discriminate|]. intros H; injection H; intros <-.
  apply (max_fold_spec rest [t] 0 (sizeof t)).
  - apply argmin_single. intros; lia.
  - simpl. intros t' Q; injection Q; intros; subst; reflexivity.
  - discriminate.
Qed.

(** * sublist, exclude_at *)

Lemma all_some_map : forall A B (f : A -> option B) (g : A -> B) l,
  (forall x, In x l -> f x = Some (g x)) -> all_some (map f l) = Some (map g l).
Proof.
  intros A B f g l; induction l as [|x l IH]; intros H; simpl; [reflexivity|].
  rewrite (H x) by (left; auto). rewrite IH by (intros; apply H; right; auto). reflexivity.
Qed.

Lemma all_some_none : forall A (l : list (option A)),
  In None l -> all_some l = None.
Proof.
  intros A l; induction l as [|[x|] l IH]; simpl; intros H; try contradiction.
  - destruct H as [H|H]; [discriminate|]. rewrite IH; auto.
  - reflexivity.
Qed.

Lemma window_nth : forall (l : list ty) first count,
  first + count <= length l ->
  all_some (map (fun i => nth_error l (first + i)) (seq 0 count)) =
  Some (firstn count (skipn first l)).
Proof.
  intros l first count H.
  destruct l as [|d l0] eqn:El.
  - simpl in H. replace count with 0 by lia. simpl. reflexivity.
  - rewrite <- El in *.
    rewrite all_some_map with (g := fun i => nth (first + i) l d).
    + f_equal. apply nth_ext with (d := d) (d' := d).
      * rewrite map_length, seq_length, firstn_length, skipn_length. lia.
      * intros n Hn. rewrite map_length, seq_length in Hn.
        rewrite nth_indep with (d' := nth (first + 0) l d)
          by (rewrite map_length, seq_length; lia).
        rewrite map_nth with (f := fun i => nth (first + i) l d). rewrite seq_nth by lia. simpl.
        assert (E : nth n (firstn count (skipn first l)) d = nth n (skipn first l) d).
        { clear -Hn. revert n Hn. generalize (skipn first l) as k.
          induction count as [|c IH]; intros k n Hn; [lia|].
          destruct k as [|y k]; simpl; [destruct n; reflexivity|].
          destruct n; simpl; [reflexivity|apply IH; lia]. }
        rewrite E. clear. revert l. induction first as [|f IH]; intros l; simpl; [reflexivity|].
        destruct l; simpl; [destruct n; reflexivity|apply IH].
    + intros i Hi. apply in_seq in Hi. apply nth_error_nth'. lia.
Qed.

Lemma sublist_inside : forall sz l first count,
  length l < sz -> 0 < count -> first + count <= length l ->
  sublist sz l first count = Some (firstn count (skipn first l)).
Proof.
  intros sz l first count Hsz Hc Hle. unfold sublist.
  destruct count as [|c]; [lia|].
  assert (E : forall (A : Type) (x y z : A),
    match l with [] => match first with 0 => x | S _ => x end | _ :: _ => x end = x)
    by (intros; destruct l, first; reflexivity).
  replace (match l with
    | [] => match first with
      | 0 | _ => if (first + S c) mod sz <=? length l then
         all_some (map (fun i => at_impl ((first + i) mod sz) l) (seq 0 (S c))) else None end
    | _ :: _ => if (first + S c) mod sz <=? length l then
         all_some (map (fun i => at_impl ((first + i) mod sz) l) (seq 0 (S c))) else None end)
   with (if (first + S c) mod sz <=? length l then
         all_some (map (fun i => at_impl ((first + i) mod sz) l) (seq 0 (S c))) else None)
   by (destruct l, first; reflexivity).
  rewrite Nat.mod_small by lia.
  destruct (Nat.leb_spec (first + S c) (length l)); [|lia].
  rewrite <- window_nth by lia. f_equal. apply map_ext_in. intros i Hi.
  apply in_seq in Hi. rewrite Nat.mod_small by lia. apply at_impl_nth.
Qed.

Lemma sublist_outside : forall sz l first count,
  length l < sz -> first < sz -> count < sz -> 0 < count -> length l < first + count ->
  sublist sz l first count = None.
Proof.
  intros sz l first count Hsz Hf Hcs Hc Hgt. unfold sublist.
  destruct count as [|c]; [lia|].
  replace (match l with
    | [] => match first with
      | 0 | _ => if (first + S c) mod sz <=? length l then
         all_some (map (fun i => at_impl ((first + i) mod sz) l) (seq 0 (S c))) else None end
    | _ :: _ => if (first + S c) mod sz <=? length l then
         all_some (map (fun i => at_impl ((first + i) mod sz) l) (seq 0 (S c))) else None end)
   with (if (first + S c) mod sz <=? length l then
         all_some (map (fun i => at_impl ((first + i) mod sz) l) (seq 0 (S c))) else None)
   by (destruct l, first; reflexivity).
  destruct (Nat.leb_spec ((first + S c) mod sz) (length l)) as [Hle|]; [|reflexivity].
  apply all_some_none. apply in_map_iff.
  (* the sum wrapped: some index first+i equals length l or more *)
  destruct (Nat.lt_ge_cases first (length l)) as [Hlt|Hge].
  - exists (length l - first). split.
    + rewrite at_impl_nth. apply nth_error_None.
      rewrite Nat.mod_small by lia. lia.
    + apply in_seq. lia.
  - exists 0. split.
    + rewrite at_impl_nth. apply nth_error_None. rewrite Nat.mod_small by lia. lia.
    + apply in_seq. lia.
Qed.

Lemma sublist_zero : forall sz l first,
  sublist sz l first 0 =
  if (first <? length l) || ((length l =? 0) && (first =? 0)) then Some [] else None.
Proof.
  intros sz [|x l] [|first]; simpl; try reflexivity.
  change (S first <? S (length l)) with (first <? length l).
  destruct (first <? length l); reflexivity.
Qed.

Lemma exclude_at_spec : forall sz l i,
  length l < sz -> i < length l ->
  exclude_at sz l i = Some (firstn i l ++ skipn (S i) l).
Proof.
  intros sz l i Hsz Hi. unfold exclude_at.
  destruct (Nat.ltb_spec i (length l)); [|lia].
  assert (G : 0 < i -> i + 1 < length l ->
    exclude_at_general sz l i = Some (firstn i l ++ skipn (S i) l)).
  { intros Hi0 Hi1. unfold exclude_at_general.
    rewrite sublist_inside by lia. rewrite sublist_inside by lia. simpl skipn at 1.
    cbn [concatenate concatenate_from]. do 2 f_equal.
    replace (i + 1) with (S i) by lia.
    apply firstn_all2. rewrite skipn_length. lia. }
  destruct l as [|t1 [|t2 rest]]; [simpl in Hi; lia| |].
  - simpl in Hi. replace i with 0 by lia. reflexivity.
  - destruct i as [|i]; [reflexivity|].
    unfold exclude_at_impl.
    destruct (Nat.eqb_spec (S i) (length rest + 1)) as [E|E].
    + rewrite sublist_inside by (simpl in *; lia). rewrite <- E. f_equal.
      rewrite (skipn_all2 (n := S (S i)) (t1 :: t2 :: rest)) by (simpl; lia).
      rewrite app_nil_r. reflexivity.
    + apply G; simpl in *; lia.
Qed.

Lemma exclude_at_none : forall sz l i, length l <= i -> exclude_at sz l i = None.
Proof.
  intros sz l i H. unfold exclude_at. destruct (Nat.ltb_spec i (length l)); [lia|reflexivity].
Qed.

(** * Sorting *)

Lemma nth_error_split_eq : forall (l : list ty) k t,
  nth_error l k = Some t -> l = firstn k l ++ t :: skipn (S k) l.
Proof.
  intros l k t H. revert l H. induction k as [|k IH]; intros [|x l] H; try discriminate.
  - simpl in H. injection H; intros; subst. reflexivity.
  - simpl in *. f_equal. apply IH. auto.
Qed.

Section SortBy.
  Variable index : list ty -> option nat.
  Variable le : nat -> nat -> Prop.
  Hypothesis le_refl : forall n, le n n.
  Hypothesis index_some : forall l, l <> [] -> exists k, index l = Some k.
  Hypothesis index_ok : forall l k, index l = Some k -> argmin_ok sizeof le l k.

  Lemma sort_by_spec : forall sz fuel l,
    length l < sz -> length l <= fuel ->
    exists r, sort_by index sz fuel l = Some r /\ stable_sort sizeof le l r.
  Proof.
    intros sz fuel; induction fuel as [|fuel IH]; intros l Hsz Hf.
    - destruct l; [|simpl in Hf; lia]. exists []. split; [reflexivity|].
      repeat split; constructor.
    - destruct l as [|t1 [|t2 l0]] eqn:El.
      + exists []. split; [reflexivity|]. repeat split; constructor.
      + exists [t1]. split; [reflexivity|]. repeat split; auto.
        repeat constructor.
      + rewrite <- El in *.
        assert (Hne : l <> []) by (rewrite El; discriminate).
        destruct (index_some l Hne) as [k Ek].
        destruct (index_ok l k Ek) as [t [Et [Hmin Hfirst]]].
        assert (Hk : k < length l) by (apply nth_error_Some; congruence).
        pose proof (nth_error_split_eq l k t Et) as Hsplit.
        set (l' := firstn k l ++ skipn (S k) l).
        assert (Hlen : length l = S (length l')).
        { unfold l'. rewrite app_length, firstn_length, skipn_length. lia. }
        destruct (IH l') as [r [Er [HP [HS HF]]]]; [lia|lia|].
        exists (t :: r). split.
        * rewrite El. cbn [sort_by]. rewrite <- El. rewrite Ek.
          rewrite at_impl_nth, Et. rewrite exclude_at_spec by lia.
          fold l'. rewrite Er. reflexivity.
        * split; [|split].
          -- rewrite Hsplit. symmetry. etransitivity; [|apply Permutation_middle].
             constructor. symmetry. exact HP.
          -- constructor; auto. apply Forall_forall. intros u Hu.
             assert (Hin : In u l).
             { assert (In u l') by (eapply Permutation_in; [symmetry; exact HP|auto]).
               rewrite Hsplit. apply in_or_app. unfold l' in H. apply in_app_or in H.
               simpl; tauto. }
             apply In_nth_error in Hin. destruct Hin as [i Hi]. eauto.
          -- intros key. rewrite Hsplit at 1. rewrite filter_app. cbn [filter].
             rewrite HF. unfold l'. rewrite filter_app.
             destruct (Nat.eqb_spec (sizeof t) key) as [E|E]; [|reflexivity].
             assert (Z : filter (fun x => sizeof x =? key) (firstn k l) = []).
             { destruct (filter (fun x => sizeof x =? key) (firstn k l)) as [|y ys] eqn:Ef; auto.
               exfalso. assert (Hy : In y (y :: ys)) by (left; auto). rewrite <- Ef in Hy.
               apply filter_In in Hy. destruct Hy as [Hy1 Hy2]. apply Nat.eqb_eq in Hy2.
               apply In_nth_error in Hy1. destruct Hy1 as [i Hi].
               assert (i < length (firstn k l)) by (apply nth_error_Some; congruence).
               rewrite firstn_length in H.
               assert (Hi' : nth_error l i = Some y).
               { rewrite Hsplit. rewrite nth_error_app1; [auto|rewrite firstn_length; lia]. }
               apply (Hfirst i y); [lia|auto|]. rewrite Hy2, E. apply le_refl. }
             rewrite Z. reflexivity.
  Qed.
End SortBy.

Lemma sort_asc_spec : forall sz l, length l < sz ->
  exists r, sort_sizeof_ascending sz l = Some r /\ stable_sort sizeof le l r.
Proof.
  intros. unfold sort_sizeof_ascending. apply sort_by_spec; auto.
  - intros [|t r] Hn; [congruence|]. eexists; reflexivity.
  - apply min_sizeof_index_spec.
Qed.

Lemma sort_desc_spec : forall sz l, length l < sz ->
  exists r, sort_sizeof_descending sz l = Some r /\ stable_sort sizeof ge l r.
Proof.
  intros. unfold sort_sizeof_descending. apply sort_by_spec; auto.
  - intros [|t r] Hn; [congruence|]. eexists; reflexivity.
  - apply max_sizeof_index_spec.
Qed.

(** A stable sort is unique, so the specification determines the result. *)
Lemma stable_sort_unique : forall (A : Type) (key : A -> nat) l r1 r2,
  stable_sort key le l r1 -> stable_sort key le l r2 -> r1 = r2.
Proof.
  intros A key l r1 r2 [P1 [S1 F1]] [P2 [S2 F2]].
  assert (P : Permutation r1 r2) by (transitivity l; [symmetry|]; auto).
  assert (F : forall k, filter (fun x => key x =? k) r1 = filter (fun x => key x =? k) r2)
    by (intros; rewrite F1, F2; reflexivity).
  clear P1 P2 F1 F2 l. revert r2 S2 P F. induction r1 as [|a r1 IH]; intros r2 S2 P F.
  - apply Permutation_nil in P. auto.
  - destruct r2 as [|b r2]; [symmetry in P; apply Permutation_nil in P; discriminate|].
    assert (K : key a = key b).
    { assert (Ha : In a (b :: r2)) by (eapply Permutation_in; [exact P|left; auto]).
      assert (Hb : In b (a :: r1)) by (eapply Permutation_in; [symmetry; exact P|left; auto]).
      inversion S1; subst. inversion S2; subst. rewrite Forall_forall in *.
      apply Nat.le_antisymm.
      - destruct Hb as [->|Hb]; auto.
      - destruct Ha as [->|Ha]; auto. }
    assert (E : a = b).
    { pose proof (F (key a)) as Fa. simpl in Fa. rewrite <- K in Fa.
      rewrite !Nat.eqb_refl in Fa. congruence. }
    subst b. f_equal. inversion S1; subst. inversion S2; subst. apply IH; auto.
    + eapply Permutation_cons_inv; eauto.
    + intros k. pose proof (F k) as Fk. simpl in Fk. destruct (key a =? k); congruence.
Qed.

(** * value_list *)

Lemma v_count_of_occurrences : forall v l, occurrences (fun x => x = v) l (v_count_of v l).
Proof.
  intros. unfold v_count_of. rewrite fold_count. simpl. apply occurrences_filter.
  intros x. rewrite v_is_same_eq. split; auto.
Qed.

Lemma v_contains_spec : forall v l, v_contains v l = true <-> In v l.
Proof.
  intros. unfold v_contains. rewrite existsb_exists. split.
  - intros [x [H E]]. apply v_is_same_eq in E. subst; auto.
  - intros H. exists v. split; auto. apply v_is_same_eq; auto.
Qed.

Lemma v_index_of_impl_spec : forall v l idx,
  exists n, v_index_of_impl idx v l = idx + n /\ first_position (fun x => x = v) l n.
Proof.
  intros v l; induction l as [|u r IH]; intros idx; simpl.
  - exists 0; split; [lia|]. split; [intros; lia|right; reflexivity].
  - destruct (v_is_same v u) eqn:E.
    + apply v_is_same_eq in E; subst u. exists 0. split; [lia|].
      split; [intros; lia|]. left; exists v; split; auto.
    + destruct (IH (S idx)) as [n [E1 E2]]. exists (S n). split; [lia|].
      apply first_position_cons_no; auto. intros ->.
      assert (v_is_same v v = true) by (apply v_is_same_eq; auto). congruence.
Qed.

Lemma v_index_of_spec : forall v l, first_position (fun x => x = v) l (v_index_of v l).
Proof.
  intros v l. destruct (v_index_of_impl_spec v l 0) as [n [E H]].
  unfold v_index_of. rewrite E. exact H.
Qed.

Lemma v_is_all_same_spec : forall l,
  v_is_all_same l = true <-> (forall a b, In a l -> In b l -> a = b).
Proof.
  intros [|t r]; simpl.
  - split; [intros _ a b []|reflexivity].
  - rewrite forallb_forall. split.
    + intros H. assert (G : forall a, t = a \/ In a r -> t = a).
      { intros a [E|Hin]; auto. apply v_is_same_eq. auto. }
      intros a b Ha Hb. rewrite <- (G a Ha). apply G; auto.
    + intros H x Hx. apply v_is_same_eq. apply H; auto.
Qed.

Lemma val_eq_dec : forall a b : val, {a = b} + {a <> b}.
Proof. decide equality; [apply Z.eq_dec|apply Nat.eq_dec]. Qed.

Lemma v_contains_copies_spec : forall l, v_contains_copies l = true <-> ~ NoDup l.
Proof.
  intros l. unfold v_contains_copies. rewrite existsb_exists. unfold v_more_than_once, v_count_of.
  split.
  - intros [t [Hin H]] ND. apply Nat.ltb_lt in H. rewrite fold_count in H. simpl in H.
    assert (NoDup (filter (v_is_same t) l)) by (apply NoDup_filter; auto).
    assert (Hall : forall x, In x (filter (v_is_same t) l) -> x = t).
    { intros x Hx. apply filter_In in Hx. destruct Hx as [_ E]. apply v_is_same_eq in E. auto. }
    destruct (filter (v_is_same t) l) as [|a [|b r]]; simpl in H; try lia.
    inversion H0; subst. apply H3. rewrite (Hall a), (Hall b); simpl; auto.
  - intros H. induction l as [|x l IH].
    + exfalso; apply H; constructor.
    + destruct (in_dec val_eq_dec x l) as [i|n].
      * exists x. split; [left; auto|]. apply Nat.ltb_lt. rewrite fold_count. simpl.
        assert (R : v_is_same x x = true) by (apply v_is_same_eq; auto). rewrite R. simpl.
        destruct (Nat.eq_dec (length (filter (v_is_same x) l)) 0) as [E|E]; [|lia].
        rewrite filter_nil_iff in E. specialize (E x i). congruence.
      * destruct IH as [t [Hin Ht]].
        { intro ND. apply H. constructor; auto. }
        exists t. split; [right; auto|]. rewrite fold_count in *. simpl.
        apply Nat.ltb_lt in Ht. apply Nat.ltb_lt. destruct (v_is_same t x); simpl in *; lia.
Qed.

Lemma v_list_all_of_spec : forall t l,
  v_list_all_of t l = Some (TValues (filter (fun v => vty v =? t) l)).
Proof.
  intros t l. unfold v_list_all_of. destruct l as [|x l]; [reflexivity|].
  replace (map (v_all_of_impl t) (x :: l))
    with (map TValues (map (fun v => if vty v =? t then [v] else []) (x :: l))).
  - rewrite concatenate_values by discriminate. do 2 f_equal.
    generalize (x :: l) as k. induction k as [|y k IH]; simpl; [reflexivity|].
    rewrite IH. destruct (vty y =? t); reflexivity.
  - rewrite map_map. apply map_ext. intros a. unfold v_all_of_impl.
    destruct (vty a =? t); reflexivity.
Qed.

Lemma list_min_spec : forall l m, list_min l = Some m ->
  In m l /\ forall x, In x l -> (m <= x)%Z.
Proof.
  intros [|x r] m; simpl; [discriminate|]. intros H; injection H; intros <-. clear H.
  revert x. induction r as [|y r IH]; intros x; simpl.
  - split; [left; auto|]. intros z [->|[]]; lia.
  - specialize (IH (if (y <? x)%Z then y else x)). destruct IH as [I1 I2]. split.
    + destruct I1 as [E|I1]; [|auto]. destruct (Z.ltb_spec y x); auto.
    + intros z Hz. destruct (Z.ltb_spec y x).
      * assert (forall w, y = w \/ In w r -> (fold_left (fun m y0 => if (y0 <? m)%Z then y0 else m) r y <= w)%Z) by auto.
        destruct Hz as [->|Hz]; [|auto]. assert (W := H0 y (or_introl eq_refl)). lia.
      * assert (forall w, x = w \/ In w r -> (fold_left (fun m y0 => if (y0 <? m)%Z then y0 else m) r x <= w)%Z) by auto.
        destruct Hz as [->|[->|Hz]]; auto. assert (W := H0 x (or_introl eq_refl)). lia.
Qed.

Lemma list_max_spec : forall l m, list_max l = Some m ->
  In m l /\ forall x, In x l -> (x <= m)%Z.
Proof.
  intros [|x r] m; simpl; [discriminate|]. intros H; injection H; intros <-. clear H.
  revert x. induction r as [|y r IH]; intros x; simpl.
  - split; [left; auto|]. intros z [->|[]]; lia.
  - specialize (IH (if (x <? y)%Z then y else x)). destruct IH as [I1 I2]. split.
    + destruct I1 as [E|I1]; [|auto]. destruct (Z.ltb_spec x y); auto.
    + intros z Hz. destruct (Z.ltb_spec x y).
      * assert (forall w, y = w \/ In w r -> (w <= fold_left (fun m y0 => if (m <? y0)%Z then y0 else m) r y)%Z) by auto.
        destruct Hz as [->|Hz]; [|auto]. assert (W := H0 y (or_introl eq_refl)). lia.
      * assert (forall w, x = w \/ In w r -> (w <= fold_left (fun m y0 => if (m <? y0)%Z then y0 else m) r x)%Z) by auto.
        destruct Hz as [->|[->|Hz]]; auto. assert (W := H0 x (or_introl eq_refl)). lia.
Qed.

Lemma all_some_nth_self : forall (vs : list val),
  all_some (map (fun i => v_at i vs) (seq 0 (length vs))) = Some vs.
Proof.
  intros vs. unfold v_at. destruct vs as [|d vs0] eqn:E; [reflexivity|]. rewrite <- E.
  rewrite all_some_map with (g := fun i => nth i vs d).
  - f_equal. apply nth_ext with (d := d) (d' := d).
    + rewrite map_length, seq_length. reflexivity.
    + intros n Hn. rewrite map_length, seq_length in Hn.
      rewrite nth_indep with (d' := nth 0 vs d) by (rewrite map_length, seq_length; lia).
      rewrite map_nth with (f := fun i => nth i vs d). rewrite seq_nth by lia. reflexivity.
  - intros i Hi. apply in_seq in Hi. apply nth_error_nth'. lia.
Qed.

Lemma v_extreme_eq : forall pick t l,
  v_extreme pick t l = pick (map vz (filter (fun v => vty v =? t) l)).
Proof.
  intros. unfold v_extreme. rewrite v_list_all_of_spec, all_some_nth_self. reflexivity.
Qed.

Lemma in_map_vz : forall t l m,
  In m (map vz (filter (fun v => vty v =? t) l)) <-> In (Val t m) l.
Proof.
  intros. rewrite in_map_iff. split.
  - intros [[t' z] [E H]]. apply filter_In in H. simpl in *. destruct H as [H1 H2].
    apply Nat.eqb_eq in H2. subst; auto.
  - intros H. exists (Val t m). split; auto. apply filter_In. split; auto.
    apply Nat.eqb_refl.
Qed.

Lemma v_min_spec : forall t l m, v_min t l = Some m <->
  In (Val t m) l /\ forall x, In (Val t x) l -> (m <= x)%Z.
Proof.
  intros t l m. unfold v_min. rewrite v_extreme_eq. split.
  - intros H. apply list_min_spec in H. destruct H as [H1 H2].
    rewrite in_map_vz in H1. split; auto. intros x Hx. apply H2. apply in_map_vz; auto.
  - intros [H1 H2]. destruct (list_min (map vz (filter (fun v => vty v =? t) l))) eqn:E.
    + apply list_min_spec in E. destruct E as [E1 E2]. f_equal.
      apply Z.le_antisymm; [apply E2, in_map_vz; auto|apply H2, in_map_vz; auto].
    + apply in_map_vz in H1. destruct (map vz (filter (fun v => vty v =? t) l)); [contradiction|discriminate].
Qed.

Lemma v_max_spec : forall t l m, v_max t l = Some m <->
  In (Val t m) l /\ forall x, In (Val t x) l -> (x <= m)%Z.
Proof.
  intros t l m. unfold v_max. rewrite v_extreme_eq. split.
  - intros H. apply list_max_spec in H. destruct H as [H1 H2].
    rewrite in_map_vz in H1. split; auto. intros x Hx. apply H2. apply in_map_vz; auto.
  - intros [H1 H2]. destruct (list_max (map vz (filter (fun v => vty v =? t) l))) eqn:E.
    + apply list_max_spec in E. destruct E as [E1 E2]. f_equal.
      apply Z.le_antisymm; [apply H2, in_map_vz; auto|apply E2, in_map_vz; auto].
    + apply in_map_vz in H1. destruct (map vz (filter (fun v => vty v =? t) l)); [contradiction|discriminate].
Qed.

Lemma v_extreme_none : forall t l,
  (v_min t l = None <-> forall x, ~ In (Val t x) l) /\
  (v_max t l = None <-> forall x, ~ In (Val t x) l).
Proof.
  intros t l. unfold v_min, v_max. rewrite !v_extreme_eq.
  pose proof (in_map_vz t l) as I.
  destruct (map vz (filter (fun v => vty v =? t) l)) as [|y r]; simpl in *.
  - split; (split; [intros _ x H; apply I in H; contradiction|reflexivity]).
  - split; (split; [discriminate|intros H; exfalso; apply (H y); apply I; auto]).
Qed.

Lemma v_contains_type_spec : forall t l,
  v_contains_type t l = true <-> exists x, In (Val t x) l.
Proof.
  intros. unfold v_contains_type. rewrite contains_not_list by (intros; discriminate).
  rewrite in_map_iff. split.
  - intros [[t' z] [E H]]. simpl in E. injection E; intros; subst. eauto.
  - intros [x H]. exists (Val t x). auto.
Qed.

(** * cartesian_product *)

Lemma flat_map_concat : forall A B (f : A -> list B) l, flat_map f l = concat (map f l).
Proof. intros; rewrite flat_map_concat_map; reflexivity. Qed.

(** kinds: how a tuple of elements is wrapped *)
Lemma pair_types_first : forall a b, a <> [] ->
  cartesian_pair 0 (TTypes a) (TTypes b) = Some (TTypes (map TTypes (lex_product [a; b]))).
Proof.
  intros a b Ha. unfold cartesian_pair.
  rewrite all_some_map with (g := fun t => TTypes (map (fun u => TTypes [t; u]) b)) by reflexivity.
  rewrite <- map_map with (f := fun t => map (fun u => TTypes [t; u]) b) (g := TTypes).
  rewrite concatenate_types by (destruct a; [congruence|discriminate]).
  do 2 f_equal. cbn [lex_product]. rewrite <- flat_map_concat_map.
  clear Ha. induction a as [|x a IH]; simpl; [reflexivity|]. rewrite map_app, IH. f_equal.
  assert (forall c : list ty, flat_map (fun x0 => [[x0]]) c = map (fun x0 => [x0]) c)
    by (intro c; induction c; simpl; congruence).
  rewrite H, !map_map. reflexivity.
Qed.

Lemma pair_values_first : forall a b, a <> [] ->
  cartesian_pair 0 (TValues a) (TValues b) = Some (TTypes (map TValues (lex_product [a; b]))).
Proof.
  intros a b Ha. unfold cartesian_pair.
  rewrite all_some_map with (g := fun t => TTypes (map (fun u => TValues [t; u]) b)) by reflexivity.
  rewrite <- map_map with (f := fun t => map (fun u => TValues [t; u]) b) (g := TTypes).
  rewrite concatenate_types by (destruct a; [congruence|discriminate]).
  do 2 f_equal. cbn [lex_product]. rewrite <- flat_map_concat_map.
  clear Ha. induction a as [|x a IH]; simpl; [reflexivity|]. rewrite map_app, IH. f_equal.
  assert (forall c : list val, flat_map (fun x0 => [[x0]]) c = map (fun x0 => [x0]) c)
    by (intro c; induction c; simpl; congruence).
  rewrite H, !map_map. reflexivity.
Qed.

Lemma pair_types_next : forall i a (p : list (list ty)), a <> [] ->
  cartesian_pair (S i) (TTypes a) (TTypes (map TTypes p)) =
  Some (TTypes (map TTypes (flat_map (fun x => map (cons x) p) a))).
Proof.
  intros i a p Ha. unfold cartesian_pair.
  rewrite all_some_map with (g := fun t => TTypes (map TTypes (map (cons t) p))).
  - rewrite <- map_map with (f := fun t => map TTypes (map (cons t) p)) (g := TTypes).
    rewrite concatenate_types by (destruct a; [congruence|discriminate]).
    do 2 f_equal. rewrite <- flat_map_concat_map. clear Ha.
    induction a as [|x a IH]; simpl; [reflexivity|]. rewrite map_app, IH. reflexivity.
  - intros x _. change (S i =? 0) with false. unfold one_element_mult.
    rewrite map_map.
    rewrite all_some_map with (g := fun q => TTypes (x :: q)) by reflexivity.
    rewrite map_map. reflexivity.
Qed.

Lemma pair_values_next : forall i a (p : list (list val)), a <> [] ->
  cartesian_pair (S i) (TValues a) (TTypes (map TValues p)) =
  Some (TTypes (map TValues (flat_map (fun x => map (cons x) p) a))).
Proof.
  intros i a p Ha. unfold cartesian_pair.
  rewrite all_some_map with (g := fun t => TTypes (map TValues (map (cons t) p))).
  - rewrite <- map_map with (f := fun t => map TValues (map (cons t) p)) (g := TTypes).
    rewrite concatenate_types by (destruct a; [congruence|discriminate]).
    do 2 f_equal. rewrite <- flat_map_concat_map. clear Ha.
    induction a as [|x a IH]; simpl; [reflexivity|]. rewrite map_app, IH. reflexivity.
  - intros x _. change (S i =? 0) with false. unfold one_element_mult.
    rewrite map_map.
    rewrite all_some_map with (g := fun q => TValues (x :: q)) by reflexivity.
    rewrite map_map. reflexivity.
Qed.

Lemma product_impl_types : forall ls l1 l2,
  l1 <> [] -> (forall l, In l (removelast (l2 :: ls)) -> l <> []) ->
  cartesian_product_impl (length ls) (TTypes l1) (TTypes l2) (map TTypes ls) =
  Some (TTypes (map TTypes (lex_product (l1 :: l2 :: ls)))).
Proof.
  induction ls as [|l3 ls IH]; intros l1 l2 H1 H2.
  - apply pair_types_first; auto.
  - cbn [map length cartesian_product_impl]. rewrite Nat.sub_succ, Nat.sub_0_r.
    rewrite IH.
    + rewrite pair_types_next by auto. reflexivity.
    + apply H2. left; reflexivity.
    + intros l Hl. apply H2. right. exact Hl.
Qed.

Lemma product_impl_values : forall ls l1 l2,
  l1 <> [] -> (forall l, In l (removelast (l2 :: ls)) -> l <> []) ->
  cartesian_product_impl (length ls) (TValues l1) (TValues l2) (map TValues ls) =
  Some (TTypes (map TValues (lex_product (l1 :: l2 :: ls)))).
Proof.
  induction ls as [|l3 ls IH]; intros l1 l2 H1 H2.
  - apply pair_values_first; auto.
  - cbn [map length cartesian_product_impl]. rewrite Nat.sub_succ, Nat.sub_0_r.
    rewrite IH.
    + rewrite pair_values_next by auto. reflexivity.
    + apply H2. left; reflexivity.
    + intros l Hl. apply H2. right. exact Hl.
Qed.

Lemma cartesian_product_types : forall ls, 2 <= length ls ->
  (forall l, In l (removelast ls) -> l <> []) ->
  cartesian_product (map TTypes ls) = Some (TTypes (map TTypes (lex_product ls))).
Proof.
  intros [|l1 [|l2 rest]] Hlen H; simpl in Hlen; try lia.
  assert (E : cartesian_product (map TTypes (l1 :: l2 :: rest)) =
    cartesian_product_impl (length rest) (TTypes l1) (TTypes l2) (map TTypes rest)).
  { simpl. destruct rest; [reflexivity|]. simpl. rewrite map_length. reflexivity. }
  rewrite E. apply product_impl_types.
  - apply H. left; reflexivity.
  - intros l Hl. apply H. right. exact Hl.
Qed.

Lemma cartesian_product_values : forall ls, 2 <= length ls ->
  (forall l, In l (removelast ls) -> l <> []) ->
  cartesian_product (map TValues ls) = Some (TTypes (map TValues (lex_product ls))).
Proof.
  intros [|l1 [|l2 rest]] Hlen H; simpl in Hlen; try lia.
  assert (E : cartesian_product (map TValues (l1 :: l2 :: rest)) =
    cartesian_product_impl (length rest) (TValues l1) (TValues l2) (map TValues rest)).
  { simpl. destruct rest; [reflexivity|]. simpl. rewrite map_length. reflexivity. }
  rewrite E. apply product_impl_values.
  - apply H. left; reflexivity.
  - intros l Hl. apply H. right. exact Hl.
Qed.

(** an empty list before the last one makes the product ill-formed *)
Lemma pair_empty : forall i l, cartesian_pair i (TTypes []) l = None /\
  cartesian_pair i (TValues []) l = None.
Proof. intros; split; reflexivity. Qed.

Lemma product_impl_empty_types : forall ls i l1 l2,
  In [] (removelast (l1 :: l2 :: ls)) ->
  cartesian_product_impl i (TTypes l1) (TTypes l2) (map TTypes ls) = None.
Proof.
  induction ls as [|l3 ls IH]; intros i l1 l2 H.
  - simpl in H. destruct H as [->|[]]. reflexivity.
  - cbn [map cartesian_product_impl]. destruct H as [->|H].
    + destruct (cartesian_product_impl (i - 1) (TTypes l2) (TTypes l3) (map TTypes ls)); reflexivity.
    + rewrite IH; [reflexivity|exact H].
Qed.

Lemma product_impl_empty_values : forall ls i l1 l2,
  In [] (removelast (l1 :: l2 :: ls)) ->
  cartesian_product_impl i (TValues l1) (TValues l2) (map TValues ls) = None.
Proof.
  induction ls as [|l3 ls IH]; intros i l1 l2 H.
  - simpl in H. destruct H as [->|[]]. reflexivity.
  - cbn [map cartesian_product_impl]. destruct H as [->|H].
    + destruct (cartesian_product_impl (i - 1) (TValues l2) (TValues l3) (map TValues ls)); reflexivity.
    + rewrite IH; [reflexivity|exact H].
Qed.

Lemma cartesian_product_empty : forall ls,
  (In [] (removelast ls) -> cartesian_product (map TTypes ls) = None).
Proof.
  intros [|l1 [|l2 rest]]; simpl; try contradiction.
  intros H. destruct rest as [|l3 rest].
  - apply (product_impl_empty_types [] 0 l1 l2). exact H.
  - apply (product_impl_empty_types (l3 :: rest) _ l1 l2). exact H.
Qed.

Lemma cartesian_product_empty_values : forall ls,
  (In [] (removelast ls) -> cartesian_product (map TValues ls) = None).
Proof.
  intros [|l1 [|l2 rest]]; simpl; try contradiction.
  intros H. destruct rest as [|l3 rest].
  - apply (product_impl_empty_values [] 0 l1 l2). exact H.
  - apply (product_impl_empty_values (l3 :: rest) _ l1 l2). exact H.
Qed.

(** Facts about the specification [lex_product] itself *)
Lemma lex_product_length : forall A (ls : list (list A)),
  length (lex_product ls) = fold_right (fun l n => length l * n) 1 ls.
Proof.
  intros A ls; induction ls as [|l ls IH]; simpl; [reflexivity|].
  rewrite <- IH. clear IH. induction l as [|x l IHl]; simpl; [reflexivity|].
  rewrite app_length, map_length, IHl. reflexivity.
Qed.

Lemma lex_product_in : forall A (ls : list (list A)) t,
  In t (lex_product ls) <-> Forall2 (fun x l => In x l) t ls.
Proof.
  intros A ls; induction ls as [|l ls IH]; intros t; simpl.
  - split.
    + intros [<-|[]]. constructor.
    + intros H. inversion H. auto.
  - rewrite in_flat_map. split.
    + intros [x [Hx Ht]]. apply in_map_iff in Ht. destruct Ht as [t' [<- Ht']].
      constructor; auto. apply IH; auto.
    + intros H. inversion H; subst. exists x. split; auto. apply in_map_iff.
      exists l0. split; auto. apply IH; auto.
Qed.

Lemma nth_error_flat_map_const : forall A B (f : A -> list B) l n p q x,
  (forall y, In y l -> length (f y) = n) -> nth_error l p = Some x -> q < n ->
  nth_error (flat_map f l) (p * n + q) = nth_error (f x) q.
Proof.
  intros A B f l n p q x; revert p; induction l as [|y l IH]; intros p Hf Hp Hq.
  - destruct p; discriminate.
  - simpl flat_map. destruct p as [|p]; simpl in Hp.
    + injection Hp; intros; subst y. simpl. rewrite nth_error_app1; auto.
      rewrite Hf by (left; auto). lia.
    + rewrite nth_error_app2; rewrite Hf by (left; auto); [|simpl; lia].
      replace (S p * n + q - n) with (p * n + q) by (simpl; lia).
      apply IH; auto. intros; apply Hf; right; auto.
Qed.

Lemma lex_product_nth : forall A (ls : list (list A)) ps t,
  Forall2 (fun p lx => nth_error (fst lx) p = Some (snd lx)) ps (combine ls t) ->
  length t = length ls ->
  nth_error (lex_product ls) (lex_rank ls ps) = Some t /\
  lex_rank ls ps < fold_right (fun l n => length l * n) 1 ls.
Proof.
  intros A ls; induction ls as [|l ls IH]; intros ps t H Hlen.
  - destruct t; [|discriminate]. simpl. split; [reflexivity|lia].
  - destruct t as [|x t]; [discriminate|]. simpl in H. inversion H as [|p lx ps' rest Hp Hrest]; subst.
    simpl in Hp. injection Hlen as Hlen.
    destruct (IH ps' t Hrest Hlen) as [E L]. cbn [lex_rank lex_product fold_right].
    split.
    + rewrite nth_error_flat_map_const with (x := x); auto.
      * rewrite nth_error_map, E. reflexivity.
      * intros y _. rewrite map_length. apply lex_product_length.
    + assert (p < length l) by (apply nth_error_Some; congruence).
      set (N := fold_right (fun l n => length l * n) 1 ls) in *.
      assert (p * N + N <= length l * N) by nia. lia.
Qed.

(** * Combined statements used by the property file *)

Lemma at_spec : forall l i,
  (forall t, at_impl i l = Some t <-> nth_error l i = Some t) /\
  (at_impl i l = None <-> length l <= i).
Proof.
  intros. rewrite at_impl_nth. split; [tauto|]. apply nth_error_None.
Qed.

Lemma nth_filter_position : forall (p : ty -> bool) l i t,
  nth_error (filter p l) i = Some t <->
  exists k, nth_error l k = Some t /\ p t = true /\ length (filter p (firstn k l)) = i.
Proof.
  intros p l; induction l as [|u v IH]; intros i t.
  - simpl. split.
    + destruct i; discriminate.
    + intros [k [H _]]. destruct k; discriminate.
  - cbn [filter]. destruct (p u) eqn:E.
    + destruct i as [|i].
      * simpl. split.
        -- intros H; injection H; intros <-. exists 0. auto.
        -- intros [[|k] [H1 [H2 H3]]]; [auto|]. exfalso. cbn [firstn filter] in H3.
           rewrite E in H3. simpl in H3. discriminate.
      * cbn [nth_error]. rewrite IH. split.
        -- intros [k [H1 [H2 H3]]]. exists (S k). cbn [nth_error firstn filter]. rewrite E.
           simpl. auto.
        -- intros [[|k] [H1 [H2 H3]]]; [simpl in H3; discriminate|].
           exists k. cbn [nth_error firstn filter] in *. rewrite E in H3. simpl in H3. auto.
    + rewrite IH. split.
      * intros [k [H1 [H2 H3]]]. exists (S k). cbn [nth_error firstn filter]. rewrite E. auto.
      * intros [[|k] [H1 [H2 H3]]]; [simpl in H1; congruence|].
        exists k. cbn [nth_error firstn filter] in *. rewrite E in H3. auto.
Qed.

Lemma at_pred_spec : forall p (P : ty -> Prop) l i,
  (forall x, p x = true <-> P x) ->
  (forall t, at_with_predicate p i l = Some t <->
     exists k, nth_error l k = Some t /\ P t /\ occurrences P (firstn k l) i) /\
  (at_with_predicate p i l = None <-> exists n, occurrences P l n /\ n <= i).
Proof.
  intros p P l i Hp. rewrite at_with_predicate_filter. split.
  - intros t. rewrite nth_filter_position. split.
    + intros [k [H1 [H2 H3]]]. exists k. split; auto. split; [apply Hp; auto|].
      rewrite <- H3. apply occurrences_filter; auto.
    + intros [k [H1 [H2 H3]]]. exists k. split; auto. split; [apply Hp; auto|].
      eapply occurrences_unique; [apply occurrences_filter; exact Hp|exact H3].
  - rewrite nth_error_None. split.
    + intros H. exists (length (filter p l)). split; auto. apply occurrences_filter; auto.
    + intros [n [H1 H2]]. pose proof (occurrences_filter _ p P l Hp) as H3.
      rewrite (occurrences_unique _ _ _ _ _ H3 H1). auto.
Qed.

Lemma first_position_end : forall A (P : A -> Prop) l n,
  first_position P l n -> (n = length l <-> forall x, In x l -> ~ P x).
Proof.
  intros A P l n [H1 H2]. split.
  - intros -> x Hx. apply In_nth_error in Hx. destruct Hx as [i Hi].
    apply (H1 i); auto. apply nth_error_Some. congruence.
  - intros H. destruct H2 as [[x [E Hx]]|E]; auto. exfalso. apply (H x); auto.
    eapply nth_error_In; eauto.
Qed.

Lemma index_queries : forall p (P : ty -> Prop) t l,
  (forall x, p x = true <-> P x) ->
  first_position P l (index_of p l) /\
  (index_of p l = length l <-> forall x, In x l -> ~ P x) /\
  first_position (fun x => x = t) l (first_index_of_type t l) /\
  (first_index_of_type t l = length l <-> ~ In t l).
Proof.
  intros p P t l Hp.
  pose proof (index_of_spec p P l Hp) as H1.
  pose proof (first_index_of_type_spec t l) as H2.
  split; [auto|]. split; [apply first_position_end; auto|]. split; [auto|].
  rewrite (first_position_end _ _ _ _ H2). split.
  - intros H Hin. apply (H t Hin). reflexivity.
  - intros H x Hx ->. contradiction.
Qed.

Lemma count_queries : forall p (P : ty -> Prop) t l,
  (forall x, p x = true <-> P x) ->
  occurrences (fun x => x = t) l (count_of t l) /\
  occurrences P l (count_of_predicate_compliant p l) /\
  (contains_predicate_compliant p l = true <-> exists x, In x l /\ P x) /\
  (contains_copies l = true <-> ~ NoDup l) /\
  (is_same l = true <-> forall a b, In a l -> In b l -> a = b).
Proof.
  intros p P t l Hp. split; [apply count_of_occurrences|].
  split; [apply count_pred_occurrences; auto|].
  split; [|split; [apply contains_copies_spec|apply is_same_spec]].
  unfold contains_predicate_compliant, count_of_predicate_compliant. rewrite fold_count. simpl.
  rewrite negb_true_iff, Nat.eqb_neq. split.
  - intros H. destruct (filter p l) as [|x r] eqn:E; [simpl in H; congruence|].
    exists x. assert (Hx : In x (filter p l)) by (rewrite E; left; auto).
    apply filter_In in Hx. split; [tauto|apply Hp; tauto].
  - intros [x [H1 H2]] H. rewrite filter_nil_iff in H.
    apply Hp in H2. rewrite H in H2; auto. discriminate.
Qed.

Lemma contains_atoms : forall l us,
  (forall u ws, In u us -> u <> TTypes ws) ->
  (contains l (TTypes us) = true <-> incl us l).
Proof.
  intros l us H. rewrite contains_list. split.
  - intros G u Hu. apply contains_not_list; auto.
  - intros G u Hu. apply contains_not_list; auto.
Qed.

Lemma sublist_full : forall sz l first count,
  length l < sz -> first < sz -> count < sz ->
  (forall r, sublist sz l first count = Some r <->
     r = firstn count (skipn first l) /\
     ((0 < count /\ first + count <= length l) \/
      (count = 0 /\ (first < length l \/ (l = [] /\ first = 0))))).
Proof.
  intros sz l first count H1 H2 H3 r. destruct count as [|c].
  - rewrite sublist_zero. simpl firstn.
    destruct (Nat.ltb_spec first (length l)); simpl.
    + split; [intros E; injection E; intros <-; auto|intros [-> _]; auto].
    + destruct (Nat.eqb_spec (length l) 0) as [E|E]; simpl.
      * destruct (Nat.eqb_spec first 0); simpl.
        -- split; [intros Q; injection Q; intros <-|intros [-> _]; auto].
           split; auto. right. split; auto. right. split; auto.
           apply length_zero_iff_nil; auto.
        -- split; [discriminate|]. intros [_ [[Q _]|[_ [Q|[_ Q]]]]]; lia.
      * split; [discriminate|]. intros [_ [[Q _]|[_ [Q|[-> _]]]]]; simpl in *; lia.
  - destruct (Nat.le_gt_cases (first + S c) (length l)).
    + rewrite sublist_inside by lia. split.
      * intros Q; injection Q; intros <-. split; auto. left; split; lia.
      * intros [-> _]; auto.
    + rewrite sublist_outside by lia. split; [discriminate|].
      intros [_ [[_ Q]|[Q _]]]; lia.
Qed.

Lemma exclude_full : forall sz l i, length l < sz ->
  (forall r, exclude_at sz l i = Some r <->
     exists a t b, l = a ++ t :: b /\ length a = i /\ r = a ++ b) /\
  (exclude_at sz l i = None <-> length l <= i).
Proof.
  intros sz l i Hsz. destruct (Nat.lt_ge_cases i (length l)) as [H|H].
  - rewrite exclude_at_spec by lia.
    destruct (nth_error l i) as [t|] eqn:Et; [|apply nth_error_None in Et; lia].
    split.
    + intros r. split.
      * intros Q; injection Q; intros <-. exists (firstn i l), t, (skipn (S i) l).
        split; [apply nth_error_split_eq; auto|]. split; auto. rewrite firstn_length. lia.
      * intros [a [u [b [-> [<- ->]]]]]. f_equal. f_equal.
        -- rewrite firstn_app, firstn_all, Nat.sub_diag. simpl. apply app_nil_r.
        -- replace (S (length a)) with (length a + 1) by lia.
           clear. induction a; simpl; auto.
    + split; [discriminate|lia].
  - rewrite exclude_at_none by lia. split.
    + intros r. split; [discriminate|]. intros [a [u [b [-> [<- ->]]]]].
      rewrite app_length in H. simpl in H. lia.
    + split; auto.
Qed.

Lemma extreme_index_full : forall l,
  (l = [] <-> min_sizeof_index l = None) /\ (l = [] <-> max_sizeof_index l = None) /\
  (forall k, min_sizeof_index l = Some k ->
     exists t, nth_error l k = Some t /\
       (forall u, In u l -> sizeof t <= sizeof u) /\
       (forall i u, i < k -> nth_error l i = Some u -> sizeof t < sizeof u)) /\
  (forall k, max_sizeof_index l = Some k ->
     exists t, nth_error l k = Some t /\
       (forall u, In u l -> sizeof u <= sizeof t) /\
       (forall i u, i < k -> nth_error l i = Some u -> sizeof u < sizeof t)).
Proof.
  intros l. split; [destruct l; simpl; split; congruence|].
  split; [destruct l; simpl; split; congruence|]. split.
  - intros k H. apply min_sizeof_index_spec in H. destruct H as [t [E [H1 H2]]].
    exists t. split; auto. split.
    + intros u Hu. apply In_nth_error in Hu. destruct Hu as [i Hi]. eauto.
    + intros i u Hi Hu. apply Nat.nle_gt. eauto.
  - intros k H. apply max_sizeof_index_spec in H. destruct H as [t [E [H1 H2]]].
    exists t. split; auto. split.
    + intros u Hu. apply In_nth_error in Hu. destruct Hu as [i Hi]. apply H1 in Hi. auto.
    + intros i u Hi Hu. specialize (H2 i u Hi Hu). lia.
Qed.

Lemma value_queries : forall v l,
  first_position (fun x => x = v) l (v_index_of v l) /\
  (v_index_of v l = length l <-> ~ In v l) /\
  occurrences (fun x => x = v) l (v_count_of v l) /\
  (v_contains v l = true <-> In v l) /\
  (v_contains_copies l = true <-> ~ NoDup l) /\
  (v_is_all_same l = true <-> forall a b, In a l -> In b l -> a = b).
Proof.
  intros v l. pose proof (v_index_of_spec v l) as H. split; auto. split.
  - rewrite (first_position_end _ _ _ _ H). split.
    + intros G Hin. apply (G v Hin). reflexivity.
    + intros G x Hx ->. contradiction.
  - split; [apply v_count_of_occurrences|]. split; [apply v_contains_spec|].
    split; [apply v_contains_copies_spec|apply v_is_all_same_spec].
Qed.

Lemma value_all_of_full : forall t l,
  v_list_all_of t l = Some (TValues (filter (fun v => vty v =? t) l)) /\
  (v_contains_type t l = true <-> exists x, In (Val t x) l) /\
  (forall m, v_min t l = Some m <->
     In (Val t m) l /\ forall x, In (Val t x) l -> (m <= x)%Z) /\
  (forall m, v_max t l = Some m <->
     In (Val t m) l /\ forall x, In (Val t x) l -> (x <= m)%Z) /\
  (v_min t l = None <-> forall x, ~ In (Val t x) l) /\
  (v_max t l = None <-> forall x, ~ In (Val t x) l).
Proof.
  intros t l. split; [apply v_list_all_of_spec|]. split; [apply v_contains_type_spec|].
  split; [intros; apply v_min_spec|]. split; [intros; apply v_max_spec|].
  apply v_extreme_none.
Qed.

Lemma cartesian_full : forall ls : list (list ty), 2 <= length ls ->
  (In [] (removelast ls) -> cartesian_product (map TTypes ls) = None) /\
  ((forall l, In l (removelast ls) -> l <> []) ->
   exists r, cartesian_product (map TTypes ls) = Some (TTypes (map TTypes r)) /\
     length r = fold_right (fun l n => length l * n) 1 ls /\
     (forall t, In t r <-> Forall2 (fun x l => In x l) t ls) /\
     (forall ps t, length t = length ls ->
        Forall2 (fun p lx => nth_error (fst lx) p = Some (snd lx)) ps (combine ls t) ->
        nth_error r (lex_rank ls ps) = Some t)).
Proof.
  intros ls Hlen. split; [apply cartesian_product_empty|].
  intros H. exists (lex_product ls). split; [apply cartesian_product_types; auto|].
  split; [apply lex_product_length|]. split; [apply lex_product_in|].
  intros ps t H1 H2. apply lex_product_nth; auto.
Qed.

Lemma cartesian_full_values : forall ls : list (list val), 2 <= length ls ->
  (In [] (removelast ls) -> cartesian_product (map TValues ls) = None) /\
  ((forall l, In l (removelast ls) -> l <> []) ->
   exists r, cartesian_product (map TValues ls) = Some (TTypes (map TValues r)) /\
     length r = fold_right (fun l n => length l * n) 1 ls /\
     (forall t, In t r <-> Forall2 (fun x l => In x l) t ls) /\
     (forall ps t, length t = length ls ->
        Forall2 (fun p lx => nth_error (fst lx) p = Some (snd lx)) ps (combine ls t) ->
        nth_error r (lex_rank ls ps) = Some t)).
Proof.
  intros ls Hlen. split; [apply cartesian_product_empty_values|].
  intros H. exists (lex_product ls). split; [apply cartesian_product_values; auto|].
  split; [apply lex_product_length|]. split; [apply lex_product_in|].
  intros ps t H1 H2. apply lex_product_nth; auto.
Qed.

Lemma concatenate_full :
  (forall ls : list (list ty), ls <> [] ->
     concatenate (map TTypes ls) = Some (TTypes (concat ls))) /\
  (forall ls : list (list val), ls <> [] ->
     concatenate (map TValues ls) = Some (TValues (concat ls))) /\
  (forall ts, concatenate ts <> None <->
     ts <> [] /\ ((exists ls, ts = map TTypes ls) \/ (exists ls, ts = map TValues ls))).
Proof.
  split; [apply concatenate_types|]. split; [apply concatenate_values|].
  apply concatenate_defined_iff.
Qed.

Lemma concatenate_assoc : forall a b c ab bc,
  concatenate [a; b] = Some ab -> concatenate [b; c] = Some bc ->
  concatenate [ab; c] = concatenate [a; bc] /\ concatenate [a; b; c] = concatenate [ab; c].
Proof.
  intros [|a|a] [|b|b] [|c|c] ab bc; simpl; try discriminate;
  intros H1 H2; injection H1; injection H2; intros; subst; rewrite app_assoc; auto.
Qed.

Lemma concatenate_neutral : forall l v,
  concatenate [TTypes []; TTypes l] = Some (TTypes l) /\
  concatenate [TTypes l; TTypes []] = Some (TTypes l) /\
  concatenate [TValues []; TValues v] = Some (TValues v) /\
  concatenate [TValues v; TValues []] = Some (TValues v).
Proof. intros; simpl; rewrite !app_nil_r; auto. Qed.

Lemma sort_full : forall sz l, length l < sz ->
  (exists r, sort_sizeof_ascending sz l = Some r /\ stable_sort sizeof le l r) /\
  (exists r, sort_sizeof_descending sz l = Some r /\ stable_sort sizeof ge l r).
Proof. intros; split; [apply sort_asc_spec|apply sort_desc_spec]; auto. Qed.

(** C103 *)
Lemma recognised :
  (forall ts, is_type_list ts = true <-> exists l, ts = [TTypes l]) /\
  (forall t, is_value_list t = true <-> exists l, t = TValues l).
Proof.
  split.
  - intros [|[n k|l|l] [|u ts]]; cbn; split; intros H; try discriminate H; try reflexivity;
      try (destruct H as [x H]; discriminate H); eauto.
  - intros [n k|l|l]; cbn; split; intros H; try discriminate H; try reflexivity;
      try (destruct H as [x H]; discriminate H); eauto.
Qed.

Lemma concatenate_kind : forall ts r, concatenate ts = Some r ->
  is_type_list [r] = negb (is_value_list r) /\
  forall t, In t ts -> is_type_list [t] = is_type_list [r] /\ is_value_list t = is_value_list r.
Proof.
  intros ts r H. destruct concatenate_full as [C1 [C2 C3]].
  destruct (proj1 (C3 ts)) as [N [[ls ->]|[ls ->]]]; [congruence| |].
  - rewrite C1 in H by (intros ->; apply N; reflexivity). injection H as <-. split; [reflexivity|].
    intros t I. apply in_map_iff in I. destruct I as [l [<- _]]. split; reflexivity.
  - rewrite C2 in H by (intros ->; apply N; reflexivity). injection H as <-. split; [reflexivity|].
    intros t I. apply in_map_iff in I. destruct I as [l [<- _]]. split; reflexivity.
Qed.
