(** More about type_list: what contains<> of a nested list means, the descending sort,
    and which lists have a cartesian product. *)

Require Import List Arith ZArith Permutation Sorted Lia Bool.
Require Import Verif.TypeListModel Verif.ListSpec Verif.TypeListView Verif.TypeListProofs.
Import ListNotations.

(** * contains *)

Lemma leaf_not_list : forall x t, leaf x t -> forall us, x <> TTypes us.
Proof. intros x t H. induction H; auto. Qed.

Lemma leaf_of_atom : forall x t, (forall us, t <> TTypes us) -> leaf x t -> x = t.
Proof. intros x t H L. destruct L as [N|u us I L]; [reflexivity|]. exfalso. eapply H; reflexivity. Qed.

Lemma contains_leaves : forall l t, contains l t = true <-> forall x, leaf x t -> In x l.
Proof.
  intros l t. induction t as [n s|us IH|vs] using ty_ind'.
  - rewrite contains_not_list by discriminate. split.
    + intros H x L. apply leaf_of_atom in L; [subst; exact H|discriminate].
    + intros H. apply H. constructor. discriminate.
  - cbn [contains]. rewrite forallb_forall. split.
    + intros H x L. inversion L as [N|u us' I L']; subst.
      * exfalso. eapply N; reflexivity.
      * apply (proj1 (IH u I) (H u I)). exact L'.
    + intros H u I. apply IH; [exact I|]. intros x L. apply H. eapply leaf_inside; eauto.
  - rewrite contains_not_list by discriminate. split.
    + intros H x L. apply leaf_of_atom in L; [subst; exact H|discriminate].
    + intros H. apply H. constructor. discriminate.
Qed.

(** * stable sort *)

Lemma stable_sort_unique_ge : forall (A : Type) (key : A -> nat) l r1 r2,
  stable_sort key ge l r1 -> stable_sort key ge l r2 -> r1 = r2.
Proof.
  intros A key l r1 r2 [P1 [S1 F1]] [P2 [S2 F2]].
  assert (P : Permutation r1 r2) by (transitivity l; [symmetry|]; auto).
  assert (F : forall k, filter (fun x => key x =? k) r1 = filter (fun x => key x =? k) r2)
    by (intros; rewrite F1, F2; reflexivity).
  clear P1 P2 F1 F2 l. revert r2 S2 P F. induction r1 as [|a r1 IH]; intros r2 S2 P F.
  - apply Permutation_nil in P. auto.
  - destruct r2 as [|b r2]; [symmetry in P; apply Permutation_nil in P; discriminate|].
    assert (K : key a = key b).
    { assert (Ha : In a (b :: r2)) by (eapply Permutation_in; [exact P|left; auto]).
      assert (Hb : In b (a :: r1)) by (eapply Permutation_in; [symmetry; exact P|left; auto]).
      inversion S1; subst. inversion S2; subst. rewrite Forall_forall in *.
      apply Nat.le_antisymm.
      - destruct Ha as [->|Ha]; [lia|]. specialize (H4 a Ha). lia.
      - destruct Hb as [->|Hb]; [lia|]. specialize (H2 b Hb). lia. }
    assert (E : a = b).
    { pose proof (F (key a)) as Fa. simpl in Fa. rewrite <- K in Fa.
      rewrite !Nat.eqb_refl in Fa. congruence. }
    subst b. f_equal. inversion S1; subst. inversion S2; subst. apply IH; auto.
    + eapply Permutation_cons_inv; eauto.
    + intros k. pose proof (F k) as Fk. simpl in Fk. destruct (key a =? k); congruence.
Qed.

Lemma stable_sorts_unique : forall (A : Type) (key : A -> nat) l r1 r2,
  (stable_sort key le l r1 -> stable_sort key le l r2 -> r1 = r2) /\
  (stable_sort key ge l r1 -> stable_sort key ge l r2 -> r1 = r2).
Proof. intros. split; [apply stable_sort_unique|apply stable_sort_unique_ge]. Qed.

(** * cartesian_product: which lists have one *)

Definition one_kind (ls : list ty) (p : ty) : Prop :=
  (exists ks, ls = map TTypes ks /\ (forall l, In l (removelast ks) -> l <> []) /\
     p = TTypes (map TTypes (lex_product ks))) \/
  (exists ks, ls = map TValues ks /\ (forall l, In l (removelast ks) -> l <> []) /\
     p = TTypes (map TValues (lex_product ks))).
Definition mixed_empty (ls : list ty) (p : ty) : Prop :=
  p = TTypes [] /\ exists front x e, ls = front ++ [x; e] /\ Forall non_empty_list front /\
    ((e = TTypes [] /\ exists y l, x = TTypes (y :: l)) \/ (e = TValues [] /\ exists y l, x = TValues (y :: l))).

Lemma all_some_length : forall A (l : list (option A)) r, all_some l = Some r -> length r = length l.
Proof.
  intros A l. induction l as [|[x|] l IH]; intros r H; cbn in H; try discriminate.
  - injection H as <-. reflexivity.
  - destruct (all_some l) as [r'|] eqn:E; [|discriminate]. injection H as <-. cbn. rewrite (IH r' eq_refl). reflexivity.
Qed.

Lemma pair_first_inv : forall a b p, cartesian_pair 0 a b = Some p ->
  (exists x l k, a = TTypes (x :: l) /\ b = TTypes k) \/ (exists x l k, a = TValues (x :: l) /\ b = TValues k).
Proof.
  intros [n s|[|x l]|[|x l]] b p H; try discriminate; unfold cartesian_pair in H; cbn [map Nat.eqb] in H.
  - destruct b as [m t|k|k]; cbn [one_element_mult all_some] in H; try discriminate.
    left. exists x, l, k. split; reflexivity.
  - destruct b as [m t|k|k]; cbn [one_element_mult all_some] in H; try discriminate.
    right. exists x, l, k. split; reflexivity.
Qed.

(** one step over a product [p] whose tuples are of one kind, or that is empty *)
Lemma step_over_empty : forall i a, non_empty_list a -> cartesian_pair (S i) a (TTypes []) = Some (TTypes []).
Proof.
  intros i a [(x & l & ->)|(x & l & ->)].
  - change (TTypes []) with (TTypes (map TTypes [])) at 1. rewrite (pair_types_next i (x :: l) []) by discriminate.
    do 2 f_equal. induction (x :: l) as [|y r IH]; [reflexivity|exact IH].
  - change (TTypes []) with (TTypes (map TValues [])) at 1. rewrite (pair_values_next i (x :: l) []) by discriminate.
    do 2 f_equal. induction (x :: l) as [|y r IH]; [reflexivity|exact IH].
Qed.

Lemma step_wrong_kind_values : forall i v vs t ts,
  cartesian_pair (S i) (TValues (v :: vs)) (TTypes (TTypes t :: ts)) = None.
Proof. reflexivity. Qed.
Lemma step_wrong_kind_types : forall i v vs t ts,
  cartesian_pair (S i) (TTypes (v :: vs)) (TTypes (TValues t :: ts)) = None.
Proof. reflexivity. Qed.

Lemma pair_not_empty : forall i a p r, cartesian_pair i a p = Some r -> non_empty_list a.
Proof.
  intros i [n s|[|x l]|[|x l]] p r H; try discriminate.
  - left. eauto.
  - right. eauto.
Qed.

Lemma removelast_In_cons : forall A (x y : A) l z, In z (removelast (y :: l)) -> In z (removelast (x :: y :: l)).
Proof. intros. cbn [removelast]. right. exact H. Qed.

Lemma lex_product_nil_last : forall A (ks : list (list A)), lex_product ks = [] -> (forall l, In l (removelast ks) -> l <> []) ->
  exists front, ks = front ++ [[]].
Proof.
  intros A ks. induction ks as [|k ks IH]; intros E N; [discriminate|].
  destruct ks as [|k2 ks].
  - cbn in E. destruct k as [|x k]; [exists []; reflexivity|discriminate].
  - assert (k <> []) as K by (apply N; left; reflexivity).
    destruct k as [|x k]; [congruence|].
    assert (lex_product (k2 :: ks) = []) as E2.
    { change (lex_product ((x :: k) :: k2 :: ks)) with (map (cons x) (lex_product (k2 :: ks)) ++ flat_map (fun x => map (cons x) (lex_product (k2 :: ks))) k) in E.
      apply app_eq_nil in E as (E & _). apply map_eq_nil in E. exact E. }
    destruct (IH E2) as (front & ->); [intros l I; apply N; right; exact I|].
    exists ((x :: k) :: front). reflexivity.
Qed.

Lemma app_last_two : forall A (front : list A) a b e, front ++ [e] = [a; b] -> front = [a] /\ e = b.
Proof.
  intros A [|x [|y [|z f]]] a b e H; cbn in H; try discriminate; injection H; intros; subst; auto.
Qed.

Lemma product_inv : forall rest l1 l2 p,
  cartesian_product_impl (length rest) l1 l2 rest = Some p ->
  one_kind (l1 :: l2 :: rest) p \/ mixed_empty (l1 :: l2 :: rest) p.
Proof.
  induction rest as [|l3 rest IH]; intros l1 l2 p H.
  - cbn [cartesian_product_impl length] in H. left.
    destruct (pair_first_inv _ _ _ H) as [(x & l & k & -> & ->)|(x & l & k & -> & ->)].
    + left. exists [x :: l; k]. split; [reflexivity|]. split; [intros m [<-|[]]; discriminate|].
      rewrite pair_types_first in H by discriminate. congruence.
    + right. exists [x :: l; k]. split; [reflexivity|]. split; [intros m [<-|[]]; discriminate|].
      rewrite pair_values_first in H by discriminate. congruence.
  - cbn [cartesian_product_impl length] in H. rewrite Nat.sub_succ, Nat.sub_0_r in H.
    destruct (cartesian_product_impl (length rest) l2 l3 rest) as [q|] eqn:Q; [|discriminate].
    pose proof (pair_not_empty _ _ _ _ H) as N1.
    assert (mixed_step : q = TTypes [] -> (exists front x e, l2 :: l3 :: rest = front ++ [x; e] /\ Forall non_empty_list front /\
      ((e = TTypes [] /\ exists y l, x = TTypes (y :: l)) \/ (e = TValues [] /\ exists y l, x = TValues (y :: l)))) ->
      mixed_empty (l1 :: l2 :: l3 :: rest) p).
    { intros -> (front & x & e & E & F & K). rewrite step_over_empty in H by exact N1. split; [congruence|].
      exists (l1 :: front), x, e. split; [rewrite E; reflexivity|]. split; [constructor; assumption|exact K]. }
    destruct (IH l2 l3 q Q) as [[(ks & E & N & ->)|(ks & E & N & ->)]|(-> & M)].
    + destruct N1 as [(x & l & ->)|(x & l & ->)].
      * left. left. exists ((x :: l) :: ks).
        destruct ks as [|k2 ks]; [discriminate|].
        split; [cbn [map]; rewrite E; reflexivity|].
        split; [intros m [<-|I]; [discriminate|apply N; exact I]|].
        rewrite pair_types_next in H by discriminate. injection H as <-. reflexivity.
      * destruct (lex_product ks) as [|t ts] eqn:L.
        -- right. apply mixed_step; [reflexivity|].
           destruct (lex_product_nil_last _ ks L N) as (front & ->).
           destruct (exists_last (l := front)) as (front' & y & ->).
           { intros ->. discriminate. }
           rewrite map_app, map_app in E. cbn [map] in E. rewrite <- app_assoc in E.
           exists (map TTypes front'), (TTypes y), (TTypes []). split; [exact E|].
           assert (forall m, In m (front' ++ [y]) -> m <> []) as N'.
           { intros m I. apply N. rewrite removelast_last. exact I. }
           split.
           ++ apply Forall_forall. intros z I. apply in_map_iff in I as (m & <- & I).
              specialize (N' m). destruct m as [|w m]; [exfalso; apply N'; [apply in_or_app; left; exact I|reflexivity]|].
              left. eauto.
           ++ left. split; [reflexivity|]. destruct y as [|w y]; [exfalso; apply (N' []); [apply in_or_app; right; left; reflexivity|reflexivity]|].
              eauto.
        -- discriminate.
    + destruct N1 as [(x & l & ->)|(x & l & ->)].
      * destruct (lex_product ks) as [|t ts] eqn:L.
        -- right. apply mixed_step; [reflexivity|].
           destruct (lex_product_nil_last _ ks L N) as (front & ->).
           destruct (exists_last (l := front)) as (front' & y & ->).
           { intros ->. discriminate. }
           rewrite map_app, map_app in E. cbn [map] in E. rewrite <- app_assoc in E.
           exists (map TValues front'), (TValues y), (TValues []). split; [exact E|].
           assert (forall m, In m (front' ++ [y]) -> m <> []) as N'.
           { intros m I. apply N. rewrite removelast_last. exact I. }
           split.
           ++ apply Forall_forall. intros z I. apply in_map_iff in I as (m & <- & I).
              specialize (N' m). destruct m as [|w m]; [exfalso; apply N'; [apply in_or_app; left; exact I|reflexivity]|].
              right. eauto.
           ++ right. split; [reflexivity|]. destruct y as [|w y]; [exfalso; apply (N' []); [apply in_or_app; right; left; reflexivity|reflexivity]|].
              eauto.
        -- discriminate.
      * left. right. exists ((x :: l) :: ks).
        destruct ks as [|k2 ks]; [discriminate|].
        split; [cbn [map]; rewrite E; reflexivity|].
        split; [intros m [<-|I]; [discriminate|apply N; exact I]|].
        rewrite pair_values_next in H by discriminate. injection H as <-. reflexivity.
    + right. apply mixed_step; [reflexivity|exact M].
Qed.

Lemma mixed_product : forall front x e a b rest, front ++ [x; e] = a :: b :: rest -> Forall non_empty_list front ->
  ((e = TTypes [] /\ exists y l, x = TTypes (y :: l)) \/ (e = TValues [] /\ exists y l, x = TValues (y :: l))) ->
  cartesian_product_impl (length rest) a b rest = Some (TTypes []).
Proof.
  induction front as [|f front IH]; intros x e a b rest E F K.
  - cbn in E. injection E as <- <- <-. cbn [length cartesian_product_impl].
    destruct K as [(-> & y & l & ->)|(-> & y & l & ->)].
    + rewrite pair_types_first by discriminate. do 2 f_equal. cbn [lex_product].
      induction (y :: l) as [|z r IHr]; [reflexivity|exact IHr].
    + rewrite pair_values_first by discriminate. do 2 f_equal. cbn [lex_product].
      induction (y :: l) as [|z r IHr]; [reflexivity|exact IHr].
  - inversion F as [|? ? N F']; subst. cbn [app] in E. injection E as <- E.
    destruct front as [|g front].
    + cbn in E. injection E as <- <-. cbn [length cartesian_product_impl]. change (1 - 1) with 0.
      pose proof (IH x e x e [] eq_refl F' K) as P. cbn [length cartesian_product_impl] in P. rewrite P.
      apply step_over_empty. exact N.
    + destruct rest as [|c rest]; [destruct front; discriminate|].
      cbn [length cartesian_product_impl]. rewrite Nat.sub_succ, Nat.sub_0_r.
      rewrite (IH x e b c rest E F' K). apply step_over_empty. exact N.
Qed.

Lemma cartesian_unfold : forall a b rest,
  cartesian_product (a :: b :: rest) = cartesian_product_impl (length rest) a b rest.
Proof. intros a b [|c rest]; reflexivity. Qed.

Lemma product_accepts : forall ls,
  (cartesian_product ls <> None <->
   (exists ks : list (list ty), ls = map TTypes ks /\ 2 <= length ks /\ forall l, In l (removelast ks) -> l <> []) \/
   (exists ks : list (list val), ls = map TValues ks /\ 2 <= length ks /\ forall l, In l (removelast ks) -> l <> []) \/
   (exists front x e, ls = front ++ [x; e] /\ Forall non_empty_list front /\
      ((e = TTypes [] /\ exists y l, x = TTypes (y :: l)) \/ (e = TValues [] /\ exists y l, x = TValues (y :: l))))) /\
  (forall front x e, ls = front ++ [x; e] -> Forall non_empty_list front ->
      ((e = TTypes [] /\ exists y l, x = TTypes (y :: l)) \/ (e = TValues [] /\ exists y l, x = TValues (y :: l))) ->
      cartesian_product ls = Some (TTypes [])).
Proof.
  intros ls.
  assert (M : forall front x e, ls = front ++ [x; e] -> Forall non_empty_list front ->
      ((e = TTypes [] /\ exists y l, x = TTypes (y :: l)) \/ (e = TValues [] /\ exists y l, x = TValues (y :: l))) ->
      cartesian_product ls = Some (TTypes [])).
  { intros front x e -> F K.
    destruct (front ++ [x; e]) as [|a [|b rest]] eqn:E.
    - destruct front; discriminate.
    - destruct front as [|? [|]]; discriminate.
    - rewrite cartesian_unfold. eapply mixed_product; [exact E|exact F|exact K]. }
  split; [split|exact M].
  - intros H. destruct ls as [|a [|b rest]]; [exfalso; apply H; reflexivity|exfalso; apply H; reflexivity|].
    rewrite cartesian_unfold in H.
    destruct (cartesian_product_impl (length rest) a b rest) as [p|] eqn:P; [|congruence].
    destruct (product_inv _ _ _ _ P) as [[(ks & E & N & _)|(ks & E & N & _)]|(_ & X)].
    + left. exists ks. split; [exact E|]. split; [|exact N].
      rewrite <- (map_length TTypes), <- E. cbn. lia.
    + right. left. exists ks. split; [exact E|]. split; [|exact N].
      rewrite <- (map_length TValues), <- E. cbn. lia.
    + right. right. exact X.
  - intros [(ks & -> & L & N)|[(ks & -> & L & N)|(front & x & e & E & F & K)]].
    + rewrite cartesian_product_types by assumption. discriminate.
    + rewrite cartesian_product_values by assumption. discriminate.
    + rewrite (M front x e E F K). discriminate.
Qed.

(** * Positions *)

Lemma first_position_at : forall A (l : list A) t n,
  first_position (fun x => x = t) l n -> In t l -> nth_error l n = Some t.
Proof.
  intros A l t n (Hno & [(x & Hx & ->)|Hn]) I; [exact Hx|]. exfalso.
  apply In_nth_error in I. destruct I as (i & Hi). apply (Hno i t).
  - rewrite Hn. apply nth_error_Some. congruence.
  - exact Hi.
  - reflexivity.
Qed.

Lemma first_position_before : forall A (l : list A) t n i,
  first_position (fun x => x = t) l n -> nth_error l i = Some t ->
  n <= i /\ (n = i <-> forall j, j < i -> nth_error l j <> Some t).
Proof.
  intros A l t n i (Hno & Hn) Hi.
  assert (L : n <= i). { destruct (le_lt_dec n i) as [H|H]; [exact H|]. exfalso. exact (Hno i t H Hi eq_refl). }
  split; [exact L|]. split.
  - intros -> j Hj E. exact (Hno j t Hj E eq_refl).
  - intros H. destruct (Nat.eq_dec n i) as [E|E]; [exact E|]. exfalso.
    destruct Hn as [(x & Hx & ->)|Hn]; [apply (H n); [lia|exact Hx]|].
    assert (i < length l) by (apply nth_error_Some; congruence). lia.
Qed.

Lemma nth_error_ext : forall A (a b : list A), (forall i, nth_error a i = nth_error b i) -> a = b.
Proof.
  intros A a. induction a as [|x a IH]; intros [|y b] H; [reflexivity|discriminate (H 0)|discriminate (H 0)|].
  f_equal; [pose proof (H 0) as E; cbn in E; congruence|]. apply IH. intros i. exact (H (S i)).
Qed.

Lemma type_positions : forall l : list ty,
  (forall i, (exists t, at_impl i l = Some t) <-> i < length l) /\
  (forall t, In t l -> at_impl (first_index_of_type t l) l = Some t) /\
  (forall i t, at_impl i l = Some t ->
     first_index_of_type t l <= i /\
     (first_index_of_type t l = i <-> forall j, j < i -> at_impl j l <> Some t)) /\
  (forall k, (forall i, at_impl i l = at_impl i k) -> TTypes l = TTypes k).
Proof.
  intros l. repeat apply conj.
  - intros i. rewrite at_impl_nth, <- nth_error_Some. destruct (nth_error l i); split; intros H; try discriminate; eauto.
    + destruct H as (? & H); discriminate.
    + congruence.
  - intros t I. rewrite at_impl_nth. apply first_position_at; [apply first_index_of_type_spec|exact I].
  - intros i t H. rewrite at_impl_nth in H.
    destruct (first_position_before _ l t _ i (first_index_of_type_spec t l) H) as (A & B).
    split; [exact A|]. rewrite B. split; intros K j Hj; [rewrite at_impl_nth|rewrite <- at_impl_nth]; exact (K j Hj).
  - intros k H. f_equal. apply nth_error_ext. intros i. rewrite <- !at_impl_nth. apply H.
Qed.

Lemma value_positions : forall l : list val,
  (forall front v back, l = front ++ v :: back -> v_at (length front) l = Some v) /\
  (forall i, (exists v, v_at i l = Some v) <-> i < length l) /\
  (forall v, In v l -> v_at (v_index_of v l) l = Some v) /\
  (forall i v, v_at i l = Some v ->
     v_index_of v l <= i /\ (v_index_of v l = i <-> forall j, j < i -> v_at j l <> Some v)) /\
  (forall k, (forall i, v_at i l = v_at i k) -> TValues l = TValues k).
Proof.
  intros l. unfold v_at. repeat apply conj.
  - intros front v back ->. rewrite nth_error_app2, Nat.sub_diag; [reflexivity|apply le_n].
  - intros i. rewrite <- nth_error_Some. destruct (nth_error l i); split; intros H; try discriminate; eauto.
    + destruct H as (? & H); discriminate.
    + congruence.
  - intros v I. apply first_position_at; [apply v_index_of_spec|exact I].
  - intros i v H. exact (first_position_before _ l v _ i (v_index_of_spec v l) H).
  - intros k H. f_equal. apply nth_error_ext. exact H.
Qed.

Lemma nth_error_app_cases : forall A (a b : list A) i,
  nth_error (a ++ b) i = if i <? length a then nth_error a i else nth_error b (i - length a).
Proof.
  intros A a b i. destruct (Nat.ltb_spec i (length a)) as [H|H]; [apply nth_error_app1|apply nth_error_app2]; assumption.
Qed.

Lemma concatenated_positions :
  (forall a b c, concatenate [TTypes a; TTypes b] = Some (TTypes c) ->
     length c = length a + length b /\
     forall i, (i < length a -> at_impl i c = at_impl i a) /\ at_impl (length a + i) c = at_impl i b) /\
  (forall a b c, concatenate [TValues a; TValues b] = Some (TValues c) ->
     length c = length a + length b /\
     forall i, (i < length a -> v_at i c = v_at i a) /\ v_at (length a + i) c = v_at i b).
Proof.
  split; intros a b c H; cbn in H; injection H as <-; (split; [apply app_length|]); intros i; unfold v_at;
    rewrite ?at_impl_nth, !nth_error_app_cases; split.
  - intros L. apply Nat.ltb_lt in L. rewrite L. reflexivity.
  - replace (length a + i <? length a) with false by (symmetry; apply Nat.ltb_ge; lia).
    replace (length a + i - length a) with i by lia. reflexivity.
  - intros L. apply Nat.ltb_lt in L. rewrite L. reflexivity.
  - replace (length a + i <? length a) with false by (symmetry; apply Nat.ltb_ge; lia).
    replace (length a + i - length a) with i by lia. reflexivity.
Qed.
