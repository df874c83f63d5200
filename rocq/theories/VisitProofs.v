Require Import List Bool.
Require Import Verif.VisitSpec Verif.VisitModel.
Import ListNotations.

Lemma forward_deduce : forall e, forward (deduce e) = handed_on e.
Proof. intros [t c []]; reflexivity. Qed.

Lemma handed_on_twice : forall e, handed_on (handed_on e) = handed_on e.
Proof. intros [t c []]; reflexivity. Qed.

Lemma handed_on_get : forall t e, handed_on (get t e) = get t e.
Proof. intros [t c []] [b k []]; destruct c; reflexivity. Qed.

Lemma get_element : forall t e, get (handed_on t) e = element t e.
Proof. intros [t c []] [b k []]; destruct c, k; reflexivity. Qed.

Lemma visit_passes : forall F f x, visit F f x <> None <-> passes F f x.
Proof.
  intros F f x. unfold visit, passes. destruct (F f x) as [[|[]]|]; split.
  - intros _. eexists. split; [reflexivity|discriminate].
  - intros _. discriminate.
  - intros _. eexists. split; [reflexivity|discriminate].
  - intros _. discriminate.
  - intros N. exfalso. apply N. reflexivity.
  - intros [a [E N]]. injection E as <-. exfalso. apply N. reflexivity.
  - intros N. exfalso. apply N. reflexivity.
  - intros [a [E _]]. discriminate.
Qed.

Lemma visit_seen : forall F f x es, visit F f x = Some es -> es = seen F f x.
Proof.
  intros F f x es. unfold visit, seen. destruct (F f x) as [[|[]]|]; intros H; try discriminate; injection H as <-; reflexivity.
Qed.

Lemma visit_all_exact : forall F f xs,
  (visit_all F f xs <> None <-> forall x, In x xs -> passes F f x) /\
  forall es, visit_all F f xs = Some es -> es = flat_map (seen F f) xs.
Proof.
  induction xs as [|x xs [IH1 IH2]]; cbn [visit_all].
  - split; [split; [intros _ x []|discriminate]|]. intros es H. injection H as <-. reflexivity.
  - pose proof (visit_passes F f x) as P. pose proof (visit_seen F f x) as S.
    destruct (visit F f x) as [v|].
    + destruct (visit_all F f xs) as [vs|].
      * split.
        -- split; [|discriminate]. intros _ y [<-|I]; [apply P; discriminate|apply IH1; [discriminate|exact I]].
        -- intros es H. injection H as <-. cbn [flat_map]. rewrite (S v eq_refl), (IH2 vs eq_refl). reflexivity.
      * split; [|discriminate]. split; [intros N; exfalso; apply N; reflexivity|].
        intros A. exfalso. apply (proj2 IH1); [|reflexivity]. intros y I. apply A. right. exact I.
    + split; [|discriminate]. split; [intros N; exfalso; apply N; reflexivity|].
      intros A. exfalso. apply (proj2 P); [|reflexivity]. apply A. left. reflexivity.
Qed.

Lemma args_exact : forall F f xs,
  (for_each_arg F f xs <> None <-> forall x, In x xs -> passes F (handed_on f) (handed_on x)) /\
  forall es, for_each_arg F f xs = Some es -> es = flat_map (fun x => seen F (handed_on f) (handed_on x)) xs.
Proof.
  intros F f xs. unfold for_each_arg. rewrite forward_deduce.
  replace (map (fun x => forward (deduce x)) xs) with (map handed_on xs)
    by (apply map_ext; intros x; symmetry; apply forward_deduce).
  destruct (visit_all_exact F (handed_on f) (map handed_on xs)) as [A B]. split.
  - rewrite A. split.
    + intros H x I. apply H. apply in_map. exact I.
    + intros H y I. apply in_map_iff in I. destruct I as [x [<- I]]. auto.
  - intros es H. rewrite (B es H). clear. induction xs as [|x xs IH]; [reflexivity|].
    cbn [map flat_map]. rewrite IH. reflexivity.
Qed.

Lemma passes_plain : forall F f x, no_commas F -> (passes F f x <-> F f x <> None).
Proof.
  intros F f x N. unfold passes. split.
  - intros [a [E _]]. rewrite E. discriminate.
  - intros H. destruct (F f x) as [[|i]|] eqn:E; [exists Plain; split; [reflexivity|discriminate]|destruct (N f x i E)|destruct (H eq_refl)].
Qed.

Lemma seen_plain : forall F f x, no_commas F -> seen F f x = [Called f x].
Proof.
  intros F f x N. unfold seen. destruct (F f x) as [[|i]|] eqn:E; try reflexivity. destruct (N f x i E).
Qed.

Lemma args_as_given : forall F f xs, no_commas F ->
  calls_each F (handed_on f) (map handed_on xs) (for_each_arg F f xs).
Proof.
  intros F f xs N. destruct (args_exact F f xs) as [A B]. split.
  - rewrite A. split.
    + intros H y I. apply in_map_iff in I. destruct I as [x [<- I]]. apply passes_plain; auto.
    + intros H x I. apply passes_plain; [exact N|]. apply H. apply in_map. exact I.
  - intros es H. rewrite (B es H). clear - N. induction xs as [|x xs IH]; [reflexivity|].
    cbn [map flat_map]. rewrite IH, seen_plain by exact N. reflexivity.
Qed.

Lemma tuple_args : forall F f t elements,
  for_each_in_tuple F f t elements = for_each_arg F (named f) (map (element t) elements).
Proof.
  intros F f t elements. unfold for_each_in_tuple. cbv zeta. rewrite !map_map.
  replace (name (rref (deduce f))) with (named f) by (destruct f as [a b []]; reflexivity).
  replace (map (fun x => forward (deduce (get (forward (deduce t)) x))) elements) with (map (element t) elements); [reflexivity|].
  apply map_ext. intros e. rewrite !forward_deduce, handed_on_get. symmetry. apply get_element.
Qed.

Lemma handed_on_element : forall t e, handed_on (element t e) = element t e.
Proof. intros [t c []] [b k []]; destruct c, k; reflexivity. Qed.

Lemma tuple_exact : forall F f t elements,
  (for_each_in_tuple F f t elements <> None <-> forall e, In e elements -> passes F (named f) (element t e)) /\
  forall es, for_each_in_tuple F f t elements = Some es -> es = flat_map (fun e => seen F (named f) (element t e)) elements.
Proof.
  intros F f t elements. rewrite tuple_args. destruct (args_exact F (named f) (map (element t) elements)) as [A B]. split.
  - rewrite A. split.
    + intros H e I. specialize (H (element t e) (in_map _ _ _ I)). rewrite handed_on_element in H. exact H.
    + intros H x I. apply in_map_iff in I. destruct I as [e [<- I]]. rewrite handed_on_element. apply H. exact I.
  - intros es H. rewrite (B es H). clear. induction elements as [|e l IH]; [reflexivity|].
    cbn [map flat_map]. rewrite IH, handed_on_element. reflexivity.
Qed.

Lemma tuple_as_given : forall F f t elements, no_commas F ->
  calls_each F (named f) (map (element t) elements) (for_each_in_tuple F f t elements).
Proof.
  intros F f t elements N. rewrite tuple_args.
  pose proof (args_as_given F (named f) (map (element t) elements) N) as C.
  rewrite map_map in C. replace (map (fun x => handed_on (element t x)) elements) with (map (element t) elements) in C; [exact C|].
  apply map_ext. intros e. symmetry. apply handed_on_element.
Qed.

(** callables that do not mind being lvalues: one call is as good as the other *)
Lemma tuple_like_args : forall F f t elements, no_commas F -> lvalue_callable F ->
  (for_each_in_tuple F f t elements <> None <-> for_each_arg F f (map (element t) elements) <> None).
Proof.
  intros F [a c k] t elements N L. destruct (tuple_as_given F (Expr a c k) t elements N) as [A _].
  destruct (args_as_given F (Expr a c k) (map (element t) elements) N) as [B _]. rewrite A, B.
  rewrite map_map. replace (map (fun x => handed_on (element t x)) elements) with (map (element t) elements)
    by (apply map_ext; intros e; symmetry; apply handed_on_element).
  unfold handed_on, named. cbn [type_of const_of category_of].
  split; intros H x I; specialize (H x I); [rewrite L|rewrite L in H]; exact H.
Qed.

Lemma rvalues_only_rejected : forall f t e elements, category_of f <> Lvalue ->
  for_each_arg rvalues_only f (map (element t) (e :: elements)) <> None /\
  for_each_in_tuple rvalues_only f t (e :: elements) = None.
Proof.
  intros f t e elements C. split.
  - apply args_exact. intros x _. exists Plain. split; [|discriminate].
    unfold rvalues_only, handed_on. cbn [category_of]. destruct (category_of f); [destruct C| |]; reflexivity.
  - destruct (for_each_in_tuple rvalues_only f t (e :: elements)) eqn:E; [|reflexivity]. exfalso.
    destruct (tuple_exact rvalues_only f t (e :: elements)) as [A _]. rewrite E in A.
    destruct (proj1 A ltac:(discriminate) e (or_introl eq_refl)) as [a [N _]]. discriminate.
Qed.

Lemma commas_called : forall f x xs,
  for_each_arg (streams false) f (x :: xs) = None /\
  exists es, for_each_arg (streams true) f (x :: xs) = Some es /\ In (Comma (handed_on x)) es.
Proof.
  intros f x xs. split.
  - destruct (for_each_arg (streams false) f (x :: xs)) eqn:E; [|reflexivity]. exfalso.
    destruct (args_exact (streams false) f (x :: xs)) as [A _]. rewrite E in A.
    destruct (proj1 A ltac:(discriminate) x (or_introl eq_refl)) as [a [N M]]. injection N as <-. apply M. reflexivity.
  - destruct (args_exact (streams true) f (x :: xs)) as [A B].
    destruct (for_each_arg (streams true) f (x :: xs)) as [es|] eqn:E.
    + exists es. split; [reflexivity|]. rewrite (B es eq_refl). cbn. auto.
    + exfalso. apply (proj2 A); [|reflexivity]. intros y _. exists (OwnComma true). split; [reflexivity|discriminate].
Qed.
