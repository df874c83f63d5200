(** Proofs about references in a value_list. *)

Require Import List Arith ZArith Bool Lia.
Require Import Verif.ListSpec Verif.RefsModel Verif.RefsView Verif.TypeListProofs.
Import ListNotations.

Lemma decl_eqb_eq : forall a b, decl_eqb a b = true <-> a = b.
Proof.
  intros [t|t] [u|u]; cbn; rewrite ?Nat.eqb_eq; split; intros H; try congruence.
Qed.

Lemma is_same_alike : forall c a b, readable c a -> readable c b ->
  exists r, is_same_impl c a b = Some r /\ (r = true <-> alike c a b).
Proof.
  intros c a b Ra Rb. unfold is_same_impl.
  destruct (decl_eqb (decltype a) (decltype b)) eqn:E.
  - apply decl_eqb_eq in E. destruct a as [t x|t o], b as [u y|u p]; cbn in *; try discriminate; injection E as <-.
    + exists (Z.eqb x y). split; [reflexivity|]. rewrite Z.eqb_eq. intuition.
    + destruct (c o) as [x|] eqn:O; [|congruence]. destruct (c p) as [y|] eqn:P; [|congruence].
      exists (Z.eqb x y). split; [reflexivity|]. rewrite Z.eqb_eq. split; [intros ->; auto|intros (_ & H); congruence].
  - exists false. split; [reflexivity|]. split; [discriminate|]. intros H. exfalso.
    assert (decltype a = decltype b) as D.
    { destruct a as [t x|t o], b as [u y|u p]; cbn in *; intuition congruence. }
    apply decl_eqb_eq in D. congruence.
Qed.

(** the answer as a total function, for readable values *)
Definition same (c : contents) (a b : arg) : bool :=
  match is_same_impl c a b with Some r => r | None => false end.

Lemma same_some : forall c a b, readable c a -> readable c b -> is_same_impl c a b = Some (same c a b).
Proof. intros c a b Ra Rb. unfold same. destruct (is_same_alike c a b Ra Rb) as (r & -> & _). reflexivity. Qed.

Lemma same_iff : forall c a b, readable c a -> readable c b -> (same c a b = true <-> alike c a b).
Proof. intros c a b Ra Rb. unfold same. destruct (is_same_alike c a b Ra Rb) as (r & -> & H). exact H. Qed.

Lemma count_filter : forall c v l n, readable c v -> Forall (readable c) l ->
  count_from c n v l = Some (n + length (filter (same c v) l)).
Proof.
  intros c v l. induction l as [|u r IH]; intros n Rv Rl.
  - cbn. rewrite Nat.add_0_r. reflexivity.
  - inversion Rl as [|? ? Ru Rr]; subst. cbn [count_from filter]. rewrite (same_some c v u Rv Ru).
    rewrite IH by assumption. destruct (same c v u); cbn [length]; f_equal; lia.
Qed.

Lemma contains_existsb : forall c v l, readable c v -> Forall (readable c) l ->
  ref_contains c v l = Some (existsb (same c v) l).
Proof.
  intros c v l Rv Rl. unfold ref_contains. induction Rl as [|u r Ru Rr IH]; [reflexivity|].
  cbn [disjunction existsb]. rewrite (same_some c v u Rv Ru). destruct (same c v u); [reflexivity|exact IH].
Qed.

Lemma all_forallb : forall c v l, readable c v -> Forall (readable c) l ->
  conjunction (is_same_impl c v) l = Some (forallb (same c v) l).
Proof.
  intros c v l Rv Rl. induction Rl as [|u r Ru Rr IH]; [reflexivity|].
  cbn [conjunction forallb]. rewrite (same_some c v u Rv Ru). destruct (same c v u); [exact IH|reflexivity].
Qed.

Lemma index_position : forall c v l i, readable c v -> Forall (readable c) l ->
  exists n, ref_index_from c i v l = Some (i + n) /\ first_position (fun x => alike c v x) l n.
Proof.
  intros c v l. induction l as [|u r IH]; intros i Rv Rl.
  - exists 0. cbn. split; [rewrite Nat.add_0_r; reflexivity|]. split; [intros; lia|right; reflexivity].
  - inversion Rl as [|? ? Ru Rr]; subst. cbn [ref_index_from]. rewrite (same_some c v u Rv Ru).
    destruct (same c v u) eqn:Sm.
    + exists 0. split; [rewrite Nat.add_0_r; reflexivity|]. split; [intros; lia|].
      left. exists u. split; [reflexivity|]. apply same_iff; assumption.
    + destruct (IH (S i) Rv Rr) as (n & E & F & G). exists (S n). split; [rewrite E; f_equal; lia|]. split.
      * intros [|j] x Hj Hx.
        -- cbn in Hx. injection Hx as <-. rewrite <- same_iff by assumption. congruence.
        -- apply (F j x); [lia|exact Hx].
      * destruct G as [(x & Gx & Ga)|G]; [left; exists x; split; assumption|right; cbn; congruence].
Qed.

Lemma alike_refl : forall c a, alike c a a.
Proof. intros c [t x|t o]; cbn; auto. Qed.
Lemma alike_sym : forall c a b, alike c a b -> alike c b a.
Proof. intros c [t x|t o] [u y|u p]; cbn; intuition. Qed.
Lemma alike_trans : forall c a b d, alike c a b -> alike c b d -> alike c a d.
Proof. intros c [t x|t o] [u y|u p] [w z|w q]; cbn; intuition congruence. Qed.

Lemma copies_existsb : forall c l, Forall (readable c) l ->
  ref_contains_copies c l = Some (existsb (fun v => 1 <? length (filter (same c v) l)) l).
Proof.
  intros c l Rl. unfold ref_contains_copies.
  assert (H : forall k, Forall (readable c) k ->
    disjunction (fun v => ref_more_than_once c v l) k = Some (existsb (fun v => 1 <? length (filter (same c v) l)) k)).
  { intros k Rk. induction Rk as [|v k Rv Rk IH]; [reflexivity|].
    cbn [disjunction existsb]. unfold ref_more_than_once at 1, ref_count_of.
    rewrite (count_filter c v l 0 Rv Rl). cbn [Nat.add].
    destruct (1 <? length (filter (same c v) l)); [reflexivity|exact IH]. }
  apply H. exact Rl.
Qed.

Lemma two_in_filter : forall (f : arg -> bool) l i j x y, i < j -> nth_error l i = Some x -> nth_error l j = Some y ->
  f x = true -> f y = true -> 1 < length (filter f l).
Proof.
  intros f l. induction l as [|u r IH]; intros i j x y Hij Hi Hj Fx Fy; [destruct i; discriminate|].
  destruct j as [|j]; [lia|]. destruct i as [|i].
  - cbn in Hi. injection Hi as <-. cbn [filter]. rewrite Fx. cbn [length].
    assert (In y (filter f r)) as I by (apply filter_In; split; [eapply nth_error_In; exact Hj|exact Fy]).
    destruct (filter f r); [destruct I|cbn; lia].
  - cbn [nth_error] in Hi, Hj. assert (1 < length (filter f r)) by (apply (IH i j x y); auto; lia).
    cbn [filter]. destruct (f u); cbn; lia.
Qed.

Lemma filter_two : forall (f : arg -> bool) l, 1 < length (filter f l) ->
  exists i j x y, i < j /\ nth_error l i = Some x /\ nth_error l j = Some y /\ f x = true /\ f y = true.
Proof.
  intros f l. induction l as [|u r IH]; intros H; [cbn in H; lia|].
  cbn [filter] in H. destruct (f u) eqn:E.
  - destruct (filter f r) as [|y k] eqn:F; [cbn in H; lia|].
    assert (In y (filter f r)) as I by (rewrite F; left; reflexivity).
    apply filter_In in I as (I & Fy). destruct (In_nth_error r y I) as (j & Hj).
    exists 0, (S j), u, y. repeat split; auto. lia.
  - destruct (IH H) as (i & j & x & y & K & A & B & C & D). exists (S i), (S j), x, y. repeat split; auto. lia.
Qed.

Lemma readable_nth : forall c l i x, Forall (readable c) l -> nth_error l i = Some x -> readable c x.
Proof. intros c l i x R H. rewrite Forall_forall in R. apply R. eapply nth_error_In; exact H. Qed.

(** the queries on readable values, by content *)
Lemma by_content : forall c v l, readable c v -> Forall (readable c) l ->
  (exists n, ref_index_of c v l = Some n /\ first_position (fun x => alike c v x) l n) /\
  (exists n, ref_count_of c v l = Some n /\ occurrences (fun x => alike c v x) l n) /\
  (exists b, ref_contains c v l = Some b /\ (b = true <-> exists x, In x l /\ alike c v x)) /\
  (exists b, ref_contains_copies c l = Some b /\
     (b = true <-> exists i j x y, i < j /\ nth_error l i = Some x /\ nth_error l j = Some y /\ alike c x y)) /\
  (exists b, ref_is_same c l = Some b /\ (b = true <-> forall x y, In x l -> In y l -> alike c x y)).
Proof.
  intros c v l Rv Rl. pose proof (proj1 (Forall_forall _ _) Rl) as Rin.
  split; [|split; [|split; [|split]]].
  - unfold ref_index_of. destruct (index_position c v l 0 Rv Rl) as (n & E & F). exists n. split; assumption.
  - exists (length (filter (same c v) l)). split; [apply (count_filter c v l 0); assumption|].
    exists (filter (fun i => match nth_error l i with Some x => same c v x | None => false end) (seq 0 (length l))).
    split; [apply NoDup_filter; apply seq_NoDup|]. split.
    + clear Rin. revert Rl. generalize (same c v) as f. intros f _. clear Rv v c.
      assert (G : forall k p, length (filter (fun i => match nth_error (p ++ k) i with Some x => f x | None => false end) (seq (length p) (length k))) = length (filter f k)).
      { induction k as [|u k IH]; intros p; [reflexivity|].
        cbn [length seq filter]. rewrite nth_error_app2 by lia. rewrite Nat.sub_diag. cbn [nth_error].
        specialize (IH (p ++ [u])). rewrite app_length, <- app_assoc in IH. cbn [length app] in IH. rewrite Nat.add_1_r in IH.
        destruct (f u); cbn [length]; rewrite IH; reflexivity. }
      exact (G l []).
    + intros i. rewrite filter_In, in_seq. split.
      * intros (_ & H). destruct (nth_error l i) as [x|] eqn:E; [|discriminate]. exists x. split; [reflexivity|].
        apply same_iff; [exact Rv|eapply readable_nth; eauto|exact H].
      * intros (x & E & A). assert (i < length l) by (apply nth_error_Some; congruence). split; [lia|].
        rewrite E. apply same_iff; [exact Rv|eapply readable_nth; eauto|exact A].
  - exists (existsb (same c v) l). split; [apply contains_existsb; assumption|].
    rewrite existsb_exists. split; intros (x & I & A); exists x; (split; [exact I|]); apply (same_iff c v x Rv (Rin x I)); exact A.
  - eexists. split; [apply copies_existsb; exact Rl|]. rewrite existsb_exists. split.
    + intros (v' & I & H). apply Nat.ltb_lt in H. destruct (filter_two _ _ H) as (i & j & x & y & K & A & B & C & D).
      pose proof (readable_nth c l i x Rl A) as Rx. pose proof (readable_nth c l j y Rl B) as Ry.
      exists i, j, x, y. repeat split; auto.
      apply alike_trans with v'; [apply alike_sym|]; apply (same_iff c v' _ (Rin v' I)); auto.
    + intros (i & j & x & y & K & A & B & C). exists x. split; [eapply nth_error_In; exact A|].
      apply Nat.ltb_lt. pose proof (readable_nth c l i x Rl A) as Rx. pose proof (readable_nth c l j y Rl B) as Ry.
      apply (two_in_filter _ l i j x y K A B); apply same_iff; auto. apply alike_refl.
  - destruct l as [|u r].
    + exists true. split; [reflexivity|]. split; [intros _ x y []|reflexivity].
    + inversion Rl as [|? ? Ru Rr]; subst. exists (forallb (same c u) r). split; [apply all_forallb; assumption|].
      rewrite forallb_forall. split.
      * intros H.
        assert (U : forall x, In x (u :: r) -> alike c u x).
        { intros x [<-|I]; [apply alike_refl|]. apply same_iff; [exact Ru|apply Rin; right; exact I|exact (H x I)]. }
        intros x y Ix Iy. apply alike_trans with u; [apply alike_sym|]; auto.
      * intros H x I. apply same_iff; [exact Ru|apply Rin; right; exact I|]. apply H; [left; reflexivity|right; exact I].
Qed.

Lemma alike_told_apart : forall c k a b, told_apart c k -> In a k -> In b k -> (alike c a b <-> a = b).
Proof.
  intros c k a b T Ia Ib. split; [|intros ->; apply alike_refl].
  destruct a as [t x|t o], b as [u y|u p]; cbn; intros H; try contradiction; destruct H as (<- & H).
  - congruence.
  - f_equal. exact (T t o p Ia Ib H).
Qed.

Lemma not_NoDup_nth : forall (l : list arg), (forall a b : arg, {a = b} + {a <> b}) ->
  (~ NoDup l <-> exists i j x, i < j /\ nth_error l i = Some x /\ nth_error l j = Some x).
Proof.
  intros l dec. split.
  - induction l as [|u r IH]; intros H; [exfalso; apply H; constructor|].
    destruct (in_dec dec u r) as [I|N].
    + destruct (In_nth_error r u I) as (j & Hj). exists 0, (S j), u. repeat split; auto. lia.
    + destruct IH as (i & j & x & K & A & B).
      * intros D. apply H. constructor; assumption.
      * exists (S i), (S j), x. repeat split; auto. lia.
  - intros (i & j & x & K & A & B) D.
    assert (i < length l) by (apply nth_error_Some; congruence).
    rewrite NoDup_nth_error in D. specialize (D i j). lapply D; [|assumption]. intros D'. lapply D'; [lia|congruence].
Qed.

Lemma arg_eq_dec : forall a b : arg, {a = b} + {a <> b}.
Proof. decide equality; try apply Nat.eq_dec; apply Z.eq_dec. Qed.

(** ... and by identity when the contents tell the objects apart *)
Lemma by_identity : forall c v l, readable c v -> Forall (readable c) l -> told_apart c (v :: l) ->
  (exists n, ref_index_of c v l = Some n /\ first_position (fun x => x = v) l n) /\
  (exists n, ref_count_of c v l = Some n /\ occurrences (fun x => x = v) l n) /\
  (exists b, ref_contains c v l = Some b /\ (b = true <-> In v l)) /\
  (exists b, ref_contains_copies c l = Some b /\ (b = true <-> ~ NoDup l)) /\
  (exists b, ref_is_same c l = Some b /\ (b = true <-> forall x y, In x l -> In y l -> x = y)).
Proof.
  intros c v l Rv Rl T.
  assert (A : forall a b, In a (v :: l) -> In b (v :: l) -> (alike c a b <-> a = b)) by (intros; eapply alike_told_apart; eauto).
  destruct (by_content c v l Rv Rl) as ((n & E1 & F1 & G1) & (m & E2 & ps & N2 & L2 & O2) & (b3 & E3 & H3) & (b4 & E4 & H4) & (b5 & E5 & H5)).
  split; [|split; [|split; [|split]]].
  - exists n. split; [exact E1|]. split.
    + intros i x Hi Hx K. subst x. apply (F1 i v Hi Hx). apply alike_refl.
    + destruct G1 as [(x & Gx & Ga)|G1]; [left; exists x; split; [exact Gx|]|right; exact G1].
      symmetry. apply A; [left; reflexivity|right; eapply nth_error_In; exact Gx|exact Ga].
  - exists m. split; [exact E2|]. exists ps. split; [exact N2|]. split; [exact L2|]. intros i. rewrite O2. split.
    + intros (x & Hx & Ax). exists x. split; [exact Hx|]. symmetry. apply A; [left; reflexivity|right; eapply nth_error_In; exact Hx|exact Ax].
    + intros (x & Hx & ->). exists v. split; [exact Hx|apply alike_refl].
  - exists b3. split; [exact E3|]. rewrite H3. split.
    + intros (x & I & Ax). apply A in Ax; [subst; exact I|left; reflexivity|right; exact I].
    + intros I. exists v. split; [exact I|apply alike_refl].
  - exists b4. split; [exact E4|]. rewrite H4, (not_NoDup_nth l arg_eq_dec). split.
    + intros (i & j & x & y & K & Hx & Hy & Axy). exists i, j, x. repeat split; auto.
      apply A in Axy; [subst; exact Hy| |]; right; eapply nth_error_In; eassumption.
    + intros (i & j & x & K & Hx & Hy). exists i, j, x, x. repeat split; auto. apply alike_refl.
  - exists b5. split; [exact E5|]. rewrite H5. split; intros H x y Ix Iy.
    + apply A; [right; exact Ix|right; exact Iy|]. apply H; assumption.
    + rewrite (H x y Ix Iy). apply alike_refl.
Qed.

(** two objects with one content *)
Lemma equal_contents : forall c t o p z, c o = Some z -> c p = Some z -> o <> p ->
  ~ In (ByRef t p) [ByRef t o] /\
  ref_contains c (ByRef t p) [ByRef t o] = Some true /\ ref_index_of c (ByRef t p) [ByRef t o; ByRef t p] = Some 0 /\
  ref_count_of c (ByRef t p) [ByRef t o; ByRef t p] = Some 2 /\
  ref_contains_copies c [ByRef t o; ByRef t p] = Some true /\ ref_is_same c [ByRef t o; ByRef t p] = Some true.
Proof.
  intros c t o p z Ho Hp N.
  assert (S1 : is_same_impl c (ByRef t p) (ByRef t o) = Some true)
    by (unfold is_same_impl; cbn; rewrite Nat.eqb_refl, Ho, Hp, Z.eqb_refl; reflexivity).
  assert (S2 : is_same_impl c (ByRef t p) (ByRef t p) = Some true)
    by (unfold is_same_impl; cbn; rewrite Nat.eqb_refl, Hp, Z.eqb_refl; reflexivity).
  assert (S3 : is_same_impl c (ByRef t o) (ByRef t p) = Some true)
    by (unfold is_same_impl; cbn; rewrite Nat.eqb_refl, Ho, Hp, Z.eqb_refl; reflexivity).
  assert (S4 : is_same_impl c (ByRef t o) (ByRef t o) = Some true)
    by (unfold is_same_impl; cbn; rewrite Nat.eqb_refl, Ho, Z.eqb_refl; reflexivity).
  repeat split.
  - intros [E|[]]. congruence.
  - unfold ref_contains. cbn [disjunction]. rewrite S1. reflexivity.
  - unfold ref_index_of. cbn [ref_index_from]. rewrite S1. reflexivity.
  - unfold ref_count_of. cbn [count_from]. rewrite S1, S2. reflexivity.
  - unfold ref_contains_copies. cbn [disjunction]. unfold ref_more_than_once, ref_count_of. cbn [count_from]. rewrite S4, S3. reflexivity.
  - unfold ref_is_same. cbn [conjunction]. rewrite S3. reflexivity.
Qed.

Lemma same_unreadable : forall c t o p, c o = None -> is_same_impl c (ByRef t o) (ByRef t p) = None.
Proof. intros c t o p H. unfold is_same_impl. cbn. rewrite Nat.eqb_refl, H. reflexivity. Qed.

Lemma same_other_type : forall c a b, decltype a <> decltype b -> is_same_impl c a b = Some false.
Proof.
  intros c a b H. unfold is_same_impl. destruct (decl_eqb (decltype a) (decltype b)) eqn:E; [|reflexivity].
  apply decl_eqb_eq in E. congruence.
Qed.

(** an object that is not a constant cannot be looked for in a list with a reference of its type *)
Lemma not_a_constant : forall c t o l, c o = None ->
  ((exists p, In (ByRef t p) l) ->
   ref_index_of c (ByRef t o) l = None /\ ref_count_of c (ByRef t o) l = None /\ ref_contains c (ByRef t o) l = None) /\
  (~ (exists p, In (ByRef t p) l) ->
   ref_index_of c (ByRef t o) l = Some (length l) /\ ref_count_of c (ByRef t o) l = Some 0 /\
   ref_contains c (ByRef t o) l = Some false).
Proof.
  intros c t o l H.
  assert (D : forall u, decltype (ByRef t o) = decltype u -> exists p, u = ByRef t p).
  { intros [s z|s p] E; cbn in E; [discriminate|]. injection E as <-. exists p. reflexivity. }
  assert (X : forall u, {decltype (ByRef t o) = decltype u} + {decltype (ByRef t o) <> decltype u})
    by (intros u; decide equality; apply Nat.eq_dec).
  split.
  - intros (p & I).
    assert (IX : forall i, ref_index_from c i (ByRef t o) l = None).
    { induction l as [|u r IH]; [destruct I|]. intros i. cbn [ref_index_from].
      destruct (X u) as [E|N].
      - destruct (D u E) as (q & ->). rewrite same_unreadable by exact H. reflexivity.
      - rewrite same_other_type by exact N. apply IH. destruct I as [->|I]; [exfalso; apply N; reflexivity|exact I]. }
    assert (CX : forall i, count_from c i (ByRef t o) l = None).
    { clear IX. induction l as [|u r IH]; [destruct I|]. intros i. cbn [count_from].
      destruct (X u) as [E|N].
      - destruct (D u E) as (q & ->). rewrite same_unreadable by exact H. reflexivity.
      - rewrite same_other_type by exact N. apply IH. destruct I as [->|I]; [exfalso; apply N; reflexivity|exact I]. }
    split; [apply IX|]. split; [apply CX|].
    clear IX CX. unfold ref_contains. induction l as [|u r IH]; [destruct I|]. cbn [disjunction].
    destruct (X u) as [E|N].
    + destruct (D u E) as (q & ->). rewrite same_unreadable by exact H. reflexivity.
    + rewrite same_other_type by exact N. apply IH. destruct I as [->|I]; [exfalso; apply N; reflexivity|exact I].
  - intros N.
    assert (Q : forall u, In u l -> is_same_impl c (ByRef t o) u = Some false).
    { intros u I. apply same_other_type. intros E. destruct (D u E) as (p & ->). apply N. exists p. exact I. }
    clear N. unfold ref_index_of, ref_count_of, ref_contains.
    assert (IX : forall i, ref_index_from c i (ByRef t o) l = Some (i + length l)).
    { induction l as [|u r IH]; intros i; cbn [ref_index_from length]; [rewrite Nat.add_0_r; reflexivity|].
      rewrite (Q u) by (left; reflexivity). rewrite IH; [f_equal; lia|]. intros w Iw. apply Q. right. exact Iw. }
    split; [apply (IX 0)|]. clear IX. induction l as [|u r IH]; [split; reflexivity|].
    cbn [count_from disjunction]. rewrite (Q u) by (left; reflexivity). cbn [Nat.add].
    apply IH. intros w Iw. apply Q. right. exact Iw.
Qed.

(** so the list cannot be asked whether it has copies *)
Lemma not_a_constant_copies : forall c t o l, c o = None -> ref_contains_copies c (ByRef t o :: l) = None.
Proof.
  intros c t o l H. unfold ref_contains_copies. cbn [disjunction]. unfold ref_more_than_once at 1.
  destruct (not_a_constant c t o (ByRef t o :: l) H) as (K & _).
  destruct K as (_ & -> & _); [exists o; left; reflexivity|]. reflexivity.
Qed.

(** * Positions *)

Lemma ref_positions : forall l,
  (forall front a back, l = front ++ a :: back -> ref_at (length front) l = Some a) /\
  (forall i, (exists a, ref_at i l = Some a) <-> i < length l) /\
  (forall i t z, ref_at i l = Some (ByValue t z) -> ref_at_t i l = Some (DValue t)) /\
  (forall i t o, ref_at i l = Some (ByRef t o) -> ref_at_t i l = Some (DRef t)) /\
  (forall i, ref_at i l = None -> ref_at_t i l = None) /\
  (forall c i a, Forall (readable c) l -> ref_at i l = Some a ->
     exists n b, ref_index_of c a l = Some n /\ n <= i /\ ref_at n l = Some b /\ alike c a b).
Proof.
  intros l. unfold ref_at, ref_at_t. repeat apply conj.
  - intros front v back ->. rewrite nth_error_app2, Nat.sub_diag; [reflexivity|apply le_n].
  - intros i. rewrite <- nth_error_Some. destruct (nth_error l i); split; intros H; try discriminate; eauto.
    + destruct H as (? & H); discriminate.
    + congruence.
  - intros i t z H. rewrite nth_error_map, H. reflexivity.
  - intros i t o H. rewrite nth_error_map, H. reflexivity.
  - intros i H. rewrite nth_error_map, H. reflexivity.
  - intros c i a R H.
    assert (Ra : readable c a) by exact (readable_nth c l i a R H).
    destruct (proj1 (by_content c a l Ra R)) as (n & E & Hno & Hn).
    assert (L : n <= i).
    { destruct (le_lt_dec n i) as [K|K]; [exact K|]. exfalso. exact (Hno i a K H (alike_refl c a)). }
    destruct Hn as [(b & Hb & A)|Hn].
    + exists n, b. auto.
    + assert (i < length l) by (apply nth_error_Some; congruence). lia.
Qed.
