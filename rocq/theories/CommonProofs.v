(** Lemmas about CommonModel.v. *)

Require Import List Bool Arith ZArith Lia.
Require Import Verif.CommonSpec Verif.TypeListModel Verif.CommonModel.
Import ListNotations.

Lemma same_refl : forall t, same t t = true.
Proof.
  fix IH 1. intros [| |s n z|z|n z|e n|ts z|u|c v u|u|u]; cbn; auto.
  - rewrite eqb_reflx, !Nat.eqb_refl; reflexivity.
  - apply Nat.eqb_refl.
  - rewrite !Nat.eqb_refl; reflexivity.
  - rewrite IH, Nat.eqb_refl; reflexivity.
  - rewrite Nat.eqb_refl, andb_true_r. induction ts as [|t ts IHts]; [reflexivity|].
    rewrite IH. exact IHts.
  - rewrite !eqb_reflx, IH. reflexivity.
Qed.

Lemma same_eq : forall a b, same a b = true -> a = b.
Proof.
  fix IH 1. intros [| |s n z|z|n z|e n|ts z|u|c v u|u|u] [| |s' n' z'|z'|n' z'|e' n'|ts' z'|u'|c' v' u'|u'|u'];
    cbn; intro H; try discriminate; try reflexivity.
  - apply andb_prop in H as [H Hz]. apply andb_prop in H as [Hs Hn].
    apply eqb_prop in Hs. apply Nat.eqb_eq in Hn, Hz. congruence.
  - apply Nat.eqb_eq in H. congruence.
  - apply andb_prop in H as [Hn Hz]. apply Nat.eqb_eq in Hn, Hz. congruence.
  - apply andb_prop in H as [He Hn]. apply IH in He. apply Nat.eqb_eq in Hn. congruence.
  - apply andb_prop in H as [Ht Hz]. apply Nat.eqb_eq in Hz. subst z'. f_equal.
    revert ts' Ht. induction ts as [|t ts IHts]; intros [|t' ts'] Ht; try discriminate; [reflexivity|].
    apply andb_prop in Ht as [H1 H2]. apply IH in H1. apply IHts in H2. congruence.
  - apply IH in H. congruence.
  - apply andb_prop in H as [H Hu]. apply andb_prop in H as [Hc Hv].
    apply eqb_prop in Hc, Hv. apply IH in Hu. congruence.
  - apply IH in H. congruence.
  - apply IH in H. congruence.
Qed.

Lemma same_iff : forall a b, same a b = true <-> a = b.
Proof. intros a b. split; [apply same_eq|intros <-; apply same_refl]. Qed.

(** ** is_uint *)

Lemma is_uint_iff : forall t, (forall c v, t <> Cv c v Bool) ->
  (is_uint t = true <-> unsigned_integer t).
Proof.
  intros t Hb. unfold is_uint, is_unsigned, unsigned_integer, remove_cv, unqualified.
  destruct t as [| |s n z|z|n z|e n|ts z|u|c v u|u|u]; cbn;
    try (split; [discriminate|intros (?&?&?); discriminate]).
  - rewrite andb_true_r. destruct s; cbn.
    + split; [discriminate|intros (?&?&?); congruence].
    + split; eauto.
  - rewrite andb_true_r. destruct u; cbn; try (split; [discriminate|intros (?&?&?); discriminate]).
    + destruct (Hb c v eq_refl).
    + destruct signed; cbn; (split; [try discriminate|intros (?&?&?)]); eauto; congruence.
Qed.

Lemma cv_bool_is_uint : forall c v, is_uint (Cv c v Bool) = true /\ ~ unsigned_integer (Cv c v Bool).
Proof. intros c v. split; [reflexivity|]. intros (?&?&H). discriminate H. Qed.

Lemma is_uint_or_byte_iff : forall t, (forall c v, t <> Cv c v Bool) -> (forall c v, t <> Cv c v Byte) ->
  (is_uint_or_byte t = true <-> unsigned_integer_or_byte t).
Proof.
  intros t Hb Hy. unfold is_uint_or_byte, unsigned_integer_or_byte.
  rewrite orb_true_iff, is_uint_iff, same_iff by assumption.
  split; (intros [H|H]; [left; exact H|right]).
  - subst t. reflexivity.
  - destruct t; cbn in H; try discriminate H; [reflexivity|]. subst. destruct (Hy c v eq_refl).
Qed.

Lemma cv_byte_missed : forall c v, is_uint_or_byte (Cv c v Byte) = false /\ unsigned_integer_or_byte (Cv c v Byte).
Proof. intros c v. split; [reflexivity|]. right. reflexivity. Qed.

(** both, for every type *)
Lemma is_uint_exact : forall t,
  (is_uint t = true <-> unsigned_integer t \/ exists c v, t = Cv c v Bool) /\
  (is_uint_or_byte t = true <->
   unsigned_integer_or_byte t /\ (forall c v, t <> Cv c v Byte) \/ exists c v, t = Cv c v Bool).
Proof.
  intros t. unfold is_uint_or_byte, unsigned_integer_or_byte. rewrite orb_true_iff, same_iff.
  assert (A : is_uint t = true <-> unsigned_integer t \/ exists c v, t = Cv c v Bool).
  { assert (D : (exists c v, t = Cv c v Bool) \/ forall c v, t <> Cv c v Bool).
    { destruct t; try (right; intros ? ?; discriminate). destruct t; try (right; intros ? ?; discriminate). eauto. }
    destruct D as [D|D].
    - split; [auto|]. intros _. destruct D as (c & v & ->). reflexivity.
    - rewrite (is_uint_iff t D). split; [auto|]. intros [H|(c & v & H)]; [auto|]. destruct (D c v H). }
  split; [exact A|]. rewrite A. split.
  - intros [[H|H]|H]; [left|auto|left].
    + split; [auto|]. intros c v ->. destruct H as (? & ? & H). discriminate H.
    + subst t. split; [right; reflexivity|]. intros c v. discriminate.
  - intros [[[H|H] N]|H]; [auto| |auto]. right. destruct t; cbn in H; try discriminate H; [reflexivity|].
    subst. destruct (N c v eq_refl).
Qed.

(** ** is_equal_sizes *)

Lemma equal_sizes_iff : forall ts, is_equal_sizes ts = true <->
  (forall a b, In a ts -> In b ts -> size_of a = size_of b).
Proof.
  intros [|t ts]; unfold is_equal_sizes, v_is_all_same; cbn [map].
  - split; [intros _ a b []|reflexivity].
  - rewrite forallb_forall. split.
    + intros H.
      assert (E : forall x, In x (t :: ts) -> size_of x = size_of t).
      { intros x [<-|Hx]; [reflexivity|].
        specialize (H (Val 0 (Z.of_nat (size_of x)))).
        unfold v_is_same in H. cbn [vty vz] in H. rewrite Nat.eqb_refl in H.
        rewrite Z.eqb_eq in H.
        assert (In (Val 0 (Z.of_nat (size_of x))) (map (fun t => Val 0 (Z.of_nat (size_of t))) ts))
          by (apply in_map_iff; eauto).
        specialize (H H0). lia. }
      intros a b Ha Hb. rewrite (E a), (E b) by assumption. reflexivity.
    + intros H v Hv. apply in_map_iff in Hv as (x & <- & Hx).
      unfold v_is_same; cbn [vty vz]. rewrite Nat.eqb_refl, Z.eqb_eq.
      f_equal. apply H; cbn; auto.
Qed.

(** ** std::array *)

Lemma decay_bare : forall t, decay t = bare t.
Proof. intros t. unfold decay, bare, remove_cv, remove_reference, unqualified. destruct t; reflexivity. Qed.

Lemma is_std_array_iff : forall t, is_std_array_v t = true <-> exists e n, bare t = StdArray e n.
Proof.
  intros t. unfold is_std_array_v. rewrite decay_bare. destruct (bare t); cbn;
    (split; [discriminate|intros (?&?&?); discriminate]) || (split; eauto).
Qed.

Lemma std_array_parts : forall t e n, bare t = StdArray e n ->
  std_array_size_v t = Some n /\ std_array_data_t t = Some e.
Proof.
  intros t e n H. unfold std_array_size_v, std_array_data_t. rewrite decay_bare, H. auto.
Qed.

Lemma sizes_sum_from_arrays : forall ts e ns acc, map bare ts = map (StdArray e) ns ->
  sizes_sum_from acc ts = Some (acc + list_sum ns).
Proof.
  induction ts as [|t ts IH]; intros e [|n ns] acc H; cbn in H |- *; try discriminate.
  - f_equal. lia.
  - injection H as H1 H2. destruct (std_array_parts _ _ _ H1) as [-> _].
    rewrite (IH e ns (acc + n) H2). f_equal. unfold list_sum. cbn. lia.
Qed.

Lemma array_for_arrays : forall t ts e n ns, bare t = StdArray e n -> map bare ts = map (StdArray e) ns ->
  array_for t ts = Some (StdArray e (list_sum ns)).
Proof.
  intros t ts e n ns Ht Hts. unfold array_for, std_array_sizes_sum.
  destruct (std_array_parts _ _ _ Ht) as [_ ->].
  rewrite (sizes_sum_from_arrays _ _ _ 0 Hts). reflexivity.
Qed.

Lemma data_t_inv : forall t d, std_array_data_t t = Some d -> exists n, bare t = StdArray d n.
Proof.
  intros t d. unfold std_array_data_t. rewrite decay_bare. destruct (bare t); try discriminate.
  intros [= ->]. eauto.
Qed.

Lemma gets_iff : forall t e n, bare t = StdArray e n ->
  (gets t = true <-> (is_volatile t = true -> n = 0)).
Proof.
  intros t e n H. unfold gets. destruct (std_array_parts _ _ _ H) as [-> _].
  rewrite orb_true_iff, negb_true_iff, Nat.eqb_eq. destruct (is_volatile t); intuition congruence.
Qed.

Lemma concatenate_2_inv : forall a b r, concatenate_2_arrays_t a b = Some r ->
  exists e n m, bare a = StdArray e n /\ bare b = StdArray e m /\ r = StdArray e (n + m) /\
    (is_volatile a = true -> n = 0) /\ (is_volatile b = true -> m = 0).
Proof.
  intros a b r. unfold concatenate_2_arrays_t, is_same_data_std_arrays.
  destruct (std_array_data_t a) as [d|] eqn:Da; [|discriminate].
  destruct (std_array_data_t b) as [e|] eqn:Db; [|discriminate].
  destruct (_ && same d e) eqn:S; [|discriminate].
  apply andb_prop in S as [_ S]. apply same_eq in S. subst e.
  apply data_t_inv in Da as [n Hn]. apply data_t_inv in Db as [m Hm].
  destruct (gets a && gets b) eqn:GT; [|discriminate]. apply andb_prop in GT as [GA GB].
  pose proof (proj1 (gets_iff _ _ _ Hn) GA) as Va. pose proof (proj1 (gets_iff _ _ _ Hm) GB) as Vb.
  intro H. exists d, n, m. split; [auto|]. split; [auto|]. split; [|split; auto].
  rewrite (array_for_arrays a [a; b] d n [n; m] Hn) in H.
  - injection H as <-. cbn. f_equal. lia.
  - cbn. congruence.
Qed.

Lemma concatenate_2_arrays_ok : forall a b e n m, bare a = StdArray e n -> bare b = StdArray e m ->
  (is_volatile a = true -> n = 0) -> (is_volatile b = true -> m = 0) ->
  concatenate_2_arrays_t a b = Some (StdArray e (n + m)).
Proof.
  intros a b e n m Ha Hb Va Vb. pose proof (proj2 (gets_iff _ _ _ Ha) Va) as Va'. pose proof (proj2 (gets_iff _ _ _ Hb) Vb) as Vb'.
  unfold concatenate_2_arrays_t. rewrite Va', Vb'. unfold is_same_data_std_arrays.
  destruct (std_array_parts _ _ _ Ha) as [_ ->]. destruct (std_array_parts _ _ _ Hb) as [_ ->].
  assert (is_std_array_v a = true) as -> by (apply is_std_array_iff; eauto).
  assert (is_std_array_v b = true) as -> by (apply is_std_array_iff; eauto).
  rewrite same_refl. cbn [andb].
  rewrite (array_for_arrays a [a; b] e n [n; m] Ha).
  - cbn. do 2 f_equal. lia.
  - cbn. congruence.
Qed.

Lemma details_ok : forall fuel ts e ns, length ts <= fuel -> ts <> [] ->
  map bare ts = map (StdArray e) ns -> readable_arrays ts -> details_concatenate_arrays_t fuel ts = Some (StdArray e (list_sum ns)).
Proof.
  induction fuel as [|fuel IH]; intros ts e ns Hf Hne H V.
  - destruct ts; [congruence|cbn in Hf; lia].
  - destruct ts as [|a [|b rest]]; [congruence| |].
    + destruct ns as [|n [|m ns]]; cbn in H; try discriminate. injection H as H.
      cbn. assert (is_std_array_v a = true) as -> by (apply is_std_array_iff; eauto).
      assert (is_volatile a = false) as ->.
      { destruct (is_volatile a) eqn:E; [|reflexivity]. destruct (V a (or_introl eq_refl) E) as [L _]. cbn in L. lia. }
      rewrite decay_bare, H. cbn. do 2 f_equal. lia.
    + destruct ns as [|n [|m ns]]; cbn in H; try discriminate. injection H as Ha Hb Hr.
      cbn [details_concatenate_arrays_t].
      rewrite (array_for_arrays a (a :: b :: rest) e n (n :: m :: ns) Ha) by (cbn; congruence).
      assert (X : forall t k, In t (a :: b :: rest) -> bare t = StdArray e k -> is_volatile t = true -> k = 0).
      { intros t k It Bt Vt. destruct (V t It Vt) as [_ [e' E]]. congruence. }
      rewrite (concatenate_2_arrays_ok a b e n m Ha Hb (X a n (or_introl eq_refl) Ha) (X b m (or_intror (or_introl eq_refl)) Hb)).
      rewrite (IH (StdArray e (n + m) :: rest) e ((n + m) :: ns)).
      * replace (list_sum (n + m :: ns)) with (list_sum (n :: m :: ns)) by (cbn; lia).
        rewrite same_refl. reflexivity.
      * cbn in Hf |- *. lia.
      * discriminate.
      * cbn. congruence.
      * intros t [<-|It] Vt; [discriminate Vt|]. destruct (V t (or_intror (or_intror It)) Vt) as [_ E]. split; [|exact E].
        destruct rest; [destruct It|cbn; lia].
Qed.

Lemma details_inv : forall fuel ts r, details_concatenate_arrays_t fuel ts = Some r ->
  exists e ns, map bare ts = map (StdArray e) ns /\ r = StdArray e (list_sum ns) /\ ts <> [] /\ readable_arrays ts.
Proof.
  induction fuel as [|fuel IH]; intros [|a [|b rest]] r H; try discriminate H.
  1,2: cbn in H; destruct (is_std_array_v a) eqn:E; [|discriminate];
    destruct (is_volatile a) eqn:V; [discriminate|];
    apply is_std_array_iff in E as (e & n & E); injection H as <-;
    exists e, [n]; rewrite decay_bare, E; cbn; rewrite Nat.add_0_r; rewrite E; repeat split; try discriminate;
    destruct H as [<-|[]]; congruence.
  cbn [details_concatenate_arrays_t] in H.
  destruct (array_for a (a :: b :: rest)) as [r'|] eqn:R; [|discriminate].
  destruct (concatenate_2_arrays_t a b) as [ab|] eqn:AB; [|discriminate].
  apply concatenate_2_inv in AB as (e & n & m & Ha & Hb & -> & Va & Vb).
  destruct (details_concatenate_arrays_t fuel (StdArray e (n + m) :: rest)) as [x|] eqn:D; [|discriminate].
  destruct (same r' x) eqn:S; [|discriminate]. apply same_eq in S. subst x. injection H as <-.
  apply IH in D as (e' & ns & Hm & -> & _ & RA).
  destruct ns as [|k ns]; cbn in Hm; [discriminate|]. injection Hm as He Hk Hm. subst e' k.
  exists e, (n :: m :: ns). split; [cbn; congruence|]. split; [f_equal; cbn; lia|]. split; [discriminate|].
  intros t [<-|[<-|It]] Vt; (split; [cbn; lia|]).
  - rewrite (Va Vt) in Ha. eauto.
  - rewrite (Vb Vt) in Hb. eauto.
  - apply (RA t (or_intror It) Vt).
Qed.

Lemma concatenate_arrays_iff : forall ts r, concatenate_arrays_t ts = Some r <->
  ts <> [] /\ readable_arrays ts /\ exists e ns, map bare ts = map (StdArray e) ns /\ r = StdArray e (list_sum ns).
Proof.
  intros [|t ts] r; cbn [concatenate_arrays_t].
  - split; [discriminate|intros [H _]; congruence].
  - split.
    + destruct (array_for t (t :: ts)) as [a|]; [|discriminate].
      destruct (details_concatenate_arrays_t (length (t :: ts)) (t :: ts)) as [x|] eqn:D; [|discriminate].
      destruct (same a x) eqn:S; [|discriminate]. apply same_eq in S. subst x. intros [= <-].
      apply details_inv in D as (e & ns & H1 & H2 & H3 & H4). split; [auto|]. split; eauto.
    + intros (Hne & V & e & ns & H & ->).
      rewrite (details_ok (length (t :: ts)) (t :: ts) e ns (le_n _) Hne H V).
      destruct ns as [|n ns]; [discriminate|]. injection H as Ht Hts.
      rewrite (array_for_arrays t (t :: ts) e n (n :: ns) Ht) by (cbn; congruence).
      rewrite same_refl. reflexivity.
Qed.

(** ** reference wrappers and tuples *)

Lemma unwrap_spec : forall t, (forall c v u, t <> Cv c v u) ->
  (forall u, unqualified t = RefWrapper u -> is_ref_wrapper t = true /\ unwrap_reference t = LRef u) /\
  ((forall u, unqualified t <> RefWrapper u) -> is_ref_wrapper t = false /\ unwrap_reference t = t) /\
  (is_tuple [t] = true <-> exists ts z, unqualified t = Tuple ts z).
Proof.
  intros t H. destruct t; cbn; repeat split; intros; try discriminate; try congruence; eauto;
    try (destruct H0 as (?&?&?); discriminate).
  all: try (destruct (H0 _ eq_refl)). all: destruct (H _ _ _ eq_refl).
Qed.

Lemma unwrap_exact : forall t,
  (is_ref_wrapper t = true <-> exists u, t = RefWrapper u) /\
  (forall u, t = RefWrapper u -> unwrap_reference t = LRef u) /\
  ((forall u, t <> RefWrapper u) -> unwrap_reference t = t) /\
  forall ts, is_tuple ts = true <-> exists us z, ts = [Tuple us z].
Proof.
  intros t. split; [|split; [|split]].
  - destruct t; cbn; split; intros H; try discriminate H; try (destruct H as [? H]; discriminate H); eauto.
  - intros u ->. reflexivity.
  - intros H. destruct t; try reflexivity. destruct (H t eq_refl).
  - intros ts. split; [|intros (? & ? & ->); reflexivity]. destruct ts as [|[] [|? ?]]; cbn; intros H; try discriminate H. eauto.
Qed.
