(** Proofs about PaddingModel.v. *)

Require Import List Arith Bool Lia.
Require Import Verif.PaddingSpec Verif.PaddingModel.
Import ListNotations.

Lemma lty_ind' : forall P : lty -> Prop,
  (forall s a, P (Scalar s a)) ->
  (forall ms, Forall P ms -> P (Aggregate ms)) ->
  (forall c ms, Forall P ms -> P (NonAggregate c ms)) -> forall t, P t.
Proof.
  intros P H1 H2 H3. fix IH 1. intros [s a|ms|c ms].
  - apply H1.
  - apply H2. induction ms as [|m ms IHl]; constructor; [apply IH|apply IHl].
  - apply H3. induction ms as [|m ms IHl]; constructor; [apply IH|apply IHl].
Qed.

Lemma round_up_ge : forall n a, 0 < a -> n <= round_up n a.
Proof.
  intros n a Ha. unfold round_up.
  pose proof (Nat.div_mod (n + (a - 1)) a ltac:(lia)).
  pose proof (Nat.mod_upper_bound (n + (a - 1)) a ltac:(lia)). nia.
Qed.

(** the layout of a list of members, as functions of their own *)
Fixpoint stop (ms : list lty) (o : nat) : nat :=
  match ms with [] => o | m :: ms' => stop ms' (round_up o (align m) + size m) end.
Definition aligns (ms : list lty) : nat := fold_right (fun m acc => Nat.max (align m) acc) 1 ms.
Definition lay (f : lty -> nat -> list (nat * nat)) (off : nat) : list lty -> nat -> list (nat * nat) :=
  fix go (ms : list lty) (o : nat) : list (nat * nat) :=
  match ms with
  | [] => []
  | m :: ms' => let p := round_up o (align m) in f m (off + p) ++ go ms' (p + size m)
  end.
Lemma lay_nil : forall f off o, lay f off [] o = [].
Proof. reflexivity. Qed.
Lemma lay_cons : forall f off m ms o, lay f off (m :: ms) o =
  f m (off + round_up o (align m)) ++ lay f off ms (round_up o (align m) + size m).
Proof. reflexivity. Qed.

Lemma size_aggregate : forall ms, ms <> [] -> size (Aggregate ms) = round_up (stop ms 0) (aligns ms).
Proof. intros [|m ms]; [congruence|]. reflexivity. Qed.
Lemma size_nonaggregate : forall c ms, ms <> [] -> size (NonAggregate c ms) = round_up (stop ms 0) (aligns ms).
Proof. intros c [|m ms]; [congruence|]. reflexivity. Qed.
Lemma scalars_aggregate : forall ms off, scalars (Aggregate ms) off = lay scalars off ms 0.
Proof. reflexivity. Qed.
Lemma scalars_nonaggregate : forall c ms off, scalars (NonAggregate c ms) off = lay scalars off ms 0.
Proof. reflexivity. Qed.

(** the parts has_padding adds up: it does not look into a class that is no aggregate *)
Fixpoint parts (t : lty) (off : nat) : list (nat * nat) :=
  match t with
  | Scalar s _ => [(off, s)]
  | Aggregate ms => lay parts off ms 0
  | NonAggregate _ _ => [(off, size t)]
  end.

Definition alls (P : lty -> Prop) (ms : list lty) : Prop := fold_right (fun m Q => P m /\ Q) True ms.

Lemma wf_aggregate : forall ms, wf (Aggregate ms) = alls wf ms.
Proof. reflexivity. Qed.

Lemma alls_In : forall P ms m, alls P ms -> In m ms -> P m.
Proof. induction ms as [|x ms IH]; cbn; intros m H []; subst; firstorder. Qed.

Lemma aligns_pos : forall ms, 0 < aligns ms.
Proof.
  induction ms as [|m ms IH]; [cbn; lia|]. change (aligns (m :: ms)) with (Nat.max (align m) (aligns ms)). lia.
Qed.

Lemma align_pos : forall t, wf t -> 0 < align t.
Proof. intros [s a|ms|c ms] H; cbn in *; [lia| |]; apply (aligns_pos ms). Qed.

Lemma stop_ge : forall ms o, alls wf ms -> o <= stop ms o.
Proof.
  induction ms as [|m ms IH]; cbn; intros o H; [lia|]. destruct H as [Hm Hs].
  pose proof (round_up_ge o (align m) (align_pos m Hm)).
  pose proof (IH (round_up o (align m) + size m) Hs). lia.
Qed.

Definition cnt (l : list (nat * nat)) (b : nat) : nat := length (filter (covers b) l).

Lemma cnt_app : forall l l' b, cnt (l ++ l') b = cnt l b + cnt l' b.
Proof. intros. unfold cnt. rewrite filter_app, app_length. reflexivity. Qed.

Definition inside (l : list (nat * nat)) (lo hi : nat) : Prop :=
  forall x, In x l -> lo <= fst x /\ fst x + snd x <= hi.

Lemma cnt_outside : forall l lo hi b, inside l lo hi -> b < lo \/ hi <= b -> cnt l b = 0.
Proof.
  intros l lo hi b Hi Hb. unfold cnt. induction l as [|x l IH]; [reflexivity|]. cbn.
  assert (covers b x = false) as ->.
  { destruct (Hi x (or_introl eq_refl)). unfold covers.
    destruct (fst x <=? b) eqn:E; [|reflexivity]. cbn. apply Nat.ltb_ge. apply Nat.leb_le in E. lia. }
  apply IH. intros y Hy. apply Hi. right; auto.
Qed.

Lemma lay_inside : forall f off ms o,
  alls wf ms -> (forall m p, In m ms -> inside (f m p) p (p + size m)) ->
  inside (lay f off ms o) (off + o) (off + stop ms o).
Proof.
  intros f off. induction ms as [|m ms IH]; intros o W H x Hx; [destruct Hx|]. rewrite lay_cons in Hx. cbn [stop].
  destruct W as [Wm Ws].
  pose proof (round_up_ge o (align m) (align_pos m Wm)).
  pose proof (stop_ge ms (round_up o (align m) + size m) Ws).
  apply in_app_or in Hx as [Hx|Hx].
  - apply H in Hx; [|left; reflexivity]. lia.
  - apply (IH (round_up o (align m) + size m)) in Hx; auto; [lia|]. intros; apply H. right; auto.
Qed.

Lemma lay_cnt : forall f off ms o b,
  alls wf ms -> (forall m p, In m ms -> inside (f m p) p (p + size m)) ->
  (forall m p, In m ms -> cnt (f m p) b <= 1) -> cnt (lay f off ms o) b <= 1.
Proof.
  intros f off. induction ms as [|m ms IH]; intros o b W Hi Hc; [cbn; lia|]. rewrite lay_cons.
  destruct W as [Wm Ws]. rewrite cnt_app.
  pose proof (Hi m (off + round_up o (align m)) (or_introl eq_refl)) as Im.
  pose proof (lay_inside f off ms (round_up o (align m) + size m) Ws (fun m p H => Hi m p (or_intror H))) as Il.
  destruct (lt_dec b (off + round_up o (align m) + size m)).
  - rewrite (cnt_outside _ _ _ b Il) by lia. pose proof (Hc m (off + round_up o (align m)) (or_introl eq_refl)). lia.
  - rewrite (cnt_outside _ _ _ b Im) by lia. apply IH; auto; intros; [apply Hi|apply Hc]; right; auto.
Qed.

Lemma scalars_inside : forall t off, wf t -> inside (scalars t off) off (off + size t).
Proof.
  induction t as [s a|ms IH|c ms IH] using lty_ind'; intros off W.
  - cbn. intros x [<-|[]]; cbn; lia.
  - rewrite scalars_aggregate. destruct ms as [|m ms]; [intros x []|]. rewrite size_aggregate by discriminate.
    intros x Hx. apply lay_inside in Hx; auto.
    + pose proof (round_up_ge (stop (m :: ms) 0) (aligns (m :: ms)) (aligns_pos _)). lia.
    + intros k p Hk. apply (proj1 (Forall_forall _ _) IH); auto. eapply alls_In; eauto.
  - rewrite scalars_nonaggregate. destruct ms as [|m ms]; [intros x []|]. rewrite size_nonaggregate by discriminate.
    intros x Hx. apply lay_inside in Hx; auto.
    + pose proof (round_up_ge (stop (m :: ms) 0) (aligns (m :: ms)) (aligns_pos _)). lia.
    + intros k p Hk. apply (proj1 (Forall_forall _ _) IH); auto. eapply alls_In; eauto.
Qed.

Lemma scalars_cnt : forall t off b, wf t -> cnt (scalars t off) b <= 1.
Proof.
  induction t as [s a|ms IH|c ms IH] using lty_ind'; intros off b W.
  - cbn. destruct (covers b (off, s)); cbn; lia.
  - rewrite scalars_aggregate. apply lay_cnt; auto; intros m p Hm.
    + apply scalars_inside. eapply alls_In; eauto.
    + apply (proj1 (Forall_forall _ _) IH); auto. eapply alls_In; eauto.
  - rewrite scalars_nonaggregate. apply lay_cnt; auto; intros m p Hm.
    + apply scalars_inside. eapply alls_In; eauto.
    + apply (proj1 (Forall_forall _ _) IH); auto. eapply alls_In; eauto.
Qed.

Lemma parts_inside : forall t off, wf t -> inside (parts t off) off (off + size t).
Proof.
  induction t as [s a|ms IH|c ms IH] using lty_ind'; intros off W.
  - cbn. intros x [<-|[]]; cbn; lia.
  - cbn [parts]. destruct ms as [|m ms]; [intros x []|]. rewrite size_aggregate by discriminate.
    intros x Hx. apply lay_inside in Hx; auto.
    + pose proof (round_up_ge (stop (m :: ms) 0) (aligns (m :: ms)) (aligns_pos _)). lia.
    + intros k p Hk. apply (proj1 (Forall_forall _ _) IH); auto. eapply alls_In; eauto.
  - cbn [parts]. intros x [<-|[]]; cbn [fst snd]; lia.
Qed.

Lemma parts_cnt : forall t off b, wf t -> cnt (parts t off) b <= 1.
Proof.
  induction t as [s a|ms IH|c ms IH] using lty_ind'; intros off b W.
  - cbn. destruct (covers b (off, s)); cbn; lia.
  - cbn [parts]. apply lay_cnt; auto; intros m p Hm.
    + apply parts_inside. eapply alls_In; eauto.
    + apply (proj1 (Forall_forall _ _) IH); auto. eapply alls_In; eauto.
  - cbn [parts]. unfold cnt. cbn [filter]. destruct (covers b _); cbn; lia.
Qed.

(** a byte of a scalar is a byte of a part *)
Lemma scalars_parts : forall t off b, wf t -> cnt (scalars t off) b <= cnt (parts t off) b.
Proof.
  induction t as [s a|ms IH|c ms IH] using lty_ind'; intros off b W.
  - cbn [scalars parts]. lia.
  - rewrite scalars_aggregate. cbn [parts]. rewrite wf_aggregate in W. generalize 0 as o. revert IH W.
    induction ms as [|m ms IHl]; intros IH W o; [cbn; lia|]. rewrite !lay_cons, !cnt_app.
    inversion IH; subst. destruct W as [Wm Ws].
    pose proof (IHl ltac:(auto) Ws (round_up o (align m) + size m)).
    pose proof (H1 (off + round_up o (align m)) b Wm). lia.
  - pose proof (scalars_inside (NonAggregate c ms) off W) as I.
    pose proof (scalars_cnt (NonAggregate c ms) off b W) as C.
    cbn [parts]. unfold cnt at 2. cbn [filter].
    destruct (covers b (off, size (NonAggregate c ms))) eqn:E; [cbn [length]; lia|].
    rewrite (cnt_outside _ _ _ b I); [lia|].
    unfold covers in E. cbn [fst snd] in E.
    destruct (off <=? b) eqn:E1; cbn [andb] in E; [apply Nat.ltb_ge in E|apply Nat.leb_gt in E1]; lia.
Qed.

(** ** Adding up sizes *)

Definition total (l : list (nat * nat)) : nat := fold_right (fun x acc => snd x + acc) 0 l.

Lemma total_app : forall l l', total (l ++ l') = total l + total l'.
Proof. unfold total. induction l as [|x l IH]; intros l'; cbn [app fold_right]; [auto|]. rewrite IH. lia. Qed.

Fixpoint sum_n (f : nat -> nat) (lo n : nat) : nat :=
  match n with 0 => 0 | S n' => f lo + sum_n f (S lo) n' end.

Lemma sum_n_add : forall f g lo n, sum_n (fun b => f b + g b) lo n = sum_n f lo n + sum_n g lo n.
Proof. intros f g lo n. revert lo. induction n; intros; cbn; [auto|]. rewrite IHn. lia. Qed.

Lemma sum_n_zero : forall f lo n, (forall b, lo <= b < lo + n -> f b = 0) -> sum_n f lo n = 0.
Proof. intros f lo n. revert lo. induction n; intros lo H; cbn; [auto|]. rewrite (H lo) by lia. apply IHn. intros b Hb. apply H. lia. Qed.

Lemma sum_n_one : forall o s lo n, lo <= o -> o + s <= lo + n ->
  sum_n (fun b => if covers b (o, s) then 1 else 0) lo n = s.
Proof.
  intros o s lo n. revert o s lo. induction n; intros o s lo H1 H2; cbn [sum_n]; [lia|].
  destruct (Nat.eq_dec lo o) as [->|].
  - destruct s as [|s].
    + assert (forall b, covers b (o, 0) = false) as Z.
      { intros b. unfold covers. cbn [fst snd]. destruct (o <=? b) eqn:E; [|reflexivity].
        cbn [andb]. apply Nat.ltb_ge. apply Nat.leb_le in E. lia. }
      rewrite Z, sum_n_zero; [reflexivity|]. intros b _. rewrite Z. reflexivity.
    + assert (covers o (o, S s) = true) as ->.
      { unfold covers. cbn [fst snd]. rewrite Nat.leb_refl. apply Nat.ltb_lt. lia. }
      cbn [Nat.add]. f_equal. etransitivity; [|apply (IHn (S o) s (S o)); lia].
      clear. assert (forall k lo, o < lo -> sum_n (fun b => if covers b (o, S s) then 1 else 0) lo k =
        sum_n (fun b => if covers b (S o, s) then 1 else 0) lo k) as H; [|apply H; lia].
      induction k; intros lo Hl; cbn [sum_n]; [auto|]. rewrite IHk by lia. f_equal.
      unfold covers. cbn [fst snd].
      replace (o <=? lo) with true by (symmetry; apply Nat.leb_le; lia).
      replace (S o <=? lo) with true by (symmetry; apply Nat.leb_le; lia).
      replace (S o + s) with (o + S s) by lia. reflexivity.
  - assert (covers lo (o, s) = false) as ->.
    { unfold covers. cbn [fst snd]. replace (o <=? lo) with false by (symmetry; apply Nat.leb_gt; lia). reflexivity. }
    cbn [Nat.add]. apply IHn; lia.
Qed.

Lemma sum_n_ext : forall f g lo n, (forall b, f b = g b) -> sum_n f lo n = sum_n g lo n.
Proof. intros f g lo n H. revert lo. induction n; intros; cbn; auto. Qed.

Lemma sum_cnt : forall l lo n, inside l lo (lo + n) -> sum_n (cnt l) lo n = total l.
Proof.
  induction l as [|[o s] l IH]; intros lo n H.
  - cbn. apply sum_n_zero. reflexivity.
  - transitivity (sum_n (fun b => (if covers b (o, s) then 1 else 0) + cnt l b) lo n).
    { apply sum_n_ext. intros b. unfold cnt. cbn [filter]. destruct (covers b (o, s)); reflexivity. }
    rewrite sum_n_add, IH by (intros x Hx; apply H; right; auto).
    destruct (H (o, s) (or_introl eq_refl)). cbn [fst snd] in *. rewrite sum_n_one by lia. reflexivity.
Qed.

Lemma sum_n_le : forall f lo n, (forall b, f b <= 1) -> sum_n f lo n <= n.
Proof. intros f lo n H. revert lo. induction n; intros; cbn; [lia|]. pose proof (IHn (S lo)). pose proof (H lo). lia. Qed.

Lemma sum_n_full : forall f lo n, (forall b, f b <= 1) ->
  (sum_n f lo n = n <-> forall b, lo <= b < lo + n -> f b = 1).
Proof.
  intros f lo n H. revert lo. induction n; intros lo; cbn; [split; auto; intros; lia|].
  pose proof (sum_n_le f (S lo) n H). pose proof (H lo). split.
  - intros E b Hb. destruct (Nat.eq_dec b lo) as [->|]; [lia|].
    apply (proj1 (IHn (S lo))); lia.
  - intros E. rewrite (E lo) by lia. rewrite (proj2 (IHn (S lo))); [lia|]. intros; apply E; lia.
Qed.

(** the sum the library computes is the total size of the parts *)
Definition addo (a b : option nat) : option nat :=
  match a, b with Some x, Some y => Some (x + y) | _, _ => None end.
Fixpoint sums (acc : option nat) (ms : list lty) : option nat :=
  match ms with [] => acc | x :: ms' => sums (addo acc (sum_size_of_all_members x)) ms' end.

Lemma sum_aggregate : forall m ms, sum_size_of_all_members (Aggregate (m :: ms)) = sums (sum_size_of_all_members m) ms.
Proof. reflexivity. Qed.

Lemma sums_none : forall ms, sums None ms = None.
Proof. induction ms; auto. Qed.

Lemma sums_some : forall ms acc s off o,
  (forall m s p, In m ms -> sum_size_of_all_members m = Some s -> total (parts m p) = s) ->
  sums (Some acc) ms = Some s -> total (lay parts off ms o) = s - acc /\ acc <= s.
Proof.
  induction ms as [|m ms IH]; intros acc s off o H E; cbn [sums] in *.
  - injection E as ->. cbn. lia.
  - destruct (sum_size_of_all_members m) as [x|] eqn:Em; cbn [addo] in E; [|rewrite sums_none in E; discriminate].
    rewrite lay_cons, total_app, (H m x) by (auto; left; reflexivity).
    destruct (IH (acc + x) s off (round_up o (align m) + size m)) as [-> ?]; auto; [|lia].
    intros; apply H; auto. right; auto.
Qed.

Lemma sum_parts : forall t s off, sum_size_of_all_members t = Some s -> total (parts t off) = s.
Proof.
  induction t as [z a|ms IH|c ms IH] using lty_ind'; intros s off E.
  - cbn in *. injection E as ->. lia.
  - destruct ms as [|m ms]; [discriminate|]. rewrite sum_aggregate in E.
    destruct (sum_size_of_all_members m) as [x|] eqn:Em; [|rewrite sums_none in E; discriminate].
    pose proof (proj1 (Forall_forall _ _) IH) as I.
    cbn [parts]. rewrite lay_cons, total_app, (I m (or_introl eq_refl) x _ Em).
    destruct (sums_some ms x s off (round_up 0 (align m) + size m)) as [-> ?]; auto; [|lia].
    intros k z p Hk. apply I. right; auto.
  - assert (Some (size (NonAggregate c ms)) = Some s) as [= <-] by exact E. unfold total, parts. cbn [fold_right snd]. apply Nat.add_0_r.
Qed.

Lemma sums_total : forall ms acc, (forall m, In m ms -> exists s, sum_size_of_all_members m = Some s) ->
  exists s, sums (Some acc) ms = Some s.
Proof.
  induction ms as [|m ms IH]; intros acc H; cbn [sums]; [eauto|].
  destruct (H m (or_introl eq_refl)) as [x ->]. apply IH. intros; apply H. right; auto.
Qed.

(** which types compile: no empty aggregate is reached *)
Lemma sum_defined : forall t, no_empty t -> exists s, sum_size_of_all_members t = Some s.
Proof.
  induction t as [z a|ms IH|c ms IH] using lty_ind'; intros H.
  - cbn; eauto.
  - destruct H as [Ne H]. destruct ms as [|m ms]; [congruence|]. rewrite sum_aggregate.
    pose proof (proj1 (Forall_forall _ _) IH) as I.
    destruct (I m (or_introl eq_refl)) as [x ->]; [apply H|].
    apply sums_total. intros k Hk. apply I; [right; auto|]. apply (alls_In no_empty (m :: ms)); auto. right; auto.
  - cbn -[size]; eauto.
Qed.

Lemma parts_exact : forall t s, wf t -> sum_size_of_all_members t = Some s ->
  (size t = s <-> forall b, b < size t -> cnt (parts t 0) b = 1).
Proof.
  intros t s W E. rewrite <- (sum_parts t s 0 E). pose proof (parts_inside t 0 W) as I.
  rewrite <- (sum_cnt (parts t 0) 0 (size t) I).
  split.
  - intros H b Hb. apply (proj1 (sum_n_full (cnt (parts t 0)) 0 (size t) (fun b => parts_cnt t 0 b W))); [auto|lia].
  - intros H. symmetry. apply sum_n_full; [intros; apply parts_cnt; auto|]. intros b Hb. apply H. lia.
Qed.

Lemma aggregates_parts : forall t off, from_aggregates t -> parts t off = scalars t off.
Proof.
  induction t as [s a|ms IH|c ms IH] using lty_ind'; intros off H.
  - reflexivity.
  - rewrite scalars_aggregate. cbn [parts]. destruct H as [_ H]. generalize 0 as o. revert H.
    induction IH as [|m ms Hm _ IHl]; intros H o; [reflexivity|]. rewrite !lay_cons.
    destruct H as [H1 H2]. rewrite Hm by auto. f_equal. apply IHl. exact H2.
  - destruct H.
Qed.

Lemma aggregates_no_empty : forall t, from_aggregates t -> no_empty t.
Proof.
  induction t as [s a|ms IH|c ms IH] using lty_ind'; intros H; [exact I| |destruct H].
  destruct H as [Ne H]. split; auto. clear Ne. induction IH; cbn in *; auto. destruct H. auto.
Qed.

Lemma aggregates_trivial : forall t, from_aggregates t -> trivially_copyable t = true.
Proof.
  induction t as [s a|ms IH|c ms IH] using lty_ind'; intros H; [reflexivity| |destruct H].
  destruct H as [_ H]. cbn. induction IH; cbn in *; auto. destruct H. rewrite H0; auto.
Qed.

Lemma owners_le : forall t b, wf t -> owners t b <= 1.
Proof. intros. apply scalars_cnt. auto. Qed.

(** C48 *)
Lemma padding_exact : forall t, wf t -> from_aggregates t -> exists r, has_padding t = Some r /\
  (r = false <-> forall b, b < size t -> owners t b = 1).
Proof.
  intros t W A. destruct (sum_defined t (aggregates_no_empty t A)) as [s E].
  exists (negb (size t =? s)). unfold has_padding, has_padding_impl.
  rewrite (aggregates_trivial t A), E. cbn [negb]. split; [reflexivity|].
  rewrite negb_false_iff, Nat.eqb_eq, (parts_exact t s W E), (aggregates_parts t 0 A). reflexivity.
Qed.

(** no false alarm for any trivially copyable type *)
Lemma padding_sound : forall t, wf t -> trivially_copyable t = true -> has_padding t = Some true -> padding_byte t.
Proof.
  intros t W T H. unfold has_padding, has_padding_impl in H. rewrite T in H. cbn [negb] in H.
  destruct (sum_size_of_all_members t) as [s|] eqn:E; [|discriminate]. injection H as H.
  apply negb_true_iff, Nat.eqb_neq in H.
  assert (~ forall b, b < size t -> cnt (parts t 0) b = 1) as N by (intros X; apply H; apply parts_exact; auto).
  assert (exists b, b < size t /\ cnt (parts t 0) b = 0) as (b & Hb & Hc).
  { clear H. assert (forall n, n <= size t -> (forall b, b < n -> cnt (parts t 0) b = 1) \/ exists b, b < n /\ cnt (parts t 0) b = 0) as D.
    { induction n; intros Hn; [left; intros; lia|]. destruct IHn as [IH|(b & ? & ?)]; [lia| |right; exists b; split; auto; lia].
      pose proof (parts_cnt t 0 n W). destruct (cnt (parts t 0) n) as [|[|]] eqn:En; [right; exists n; auto| |lia].
      left. intros b Hb. destruct (Nat.eq_dec b n) as [->|]; auto. apply IH. lia. }
    destruct (D (size t) (le_n _)); [contradiction|auto]. }
  exists b. split; auto. pose proof (scalars_parts t 0 b W). unfold owners. unfold cnt in *. lia.
Qed.

Lemma sums_reach_none : forall before after acc, sums acc (before ++ Aggregate [] :: after) = None.
Proof.
  induction before as [|m before IH]; intros after acc; cbn [app sums].
  - destruct acc; apply sums_none.
  - apply IH.
Qed.

Lemma empty_rejected : forall before after, trivially_copyable (Aggregate (before ++ Aggregate [] :: after)) = true ->
  has_padding (Aggregate (before ++ Aggregate [] :: after)) = None.
Proof.
  intros before after T. unfold has_padding, has_padding_impl. rewrite T. cbn [negb].
  assert (sum_size_of_all_members (Aggregate (before ++ Aggregate [] :: after)) = None) as ->; [|reflexivity].
  destruct before as [|m before]; cbn [app]; rewrite sum_aggregate; [apply sums_none|apply sums_reach_none].
Qed.

(** ** The exact answer for every type *)

Lemma pieces_parts : forall t off, pieces t off = parts t off.
Proof.
  induction t as [s a|ms IH|c ms IH] using lty_ind'; intros off; [reflexivity| |reflexivity].
  change (pieces (Aggregate ms) off) with (lay pieces off ms 0). cbn [parts]. generalize 0 as o.
  induction IH as [|m ms Hm _ IHl]; intros o; [reflexivity|]. rewrite !lay_cons, Hm, IHl. reflexivity.
Qed.

Lemma sums_none_iff : forall ms acc,
  sums acc ms = None <-> acc = None \/ exists m, In m ms /\ sum_size_of_all_members m = None.
Proof.
  induction ms as [|m ms IH]; intros acc; cbn [sums].
  - split; [auto|]. intros [H|(m & [] & _)]; auto.
  - rewrite IH. split.
    + intros [H|(k & Hk & E)].
      * destruct acc; [|auto]. destruct (sum_size_of_all_members m) eqn:Em; [discriminate|].
        right. exists m. split; [left; reflexivity|auto].
      * right. exists k. split; [right; auto|auto].
    + intros [->|(k & [<-|Hk] & E)]; [left; reflexivity| |right; eauto].
      left. rewrite E. destruct acc; reflexivity.
Qed.

Lemma anys_In : forall P ms, fold_right (fun m Q => P m \/ Q) False ms <-> exists m : lty, In m ms /\ P m.
Proof.
  intros P. induction ms as [|x ms IH]; cbn.
  - split; [tauto|]. intros (m & [] & _).
  - rewrite IH. split.
    + intros [H|(m & Hm & H)]; [exists x|exists m]; auto.
    + intros (m & [<-|Hm] & H); [left; auto|right; eauto].
Qed.

Lemma sum_none_iff : forall t, sum_size_of_all_members t = None <-> reaches_empty t.
Proof.
  induction t as [s a|ms IH|c ms IH] using lty_ind'.
  - split; [discriminate|intros []].
  - destruct ms as [|m ms]; [split; [left; reflexivity|reflexivity]|].
    pose proof (proj1 (Forall_forall _ _) IH) as I. rewrite sum_aggregate, sums_none_iff.
    change (reaches_empty (Aggregate (m :: ms))) with
      (m :: ms = [] \/ fold_right (fun m P => reaches_empty m \/ P) False (m :: ms)).
    rewrite anys_In. split.
    + intros [H|(k & Hk & H)]; right; [exists m|exists k]; (split; [|apply I; auto]); cbn; auto.
    + intros [H|(k & [<-|Hk] & H)]; [discriminate| |].
      * left. apply I; cbn; auto.
      * right. exists k. split; auto. apply I; cbn; auto.
  - split; [discriminate|intros []].
Qed.

Lemma padding_compiles : forall t, has_padding t = None <-> (trivially_copyable t = true /\ reaches_empty t).
Proof.
  intros t. unfold has_padding, has_padding_impl. rewrite <- sum_none_iff.
  destruct (trivially_copyable t); cbn [negb]; [|split; [discriminate|intros [? _]; discriminate]].
  destruct (sum_size_of_all_members t); split; try discriminate; auto. intros [_ ?]; discriminate.
Qed.

Lemma padding_false : forall t, wf t -> (has_padding t = Some false <->
  trivially_copyable t = true /\ ~ reaches_empty t /\
  forall b, b < size t -> length (filter (covers b) (pieces t 0)) = 1).
Proof.
  intros t W. unfold has_padding, has_padding_impl. rewrite <- sum_none_iff, pieces_parts.
  destruct (trivially_copyable t); cbn [negb]; [|split; [discriminate|intros [? _]; discriminate]].
  destruct (sum_size_of_all_members t) as [s|] eqn:E.
  - pose proof (parts_exact t s W E) as P. unfold cnt in P. split.
    + intros [= H]. apply negb_false_iff, Nat.eqb_eq in H. split; [reflexivity|]. split; [discriminate|]. apply P; auto.
    + intros (_ & _ & H). f_equal. apply negb_false_iff, Nat.eqb_eq, P, H.
  - split; [discriminate|]. intros (_ & H & _). contradiction.
Qed.

Lemma padding_not_trivial : forall t, trivially_copyable t = false -> has_padding t = Some true.
Proof. intros t H. unfold has_padding. rewrite H. reflexivity. Qed.

(** a class with constructors hides its padding: its size is all that is seen *)
Lemma padding_nonaggregate : forall ms, has_padding (NonAggregate true ms) = Some false.
Proof. intros ms. unfold has_padding, has_padding_impl. cbn -[size]. rewrite Nat.eqb_refl. reflexivity. Qed.
