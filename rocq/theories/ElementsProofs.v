(** Proofs for ElementsProps.v. *)

Require Import List Arith Bool Lia.
Require Import Verif.ElementsSpec Verif.ElementsModel.
Import ListNotations.

Section Proofs.
Context {V : Type} (left : V -> V) (throws : nat -> bool).
Notation construct_from := (construct_from left throws).
Notation move_cells := (@move_cells V throws).
Notation read_array := (read_array left throws).

(** ** quiet stretches of operations *)
Lemma quiet_nil : forall n, quiet throws n 0.
Proof. intros n i H. lia. Qed.

Lemma quiet_cons : forall n m, quiet throws n (S m) <-> throws n = false /\ quiet throws (S n) m.
Proof.
  intros n m. split.
  - intros H. split; [apply H; lia|]. intros i I. apply H. lia.
  - intros [A B] i I. destruct (Nat.eq_dec i n) as [->|]; [exact A|]. apply B. lia.
Qed.

Lemma quiet_app : forall n m k, quiet throws n (m + k) <-> quiet throws n m /\ quiet throws (n + m) k.
Proof.
  intros n m k. split.
  - intros H. split; intros i I; apply H; lia.
  - intros [A B] i I. destruct (Nat.lt_ge_cases i (n + m)); [apply A|apply B]; lia.
Qed.

Lemma quiet_dec : forall m n, quiet throws n m \/ exists i, n <= i < n + m /\ throws i = true.
Proof.
  induction m as [|m IH]; intros n; [now left; apply quiet_nil|].
  destruct (throws n) eqn:T; [right; exists n; split; [lia|exact T]|].
  destruct (IH (S n)) as [Q|[i [I Q]]].
  - left. apply quiet_cons. auto.
  - right. exists i. split; [lia|exact Q].
Qed.

Lemma not_quiet : forall n m i, n <= i < n + m -> throws i = true -> ~ quiet throws n m.
Proof. intros n m i I T Q. rewrite (Q i I) in T. discriminate. Qed.

(** ** reading one array *)
Lemma construct_from_quiet : forall moving xs n, quiet throws n (length xs) ->
  construct_from moving xs n =
    (map (fun v => if moving then Cell v 0 1 else Cell v 1 0) xs,
     map (fun v => if moving then left v else v) xs, n + length xs, false).
Proof.
  intros moving xs. induction xs as [|v xs IH]; intros n Q; cbn.
  - now rewrite Nat.add_0_r.
  - cbn [length] in Q. apply quiet_cons in Q as [T Q]. rewrite T, (IH _ Q). now rewrite Nat.add_succ_r.
Qed.

Lemma construct_from_bad : forall moving xs n, ~ quiet throws n (length xs) ->
  exists cs ys m, construct_from moving xs n = (cs, ys, m, true).
Proof.
  intros moving xs. induction xs as [|v xs IH]; intros n Q; cbn.
  - exfalso. apply Q, quiet_nil.
  - destruct (throws n) eqn:T; [eauto|].
    destruct (IH (S n)) as [cs [ys [m E]]].
    + intros Q'. apply Q. cbn [length]. apply quiet_cons. auto.
    + rewrite E. eauto.
Qed.

Definition once_more (c : cell V) : cell V := Cell (val c) (copies c) (S (moves c)).

Lemma move_cells_quiet : forall xs n, quiet throws n (length xs) ->
  move_cells xs n = (map once_more xs, n + length xs, false).
Proof.
  induction xs as [|v xs IH]; intros n Q; cbn.
  - now rewrite Nat.add_0_r.
  - cbn [length] in Q. apply quiet_cons in Q as [T Q]. rewrite T, (IH _ Q). now rewrite Nat.add_succ_r.
Qed.

Lemma move_cells_bad : forall xs n, ~ quiet throws n (length xs) -> exists cs m, move_cells xs n = (cs, m, true).
Proof.
  induction xs as [|v xs IH]; intros n Q; cbn.
  - exfalso. apply Q, quiet_nil.
  - destruct (throws n) eqn:T; [eauto|].
    destruct (IH (S n)) as [cs [m E]].
    + intros Q'. apply Q. cbn [length]. apply quiet_cons. auto.
    + rewrite E. eauto.
Qed.

Definition source_length (s : @source V) (w : world V) : nat :=
  match s with Object o c => length (arrays w o) | Temporary xs => length xs end.

Definition cells_of (s : @source V) (w : world V) : list (cell V) :=
  match s with
  | Object o c => map (fun v => if takes c then Cell v 0 1 else Cell v 1 0) (arrays w o)
  | Temporary xs => map once_more xs
  end.

Definition arrays_after (s : @source V) (w : world V) : nat -> list V :=
  match s with
  | Object o c => upd (arrays w) o (map (fun v => if takes c then left v else v) (arrays w o))
  | Temporary xs => arrays w
  end.

Lemma read_array_quiet : forall s w, quiet throws (done w) (source_length s w) ->
  read_array s w = Returned (cells_of s w) (World (arrays_after s w) (vals w) (done w + source_length s w)).
Proof.
  intros [o c|xs] w Q; cbn in *.
  - now rewrite (construct_from_quiet _ _ _ Q).
  - now rewrite (move_cells_quiet _ _ Q).
Qed.

Lemma read_array_bad : forall s w, ~ quiet throws (done w) (source_length s w) ->
  exists w', read_array s w = Threw w'.
Proof.
  intros [o c|xs] w Q; cbn in *.
  - destruct (construct_from_bad (takes c) _ _ Q) as [cs [ys [m E]]]. rewrite E. eauto.
  - destruct (move_cells_bad _ _ Q) as [cs [m E]]. rewrite E. eauto.
Qed.

(** ** concatenation *)

(** the arrays when the arguments [earlier] have been read *)
Definition after (A0 : nat -> list V) (earlier : list arg) (w : world V) : Prop :=
  forall o, arrays w o = map (remains left (robbed o earlier)) (A0 o).

Lemma robbed_app : forall o l1 l2, robbed o (l1 ++ l2) = robbed o l1 + robbed o l2.
Proof. intros. unfold robbed. now rewrite filter_app, app_length. Qed.

Lemma after_read : forall A0 earlier o c w n vs, after A0 earlier w ->
  after A0 (earlier ++ [(o, c)]) (World (arrays_after (Object o c) w) vs n).
Proof.
  intros A0 earlier o c w n vs H x. cbn. unfold upd.
  rewrite robbed_app. unfold robbed at 2. cbn [filter fst snd].
  destruct (x =? o) eqn:E.
  - apply Nat.eqb_eq in E. subst x. rewrite Nat.eqb_refl. cbn [andb].
    rewrite (H o), map_map. apply map_ext. intros v. destruct (takes c); cbn [length].
    + now rewrite Nat.add_1_r.
    + now rewrite Nat.add_0_r.
  - rewrite (Nat.eqb_sym o x), E. cbn. rewrite Nat.add_0_r. apply H.
Qed.

Lemma after_length : forall A0 earlier w o, after A0 earlier w -> length (arrays w o) = length (A0 o).
Proof. intros A0 earlier w o H. now rewrite H, map_length. Qed.

Definition more (k : nat) (c : cell V) : cell V := Cell (val c) (copies c) (moves c + k).

Lemma more_0 : forall cs, map (more 0) cs = cs.
Proof. intros cs. rewrite <- (map_id cs) at 2. apply map_ext. intros [v a b]. unfold more. cbn. now rewrite Nat.add_0_r. Qed.

Lemma more_more : forall j k cs, map (more j) (map (more k) cs) = map (more (k + j)) cs.
Proof. intros. rewrite map_map. apply map_ext. intros [v a b]. unfold more. cbn. now rewrite Nat.add_assoc. Qed.

Lemma once_more_more : forall cs, map once_more cs = map (more 1) cs.
Proof. intros. apply map_ext. intros [v a b]. unfold more, once_more. cbn. now rewrite Nat.add_1_r. Qed.

(** the parts of arguments that come after at least one other *)
Fixpoint tails (A0 : nat -> list V) (earlier args : list arg) : list (cell V) :=
  match args with
  | [] => []
  | a :: rest =>
    map (fun v => more (S (length rest))
      (if takes (snd a) then Cell (remains left (robbed (fst a) earlier) v) 0 1
       else Cell (remains left (robbed (fst a) earlier) v) 1 0)) (A0 (fst a)) ++ tails A0 (earlier ++ [a]) rest
  end.

Fixpoint tail_operations (A0 : nat -> list V) (args : list arg) : nat :=
  match args with
  | [] => 0
  | a :: rest => length (A0 (fst a)) * S (S (length rest)) + tail_operations A0 rest
  end.

Lemma concat_2_quiet : forall a b w,
  quiet throws (done w) (source_length a w) ->
  quiet throws (done w + source_length a w) (source_length b (World (arrays_after a w) (vals w) (done w + source_length a w))) ->
  concatenate_2_arrays left throws a b w =
  let w1 := World (arrays_after a w) (vals w) (done w + source_length a w) in
  Returned (cells_of a w ++ cells_of b w1) (World (arrays_after b w1) (vals w) (done w1 + source_length b w1)).
Proof.
  intros a b w Q1 Q2. unfold concatenate_2_arrays. rewrite (read_array_quiet a w Q1). cbn [andthen].
  rewrite (read_array_quiet b (World (arrays_after a w) (vals w) (done w + source_length a w)) Q2). reflexivity.
Qed.

Lemma concat_2_bad : forall a b w,
  ~ (quiet throws (done w) (source_length a w) /\
     quiet throws (done w + source_length a w) (source_length b (World (arrays_after a w) (vals w) (done w + source_length a w)))) ->
  concatenate_2_arrays left throws a b w = Terminated.
Proof.
  intros a b w N. unfold concatenate_2_arrays.
  destruct (quiet_dec (source_length a w) (done w)) as [Q1|[i [I T]]].
  - rewrite (read_array_quiet a w Q1). cbn [andthen].
    destruct (read_array_bad b (World (arrays_after a w) (vals w) (done w + source_length a w))) as [w' E].
    + intros Q2. apply N. split; assumption.
    + rewrite E. reflexivity.
  - destruct (read_array_bad a w (not_quiet _ _ i I T)) as [w' E]. rewrite E. reflexivity.
Qed.

Lemma after_source_length : forall A0 earlier a w o c n, after A0 earlier w -> (forall xs, a = Temporary xs -> True) ->
  source_length (Object o c) (World (arrays_after a w) (vals w) n) = length (A0 o).
Proof.
  intros A0 earlier [o' c'|xs] w o c n H _; cbn.
  - unfold upd. destruct (o =? o') eqn:E; [apply Nat.eqb_eq in E; subst; rewrite map_length|]; eapply after_length; eassumption.
  - eapply after_length; eassumption.
Qed.

Lemma temporary_concat : forall A0 rest earlier cs w, after A0 earlier w ->
  (quiet throws (done w) (length cs * S (length rest) + tail_operations A0 rest) /\
   exists w', details_concatenate_arrays left throws (Temporary cs) rest w =
     Returned (map (more (S (length rest))) cs ++ tails A0 earlier rest) w' /\
     after A0 (earlier ++ rest) w' /\ vals w' = vals w /\
     done w' = done w + (length cs * S (length rest) + tail_operations A0 rest)) \/
  (~ quiet throws (done w) (length cs * S (length rest) + tail_operations A0 rest) /\
   details_concatenate_arrays left throws (Temporary cs) rest w = Terminated).
Proof.
  intros A0 rest. induction rest as [|[o c] rest IH]; intros earlier cs w H.
  - cbn [length tail_operations details_concatenate_arrays tails].
    replace (length cs * 1 + 0) with (length cs) by lia.
    destruct (quiet_dec (length cs) (done w)) as [Q|[i [I T]]].
    + left. split; [exact Q|]. rewrite (read_array_quiet (Temporary cs) w Q). cbn.
      eexists. split; [rewrite app_nil_r, once_more_more; reflexivity|].
      rewrite app_nil_r. split; [exact H|]. split; reflexivity.
    + right. split; [eapply not_quiet; eassumption|].
      destruct (read_array_bad (Temporary cs) w (not_quiet _ _ i I T)) as [w' E]. rewrite E. reflexivity.
  - cbn [details_concatenate_arrays tails tail_operations]. cbn [fst snd].
    set (n1 := length cs). set (n2 := length (A0 o)).
    assert (L2 : forall n, source_length (Object o c) (World (arrays w) (vals w) n) = n2)
      by (intros n; cbn; eapply after_length; eassumption).
    set (total := n1 * S (length ((o, c) :: rest)) + (n2 * S (S (length rest)) + tail_operations A0 rest)).
    assert (Tot : total = n1 + (n2 + ((n1 + n2) * S (length rest) + tail_operations A0 rest))).
    { unfold total. cbn [length]. clearbody n1 n2. ring. }
    rewrite Tot.
    destruct (quiet_dec n1 (done w)) as [Q1|[i [I T]]].
    2:{ right. split; [apply (not_quiet _ _ i); [lia|exact T]|].
        rewrite concat_2_bad; [reflexivity|]. intros [Q _]. exact (not_quiet _ _ i I T Q). }
    destruct (quiet_dec n2 (done w + n1)) as [Q2|[i [I T]]].
    2:{ right. split; [apply (not_quiet _ _ i); [lia|exact T]|].
        rewrite concat_2_bad; [reflexivity|]. intros [_ Q]. cbn [arrays_after] in Q. rewrite L2 in Q.
        exact (not_quiet _ _ i I T Q). }
    rewrite concat_2_quiet; [|exact Q1|cbn [arrays_after]; rewrite L2; exact Q2].
    cbv zeta. change (arrays_after (Temporary cs) w) with (arrays w).
    set (w1 := World (arrays w) (vals w) (done w + source_length (Temporary cs) w)).
    assert (H1 : after A0 earlier w1) by exact H.
    pose proof (after_read A0 earlier o c w1 (done w1 + source_length (Object o c) w1) (vals w) H1) as H2.
    cbn [andthen].
    set (w2 := World (arrays_after (Object o c) w1) (vals w) (done w1 + source_length (Object o c) w1)) in *.
    set (cs2 := cells_of (Temporary cs) w ++ cells_of (Object o c) w1).
    assert (D2 : done w2 = done w + n1 + n2).
    { unfold w2. cbn [done]. unfold w1. rewrite L2. reflexivity. }
    assert (Lc : length cs2 = n1 + n2).
    { unfold cs2. rewrite app_length. cbn [cells_of]. rewrite !map_length.
      rewrite (after_length A0 earlier w1 o H1). reflexivity. }
    destruct (IH (earlier ++ [(o, c)]) cs2 w2 H2) as [[Q3 [w' [E [Af [Va Do]]]]]|[N E]].
    + left. split.
      * apply quiet_app. split; [exact Q1|]. apply quiet_app. split; [exact Q2|].
        rewrite D2, Lc in Q3. exact Q3.
      * exists w'. rewrite E. cbn [noexcept]. split; [|split; [|split]].
        -- f_equal. unfold cs2. rewrite map_app, <- app_assoc. cbn [cells_of]. f_equal.
           ++ rewrite once_more_more, more_more. reflexivity.
           ++ f_equal. rewrite (H1 o), !map_map. apply map_ext. intros v. now destruct (takes c).
        -- rewrite <- app_assoc in Af. exact Af.
        -- rewrite Va. reflexivity.
        -- rewrite Do, D2, Lc. lia.
    + right. split.
      * intros Q. apply N. apply quiet_app in Q as [_ Q]. apply quiet_app in Q as [_ Q].
        rewrite D2, Lc. exact Q.
      * rewrite E. reflexivity.
Qed.

Lemma tails_parts : forall A0 rest earlier n, 0 < length earlier -> n = length earlier + length rest ->
  tails A0 earlier rest = parts left A0 n earlier rest.
Proof.
  intros A0. induction rest as [|a rest IH]; intros earlier n P E; [reflexivity|].
  cbn [tails parts]. cbn [length] in E. f_equal.
  - unfold part, through_temporaries. apply map_ext. intros v.
    replace (n =? 1) with false by (symmetry; apply Nat.eqb_neq; lia).
    replace (length earlier =? 0) with false by (symmetry; apply Nat.eqb_neq; lia).
    replace (n - length earlier) with (S (length rest)) by lia.
    unfold more. destruct (takes (snd a)); cbn; f_equal; lia.
  - apply IH; rewrite app_length; cbn; lia.
Qed.

Lemma tail_operations_spec : forall (A0 : nat -> list V) rest n k, 0 < k -> n = k + length rest ->
  tail_operations A0 rest = operations A0 n k rest.
Proof.
  intros A0. induction rest as [|a rest IH]; intros n k P E; [reflexivity|].
  cbn [tail_operations operations]. cbn [length] in E. unfold through_temporaries.
  replace (n =? 1) with false by (symmetry; apply Nat.eqb_neq; lia).
  replace (k =? 0) with false by (symmetry; apply Nat.eqb_neq; lia).
  replace (n - k) with (S (length rest)) by lia.
  rewrite (IH n (S k)); lia.
Qed.

(** the whole call *)
Lemma concatenate_cases : forall a rest w, let args := a :: rest in
  let n := length args in let total := operations (arrays w) n 0 args in
  (quiet throws (done w) total /\
   exists w', concatenate_arrays left throws a rest w = Returned (parts left (arrays w) n [] args) w' /\
     (forall o, arrays w' o = map (remains left (robbed o args)) (arrays w o)) /\
     (forall o, vals w' o = vals w o) /\ done w' = done w + total) \/
  (~ quiet throws (done w) total /\ concatenate_arrays left throws a rest w = Terminated).
Proof.
  intros [o c] rest w args n total. subst total n args.
  set (A0 := arrays w).
  assert (H0 : after A0 [] w).
  { intros x. unfold robbed. cbn. rewrite <- (map_id (arrays w x)) at 1. reflexivity. }
  unfold concatenate_arrays. destruct rest as [|[o' c'] rest].
  - cbn [details_concatenate_arrays fst snd].
    cbn [length operations fst].
    change (through_temporaries 1 0) with 0. replace (length (A0 o) * 1 + 0) with (length (A0 o)) by lia.
    destruct (quiet_dec (length (A0 o)) (done w)) as [Q|[i [I T]]].
    + left. split; [exact Q|]. rewrite (read_array_quiet (Object o c) w Q). cbn [noexcept].
      eexists. split; [|split; [|split]].
      * f_equal. cbn [cells_of parts]. rewrite app_nil_r. unfold part. apply map_ext. intros v.
        cbn [fst snd]. change (through_temporaries 1 (length [])) with 0.
        now destruct (takes c).
      * intros x. exact (after_read A0 [] o c w _ (vals w) H0 x).
      * reflexivity.
      * reflexivity.
    + right. split; [eapply not_quiet; eassumption|].
      destruct (read_array_bad (Object o c) w (not_quiet _ _ i I T)) as [w' E]. rewrite E. reflexivity.
  - set (n := length ((o, c) :: (o', c') :: rest)).
    assert (N : n = S (S (length rest))) by reflexivity.
    cbn [details_concatenate_arrays]. cbn [fst snd].
    set (n1 := length (A0 o)). set (n2 := length (A0 o')).
    set (w1 := World (arrays_after (Object o c) w) (vals w) (done w + source_length (Object o c) w)).
    pose proof (after_read A0 [] o c w (done w + source_length (Object o c) w) (vals w) H0) as H1. fold w1 in H1.
    cbn [app] in H1.
    pose proof (after_read A0 [(o, c)] o' c' w1 (done w1 + source_length (Object o' c') w1) (vals w) H1) as H2.
    set (w2 := World (arrays_after (Object o' c') w1) (vals w) (done w1 + source_length (Object o' c') w1)) in *.
    cbn [app] in H2.
    assert (L1 : source_length (Object o c) w = n1) by reflexivity.
    assert (L2 : source_length (Object o' c') w1 = n2) by (cbn [source_length]; exact (after_length _ _ _ _ H1)).
    assert (Tot : operations A0 n 0 ((o, c) :: (o', c') :: rest) =
      n1 + (n2 + ((n1 + n2) * S (length rest) + tail_operations A0 rest))).
    { cbn [operations fst]. rewrite (tail_operations_spec A0 rest n 2); [|lia|lia].
      unfold through_temporaries. rewrite N. cbn [Nat.eqb]. change (length (A0 o)) with n1. change (length (A0 o')) with n2.
      replace (S (S (length rest)) - 1) with (S (length rest)) by lia. clearbody n1 n2. ring. }
    rewrite Tot.
    destruct (quiet_dec n1 (done w)) as [Q1|[i [I T]]].
    2:{ right. split; [apply (not_quiet _ _ i); [lia|exact T]|].
        rewrite concat_2_bad; [reflexivity|]. intros [Q _]. exact (not_quiet _ _ i I T Q). }
    destruct (quiet_dec n2 (done w + n1)) as [Q2|[i [I T]]].
    2:{ right. split; [apply (not_quiet _ _ i); [lia|exact T]|].
        rewrite concat_2_bad; [reflexivity|]. intros [_ Q]. fold w1 in Q. rewrite L2, L1 in Q.
        exact (not_quiet _ _ i I T Q). }
    rewrite concat_2_quiet; [|rewrite L1; exact Q1|fold w1; rewrite L2, L1; exact Q2].
    cbv zeta. fold w1. fold w2. cbn [andthen].
    set (cs2 := cells_of (Object o c) w ++ cells_of (Object o' c') w1).
    assert (D2 : done w2 = done w + n1 + n2).
    { unfold w2. cbn [done]. rewrite L2. unfold w1. cbn [done]. now rewrite L1. }
    assert (Lc : length cs2 = n1 + n2).
    { unfold cs2. rewrite app_length. cbn [cells_of]. rewrite !map_length.
      rewrite (after_length A0 _ w1 o' H1). reflexivity. }
    destruct (temporary_concat A0 rest [(o, c); (o', c')] cs2 w2 H2) as [[Q3 [w' [E [Af [Va Do]]]]]|[Nq E]].
    + left. split.
      * apply quiet_app. split; [exact Q1|]. apply quiet_app. split; [exact Q2|].
        rewrite D2, Lc in Q3. exact Q3.
      * exists w'. rewrite E. cbn [noexcept]. split; [|split; [|split]].
        -- f_equal. cbn [parts app]. rewrite <- (tails_parts A0 rest [(o, c); (o', c')] n); [|cbn; lia|rewrite N; cbn; lia].
           unfold cs2. rewrite map_app, <- app_assoc. cbn [cells_of]. f_equal; [|f_equal].
           ++ rewrite map_map. unfold part. apply map_ext. intros v. cbn [fst snd].
              unfold through_temporaries. rewrite N. cbn [length Nat.eqb].
              replace (S (S (length rest)) - 1) with (S (length rest)) by lia.
              unfold more. now destruct (takes c).
           ++ rewrite (H1 o'), !map_map. unfold part. apply map_ext. intros v. cbn [fst snd].
              unfold through_temporaries. rewrite N. cbn [length Nat.eqb].
              replace (S (S (length rest)) - 1) with (S (length rest)) by lia.
              unfold more. now destruct (takes c').
        -- exact Af.
        -- intros x. rewrite Va. reflexivity.
        -- rewrite Do, D2, Lc. lia.
    + right. split.
      * intros Q. apply Nq. apply quiet_app in Q as [_ Q]. apply quiet_app in Q as [_ Q].
        rewrite D2, Lc. exact Q.
      * rewrite E. reflexivity.
Qed.

Lemma concatenate_exact : forall a rest w, let args := a :: rest in
  let total := operations (arrays w) (length args) 0 args in
  quiet throws (done w) total ->
  exists w', concatenate_arrays left throws a rest w = Returned (parts left (arrays w) (length args) [] args) w' /\
     (forall o, arrays w' o = map (remains left (robbed o args)) (arrays w o)) /\
     (forall o, vals w' o = vals w o) /\ done w' = done w + total.
Proof.
  intros a rest w args total Q. destruct (concatenate_cases a rest w) as [[_ E]|[N _]]; [exact E|].
  exfalso. exact (N Q).
Qed.

Lemma concatenate_terminates : forall a rest w, let args := a :: rest in
  (concatenate_arrays left throws a rest w = Terminated <->
   exists i, done w <= i < done w + operations (arrays w) (length args) 0 args /\ throws i = true) /\
  (forall w', concatenate_arrays left throws a rest w <> Threw w').
Proof.
  intros a rest w args. subst args. destruct (concatenate_cases a rest w) as [[Q [w' [E _]]]|[N E]]; rewrite E.
  - split; [|discriminate]. split; [discriminate|]. intros [i [I T]]. rewrite (Q i I) in T. discriminate.
  - split; [|discriminate]. split; [intros _|reflexivity].
    destruct (quiet_dec (operations (arrays w) (length (a :: rest)) 0 (a :: rest)) (done w)) as [Q|X]; [now apply N in Q|exact X].
Qed.

(** objects that no argument takes from, and arguments without aliases *)
Lemma robbed_none : forall o args, ~ In (o, Rvalue) args -> robbed o args = 0.
Proof.
  intros o args N. unfold robbed. induction args as [|[x c] args IH]; [reflexivity|]. cbn [filter fst snd].
  destruct (x =? o) eqn:E; cbn [andb].
  - apply Nat.eqb_eq in E. subst x. destruct c; cbn [takes]; try (apply IH; intros I; apply N; now right).
    exfalso. apply N. now left.
  - apply IH. intros I. apply N. now right.
Qed.

Lemma robbed_fresh : forall o args, ~ In o (map fst args) -> robbed o args = 0.
Proof. intros o args N. apply robbed_none. intros I. apply N. apply (in_map fst) in I. exact I. Qed.

Lemma remains_0 : forall l : list V, map (remains left 0) l = l.
Proof. intros l. rewrite <- (map_id l) at 2. reflexivity. Qed.

Lemma parts_values : forall A0 n args earlier, NoDup (map fst (earlier ++ args)) ->
  map val (parts left A0 n earlier args) = flat_map (fun a => A0 (fst a)) args.
Proof.
  intros A0 n. induction args as [|a args IH]; intros earlier N; [reflexivity|].
  cbn [parts flat_map]. rewrite map_app. f_equal.
  - unfold part. rewrite map_map. cbn [val]. rewrite robbed_fresh; [apply remains_0|].
    rewrite map_app in N. cbn [map] in N. apply NoDup_remove_2 in N. intros I. apply N. apply in_or_app. now left.
  - apply IH. rewrite <- app_assoc. exact N.
Qed.

Lemma concatenate_distinct : forall a rest w, let args := a :: rest in
  quiet throws (done w) (operations (arrays w) (length args) 0 args) -> NoDup (map fst args) ->
  exists cells w', concatenate_arrays left throws a rest w = Returned cells w' /\
    map val cells = flat_map (fun x => arrays w (fst x)) args /\
    (forall o, In (o, Rvalue) args -> arrays w' o = map left (arrays w o)) /\
    (forall o, ~ In (o, Rvalue) args -> arrays w' o = arrays w o).
Proof.
  intros a rest w args Q N. destruct (concatenate_exact a rest w Q) as [w' [E [A _]]].
  fold args in E. eexists. exists w'. split; [exact E|]. split; [now apply parts_values|]. split.
  - intros o I. rewrite A. fold args. apply map_ext_in. intros v _.
    replace (robbed o args) with 1; [reflexivity|].
    clear - I N. revert N I. generalize args. induction args0 as [|[x c] l IH]; intros N I; [destruct I|].
    cbn [map fst] in N. apply NoDup_cons_iff in N as [N1 N2].
    destruct I as [I|I].
    + injection I as -> ->. change ((o, Rvalue) :: l) with ([(o, Rvalue)] ++ l). rewrite robbed_app, (robbed_fresh o l N1).
      unfold robbed. cbn. rewrite Nat.eqb_refl. reflexivity.
    + change ((x, c) :: l) with ([(x, c)] ++ l). rewrite robbed_app, <- (IH N2 I).
      replace (robbed o [(x, c)]) with 0; [reflexivity|]. symmetry. apply robbed_fresh. cbn. intros [X|[]].
      subst x. apply N1. apply (in_map fst) in I. exact I.
  - intros o I. rewrite A. fold args. rewrite (robbed_none o args I). apply remains_0.
Qed.

(** ** how often elements are copied and moved *)
Lemma parts_nth : forall A0 n args earlier k a, nth_error args k = Some a ->
  exists before behind, parts left A0 n earlier args = before ++ part left A0 n (earlier ++ firstn k args) a ++ behind /\
    length before = list_sum (map (fun x => length (A0 (fst x))) (firstn k args)).
Proof.
  intros A0 n. induction args as [|b args IH]; intros earlier k a E; [now destruct k|].
  destruct k as [|k]; cbn [nth_error] in E.
  - injection E as ->. exists [], (parts left A0 n (earlier ++ [a]) args). cbn [firstn]. rewrite app_nil_r. split; reflexivity.
  - destruct (IH (earlier ++ [b]) k a E) as [before [behind [H L]]].
    exists (part left A0 n earlier b ++ before), behind. cbn [parts firstn]. rewrite H, <- !app_assoc. split; [reflexivity|].
    rewrite app_length, L. unfold part. rewrite map_length. reflexivity.
Qed.

(** ** make_array *)
Definition vals_after (V0 : nat -> V) (earlier : list arg) (w : world V) : Prop :=
  forall o, vals w o = remains left (robbed o earlier) (V0 o).

Lemma vals_read : forall V0 earlier a w n, vals_after V0 earlier w ->
  vals_after V0 (earlier ++ [a])
    (World (arrays w) (if takes (snd a) then upd (vals w) (fst a) (left (vals w (fst a))) else vals w) n).
Proof.
  intros V0 earlier [o c] w n H x. cbn [vals fst snd]. rewrite robbed_app. unfold robbed at 2. cbn [filter fst snd].
  destruct (takes c); cbn [length].
  - unfold upd. destruct (x =? o) eqn:E.
    + apply Nat.eqb_eq in E. subst x. rewrite Nat.eqb_refl. cbn [andb length]. rewrite H, Nat.add_1_r. reflexivity.
    + rewrite (Nat.eqb_sym o x), E. cbn. rewrite Nat.add_0_r. apply H.
  - rewrite andb_false_r. cbn. rewrite Nat.add_0_r. apply H.
Qed.

Lemma make_array_quiet : forall V0 args earlier w, vals_after V0 earlier w -> quiet throws (done w) (length args) ->
  exists w', make_array left throws args w = Returned (built left V0 earlier args) w' /\
    vals_after V0 (earlier ++ args) w' /\ arrays w' = arrays w /\ done w' = done w + length args.
Proof.
  intros V0. induction args as [|a args IH]; intros earlier w H Q; cbn [make_array built length].
  - exists w. rewrite app_nil_r, Nat.add_0_r. auto.
  - cbn [length] in Q. apply quiet_cons in Q as [T Q]. unfold read_value. rewrite T.
    pose proof (vals_read V0 earlier a w (S (done w)) H) as H1.
    destruct (IH (earlier ++ [a]) _ H1 Q) as [w' [E [A [B C]]]].
    exists w'. rewrite <- (H (fst a)). rewrite <- app_assoc in A. cbn [done arrays] in *.
    destruct (takes (snd a)); cbn [andthen]; rewrite E; cbn [andthen];
      (split; [reflexivity|]); (split; [exact A|]); (split; [exact B|]); rewrite C; lia.
Qed.

Lemma make_array_bad : forall V0 args earlier w k, vals_after V0 earlier w ->
  first_throw throws (done w) (length args) k ->
  exists w', make_array left throws args w = Threw w' /\
    vals_after V0 (earlier ++ firstn k args) w' /\ arrays w' = arrays w /\ done w' = done w + S k.
Proof.
  intros V0. induction args as [|a args IH]; intros earlier w k H [L [T Q]]; [cbn in L; lia|].
  cbn [make_array]. unfold read_value. destruct k as [|k].
  - rewrite Nat.add_0_r in T. rewrite T. eexists. split; [reflexivity|]. cbn [firstn]. rewrite app_nil_r.
    split; [exact H|]. split; [reflexivity|]. cbn [done]. lia.
  - apply quiet_cons in Q as [T0 Q]. rewrite T0.
    pose proof (vals_read V0 earlier a w (S (done w)) H) as H1.
    destruct (IH (earlier ++ [a]) _ k H1) as [w' [E [A [B C]]]].
    { cbn [done]. split; [cbn in L; lia|]. split; [|exact Q]. now rewrite Nat.add_succ_comm. }
    exists w'. rewrite <- app_assoc in A. cbn [done arrays] in *.
    destruct (takes (snd a)); cbn [andthen]; rewrite E; cbn [andthen firstn];
      (split; [reflexivity|]); (split; [exact A|]); (split; [exact B|]); rewrite C; lia.
Qed.

Lemma vals_start : forall w, vals_after (vals w) [] w.
Proof. intros w o. reflexivity. Qed.

Lemma make_array_exact : forall args w,
  (quiet throws (done w) (length args) ->
   exists w', make_array left throws args w = Returned (built left (vals w) [] args) w' /\
     (forall o, vals w' o = remains left (robbed o args) (vals w o)) /\
     (forall o, arrays w' o = arrays w o) /\ done w' = done w + length args) /\
  (forall k, first_throw throws (done w) (length args) k ->
   exists w', make_array left throws args w = Threw w' /\
     (forall o, vals w' o = remains left (robbed o (firstn k args)) (vals w o)) /\
     (forall o, arrays w' o = arrays w o) /\ done w' = done w + S k).
Proof.
  intros args w. split.
  - intros Q. destruct (make_array_quiet (vals w) args [] w (vals_start w) Q) as [w' [E [A [B C]]]].
    exists w'. split; [exact E|]. split; [exact A|]. split; [intros o; now rewrite B|exact C].
  - intros k F. destruct (make_array_bad (vals w) args [] w k (vals_start w) F) as [w' [E [A [B C]]]].
    exists w'. split; [exact E|]. split; [exact A|]. split; [intros o; now rewrite B|exact C].
Qed.

(** ** arrays filled from one value *)
Lemma remains_left : forall i v, remains left i (left v) = remains left (S i) v.
Proof.
  intros i v. unfold remains. induction i as [|i IH]; [reflexivity|].
  change (left (Nat.iter i left (left v)) = left (Nat.iter (S i) left v)). now rewrite IH.
Qed.

Lemma move_parameter_quiet : forall N v p q w, quiet throws (done w) N ->
  move_from_parameter left throws N (Cell v p q) w =
  Returned (map (fun i => Cell (remains left i v) p (S q)) (seq 0 N)) (World (arrays w) (vals w) (done w + N)).
Proof.
  induction N as [|N IH]; intros v p q w Q; cbn [move_from_parameter seq map].
  - rewrite Nat.add_0_r. now destruct w.
  - apply quiet_cons in Q as [T Q]. rewrite T. cbn [val copies moves].
    rewrite (IH (left v) p q (World (arrays w) (vals w) (S (done w))) Q). cbn [andthen arrays vals done]. f_equal.
    + f_equal. rewrite <- seq_shift, map_map. apply map_ext. intros i. f_equal.
      apply remains_left.
    + f_equal. lia.
Qed.

Lemma move_parameter_bad : forall N c w, ~ quiet throws (done w) N ->
  exists w', move_from_parameter left throws N c w = Threw w'.
Proof.
  induction N as [|N IH]; intros c w Q; cbn [move_from_parameter]; [exfalso; apply Q, quiet_nil|].
  destruct (throws (done w)) eqn:T; [eauto|].
  destruct (IH (Cell (left (val c)) (copies c) (moves c)) (World (arrays w) (vals w) (S (done w)))) as [w' E].
  - cbn [done]. intros Q'. apply Q, quiet_cons. auto.
  - rewrite E. cbn. eauto.
Qed.

Lemma impl_exact : forall N v p w,
  (quiet throws (done w) N -> make_array_with_value_impl left throws N (Cell v p 0) w =
     Returned (from_one left N v p) (World (arrays w) (vals w) (done w + N))) /\
  (~ quiet throws (done w) N -> make_array_with_value_impl left throws N (Cell v p 0) w = Terminated).
Proof.
  intros N v p w. unfold make_array_with_value_impl. split; intros Q.
  - rewrite (move_parameter_quiet N v p 0 w Q). reflexivity.
  - destruct (move_parameter_bad N (Cell v p 0) w Q) as [w' E]. rewrite E. reflexivity.
Qed.

Lemma filled_exact : forall N v w,
  (throws (done w) = true -> exists w', make_array_filled left throws N v w = Threw w' /\
     arrays w' = arrays w /\ vals w' = vals w) /\
  (throws (done w) = false -> quiet throws (S (done w)) N ->
     exists w', make_array_filled left throws N v w = Returned (from_one left N v 1) w' /\
     arrays w' = arrays w /\ vals w' = vals w /\ done w' = done w + S N) /\
  (throws (done w) = false -> ~ quiet throws (S (done w)) N -> make_array_filled left throws N v w = Terminated).
Proof.
  intros N v w. unfold make_array_filled.
  destruct (impl_exact N v 1 (World (arrays w) (vals w) (S (done w)))) as [A B]. cbn [done arrays vals] in A, B.
  split; [|split]; intros T; rewrite T.
  - eauto.
  - intros Q. rewrite (A Q). eexists. split; [reflexivity|]. cbn. repeat split. lia.
  - exact B.
Qed.

Lemma zero_exact : forall N z w,
  (throws (done w) = true -> exists w', make_zero_array left throws N z w = Threw w' /\
     arrays w' = arrays w /\ vals w' = vals w) /\
  (throws (done w) = false -> quiet throws (S (done w)) N ->
     exists w', make_zero_array left throws N z w = Returned (from_one left N z 0) w' /\
     arrays w' = arrays w /\ vals w' = vals w /\ done w' = done w + S N) /\
  (throws (done w) = false -> ~ quiet throws (S (done w)) N -> make_zero_array left throws N z w = Terminated).
Proof.
  intros N v w. unfold make_zero_array.
  destruct (impl_exact N v 0 (World (arrays w) (vals w) (S (done w)))) as [A B]. cbn [done arrays vals] in A, B.
  split; [|split]; intros T; rewrite T.
  - eauto.
  - intros Q. rewrite (A Q). eexists. split; [reflexivity|]. cbn. repeat split. lia.
  - exact B.
Qed.

(** ** arrays from views *)
Lemma convert_quiet : forall {C} (conv : C -> V) cs w, quiet throws (done w) (length cs) ->
  convert_all throws conv cs w =
  Returned (map (fun c => Cell (conv c) 0 0) cs) (World (arrays w) (vals w) (done w + length cs)).
Proof.
  intros C conv. induction cs as [|c cs IH]; intros w Q; cbn [convert_all map length].
  - rewrite Nat.add_0_r. now destruct w.
  - cbn [length] in Q. apply quiet_cons in Q as [T Q]. rewrite T.
    rewrite (IH (World (arrays w) (vals w) (S (done w))) Q). cbn [andthen arrays vals done].
    now rewrite Nat.add_succ_comm.
Qed.

Lemma convert_bad : forall {C} (conv : C -> V) cs w, ~ quiet throws (done w) (length cs) ->
  exists w', convert_all throws conv cs w = Threw w'.
Proof.
  intros C conv. induction cs as [|c cs IH]; intros w Q; cbn [convert_all]; [exfalso; apply Q, quiet_nil|].
  destruct (throws (done w)) eqn:T; [eauto|].
  destruct (IH (World (arrays w) (vals w) (S (done w)))) as [w' E].
  - cbn [done length] in *. intros Q'. apply Q, quiet_cons. auto.
  - rewrite E. cbn. eauto.
Qed.

Lemma sv_exact : forall {C} (conv : C -> V) N sv w, N <= length sv ->
  (quiet throws (done w) (2 * N) ->
   exists w', make_array_sv left throws conv N sv w = Returned (map (fun c => Cell (conv c) 0 1) (firstn N sv)) w' /\
     arrays w' = arrays w /\ vals w' = vals w /\ done w' = done w + 2 * N) /\
  (~ quiet throws (done w) (2 * N) -> make_array_sv left throws conv N sv w = Terminated).
Proof.
  intros C conv N sv w L. unfold make_array_sv.
  assert (Ln : length (firstn N sv) = N) by (rewrite firstn_length; lia).
  replace (2 * N) with (N + N) by lia.
  destruct (quiet_dec N (done w)) as [Q1|[i [I T]]].
  - rewrite convert_quiet; [|rewrite Ln; exact Q1]. cbn [andthen].
    set (w1 := World (arrays w) (vals w) (done w + length (firstn N sv))).
    set (tmp := map (fun c => Cell (conv c) 0 0) (firstn N sv)).
    assert (Lt : source_length (Temporary tmp) w1 = N) by (cbn; unfold tmp; now rewrite map_length).
    assert (D1 : done w1 = done w + N) by (unfold w1; cbn [done]; now rewrite Ln).
    destruct (quiet_dec N (done w + N)) as [Q2|[i [I T]]].
    + split; [intros _|intros Nq; exfalso; apply Nq, quiet_app; now split].
      rewrite (read_array_quiet (Temporary tmp) w1); [|rewrite Lt, D1; exact Q2]. cbn [noexcept].
      assert (Cs : cells_of (Temporary tmp) w1 = map (fun c => Cell (conv c) 0 1) (firstn N sv))
        by (cbn [cells_of]; unfold tmp; rewrite map_map; reflexivity).
      rewrite Cs, Lt, D1. eexists. split; [reflexivity|]. split; [reflexivity|]. split; [reflexivity|].
      cbn [done]. lia.
    + split; [intros Q; exfalso; apply quiet_app in Q as [_ Q]; exact (not_quiet _ _ i I T Q)|intros _].
      destruct (read_array_bad (Temporary tmp) w1) as [w' E]; [rewrite Lt, D1; exact (not_quiet _ _ i I T)|].
      rewrite E. reflexivity.
  - split; [intros Q; exfalso; apply quiet_app in Q as [Q _]; exact (not_quiet _ _ i I T Q)|intros _].
    destruct (convert_bad conv (firstn N sv) w) as [w' E]; [rewrite Ln; exact (not_quiet _ _ i I T)|].
    rewrite E. reflexivity.
Qed.
End Proofs.

(** ** is_equal *)
Lemma is_equal_exact : forall {V} (differ : V -> V -> option bool) (xs ys : list V) k,
  k <= length xs -> length xs = length ys ->
  (is_equal differ xs ys k = Some true <->
     forall i x y, i < k -> nth_error xs i = Some x -> nth_error ys i = Some y -> differ x y = Some false) /\
  (forall r, is_equal differ xs ys k = r -> r <> Some true ->
     exists i x y, i < k /\ nth_error xs i = Some x /\ nth_error ys i = Some y /\
       differ x y = option_map negb r /\
       forall j x' y', j < i -> nth_error xs j = Some x' -> nth_error ys j = Some y' -> differ x' y' = Some false).
Proof.
  intros V differ xs. induction xs as [|x xs IH]; intros [|y ys] k L E; try discriminate E.
  - cbn in L. replace k with 0 by lia. cbn. split; [|intros r <- H; now destruct H].
    split; [intros _ i x y I; lia|reflexivity].
  - destruct k as [|k].
    { cbn. split; [|intros r <- H; now destruct H]. split; [intros _ i a b I; lia|reflexivity]. }
    cbn [is_equal]. cbn in L, E. destruct (IH ys k) as [A B]; [lia|lia|].
    destruct (differ x y) as [[|]|] eqn:D.
    + split.
      * split; [discriminate|]. intros H. rewrite (H 0 x y) in D; [discriminate|lia|reflexivity|reflexivity].
      * intros r <- _. exists 0, x, y. split; [lia|]. split; [reflexivity|]. split; [reflexivity|]. split; [exact D|]. intros j a' b' J. lia.
    + split.
      * rewrite A. split.
        -- intros H [|i] a b I Xa Yb; [cbn in Xa, Yb; congruence|]. apply (H i); [lia|exact Xa|exact Yb].
        -- intros H i a b I Xa Yb. apply (H (S i)); [lia|exact Xa|exact Yb].
      * intros r R N. destruct (B r R N) as [i [a [b [I [Xa [Yb [Dr F]]]]]]].
        exists (S i), a, b. repeat split; try assumption; [lia|].
        intros [|j] a' b' J Xa' Yb'; [cbn in Xa', Yb'; congruence|]. apply (F j); [lia|exact Xa'|exact Yb'].
    + split.
      * split; [discriminate|]. intros H. rewrite (H 0 x y) in D; [discriminate|lia|reflexivity|reflexivity].
      * intros r <- _. exists 0, x, y. split; [lia|]. split; [reflexivity|]. split; [reflexivity|]. split; [exact D|]. intros j a' b' J. lia.
Qed.

(** ** for_each_arg *)
Lemma for_each_exact : forall {S A} (f : S -> A -> S * bool) xs s s' bad, for_each_arg f s xs = (s', bad) ->
  if bad then exists before x behind s1, xs = before ++ x :: behind /\ for_each_arg f s before = (s1, false) /\ f s1 x = (s', true)
  else s' = fold_left (fun t x => fst (f t x)) xs s /\
       forall before x behind, xs = before ++ x :: behind ->
         snd (f (fold_left (fun t y => fst (f t y)) before s) x) = false.
Proof.
  intros S A f xs. induction xs as [|x xs IH]; intros s s' bad E; cbn [for_each_arg] in E.
  - injection E as <- <-. split; [reflexivity|]. intros [|b l] x behind X; discriminate X.
  - destruct (f s x) as [s1 b1] eqn:F. destruct b1.
    + injection E as <- <-. exists [], x, xs, s. repeat split; assumption.
    + specialize (IH s1 s' bad E). destruct bad.
      * destruct IH as [before [z [behind [s2 [X [R Z]]]]]]. exists (x :: before), z, behind, s2.
        split; [now rewrite X|]. split; [|exact Z]. cbn [for_each_arg]. rewrite F. exact R.
      * destruct IH as [R N]. cbn [fold_left]. rewrite F. split; [exact R|].
        intros [|b l] z behind X; cbn in X.
        -- injection X as <- _. cbn. now rewrite F.
        -- injection X as <- X. cbn. rewrite F. cbn. exact (N l z behind X).
Qed.

Lemma concatenate_refuted : forall (V : Type) (left : V -> V) a rest (w : world V) i, let args := a :: rest in
  i < operations (arrays w) (length args) 0 args ->
  concatenate_arrays left (fun j => j =? done w + i) a rest w = Terminated.
Proof.
  intros V left a rest w i args I. apply (proj1 (concatenate_terminates left (fun j => j =? done w + i) a rest w)).
  exists (done w + i). split; [fold args; lia|apply Nat.eqb_refl].
Qed.
