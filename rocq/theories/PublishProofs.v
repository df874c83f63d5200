(** Lemmas about resources handed over through the default resource. *)

Require Import ZArith List Bool Lia Arith.
Require Import Verif.AllocSpec Verif.AllocModel Verif.PublishSpec Verif.PublishModel.
Import ListNotations.

(** * The shape of executions *)

(** the value of the atomic object after a part of an execution *)
Definition stored_after (v : Z) (e : nat * act) : Z :=
  match snd e with Atomic _ _ (Some r) _ => r | _ => v end.
Definition value (v : Z) (tr : trace) : Z := fold_left stored_after tr v.

Lemma run_shape : forall sched v prog i t o read stored seen,
  does (publish_run v prog sched) i t (Atomic o read stored seen) ->
  o = SeqCst /\ read = true /\ seen = value v (firstn i (publish_run v prog sched)).
Proof.
  induction sched as [|s sched IH]; intros v prog i t o read stored seen D.
  - destruct i; discriminate D.
  - cbn [publish_run] in *. destruct (prog s) as [|c rest] eqn:P.
    + apply (IH v prog i t o read stored seen D).
    + destruct c as [r| |w x]; cbn [publish_step reg_step] in *; destruct i as [|i].
      * cbn in D. injection D as <- <- <- <- <-. auto.
      * cbn [nth_error] in D. cbn [firstn]. unfold value. cbn [fold_left stored_after snd]. apply (IH _ _ _ _ _ _ _ _ D).
      * cbn in D. injection D as <- <- <- <- <-. auto.
      * cbn [firstn]. unfold value. cbn [fold_left stored_after snd]. apply (IH _ _ _ _ _ _ _ _ D).
      * discriminate D.
      * cbn [firstn]. unfold value. cbn [fold_left stored_after snd]. apply (IH _ _ _ _ _ _ _ _ D).
Qed.

Lemma does_fun : forall tr i t a u b, does tr i t a -> does tr i u b -> t = u /\ a = b.
Proof. unfold does. intros tr i t a u b H K. rewrite H in K. injection K as -> ->. auto. Qed.

(** either nothing has been stored or there is a last modification *)
Lemma last_modification : forall v tr j, (j <= length tr)%nat ->
  (value v (firstn j tr) = v /\ forall c u, (c < j)%nat -> ~ modifies tr c u) \/
  exists b u o read r seen, (b < j)%nat /\ does tr b u (Atomic o read (Some r) seen) /\
    value v (firstn j tr) = r /\ forall c u, (b < c < j)%nat -> ~ modifies tr c u.
Proof.
  intros v tr. induction j as [|j IH]; intros L.
  - left. split; [reflexivity|]. intros; lia.
  - destruct (nth_error tr j) as [[t a]|] eqn:N; [|apply nth_error_None in N; lia].
    assert (F : value v (firstn (S j) tr) = stored_after (value v (firstn j tr)) (t, a)).
    { assert (G : forall (l : trace) n e, nth_error l n = Some e -> firstn (S n) l = firstn n l ++ [e]).
      { induction l as [|y l IHl]; intros [|n] e Q; cbn in Q; try discriminate.
        - injection Q as <-. reflexivity.
        - cbn [app]. change (firstn (S (S n)) (y :: l)) with (y :: firstn (S n) l). rewrite (IHl n e Q). reflexivity. }
      rewrite (G tr j _ N). unfold value. rewrite fold_left_app. reflexivity. }
    destruct a as [w x|o read [r|] seen].
    + rewrite F. cbn [stored_after snd]. destruct (IH ltac:(lia)) as [[E M]|[b [u [o [read [r [seen [B [D [E M]]]]]]]]]].
      * left. split; [exact E|]. intros c u C [o [read [r [seen H]]]]. destruct (Nat.eq_dec c j) as [->|Ne].
        -- unfold does in H. rewrite N in H. discriminate H.
        -- apply (M c u ltac:(lia)). exists o, read, r, seen. exact H.
      * right. exists b, u, o, read, r, seen. split; [lia|]. split; [exact D|]. split; [exact E|].
        intros c u' C [o' [read' [r' [seen' H]]]]. destruct (Nat.eq_dec c j) as [->|Ne].
        -- unfold does in H. rewrite N in H. discriminate H.
        -- apply (M c u' ltac:(lia)). exists o', read', r', seen'. exact H.
    + right. exists j, t, o, read, r, seen. split; [lia|]. split; [exact N|]. split; [exact F|]. intros; lia.
    + rewrite F. cbn [stored_after snd]. destruct (IH ltac:(lia)) as [[E M]|[b [u [o' [read' [r [seen' [B [D [E M]]]]]]]]]].
      * left. split; [exact E|]. intros c u C [o' [read' [r [seen' H]]]]. destruct (Nat.eq_dec c j) as [->|Ne].
        -- unfold does in H. rewrite N in H. discriminate H.
        -- apply (M c u ltac:(lia)). exists o', read', r, seen'. exact H.
      * right. exists b, u, o', read', r, seen'. split; [lia|]. split; [exact D|]. split; [exact E|].
        intros c u' C [o2 [read2 [r2 [seen2 H]]]]. destruct (Nat.eq_dec c j) as [->|Ne].
        -- unfold does in H. rewrite N in H. discriminate H.
        -- apply (M c u' ltac:(lia)). exists o2, read2, r2, seen2. exact H.
Qed.

Lemma does_in : forall tr i t a, does tr i t a -> (i < length tr)%nat.
Proof. unfold does. intros. apply nth_error_Some. congruence. Qed.

(** every call of set_default_resource synchronizes with every later call of either *)
Lemma set_synchronizes : forall v prog sched a t o read r seen j u o' read' stored' seen',
  let tr := publish_run v prog sched in
  does tr a t (Atomic o read (Some r) seen) -> does tr j u (Atomic o' read' stored' seen') -> (a < j)%nat ->
  synchronizes tr a j.
Proof.
  intros v prog sched a t o read r seen j u o' read' stored' seen' tr Da Dj L.
  destruct (run_shape _ _ _ _ _ _ _ _ _ Da) as [-> [-> _]].
  destruct (run_shape _ _ _ _ _ _ _ _ _ Dj) as [-> [-> _]].
  pose proof (does_in _ _ _ _ Dj) as Lj. fold tr in Lj.
  destruct (last_modification v tr j ltac:(lia)) as [[_ M]|[b [u2 [o2 [read2 [r2 [seen2 [B [D [_ M]]]]]]]]]].
  - exfalso. apply (M a t L). exists SeqCst, true, r, seen. exact Da.
  - assert (AB : (a <= b)%nat).
    { destruct (Nat.le_gt_cases a b) as [H|H]; auto. exfalso. apply (M a t ltac:(lia)). exists SeqCst, true, r, seen. exact Da. }
    exists t, SeqCst, true, r, seen, u, SeqCst, stored', seen', b.
    split; [exact Da|]. split; [reflexivity|]. split; [exact Dj|]. split; [reflexivity|].
    assert (Mb : modifies tr b u2) by (exists o2, read2, r2, seen2; exact D).
    split.
    + split; [exact AB|]. split; [exists SeqCst, true, r, seen; exact Da|]. split; [exists u2; exact Mb|].
      intros c u3 o3 read3 v3 seen3 _ D3. right. destruct (run_shape _ _ _ _ _ _ _ _ _ D3) as [_ [-> _]]. reflexivity.
    + split; [exact B|]. split; [exists u2; exact Mb|]. split; [exists u, SeqCst, stored', seen'; exact Dj|]. exact M.
Qed.

(** * Handing over *)

Lemma received_after_writes : forall creator v prog sched, creator v = None ->
  let tr := publish_run v prog sched in hands_over creator tr ->
  forall j u r t i, received tr j u r -> creator r = Some t -> t <> u -> does tr i t (Plain true r) ->
  happens_before tr i j.
Proof.
  intros creator v prog sched V tr [H1 [H2 [H3 H4]]].
  induction j as [j IH] using (well_founded_induction lt_wf). intros u r t i [o [stored D]] C N W.
  destruct (run_shape _ _ _ _ _ _ _ _ _ D) as [-> [_ S]]. fold tr in S.
  pose proof (does_in _ _ _ _ D) as Lj. fold tr in Lj.
  destruct (last_modification v tr j ltac:(lia)) as [[E M]|[b [u2 [o2 [read2 [r2 [seen2 [B [Db [E M]]]]]]]]]].
  - rewrite E in S. subst r. congruence.
  - rewrite E in S. subst r2.
    assert (Y : happens_before tr b j).
    { apply hb_sync. eapply set_synchronizes; [exact Db|exact D|exact B]. }
    destruct (H4 b u2 r o2 read2 seen2 Db) as [K|[K|[k [Lk R]]]].
    + assert (u2 = t) as -> by congruence.
      eapply hb_trans; [|exact Y]. eapply hb_thread; [exact W|exact Db|]. eapply H2; eauto.
    + congruence.
    + destruct (Nat.eq_dec u2 t) as [->|Ne].
      * eapply hb_trans; [|exact Y]. eapply hb_thread; [exact W|exact Db|]. eapply H2; eauto.
      * eapply hb_trans; [|exact Y]. eapply hb_trans.
        -- apply (IH k ltac:(lia) u2 r t i R C ltac:(congruence) W).
        -- destruct R as [o3 [st3 R]]. eapply hb_thread; [exact R|exact Db|exact Lk].
Qed.

Lemma handed_over : forall creator v prog sched, creator v = None ->
  let tr := publish_run v prog sched in hands_over creator tr ->
  (forall i j, ~ race tr i j) /\
  (forall i j t u w x, does tr i t (Plain true x) -> does tr j u (Plain w x) -> t <> u -> happens_before tr i j).
Proof.
  intros creator v prog sched V tr H.
  assert (A : forall i j t u w x, does tr i t (Plain true x) -> does tr j u (Plain w x) -> t <> u -> happens_before tr i j).
  { intros i j t u w x Di Dj N. pose proof H as [H1 [_ [H3 _]]]. pose proof (H1 _ _ _ Di) as C.
    destruct (H3 j u w x Dj) as [K|[K|[k [Lk R]]]]; try congruence.
    eapply hb_trans; [apply (received_after_writes creator v prog sched V H k u x t i R C N Di)|].
    destruct R as [o [st R]]. eapply hb_thread; [exact R|exact Dj|exact Lk]. }
  split; [|exact A]. intros i j [t [u [x [a [b [Di [Dj [N [[->| ->] [N1 N2]]]]]]]]]].
  - apply N1. eapply A; eauto.
  - apply N2. eapply A; eauto.
Qed.

(** * Exactly what is ordered *)

Lemma hb_cross : forall v prog sched, let tr := publish_run v prog sched in
  forall i j, happens_before tr i j -> (i < j)%nat /\
  exists t u a b, does tr i t a /\ does tr j u b /\
   (t = u \/ exists k m r old stored seen, (i <= k)%nat /\ (k < m)%nat /\ (m <= j)%nat /\
      does tr k t (Atomic SeqCst true (Some r) old) /\ does tr m u (Atomic SeqCst true stored seen)).
Proof.
  intros v prog sched tr i j H. induction H as [i j t a b Di Dj L|i j S|i j k H1 IH1 H2 IH2].
  - split; [exact L|]. exists t, t, a, b. auto.
  - destruct S as [t [o [read [r [seen [u [o' [stored' [seen' [b [D1 [_ [D2 [_ [RS RF]]]]]]]]]]]]]]].
    destruct RS as [AB _], RF as [BJ _]. split; [lia|].
    destruct (run_shape _ _ _ _ _ _ _ _ _ D1) as [-> [-> _]]. destruct (run_shape _ _ _ _ _ _ _ _ _ D2) as [-> _].
    exists t, u, (Atomic SeqCst true (Some r) seen), (Atomic SeqCst true stored' seen').
    split; [exact D1|]. split; [exact D2|]. right.
    exists i, j, r, seen, stored', seen'. repeat split; auto; lia.
  - destruct IH1 as [L1 [t [u [a [b [D1 [D2 C1]]]]]]]. destruct IH2 as [L2 [u' [w [b' [c [D2' [D3 C2]]]]]]].
    destruct (does_fun _ _ _ _ _ _ D2 D2') as [<- <-].
    split; [lia|]. exists t, w, a, c. split; [exact D1|]. split; [exact D3|].
    destruct C1 as [->|[k1 [m1 [r1 [old1 [st1 [s1 [A1 [A2 [A3 [A4 A5]]]]]]]]]]];
    destruct C2 as [->|[k2 [m2 [r2 [old2 [st2 [s2 [B1 [B2 [B3 [B4 B5]]]]]]]]]]].
    + auto.
    + right. exists k2, m2, r2, old2, st2, s2. repeat split; auto; lia.
    + right. exists k1, m1, r1, old1, st1, s1. repeat split; auto; lia.
    + right. exists k1, m2, r1, old1, st2, s2. repeat split; auto; lia.
Qed.

(** uses by two threads are ordered exactly when the first thread calls
    set_default_resource after its use, and then the second one of the functions before its *)
Lemma ordered_exactly : forall v prog sched, let tr := publish_run v prog sched in
  forall i j t u w w' x y, does tr i t (Plain w x) -> does tr j u (Plain w' y) -> t <> u ->
  (happens_before tr i j <->
   exists k m r old stored seen, (i < k)%nat /\ (k < m)%nat /\ (m < j)%nat /\
     does tr k t (Atomic SeqCst true (Some r) old) /\ does tr m u (Atomic SeqCst true stored seen)).
Proof.
  intros v prog sched tr i j t u w w' x y Di Dj N. split.
  - intros H. destruct (hb_cross _ _ _ _ _ H) as [_ [t' [u' [a [b [D1 [D2 C]]]]]]]. fold tr in D1, D2, C.
    destruct (does_fun _ _ _ _ _ _ Di D1) as [<- <-]. destruct (does_fun _ _ _ _ _ _ Dj D2) as [<- <-].
    destruct C as [C|[k [m [r [old [st [s [A1 [A2 [A3 [A4 A5]]]]]]]]]]]; [contradiction|].
    exists k, m, r, old, st, s.
    assert (i <> k) by (intros ->; destruct (does_fun _ _ _ _ _ _ Di A4) as [_ X]; discriminate X).
    assert (j <> m) by (intros ->; destruct (does_fun _ _ _ _ _ _ Dj A5) as [_ X]; discriminate X).
    repeat split; auto; lia.
  - intros [k [m [r [old [st [s [A1 [A2 [A3 [A4 A5]]]]]]]]]].
    eapply hb_trans; [eapply hb_thread; [exact Di|exact A4|exact A1]|].
    eapply hb_trans; [|eapply hb_thread; [exact A5|exact Dj|exact A3]].
    apply hb_sync. eapply set_synchronizes; eauto.
Qed.

Lemma retired_exactly : forall v prog sched, let tr := publish_run v prog sched in
  forall i j t u w x, (i < j)%nat -> does tr i t (Plain w x) -> does tr j u (Plain true x) -> t <> u ->
  (~ race tr i j <->
   exists k m r old stored seen, (i < k)%nat /\ (k < m)%nat /\ (m < j)%nat /\
     does tr k t (Atomic SeqCst true (Some r) old) /\ does tr m u (Atomic SeqCst true stored seen)).
Proof.
  intros v prog sched tr i j t u w x L Di Dj N.
  pose proof (ordered_exactly v prog sched i j t u w true x x Di Dj N) as O. fold tr in O. rewrite <- O.
  assert (NB : ~ happens_before tr j i).
  { intros H. destruct (hb_cross _ _ _ _ _ H) as [X _]. lia. }
  split.
  - intros R.
    apply O.
    (* the condition is decidable: a search over positions *)
    assert (D : forall P : nat -> Prop, (forall n, P n \/ ~ P n) -> forall b, (exists n, (n < b)%nat /\ P n) \/ ~ exists n, (n < b)%nat /\ P n).
    { intros P DP. induction b as [|b IH]; [right; intros [n [X _]]; lia|].
      destruct IH as [[n [A B]]|IH]; [left; exists n; split; [lia|exact B]|].
      destruct (DP b) as [Y|Y]; [left; exists b; split; [lia|exact Y]|].
      right. intros [n [A B]]. destruct (Nat.eq_dec n b) as [->|Ne]; [contradiction|].
      apply IH. exists n. split; [lia|exact B]. }
    set (P := fun k => (i < k)%nat /\ (exists r old, does tr k t (Atomic SeqCst true (Some r) old)) /\
      exists m, (m < j)%nat /\ (k < m)%nat /\ exists st s, does tr m u (Atomic SeqCst true st s)).
    assert (DP : forall k, P k \/ ~ P k).
    { intros k. unfold P. destruct (lt_dec i k) as [A|A]; [|right; tauto].
      assert (DA : forall n q, (exists st s, does tr n q (Atomic SeqCst true st s)) \/ ~ exists st s, does tr n q (Atomic SeqCst true st s)).
      { intros n q. unfold does. destruct (nth_error tr n) as [[q' [ww xx|o rd st s]]|] eqn:E.
        - right. intros [st [s X]]. discriminate X.
        - destruct (run_shape _ _ _ _ _ _ _ _ _ E) as [-> [-> _]].
          destruct (Nat.eq_dec q' q) as [->|Ne]; [left; eauto|right; intros [st' [s' X]]; congruence].
        - right. intros [st [s X]]. discriminate X. }
      assert (DS : (exists r old, does tr k t (Atomic SeqCst true (Some r) old)) \/ ~ exists r old, does tr k t (Atomic SeqCst true (Some r) old)).
      { destruct (DA k t) as [[st [s X]]|X].
        - destruct st as [r|]; [left; eauto|right; intros [r [old Y]]; unfold does in *; congruence].
        - right. intros [r [old Y]]. apply X. eauto. }
      destruct DS as [S|S]; [|right; tauto].
      destruct (D (fun m => (k < m)%nat /\ exists st s, does tr m u (Atomic SeqCst true st s))) with (b := j) as [M|M].
      - intros m. destruct (lt_dec k m); [|right; tauto]. destruct (DA m u); [left; auto|right; tauto].
      - left. tauto.
      - right. tauto. }
    destruct (D P DP j) as [[k [Lk [A [[r [old B]] [m [C1 [C2 [st [s C3]]]]]]]]]|X].
    + exists k, m, r, old, st, s. repeat split; auto.
    + exfalso. apply R. exists t, u, x, w, true. split; [exact Di|]. split; [exact Dj|]. split; [exact N|]. split; [auto|].
      split; [|exact NB]. intros H. apply O in H. destruct H as [k [m [r [old [st [s [A1 [A2 [A3 [A4 A5]]]]]]]]]].
      apply X. exists k. split; [lia|]. split; [exact A1|]. split; [eauto|]. exists m. split; [exact A3|]. split; [exact A2|]. eauto.
  - intros H [t' [u' [x' [a [b [D1 [D2 [_ [_ [X _]]]]]]]]]]. contradiction.
Qed.

(** a thread that has only called get_default_resource is never ordered before another *)
Lemma get_is_not_enough : forall v prog sched, let tr := publish_run v prog sched in
  forall i j t u w x, (i < j)%nat -> does tr i t (Plain w x) -> does tr j u (Plain true x) -> t <> u ->
  (forall r, ~ In (PSet r) (prog t)) -> race tr i j.
Proof.
  intros v prog sched tr i j t u w x L Di Dj N NS.
  exists t, u, x, w, true. split; [exact Di|]. split; [exact Dj|]. split; [exact N|]. split; [auto|]. split.
  - intros H. apply (ordered_exactly v prog sched i j t u w true x x Di Dj N) in H.
    destruct H as [k [m [r [old [st [s [_ [_ [_ [A _]]]]]]]]]].
    assert (G : forall sched v prog k r old, (forall r, ~ In (PSet r) (prog t)) ->
              ~ does (publish_run v prog sched) k t (Atomic SeqCst true (Some r) old)).
    { clear. induction sched as [|s sched IH]; intros v prog k r old NS D; [destruct k; discriminate D|].
      cbn [publish_run] in D. destruct (prog s) as [|c rest] eqn:P; [exact (IH _ _ _ _ _ NS D)|].
      assert (NS' : forall r, ~ In (PSet r) (if Nat.eqb t s then rest else prog t)).
      { intros q X. destruct (Nat.eqb_spec t s) as [->|]; [|exact (NS q X)]. apply (NS q). rewrite P. right. exact X. }
      destruct (publish_step v c) as [v1 a] eqn:E. destruct k as [|k].
      - cbn in D. injection D as -> ->. destruct c as [q| |ww y]; cbn in E; injection E as <- E; try discriminate E.
        apply (NS q). rewrite P. left. reflexivity.
      - exact (IH _ _ _ _ _ NS' D). }
    exact (G sched v prog k r old NS A).
  - intros H. destruct (hb_cross _ _ _ _ _ H) as [X _]. lia.
Qed.

(** * Examples *)

(** thread 0 makes the resource at 1, publishes it, replaces it and destroys it, long after
    thread 1 has used it *)
Definition retire_prog : nat -> list pcall :=
  fun t => match t with
           | O => [PUse true 1; PSet 1; PSet 2; PUse true 1]
           | 1%nat => [PGet; PUse false 1]
           | _ => []
           end.

Lemma retire_trace : publish_run 0 retire_prog [0; 0; 1; 1; 0; 0]%nat =
  [(0, Plain true 1); (0, Atomic SeqCst true (Some 1%Z) 0); (1, Atomic SeqCst true None 1); (1, Plain false 1);
   (0, Atomic SeqCst true (Some 2%Z) 1); (0, Plain true 1)]%nat.
Proof. reflexivity. Qed.

Lemma retire_race : exists prog sched, let tr := publish_run 0 prog sched in
  does tr 2 1 (Atomic SeqCst true None 1) /\ does tr 3 1 (Plain false 1) /\
  does tr 4 0 (Atomic SeqCst true (Some 2%Z) 1) /\ does tr 5 0 (Plain true 1) /\ race tr 3 5.
Proof.
  exists retire_prog, [0; 0; 1; 1; 0; 0]%nat. cbv zeta. repeat (split; [reflexivity|]).
  apply (get_is_not_enough 0 retire_prog [0; 0; 1; 1; 0; 0]%nat 3 5 1 0 false 1); try reflexivity; try lia.
  intros r [X|[X|[]]]; discriminate X.
Qed.
