(** Lemmas about how long the calls of simple_resource take. *)

Require Import ZArith Lia List Bool.
Require Import Verif.Outcome Verif.Machine Verif.BitsModel Verif.BitsSpec.
Require Import Verif.SimpleModel Verif.SimpleSpec Verif.SimpleView Verif.SimpleProofs Verif.SimpleScanProofs
  Verif.SimpleAnyProofs Verif.SimpleBalanceProofs Verif.SimpleHistProofs Verif.SimpleMainProofs
  Verif.CostSpec.
Import ListNotations.
Open Scope Z_scope.
Open Scope res_scope.

(** * Walks that end do not come to a place twice *)

Section Walk.
  Variable f : Z -> option Z.
  Inductive walk : Z -> list Z -> Z -> Prop :=
  | walk_end : forall j, f j = None -> walk j [] j
  | walk_on : forall i i' l j, f i = Some i' -> walk i' l j -> walk i (i :: l) j.

  Lemma walk_unique : forall i l j, walk i l j -> forall l' j', walk i l' j' -> l' = l /\ j' = j.
  Proof.
    intros i l j H. induction H as [j E|i i' l j E H IH]; intros l' j' H'; inversion H'; subst; try congruence; auto.
    assert (i'0 = i') by congruence. subst. destruct (IH _ _ H1) as [-> ->]. auto.
  Qed.
  Lemma walk_from : forall i l j, walk i l j -> forall x, In x l -> exists l2, walk x l2 j /\ (length l2 <= length l)%nat.
  Proof.
    intros i l j H. induction H as [j E|i i' l j E H IH]; intros x X; [destruct X|].
    destruct X as [<-|X]; [exists (i :: l); split; [econstructor; eauto|lia]|].
    destruct (IH x X) as [l2 [W L]]. exists l2. split; [exact W|cbn [length]; lia].
  Qed.
  Lemma walk_last : forall i l j, walk i l j -> f j = None.
  Proof. intros i l j H. induction H; auto. Qed.
  Lemma walk_once : forall i l j, walk i l j -> NoDup (l ++ [j]).
  Proof.
    intros i l j H. induction H as [j E|i i' l j E H IH]; [constructor; [intros []|constructor]|].
    cbn [app]. constructor; [|exact IH]. intros X. apply in_app_iff in X. destruct X as [X|[X|[]]].
    - destruct (walk_from _ _ _ H i X) as [l2 [W L]].
      destruct (walk_unique _ _ _ W (i :: l) j ltac:(econstructor; eauto)) as [<- _]. cbn [length] in L. lia.
    - subst. rewrite (walk_last _ _ _ H) in E. discriminate E.
  Qed.
End Walk.

Lemma indices_in : forall n i, 0 <= i < n <-> In i (indices n).
Proof.
  intros n i. unfold indices. rewrite in_map_iff. split.
  - intros I. exists (Z.to_nat i). split; [lia|]. apply in_seq. lia.
  - intros [k [<- I]]. apply in_seq in I. lia.
Qed.
Lemma indices_length : forall n, length (indices n) = Z.to_nat n.
Proof. intros n. unfold indices. rewrite map_length, seq_length. reflexivity. Qed.
Lemma room_for : forall n l, NoDup l -> (forall i, In i l -> 0 <= i < n) -> (length l <= Z.to_nat n)%nat.
Proof.
  intros n l N H. rewrite <- indices_length. apply NoDup_incl_length; auto. intros i I. apply indices_in, H, I.
Qed.

(** * One round *)

(** the blocks a call can look at without an assertion or the array stopping it *)
Definition reach (c : cfg) (s : state) : Z := if DBG c then bc s else MB c.

Lemma next_index_reach : forall c s i n, next_index c s i = Ok n -> 0 <= i < reach c s /\ n = nxt s i.
Proof.
  intros c s i n H. unfold next_index, at_, cassert, in_array, reach in *.
  destruct (DBG c); [destruct (i <? bc s) eqn:L; [|discriminate H]|];
  destruct ((0 <=? i) && (i <? MB c)) eqn:A; try discriminate H;
  apply andb_true_iff in A; rewrite Z.leb_le, Z.ltb_lt in A; injection H as <-;
  [apply Z.ltb_lt in L|]; lia.
Qed.

(** * allocate *)

Section Steady.
  (** actions that leave everything as it is unless the loop ends there *)
  Context {A : Type}.
  Variables (c : cfg) (pred : state -> Z -> res bool) (act : state -> A -> Z -> res (state * A * bool)) (s : state) (a : A).
  Hypothesis steady : forall i s' a', act s a i = Ok (s', a', true) -> s' = s /\ a' = a.

  Definition round (i : Z) : option Z :=
    match next_index c s i, pred s i with
    | Ok n, Ok true => match act s a i with Ok (_, _, true) => Some 1 | _ => None end
    | Ok n, Ok false => if n =? 0 then None else Some n
    | _, _ => None
    end.

  Lemma round_on : forall i i' fuel, round i = Some i' ->
    apply_loop (S fuel) c pred act s a i = apply_loop fuel c pred act s a i'.
  Proof.
    intros i i' fuel H. unfold round in H. cbn [apply_loop].
    destruct (next_index c s i) as [n| | |] eqn:N; try discriminate H. cbn [bind].
    destruct (pred s i) as [[]| | |] eqn:P; try discriminate H; cbn [bind].
    - destruct (act s a i) as [[[s' a'] []]| | |] eqn:E; try discriminate H. cbn [bind of_bool].
      injection H as <-. destruct (steady _ _ _ E) as [-> ->]. reflexivity.
    - destruct (Z.eqb_spec n 0) as [Z0|Z0]; [discriminate H|]. injection H as <-. cbn [bind]. destruct (Z.eqb_spec n 0); [contradiction|reflexivity].
  Qed.
  Lemma round_last : forall i fuel, round i = None ->
    apply_loop (S fuel) c pred act s a i = apply_loop 1 c pred act s a i.
  Proof.
    intros i fuel H. unfold round in H. cbn [apply_loop].
    destruct (next_index c s i) as [n| | |] eqn:N; try reflexivity. cbn [bind].
    destruct (pred s i) as [[]| | |] eqn:P; try reflexivity; cbn [bind].
    - destruct (act s a i) as [[[s' a'] []]| | |] eqn:E; try discriminate H; reflexivity.
    - destruct (n =? 0); [reflexivity|discriminate H].
  Qed.
  Lemma round_reach : forall i, (exists i', round i = Some i') \/ (exists x, apply_loop 1 c pred act s a i = Ok x) ->
    0 <= i < reach c s.
  Proof.
    intros i H. unfold round in H. cbn [apply_loop] in H. destruct (next_index c s i) as [n| | |] eqn:N.
    - apply (next_index_reach _ _ _ _ N).
    - destruct H as [[x H]|[x H]]; discriminate H.
    - destruct H as [[x H]|[x H]]; discriminate H.
    - destruct H as [[x H]|[x H]]; discriminate H.
  Qed.
  Lemma round_end : forall i x, apply_loop 1 c pred act s a i = Ok x -> round i = None.
  Proof.
    intros i x H. destruct (round i) as [i'|] eqn:E; [|reflexivity]. rewrite (round_on _ _ _ E) in H. discriminate H.
  Qed.

  Lemma steady_walk : forall fuel i x, apply_loop fuel c pred act s a i = Ok x ->
    exists l j, walk round i l j /\ apply_loop 1 c pred act s a j = Ok x.
  Proof.
    induction fuel as [|fuel IH]; intros i x H; [discriminate H|].
    destruct (round i) as [i'|] eqn:E.
    - rewrite (round_on _ _ _ E) in H. destruct (IH i' x H) as [l [j [W L]]]. exists (i :: l), j.
      split; [econstructor; eauto|exact L].
    - rewrite (round_last _ _ E) in H. exists [], i. split; [constructor; exact E|exact H].
  Qed.
  Lemma walk_rounds : forall i l j, walk round i l j ->
    (forall k, (k <= length l)%nat -> apply_loop k c pred act s a i = Hang) /\
    (forall k, apply_loop (S (length l) + k) c pred act s a i = apply_loop 1 c pred act s a j).
  Proof.
    intros i l j H. induction H as [j E|i i' l j E H [IH1 IH2]].
    - split; [intros k K; cbn in K; replace k with 0%nat by lia; reflexivity|].
      intros k. cbn [length]. apply round_last, E.
    - split.
      + intros [|k] K; [reflexivity|]. cbn [length] in K. rewrite (round_on _ _ _ E). apply IH1. lia.
      + intros k. cbn [length]. change (S (S (length l)) + k)%nat with (S (S (length l) + k)).
        rewrite (round_on _ _ _ E). apply IH2.
  Qed.

  Lemma steady_rounds : forall fuel i x, apply_loop fuel c pred act s a i = Ok x ->
    exists k, (k < Z.to_nat (reach c s))%nat /\
      (forall j, (j <= k)%nat -> apply_loop j c pred act s a i = Hang) /\
      (forall j, (k < j)%nat -> apply_loop j c pred act s a i = Ok x).
  Proof.
    intros fuel i x H. destruct (steady_walk _ _ _ H) as [l [j [W L]]]. exists (length l).
    destruct (walk_rounds _ _ _ W) as [R1 R2]. split; [|split; [exact R1|]].
    - assert (R : (length (l ++ [j]) <= Z.to_nat (reach c s))%nat).
      { apply room_for; [eapply walk_once; eauto|]. intros y Y. apply in_app_iff in Y. destruct Y as [Y|[<-|[]]].
        - apply round_reach. left. clear -W Y. induction W as [j E|i i' l j E W IH]; [destruct Y|].
          destruct Y as [<-|Y]; [eauto|auto].
        - apply round_reach. right. eauto. }
      rewrite app_length in R. cbn in R. lia.
    - intros k K. rewrite <- L. replace k with (S (length l) + (k - S (length l)))%nat by lia. apply R2.
  Qed.
End Steady.

Lemma alloc_steady : forall c size align s p i s' p', alloc_act c size align s p i = Ok (s', p', true) -> s' = s /\ p' = p.
Proof.
  intros c size align s p i s' p' H. unfold alloc_act in H.
  apply bind_inv in H. destruct H as [n [_ H]]. apply bind_inv in H. destruct H as [bp [_ H]].
  apply bind_inv in H. destruct H as [sk [_ H]]. destruct (_ <=? n).
  - apply bind_inv in H. destruct H as [s2 [_ H]]. discriminate H.
  - apply bind_inv in H. destruct H as [m [_ H]]. injection H as <- <- _. auto.
Qed.

Lemma allocate_rounds : forall c fuel s size align ans x, allocate_impl c fuel s size align ans = Ok x ->
  exists k, (k <= Z.to_nat (reach c s))%nat /\ takes (fun n => allocate_impl c n s size align ans) k /\
    forall n, (k <= n)%nat -> allocate_impl c n s size align ans = Ok x.
Proof.
  intros c fuel s size align ans x H.
  assert (K : (forall n, allocate_impl c n s size align ans = Ok x) \/
    exists k, (k < Z.to_nat (reach c s))%nat /\
      (forall j, (j <= k)%nat -> allocate_impl c j s size align ans = Hang) /\
      (forall j, (k < j)%nat -> allocate_impl c j s size align ans = Ok x)).
  { unfold allocate_impl in *. destruct (size =? 0); [left; intros; exact H|].
    unfold cassert in *. destruct (DBG c && negb (is_power_of_2 align)) eqn:Q.
    { exfalso. destruct (DBG c), (is_power_of_2 align); cbn in *; discriminate. }
    assert (P : forall B (k : res B), (if DBG c then if is_power_of_2 align then k else Abort else k) = k).
    { intros B k. destruct (DBG c), (is_power_of_2 align); cbn in *; auto; discriminate. }
    rewrite P in H. clear Q.
    apply bind_inv in H. destruct H as [[s1 p] [E H]]. unfold search_buffer in *.
    destruct (data s =? 0); [left; intros n; rewrite P; rewrite E; exact H|].
    apply bind_inv in E. destruct E as [z [E1 E]]. apply bind_inv in E. destruct E as [a [E2 E]].
    apply bind_inv in E. destruct E as [m [E3 E]].
    destruct (align <=? m) eqn:L.
    - right. destruct (steady_rounds c (alloc_pred c) (alloc_act c size align) s 0
        (fun i s' a' => alloc_steady c size align s 0 i s' a') fuel 0 _ E) as [k [K1 [K2 K3]]].
      exists k. split; [exact K1|]. rewrite E1. cbn [bind]. rewrite E2. cbn [bind]. rewrite E3. cbn [bind]. rewrite L. split.
      + intros j J. rewrite P, K2 by exact J. reflexivity.
      + intros j J. rewrite P, K3 by exact J. exact H.
    - left. intros n. rewrite P, E1. cbn [bind]. rewrite E2. cbn [bind]. rewrite E3. cbn [bind]. rewrite L, E. exact H. }
  destruct K as [K|[k [K1 [K2 K3]]]].
  - exists 0%nat. split; [lia|]. split; [|auto]. split; [rewrite K; discriminate|intros j J; lia].
  - exists (S k). split; [lia|]. split; [|auto]. split; [rewrite K3 by lia; discriminate|intros j J; apply K2; lia].
Qed.

(** * release *)

Notation sweep c := (fun fuel s i => apply_loop fuel c (in_use c) (release_act c) s tt i).

(** past a free block *)
Definition skips (c : cfg) (s : state) (i : Z) : option Z :=
  match next_index c s i, in_use c s i with
  | Ok n, Ok false => if n =? 0 then None else Some n
  | _, _ => None
  end.

Lemma skips_on : forall c s i i' fuel, skips c s i = Some i' -> sweep c (S fuel) s i = sweep c fuel s i'.
Proof.
  intros c s i i' fuel H. unfold skips in H. cbn [apply_loop].
  destruct (next_index c s i) as [n| | |]; try discriminate H. cbn [bind].
  destruct (in_use c s i) as [[]| | |]; try discriminate H. cbn [bind].
  destruct (Z.eqb_spec n 0) as [Z0|Z0]; [discriminate H|]. injection H as <-. reflexivity.
Qed.

Lemma skips_walk : forall c s fuel i x, sweep c fuel s i = Ok x ->
  exists l j fuel', walk (skips c s) i l j /\ fuel = (length l + S fuel')%nat /\ sweep c (S fuel') s j = Ok x.
Proof.
  intros c s. induction fuel as [|fuel IH]; intros i x H; [discriminate H|].
  destruct (skips c s i) as [i'|] eqn:E.
  - cbv beta in H. pose proof (skips_on c s i i' fuel E) as Q. cbv beta in Q. rewrite Q in H. destruct (IH i' x H) as [l [j [f [W [F L]]]]].
    exists (i :: l), j, f. split; [econstructor; eauto|]. split; [cbn [length]; lia|exact L].
  - exists [], i, fuel. split; [constructor; exact E|]. split; [reflexivity|exact H].
Qed.
Lemma skips_rounds : forall c s i l j, walk (skips c s) i l j ->
  (forall k, (k <= length l)%nat -> sweep c k s i = Hang) /\ (forall k, sweep c (length l + k)%nat s i = sweep c k s j).
Proof.
  intros c s i l j H. induction H as [j E|i i' l j E H [IH1 IH2]].
  - split; [intros k K; cbn in K; replace k with 0%nat by lia; reflexivity|reflexivity].
  - split.
    + intros [|k] K; [reflexivity|]. cbn [length] in K. rewrite (skips_on _ _ _ _ k E). apply IH1. lia.
    + intros k. cbn [length]. change (S (length l) + k)%nat with (S (length l + k)).
      rewrite (skips_on _ _ _ _ (length l + k)%nat E). apply IH2.
Qed.
Lemma skips_length : forall c s i l j n, walk (skips c s) i l j -> next_index c s j = Ok n ->
  (S (length l) <= Z.to_nat (reach c s))%nat.
Proof.
  intros c s i l j n W L.
  assert (R : (length (l ++ [j]) <= Z.to_nat (reach c s))%nat).
  { apply room_for; [eapply walk_once; eauto|]. intros y Y. apply in_app_iff in Y. destruct Y as [Y|[<-|[]]].
    - clear -W Y. induction W as [j E|i i' l j E W IH]; [destruct Y|].
      destruct Y as [<-|Y]; [|auto]. unfold skips in E. destruct (next_index c s i) as [n| | |] eqn:N; try discriminate E.
      apply (next_index_reach _ _ _ _ N).
    - apply (next_index_reach _ _ _ _ L). }
  rewrite app_length in R. cbn in R. lia.
Qed.

Lemma deallocate_blocks_flag : forall c s i s' m, deallocate_blocks c s i = Ok (s', m) ->
  inuse s i = true /\ (forall j, inuse s' j = if j =? i then false else inuse s j) /\ same_place s s'.
Proof.
  intros c s i s' m H. unfold deallocate_blocks, in_use, reset_in_use in H. inv_ok. subst.
  unfold merge_adjacent_blocks in H. inv_ok.
  repeat match goal with H : merge_if_both_not_in_use _ _ _ _ = Ok _ |- _ => apply merge_quiet in H end.
  assert (Q : quiet c (with_freec (with_busyc (with_inuse s (upd (inuse s) i false)) (dec (busyc s))) (inc (freec s))) s') by chase.
  destruct Q as [[P1 [P2 P3]] [Q1 [Q2 Q3]]].
  cbn [data bc has_up inuse busyc with_inuse with_busyc with_freec] in *.
  split; [apply negb_false_iff; auto|]. split; [|repeat split; auto]. intros j. rewrite Q1. reflexivity.
Qed.

Lemma number_less : forall f g i n, (forall j, g j = if j =? i then false else f j) -> f i = true -> 0 <= i < n ->
  (number g n < number f n)%nat.
Proof.
  intros f g i n H F I. apply indices_in in I. unfold number. revert I. generalize (indices n). intros l.
  assert (L : forall l : list Z, (length (filter g l) <= length (filter f l))%nat).
  { induction l0 as [|x l0 IH]; cbn [filter length]; [lia|]. rewrite (H x). destruct (Z.eqb_spec x i) as [->|E].
    - rewrite F. cbn [length]. lia.
    - destruct (f x); cbn [length]; lia. }
  induction l as [|x l IH]; intros I; [destruct I|]. cbn [filter]. rewrite (H x). destruct (Z.eqb_spec x i) as [->|E].
  - rewrite F. cbn [length]. specialize (L l). lia.
  - destruct I as [I|I]; [contradiction|]. specialize (IH I). destruct (f x); cbn [length]; lia.
Qed.

Lemma sweep_rounds : forall c m s i fuel x, (number (inuse s) (reach c s) <= m)%nat -> sweep c fuel s i = Ok x ->
  exists k, (k <= m * Z.to_nat (reach c s) + Z.to_nat (reach c s))%nat /\
    (forall j, (j < k)%nat -> sweep c j s i = Hang) /\ (forall j, (k <= j)%nat -> sweep c j s i = Ok x).
Proof.
  intros c. induction m as [|m IH]; intros s i fuel x M H;
  destruct (skips_walk c s fuel i x H) as [l [j [f [W [F E]]]]]; clear H F;
  destruct (skips_rounds c s i l j W) as [R1 R2]; pose proof (walk_last _ _ _ _ W) as SJ; unfold skips in SJ.
  all: cbn [apply_loop] in E; destruct (next_index c s j) as [n| | |] eqn:N; try discriminate E; cbn [bind] in E.
  all: pose proof (skips_length c s i l j n W N) as LL.
  all: destruct (in_use c s j) as [[]| | |] eqn:U; try discriminate E; cbn [bind] in E.
  all: try (destruct (Z.eqb_spec n 0) as [Z0|Z0]; [|discriminate SJ]; injection E as <-; exists (S (length l));
    (split; [nia|]); split; [intros k K; apply R1; lia|];
    intros k K; replace k with (length l + S (k - S (length l)))%nat by lia; rewrite R2; cbn [apply_loop];
    rewrite N; cbn [bind]; rewrite U; cbn [bind]; rewrite Z0; reflexivity).
  - exfalso. apply bind_inv in E. destruct E as [[[s3 a3] r3] [E2 _]].
    apply bind_inv in E2. destruct E2 as [[[s4 a4] r4] [E2 _]]. unfold release_act in E2. apply bind_inv in E2.
    destruct E2 as [[s5 p] [E3 _]]. destruct (deallocate_blocks_flag _ _ _ _ _ E3) as [T _].
    destruct (next_index_reach _ _ _ _ N) as [J _].
    pose proof (number_less (inuse s) (fun y => if y =? j then false else inuse s y) j (reach c s) (fun y => eq_refl) T J). lia.
  - apply bind_inv in E. destruct E as [[[s3 a3] r3] [E2 E]].
    apply bind_inv in E2. destruct E2 as [[[s4 a4] r4] [E2 Q]]. injection Q as -> -> <-.
    pose proof E2 as E2'. unfold release_act in E2. apply bind_inv in E2.
    destruct E2 as [[s5 p] [E3 E4]]. apply bind_inv in E4. destruct E4 as [q [_ E4]]. injection E4 as -> <- <-.
    destruct (deallocate_blocks_flag _ _ _ _ _ E3) as [T [G [P1 [P2 P3]]]].
    destruct (next_index_reach _ _ _ _ N) as [J _].
    pose proof (number_less (inuse s) (inuse s3) j (reach c s) G T J) as LS.
    assert (RE : reach c s3 = reach c s) by (unfold reach; rewrite P2; reflexivity).
    assert (ONE : forall k, sweep c (S k) s j = if of_bool (negb (q =? 0)) =? 0 then Ok (s3, tt) else sweep c k s3 (of_bool (negb (q =? 0)))).
    { intros k. cbn [apply_loop]. rewrite N. cbn [bind]. rewrite U. cbn [bind]. rewrite E2'. cbn [bind]. reflexivity. }
    destruct (of_bool (negb (q =? 0)) =? 0) eqn:B.
    + injection E as <-. exists (S (length l)). split; [nia|]. split; [intros k K; apply R1; lia|].
      intros k K. replace k with (length l + S (k - S (length l)))%nat by lia. rewrite R2, ONE. reflexivity.
    + destruct (IH s3 _ f x ltac:(rewrite RE; lia) E) as [k [K1 [K2 K3]]]. rewrite RE in K1.
      exists (S (length l) + k)%nat. split; [nia|]. split.
      * intros k' K'. destruct (le_lt_dec k' (length l)) as [Y|Y]; [apply R1; lia|].
        replace k' with (length l + S (k' - S (length l)))%nat by lia. rewrite R2, ONE. apply K2. lia.
      * intros k' K'. replace k' with (length l + S (k' - S (length l)))%nat by lia. rewrite R2, ONE. apply K3. lia.
Qed.

Lemma release_rounds : forall c fuel s s', release c fuel s = Ok s' ->
  exists k, (k <= (number (inuse s) (reach c s) + 1) * Z.to_nat (reach c s))%nat /\
    takes (fun n => release c n s) k /\ forall n, (k <= n)%nat -> release c n s = Ok s'.
Proof.
  intros c fuel s s' H. unfold release in H. apply bind_inv in H. destruct H as [[s1 u] [E Q]]. injection Q as ->.
  destruct (sweep_rounds c _ s 0 fuel _ (le_n _) E) as [k [K1 [K2 K3]]]. exists k. split; [lia|].
  assert (R : forall n, (k <= n)%nat -> release c n s = Ok s') by (intros n L; unfold release; rewrite K3 by exact L; reflexivity).
  split; [|exact R]. split; [rewrite R by lia; discriminate|]. intros j J. unfold release. rewrite K2 by exact J. reflexivity.
Qed.

(** ** A full pool of single blocks *)

Lemma full_tiling : forall n rs a, contiguous n a rs -> Z.of_nat (length (busy rs)) <= n - a /\
  (Z.of_nat (length (busy rs)) = n - a -> forall r, In r rs -> rbusy r = true /\ rlen r = 1).
Proof.
  intros n. induction rs as [|x rs IH]; intros a C; cbn [contiguous] in C.
  - cbn. split; [lia|]. intros _ r [].
  - destruct C as [C1 [C2 C3]]. destruct (IH _ C3) as [L F]. unfold busy in *. cbn [filter].
    destruct (rbusy x) eqn:B; cbn [length]; (split; [lia|]); intros E r I; [|lia].
    destruct I as [<-|I]; [split; [exact B|lia]|apply F; auto; lia].
Qed.

Lemma full_tiles : forall nx pv us n rs p a, tiles nx pv us n p a rs ->
  (forall r, In r rs -> rbusy r = true /\ rlen r = 1) ->
  forall j, a <= j < n -> us j = true /\ nx j = link n (j + 1) /\ pv j = if j =? a then p else j - 1.
Proof.
  intros nx pv us n. induction rs as [|x rs IH]; intros p a T F j J; cbn [tiles] in T; [lia|].
  destruct T as [T1 [T2 [T3 [T4 [T5 [T6 T7]]]]]]. destruct (F x ltac:(left; auto)) as [B L].
  destruct (Z.eqb_spec j a) as [->|NE].
  - rewrite T6, T5, T4, B, L. auto.
  - rewrite L in T7. destruct (IH _ _ T7 (fun r I => F r (or_intror I)) j ltac:(lia)) as [U [N P]].
    split; [exact U|]. split; [exact N|]. rewrite P. destruct (Z.eqb_spec j (a + 1)); [lia|reflexivity].
Qed.

(** the blocks below [k] of a full pool have been given back, one after the other *)
Record drained (c : cfg) (n k : Z) (s : state) : Prop := {
  dr_bc : bc s = n;
  dr_mb : n <= MB c;
  dr_use : forall j, 0 <= j < n -> inuse s j = (k <=? j);
  dr_nxt : forall j, 1 <= j < n -> nxt s j = link n (j + 1);
  dr_nxt0 : nxt s 0 = link n k;
  dr_prv : forall j, 0 < j < n -> k <= j -> prv s j = if j =? k then 0 else j - 1;
  dr_prv0 : prv s 0 = 0;
  dr_busy : busyc s = n - k;
  dr_free : freec s = 1
}.

Lemma deallocate_blocks_start : forall c s i n, bc s = n -> n <= MB c -> 0 <= i < n -> n < 2 ^ 64 -> inuse s i = true ->
  0 < busyc s <= n -> 0 <= freec s <= 1 ->
  deallocate_blocks c s i = merge_adjacent_blocks c
    (with_freec (with_busyc (with_inuse s (upd (inuse s) i false)) (busyc s - 1)) (freec s + 1)) i.
Proof.
  intros c s i n B M I N U BU FR. unfold deallocate_blocks. rewrite ltb_true by lia. rewrite cassert_true.
  rewrite in_use_ok by lia. cbn [bind]. rewrite U. cbn [negb abort_when].
  rewrite reset_in_use_ok by lia. cbn [bind with_inuse busyc]. rewrite ltb_true by lia. rewrite cassert_true.
  cbn [freec with_busyc with_inuse]. rewrite ltb_true by lia. rewrite cassert_true.
  unfold inc, dec, wrap. rewrite !Z.mod_small by lia. reflexivity.
Qed.

Lemma drained_first : forall c n s, 2 <= n < 2 ^ 64 -> bc s = n -> n <= MB c ->
  (forall j, 0 <= j < n -> inuse s j = true /\ nxt s j = link n (j + 1) /\ prv s j = if j =? 0 then 0 else j - 1) ->
  busyc s = n -> freec s = 0 ->
  exists s', deallocate_blocks c s 0 = Ok (s', 0) /\ drained c n 1 s'.
Proof.
  intros c n s N B M F BU FR.
  destruct (F 0 ltac:(lia)) as [U0 [N0 P0]]. destruct (F 1 ltac:(lia)) as [U1 [N1 P1]].
  assert (L1 : link n (0 + 1) = 1) by (unfold link; destruct (Z.eqb_spec (0 + 1) n); lia).
  rewrite L1 in N0. cbn [Z.eqb] in P0.
  rewrite (deallocate_blocks_start c s 0 n) by (auto; lia).
  set (s1 := with_freec (with_busyc (with_inuse s (upd (inuse s) 0 false)) (busyc s - 1)) (freec s + 1)).
  assert (B1 : bc s1 = n) by exact B.
  exists s1. split.
  - unfold merge_adjacent_blocks. rewrite prev_index_ok by lia. cbn [bind].
    rewrite in_use_ok by lia. replace (inuse s1 0) with false by reflexivity.
    replace (if DBG c then Ok false else Ok false) with (@Ok bool false) by (destruct (DBG c); reflexivity).
    cbn [bind negb]. rewrite cassert_true. replace (prv s1 0) with 0 by (symmetry; exact P0).
    unfold merge_if_both_not_in_use at 1. cbn [Z.eqb orb bind].
    rewrite next_index_ok by lia. cbn [bind]. replace (nxt s1 0) with 1 by (symmetry; exact N0).
    unfold merge_if_both_not_in_use. cbn [Z.eqb orb]. rewrite ltb_true by lia. rewrite cassert_true.
    rewrite !in_use_ok by lia. cbn [bind]. replace (inuse s1 0) with false by reflexivity.
    rewrite andb_false_r. cbn [bind negb orb]. rewrite cassert_true.
    replace (inuse s1 1) with true by (symmetry; exact U1). cbn [bind]. reflexivity.
  - constructor; cbn [bc inuse nxt prv busyc freec s1 with_freec with_busyc with_inuse]; auto; try lia.
    + intros j J. destruct (Z.eqb_spec j 0) as [->|NE]; [rewrite upd_same; reflexivity|].
      rewrite upd_other by auto. destruct (F j J) as [-> _]. destruct (Z.leb_spec 1 j); lia.
    + intros j J. apply (F j). lia.
    + rewrite N0. unfold link. destruct (Z.eqb_spec 1 n); lia.
    + intros j J K. destruct (F j ltac:(lia)) as [_ [_ ->]]. destruct (Z.eqb_spec j 0); [lia|].
      destruct (Z.eqb_spec j 1); lia.
Qed.

Lemma drained_step : forall c n k s, 2 <= n < 2 ^ 64 -> 1 <= k < n -> drained c n k s ->
  exists s', deallocate_blocks c s k = Ok (s', 0) /\ drained c n (k + 1) s'.
Proof.
  intros c n k s N K [B M U NX N0 P P0 BU FR].
  assert (UK : inuse s k = true) by (rewrite U by lia; apply Z.leb_refl).
  assert (UZ : inuse s 0 = false) by (rewrite U by lia; apply Z.leb_gt; lia).
  assert (PK : prv s k = 0) by (rewrite P by lia; rewrite Z.eqb_refl; reflexivity).
  assert (NK := NX k K). assert (LB := link_bounds n (k + 1) ltac:(lia)).
  rewrite (deallocate_blocks_start c s k n) by (auto; lia). rewrite FR.
  set (s1 := with_freec (with_busyc (with_inuse s (upd (inuse s) k false)) (busyc s - 1)) (1 + 1)).
  assert (B1 : bc s1 = n) by exact B.
  assert (UK1 : inuse s1 k = false) by apply upd_same.
  assert (UZ1 : inuse s1 0 = false) by (cbn; rewrite upd_other by lia; exact UZ).
  set (m := link n (k + 1)) in *.
  set (s2 := with_prv s1 (upd (prv s1) m 0)).
  set (s3 := with_nxt s2 (upd (nxt s2) 0 m)).
  set (s4 := with_freec s3 1).
  assert (B4 : bc s4 = n) by exact B.
  assert (MM : m <> k) by (subst m; unfold link; destruct (Z.eqb_spec (k + 1) n); lia).
  exists s4. split.
  - unfold merge_adjacent_blocks. rewrite prev_index_ok by lia. cbn [bind].
    rewrite in_use_ok by lia. rewrite UK1.
    replace (if DBG c then Ok false else Ok false) with (@Ok bool false) by (destruct (DBG c); reflexivity).
    cbn [bind negb]. rewrite cassert_true. replace (prv s1 k) with 0 by (symmetry; exact PK).
    unfold merge_if_both_not_in_use at 1. rewrite (eqb_false 0 k) by lia.
    rewrite (eqb_false k 0) by lia. cbn [orb]. rewrite ltb_true by lia. rewrite cassert_true.
    rewrite !in_use_ok by lia. cbn [bind]. rewrite UZ1, UK1, andb_false_r. cbn [bind negb orb]. rewrite cassert_true.
    cbn [bind]. replace (freec s1) with 2 by reflexivity. rewrite ltb_true by lia. rewrite cassert_true.
    rewrite next_index_ok by lia. cbn [bind]. replace (nxt s1 k) with m by (symmetry; exact NK).
    rewrite set_prev_write by (auto; lia). cbn [bind]. fold s2.
    assert (B2 : bc s2 = n) by exact B. rewrite next_index_ok by lia. cbn [bind].
    replace (nxt s2 k) with m by (symmetry; exact NK).
    rewrite set_next_write by lia. cbn [bind]. fold s3. replace (freec s3) with 2 by reflexivity.
    replace (dec 2) with 1 by reflexivity. fold s4. cbn [bind].
    rewrite next_index_ok by lia. cbn [bind].
    replace (nxt s4 k) with m by (cbn; rewrite upd_other by lia; symmetry; exact NK).
    unfold merge_if_both_not_in_use. destruct (Z.eqb_spec m 0) as [E|E]; [rewrite orb_true_r; reflexivity|].
    rewrite eqb_false by lia. cbn [orb]. rewrite ltb_true by lia. rewrite cassert_true.
    rewrite !in_use_ok by lia. cbn [bind]. change (inuse s4) with (inuse s1). rewrite UZ1, andb_false_r.
    cbn [bind negb orb]. rewrite cassert_true.
    assert (UM : inuse s1 m = true).
    { cbn. rewrite upd_other by auto. rewrite U by lia. apply Z.leb_le. subst m. unfold link in *. destruct (Z.eqb_spec (k + 1) n); lia. }
    rewrite UM. reflexivity.
  - constructor; cbn [bc inuse nxt prv busyc freec s1 s2 s3 s4 with_freec with_busyc with_inuse with_nxt with_prv]; auto; try lia.
    + intros j J. destruct (Z.eqb_spec j k) as [->|NE]; [rewrite upd_same; symmetry; apply Z.leb_gt; lia|].
      rewrite upd_other by auto. rewrite U by lia. destruct (Z.leb_spec k j); destruct (Z.leb_spec (k + 1) j); lia.
    + intros j J. rewrite upd_other by lia. apply NX. lia.
    + intros j J L. assert (m = k + 1) by (subst m; unfold link; destruct (Z.eqb_spec (k + 1) n); lia).
      destruct (Z.eqb_spec j (k + 1)) as [->|NE]; [rewrite H, upd_same; reflexivity|].
      rewrite upd_other by lia. rewrite P by lia. rewrite eqb_false by lia. reflexivity.
    + destruct (Z.eqb_spec m 0) as [->|E]; [apply upd_same|rewrite upd_other by auto; exact P0].
Qed.

(** from block 1 past the free blocks to the first busy one *)
Lemma drained_skip : forall c n k s, drained c n k s -> n < 2 ^ 64 -> forall i, 1 <= i <= k -> k < n ->
  forall fuel : nat, sweep c (Z.to_nat (k - i) + fuel)%nat s i = sweep c fuel s k /\
    forall f, (f <= Z.to_nat (k - i))%nat -> sweep c f s i = Hang.
Proof.
  intros c n k s [B M U NX N0 P P0 BU FR] N i I K fuel.
  remember (Z.to_nat (k - i)) as d eqn:D. revert i I D. induction d as [|d IH]; intros i I D.
  - replace i with k by lia. split; [reflexivity|]. intros f F. replace f with 0%nat by lia. reflexivity.
  - assert (SK : skips c s i = Some (i + 1)).
    { unfold skips. rewrite next_index_ok, in_use_ok by lia. rewrite U by lia.
      replace (k <=? i) with false by (symmetry; apply Z.leb_gt; lia).
      rewrite NX by lia. unfold link. rewrite (eqb_false (i + 1) n) by lia. rewrite eqb_false by lia. reflexivity. }
    destruct (IH (i + 1) ltac:(lia) ltac:(lia)) as [E H]. split.
    + cbn [plus]. rewrite (skips_on _ _ _ _ _ SK). exact E.
    + intros [|f] F; [reflexivity|]. rewrite (skips_on _ _ _ _ _ SK). apply H. lia.
Qed.

Lemma drained_free : forall c n k s, drained c n k s -> 2 <= n < 2 ^ 64 -> 1 <= k < n ->
  exists s', drained c n (k + 1) s' /\
    forall fuel, sweep c (S fuel) s k = if k + 1 =? n then Ok (s', tt) else sweep c fuel s' 1.
Proof.
  intros c n k s D N K. destruct (drained_step c n k s N K D) as [s' [E D']]. exists s'. split; [exact D'|].
  intros fuel. destruct D as [B M U NX N0 P P0 BU FR]. destruct D' as [B' M' U' NX' N0' P' P0' BU' FR'].
  cbn [apply_loop]. rewrite next_index_ok, in_use_ok by lia. cbn [bind].
  rewrite U by lia. rewrite Z.leb_refl. unfold release_act. rewrite E. cbn [bind].
  rewrite next_index_ok by lia. cbn [bind]. rewrite N0'. unfold link.
  destruct (Z.eqb_spec (k + 1) n) as [Q|Q]; [reflexivity|]. rewrite (eqb_false (k + 1) 0) by lia. reflexivity.
Qed.

(** all the rounds from the moment [k] blocks are free *)
Fixpoint rounds (d k : nat) : nat := match d with O => O | S d' => (k + rounds d' (S k))%nat end.

Lemma drained_rounds : forall c n d k s, drained c n (Z.of_nat k) s -> 2 <= n < 2 ^ 64 -> (1 <= k)%nat ->
  Z.of_nat k + Z.of_nat d = n -> (0 < d)%nat ->
  (exists x, forall f, (rounds d k <= f)%nat -> sweep c f s 1 = Ok x) /\
  forall f, (f < rounds d k)%nat -> sweep c f s 1 = Hang.
Proof.
  intros c n. induction d as [|d IH]; intros k s D N K E0 DP; [lia|].
  destruct (drained_skip c n _ s D ltac:(lia) 1 ltac:(lia) ltac:(lia) 0%nat) as [_ SH].
  assert (SK := fun fuel => proj1 (drained_skip c n _ s D ltac:(lia) 1 ltac:(lia) ltac:(lia) fuel)).
  replace (Z.to_nat (Z.of_nat k - 1)) with (k - 1)%nat in * by lia.
  destruct (drained_free c n _ s D N ltac:(lia)) as [s' [D' ST]].
  replace (Z.of_nat k + 1) with (Z.of_nat (S k)) in * by lia.
  cbn [rounds]. destruct (Z.eqb_spec (Z.of_nat (S k)) n) as [Q|Q].
  - assert (d = 0%nat) as -> by lia. cbn [rounds]. split.
    + exists (s', tt). intros f F. replace f with (k - 1 + S (f - k))%nat by lia. rewrite SK, ST. reflexivity.
    + intros f F. apply SH. lia.
  - destruct (IH (S k) s' D' N ltac:(lia) ltac:(lia) ltac:(lia)) as [[x X] H]. split.
    + exists x. intros f F. replace f with (k - 1 + S (f - k))%nat by lia. rewrite SK, ST. apply X. lia.
    + intros f F. destruct (le_lt_dec f (k - 1)) as [L|L]; [apply SH; lia|].
      replace f with (k - 1 + S (f - k))%nat by lia. rewrite SK, ST. apply H. lia.
Qed.

Lemma rounds_sum : forall d k, (2 * rounds d k = d * (2 * k + d) - d)%nat.
Proof.
  induction d as [|d IH]; intros k; [reflexivity|]. cbn [rounds]. specialize (IH (S k)).
  assert (d <= d * (2 * S k + d))%nat by nia. nia.
Qed.

Lemma full_release : forall c s rs, cfg_ok c -> wf c s rs -> busyc s = bc s -> 2 <= bc s ->
  takes (fun f => release c f s) (1 + Z.to_nat (bc s * (bc s - 1) / 2)).
Proof.
  intros c s rs HC W BU N.
  assert (G := wf_geom _ _ _ W). destruct G as [G1 G2 G3 G4 G5].
  assert (MBR := mb_range _ HC). assert (T := wf_tiles _ _ _ W).
  destruct (full_tiling (bc s) rs 0) as [_ FT].
  { apply (wf_tiling _ _ _ W). }
  rewrite <- (wf_busy _ _ _ W) in FT. specialize (FT ltac:(lia)).
  assert (F := full_tiles _ _ _ _ _ _ _ T FT).
  assert (FR : freec s = 0).
  { rewrite (wf_free _ _ _ W). clear -FT. induction rs as [|x rs IH]; [reflexivity|]. unfold free in *. cbn [filter].
    rewrite (proj1 (FT x ltac:(left; auto))). cbn [negb]. apply IH. intros r I. apply FT. right; auto. }
  destruct (drained_first c (bc s) s ltac:(lia) eq_refl ltac:(lia) F BU FR) as [s1 [E D]].
  assert (ONE : forall f, sweep c (S f) s 0 = sweep c f s1 1).
  { intros f. destruct D as [B M U NX N0 P P0 BU1 FR1]. cbn [apply_loop]. rewrite next_index_ok, in_use_ok by lia. cbn [bind].
    rewrite (proj1 (F 0 ltac:(lia))). unfold release_act. rewrite E. cbn [bind]. rewrite next_index_ok by lia. cbn [bind].
    rewrite N0. unfold link. rewrite (eqb_false 1 (bc s)) by lia. reflexivity. }
  destruct (drained_rounds c (bc s) (Z.to_nat (bc s) - 1) 1 s1 D ltac:(lia) ltac:(lia) ltac:(lia) ltac:(lia)) as [[x X] H].
  assert (R : rounds (Z.to_nat (bc s) - 1) 1 = Z.to_nat (bc s * (bc s - 1) / 2)).
  { pose proof (rounds_sum (Z.to_nat (bc s) - 1) 1) as S2. set (r := rounds _ _) in *.
    assert (bc s * (bc s - 1) = Z.of_nat r * 2).
    { set (m := (Z.to_nat (bc s) - 1)%nat) in *. assert (bc s = Z.of_nat m + 1) by lia. rewrite H0.
      assert (2 * r = m * (m + 1))%nat by nia. nia. }
    rewrite H0, Z.div_mul by lia. lia. }
  rewrite R in *. split.
  - unfold release. cbn [plus]. cbv beta in ONE. rewrite ONE. rewrite X by lia. cbn [bind]. destruct x. discriminate.
  - intros [|j] J; [reflexivity|]. unfold release. cbv beta in ONE. rewrite ONE, H by lia. reflexivity.
Qed.

(** ** One request of one byte after the other fills the pool *)

Lemma all_busy_length : forall n rs a, contiguous n a rs ->
  (forall r, In r rs -> rbusy r = true /\ rlen r = 1) -> Z.of_nat (length (busy rs)) = n - a.
Proof.
  intros n. induction rs as [|x rs IH]; intros a C F; cbn [contiguous] in C; [cbn; lia|].
  destruct C as [C1 [C2 C3]]. destruct (F x ltac:(left; auto)) as [B L]. unfold busy in *. cbn [filter]. rewrite B. cbn [length].
  specialize (IH _ C3 (fun r I => F r (or_intror I))). lia.
Qed.

Lemma contiguous_positive : forall n rs a, contiguous n a rs -> forall r, In r rs -> 0 < rlen r.
Proof.
  intros n. induction rs as [|x rs IH]; intros a C r I; [destruct I|]. cbn [contiguous] in C. destruct C as [C1 [C2 C3]].
  destruct I as [<-|I]; [exact C2|eapply IH; eauto].
Qed.

Definition one_byte : op := OAllocate 1 1 (fun _ _ => 0).

Lemma one_byte_step : forall d b n up rs rs' e, 0 < b -> pool_inv n 1 rs -> spec_step d b n up rs one_byte rs' e ->
  Z.min n (Z.of_nat (length (busy rs)) + 1) <= Z.of_nat (length (busy rs')).
Proof.
  intros d b n up rs rs' e B [[C K] P] S.
  assert (NF : nothing_fits d b rs 1 1 -> Z.of_nat (length (busy rs)) = n).
  { intros NF. replace n with (n - 0) by lia. apply all_busy_length; auto. intros r I. destruct (rbusy r) eqn:E.
    - split; auto. apply P; auto.
    - exfalso. apply (NF r I E). exists (region_addr d b r). split; [lia|]. split; [apply Z.divide_1_l|].
      assert (R := contiguous_positive _ _ _ C r I). nia. }
  inversion S; subst.
  - match goal with H : first_fit _ _ _ _ _ _ _ _ |- _ => destruct H as [E [F [CH NL]]] end.
    match goal with H : busy rs' = _ |- _ => rewrite H end. rewrite E. unfold busy. rewrite !filter_app. cbn [filter]. rewrite F.
    rewrite !app_length. cbn [length]. lia.
  - rewrite NF by assumption. lia.
  - rewrite NF by assumption. lia.
Qed.

Lemma one_byte_valid : forall d b n up rs, 1 < b -> valid_op d b n up true (pool_request b 1) any_order rs one_byte.
Proof.
  intros d b n up rs B. right. split; [lia|]. split; [exists 0; split; [lia|reflexivity]|]. split; [unfold pool_request; lia|].
  intros _. split; [lia|apply Z.divide_0_r].
Qed.

Lemma one_byte_client : forall d b n up m rs, 1 < b ->
  valid_client d b n up true (pool_request b 1) any_order rs (repeat one_byte m).
Proof.
  intros d b n up m. induction m as [|m IH]; intros rs B; cbn [repeat valid_client]; [exact I|].
  split; [apply one_byte_valid; exact B|]. intros rs' e S. apply IH. exact B.
Qed.

Lemma one_byte_fills : forall d b n up, 0 < d -> 1 < b -> pow2 b -> (b | d) -> 1 <= n -> forall m rs rs' es, pool_inv n 1 rs ->
  spec_run d b n up rs (repeat one_byte m) rs' es ->
  Z.min n (Z.of_nat (length (busy rs)) + Z.of_nat m) <= Z.of_nat (length (busy rs')).
Proof.
  intros d b n up D B PB DV N. induction m as [|m IH]; intros rs rs' es P R; cbn [repeat] in R; inversion R; subst; [lia|].
  assert (P1 : pool_inv n 1 rs1).
  { eapply (pool_step d b n up true 1 rs one_byte rs1 e); auto; try lia. apply one_byte_valid. exact B. }
  match goal with H : spec_run _ _ _ _ rs1 _ _ _ |- _ => specialize (IH _ _ _ P1 H) end.
  match goal with H : spec_step _ _ _ _ _ _ _ _ |- _ => pose proof (one_byte_step d b n up rs rs1 e ltac:(lia) P H) end. lia.
Qed.

Lemma full_pool : forall c buffer size up s fuel, made c buffer size up s -> (enough (bc s) <= fuel)%nat ->
  1 < BS c -> 2 * BS c <= 2 ^ 64 ->
  exists s' es, run c fuel s (repeat one_byte (Z.to_nat (bc s))) = Ok (s', es) /\ busyc s' = bc s.
Proof.
  intros c buffer size up s fuel M F B1 B2.
  destruct (single_block_history c buffer size up s fuel (repeat one_byte (Z.to_nat (bc s))) M F B2) as [s' [rs [es [R [W [[P1 [P2 P3]] [SR [LI [PI L]]]]]]]]].
  { apply one_byte_client. exact B1. }
  destruct (made_wf _ _ _ _ _ M) as [HC [_ [U [_ [O [D [B [PB [DV N]]]]]]]]].
  exists s', es. split; [exact R|]. rewrite (wf_busy _ _ _ W).
  pose proof (one_byte_fills _ _ _ _ D B1 PB DV N _ _ _ _ (pool_start _ 1 N) SR) as X. cbn [busy filter rbusy length] in X.
  destruct PI as [[C K] _]. destruct (full_tiling _ _ _ C) as [Y _]. lia.
Qed.

Lemma pool_release_rounds : forall c buffer size up s fuel ops s' es, made c buffer size up s ->
  (enough (bc s) <= fuel)%nat -> 2 * BS c <= 2 ^ 64 -> single_block_client (data s) (BS c) (bc s) up ops ->
  run c fuel s ops = Ok (s', es) -> busyc s' = bc s -> 2 <= bc s ->
  takes (fun f => release c f s') (1 + Z.to_nat (bc s * (bc s - 1) / 2)).
Proof.
  intros c buffer size up s fuel ops s' es M F B2 V R E N.
  destruct (single_block_history c buffer size up s fuel ops M F B2 V) as [s2 [rs [es2 [R2 [W [[P1 [P2 P3]] _]]]]]].
  rewrite R in R2. injection R2 as <- <-. destruct (made_wf _ _ _ _ _ M) as [HC _].
  rewrite <- P2 in *. apply (full_release c s' rs); auto.
Qed.

Lemma release_quadratic : forall c buffer size up s fuel, made c buffer size up s -> (enough (bc s) <= fuel)%nat ->
  1 < BS c -> 2 * BS c <= 2 ^ 64 -> 2 <= bc s ->
  exists s' es, run c fuel s (repeat one_byte (Z.to_nat (bc s))) = Ok (s', es) /\ busyc s' = bc s /\
    takes (fun f => release c f s') (1 + Z.to_nat (bc s * (bc s - 1) / 2)).
Proof.
  intros c buffer size up s fuel M F B1 B2 N. destruct (full_pool c buffer size up s fuel M F B1 B2) as [s' [es [R E]]].
  exists s', es. split; [exact R|]. split; [exact E|].
  eapply pool_release_rounds with (6 := E); eauto. apply one_byte_client. exact B1.
Qed.
