(** Lemmas about allocators and the default resource. *)

Require Import ZArith List Bool Lia Permutation.
Require Import Verif.Outcome Verif.Machine Verif.BitsSpec Verif.SimpleSpec Verif.SimpleHistProofs
  Verif.MonoSpec Verif.MonoModel Verif.AllocSpec Verif.AllocModel Verif.AllocView Verif.AllocProofs
  Verif.AllocStackProofs.
Import ListNotations.
Open Scope Z_scope.

(** * Objects *)

Lemma remove_one_perm : forall p l, In p l -> Permutation l (p :: remove_one p l).
Proof.
  intros p. induction l as [|q l IH]; intros I; [destruct I|]. cbn [remove_one].
  destruct (Z.eqb_spec q p) as [->|N]; [reflexivity|]. destruct I as [E|I]; [contradiction|].
  rewrite (IH I) at 1. apply perm_swap.
Qed.

Section Objects.
  Variables (R : resource) (s0 : rstate R) (ok : Z -> Z -> Prop) (mem : Z -> Prop).
  Hypothesis S : safe R s0 ok mem.
  Hypothesis Pos : forall size align, ok size align -> 0 < size < 2 ^ 64.

  (** storage [st] and objects [ob] in state [s] *)
  Definition oinv (s : rstate R) (st : list alloc) (ob : list Z) : Prop :=
    exists tr, reach R s0 ok s tr /\ owned tr = st /\ positive st /\ Permutation (map fst st) ob.

  Lemma oinv_nodup : forall s st ob, oinv s st ob ->
    NoDup (map fst st) /\ NoDup ob /\ pairwise_disjoint st /\ (forall p, In p ob -> 0 < p).
  Proof.
    intros s st ob [tr [H1 [<- [H3 H4]]]]. destruct (reach_good _ _ _ _ _ _ S H1) as [G1 _ G3 _].
    assert (N : NoDup (map fst (owned tr))) by (apply pd_nodup; auto).
    split; [exact N|]. split; [apply (Permutation_NoDup H4 N)|]. split; [exact G1|].
    intros p I. apply (Permutation_in _ (Permutation_sym H4)) in I. apply in_map_iff in I. destruct I as [a [<- I]].
    apply (G3 a I).
  Qed.

  Lemma obj_new : forall s st ob size align, oinv s st ob -> ok size align ->
    exists s' acts, obj_step R s (New size align) = Ok (s', acts) /\
      proper_life st ob acts /\ oinv s' (fold_left storage_after acts st) (fold_left alive_after acts ob) /\
      (length (constructions acts) + length ob = length (destructions acts) + length (fold_left alive_after acts ob))%nat /\
      (forall sz al p, In (AAsk sz al p) acts -> p <> 0 -> (al | p)).
  Proof.
    intros s st ob size align I K. assert (K1 := Pos _ _ K).
    destruct (oinv_nodup s st ob I) as [N1 [N2 [DJ PO]]].
    destruct I as [tr [H1 [H2 [H3 H4]]]].
    destruct (reach_step R s0 ok mem s tr (Ask size align) S H1 K) as [s' [r [E [Q R']]]].
    cbn [res_step] in E. apply bind_ok in E. destruct E as [[s1 p] [E1 E2]]. injection E2 as <- <-.
    cbn [obj_step new_object]. unfold new_object, allocate_count. rewrite Z.mul_1_l.
    unfold wrap. rewrite Z.mod_small by lia. rewrite E1. cbn [bind].
    eexists _, _. split; [reflexivity|]. destruct (Z.eqb_spec p 0) as [->|Np].
    - cbn [fold_left storage_after alive_after Z.eqb proper_life constructions destructions filter length].
      split; [split; [|exact Logic.I]|].
      { intros J. specialize (PO 0 J). lia. }
      split; [exists (tr ++ [Got size align 0]); split; [exact R'|]; rewrite owned_app; cbn; auto|]. split; [lia|].
      intros sz al p [Ep|[]] Np. injection Ep as <- <- <-. contradiction Np. reflexivity.
    - assert (G := reach_good _ _ _ _ _ _ S R').
      assert (PP : positive ((p, size) :: st)) by (intros a [<-|J]; [cbn; lia|apply H3; auto]).
      assert (OW : owned (tr ++ [Got size align p]) = (p, size) :: st).
      { rewrite owned_app. cbn [owned_after]. rewrite eqb_false by auto. rewrite H2. reflexivity. }
      assert (ND : NoDup (map fst ((p, size) :: st))).
      { apply pd_nodup; auto. rewrite <- OW. apply (good_disjoint _ _ G). }
      cbn [map fst] in ND. inversion ND as [|? ? X1 X2]; subst.
      assert (NO : ~ In p ob) by (intros J; apply X1; apply (Permutation_in _ (Permutation_sym H4) J)).
      cbn [fold_left storage_after alive_after proper_life constructions destructions filter length].
      rewrite eqb_false by auto. split; [|split; [|split; [lia|]]].
      + split; [exact NO|]. split; [|exact Logic.I]. split; [left; reflexivity|exact NO].
      + exists (tr ++ [Got size align p]). split; [exact R'|]. split; [exact OW|]. split; [exact PP|].
        cbn [map fst]. apply perm_skip. exact H4.
      + intros sz al q [Eq|[Eq|[]]] Nq; [|discriminate Eq]. injection Eq as <- <- <-.
        apply (good_aligned _ _ G size); auto. apply in_app_iff. right. left. reflexivity.
  Qed.

  Lemma obj_delete : forall s st ob p, oinv s st ob -> p = 0 \/ In p ob ->
    exists s' acts, obj_step R s (Delete p) = Ok (s', acts) /\
      proper_life st ob acts /\ oinv s' (fold_left storage_after acts st) (fold_left alive_after acts ob) /\
      (length (constructions acts) + length ob = length (destructions acts) + length (fold_left alive_after acts ob))%nat /\
      (forall sz al p, In (AAsk sz al p) acts -> p <> 0 -> (al | p)).
  Proof.
    intros s st ob p I K. destruct (oinv_nodup s st ob I) as [N1 [N2 [DJ PO]]].
    cbn [obj_step]. unfold delete_object. destruct (Z.eqb_spec p 0) as [->|Np].
    - eexists _, _. split; [reflexivity|]. cbn. split; [exact Logic.I|]. split; [exact I|]. split; [lia|]. contradiction.
    - destruct K as [K|K]; [contradiction|]. destruct I as [tr [H1 [H2 [H3 H4]]]].
      assert (KS : In p (map fst st)) by (apply (Permutation_in _ (Permutation_sym H4) K)).
      destruct (reach_step R s0 ok mem s tr (Give p) S H1) as [s' [r [E [Q R']]]]; [right; rewrite H2; exact KS|].
      cbn [res_step] in E. apply bind_ok in E. destruct E as [s1 [E1 E2]]. injection E2 as <- <-.
      rewrite E1. cbn [bind]. eexists _, _. split; [reflexivity|].
      cbn [fold_left storage_after alive_after proper_life constructions destructions filter length].
      assert (RP := remove_one_perm p ob K).
      assert (NO : ~ In p (remove_one p ob)).
      { assert (X := Permutation_NoDup RP N2). inversion X; auto. }
      split; [|split; [|split]].
      + split; [exact K|]. split; [split; [exact KS|exact NO]|exact Logic.I].
      + exists (tr ++ [Gave p]). split; [exact R'|]. rewrite owned_app, H2. split; [reflexivity|].
        split; [intros a J; apply H3; apply (remove_incl p st); auto|].
        apply (Permutation_cons_inv (a := p)). rewrite <- RP, <- H4. symmetry. apply (remove_ptr_perm p st KS).
      + apply Permutation_length in RP. cbn [length] in RP. lia.
      + intros sz al q [Eq|[Eq|[]]]; discriminate Eq.
  Qed.

  Lemma proper_app : forall a b st ob, proper_life st ob (a ++ b) <->
    proper_life st ob a /\ proper_life (fold_left storage_after a st) (fold_left alive_after a ob) b.
  Proof.
    induction a as [|x a IH]; intros b st ob; cbn [app proper_life fold_left]; [tauto|]. rewrite IH. tauto.
  Qed.
  Lemma fair_life_app : forall a b ob, fair_life ok ob (a ++ b) <->
    fair_life ok ob a /\ fair_life ok (fold_left alive_after a ob) b.
  Proof.
    induction a as [|x a IH]; intros b ob; cbn [app fair_life fold_left]; [tauto|]. rewrite IH. tauto.
  Qed.

  (** the client's part of one call *)
  Lemma obj_client : forall s o s' acts ob, obj_step R s o = Ok (s', acts) -> fair_life ok ob acts ->
    match o with New size align => ok size align | Delete p => p = 0 \/ In p ob end.
  Proof.
    intros s [size align|p] s' acts ob H F; cbn [obj_step] in H.
    - apply bind_ok in H. destruct H as [[[s1 p] a] [H1 H2]]. injection H2 as <- <-.
      unfold new_object in H1. apply bind_ok in H1. destruct H1 as [[s2 q] [_ H1]]. injection H1 as <- <- <-.
      apply F.
    - unfold delete_object in H. destruct (Z.eqb_spec p 0) as [E|E]; [auto|].
      apply bind_ok in H. destruct H as [s1 [_ H]]. injection H as <- <-. right. apply F.
  Qed.

  Lemma objects_ok : forall ops s st ob s' tr, oinv s st ob -> obj_run R s ops = Ok (s', tr) -> fair_life ok ob tr ->
    proper_life st ob tr /\ oinv s' (fold_left storage_after tr st) (fold_left alive_after tr ob) /\
    (length (constructions tr) + length ob = length (destructions tr) + length (fold_left alive_after tr ob))%nat /\
    (forall sz al p, In (AAsk sz al p) tr -> p <> 0 -> (al | p)).
  Proof.
    induction ops as [|o ops IH]; intros s st ob s' tr I H F; cbn [obj_run] in H.
    - injection H as <- <-. cbn. split; [exact Logic.I|]. split; [exact I|]. split; [lia|contradiction].
    - apply bind_ok in H. destruct H as [[s1 a] [H1 H2]]. apply bind_ok in H2. destruct H2 as [[s2 b] [H2 H3]].
      injection H3 as <- <-. apply fair_life_app in F. destruct F as [F1 F2].
      assert (C := obj_client _ _ _ _ _ H1 F1).
      assert (X : exists s1' a', obj_step R s o = Ok (s1', a') /\ proper_life st ob a' /\
        oinv s1' (fold_left storage_after a' st) (fold_left alive_after a' ob) /\
        (length (constructions a') + length ob = length (destructions a') + length (fold_left alive_after a' ob))%nat /\
        (forall sz al p, In (AAsk sz al p) a' -> p <> 0 -> (al | p))).
      { destruct o; [apply obj_new; auto|apply obj_delete; auto]. }
      destruct X as [s1' [a' [X1 [X2 [X3 [X4 X5]]]]]]. rewrite H1 in X1. injection X1 as <- <-.
      destruct (IH _ _ _ _ _ X3 H2 F2) as [Y2 [Y3 [Y4 Y5]]].
      rewrite !fold_left_app. split; [apply proper_app; auto|]. split; [exact Y3|]. split.
      + unfold constructions, destructions in *. rewrite !filter_app, !app_length. lia.
      + intros sz al p J. apply in_app_iff in J. destruct J; eauto.
  Qed.

  Lemma objects : forall ops s tr, obj_run R s0 ops = Ok (s, tr) -> fair_life ok [] tr ->
    proper_life [] [] tr /\
    length (constructions tr) = (length (destructions tr) + length (alive tr))%nat /\
    NoDup (alive tr) /\ Permutation (map fst (storage tr)) (alive tr) /\ pairwise_disjoint (storage tr) /\
    (forall a x, In a (storage tr) -> fst a <= x < fst a + snd a -> mem x) /\
    (forall sz al p, In (AAsk sz al p) tr -> p <> 0 -> (al | p)) /\
    (forall size align, ok size align -> exists s' acts, obj_step R s (New size align) = Ok (s', acts)) /\
    (forall p, p = 0 \/ In p (alive tr) -> exists s' acts, obj_step R s (Delete p) = Ok (s', acts)).
  Proof.
    intros ops s tr H F.
    assert (I0 : oinv s0 [] []).
    { exists []. split; [apply reach_start|]. split; [reflexivity|]. split; [intros a []|constructor]. }
    destruct (objects_ok ops s0 [] [] s tr I0 H F) as [H1 [H2 [H3 H4]]].
    fold (storage tr) in H2. fold (alive tr) in H2, H3. destruct (oinv_nodup _ _ _ H2) as [N1 [N2 [DJ PO]]].
    split; [exact H1|]. split; [cbn [length] in H3; lia|]. split; [exact N2|].
    assert (H5 := H2). destruct H5 as [rt [J1 [J2 [J3 J4]]]]. split; [exact J4|]. split; [exact DJ|].
    split; [rewrite <- J2; apply (good_inside _ _ (reach_good _ _ _ _ _ _ S J1))|]. split; [exact H4|]. split.
    - intros size align K. destruct (obj_new s _ _ size align H2 K) as [s' [acts [E _]]]. eauto.
    - intros p K. destruct (obj_delete s _ _ p H2 K) as [s' [acts [E _]]]. eauto.
  Qed.

  (** allocate(n) *)
  Lemma room_for : forall qs s tr count size align, res_run R s0 qs = Ok (s, tr) -> fair_trace ok [] tr ->
    0 <= count -> 0 <= size -> count * size < 2 ^ 64 -> ok (count * size) align ->
    exists s' p, allocate_count R s count size align = Ok (s', p) /\
      (p <> 0 -> (align | p) /\ (forall x, p <= x < p + count * size -> mem x) /\
         forall a, In a (owned tr) -> disjoint (p, count * size) a).
  Proof.
    intros qs s tr count size align H F C1 C2 C3 K.
    assert (H1 : reach R s0 ok s tr) by (exists qs; auto).
    destruct (reach_step R s0 ok mem s tr (Ask (count * size) align) S H1 K) as [s' [r [E [Q R']]]].
    cbn [res_step] in E. apply bind_ok in E. destruct E as [[s1 p] [E1 E2]]. injection E2 as <- <-.
    exists s1, p. unfold allocate_count, wrap. rewrite Z.mod_small by nia. split; [exact E1|].
    intros Np. assert (G := reach_good _ _ _ _ _ _ S R').
    assert (OW : owned (tr ++ [Got (count * size) align p]) = (p, count * size) :: owned tr).
    { rewrite owned_app. cbn [owned_after]. rewrite eqb_false by auto. reflexivity. }
    destruct G as [G1 G2 G3 G4]. rewrite OW in G1, G2. split; [|split].
    - apply (G4 (count * size)); auto. apply in_app_iff. right. left. reflexivity.
    - intros x X. apply (G2 (p, count * size)); [left; reflexivity|exact X].
    - apply pd_cons in G1. apply G1.
  Qed.

  (** for every product: room for the product modulo 2^64 *)
  Lemma room_any : forall qs s tr count size align, res_run R s0 qs = Ok (s, tr) -> fair_trace ok [] tr ->
    0 <= count -> 0 <= size -> ok ((count * size) mod 2 ^ 64) align ->
    exists s' p, allocate_count R s count size align = Ok (s', p) /\
      (p <> 0 -> (align | p) /\ (forall x, p <= x < p + (count * size) mod 2 ^ 64 -> mem x) /\
         forall a, In a (owned tr) -> disjoint (p, (count * size) mod 2 ^ 64) a) /\
      ((count * size) mod 2 ^ 64 = count * size <-> count * size < 2 ^ 64).
  Proof.
    intros qs s tr count size align H F C1 C2 K.
    assert (M := Z.mod_pos_bound (count * size) (2 ^ 64) ltac:(lia)).
    destruct (room_for qs s tr 1 ((count * size) mod 2 ^ 64) align H F) as [s' [p [E Q]]]; try lia.
    { rewrite Z.mul_1_l. exact K. }
    rewrite Z.mul_1_l in Q. exists s', p. split; [|split; [exact Q|]].
    - unfold allocate_count, wrap in *. rewrite Z.mul_1_l, Z.mod_mod in E by lia. exact E.
    - split; [lia|]. intros L. apply Z.mod_small. nia.
  Qed.
End Objects.

(** the product wraps: a buffer of 32 bytes is said to have room for 2^61 + 1 objects *)
Lemma room_refuted : exists s' p,
  allocate_count (mono_resource true null_resource) (mono_construct 4096 32 false, tt) (2 ^ 61 + 1) 8 8 = Ok (s', p) /\
  p = 4096 /\ 4096 + 32 < p + (2 ^ 61 + 1) * 8.
Proof. eexists _, _. split; [vm_compute; reflexivity|]. split; [reflexivity|lia]. Qed.

(** * The default resource *)

Lemma register : forall sched v prog v' es, reg_run v prog sched = (v', es) ->
  (forall es1 t o r es2, es = es1 ++ (t, o, r) :: es2 -> r = reg_value v es1) /\
  v' = reg_value v es /\ v :: installed es = handed_back es ++ [v'] /\
  forall t, exists rest, prog t = ops_of t es ++ rest.
Proof.
  induction sched as [|t sched IH]; intros v prog v' es H; cbn [reg_run] in H.
  - injection H as <- <-. split; [intros es1 t o r es2 E; destruct es1; discriminate E|].
    split; [reflexivity|]. split; [reflexivity|]. intros t. exists (prog t). reflexivity.
  - destruct (prog t) as [|o rest] eqn:Pt; [apply IH; auto|].
    destruct (reg_step v o) as [v1 r1] eqn:St. destruct (reg_run v1 (set_prog prog t rest) sched) as [v2 es2] eqn:Rn.
    injection H as <- <-. destruct (IH v1 _ v2 es2 Rn) as [A1 [A2 [A3 A4]]].
    assert (SV : r1 = v /\ v1 = match o with RGet => v | RSet w => w end).
    { destruct o; cbn in St; injection St as <- <-; auto. }
    destruct SV as [-> ->]. split; [|split; [|split]].
    + intros es1 u o' r es3 E. destruct es1 as [|e es1]; cbn [app] in E.
      * inversion E; subst. reflexivity.
      * injection E as Ee E. subst e. rewrite (A1 es1 u o' r es3 E). destruct o; reflexivity.
    + rewrite A2. destruct o; reflexivity.
    + destruct o; cbn [installed handed_back flat_map app]; [exact A3|]. fold (installed es2). fold (handed_back es2).
      rewrite A3. reflexivity.
    + intros u. destruct (A4 u) as [rest' E]. unfold set_prog in E. cbn [ops_of flat_map]. fold (ops_of u es2).
      destruct (Nat.eqb_spec u t) as [->|N].
      * rewrite Nat.eqb_refl. exists rest'. rewrite Pt, E. reflexivity.
      * destruct (Nat.eqb_spec t u) as [X|_]; [congruence|]. exists rest'. exact E.
Qed.

Lemma equal_identity : forall a b, is_equal a b = true <-> a = b.
Proof.
  intros [i|i|x] [j|j|y]; cbn; split; intros H; try discriminate H; try congruence.
  - apply Nat.eqb_eq in H. congruence.
  - injection H as <-. apply Nat.eqb_refl.
  - apply Nat.eqb_eq in H. congruence.
  - injection H as <-. apply Nat.eqb_refl.
  - apply Z.eqb_eq in H. congruence.
  - injection H as <-. apply Z.eqb_refl.
Qed.

Lemma equality : forall a b, (is_equal a b = true <-> a = b) /\ (allocator_eq a b = true <-> a = b).
Proof. intros a b. split; [apply equal_identity|]. unfold allocator_eq. apply equal_identity. Qed.
Lemma units_differ : forall i j, i <> j ->
  is_equal (system_memory_resource i) (system_memory_resource j) = false.
Proof. intros i j N. cbn. apply Nat.eqb_neq. auto. Qed.

Lemma units_exact : forall i j,
  is_equal (system_memory_resource i) (system_memory_resource j) = true <-> i = j.
Proof. intros i j. cbn. apply Nat.eqb_eq. Qed.

Lemma new_one : forall R s size align s1 p, 0 <= size < 2 ^ 64 -> r_allocate R s size align = Ok (s1, p) ->
  new_object R s size align = Ok (s1, p, if p =? 0 then [AAsk size align 0] else [AAsk size align p; AConstruct p]).
Proof.
  intros R s size align s1 p B H. unfold new_object, allocate_count. rewrite Z.mul_1_l. unfold wrap.
  rewrite Z.mod_small by lia. rewrite H. cbn [bind]. destruct (Z.eqb_spec p 0) as [->|N]; reflexivity.
Qed.
Lemma delete_one : forall R s p s1, p <> 0 -> r_deallocate R s p = Ok s1 ->
  delete_object R s p = Ok (s1, [ADestroy p; AGive p]) /\ delete_object R s 0 = Ok (s, []).
Proof.
  intros R s p s1 N H. unfold delete_object. rewrite eqb_false by auto. rewrite H. split; reflexivity.
Qed.
