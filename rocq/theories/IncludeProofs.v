Require Import List String Bool Arith Lia.
Require Import Verif.UnitsSpec Verif.UnitsModel Verif.IncludeSpec Verif.IncludeModel.
Import ListNotations.

Lemma frugal_conforming : conforming frugal.
Proof. intros s n I. unfold frugal. destruct (in_dec string_dec n (promised s)); [reflexivity|contradiction]. Qed.

(** * more declarations never hurt *)
Definition weaker (r r' : reading) : Prop :=
  read r = read r' /\ included r = included r' /\ declared r = declared r' /\ (fine r = true -> fine r' = true).

Section Mono.
  Variables L L' : implementation.
  Hypothesis more : forall s n, L s n = true -> L' s n = true.

  Lemma knows_more : forall r r' n, weaker r r' -> knows L r n = true -> knows L' r' n = true.
  Proof using more.
    intros r r' n [_ [I [D _]]] K. unfold knows in *. rewrite <- I, <- D. apply orb_true_iff in K. apply orb_true_iff.
    destruct K as [K|K]; [left|right; exact K]. apply existsb_exists in K. destruct K as [s [J K]].
    apply existsb_exists. exists s. auto.
  Qed.
  Lemma system_more : forall s r r', weaker r r' -> weaker (take_system s r) (take_system s r').
  Proof using. intros s r r' [A [B [C D]]]. repeat split; cbn; congruence || auto. Qed.
  Lemma systems_more : forall l r r', weaker r r' ->
    weaker (fold_left (fun r s => take_system s r) l r) (fold_left (fun r s => take_system s r) l r').
  Proof using. induction l as [|s l IH]; intros r r' W; cbn; [exact W|]. apply IH, system_more, W. Qed.
  Lemma take_more : forall n h r r', weaker r r' -> weaker (take L n h r) (take L' n h r').
  Proof using more.
    induction n as [|n IH]; intros h r r' W; cbn [take]; [exact W|].
    destruct W as [A W]. rewrite <- A. destruct (in_dec header_eq_dec h (read r)); [split; assumption|].
    assert (W0 : weaker r r') by (split; assumption).
    assert (F : forall l r r', weaker r r' ->
       weaker (fold_left (fun r g => take L n g r) l r) (fold_left (fun r g => take L' n g r) l r')).
    { induction l as [|g l IHl]; intros q q' Q; cbn [fold_left]; [exact Q|]. apply IHl, IH, Q. }
    pose proof (F (direct h) _ _ (systems_more (systems h) _ _ W0)) as V.
    destruct V as [V1 [V2 [V3 V4]]]. unfold text. split; [cbn; congruence|]. split; [cbn; congruence|].
    split; [cbn; congruence|]. cbn. intros T. apply andb_true_iff in T. destruct T as [T1 T2].
    rewrite (V4 T1). cbn. apply forallb_forall. intros x X. rewrite forallb_forall in T2.
    refine (knows_more _ _ _ _ (T2 x X)). repeat split; assumption.
  Qed.
  Lemma lines_more : forall u r r', weaker r r' -> weaker (fold_left (take_line L) u r) (fold_left (take_line L') u r').
  Proof using more.
    induction u as [|l u IH]; intros r r' W; cbn [fold_left]; [exact W|]. apply IH.
    destruct l; cbn [take_line]; [apply system_more, W|apply take_more, W].
  Qed.
  Lemma accepted_more : forall u, accepted L u = true -> accepted L' u = true.
  Proof using more. intros u. apply (lines_more u (Reading [] [] [] true) (Reading [] [] [] true)). repeat split; auto. Qed.
End Mono.

Lemma frugal_decides : forall u, (forall L, conforming L -> accepted L u = true) <-> accepted frugal u = true.
Proof.
  intros u. split; [intros H; apply H, frugal_conforming|]. intros H L C. refine (accepted_more frugal L _ u H).
  intros s n F. unfold frugal in F. destruct (in_dec string_dec n (promised s)); [apply C; assumption|discriminate F].
Qed.

(** * headers that find everything *)
Definition rank (h : header) : nat :=
  match h with
  | H_cartesian_product | H_cxz | H_detector | H_fast_pimpl | H_padding_checker | H_timer => 0
  | H_type_list => 1 | H_value_list | H_function_traits => 2 | H_common => 3 | H_clz | H_ctz => 4
  | H_memory => 5 | H_allocator | H_monotonic | H_simple => 6 | H_utils => 7
  end.
Lemma rank_direct : forall h g, In g (direct h) -> rank g < rank h.
Proof. intros h g I. destruct h; cbn in I; repeat destruct I as [<-|I]; cbn; try lia; contradiction. Qed.

Fixpoint below (n : nat) (h : header) : list header :=
  match n with O => [] | S n' => flat_map (fun g => g :: below n' g) (direct h) end.

Definition has (l : list string) (n : string) : bool := if in_dec string_dec n l then true else false.
Definition supplied (base : list string) (h : header) (n : string) : bool :=
  has (flat_map promised (base ++ systems h ++ flat_map systems (below 8 h))) n || has (flat_map gives (below 8 h)) n.

(** also when it is included from other headers, which have included [ctx] *)
Fixpoint sound (n : nat) (ctx : list string) (h : header) : bool :=
  forallb (supplied ctx h) (needs h) &&
  match n with O => true | S n' => forallb (sound n' (systems h ++ ctx)) (direct h) end.

Section Closed.
  Variable L : implementation.
  Hypothesis good : conforming L.

  Record inv (r : reading) : Prop := {
    i_fine : fine r = true;
    i_systems : forall g, In g (read r) -> incl (systems g) (included r);
    i_gives : forall g, In g (read r) -> incl (gives g) (declared r);
    i_direct : forall g, In g (read r) -> incl (direct g) (read r) }.

  Lemma below_read : forall r, inv r -> forall n g, incl (direct g) (read r) -> incl (below n g) (read r).
  Proof using.
    intros r V n. induction n as [|n IH]; intros g I x X; [destruct X|]. cbn [below] in X.
    apply in_flat_map in X. destruct X as [y [Y X]]. destruct X as [<-|X]; [exact (I y Y)|].
    refine (IH y _ x X). exact (i_direct r V y (I y Y)).
  Qed.

  Lemma system_inv : forall s r, inv r -> inv (take_system s r).
  Proof using.
    intros s r [A B C D]. constructor; cbn.
    - exact A.
    - intros g G x X. right. exact (B g G x X).
    - exact C.
    - exact D.
  Qed.
  Lemma systems_inv : forall l r, inv r -> let r' := fold_left (fun r s => take_system s r) l r in
    inv r' /\ read r' = read r /\ incl (included r) (included r') /\ incl l (included r').
  Proof using.
    induction l as [|s l IH]; intros r V; cbn.
    - split; [exact V|]. split; [reflexivity|]. split; [apply incl_refl|intros x []].
    - destruct (IH _ (system_inv s r V)) as [V2 [R [I K]]]. split; [exact V2|]. split; [rewrite R; reflexivity|]. split.
      + intros x X. apply I. right. exact X.
      + intros x [<-|X]; [|exact (K x X)]. apply I. left. reflexivity.
  Qed.

  Lemma take_inv : forall n m ctx h r, rank h < n -> rank h <= m -> sound m ctx h = true -> incl ctx (included r) -> inv r ->
    let r' := take L n h r in inv r' /\ In h (read r') /\ incl (read r) (read r') /\ incl (included r) (included r').
  Proof using good.
    induction n as [|n IH]; intros m ctx h r K KM A B V; [lia|]. cbn [take].
    destruct (in_dec header_eq_dec h (read r)) as [J|J].
    { split; [exact V|]. split; [exact J|]. split; apply incl_refl. }
    set (r1 := fold_left (fun r s => take_system s r) (systems h) r).
    destruct (systems_inv (systems h) r V) as [V1 [R1 [B1 S1]]]. fold r1 in V1, R1, B1, S1.
    assert (A0 : forallb (supplied ctx h) (needs h) = true) by (destruct m; apply andb_true_iff in A; apply A).
    assert (F : forall l r, incl l (direct h) -> incl (systems h ++ ctx) (included r) -> inv r ->
       let r' := fold_left (fun r g => take L n g r) l r in
       inv r' /\ incl l (read r') /\ incl (read r) (read r') /\ incl (included r) (included r')).
    { induction l as [|g l IHl]; intros q I C Q; cbn [fold_left].
      { split; [exact Q|]. split; [intros x []|]. split; apply incl_refl. }
      assert (G : In g (direct h)) by (apply I; left; reflexivity).
      pose proof (rank_direct h g G) as RG. destruct m as [|m]; [lia|].
      assert (SG : sound m (systems h ++ ctx) g = true).
      { cbn [sound] in A. apply andb_true_iff in A. destruct A as [_ A]. rewrite forallb_forall in A. exact (A g G). }
      assert (KG : rank g < n) by lia. assert (KG' : rank g <= m) by lia.
      destruct (IH m _ g q KG KG' SG C Q) as [Q1 [I1 [M1 N1]]].
      assert (I' : incl l (direct h)) by (intros x X; apply I; right; exact X).
      destruct (IHl _ I' (incl_tran C N1) Q1) as [Q2 [I2 [M2 N2]]]. split; [exact Q2|]. split; [|split].
      - intros x [<-|X]; [apply M2, I1|apply I2, X].
      - exact (incl_tran M1 M2).
      - exact (incl_tran N1 N2). }
    assert (C1 : incl (systems h ++ ctx) (included r1)).
    { apply incl_app; [exact S1|exact (incl_tran B B1)]. }
    destruct (F (direct h) r1 (incl_refl _) C1 V1) as [V2 [D2 [M2 N2]]].
    set (r2 := fold_left (fun r g => take L n g r) (direct h) r1) in *.
    assert (S2 : incl (systems h) (included r2)) by exact (incl_tran S1 N2).
    assert (B2 : incl (below 8 h) (read r2)) by (apply below_read; assumption).
    assert (F2 : forallb (knows L r2) (needs h) = true).
    { apply forallb_forall. intros x X. rewrite forallb_forall in A0. specialize (A0 x X).
      unfold supplied in A0. apply orb_true_iff in A0. unfold knows. apply orb_true_iff. destruct A0 as [E|E].
      - left. unfold has in E. destruct (in_dec string_dec x _) as [P|]; [|discriminate E].
        apply in_flat_map in P. destruct P as [s [Hs P]]. apply existsb_exists. exists s. split; [|apply good; exact P].
        apply in_app_or in Hs. destruct Hs as [Hs|Hs]; [exact (N2 s (B1 s (B s Hs)))|].
        apply in_app_or in Hs. destruct Hs as [Hs|Hs]; [exact (S2 s Hs)|].
        apply in_flat_map in Hs. destruct Hs as [g [Hg Hs]]. exact (i_systems r2 V2 g (B2 g Hg) s Hs).
      - right. unfold has in E. destruct (in_dec string_dec x _) as [P|]; [|discriminate E].
        apply in_flat_map in P. destruct P as [g [Hg P]]. apply existsb_exists. exists x. split; [|apply String.eqb_refl].
        exact (i_gives r2 V2 g (B2 g Hg) x P). }
    destruct V2 as [W1 W3 W4 W5]. unfold text. split; [|split; [|split]].
    - constructor; cbn.
      + rewrite W1, F2. reflexivity.
      + intros g [<-|G]; [exact S2|exact (W3 g G)].
      + intros g G x X. apply in_or_app. destruct G as [<-|G]; [left; exact X|right; exact (W4 g G x X)].
      + intros g G x X. right. destruct G as [<-|G]; [exact (D2 x X)|exact (W5 g G x X)].
    - left. reflexivity.
    - intros x X. right. apply M2. rewrite R1. exact X.
    - exact (incl_tran B1 N2).
  Qed.

  Lemma lines_inv : forall base u r, inv r -> incl base (included r) ->
    (forall h, In (Own h) u -> sound 8 base h = true) -> inv (fold_left (take_line L) u r).
  Proof using good.
    induction u as [|l u IH]; intros r V B A; cbn [fold_left]; [exact V|].
    assert (A' : forall h, In (Own h) u -> sound 8 base h = true) by (intros h H; apply A; right; exact H).
    destruct l as [s|h]; cbn [take_line].
    - apply IH; [apply system_inv, V| |exact A']. intros x X. right. exact (B x X).
    - assert (K : rank h < 17) by (destruct h; cbn; lia). assert (K' : rank h <= 8) by (destruct h; cbn; lia).
      destruct (take_inv 17 8 base h r K K' (A h (or_introl eq_refl)) B V) as [V' [_ [_ N]]].
      apply IH; [exact V'|exact (incl_tran B N)|exact A'].
  Qed.
End Closed.

Lemma prelude_suffices : forall L u, conforming L -> accepted L (map System prelude ++ u) = true.
Proof.
  intros L u C. unfold accepted. rewrite fold_left_app.
  refine (i_fine _ (lines_inv L C prelude u _ _ _ _)).
  - constructor; cbn; auto; contradiction.
  - intros x X. cbn in X. cbn. tauto.
  - intros h _. destruct h; vm_compute; reflexivity.
Qed.

Lemma self_contained_units : forall L u, conforming L -> (forall h, In (Own h) u -> In h self_contained) -> accepted L u = true.
Proof.
  intros L u C A. unfold accepted.
  refine (i_fine _ (lines_inv L C [] u _ _ _ _)).
  - constructor; cbn; auto; contradiction.
  - intros x [].
  - intros h H. specialize (A h H). cbn in A. repeat destruct A as [<-|A]; try contradiction; vm_compute; reflexivity.
Qed.

Lemma self_contained_exact : forall h,
  (forall L, conforming L -> accepted L [Own h] = true) <-> In h self_contained.
Proof.
  intros h. split.
  - intros H. specialize (H frugal frugal_conforming). destruct h; cbn; try tauto; vm_compute in H; discriminate H.
  - intros I L C. apply self_contained_units; [exact C|]. intros g [G|[]]. injection G as <-. exact I.
Qed.

Lemma others_refuted : forall h, ~ In h self_contained -> exists L, conforming L /\ accepted L [Own h] = false.
Proof.
  intros h N. exists frugal. split; [exact frugal_conforming|].
  destruct h; cbn in N; try (exfalso; tauto); vm_compute; reflexivity.
Qed.

Lemma prelude_needed : forall s, In s prelude -> exists L h, conforming L /\
  accepted L (map System (remove string_dec s prelude) ++ [Own h]) = false.
Proof.
  intros s I. exists frugal.
  cbn in I. repeat destruct I as [<-|I]; try contradiction.
  - exists H_value_list. split; [exact frugal_conforming|vm_compute; reflexivity].
  - exists H_cartesian_product. split; [exact frugal_conforming|vm_compute; reflexivity].
  - exists H_common. split; [exact frugal_conforming|vm_compute; reflexivity].
  - exists H_timer. split; [exact frugal_conforming|vm_compute; reflexivity].
  - exists H_allocator. split; [exact frugal_conforming|vm_compute; reflexivity].
  - exists H_simple. split; [exact frugal_conforming|vm_compute; reflexivity].
  - exists H_common. split; [exact frugal_conforming|vm_compute; reflexivity].
  - exists H_cxz. split; [exact frugal_conforming|vm_compute; reflexivity].
  - exists H_fast_pimpl. split; [exact frugal_conforming|vm_compute; reflexivity].
Qed.

Lemma leaves_exact : forall L h, conforming L -> direct h = [] ->
  (accepted L [Own h] = true <-> forall n, In n (lacking h) -> exists s, In s (systems h) /\ L s n = true).
Proof.
  intros L h C D.
  assert (R : forall n, In n (lacking h) -> In n (needs h)).
  { intros n. destruct h; cbn; tauto. }
  assert (Q : forall n, In n (needs h) -> In n (lacking h) \/ exists s, In s (systems h) /\ In n (promised s)).
  { assert (Q : forallb (fun n => has (lacking h) n || has (flat_map promised (systems h)) n) (needs h) = true).
    { destruct h; try discriminate D; vm_compute; reflexivity. }
    intros n I. rewrite forallb_forall in Q. specialize (Q n I). unfold has in Q. apply orb_true_iff in Q. destruct Q as [Q|Q].
    - left. destruct (in_dec string_dec n (lacking h)); [assumption|discriminate Q].
    - right. destruct (in_dec string_dec n (flat_map promised (systems h))) as [P|]; [|discriminate Q].
      apply in_flat_map in P. exact P. }
  assert (E : accepted L [Own h] = forallb (fun n => existsb (fun s => L s n) (systems h)) (needs h)).
  { unfold accepted. cbn [fold_left take_line take read]. destruct (in_dec header_eq_dec h []) as [[]|_].
    rewrite D. cbn [fold_left]. unfold text.
    assert (K : forall l r, fine (fold_left (fun r s => take_system s r) l r) = fine r /\
       declared (fold_left (fun r s => take_system s r) l r) = declared r /\
       forall x, In x (included (fold_left (fun r s => take_system s r) l r)) <-> In x l \/ In x (included r)).
    { induction l as [|s l IH]; intros r; cbn; [repeat split; tauto|]. destruct (IH (take_system s r)) as [A [B I]].
      split; [exact A|]. split; [exact B|]. intros x. rewrite I. cbn. tauto. }
    destruct (K (systems h) (Reading [] [] [] true)) as [A [B I]]. cbn [fine]. rewrite A. cbn [fine andb].
    assert (F : forall f g (l : list string), (forall x, f x = g x) -> forallb f l = forallb g l).
    { intros f g l H. induction l as [|x l IH]; cbn; [reflexivity|]. rewrite H, IH. reflexivity. }
    apply F. intros n. unfold knows. rewrite B. cbn [declared existsb]. rewrite orb_false_r.
    apply eq_true_iff_eq. rewrite !existsb_exists. split; intros [s [J H]]; exists s; split; auto; apply I in J || apply I; cbn in *; tauto. }
  rewrite E, forallb_forall. split.
  - intros H n I. specialize (H n (R n I)). apply existsb_exists in H. exact H.
  - intros H n I. apply existsb_exists. destruct (Q n I) as [J|[s [J P]]]; [exact (H n J)|]. exists s. split; [exact J|apply C, P].
Qed.

Lemma never_alone : forall L h, In h [H_cartesian_product; H_cxz] -> accepted L [Own h] = false.
Proof. intros L h I. cbn in I. repeat destruct I as [<-|I]; try contradiction; reflexivity. Qed.

(** everything anywhere, but [n] only where it is promised *)
Definition all_but (n : string) : implementation := fun s m => if string_dec m n then frugal s m else true.

Lemma lacking_alone : forall h n, In n (lacking h) -> exists L, conforming L /\
  (forall s m, m <> n -> L s m = true) /\ accepted L [Own h] = false.
Proof.
  intros h n I. exists (all_but n). split; [|split].
  - intros s m P. unfold all_but. destruct (string_dec m n); [apply frugal_conforming, P|reflexivity].
  - intros s m N. unfold all_but. destruct (string_dec m n); [contradiction|reflexivity].
  - assert (A : forallb (fun n => negb (accepted (all_but n) [Own h])) (lacking h) = true)
      by (destruct h; vm_compute; reflexivity).
    rewrite forallb_forall in A. specialize (A n I). apply negb_true_iff in A. exact A.
Qed.
