(** Lemmas about timers in a sequence. *)

Require Import ZArith List Bool Lia Permutation.
Require Import Verif.Outcome Verif.Machine Verif.TimerSpec Verif.TimerModel Verif.TimerProofs Verif.ShelfSpec.
Import ListNotations.
Open Scope Z_scope.

Definition lens (N : nat) (st : store) : Prop := forall s t, st s = Some t -> length (data_ t) = N.
Definition view (st : store) (p : nat) : option (Z * list callable) :=
  option_map (fun t => (start_ t, holds t)) (st p).

Lemma lens_run : forall N ops st es, timer_run N no_timers ops = Ok (st, es) -> lens N st.
Proof. intros N ops st es H. destruct (run_conserves _ _ _ _ _ _ (tinv_start N) H) as [l' [_ [[L _] _]]]. exact L. Qed.

Lemma map_called_inj : forall p z l l', map (fun c => TCalled p c z) l = map (fun c => TCalled p c z) l' -> l = l'.
Proof.
  induction l as [|c l IH]; intros [|c' l'] E; cbn [map] in E; try discriminate E; [reflexivity|].
  injection E as -> E. f_equal. apply IH. exact E.
Qed.
Lemma shows_view : forall N st p x, shows N st p x <-> view st p = Some x.
Proof.
  intros N st p [z cs]. unfold shows, view. cbn [timer_step fst snd]. split.
  - intros [A [st' B]]. destruct (st p) as [t|]; [|discriminate A]. cbn [option_map].
    injection A as A. injection B as _ B. rewrite destroy_shape, A in B. apply map_called_inj in B. subst. reflexivity.
  - destruct (st p) as [t|]; [|discriminate 1]. cbn [option_map]. intros E. injection E as <- <-.
    split; [reflexivity|]. eexists. rewrite destroy_shape. reflexivity.
Qed.
Lemma view_none : forall st p, view st p = None <-> st p = None.
Proof. intros st p. unfold view. destruct (st p); cbn; split; congruence. Qed.

Definition same_but (ps : list nat) (st st' : store) : Prop := forall u, ~ In u ps -> st' u = st u.
Lemma view_same : forall ps st st' u, same_but ps st st' -> ~ In u ps -> view st' u = view st u.
Proof. intros ps st st' u S I. unfold view. rewrite S by auto. reflexivity. Qed.
Lemma same_trans : forall ps qs st st1 st2, same_but ps st st1 -> same_but qs st1 st2 -> same_but (ps ++ qs) st st2.
Proof. intros ps qs st st1 st2 A B u U. rewrite in_app_iff in U. rewrite B, A by tauto. reflexivity. Qed.
Lemma same_incl : forall ps qs st st', same_but ps st st' -> (forall u, In u ps -> In u qs) -> same_but qs st st'.
Proof. intros ps qs st st' A B u U. apply A. auto. Qed.

Lemma step_move : forall N st d s z cs, lens N st -> st d = None -> view st s = Some (z, cs) ->
  exists st', timer_step N st (TMove d s) = Ok (st', []) /\ lens N st' /\
    view st' d = Some (z, cs) /\ view st' s = Some (z, []) /\ same_but [d; s] st st'.
Proof.
  intros N st d s z cs L D V. unfold view in V. destruct (st s) as [o|] eqn:Es; [|discriminate V].
  cbn [option_map] in V. injection V as <- <-. assert (X : s <> d) by congruence.
  cbn [timer_step]. rewrite D, Es. cbn [timer_move]. rewrite copy_all by (eauto; unfold zeros; apply repeat_length).
  eexists. split; [reflexivity|]. split; [|split; [|split]].
  - intros u t. unfold put. destruct (Nat.eqb_spec u d); [intros E; injection E as <-; cbn; eauto|].
    destruct (Nat.eqb_spec u s); [intros E; injection E as <-; cbn; eauto|]. apply L.
  - unfold view. rewrite put_same. reflexivity.
  - unfold view. rewrite put_other by auto. rewrite put_same. reflexivity.
  - intros u U. cbn [In] in U. rewrite !put_other by intuition congruence. reflexivity.
Qed.
Lemma step_assign : forall N st d s y z cs, lens N st -> d <> s -> view st d = Some y -> view st s = Some (z, cs) ->
  exists st', timer_step N st (TAssign d s) = Ok (st', []) /\ lens N st' /\
    view st' d = Some (z, cs) /\ view st' s = Some (z, []) /\ same_but [d; s] st st'.
Proof.
  intros N st d s y z cs L X D V. unfold view in V, D. destruct (st s) as [o|] eqn:Es; [|discriminate V].
  destruct (st d) as [o'|] eqn:Ed; [|discriminate D].
  cbn [option_map] in V. injection V as <- <-.
  cbn [timer_step]. rewrite Ed, Es. destruct (Nat.eqb_spec d s); [contradiction|].
  cbn [timer_assign]. rewrite copy_all by eauto.
  eexists. split; [reflexivity|]. split; [|split; [|split]].
  - intros u t. unfold put. destruct (Nat.eqb_spec u d); [intros E; injection E as <-; cbn; eauto|].
    destruct (Nat.eqb_spec u s); [intros E; injection E as <-; cbn; eauto|]. apply L.
  - unfold view. rewrite put_same. reflexivity.
  - unfold view. rewrite put_other by auto. rewrite put_same. reflexivity.
  - intros u U. cbn [In] in U. rewrite !put_other by intuition congruence. reflexivity.
Qed.
Lemma step_self : forall N st s z cs, lens N st -> view st s = Some (z, cs) ->
  exists st', timer_step N st (TAssign s s) = Ok (st', []) /\ lens N st' /\
    view st' s = Some (z, []) /\ same_but [s] st st'.
Proof.
  intros N st s z cs L V. unfold view in V. destruct (st s) as [o|] eqn:Es; [|discriminate V].
  cbn [option_map] in V. injection V as <- <-.
  cbn [timer_step]. rewrite Es. rewrite Nat.eqb_refl. unfold timer_assign_self. rewrite copy_all by eauto.
  eexists. split; [reflexivity|]. split; [|split].
  - intros u t. unfold put. destruct (Nat.eqb_spec u s); [intros E; injection E as <-; cbn; eauto|]. apply L.
  - unfold view. rewrite put_same. reflexivity.
  - intros u U. cbn [In] in U. rewrite put_other by intuition congruence. reflexivity.
Qed.
Lemma step_destroy : forall N st s z cs, lens N st -> view st s = Some (z, cs) ->
  exists st', timer_step N st (TDestroy s) = Ok (st', map (fun c => TCalled s c z) cs) /\ lens N st' /\
    st' s = None /\ same_but [s] st st'.
Proof.
  intros N st s z cs L V. unfold view in V. destruct (st s) as [o|] eqn:Es; [|discriminate V].
  cbn [option_map] in V. injection V as <- <-. cbn [timer_step]. rewrite Es, destroy_shape.
  eexists. split; [reflexivity|]. split; [|split].
  - intros u t. unfold put. destruct (Nat.eqb_spec u s); [discriminate 1|]. apply L.
  - rewrite put_same. reflexivity.
  - intros u U. cbn [In] in U. rewrite put_other by intuition congruence. reflexivity.
Qed.

Lemma run_step : forall N st o st1 a ops st2 b, timer_step N st o = Ok (st1, a) ->
  timer_run N st1 ops = Ok (st2, b) -> timer_run N st (o :: ops) = Ok (st2, a ++ b).
Proof. intros N st o st1 a ops st2 b A B. cbn [timer_run]. rewrite A. cbn [bind]. rewrite B. reflexivity. Qed.
Lemma run_append : forall N ops1 st st1 a ops2 st2 b, timer_run N st ops1 = Ok (st1, a) ->
  timer_run N st1 ops2 = Ok (st2, b) -> timer_run N st (ops1 ++ ops2) = Ok (st2, a ++ b).
Proof.
  induction ops1 as [|o ops1 IH]; intros st st1 a ops2 st2 b A B.
  - cbn [timer_run] in A. injection A as -> <-. exact B.
  - cbn [timer_run] in A. destruct (timer_step N st o) as [[st0 x]| | |] eqn:S; try discriminate A. cbn [bind] in A.
    destruct (timer_run N st0 ops1) as [[st0' y]| | |] eqn:R; try discriminate A. cbn [bind] in A. injection A as <- <-.
    cbn [app]. rewrite <- app_assoc. apply (run_step _ _ _ _ _ _ _ _ S). eapply IH; eauto.
Qed.

(** * Swapping *)

Lemma swap_views : forall N st t a b za ca zb cb, lens N st -> st t = None ->
  view st a = Some (za, ca) -> view st b = Some (zb, cb) ->
  exists st', timer_run N st (swap_ops t a b) = Ok (st', []) /\
    view st' a = Some (zb, cb) /\ view st' b = Some (za, ca) /\ st' t = None /\ same_but [t; a; b] st st'.
Proof.
  intros N st t a b za ca zb cb L T A B.
  assert (ta : t <> a) by (intros ->; apply view_none in T; congruence).
  assert (tb : t <> b) by (intros ->; apply view_none in T; congruence).
  destruct (step_move N st t a za ca L T A) as (s1 & R1 & L1 & V1t & V1a & S1).
  destruct (Nat.eq_dec a b) as [<-|ab].
  - assert (E : (zb, cb) = (za, ca)) by congruence. injection E as -> ->.
    destruct (step_self N s1 a za [] L1 V1a) as (s2 & R2 & L2 & V2a & S2).
    assert (V2t : view s2 t = Some (za, ca)) by (rewrite (view_same _ _ _ t S2) by (cbn; intuition congruence); auto).
    destruct (step_assign N s2 a t _ _ _ L2 (not_eq_sym ta) V2a V2t) as (s3 & R3 & L3 & V3a & V3t & S3).
    destruct (step_destroy N s3 t _ _ L3 V3t) as (s4 & R4 & L4 & V4 & S4).
    exists s4. split; [|split; [|split; [|split]]]; auto.
    + unfold swap_ops. apply (run_step _ _ _ _ _ _ _ _ R1). apply (run_step _ _ _ _ _ _ _ _ R2).
      apply (run_step _ _ _ _ _ _ _ _ R3). apply (run_step _ _ _ _ _ _ _ _ R4). reflexivity.
    + rewrite (view_same _ _ _ a S4) by (cbn; intuition congruence). auto.
    + rewrite (view_same _ _ _ a S4) by (cbn; intuition congruence). auto.
    + intros u U. cbn [In] in U. rewrite S4, S3, S2, S1 by (cbn; intuition congruence). reflexivity.
  - assert (V1b : view s1 b = Some (zb, cb)) by (rewrite (view_same _ _ _ b S1) by (cbn; intuition congruence); auto).
    destruct (step_assign N s1 a b _ _ _ L1 ab V1a V1b) as (s2 & R2 & L2 & V2a & V2b & S2).
    assert (V2t : view s2 t = Some (za, ca)) by (rewrite (view_same _ _ _ t S2) by (cbn; intuition congruence); auto).
    destruct (step_assign N s2 b t _ _ _ L2 (not_eq_sym tb) V2b V2t) as (s3 & R3 & L3 & V3b & V3t & S3).
    destruct (step_destroy N s3 t _ _ L3 V3t) as (s4 & R4 & L4 & V4 & S4).
    exists s4. split; [|split; [|split; [|split]]]; auto.
    + unfold swap_ops. apply (run_step _ _ _ _ _ _ _ _ R1). apply (run_step _ _ _ _ _ _ _ _ R2).
      apply (run_step _ _ _ _ _ _ _ _ R3). apply (run_step _ _ _ _ _ _ _ _ R4). reflexivity.
    + rewrite (view_same _ _ _ a S4) by (cbn; intuition congruence).
      rewrite (view_same _ _ _ a S3) by (cbn; intuition congruence). auto.
    + rewrite (view_same _ _ _ b S4) by (cbn; intuition congruence). auto.
    + intros u U. cbn [In] in U. rewrite S4, S3, S2, S1 by (cbn; intuition congruence). reflexivity.
Qed.

(** * Growing *)

Definition at_ (st : store) (p : nat) (x : Z * list callable) : Prop := view st p = Some x.
Lemma at_same : forall qs st st' ps xs, same_but qs st st' -> (forall p, In p ps -> ~ In p qs) ->
  Forall2 (at_ st) ps xs -> Forall2 (at_ st') ps xs.
Proof.
  intros qs st st' ps xs S D F. induction F as [|p x ps xs A F IH]; constructor.
  - unfold at_. rewrite (view_same _ _ _ p S) by (apply D; left; auto). exact A.
  - apply IH. intros q Q. apply D. right; auto.
Qed.

Lemma moves_views : forall N olds news xs st, lens N st -> NoDup (olds ++ news) -> length olds = length news ->
  Forall2 (at_ st) olds xs -> (forall p, In p news -> st p = None) ->
  exists st', timer_run N st (moves olds news) = Ok (st', []) /\ lens N st' /\
    Forall2 (at_ st') news xs /\ Forall2 (at_ st') olds (map (fun x => (fst x, [])) xs) /\
    same_but (olds ++ news) st st'.
Proof.
  intros N. induction olds as [|o olds IH]; intros news xs st L D E F W.
  - destruct news; [|discriminate E]. inversion F; subst. exists st. cbn. repeat split; auto.
  - destruct news as [|n news]; [discriminate E|]. inversion F as [|? [z cs] ? xs' A F']; subst. cbn [length] in E.
    cbn [app] in D. inversion D as [|? ? D1 D2]; subst.
    assert (D3 : NoDup (olds ++ news)) by (apply NoDup_remove_1 in D2; exact D2).
    assert (D4 : ~ In n (olds ++ news)) by (apply NoDup_remove_2 in D2; exact D2).
    rewrite in_app_iff in D1, D4. cbn [In] in D1.
    destruct (step_move N st n o z cs L (W n (or_introl eq_refl)) A) as (s1 & R1 & L1 & Vn & Vo & S1).
    destruct (IH news xs' s1 L1 D3) as (s2 & R2 & L2 & Fn & Fo & S2).
    + congruence.
    + apply (at_same _ _ _ _ _ S1); [|exact F']. intros p P. cbn [In]. intros [->| [->| []]]; tauto.
    + intros p P. rewrite S1; [apply W; right; auto|]. cbn [In]. intros [->| [->| []]]; tauto.
    + exists s2. split; [cbn [moves]; apply (run_step _ _ _ _ _ _ _ _ R1 R2)|]. split; [exact L2|].
      split; [|split].
      * constructor; auto. unfold at_. rewrite (view_same _ _ _ n S2); [auto|]. rewrite in_app_iff. tauto.
      * cbn [map fst]. constructor; auto. unfold at_. rewrite (view_same _ _ _ o S2); [auto|]. rewrite in_app_iff. tauto.
      * intros u U. cbn [app In] in U. rewrite in_app_iff in U. cbn [In] in U.
        rewrite S2, S1; [reflexivity| |]; [cbn [In]|rewrite in_app_iff]; tauto.
Qed.
Lemma destroys_views : forall N ps xs st, lens N st -> NoDup ps -> Forall2 (at_ st) ps xs ->
  exists st', timer_run N st (map TDestroy ps) =
      Ok (st', flat_map (fun px => map (fun c => TCalled (fst px) c (fst (snd px))) (snd (snd px))) (combine ps xs)) /\
    lens N st' /\ (forall p, In p ps -> st' p = None) /\ same_but ps st st'.
Proof.
  intros N. induction ps as [|p ps IH]; intros xs st L D F.
  - exists st. inversion F; subst. cbn. repeat split; auto. intros p [].
  - inversion F as [|? [z cs] ? xs' A F']; subst. inversion D as [|? ? D1 D2]; subst.
    destruct (step_destroy N st p z cs L A) as (s1 & R1 & L1 & V1 & S1).
    destruct (IH xs' s1 L1 D2) as (s2 & R2 & L2 & V2 & S2).
    { apply (at_same _ _ _ _ _ S1); [|exact F']. intros q Q [->| []]. contradiction. }
    exists s2. cbn [map combine flat_map fst snd]. split; [apply (run_step _ _ _ _ _ _ _ _ R1 R2)|]. split; [exact L2|].
    split.
    + intros q [<-|Q]; [|apply V2; auto]. rewrite S2 by auto. exact V1.
    + intros u U. cbn [In] in U. rewrite S2, S1; [reflexivity| |]; cbn [In]; tauto.
Qed.

Lemma empty_calls : forall ps (xs : list (Z * list callable)),
  flat_map (fun px => map (fun c => TCalled (fst px) c (fst (snd px))) (snd (snd px)))
    (combine ps (map (fun x => (fst x, [])) xs)) = [].
Proof. induction ps as [|p ps IH]; intros [|x xs]; cbn; auto. Qed.

Lemma grow_views : forall N olds news xs st, lens N st -> NoDup (olds ++ news) -> length olds = length news ->
  Forall2 (at_ st) olds xs -> (forall p, In p news -> st p = None) ->
  exists st', timer_run N st (grow_ops olds news) = Ok (st', []) /\
    Forall2 (at_ st') news xs /\ (forall p, In p olds -> st' p = None) /\ same_but (olds ++ news) st st'.
Proof.
  intros N olds news xs st L D E F W.
  destruct (moves_views N olds news xs st L D E F W) as (s1 & R1 & L1 & Fn & Fo & S1).
  assert (Do : NoDup olds) by (clear - D; induction olds; [constructor|]; inversion D; subst; constructor;
    [rewrite in_app_iff in *; tauto|auto]).
  destruct (destroys_views N olds _ s1 L1 Do Fo) as (s2 & R2 & L2 & V2 & S2).
  rewrite empty_calls in R2. exists s2. split; [exact (run_append _ _ _ _ _ _ _ _ R1 R2)|]. split; [|split; [exact V2|]].
  - apply (at_same _ _ _ _ _ S2); [|exact Fn]. intros p P Q. clear - D P Q.
    induction olds as [|o olds IH]; [exact Q|]. cbn [app] in D. inversion D; subst. destruct Q as [->|Q]; [|auto].
    rewrite in_app_iff in *. tauto.
  - intros u U. rewrite in_app_iff in U. rewrite S2, S1; [reflexivity| |]; rewrite ?in_app_iff; tauto.
Qed.

(** * Erasing *)

Lemma erase_views : forall N ps p x xs st, lens N st -> NoDup (p :: ps) -> Forall2 (at_ st) (p :: ps) (x :: xs) ->
  exists st', timer_run N st (erase_ops (p :: ps)) =
      Ok (st', match xs with [] => map (fun c => TCalled p c (fst x)) (snd x) | _ => [] end) /\
    Forall2 (at_ st') (removelast (p :: ps)) xs /\ st' (last (p :: ps) 0%nat) = None /\ same_but (p :: ps) st st'.
Proof.
  intros N. induction ps as [|q ps IH]; intros p x xs st L D F.
  - inversion F as [|? ? ? ? A F']; subst. inversion F'; subst. destruct x as [z cs].
    destruct (step_destroy N st p z cs L A) as (s1 & R1 & L1 & V1 & S1).
    exists s1. cbn [erase_ops fst snd removelast last]. split; [|split; [constructor|split; auto]].
    rewrite <- (app_nil_r (map _ cs)). apply (run_step _ _ _ _ _ _ _ _ R1). reflexivity.
  - inversion F as [|? ? ? ? A F']; subst. inversion F' as [|? [z cs] ? xs' B F'']; subst.
    inversion D as [|? ? D1 D2]; subst. inversion D2 as [|? ? D3 D4]; subst.
    assert (pq : p <> q) by (intros ->; apply D1; left; auto).
    destruct (step_assign N st p q _ _ _ L pq A B) as (s1 & R1 & L1 & V1p & V1q & S1).
    assert (G : Forall2 (at_ s1) (q :: ps) ((z, []) :: xs')).
    { constructor; auto. apply (at_same _ _ _ _ _ S1); [|exact F'']. intros r I. cbn [In].
      intros [->| [->| []]]; [apply D1; right; auto|contradiction]. }
    destruct (IH q (z, []) xs' s1 L1 D2 G) as (s2 & R2 & Fs & Vl & S2).
    exists s2. split; [|split; [|split]].
    + change (erase_ops (p :: q :: ps)) with (TAssign p q :: erase_ops (q :: ps)).
      rewrite (run_step _ _ _ _ _ _ _ _ R1 R2). cbn [snd map app]. destruct xs'; reflexivity.
    + change (removelast (p :: q :: ps)) with (p :: removelast (q :: ps)). constructor; [|exact Fs].
      unfold at_. rewrite (view_same _ _ _ p S2) by auto. exact V1p.
    + exact Vl.
    + intros u U. cbn [In] in U. rewrite S2, S1; [reflexivity| |]; cbn [In]; tauto.
Qed.

(** * Inserting *)

(** [d] has been emptied, [rs] follow; afterwards the last of them is empty *)
Lemma shifts_views : forall N rs xs d z st, lens N st -> NoDup (d :: rs) -> at_ st d (z, []) -> Forall2 (at_ st) rs xs ->
  exists st' z', timer_run N st (shifts (d :: rs)) = Ok (st', []) /\ lens N st' /\
    Forall2 (at_ st') (removelast (d :: rs)) xs /\ at_ st' (last (d :: rs) 0%nat) (z', []) /\ same_but (d :: rs) st st'.
Proof.
  intros N. induction rs as [|q rs IH]; intros xs d z st L D A F.
  - inversion F; subst. exists st, z. cbn [shifts timer_run removelast last]. repeat split; auto; constructor.
  - inversion F as [|? [zq cq] ? xs' B F']; subst. inversion D as [|? ? D1 D2]; subst.
    assert (dq : d <> q) by (intros ->; apply D1; left; auto).
    inversion D2 as [|? ? D3 D4]; subst.
    destruct (step_assign N st d q _ _ _ L dq A B) as (s1 & R1 & L1 & V1d & V1q & S1).
    assert (G : Forall2 (at_ s1) rs xs').
    { apply (at_same _ _ _ _ _ S1); [|exact F']. intros r I. cbn [In].
      intros [->| [->| []]]; [apply D1; right; auto|contradiction]. }
    destruct (IH xs' q zq s1 L1 D2 V1q G) as (s2 & z' & R2 & L2 & Fs & Vl & S2).
    exists s2, z'. split; [|split; [exact L2|split; [|split]]].
    + change (shifts (d :: q :: rs)) with (TAssign d q :: shifts (q :: rs)).
      apply (run_step _ _ _ _ _ _ _ _ R1 R2).
    + change (removelast (d :: q :: rs)) with (d :: removelast (q :: rs)). constructor; [|exact Fs].
      unfold at_. rewrite (view_same _ _ _ d S2) by auto. exact V1d.
    + exact Vl.
    + intros u U. cbn [In] in U. rewrite S2, S1; [reflexivity| |]; cbn [In]; tauto.
Qed.

Lemma Forall2_rev_ : forall A B (R : A -> B -> Prop) l l', Forall2 R l l' -> Forall2 R (rev l) (rev l').
Proof. intros A B R l l' F. induction F; cbn; [constructor|]. apply Forall2_app; auto. Qed.

Lemma insert_views : forall N tmp ps free x xs st, lens N st -> NoDup (tmp :: free :: ps) ->
  Forall2 (at_ st) ps xs -> at_ st tmp x -> st free = None ->
  exists st', timer_run N st (insert_ops tmp ps free) = Ok (st', []) /\
    Forall2 (at_ st') (ps ++ [free]) (x :: xs) /\ st' tmp = None /\ same_but (tmp :: free :: ps) st st'.
Proof.
  intros N tmp ps free [z cs] xs st L D F A W. unfold insert_ops.
  inversion D as [|? ? D1 D2]; subst. inversion D2 as [|? ? D3 D4]; subst.
  apply Forall2_rev_ in F. apply NoDup_rev in D4.
  assert (Dr : forall u, In u (rev ps) <-> In u ps) by (intros u; symmetry; apply in_rev).
  enough (X : exists st', timer_run N st (match rev ps with [] => [TMove free tmp; TDestroy tmp]
      | q :: rs => TMove free q :: shifts (q :: rs) ++ [TAssign (last (q :: rs) 0%nat) tmp; TDestroy tmp] end) = Ok (st', []) /\
    Forall2 (at_ st') (rev (rev ps) ++ [free]) ((z, cs) :: rev (rev xs)) /\ st' tmp = None /\
    same_but (tmp :: free :: ps) st st') by (rewrite !rev_involutive in X; exact X).
  assert (tf : tmp <> free) by (intros ->; apply D1; left; auto).
  assert (tp : ~ In tmp (rev ps)) by (rewrite Dr; intros I; apply D1; right; auto).
  assert (fp : ~ In free (rev ps)) by (rewrite Dr; auto).
  assert (SB : forall st', same_but (tmp :: free :: rev ps) st st' -> same_but (tmp :: free :: ps) st st').
  { intros st' S. apply (same_incl _ _ _ _ S). intros u. cbn [In]. rewrite Dr. auto. }
  clear D D1 D2 D3. revert F D4 Dr tp fp SB. generalize (rev ps) as rs, (rev xs) as ys. intros rs ys F D4 Dr tp fp SB.
  destruct rs as [|q rs].
  - inversion F; subst.
    destruct (step_move N st free tmp z cs L W A) as (s1 & R1 & L1 & V1f & V1t & S1).
    destruct (step_destroy N s1 tmp _ _ L1 V1t) as (s2 & R2 & L2 & V2 & S2).
    exists s2. split; [|split; [|split; [exact V2|]]].
    + apply (run_step _ _ _ _ _ _ _ _ R1). apply (run_step _ _ _ _ _ _ _ _ R2). reflexivity.
    + cbn [rev app]. constructor; [|constructor]. unfold at_. rewrite (view_same _ _ _ free S2) by (cbn; intuition congruence). exact V1f.
    + apply SB. intros u U. cbn [In] in U. rewrite S2, S1; [reflexivity| |]; cbn [In]; tauto.
  - inversion F as [|? [zq cq] ? ys' B F']; subst.
    cbn [In] in tp, fp.
    destruct (step_move N st free q zq cq L W B) as (s1 & R1 & L1 & V1f & V1q & S1).
    inversion D4 as [|? ? D5 D6]; subst.
    assert (G : Forall2 (at_ s1) rs ys').
    { apply (at_same _ _ _ _ _ S1); [|exact F']. intros r I. cbn [In]. intros [->| [->| []]]; tauto. }
    destruct (shifts_views N rs ys' q zq s1 L1 D4 V1q G) as (s2 & z2 & R2 & L2 & Fs & Vl & S2).
    assert (V2t : view s2 tmp = Some (z, cs)).
    { rewrite (view_same _ _ _ tmp S2) by (cbn [In]; tauto). rewrite (view_same _ _ _ tmp S1); [exact A|].
      cbn [In]. intuition congruence. }
    assert (Il : In (last (q :: rs) 0%nat) (q :: rs)).
    { rewrite (app_removelast_last 0%nat (l := q :: rs)) at 2 by discriminate. apply in_or_app. right. left. reflexivity. }
    assert (lt : last (q :: rs) 0%nat <> tmp) by (intros E; rewrite E in Il; cbn [In] in Il; tauto).
    destruct (step_assign N s2 _ tmp _ _ _ L2 lt Vl V2t) as (s3 & R3 & L3 & V3l & V3t & S3).
    destruct (step_destroy N s3 tmp _ _ L3 V3t) as (s4 & R4 & L4 & V4 & S4).
    assert (Dl : ~ In (last (q :: rs) 0%nat) (removelast (q :: rs))).
    { pose proof (app_removelast_last 0%nat (l := q :: rs) ltac:(discriminate)) as E.
      rewrite E in D4. apply NoDup_remove_2 in D4. rewrite app_nil_r in D4. exact D4. }
    assert (Sub : forall u, In u (removelast (q :: rs)) -> In u (q :: rs)).
    { intros u I. rewrite (app_removelast_last 0%nat (l := q :: rs)) by discriminate. apply in_or_app. auto. }
    exists s4. split; [|split; [|split; [exact V4|]]].
    + apply (run_step _ _ _ _ _ _ _ _ R1). apply (run_append _ _ _ _ [] _ _ _ R2).
      apply (run_step _ _ _ _ _ _ _ _ R3). apply (run_step _ _ _ _ _ _ _ _ R4). reflexivity.
    + rewrite <- (app_nil_r (rev ((zq, cq) :: ys'))). 
      assert (H : Forall2 (at_ s4) (free :: removelast (q :: rs) ++ [last (q :: rs) 0%nat]) ((zq, cq) :: ys' ++ [(z, cs)])).
      { constructor.
        - unfold at_. rewrite (view_same _ _ _ free S4) by (cbn [In]; intuition congruence).
          rewrite (view_same _ _ _ free S3).
          + rewrite (view_same _ _ _ free S2) by (cbn [In]; tauto). exact V1f.
          + cbn [In]. intros [E|[E|[]]]; [rewrite E in Il; cbn [In] in Il; tauto|congruence].
        - apply Forall2_app.
          + apply (at_same _ _ _ _ _ S4); [intros p P [<-|[]]; apply Sub in P; cbn [In] in P; tauto|].
            apply (at_same _ _ _ _ _ S3); [|exact Fs]. intros p P. cbn [In].
            intros [<-|[<-|[]]]; [contradiction|]. apply Sub in P. cbn [In] in P. tauto.
          + constructor; [|constructor]. unfold at_. rewrite (view_same _ _ _ _ S4) by (cbn [In]; intuition congruence).
            exact V3l. }
      rewrite <- app_removelast_last in H by discriminate. apply Forall2_rev_ in H.
      rewrite app_nil_r. cbn [rev] in H |- *. rewrite rev_app_distr in H. cbn [rev app] in H. exact H.
    + apply SB. intros u U. cbn [In] in U. rewrite S4, S3, S2, S1; [reflexivity| | | |]; cbn [In]; try tauto.
      intros [E|[E|[]]]; [rewrite <- E in U; cbn [In] in Il; tauto|tauto].
Qed.

(** * Sequences of swaps *)

Definition flip (a b u : nat) : nat := if Nat.eqb u a then b else if Nat.eqb u b then a else u.
Lemma flip_flip : forall a b u, flip a b (flip a b u) = u.
Proof.
  intros a b u. unfold flip. destruct (Nat.eqb_spec u a) as [->|A].
  - destruct (Nat.eqb_spec b a); [auto|]. rewrite Nat.eqb_refl. reflexivity.
  - destruct (Nat.eqb_spec u b) as [->|B]; [rewrite Nat.eqb_refl; reflexivity|].
    destruct (Nat.eqb_spec u a); [contradiction|]. destruct (Nat.eqb_spec u b); [contradiction|]. reflexivity.
Qed.
Lemma flip_permutes : forall a b ps, NoDup ps -> In a ps -> In b ps -> Permutation ps (map (flip a b) ps).
Proof.
  intros a b ps D A B. apply NoDup_Permutation; auto.
  - apply FinFun.Injective_map_NoDup; [|exact D]. intros u v E.
    rewrite <- (flip_flip a b u), E. apply flip_flip.
  - intros u. rewrite in_map_iff. split.
    + intros U. exists (flip a b u). split; [apply flip_flip|]. unfold flip.
      destruct (Nat.eqb u a); [auto|]. destruct (Nat.eqb u b); auto.
    + intros [v [<- V]]. unfold flip. destruct (Nat.eqb v a); [auto|]. destruct (Nat.eqb v b); auto.
Qed.

Lemma lens_swap : forall N st t a b za ca zb cb st', lens N st -> st t = None ->
  view st a = Some (za, ca) -> view st b = Some (zb, cb) ->
  timer_run N st (swap_ops t a b) = Ok (st', []) -> lens N st'.
Proof.
  intros N st t a b za ca zb cb st' L T A B R. unfold view in A, B.
  destruct (st a) as [ta|] eqn:Ea; [|discriminate A]. destruct (st b) as [tb|] eqn:Eb; [|discriminate B].
  assert (G : forall ops s s' e, lens N s -> timer_run N s ops = Ok (s', e) ->
    (forall o, In o ops -> match o with TMove _ _ | TAssign _ _ | TDestroy _ => True | _ => False end) -> lens N s').
  { clear. induction ops as [|o ops IH]; intros s s' e L R O; cbn [timer_run] in R.
    - injection R as <- _. exact L.
    - destruct (timer_step N s o) as [[s1 x]| | |] eqn:S; try discriminate R. cbn [bind] in R.
      destruct (timer_run N s1 ops) as [[s2 y]| | |] eqn:R2; try discriminate R. cbn [bind] in R. injection R as <- _.
      apply (IH s1 s2 y); [|exact R2|intros o' I; apply O; right; auto].
      pose proof (O o (or_introl eq_refl)) as K. destruct o; try contradiction; cbn [timer_step] in S.
      + destruct (s d); [discriminate S|]. destruct (s s0) as [ot|] eqn:E; [|discriminate S].
        cbn [timer_move] in S. rewrite copy_all in S by (eauto; unfold zeros; apply repeat_length). injection S as <- _.
        intros u t. unfold put. destruct (Nat.eqb u d); [intros Q; injection Q as <-; cbn; eauto|].
        destruct (Nat.eqb u s0); [intros Q; injection Q as <-; cbn; eauto|]. apply L.
      + destruct (s d) as [td|] eqn:Ed; [|discriminate S]. destruct (s s0) as [ot|] eqn:E; [|discriminate S].
        destruct (Nat.eqb d s0).
        * unfold timer_assign_self in S. rewrite copy_all in S by eauto. injection S as <- _.
          intros u t. unfold put. destruct (Nat.eqb u d); [intros Q; injection Q as <-; cbn; eauto|]. apply L.
        * cbn [timer_assign] in S. rewrite copy_all in S by eauto. injection S as <- _.
          intros u t. unfold put. destruct (Nat.eqb u d); [intros Q; injection Q as <-; cbn; eauto|].
          destruct (Nat.eqb u s0); [intros Q; injection Q as <-; cbn; eauto|]. apply L.
      + destruct (s s0) as [ot|] eqn:E; [|discriminate S]. injection S as <- _.
        intros u t. unfold put. destruct (Nat.eqb u s0); [discriminate 1|]. apply L. }
  apply (G _ _ _ _ L R). unfold swap_ops. intros o [<-|[<-|[<-|[<-|[]]]]]; exact I.
Qed.

Lemma at_in : forall st ps xs p, Forall2 (at_ st) ps xs -> In p ps -> exists z cs, view st p = Some (z, cs).
Proof.
  intros st ps xs p F. induction F as [|q [z cs] ps xs A F IH]; [intros []|]. intros [<-|I]; [|auto]. exists z, cs. exact A.
Qed.
Definition seen (st : store) (p : nat) : Z * list callable := match view st p with Some x => x | None => (0, []) end.
Lemma at_seen : forall st ps xs, Forall2 (at_ st) ps xs -> xs = map (seen st) ps.
Proof.
  intros st ps xs F. induction F as [|p x ps xs A F IH]; [reflexivity|]. cbn [map]. rewrite <- IH. f_equal.
  unfold seen. unfold at_ in A. rewrite A. reflexivity.
Qed.
Lemma seen_at : forall st ps, (forall p, In p ps -> view st p <> None) -> Forall2 (at_ st) ps (map (seen st) ps).
Proof.
  intros st ps. induction ps as [|p ps IH]; intros V; cbn [map]; constructor.
  - unfold at_, seen. destruct (view st p) eqn:E; [reflexivity|]. exfalso. apply (V p); [left; auto|exact E].
  - apply IH. intros q Q. apply V. right. exact Q.
Qed.

Lemma swaps_views : forall N t ps l xs st, lens N st -> st t = None -> NoDup ps -> Forall2 (at_ st) ps xs ->
  (forall ab, In ab l -> In (fst ab) ps /\ In (snd ab) ps) ->
  exists st' xs', timer_run N st (swaps_ops t l) = Ok (st', []) /\ Permutation xs xs' /\
    Forall2 (at_ st') ps xs' /\ st' t = None /\ same_but (t :: ps) st st'.
Proof.
  intros N t ps. induction l as [|[a b] l IH]; intros xs st L T D F I.
  - exists st, xs. repeat split; auto.
  - destruct (I (a, b) (or_introl eq_refl)) as [Ia Ib]. cbn [fst snd] in Ia, Ib.
    destruct (at_in _ _ _ _ F Ia) as (za & ca & Va). destruct (at_in _ _ _ _ F Ib) as (zb & cb & Vb).
    destruct (swap_views N st t a b _ _ _ _ L T Va Vb) as (s1 & R1 & W1a & W1b & T1 & S1).
    pose proof (lens_swap _ _ _ _ _ _ _ _ _ _ L T Va Vb R1) as L1.
    assert (Vt : view st t = None) by (apply view_none; exact T).
    assert (FL : forall p, In p ps -> view s1 p = view st (flip a b p)).
    { intros p P. unfold flip. destruct (Nat.eqb_spec p a) as [->|Na]; [congruence|].
      destruct (Nat.eqb_spec p b) as [->|Nb]; [congruence|]. apply (view_same _ _ _ p S1). cbn [In].
      destruct (at_in _ _ _ _ F P) as (zp & cp & Vp). intuition congruence. }
    assert (FI : forall p, In p ps -> In (flip a b p) ps).
    { intros p P. unfold flip. destruct (Nat.eqb p a); [auto|]. destruct (Nat.eqb p b); auto. }
    assert (F1 : Forall2 (at_ s1) ps (map (seen s1) ps)).
    { apply seen_at. intros p P. rewrite FL by auto. destruct (at_in _ _ _ _ F (FI p P)) as (z & c & E). congruence. }
    destruct (IH _ s1 L1 T1 D F1) as (s2 & xs2 & R2 & P2 & F2 & T2 & S2); [intros ab Q; apply I; right; auto|].
    exists s2, xs2. split; [|split; [|split; [exact F2|split; [exact T2|]]]].
    + unfold swaps_ops. cbn [flat_map fst snd]. apply (run_append _ _ _ _ [] _ _ _ R1 R2).
    + apply Permutation_trans with (map (seen s1) ps); [|exact P2].
      rewrite (at_seen _ _ _ F). rewrite (map_ext_in (seen s1) (fun p => seen st (flip a b p)) ps).
      * rewrite <- (map_map (flip a b) (seen st)). apply Permutation_map. apply flip_permutes; auto.
      * intros p P. unfold seen. rewrite FL by auto. reflexivity.
    + intros u U. cbn [In] in U. rewrite S2 by (cbn [In]; tauto). apply S1. cbn [In]. intros [->|[->|[->|[]]]]; tauto.
Qed.

(** * In terms of what is observed, after every history *)

Lemma Forall2_impl_ : forall A B (R R' : A -> B -> Prop) l l', (forall a b, R a b -> R' a b) -> Forall2 R l l' -> Forall2 R' l l'.
Proof. intros A B R R' l l' H F. induction F; constructor; auto. Qed.
Lemma shows_at : forall N st ps xs, Forall2 (shows N st) ps xs -> Forall2 (at_ st) ps xs.
Proof. intros N st ps xs. apply Forall2_impl_. intros p x H. apply shows_view in H. exact H. Qed.
Lemma at_shows : forall N st ps xs, Forall2 (at_ st) ps xs -> Forall2 (shows N st) ps xs.
Proof. intros N st ps xs. apply Forall2_impl_. intros p x H. apply shows_view. exact H. Qed.

Lemma shelf_swap : forall N ops st es t a b x y, timer_run N no_timers ops = Ok (st, es) ->
  st t = None -> shows N st a x -> shows N st b y ->
  exists st', timer_run N st (swap_ops t a b) = Ok (st', []) /\
    shows N st' a y /\ shows N st' b x /\ st' t = None /\
    forall u, u <> t -> u <> a -> u <> b -> st' u = st u.
Proof.
  intros N ops st es t a b [za ca] [zb cb] H T A B. apply shows_view in A. apply shows_view in B.
  destruct (swap_views N st t a b _ _ _ _ (lens_run _ _ _ _ H) T A B) as (st' & R & X & Y & Z & S).
  exists st'. rewrite !shows_view. repeat split; auto. intros u U1 U2 U3. apply S. cbn [In]. intuition congruence.
Qed.
Lemma shelf_swaps : forall N ops st es t ps l xs, timer_run N no_timers ops = Ok (st, es) ->
  st t = None -> NoDup ps -> Forall2 (shows N st) ps xs ->
  (forall a b, In (a, b) l -> In a ps /\ In b ps) ->
  exists st' xs', timer_run N st (swaps_ops t l) = Ok (st', []) /\
    Permutation xs xs' /\ Forall2 (shows N st') ps xs' /\
    forall u, u <> t -> ~ In u ps -> st' u = st u.
Proof.
  intros N ops st es t ps l xs H T D F I.
  destruct (swaps_views N t ps l xs st (lens_run _ _ _ _ H) T D (shows_at _ _ _ _ F)) as (st' & xs' & R & P & F' & _ & S).
  { intros [a b] Q. apply I. exact Q. }
  exists st', xs'. repeat split; auto; [apply at_shows; auto|]. intros u U1 U2. apply S. cbn [In]. intuition congruence.
Qed.
Lemma shelf_grow : forall N ops st es olds news xs, timer_run N no_timers ops = Ok (st, es) ->
  NoDup (olds ++ news) -> length olds = length news ->
  Forall2 (shows N st) olds xs -> (forall p, In p news -> st p = None) ->
  exists st', timer_run N st (grow_ops olds news) = Ok (st', []) /\
    Forall2 (shows N st') news xs /\ (forall p, In p olds -> st' p = None) /\
    forall u, ~ In u olds -> ~ In u news -> st' u = st u.
Proof.
  intros N ops st es olds news xs H D E F W.
  destruct (grow_views N olds news xs st (lens_run _ _ _ _ H) D E (shows_at _ _ _ _ F) W) as (st' & R & F' & V & S).
  exists st'. repeat split; auto; [apply at_shows; auto|]. intros u U1 U2. apply S. rewrite in_app_iff. tauto.
Qed.
Lemma shelf_insert : forall N ops st es tmp ps free x xs, timer_run N no_timers ops = Ok (st, es) ->
  NoDup (tmp :: free :: ps) -> Forall2 (shows N st) ps xs -> shows N st tmp x -> st free = None ->
  exists st', timer_run N st (insert_ops tmp ps free) = Ok (st', []) /\
    Forall2 (shows N st') (ps ++ [free]) (x :: xs) /\ st' tmp = None /\
    forall u, ~ In u (tmp :: free :: ps) -> st' u = st u.
Proof.
  intros N ops st es tmp ps free x xs H D F A W. apply shows_view in A.
  destruct (insert_views N tmp ps free x xs st (lens_run _ _ _ _ H) D (shows_at _ _ _ _ F) A W) as (st' & R & F' & V & S).
  exists st'. repeat split; auto. apply at_shows; auto.
Qed.
Lemma shelf_clear : forall N ops st es ps xs, timer_run N no_timers ops = Ok (st, es) ->
  NoDup ps -> Forall2 (shows N st) ps xs ->
  exists st', timer_run N st (map TDestroy ps) = Ok (st', calls_of ps xs) /\
    (forall p, In p ps -> st' p = None) /\ forall u, ~ In u ps -> st' u = st u.
Proof.
  intros N ops st es ps xs H D F.
  destruct (destroys_views N ps xs st (lens_run _ _ _ _ H) D (shows_at _ _ _ _ F)) as (st' & R & _ & V & S).
  exists st'. repeat split; auto.
Qed.
Lemma shelf_erase : forall N ops st es p ps x xs, timer_run N no_timers ops = Ok (st, es) ->
  NoDup (p :: ps) -> shows N st p x -> Forall2 (shows N st) ps xs ->
  exists st', timer_run N st (erase_ops (p :: ps)) =
      Ok (st', match ps with [] => map (fun c => TCalled p c (fst x)) (snd x) | _ => [] end) /\
    Forall2 (shows N st') (removelast (p :: ps)) xs /\ st' (last (p :: ps) 0%nat) = None /\
    forall u, ~ In u (p :: ps) -> st' u = st u.
Proof.
  intros N ops st es p ps x xs H D A F. apply shows_view in A.
  assert (F0 : Forall2 (at_ st) (p :: ps) (x :: xs)) by (constructor; [exact A|apply shows_at with N; exact F]).
  destruct (erase_views N ps p x xs st (lens_run _ _ _ _ H) D F0) as (st' & R & F' & V & S).
  exists st'. split; [|split; [apply at_shows; exact F'|split; [exact V|exact S]]].
  rewrite R. destruct F; reflexivity.
Qed.
Lemma shelf_lost : forall c1 c2 : callable, length (snd c1) = 8%nat -> length (snd c2) = 8%nat ->
  exists st, timer_run 8 no_timers ([TNew 0 1 c1; TNew 1 2 c2] ++ erase_ops [0; 1]%nat ++ [TDestroy 0]) = Ok (st, [TCalled 0 c2 2]) /\
    forall u, st u = None.
Proof.
  intros [t1 b1] [t2 b2] E1 E2. cbn [snd] in E1, E2.
  do 9 (destruct b1 as [|? b1]; cbn [length] in E1; try discriminate E1).
  do 9 (destruct b2 as [|? b2]; cbn [length] in E2; try discriminate E2).
  eexists. split; [reflexivity|]. intros [|[|u]]; reflexivity.
Qed.
