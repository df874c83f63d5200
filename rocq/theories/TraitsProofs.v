(** Proofs about TraitsModel.v. *)

Require Import List Bool Arith String.
Require Import Verif.TraitsSpec Verif.TraitsModel.
Import ListNotations.

(** ** Type identity *)

Lemma refq_eqb_eq : forall a b, refq_eqb a b = true <-> a = b.
Proof. destruct a, b; cbn; split; congruence. Qed.

Lemma cvq_eqb_eq : forall a b, cvq_eqb a b = true <-> a = b.
Proof. destruct a, b; cbn; split; congruence. Qed.

Lemma quals_eqb_eq : forall a b, quals_eqb a b = true <-> a = b.
Proof.
  intros [c v r n] [c' v' r' n']. unfold quals_eqb. cbn.
  rewrite !andb_true_iff, !eqb_true_iff, refq_eqb_eq.
  split; [intros [[[-> ->] ->] ->]|intros [= -> -> -> ->]]; auto.
Qed.

Lemma ty_ind' : forall P : ty -> Prop,
  (forall n, P (Fund n)) -> (forall n, P (Class n)) -> (forall t, P t -> P (Ptr t)) ->
  (forall t, P t -> P (LRef t)) -> (forall t, P t -> P (RRef t)) ->
  (forall c t, P t -> P (Cv c t)) -> (forall k t, P t -> P (MemPtr k t)) ->
  (forall r args e q, P r -> Forall P args -> P (Fun r args e q)) ->
  forall t, P t.
Proof.
  intros P H1 H2 H3 H4 H5 H6 H7 H8.
  fix IH 1. intros [n|n|t|t|t|c t|k t|r args e q].
  - apply H1.
  - apply H2.
  - apply H3, IH.
  - apply H4, IH.
  - apply H5, IH.
  - apply H6, IH.
  - apply H7, IH.
  - apply H8; [apply IH|]. induction args as [|a args IHl]; constructor; [apply IH|apply IHl].
Qed.

Lemma ty_eqb_eq : forall a b, ty_eqb a b = true <-> a = b.
Proof.
  induction a as [n|n|t IH|t IH|t IH|c t IH|k t IH|r args e q IHr IHa] using ty_ind';
    intros [m|m|u|u|u|c' u|k' u|r' args' e' q']; cbn [ty_eqb]; try (split; congruence).
  1,2: rewrite Nat.eqb_eq; split; congruence.
  1,2,3: rewrite IH; split; congruence.
  - rewrite andb_true_iff, cvq_eqb_eq, IH. split; [intros [-> ->]|intros [= -> ->]]; auto.
  - rewrite andb_true_iff, Nat.eqb_eq, IH. split; [intros [-> ->]|intros [= -> ->]]; auto.
  - rewrite !andb_true_iff, eqb_true_iff, quals_eqb_eq, IHr.
    match goal with |- context [?f args args' = true] => assert (f args args' = true <-> args = args') as ->; [|split; [intros [[[-> ->] ->] ->]|intros [= -> -> -> ->]]; auto] end.
    revert args'. induction IHa as [|x xs Hx _ IHxs]; intros [|y ys]; try (split; congruence).
    rewrite andb_true_iff, Hx, IHxs. split; [intros [-> ->]|intros [= -> ->]]; auto.
Qed.

Lemma ty_eqb_refl : forall a, ty_eqb a a = true.
Proof. intros. apply ty_eqb_eq. reflexivity. Qed.

(** ** detector.h *)

Lemma detected_iff : forall op args, is_detected op args = true <-> op args <> None.
Proof. intros. unfold is_detected, detector. destruct (op args); cbn; split; congruence. Qed.

Lemma detected_or_some : forall d op args t, op args = Some t -> detected_or_t d op args = t.
Proof. intros * H. unfold detected_or_t, detector. rewrite H. reflexivity. Qed.

Lemma detected_or_none : forall d op args, op args = None -> detected_or_t d op args = d.
Proof. intros * H. unfold detected_or_t, detector. rewrite H. reflexivity. Qed.

Lemma detected_exact_iff : forall e op args, e <> nonesuch ->
  (is_detected_exact e op args = true <-> op args = Some e).
Proof.
  intros * Ne. unfold is_detected_exact, detected_t, detector. rewrite ty_eqb_eq.
  destruct (op args); cbn; split; congruence.
Qed.

Lemma detected_convertible_iff : forall conv to op args, conv nonesuch to = false ->
  (is_detected_convertible conv to op args = true <-> exists t, op args = Some t /\ conv t to = true).
Proof.
  intros * Ne. unfold is_detected_convertible, detected_t, detector.
  destruct (op args) as [t|]; cbn; split; intros H.
  - eauto.
  - destruct H as (t' & [= ->] & ?); auto.
  - congruence.
  - destruct H as (t' & [=] & _).
Qed.

Lemma detected_convertible_exact : forall conv to op args,
  is_detected_convertible conv to op args = true <->
  (exists t, op args = Some t /\ conv t to = true) \/ (op args = None /\ conv nonesuch to = true).
Proof.
  intros conv to op args. unfold is_detected_convertible, detected_t, detector.
  destruct (op args) as [t|]; cbn; split; intros H.
  - eauto.
  - destruct H as [(t' & [= ->] & ?)|[[=] _]]; auto.
  - auto.
  - destruct H as [(t' & [=] & _)|[_ H]]; auto.
Qed.

(** ** The table *)

Lemma filter_rows : forall q, exists w,
  filter (row_matches q) QUALIFIERS = [w] /\ spell (r_c w) (r_v w) (r_r w) (r_n w) = Some q /\
  has_const (r_c w) = q_const q /\ has_volatile (r_v w) = q_volatile q /\
  has_lvalue_reference (r_r w) = (match q_ref q with RefL => true | _ => false end) /\
  has_rvalue_reference (r_r w) = (match q_ref q with RefR => true | _ => false end) /\
  has_noexcept (r_n w) = q_noexcept q /\
  spell "" (r_v w) (r_r w) (r_n w) = Some (without_const q) /\
  spell (r_c w) "" (r_r w) (r_n w) = Some (without_volatile q) /\
  spell (r_c w) (r_v w) "" (r_n w) = Some (without_ref q) /\
  spell (r_c w) (r_v w) (r_r w) "" = Some (without_noexcept q).
Proof.
  intros [c v r n].
  destruct c, v, r, n; (eexists; split; [vm_compute; reflexivity|repeat split]).
Qed.

Lemma table_compiles : forallb well_spelled QUALIFIERS = true.
Proof. vm_compute. reflexivity. Qed.

Ltac row q := unfold select, fn, declare; rewrite table_compiles; destruct (filter_rows q) as (w & -> & Hs & Hc & Hv & Hl & Hr & Hn & Sc & Sv & Sr & Sn).

Lemma const_q : forall r args q, has_const_qualifier (fn r args q) = Some (q_const q).
Proof. intros. unfold has_const_qualifier. row q. congruence. Qed.
Lemma volatile_q : forall r args q, has_volatile_qualifier (fn r args q) = Some (q_volatile q).
Proof. intros. unfold has_volatile_qualifier. row q. congruence. Qed.
Lemma lref_q : forall r args q, has_lvalue_reference_qualifier (fn r args q) =
  Some (match q_ref q with RefL => true | _ => false end).
Proof. intros. unfold has_lvalue_reference_qualifier. row q. congruence. Qed.
Lemma rref_q : forall r args q, has_rvalue_reference_qualifier (fn r args q) =
  Some (match q_ref q with RefR => true | _ => false end).
Proof. intros. unfold has_rvalue_reference_qualifier. row q. congruence. Qed.
Lemma noexcept_q : forall r args q, has_noexcept_qualifier (fn r args q) = Some (q_noexcept q).
Proof. intros. unfold has_noexcept_qualifier. row q. congruence. Qed.

Lemma rm_const : forall r args q, remove_const_qualifier (fn r args q) = Some (fn r args (without_const q)).
Proof. intros. unfold remove_const_qualifier. row q. rewrite Sc. reflexivity. Qed.
Lemma rm_volatile : forall r args q, remove_volatile_qualifier (fn r args q) = Some (fn r args (without_volatile q)).
Proof. intros. unfold remove_volatile_qualifier. row q. rewrite Sv. reflexivity. Qed.
Lemma rm_ref : forall r args q, remove_reference_qualifier (fn r args q) = Some (fn r args (without_ref q)).
Proof. intros. unfold remove_reference_qualifier. row q. rewrite Sr. reflexivity. Qed.
Lemma rm_noexcept : forall r args q, remove_noexcept_qualifier (fn r args q) = Some (fn r args (without_noexcept q)).
Proof. intros. unfold remove_noexcept_qualifier. row q. rewrite Sn. reflexivity. Qed.
Lemma rm_all : forall r args q, remove_all_qualifiers (fn r args q) = Some (fn r args no_quals).
Proof. intros. unfold remove_all_qualifiers. row q. reflexivity. Qed.
Lemma ret_q : forall r args q, return_type (fn r args q) = Some r.
Proof. intros. unfold return_type. row q. reflexivity. Qed.
Lemma params_q : forall r args q, params_list (fn r args q) = Some args.
Proof. intros. unfold params_list. row q. reflexivity. Qed.

(** a type that is not [fn r args q] is rejected *)
Lemma select_none : forall t, (forall r args q, t <> fn r args q) -> select t = None.
Proof.
  intros [] H; try reflexivity. destruct e; [reflexivity|]. destruct (H r args q). reflexivity.
Qed.

Lemma is_fn_dec : forall t, (exists r args q, t = fn r args q) \/ (forall r args q, t <> fn r args q).
Proof.
  intros []; try (right; intros; discriminate).
  destruct e; [right; intros; discriminate|left; unfold fn; eauto].
Qed.

Lemma removers : forall f g t,
  In f [remove_const_qualifier; remove_volatile_qualifier; remove_reference_qualifier;
        remove_noexcept_qualifier; remove_all_qualifiers] ->
  In g [remove_const_qualifier; remove_volatile_qualifier; remove_reference_qualifier;
        remove_noexcept_qualifier; remove_all_qualifiers] ->
  bind_ty (f t) f = f t /\ bind_ty (f t) g = bind_ty (g t) f.
Proof.
  intros f g t Hf Hg. destruct (is_fn_dec t) as [(r & args & q & ->)|H].
  - assert (forall h, In h [remove_const_qualifier; remove_volatile_qualifier; remove_reference_qualifier;
        remove_noexcept_qualifier; remove_all_qualifiers] -> exists k, (forall q, h (fn r args q) = Some (fn r args (k q))) /\
        In k [without_const; without_volatile; without_ref; without_noexcept; fun _ => no_quals]) as R.
    { intros h. cbn [In]. intros [<-|[<-|[<-|[<-|[<-|[]]]]]].
      - exists without_const. split; [intros; apply rm_const|auto].
      - exists without_volatile. split; [intros; apply rm_volatile|auto].
      - exists without_ref. split; [intros; apply rm_ref|auto].
      - exists without_noexcept. split; [intros; apply rm_noexcept|auto].
      - exists (fun _ => no_quals). split; [intros; apply rm_all|auto 6]. }
    destruct (R f Hf) as (k & Ek & Ik), (R g Hg) as (l & El & Il).
    rewrite !Ek, !El. cbn [bind_ty]. rewrite !Ek, !El.
    cbn [In] in Ik, Il.
    destruct Ik as [<-|[<-|[<-|[<-|[<-|[]]]]]], Il as [<-|[<-|[<-|[<-|[<-|[]]]]]]; auto.
  - assert (forall h, In h [remove_const_qualifier; remove_volatile_qualifier; remove_reference_qualifier;
        remove_noexcept_qualifier; remove_all_qualifiers] -> h t = None) as R.
    { apply select_none in H. intros h. cbn [In]. intros [<-|[<-|[<-|[<-|[<-|[]]]]]];
        unfold remove_const_qualifier, remove_volatile_qualifier, remove_reference_qualifier,
          remove_noexcept_qualifier, remove_all_qualifiers; rewrite H; reflexivity. }
    rewrite (R f Hf), (R g Hg). auto.
Qed.

Lemma determined : forall t u,
  return_type t <> None ->
  return_type t = return_type u -> params_list t = params_list u ->
  has_const_qualifier t = has_const_qualifier u ->
  has_volatile_qualifier t = has_volatile_qualifier u ->
  has_lvalue_reference_qualifier t = has_lvalue_reference_qualifier u ->
  has_rvalue_reference_qualifier t = has_rvalue_reference_qualifier u ->
  has_noexcept_qualifier t = has_noexcept_qualifier u -> t = u.
Proof.
  intros t u N. destruct (is_fn_dec t) as [(r & args & q & ->)|H].
  2:{ apply select_none in H. unfold return_type in N. rewrite H in N. congruence. }
  destruct (is_fn_dec u) as [(r' & args' & q' & ->)|H].
  2:{ apply select_none in H. intros E. rewrite E in N. unfold return_type in N. rewrite H in N. congruence. }
  rewrite !ret_q, !params_q, !const_q, !volatile_q, !lref_q, !rref_q, !noexcept_q.
  intros [= ->] [= ->] [= E1] [= E2] [= E3] [= E4] [= E5].
  destruct q as [c v x n], q' as [c' v' x' n']; cbn in *. subst. destruct x, x'; congruence.
Qed.

Lemma ellipsis_rejected : forall r args q,
  has_const_qualifier (Fun r args true q) = None /\ has_volatile_qualifier (Fun r args true q) = None /\
  has_lvalue_reference_qualifier (Fun r args true q) = None /\ has_rvalue_reference_qualifier (Fun r args true q) = None /\
  has_noexcept_qualifier (Fun r args true q) = None /\ remove_const_qualifier (Fun r args true q) = None /\
  remove_volatile_qualifier (Fun r args true q) = None /\ remove_reference_qualifier (Fun r args true q) = None /\
  remove_noexcept_qualifier (Fun r args true q) = None /\ remove_all_qualifiers (Fun r args true q) = None /\
  return_type (Fun r args true q) = None /\ params_list (Fun r args true q) = None.
Proof. intros. repeat split. Qed.

(** ** is_invocable, signature *)

Lemma class_of_iff : forall t k, class_of t = Some k <-> class_type t k.
Proof.
  split.
  - revert k. induction t; cbn; intros k0 H; try discriminate.
    + injection H as <-. constructor.
    + constructor. auto.
  - induction 1; auto.
Qed.

Lemma functor_impl : forall P t p, cpp17 P ->
  (is_simple_functor_impl P [t] = Some p <->
   exists k o, class_type t k /\ one_call_operator P k o /\ p = MemPtr (ops_owner (P k)) (o_type o)).
Proof.
  intros P t p Hf. assert (forall k o, In o (ops_all (P k)) -> o_static o = false) as Hs by (intros; eapply Hf; eauto). cbn. split.
  - destruct (class_of t) as [k|] eqn:C; [|discriminate].
    destruct (ops_all (P k)) as [|o [|]] eqn:E; try discriminate.
    destruct (o_template o || negb (o_public o)) eqn:B; [discriminate|].
    rewrite (Hs k o) by (rewrite E; left; reflexivity). intros [= <-].
    apply orb_false_iff in B as [B1 B2]. apply negb_false_iff in B2.
    exists k, o. apply class_of_iff in C. unfold one_call_operator. repeat split; auto.
    apply (Hs k). rewrite E. left; reflexivity.
  - intros (k & o & C & (E & Pu & Te & St) & ->). apply class_of_iff in C. rewrite C, E, Te, Pu. cbn.
    rewrite St. reflexivity.
Qed.

Lemma functor_iff : forall P t, cpp17 P ->
  (is_simple_functor P t = true <-> exists k o, class_type t k /\ one_call_operator P k o).
Proof.
  intros P t Hf. unfold is_simple_functor. rewrite detected_iff. split.
  - destruct (is_simple_functor_impl P [t]) as [p|] eqn:E; [|congruence]. intros _.
    apply functor_impl in E as (k & o & C & O & _); eauto.
  - intros (k & o & C & O).
    assert (is_simple_functor_impl P [t] = Some (MemPtr (ops_owner (P k)) (o_type o))) as ->; [|congruence].
    apply functor_impl; eauto 6.
Qed.

Lemma functor_only_class : forall P t, class_of t = None -> is_simple_functor P t = false.
Proof. intros P t H. unfold is_simple_functor, is_detected, detector. cbn. rewrite H. reflexivity. Qed.

Lemma invocable_missed : forall P t, missed t -> is_invocable P t = false.
Proof.
  intros P t H.
  assert (forall t u, up_to_cv t u -> class_of u = None -> class_of t = None) as C.
  { induction 1; auto. }
  destruct H as [c t u U|c t k u U|r args q].
  - assert (class_of (Cv c t) = None) by (apply (C _ (Ptr u)); [constructor; auto|reflexivity]).
    cbn -[is_simple_functor]. apply functor_only_class. auto.
  - assert (class_of (Cv c t) = None) by (apply (C _ (MemPtr k u)); [constructor; auto|reflexivity]).
    cbn -[is_simple_functor]. apply functor_only_class. auto.
  - cbn -[is_simple_functor]. apply functor_only_class. auto.
Qed.

Lemma invocable_classifies : forall P t, cpp17 P ->
  (forall u, t = Ptr u -> pointee_ok u) ->
  (is_invocable P t = true <-> invocable P t /\ ~ missed t).
Proof.
  intros P t Hf Hp. split.
  - intros H0. split; [|intros Hm; rewrite invocable_missed in H0; congruence]. revert H0.
    destruct t as [n|k|t|t|t|c t|k t|r args e q]; cbn -[is_simple_functor quals_eqb spell]; intros H.
    + rewrite functor_only_class in H; [discriminate|reflexivity].
    + apply functor_iff in H as (k' & o & C & O); auto. eapply inv_functor; eauto.
    + destruct t; try (rewrite functor_only_class in H; [discriminate|reflexivity]).
      destruct e; [rewrite functor_only_class in H; [discriminate|reflexivity]|].
      eapply inv_pointer. constructor.
    + rewrite functor_only_class in H; [discriminate|reflexivity].
    + rewrite functor_only_class in H; [discriminate|reflexivity].
    + apply functor_iff in H as (k' & o & C & O); auto. eapply inv_functor; eauto.
    + destruct t; try discriminate. eapply inv_member. constructor.
    + constructor.
  - intros (H & Hm). destruct H as [r args e q|t r args e q U|t k r args e q U|t k o C O].
    + reflexivity.
    + inversion U; subst.
      2:{ destruct Hm. eapply missed_cv_pointer; eauto. }
      destruct e; [destruct Hm; constructor|].
      specialize (Hp _ eq_refl). cbn in Hp. destruct q as [c v x n]; cbn in Hp. destruct Hp as (-> & -> & ->).
      destruct n; reflexivity.
    + inversion U; subst; [reflexivity|]. destruct Hm. eapply missed_cv_member; eauto.
    + assert (is_simple_functor P t = true) as F by (apply functor_iff; eauto).
      destruct C as [k|c t k C]; cbn -[is_simple_functor]; rewrite F; reflexivity.
Qed.

Lemma class_type_det : forall t k k', class_type t k -> class_type t k' -> k = k'.
Proof. intros * A B. apply class_of_iff in A, B. congruence. Qed.

Lemma signature_function : forall P r args e q, signature P (Fun r args e q) = Some (Fun r args e q).
Proof. reflexivity. Qed.

Lemma signature_functor : forall P t k o, cpp17 P ->
  class_type t k -> one_call_operator P k o ->
  signature P t = Some (o_type o) /\ functor_signature P t = Some (o_type o).
Proof.
  intros * Hf C O. unfold signature, functor_signature.
  assert (is_simple_functor_impl P [t] = Some (MemPtr (ops_owner (P k)) (o_type o))) as -> by (apply functor_impl; eauto 6).
  assert (is_function t = false) as -> by (inversion C; reflexivity). auto.
Qed.

Lemma signature_none : forall P t, cpp17 P ->
  (forall r args e q, t <> Fun r args e q) -> (forall k o, class_type t k -> ~ one_call_operator P k o) ->
  signature P t = None.
Proof.
  intros P t Hf N1 N2. unfold signature.
  assert (is_function t = false) as -> by (destruct t; try reflexivity; edestruct N1; reflexivity).
  destruct (is_simple_functor_impl P [t]) as [p|] eqn:E; auto.
  apply functor_impl in E as (k & o & C & O & _); auto. destruct (N2 k o C O).
Qed.

Lemma compiles_without_ellipsis : forall r args e q,
  (forall f, In f [has_const_qualifier; has_volatile_qualifier; has_lvalue_reference_qualifier;
                   has_rvalue_reference_qualifier; has_noexcept_qualifier] -> f (Fun r args e q) <> None <-> e = false) /\
  (forall f, In f [remove_const_qualifier; remove_volatile_qualifier; remove_reference_qualifier;
                   remove_noexcept_qualifier; remove_all_qualifiers; return_type] -> f (Fun r args e q) <> None <-> e = false) /\
  (params_list (Fun r args e q) <> None <-> e = false).
Proof.
  intros r args e q.
  assert (X : forall (A : Type) (f : ty -> option A) a, f (Fun r args false q) = Some a -> f (Fun r args true q) = None ->
    f (Fun r args e q) <> None <-> e = false).
  { intros A f a H N. destruct e; [rewrite N|rewrite H]; split; congruence. }
  destruct (ellipsis_rejected r args q) as (E1 & E2 & E3 & E4 & E5 & E6 & E7 & E8 & E9 & E10 & E11 & E12).
  split; [|split].
  - intros f [<-|[<-|[<-|[<-|[<-|[]]]]]];
      [exact (X _ _ _ (const_q r args q) E1)|exact (X _ _ _ (volatile_q r args q) E2)|exact (X _ _ _ (lref_q r args q) E3)
      |exact (X _ _ _ (rref_q r args q) E4)|exact (X _ _ _ (noexcept_q r args q) E5)].
  - intros f [<-|[<-|[<-|[<-|[<-|[<-|[]]]]]]];
      [exact (X _ _ _ (rm_const r args q) E6)|exact (X _ _ _ (rm_volatile r args q) E7)|exact (X _ _ _ (rm_ref r args q) E8)
      |exact (X _ _ _ (rm_noexcept r args q) E9)|exact (X _ _ _ (rm_all r args q) E10)|exact (X _ _ _ (ret_q r args q) E11)].
  - exact (X _ _ _ (params_q r args q) E12).
Qed.
