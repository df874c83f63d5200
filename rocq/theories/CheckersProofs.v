(** Proofs about CheckersModel.v. *)

Require Import List Bool Arith String.
Require Import Verif.TraitsSpec Verif.TraitsModel Verif.TraitsProofs Verif.CheckersSpec Verif.CheckersModel.
Import ListNotations.
Open Scope string_scope.

Lemma class_dec : forall t, (exists k, class_of t = Some k /\ class_type t k) \/ (class_of t = None /\ forall k, ~ class_type t k).
Proof.
  intros t. destruct (class_of t) as [k|] eqn:E.
  - left. exists k. split; auto. apply class_of_iff; auto.
  - right. split; auto. intros k H. apply class_of_iff in H. congruence.
Qed.

Ltac same_class := match goal with H : class_type ?t ?k, H' : class_type ?t ?k' |- _ =>
  assert (k' = k) as -> by (eapply class_type_det; eauto); clear H' end.

(** ** Types *)

Lemma type_helper_some : forall K x t u, type_helper K x [t] = Some u <-> names_type K t x u.
Proof.
  intros. unfold type_helper, names_type. destruct (class_dec t) as [(k & -> & C)|(-> & C)].
  - destruct (K k x) as [[o [] []]|] eqn:E; split; intros H; try discriminate;
      try (destruct H as (k' & o' & C' & E'); same_class; congruence).
    injection H as ->. eauto.
  - split; [discriminate|]. intros (k & o & H & _). destruct (C k H).
Qed.

Lemma has_type_iff : forall K x t, has_type K x t = true <-> exists u, names_type K t x u.
Proof.
  intros. unfold has_type. rewrite detected_iff.
  destruct (type_helper K x [t]) as [u|] eqn:E.
  - split; [intros _; exists u; apply type_helper_some; auto|congruence].
  - split; [congruence|]. intros (u & H). apply type_helper_some in H. congruence.
Qed.

Lemma has_exact_type_iff : forall K x t e, e <> nonesuch -> (has_exact_type K x t e = true <-> names_type K t x e).
Proof. intros. unfold has_exact_type. rewrite detected_exact_iff by auto. apply type_helper_some. Qed.

Lemma has_convertible_type_iff : forall conv K x t to, conv nonesuch to = false ->
  (has_convertible_type conv K x t to = true <-> exists u, names_type K t x u /\ conv u to = true).
Proof.
  intros. unfold has_convertible_type. rewrite detected_convertible_iff by auto.
  split; intros (u & A & B); exists u; (split; [apply type_helper_some; auto|auto]).
Qed.

(** ** Data *)

Lemma is_function_false : forall u, (forall r a e q, u <> Fun r a e q) -> is_function u = false.
Proof. destruct u; intros H; auto. edestruct H. reflexivity. Qed.

Lemma has_data_iff : forall K x t, wf_classes K ->
  (has_data K x t = true <-> exists k o u, class_type t k /\ K k x = Some (Found o true (DData u false)) /\ no_reference u).
Proof.
  intros K x t W. unfold has_data, is_detected, detector, address_of.
  destruct (class_dec t) as [(k & -> & C)|(-> & C)].
  2:{ cbn. split; [discriminate|]. intros (k & o & u & H & _). destruct (C k H). }
  pose proof (W k x) as Wk.
  destruct (K k x) as [[o p [u|u b|u|l]]|] eqn:E.
  - cbn. split; [discriminate|]. intros (k' & o' & u' & C' & E' & _). same_class. congruence.
  - specialize (Wk o p _ eq_refl). cbn in Wk. apply is_function_false in Wk.
    destruct p, b; cbn [negb orb].
    2:{ destruct u; cbn in *; try discriminate; split; try discriminate; intros; auto;
          try (do 3 eexists; split; [eauto|split; [eauto|exact I]]);
          destruct H as (k' & o' & u' & C' & E' & N); same_class; rewrite E in E'; injection E' as <- <-; destruct N. }
    all: cbn; split; [discriminate|]; intros (k' & o' & u' & C' & E' & N); same_class; congruence.
  - specialize (Wk o p _ eq_refl). cbn in Wk. split.
    + destruct p; cbn; [destruct u; cbn; discriminate|discriminate].
    + intros (k' & o' & u' & C' & E' & N). same_class. congruence.
  - specialize (Wk o p _ eq_refl). destruct Wk as [F _]. split.
    + destruct l as [|m [|]]; cbn; try discriminate. destruct (F m (or_introl eq_refl)) as (_ & r & a & e & q & ->).
      destruct (o_public m), (o_static m); cbn; discriminate.
    + intros (k' & o' & u' & C' & E' & N). same_class. congruence.
  - cbn. split; [discriminate|]. intros (k' & o' & u' & C' & E' & _). same_class. congruence.
Qed.

Lemma has_static_data_iff : forall K x t, wf_classes K ->
  (has_static_data K x t = true <-> exists k o u, class_type t k /\ K k x = Some (Found o true (DStaticData u)) /\
     forall r a e q, u <> LRef (Fun r a e q) /\ u <> RRef (Fun r a e q)).
Proof.
  intros K x t W. unfold has_static_data, is_detected, detector, address_of.
  destruct (class_dec t) as [(k & -> & C)|(-> & C)].
  2:{ cbn. split; [discriminate|]. intros (k & o & u & H & _). destruct (C k H). }
  pose proof (W k x) as Wk.
  destruct (K k x) as [[o p [u|u b|u|l]]|] eqn:E.
  - cbn. split; [discriminate|]. intros (k' & o' & u' & C' & E' & _). same_class. congruence.
  - split.
    + destruct p, b; cbn; try discriminate. destruct u; cbn; discriminate.
    + intros (k' & o' & u' & C' & E' & N). same_class. congruence.
  - specialize (Wk o p _ eq_refl). cbn in Wk. apply is_function_false in Wk.
    destruct p; cbn [negb].
    + split.
      * intros H. do 3 eexists. split; [eauto|]. split; [eauto|].
        intros r a e q. split; intros ->; cbn in H; discriminate.
      * intros (k' & o' & u' & C' & E' & N). same_class. rewrite E in E'. injection E' as <- <-.
        destruct u; cbn in *; auto; try discriminate; apply negb_true_iff, is_function_false; intros r a e q ->; destruct (N r a e q); congruence.
    + cbn. split; [discriminate|]. intros (k' & o' & u' & C' & E' & N). same_class. congruence.
  - specialize (Wk o p _ eq_refl). destruct Wk as [F _]. split.
    + destruct l as [|m [|]]; cbn; try discriminate. destruct (F m (or_introl eq_refl)) as (_ & r & a & e & q & ->).
      destruct (o_public m), (o_static m); cbn; discriminate.
    + intros (k' & o' & u' & C' & E' & N). same_class. congruence.
  - cbn. split; [discriminate|]. intros (k' & o' & u' & C' & E' & _). same_class. congruence.
Qed.

(** ** Functions *)

Lemma fits_iff : forall s f m, (exists r a e q, o_type m = Fun r a e q) ->
  (fits s f m = true <-> o_static m = s /\ (o_type m = f \/ o_type m = with_noexcept f)).
Proof.
  intros s f m (r & a & e & q & E). unfold fits. rewrite E, andb_true_iff, orb_true_iff, eqb_true_iff, !ty_eqb_eq.
  split; intros [-> H]; (split; [auto|]).
  - destruct H as [->| <-]; [auto|]. cbn. destruct q as [c v x []]; auto.
  - destruct H as [->|H]; [auto|]. destruct f; cbn in H; try discriminate; auto.
    injection H as -> -> -> ->. cbn. destruct q0 as [c v x []]; auto.
Qed.

Lemma fits_clash : forall s s' f m m', (exists r a e q, o_type m = Fun r a e q) -> (exists r a e q, o_type m' = Fun r a e q) ->
  fits s f m = true -> fits s' f m' = true -> clash (o_type m) (o_type m').
Proof.
  intros * H H' F F'. apply fits_iff in F as [_ F]; auto. apply fits_iff in F' as [_ F']; auto.
  destruct H as (r & a & e & q & E), H' as (r' & a' & e' & q' & E'). rewrite E, E' in *.
  assert (exists r a e q, f = Fun r a e q) as (r0 & a0 & e0 & q0 & ->).
  { destruct F as [<-|F]; [eauto|]. destruct f; cbn in F; try discriminate. eauto. }
  cbn in *. destruct F as [[= -> -> -> ->]|[= -> -> -> ->]], F' as [[= -> -> -> ->]|[= -> -> -> ->]];
    cbn; auto.
Qed.

Lemma fits_unique : forall l s f,
  (forall m, In m l -> o_template m = false /\ exists r a e q, o_type m = Fun r a e q) ->
  ForallOrdPairs (fun a b => ~ clash (o_type a) (o_type b)) l ->
  forall m, In m l -> fits s f m = true -> filter (fits s f) l = [m].
Proof.
  induction l as [|x l IH]; intros s f T D m Hm Hf; [destruct Hm|].
  inversion D as [|? ? Dx Dl]; subst. cbn [filter].
  destruct Hm as [->|Hm].
  - rewrite Hf. f_equal. destruct (filter (fits s f) l) as [|y l'] eqn:E; [auto|].
    assert (In y (filter (fits s f) l)) as Hy by (rewrite E; left; auto). apply filter_In in Hy as [Iy Fy].
    rewrite Forall_forall in Dx. destruct (Dx y Iy). eapply fits_clash; eauto; apply T; [left|right]; auto.
  - destruct (fits s f x) eqn:Ex.
    + rewrite Forall_forall in Dx. destruct (Dx m Hm). eapply fits_clash; eauto; apply T; [left|right]; auto.
    + apply IH; auto. intros; apply T; right; auto.
Qed.

Lemma pick : forall K k x t o p l s f (r : ty), wf_classes K -> class_type t k -> K k x = Some (Found o p (DFunctions l)) ->
  match filter (fits s f) l with [m] => if o_public m then Some r else None | _ => None end <> None <->
  has_function K s t x f.
Proof.
  intros * W C E. pose proof (W k x o p _ E) as [T D]. split.
  - destruct (filter (fits s f) l) as [|m [|]] eqn:F; try congruence.
    destruct (o_public m) eqn:P; [|congruence]. intros _.
    assert (In m (filter (fits s f) l)) as Hm by (rewrite F; left; auto). apply filter_In in Hm as [Im Fm].
    apply fits_iff in Fm as [S V]; [|apply T; auto]. exists k, o, p, l, m. repeat split; auto.
  - intros (k' & o' & p' & l' & m & C' & E' & Im & P & S & V). same_class.
    rewrite E in E'. injection E' as <- <- <-.
    assert (fits s f m = true) as Fm by (apply fits_iff; auto; apply T; auto).
    rewrite (fits_unique l s f T D m Im Fm), P. congruence.
Qed.

Lemma not_functions : forall K k x t s f, class_type t k ->
  (forall o p l, K k x <> Some (Found o p (DFunctions l))) -> ~ has_function K s t x f.
Proof. intros * C N (k' & o & p & l & m & C' & E & _). same_class. destruct (N o p l E). Qed.

Lemma pointer_member : forall K x t k f, wf_classes K ->
  (pointer_to K x t (MemPtr k f) <> None <-> has_function K false t x f).
Proof.
  intros K x t k' f W. unfold pointer_to. destruct (class_dec t) as [(k & -> & C)|(-> & C)].
  - destruct (K k x) as [[o p [u|u b|u|l]]|] eqn:E.
    4: eapply pick; eauto.
    all: split; [congruence|]; intros H; exfalso; eapply (not_functions K k x t); eauto; congruence.
  - split; [congruence|]. intros (k & o & p & l & m & H & _). destruct (C k H).
Qed.

Lemma pointer_plain : forall K x t f, wf_classes K ->
  (pointer_to K x t (Ptr f) <> None <-> has_function K true t x f).
Proof.
  intros K x t f W. unfold pointer_to. destruct (class_dec t) as [(k & -> & C)|(-> & C)].
  - destruct (K k x) as [[o p [u|u b|u|l]]|] eqn:E.
    4: eapply pick; eauto.
    all: split; [congruence|]; intros H; exfalso; eapply (not_functions K k x t); eauto; congruence.
  - split; [congruence|]. intros (k & o & p & l & m & H & _). destruct (C k H).
Qed.

Lemma xrow_of : forall q, exists w, xrow_named (suffix q) = Some w /\ x_suffix w = suffix q /\
  spell (x_c w) (x_v w) (x_r w) (x_n w) = Some q.
Proof.
  intros [c v r n]. destruct c, v, r, n; (eexists; split; [vm_compute; reflexivity|split; vm_compute; reflexivity]).
Qed.

Lemma has_invocable_r_iff : forall K q x r t args, wf_classes K -> exists b,
  has_invocable_r K (suffix q) x r t args = Some b /\
  (b = true <-> has_function K false t x (fn r (map param args) q)).
Proof.
  intros K q x r t args W. unfold has_invocable_r, method_pointer.
  destruct (xrow_of q) as (w & E & S & Q). rewrite E, S, E.
  eexists. split; [reflexivity|]. rewrite detected_iff. unfold method_ptr_t, declare. rewrite Q.
  destruct (class_dec t) as [(k & -> & C)|(-> & C)].
  - apply pointer_member. auto.
  - split; [congruence|]. intros (k & o & p & l & m & H & _). destruct (C k H).
Qed.

Lemma rows_named :
  forallb (fun w => match spell (x_c w) (x_v w) (x_r w) (x_n w) with
                    | Some q => String.eqb (x_suffix w) (suffix q)
                    | None => false
                    end) SYMBOLIZED_QUALIFIERS = true.
Proof. vm_compute. reflexivity. Qed.

Lemma find_row_some : forall l s w, find_row l s = Some w -> In w l /\ x_suffix w = s.
Proof.
  intros l s w H. unfold find_row in H. destruct (filter _ l) as [|w' [|]] eqn:F; try discriminate. injection H as ->.
  assert (In w (filter (fun w => String.eqb (x_suffix w) s) l)) as I by (rewrite F; left; reflexivity).
  apply filter_In in I as [I E]. apply String.eqb_eq in E. auto.
Qed.

Lemma named_suffix : forall s w, xrow_named s = Some w -> exists q, s = suffix q.
Proof.
  intros s w E. destruct (find_row_some SYMBOLIZED_QUALIFIERS s w E) as [I <-].
  assert (H := proj1 (forallb_forall _ _) rows_named w I). cbv beta in H.
  destruct (spell (x_c w) (x_v w) (x_r w) (x_n w)) as [q|]; [|discriminate].
  exists q. apply String.eqb_eq. exact H.
Qed.

(** no other checker is defined *)
Lemma suffix_only : forall K s x r t args, has_invocable_r K s x r t args <> None -> exists q, s = suffix q.
Proof.
  intros K s x r t args. unfold has_invocable_r. destruct (xrow_named s) as [w|] eqn:E; [|congruence]. intros _.
  apply (named_suffix s w E).
Qed.

Lemma has_static_invocable_r_iff : forall K (n : bool) x r t args, wf_classes K -> exists b,
  has_static_invocable_r K (if n then "_noexcept" else "") x r t args = Some b /\
  (b = true <-> has_function K true t x (fn r (map param args) (Quals false false RefNone n))).
Proof.
  intros K n x r t args W. destruct n; (eexists; split; [reflexivity|]); rewrite detected_iff; apply pointer_plain; auto.
Qed.

(** ** Calls *)

Lemma has_invocable_iff : forall c t args, has_invocable c t args = true <-> c (t :: args) <> None.
Proof.
  intros. unfold has_invocable. rewrite detected_iff. unfold call_t.
  destruct (c (t :: args)) as [[]|]; split; congruence.
Qed.

Lemma has_invocable_noexcept_iff : forall c t args,
  has_invocable_noexcept c t args = true <-> exists r, c (t :: args) = Some (r, true).
Proof.
  intros. unfold has_invocable_noexcept. rewrite detected_exact_iff by discriminate. unfold call_noexcept_t.
  destruct (c (t :: args)) as [[r []]|]; cbn; split; intros H; try discriminate; eauto;
    destruct H as (? & H); try discriminate; auto.
Qed.

Lemma has_static_invocable_iff : forall conv (n : bool) c t args,
  conv true_type true_type = true -> conv false_type true_type = false -> conv nonesuch true_type = false ->
  exists b, has_static_invocable conv (if n then "_noexcept" else "") c t args = Some b /\
  (b = true <-> exists r m, c (t :: args) = Some (r, m) /\ (n = true -> m = true)).
Proof.
  intros conv n c t args T F N.
  destruct n; (eexists; split; [reflexivity|]); unfold is_detected_convertible, detected_t, detector, static_method_result, call_noexcept_t;
    (destruct (c (t :: args)) as [[r []]|]; cbn; rewrite ?T, ?F, ?N; split; intros H; try discriminate;
     try (do 2 eexists; split; [reflexivity|auto; fail]); auto;
     destruct H as (? & ? & H & G); try discriminate; injection H as <- <-; try discriminate (G eq_refl); auto).
Qed.

Lemma is_f_invocable_iff : forall c args, is_f_invocable c args = true <-> c args <> None.
Proof. intros. unfold is_f_invocable. rewrite detected_iff. unfold call_t. destruct (c args) as [[]|]; split; congruence. Qed.

Lemma is_f_noexcept_invocable_iff : forall c args, is_f_noexcept_invocable c args = true <-> exists r, c args = Some (r, true).
Proof.
  intros. unfold is_f_noexcept_invocable. rewrite detected_iff. unfold noexcept_return_t.
  destruct (c args) as [[r []]|]; split; intros H; try congruence; eauto; destruct H as (? & H); congruence.
Qed.

Lemma is_f_invocable_r_iff : forall c r args, r <> nonesuch ->
  (is_f_invocable_r c r args = true <-> exists n, c args = Some (r, n)).
Proof.
  intros. unfold is_f_invocable_r. rewrite detected_exact_iff by auto. unfold call_t.
  destruct (c args) as [[r' n]|]; split; intros E; try discriminate.
  - injection E as ->. eauto.
  - destruct E as (n' & [= -> ->]). auto.
  - destruct E as (? & [=]).
Qed.

Lemma is_f_noexcept_invocable_r_iff : forall c r args, r <> nonesuch ->
  (is_f_noexcept_invocable_r c r args = true <-> c args = Some (r, true)).
Proof.
  intros. unfold is_f_noexcept_invocable_r. rewrite detected_exact_iff by auto. unfold noexcept_return_t.
  destruct (c args) as [[r' []]|]; split; intros E; try discriminate; congruence.
Qed.
