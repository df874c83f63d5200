(** Lemmas about the names of the checkers. *)

Require Import List Bool String Ascii Arith Lia.
Require Import Verif.TraitsSpec Verif.CheckersSpec Verif.CheckersModel Verif.NamesSpec Verif.NamesModel.
Import ListNotations.
Open Scope string_scope.

(** * Strings *)

Lemma app_nil_s : forall x, x ++ "" = x.
Proof. induction x as [|c x IH]; cbn; [reflexivity|now rewrite IH]. Qed.
Lemma app_assoc_s : forall x y z, (x ++ y) ++ z = x ++ y ++ z.
Proof. induction x as [|c x IH]; intros; cbn; [reflexivity|now rewrite IH]. Qed.
Lemma app_inv_s : forall p x y, p ++ x = p ++ y -> x = y.
Proof. induction p as [|c p IH]; cbn; intros x y H; [exact H|]. injection H as H. auto. Qed.
Lemma length_app_s : forall x y, length (x ++ y) = length x + length y.
Proof. induction x as [|c x IH]; intros; cbn; [reflexivity|now rewrite IH]. Qed.

Fixpoint srev (x : string) : string := match x with "" => "" | String c y => srev y ++ String c "" end.
Lemma srev_app : forall x y, srev (x ++ y) = srev y ++ srev x.
Proof. induction x as [|c x IH]; intros y; cbn; [now rewrite app_nil_s|]. now rewrite IH, app_assoc_s. Qed.
Lemma srev_srev : forall x, srev (srev x) = x.
Proof. induction x as [|c x IH]; cbn; [reflexivity|]. rewrite srev_app, IH. reflexivity. Qed.
Lemma srev_inj : forall x y, srev x = srev y -> x = y.
Proof. intros x y H. rewrite <- (srev_srev x), H. apply srev_srev. Qed.
Lemma app_inv_end : forall p x y, x ++ p = y ++ p -> x = y.
Proof. intros p x y H. apply srev_inj, (app_inv_s (srev p)). rewrite <- !srev_app. now f_equal. Qed.

(** * Equations  p ++ x ++ s = q ++ y ++ t  between the names of two templates *)

Fixpoint strip (p q : string) : option (string * string) :=
  match p, q with
  | String a p', String b q' => if Ascii.eqb a b then strip p' q' else None
  | _, _ => Some (p, q)
  end.
Definition strip_end (s t : string) : option (string * string) :=
  match strip (srev s) (srev t) with Some (b, d) => Some (srev b, srev d) | None => None end.

Lemma strip_ok : forall p q u v, p ++ u = q ++ v <-> match strip p q with Some (a, c) => a ++ u = c ++ v | None => False end.
Proof.
  induction p as [|a p IH]; intros q u v; [reflexivity|]. destruct q as [|b q]; [reflexivity|]. cbn.
  destruct (Ascii.eqb_spec a b) as [->|N].
  - rewrite <- IH. split; [intros H; injection H; auto|intros ->; reflexivity].
  - split; [intros H; injection H; auto|contradiction].
Qed.
Lemma strip_end_ok : forall s t u v, u ++ s = v ++ t <-> match strip_end s t with Some (b, d) => u ++ b = v ++ d | None => False end.
Proof.
  intros s t u v. assert (H := strip_ok (srev s) (srev t) (srev u) (srev v)). unfold strip_end.
  rewrite <- !srev_app in H. destruct (strip (srev s) (srev t)) as [[b d]|].
  - split.
    + intros E. assert (E' : srev (u ++ s) = srev (v ++ t)) by now f_equal. apply H in E'.
      apply srev_inj. rewrite !srev_app, !srev_srev. exact E'.
    + intros E. apply srev_inj. apply H. apply srev_inj. rewrite !srev_app, !srev_srev. exact E.
  - split; [|contradiction]. intros E. apply H. now f_equal.
Qed.

Definition form := (string * string * string * string)%type.
Definition holds (f : form) (x y : string) : Prop := let '(a, b, c, d) := f in a ++ x ++ b = c ++ y ++ d.
Definition solve (p s q t : string) : option form :=
  match strip p q, strip_end s t with
  | Some (a, c), Some (b, d) => Some (a, b, c, d)
  | _, _ => None
  end.
Lemma solve_ok : forall p s q t x y, p ++ x ++ s = q ++ y ++ t <-> match solve p s q t with Some f => holds f x y | None => False end.
Proof.
  intros p s q t x y. rewrite strip_ok. unfold solve. destruct (strip p q) as [[a c]|]; [|reflexivity].
  rewrite <- !app_assoc_s, strip_end_ok. destruct (strip_end s t) as [[b d]|]; [|reflexivity].
  unfold holds. rewrite !app_assoc_s. reflexivity.
Qed.

(** * The templates of a macro *)

Definition template := (scope * string * string)%type.
Definition fill (x : string) (t : template) : scope * string := let '(c, p, s) := t in (c, p ++ x ++ s).
Definition scope_eqb (a b : scope) : bool := match a, b with Outer, Outer | Details, Details => true | _, _ => false end.
Lemma scope_eqb_eq : forall a b, scope_eqb a b = true <-> a = b.
Proof. intros [] []; cbn; split; congruence. Qed.

Definition form_of (t u : template) : list form :=
  let '(c, p, s) := t in let '(d, q, r) := u in
  if scope_eqb c d then match solve p s q r with Some f => [f] | None => [] end else [].
Lemma form_dec : forall a b : form, {a = b} + {a <> b}.
Proof. repeat decide equality. Defined.
Definition forms (l m : list template) : list form := nodup form_dec (flat_map (fun t => flat_map (form_of t) m) l).

Lemma form_of_ok : forall t u x y, fill x t = fill y u <-> exists f, In f (form_of t u) /\ holds f x y.
Proof.
  intros [[c p] s] [[d q] r] x y. cbn [fill form_of]. split.
  - intros H. injection H as -> H. rewrite (proj2 (scope_eqb_eq d d) eq_refl). apply solve_ok in H.
    destruct (solve p s q r) as [f|]; [|contradiction]. exists f. split; [left; reflexivity|exact H].
  - intros [f [I H]]. destruct (scope_eqb c d) eqn:E; [|contradiction]. apply scope_eqb_eq in E. subst d. f_equal.
    apply solve_ok. destruct (solve p s q r) as [g|]; [|contradiction]. destruct I as [->|[]]. exact H.
Qed.
Lemma forms_ok : forall l m x y, clashing (map (fill x) l) (map (fill y) m) <-> exists f, In f (forms l m) /\ holds f x y.
Proof.
  intros l m x y. unfold clashing, forms. split.
  - intros [n [H1 H2]]. apply in_map_iff in H1. apply in_map_iff in H2. destruct H1 as [t [E1 I1]], H2 as [u [E2 I2]].
    assert (E : fill x t = fill y u) by congruence. apply form_of_ok in E. destruct E as [f [If H]]. exists f. split; [|exact H].
    apply nodup_In, in_flat_map. exists t. split; [exact I1|]. apply in_flat_map. eauto.
  - intros [f [I H]]. apply nodup_In, in_flat_map in I. destruct I as [t [I1 I]]. apply in_flat_map in I. destruct I as [u [I2 I]].
    assert (E : fill x t = fill y u) by (apply form_of_ok; eauto). exists (fill x t). split; [apply in_map; exact I1|].
    rewrite E. apply in_map. exact I2.
Qed.

Definition templates (m : maker) : list template :=
  match m with
  | MType => [(Details, "has_type_", "_helper"); (Outer, "has_type_", ""); (Outer, "has_type_", "_v");
              (Outer, "has_exact_type_", ""); (Outer, "has_exact_type_", "_v");
              (Outer, "has_convertible_type_", ""); (Outer, "has_convertible_type_", "_v")]
  | MData => [(Details, "not_static_", "_type"); (Details, "has_data_", ""); (Outer, "has_data_", ""); (Outer, "has_data_", "_v")]
  | MStaticData => [(Details, "static_", "_type"); (Details, "has_static_data_", "");
                    (Outer, "has_static_data_", ""); (Outer, "has_static_data_", "_v")]
  | MRMethod => flat_map (fun w => [(Details, "method_", x_suffix w ++ "_ptr_t"); (Outer, "has_invocable_r_", x_suffix w);
                                    (Outer, "has_invocable_r_", x_suffix w ++ "_v")]) SYMBOLIZED_QUALIFIERS
  | MMethod => [(Details, "is_invocable_", "_t"); (Details, "is_invocable_", "_noexcept_t"); (Outer, "has_invocable_", "");
                (Outer, "has_invocable_", "_v"); (Outer, "has_invocable_", "_noexcept"); (Outer, "has_invocable_", "_noexcept_v")]
  | MStaticMethod =>
      flat_map (fun e => [(Details, "static_method_result_", e ++ "_t"); (Details, "static_method_r_", e ++ "_ptr_t");
                          (Outer, "has_static_invocable_", e); (Outer, "has_static_invocable_", e ++ "_v");
                          (Outer, "has_static_invocable_r_", e); (Outer, "has_static_invocable_r_", e ++ "_v")]) [""; "_noexcept"]
  | MFree => [(Details, "", "_return_t"); (Details, "", "_noexcept_return_t");
              (Outer, "is_", "_invocable"); (Outer, "is_", "_invocable_v");
              (Outer, "is_", "_noexcept_invocable"); (Outer, "is_", "_noexcept_invocable_v");
              (Outer, "is_", "_invocable_r"); (Outer, "is_", "_invocable_r_v");
              (Outer, "is_", "_noexcept_invocable_r"); (Outer, "is_", "_noexcept_invocable_r_v")]
  end.

Lemma names_templates : forall m x, names m x = map (fill x) (templates m).
Proof.
  intros m x. destruct m; cbn -[append]; unfold type_names, data_names, static_data_names, r_method_names, method_names, static_method_names, free_names;
    cbn [flat_map map app SYMBOLIZED_QUALIFIERS SYMBOLIZED_STATIC_METHOD_QUALIFIERS x_sc x_sv x_sr x_sn fst fill];
    repeat first [reflexivity | rewrite !app_nil_s].
Qed.

(** * Which uses clash *)

Lemma by_form : forall f m n x y,
  (if in_dec form_dec f (forms (templates m) (templates n)) then true else false) = true ->
  holds f x y -> clashing (names m x) (names n y).
Proof.
  intros f m n x y I H. rewrite !names_templates. apply forms_ok. exists f. split; [|exact H].
  destruct (in_dec form_dec f (forms (templates m) (templates n))); [assumption|discriminate I].
Qed.

Lemma by_templates : forall t u m n x y, In t (templates m) -> In u (templates n) -> fill x t = fill y u -> clashing (names m x) (names n y).
Proof.
  intros t u m n x y H1 H2 E. rewrite !names_templates. exists (fill x t). split; [apply in_map; exact H1|]. rewrite E. apply in_map. exact H2.
Qed.

Definition r_endings : list string := flat_map (fun w => [x_suffix w; x_suffix w ++ "_v"]) SYMBOLIZED_QUALIFIERS.
Lemma r_endings_ok : forall e, r_ending e <-> In e r_endings.
Proof.
  intros e. split.
  - intros (q & v & Iv & ->). destruct q as [c w r n].     assert (D : forall e, (if in_dec string_dec e r_endings then true else false) = true -> In e r_endings)
      by (intros e0; destruct (in_dec string_dec e0 r_endings); [auto|discriminate]).
    destruct Iv as [<-|[<-|[]]]; destruct c, w, r, n; apply D; vm_compute; reflexivity.
  - intros I. apply in_flat_map in I. destruct I as [w [Iw I]].
    assert (Q : exists q, x_suffix w = suffix q).
    { assert (A : forall c v r n, exists q, suffix (Quals c v r n) = suffix q) by eauto.
      repeat (destruct Iw as [<-|Iw];
        [first [ exact (A false false RefNone false) | exact (A true false RefNone false)
               | exact (A false true RefNone false) | exact (A true true RefNone false)
               | exact (A false false RefL false) | exact (A true false RefL false)
               | exact (A false true RefL false) | exact (A true true RefL false)
               | exact (A false false RefR false) | exact (A true false RefR false)
               | exact (A false true RefR false) | exact (A true true RefR false)
               | exact (A false false RefNone true) | exact (A true false RefNone true)
               | exact (A false true RefNone true) | exact (A true true RefNone true)
               | exact (A false false RefL true) | exact (A true false RefL true)
               | exact (A false true RefL true) | exact (A true true RefL true)
               | exact (A false false RefR true) | exact (A true false RefR true)
               | exact (A false true RefR true) | exact (A true true RefR true) ]|]). contradiction. }
    destruct Q as [q Q]. destruct I as [<-|[<-|[]]]; rewrite Q.
    + exists q, "". split; [left; reflexivity|]. now rewrite app_nil_s.
    + exists q, "_v". split; [right; left; reflexivity|reflexivity].
Qed.

Lemma r_template : forall e, In e r_endings -> In (Outer, "has_invocable_r_", e) (templates MRMethod).
Proof.
  intros e I. unfold r_endings in I. apply in_flat_map in I. destruct I as [w [Iw I]]. apply in_flat_map. exists w. split; [exact Iw|].
  destruct I as [<-|[<-|[]]]; [right; left; reflexivity|right; right; left; reflexivity].
Qed.

Lemma clashing_sym : forall a b, clashing a b -> clashing b a.
Proof. intros a b [n [H1 H2]]. exists n. auto. Qed.

Ltac shape f := eapply (by_form f); [vm_compute; reflexivity|]; unfold holds; rewrite ?app_nil_s in *; cbn [append] in *; congruence.
Ltac each I := repeat (destruct I as [<-|I]; [|]); try contradiction.

Lemma collide1_clash : forall m x n y, collide1 m x n y -> clashing (names m x) (names n y).
Proof.
  intros m x n y H. destruct m, n; cbn [collide1] in H; try contradiction.
  - destruct H as (e & I & ->). each I; [shape ("", "", "", "")|shape ("", "_v", "", "")].
  - destruct H as (e & I & ->). each I; [shape ("", "", "", "")|shape ("", "_v", "", "")].
  - destruct H as (e & I & E). each I; [shape ("has_data_", "", "", "_return_t")|shape ("has_data_", "", "", "_noexcept_return_t")].
  - destruct H as (e & I & ->). each I; [shape ("", "", "", "")|shape ("", "_v", "", "")].
  - destruct H as (e & I & E). each I; [shape ("has_static_data_", "", "", "_return_t")|shape ("has_static_data_", "", "", "_noexcept_return_t")].
  - destruct H as (e & I & ->). apply r_endings_ok, r_template in I.
    refine (by_templates _ (Outer, "has_invocable_r_", "") _ _ x (x ++ e) I _ _); [right; left; reflexivity|].
    cbn [fill]. rewrite app_nil_s. reflexivity.
  - destruct H as [(e & I & E)|(e & I & ->)].
    + each I; [shape ("", "", "r_", "")|shape ("", "_v", "r_", "")|shape ("", "_noexcept", "r_", "")|shape ("", "_noexcept_v", "r_", "")].
    + apply r_endings_ok, r_template in I. refine (by_templates (Outer, "has_invocable_", "") _ _ _ ("r_" ++ y ++ e) y _ I _);
        [right; right; left; reflexivity|]. cbn [fill]. rewrite app_nil_s. reflexivity.
  - destruct H as (e & I & ->).
    each I; [shape ("", "", "", "")|shape ("", "_v", "", "")|shape ("", "_noexcept", "", "")|shape ("", "_noexcept_v", "", "")].
  - destruct H as (e & I & E). each I; [shape ("is_invocable_", "", "", "_return")|shape ("is_invocable_", "", "", "_noexcept_return")].
  - destruct H as (e & I & [->|[->|E]]).
    + each I; [shape ("", "", "", "")|shape ("", "_v", "", "")|shape ("", "_noexcept", "", "")|shape ("", "_noexcept_v", "", "")].
    + each I; [shape ("r_", "", "", "")|shape ("r_", "_v", "", "")|shape ("r_", "_noexcept", "", "")|shape ("r_", "_noexcept_v", "", "")].
    + each I; [shape ("r_", "", "", "")|shape ("r_", "", "", "_v")|shape ("r_", "", "", "_noexcept")|shape ("r_", "", "", "_noexcept_v")].
  - destruct H as (e & I & E). each I; [shape ("static_method_result_", "", "", "_return")|shape ("static_method_result_", "", "", "_noexcept_return")].
  - destruct H as (e & I & ->). each I; [shape ("", "", "", "")|shape ("", "_noexcept", "", "")].
Qed.

Definition mem (e : string) (l : list string) : bool := if in_dec string_dec e l then true else false.
Lemma mem_In : forall e l, mem e l = true -> In e l.
Proof. intros e l. unfold mem. destruct (in_dec string_dec e l); [auto|discriminate]. Qed.
Lemma all_forms : forall (ok : form -> bool) m n x y,
  forallb ok (forms (templates m) (templates n)) = true -> clashing (names m x) (names n y) ->
  exists f, ok f = true /\ holds f x y.
Proof.
  intros ok m n x y F H. rewrite !names_templates in H. apply forms_ok in H. destruct H as [f [I H]].
  exists f. split; [|exact H]. rewrite forallb_forall in F. auto.
Qed.
Definition shaped (a c : string) (bs ds : list string) (f : form) : bool :=
  let '(a', b, c', d) := f in String.eqb a' a && String.eqb c' c && (String.eqb b "" && mem d ds || String.eqb d "" && mem b bs).
Lemma shaped_holds : forall a c bs ds f x y, shaped a c bs ds f = true -> holds f x y ->
  (exists d, In d ds /\ a ++ x = c ++ y ++ d) \/ (exists b, In b bs /\ a ++ x ++ b = c ++ y).
Proof.
  intros a c bs ds [[[a' b] c'] d] x y S H. unfold shaped in S. cbn [holds] in H.
  apply andb_true_iff in S. destruct S as [S S3]. apply andb_true_iff in S. destruct S as [S1 S2].
  apply String.eqb_eq in S1. apply String.eqb_eq in S2. subst a' c'.
  apply orb_true_iff in S3. destruct S3 as [S3|S3]; apply andb_true_iff in S3; destruct S3 as [E M];
    apply String.eqb_eq in E; apply mem_In in M; subst; rewrite app_nil_s in H; eauto.
Qed.

Ltac none H := exfalso; lazymatch type of H with clashing (names ?m ?x) (names ?n ?y) =>
  destruct (all_forms (fun _ => false) m n x y ltac:(vm_compute; reflexivity) H) as (? & ? & _); discriminate end.

Lemma same_maker : forall m l x y,
  forallb (shaped "" "" l l) (forms (templates m) (templates m)) = true ->
  clashing (names m x) (names m y) -> exists e, In e l /\ (x = y ++ e \/ y = x ++ e).
Proof.
  intros m l x y F H. destruct (all_forms _ _ _ _ _ F H) as (f & S & Hf). apply (shaped_holds _ _ _ _ _ _ _ S) in Hf.
  cbn in Hf. destruct Hf as [(d & I & E)|(b & I & E)]; eauto.
Qed.

Lemma clash_collide : forall m x n y, clashing (names m x) (names n y) -> collide m x n y.
Proof.
  assert (Sym : forall m x n y, collide m x n y -> collide n y m x) by (unfold collide; intros; tauto).
  assert (Free : forall m p l x y, forallb (shaped p "" [] l) (forms (templates m) (templates MFree)) = true ->
            clashing (names m x) (names MFree y) -> exists e, In e l /\ p ++ x = y ++ e).
  { intros m p l x y F H. destruct (all_forms _ _ _ _ _ F H) as (f & S & Hf). apply (shaped_holds _ _ _ _ _ _ _ S) in Hf.
    destruct Hf as [(d & I & E)|(b & I & E)]; [eauto|contradiction]. }
  assert (MR : forall x y, clashing (names MMethod x) (names MRMethod y) -> collide1 MMethod x MRMethod y).
  { intros x y H. assert (F : forallb (shaped "" "r_" calls_endings r_endings) (forms (templates MMethod) (templates MRMethod)) = true)
      by (vm_compute; reflexivity).
    destruct (all_forms _ _ _ _ _ F H) as (f & S & Hf). apply (shaped_holds _ _ _ _ _ _ _ S) in Hf. cbn [collide1].
    destruct Hf as [(d & I & E)|(b & I & E)].
    - right. exists d. split; [apply r_endings_ok; exact I|exact E].
    - left. exists b. split; [exact I|]. symmetry. exact E. }
  intros m x n y H. destruct m, n; try none H.
  - destruct (same_maker MType [""; "_v"] x y eq_refl H) as (e & I & [E|E]); [right|left]; cbn [collide1]; eauto.
  - destruct (same_maker MData [""; "_v"] x y eq_refl H) as (e & I & [E|E]); [right|left]; cbn [collide1]; eauto.
  - left. exact (Free MData "has_data_" ["_return_t"; "_noexcept_return_t"] x y eq_refl H).
  - destruct (same_maker MStaticData [""; "_v"] x y eq_refl H) as (e & I & [E|E]); [right|left]; cbn [collide1]; eauto.
  - left. exact (Free MStaticData "has_static_data_" ["_return_t"; "_noexcept_return_t"] x y eq_refl H).
  - assert (F : forallb (shaped "" "" r_endings r_endings) (forms (templates MRMethod) (templates MRMethod)) = true) by (vm_compute; reflexivity).
    destruct (same_maker MRMethod r_endings x y F H) as (e & I & E). apply r_endings_ok in I. destruct E as [E|E]; [right|left]; cbn [collide1]; eauto.
  - right. apply MR, clashing_sym, H.
  - left. apply MR, H.
  - destruct (same_maker MMethod calls_endings x y eq_refl H) as (e & I & [E|E]); [right|left]; cbn [collide1]; eauto.
  - left. exact (Free MMethod "is_invocable_" ["_return"; "_noexcept_return"] x y eq_refl H).
  - destruct (all_forms (fun f => shaped "" "" calls_endings calls_endings f || shaped "" "r_" calls_endings calls_endings f ||
                                  shaped "r_" "" calls_endings calls_endings f) MStaticMethod MStaticMethod x y ltac:(vm_compute; reflexivity) H) as (f & S & Hf).
    apply orb_true_iff in S. destruct S as [S|S]; [apply orb_true_iff in S; destruct S as [S|S]|];
      apply (shaped_holds _ _ _ _ _ _ _ S) in Hf; destruct Hf as [(e & I & E)|(e & I & E)].
    + right. exists e. auto.
    + left. exists e. split; [exact I|]. left. symmetry. exact E.
    + right. exists e. split; [exact I|]. right. left. exact E.
    + right. exists e. split; [exact I|]. right. right. symmetry. exact E.
    + left. exists e. split; [exact I|]. right. right. exact E.
    + left. exists e. split; [exact I|]. right. left. symmetry. exact E.
  - left. exact (Free MStaticMethod "static_method_result_" ["_return"; "_noexcept_return"] x y eq_refl H).
  - right. exact (Free MData "has_data_" ["_return_t"; "_noexcept_return_t"] y x eq_refl (clashing_sym _ _ H)).
  - right. exact (Free MStaticData "has_static_data_" ["_return_t"; "_noexcept_return_t"] y x eq_refl (clashing_sym _ _ H)).
  - right. exact (Free MMethod "is_invocable_" ["_return"; "_noexcept_return"] y x eq_refl (clashing_sym _ _ H)).
  - right. exact (Free MStaticMethod "static_method_result_" ["_return"; "_noexcept_return"] y x eq_refl (clashing_sym _ _ H)).
  - destruct (same_maker MFree [""; "_noexcept"] x y eq_refl H) as (e & I & [E|E]); [right|left]; cbn [collide1]; eauto.
Qed.

Lemma clash_iff : forall m x n y, clashing (names m x) (names n y) <-> collide m x n y.
Proof.
  intros m x n y. split; [apply clash_collide|]. intros [H|H]; [apply collide1_clash, H|]. apply clashing_sym, collide1_clash, H.
Qed.

(** * One use, and the uses for one name *)

Fixpoint occurs (c : ascii) (s : string) : nat :=
  match s with "" => 0 | String d s' => (if Ascii.eqb d c then 1 else 0) + occurs c s' end.
Lemma occurs_app : forall c a b, occurs c (a ++ b) = occurs c a + occurs c b.
Proof. induction a as [|d a IH]; intros b; cbn; [reflexivity|]. rewrite IH. lia. Qed.

(** no string solves the equation with itself: the numbers of some letter differ *)
Definition never (f : form) : bool :=
  let '(a, b, c, d) := f in
  negb (length a + length b =? length c + length d)%nat ||
  negb (occurs "v" a + occurs "v" b =? occurs "v" c + occurs "v" d)%nat ||
  negb (occurs "h" a + occurs "h" b =? occurs "h" c + occurs "h" d)%nat.
Lemma never_ok : forall f x, never f = true -> ~ holds f x x.
Proof.
  intros [[[a b] c] d] x N H. cbn [holds never] in *. rewrite !orb_true_iff in N.
  destruct N as [[N|N]|N]; apply negb_true_iff, Nat.eqb_neq in N; apply N.
  - apply (f_equal length) in H. rewrite !length_app_s in H. lia.
  - apply (f_equal (occurs "v")) in H. rewrite !occurs_app in H. lia.
  - apply (f_equal (occurs "h")) in H. rewrite !occurs_app in H. lia.
Qed.

Lemma same_name : forall m n x, m <> n -> ~ clashing (names m x) (names n x).
Proof.
  intros m n x D H.
  assert (F : forallb never (forms (templates m) (templates n)) = true) by (destruct m, n; try contradiction; vm_compute; reflexivity).
  destruct (all_forms never m n x x F H) as (f & N & Hf). exact (never_ok f x N Hf).
Qed.

Fixpoint apart (l : list template) : bool :=
  match l with [] => true | t :: l' => forallb (fun u => forallb never (form_of t u)) l' && apart l' end.
Lemma apart_ok : forall l x, apart l = true -> NoDup (map (fill x) l).
Proof.
  induction l as [|t l IH]; intros x A; cbn; [constructor|]. cbn in A. apply andb_true_iff in A. destruct A as [A1 A2].
  constructor; [|apply IH; exact A2]. intros I. apply in_map_iff in I. destruct I as [u [E I]].
  rewrite forallb_forall in A1. specialize (A1 u I). rewrite forallb_forall in A1.
  symmetry in E. apply form_of_ok in E. destruct E as [f [If Hf]]. exact (never_ok f x (A1 f If) Hf).
Qed.
Lemma one_use : forall m x, NoDup (names m x).
Proof. intros m x. rewrite names_templates. apply apart_ok. destruct m; vm_compute; reflexivity. Qed.

(** * Ordinary names *)

Lemma ends_app : forall e z x, ends_with e x -> ends_with e (z ++ x).
Proof. intros e z x [w ->]. exists (z ++ w). now rewrite app_assoc_s. Qed.

Ltac peel u E := destruct u as [|? u]; [discriminate E|injection E as -> E].
Lemma ends_return : forall p x y, In p ["is_invocable"; "static_method_result"] -> (p ++ "_") ++ x = y ++ "_return" -> ends_with "_return" ("_" ++ x).
Proof.
  intros p x y I E. apply (f_equal srev) in E. rewrite !srev_app in E. rewrite <- (srev_srev x). revert E. generalize (srev x) as u. intros u E.
  change (srev "_return") with "nruter_" in E.
  destruct I as [<-|[<-|[]]]; cbn in E;
    peel u E; peel u E; peel u E; peel u E; peel u E; peel u E; (destruct u as [|c u]; [exists ""; reflexivity|]);
    injection E as -> E; exists ("_" ++ srev u); cbn; f_equal; rewrite !app_assoc_s; reflexivity.
Qed.
Lemma ends_return_t : forall p x y, In p ["has_data"; "has_static_data"] -> (p ++ "_") ++ x = y ++ "_return_t" -> ends_with "_return_t" ("_" ++ x).
Proof.
  intros p x y I E. apply (f_equal srev) in E. rewrite !srev_app in E. rewrite <- (srev_srev x). revert E. generalize (srev x) as u. intros u E.
  change (srev "_return_t") with "t_nruter_" in E.
  destruct I as [<-|[<-|[]]]; cbn in E;
    peel u E; peel u E; peel u E; peel u E; peel u E; peel u E; peel u E; peel u E; (destruct u as [|c u]; [exists ""; reflexivity|]);
    injection E as -> E; exists ("_" ++ srev u); cbn; f_equal; rewrite !app_assoc_s; reflexivity.
Qed.

Lemma r_ending_ends : forall e, r_ending e -> e = "" \/ exists d, In d ["_v"; "_const"; "_volatile"; "_ref"; "_rref"; "_noexcept"] /\ ends_with d e.
Proof.
  intros e (q & v & [<-|[<-|[]]] & ->).
  - rewrite app_nil_s. destruct q as [c w r n]. unfold suffix. cbn [q_const q_volatile q_ref q_noexcept].
    destruct n.
    { right. exists "_noexcept". split; [cbn; tauto|]. apply ends_app, ends_app, ends_app. exists "". reflexivity. }
    destruct r.
    + destruct w.
      { right. exists "_volatile". split; [cbn; tauto|]. apply ends_app. exists "". reflexivity. }
      destruct c; [|left; reflexivity]. right. exists "_const". split; [cbn; tauto|]. exists "". reflexivity.
    + right. exists "_ref". split; [cbn; tauto|]. apply ends_app, ends_app. exists "". reflexivity.
    + right. exists "_rref". split; [cbn; tauto|]. apply ends_app, ends_app. exists "". reflexivity.
  - right. exists "_v". split; [cbn; tauto|]. exists (suffix q). reflexivity.
Qed.
Lemma calls_ending_r : forall e, In e calls_endings -> r_ending e.
Proof. intros e I. apply r_endings_ok. cbn in I. intuition subst; vm_compute; tauto. Qed.

Lemma extended : forall x e, ordinary (x ++ e) -> r_ending e -> e = "".
Proof.
  intros x e [O _] R. apply r_ending_ends in R. destruct R as [->|[d [I D]]]; [reflexivity|].
  exfalso. exact (O d I (ends_app _ _ _ D)).
Qed.
Lemma no_r : forall x, ~ ordinary ("r_" ++ x).
Proof. intros x (_ & _ & _ & O). apply O. exists (x ++ "_"). reflexivity. Qed.
Lemma r_starts : forall x y e, "r_" ++ y = x ++ e -> r_ending e -> ~ ordinary x.
Proof.
  intros x y e E R (_ & _ & _ & O). apply O. destruct x as [|c x].
  - exfalso. cbn in E. subst e. apply r_endings_ok in R. vm_compute in R. repeat (destruct R as [R|R]; [discriminate R|]). contradiction.
  - destruct x as [|d x].
    + injection E as <- E. exists "". reflexivity.
    + injection E as <- <- E. exists (x ++ "_"). reflexivity.
Qed.

Lemma plain1 : forall m x n y, ordinary x -> ordinary y -> collide1 m x n y -> m = n /\ x = y.
Proof.
  intros m x n y Ox Oy H.
  assert (V : forall e, In e [""; "_v"] -> r_ending e) by (intros e [<-|[<-|[]]]; apply calls_ending_r; cbn; tauto).
  assert (N : forall e, In e [""; "_noexcept"] -> r_ending e) by (intros e [<-|[<-|[]]]; apply calls_ending_r; cbn; tauto).
  assert (Ext : forall e, r_ending e -> y = x ++ e -> x = y).
  { intros e R ->. rewrite (extended _ _ Oy R). now rewrite app_nil_s. }
  destruct m, n; cbn [collide1] in H; try contradiction.
  - destruct H as (e & I & E). eauto.
  - destruct H as (e & I & E). eauto.
  - exfalso. destruct H as (e & I & E). destruct Ox as (_ & _ & O & _). apply O. destruct I as [<-|[<-|[]]].
    + exact (ends_return_t "has_data" x y (or_introl eq_refl) E).
    + apply (ends_return_t "has_data" x (y ++ "_noexcept") (or_introl eq_refl)). rewrite (app_assoc_s y). exact E.
  - destruct H as (e & I & E). eauto.
  - exfalso. destruct H as (e & I & E). destruct Ox as (_ & _ & O & _). apply O. destruct I as [<-|[<-|[]]].
    + exact (ends_return_t "has_static_data" x y (or_intror (or_introl eq_refl)) E).
    + apply (ends_return_t "has_static_data" x (y ++ "_noexcept") (or_intror (or_introl eq_refl))). rewrite (app_assoc_s y). exact E.
  - destruct H as (e & I & E). eauto.
  - exfalso. destruct H as [(e & I & E)|(e & I & ->)].
    + exact (r_starts x y e E (calls_ending_r e I) Ox).
    + exact (no_r _ Ox).
  - destruct H as (e & I & E). split; [reflexivity|]. exact (Ext e (calls_ending_r e I) E).
  - exfalso. destruct H as (e & I & E). destruct Ox as (_ & O & _). apply O. destruct I as [<-|[<-|[]]].
    + exact (ends_return "is_invocable" x y (or_introl eq_refl) E).
    + apply (ends_return "is_invocable" x (y ++ "_noexcept") (or_introl eq_refl)). rewrite (app_assoc_s y). exact E.
  - destruct H as (e & I & [E|[->|E]]).
    + split; [reflexivity|]. exact (Ext e (calls_ending_r e I) E).
    + exfalso. exact (no_r _ Oy).
    + exfalso. exact (r_starts y x e E (calls_ending_r e I) Oy).
  - exfalso. destruct H as (e & I & E). destruct Ox as (_ & O & _). apply O. destruct I as [<-|[<-|[]]].
    + exact (ends_return "static_method_result" x y (or_intror (or_introl eq_refl)) E).
    + apply (ends_return "static_method_result" x (y ++ "_noexcept") (or_intror (or_introl eq_refl))). rewrite (app_assoc_s y). exact E.
  - destruct H as (e & I & E). eauto.
Qed.

Lemma plain_names : forall m x n y, ordinary x -> ordinary y -> m <> n \/ x <> y -> ~ clashing (names m x) (names n y).
Proof.
  intros m x n y Ox Oy D H. apply clash_iff in H. destruct H as [H|H]; apply plain1 in H; auto; destruct H; subst; destruct D; congruence.
Qed.

Lemma clashes :
  clashing (names MType "size") (names MType "size_v") /\
  clashing (names MMethod "reset") (names MMethod "reset_noexcept") /\
  clashing (names MRMethod "get") (names MRMethod "get_const") /\
  clashing (names MMethod "r") (names MRMethod "v") /\
  clashing (names MStaticMethod "make") (names MStaticMethod "r_make") /\
  clashing (names MFree "swap") (names MFree "swap_noexcept").
Proof.
  repeat apply conj; apply clash_iff; left; cbn [collide1].
  - exists "_v". cbn. auto.
  - exists "_noexcept". cbn. auto.
  - exists "_const". split; [|reflexivity]. exists (Quals true false RefNone false), "". cbn. auto.
  - left. exists "_v". cbn. auto.
  - exists "". cbn. auto.
  - exists "_noexcept". cbn. auto.
Qed.

(** deciding ends_with and starts_with on literals *)
Definition ends_b (e x : string) : bool := match strip (srev e) (srev x) with Some ("", _) => true | _ => false end.
Lemma ends_b_ok : forall e x, ends_with e x -> ends_b e x = true.
Proof.
  intros e x [z ->]. unfold ends_b. rewrite srev_app. generalize (srev e) (srev z). clear.
  induction s as [|c s IH]; intros t; cbn; [reflexivity|]. rewrite Ascii.eqb_refl. apply IH.
Qed.
Definition starts_b (p x : string) : bool := match strip p x with Some ("", _) => true | _ => false end.
Lemma starts_b_ok : forall p x, starts_with p x -> starts_b p x = true.
Proof.
  intros p x [z ->]. unfold starts_b. induction p as [|c p IH]; cbn; [reflexivity|]. rewrite Ascii.eqb_refl. exact IH.
Qed.
Definition ordinary_b (x : string) : bool :=
  forallb (fun e => negb (ends_b e x)) ["_v"; "_const"; "_volatile"; "_ref"; "_rref"; "_noexcept"] &&
  negb (ends_b "_return" ("_" ++ x)) && negb (ends_b "_return_t" ("_" ++ x)) && negb (starts_b "r_" (x ++ "_")).
Lemma ordinary_b_ok : forall x, ordinary_b x = true -> ordinary x.
Proof.
  intros x H. unfold ordinary_b in H. rewrite !andb_true_iff, !negb_true_iff in H. destruct H as [[[H1 H2] H3] H4].
  rewrite forallb_forall in H1. repeat split.
  - intros e I E. specialize (H1 e I). apply ends_b_ok in E. rewrite E in H1. discriminate H1.
  - intros E. apply ends_b_ok in E. congruence.
  - intros E. apply ends_b_ok in E. congruence.
  - intros E. apply starts_b_ok in E. congruence.
Qed.
Lemma names_instance : ordinary "size" /\ ordinary "value" /\ ordinary "return_value" /\ ordinary "reference" /\
  In (Outer, "has_invocable_r_size_const_noexcept_v") (names MRMethod "size") /\
  In (Details, "size_return_t") (names MFree "size") /\ MFree <> MType.
Proof.
  repeat apply conj; try (apply ordinary_b_ok; vm_compute; reflexivity); try discriminate.
  - cbn. repeat first [left; reflexivity | right].
  - left. reflexivity.
Qed.
