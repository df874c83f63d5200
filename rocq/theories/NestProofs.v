(** Proofs about NestModel.v. *)

Require Import List String Bool.
Require Import Lia.
Require Import Verif.UnitsSpec Verif.UnitsModel Verif.UnitsProofs Verif.IncludeSpec Verif.IncludeModel Verif.NestSpec Verif.NestModel.
Import ListNotations.
Open Scope string_scope.

Section Nest.
Variable subs : inner.

Definition known (l : list (string * place)) (x : string) : Prop := place_in l x <> None.

Lemma note_keeps p l x y q : place_in l y = Some q -> place_in (note p l x) y = Some q.
Proof.
  intros H. unfold note. destruct (place_in l x) eqn:E; [exact H|]. cbn.
  destruct (String.eqb_spec x y) as [->|N]; congruence.
Qed.
Lemma notes_keep p xs : forall l y q, place_in l y = Some q -> place_in (fold_left (note p) xs l) y = Some q.
Proof. induction xs as [|x xs IH]; intros l y q H; cbn; auto using note_keeps. Qed.
Lemma note_known p l x : known (note p l x) x.
Proof.
  unfold known, note. destruct (place_in l x) eqn:E; [congruence|]. cbn. rewrite String.eqb_refl. congruence.
Qed.
Lemma notes_known p xs : forall l x, In x xs -> known (fold_left (note p) xs l) x.
Proof.
  induction xs as [|y xs IH]; intros l x I; [contradiction|]. cbn [fold_left].
  destruct I as [->|I]; [|now apply IH].
  assert (K := note_known p l x). unfold known in *. destruct (place_in (note p l x) x) as [q|] eqn:E; [|now elim K].
  rewrite (notes_keep p xs _ _ _ E). congruence.
Qed.
Lemma notes_new p xs : forall l x q, place_in (fold_left (note p) xs l) x = Some q ->
  place_in l x = Some q \/ q = p /\ In x xs.
Proof.
  induction xs as [|y xs IH]; intros l x q H; cbn in *; auto.
  apply IH in H as [H|[-> I]]; auto. unfold note in H. destruct (place_in l y) eqn:E; auto.
  cbn in H. destruct (String.eqb_spec y x) as [->|N]; auto. injection H as <-. auto.
Qed.

(** what is read stays where it was read *)
Definition keeps (r r' : nreading) : Prop := forall y q, place_in (places r) y = Some q -> place_in (places r') y = Some q.
Lemma keeps_refl r : keeps r r. Proof. intros y q H; exact H. Qed.
Lemma keeps_trans a b c : keeps a b -> keeps b c -> keeps a c. Proof. intros H G y q E. auto. Qed.

(** a header of the system whose text was read has been read completely *)
Definition whole (r : nreading) : Prop := forall s x, known (places r) s -> In x (subs s) -> known (places r) x.

Definition only (P : string -> place -> Prop) (r : nreading) : Prop := forall x q, place_in (places r) x = Some q -> P x q.

Lemma enter_keeps p s r : keeps r (enter subs p s r).
Proof.
  intros y q H. unfold enter. destruct (place_in (places r) s); [exact H|]. cbn [places]. now apply notes_keep.
Qed.
Lemma enter_only (P : string -> place -> Prop) p s r : only P r ->
  (forall x, In x (s :: subs s) -> P x p) -> only P (enter subs p s r).
Proof.
  intros O H x q E. unfold enter in E. destruct (place_in (places r) s); [now apply O|]. cbn [places] in E.
  apply notes_new in E as [E|[-> I]]; auto.
Qed.
Lemma enter_whole (C : complete subs) p s r : whole r -> whole (enter subs p s r).
Proof.
  intros W t x K I. unfold enter in *. destruct (place_in (places r) s) eqn:E; [now apply (W t)|]. cbn [places] in *.
  unfold known in K. destruct (place_in _ t) as [q|] eqn:F; [|now elim K].
  apply notes_new in F as [F|[-> J]].
  - assert (G : known (places r) x) by (apply (W t); auto; unfold known; congruence). unfold known in *.
    destruct (place_in (places r) x) as [q'|] eqn:G'; [|now elim G].
    rewrite (notes_keep p _ _ _ _ G'). congruence.
  - apply notes_known. destruct J as [<-|J]; [now right|]. right. exact (C s t J x I).
Qed.
Lemma enter_known p s r : known (places (enter subs p s r)) s.
Proof.
  unfold enter, known. destruct (place_in (places r) s) eqn:E; [congruence|]. cbn [places].
  apply notes_known. now left.
Qed.

Section Ntake.
Variable msvc : bool.
Variable P : string -> place -> Prop.
Variable R : nreading -> Prop.   (* what is known of the start *)
Hypothesis R_keeps : forall r r', R r -> keeps r r' -> R r'.
Variable G : string -> Prop.     (* headers of the system that may be asked for *)
Hypothesis G_systems : forall h s, In s (systems h) -> G s.
Hypothesis P_global : forall s x, G s -> In x (s :: subs s) -> P x Global.
Hypothesis P_inside : forall r h s, R r -> In s (inside msvc h) -> only P r -> only P (enter subs InUtils s r).

Lemma ntake_ok depth : forall h r, R r -> only P r ->
  keeps r (ntake msvc subs depth h r) /\ only P (ntake msvc subs depth h r).
Proof.
  induction depth as [|depth IH]; intros h r Rr O; cbn [ntake]; [auto using keeps_refl|].
  destruct (in_dec header_eq_dec h (nread r)); [auto using keeps_refl|].
  assert (A : forall ss r0, (forall s, In s ss -> G s) -> R r0 -> only P r0 ->
    let r1 := fold_left (fun r s => enter subs Global s r) ss r0 in keeps r0 r1 /\ only P r1).
  { induction ss as [|s ss IHs]; intros r0 G0 R0 O0; cbn; [auto using keeps_refl|].
    assert (K := enter_keeps Global s r0).
    destruct (IHs (enter subs Global s r0)) as [K' O'].
    - intros t I. apply G0. now right.
    - now apply R_keeps with r0.
    - apply enter_only; auto. intros x. apply P_global. apply G0. now left.
    - split; [now apply keeps_trans with (enter subs Global s r0)|exact O']. }
  assert (B : forall hs r0, R r0 -> only P r0 ->
    let r1 := fold_left (fun r g => ntake msvc subs depth g r) hs r0 in keeps r0 r1 /\ only P r1).
  { induction hs as [|g hs IHh]; intros r0 R0 O0; cbn; [auto using keeps_refl|].
    destruct (IH g r0 R0 O0) as [K1 O1]. destruct (IHh (ntake msvc subs depth g r0)) as [K' O']; auto.
    - now apply R_keeps with r0.
    - split; [now apply keeps_trans with (ntake msvc subs depth g r0)|exact O']. }
  assert (D : forall ss r0, incl ss (inside msvc h) -> R r0 -> only P r0 ->
    let r1 := fold_left (fun r s => enter subs InUtils s r) ss r0 in keeps r0 r1 /\ only P r1).
  { induction ss as [|s ss IHs]; intros r0 I0 R0 O0; cbn; [auto using keeps_refl|].
    assert (K := enter_keeps InUtils s r0).
    destruct (IHs (enter subs InUtils s r0)) as [K' O'].
    - intros x I. apply I0. now right.
    - now apply R_keeps with r0.
    - apply P_inside with h; auto. apply I0. now left.
    - split; [now apply keeps_trans with (enter subs InUtils s r0)|exact O']. }
  destruct (A (systems h) r (G_systems h) Rr O) as [K1 O1]. cbn in K1, O1.
  destruct (B (direct h) _ (R_keeps _ _ Rr K1) O1) as [K2 O2]. cbn in K2, O2.
  destruct (D (inside msvc h) _ (incl_refl _) (R_keeps _ _ (R_keeps _ _ Rr K1) K2) O2) as [K3 O3]. cbn in K3, O3.
  split.
  - intros y q H. cbn [places]. auto.
  - intros x q H. cbn [places] in H. now apply O3.
Qed.

Lemma lines_ok u : (forall s, In (System s) u -> G s) -> forall r, R r -> only P r ->
  keeps r (fold_left (ntake_line msvc subs) u r) /\ only P (fold_left (ntake_line msvc subs) u r).
Proof.
  induction u as [|l u IH]; intros GL r Rr O; cbn [fold_left]; [auto using keeps_refl|].
  assert (H : keeps r (ntake_line msvc subs r l) /\ only P (ntake_line msvc subs r l)).
  { destruct l as [s|h]; cbn [ntake_line]; [|now apply ntake_ok].
    split; [apply enter_keeps|apply enter_only; auto]. intros x. apply P_global. apply GL. now left. }
  assert (GL' : forall s, In (System s) u -> G s) by (intros s I; apply GL; now right).
  destruct H as [K1 O1]. destruct (IH GL' _ (R_keeps _ _ Rr K1) O1) as [K2 O2].
  split; [|exact O2]. now apply keeps_trans with (ntake_line msvc subs r l).
Qed.
End Ntake.

(** everything asked for is read somewhere *)
Lemma ntake_whole (C : complete subs) msvc depth : forall h r, whole r -> whole (ntake msvc subs depth h r).
Proof.
  induction depth as [|depth IH]; intros h r W; cbn [ntake]; [exact W|].
  destruct (in_dec header_eq_dec h (nread r)); [exact W|].
  assert (A : forall p ss r0, whole r0 -> whole (fold_left (fun r s => enter subs p s r) ss r0)).
  { intros p. induction ss as [|s ss IHs]; intros r0 W0; cbn; auto. apply IHs. now apply enter_whole. }
  assert (B : forall hs r0, whole r0 -> whole (fold_left (fun r g => ntake msvc subs depth g r) hs r0)).
  { induction hs as [|g hs IHh]; intros r0 W0; cbn; auto. }
  intros s x K I. cbn [places] in *. apply (A InUtils (inside msvc h) _ (B (direct h) _ (A Global (systems h) _ W)) s x K I).
Qed.

Lemma lines_keep msvc u : forall r, keeps r (fold_left (ntake_line msvc subs) u r).
Proof.
  intros r. apply (lines_ok msvc (fun _ _ => True) (fun _ => True)) with (G := fun _ => True); auto; intros; red; auto.
Qed.
Lemma asked_known (C : complete subs) msvc u x : In x (asked subs u) -> forall r, whole r ->
  known (places (fold_left (ntake_line msvc subs) u r)) x.
Proof.
  induction u as [|l u IH]; intros I r W; cbn [asked flat_map] in I; [contradiction|]. apply in_app_iff in I as [I|I].
  - destruct l as [s|h]; [|contradiction]. cbn [fold_left ntake_line].
    assert (K : known (places (enter subs Global s r)) x).
    { destruct I as [<-|I]; [apply enter_known|]. apply (enter_whole C Global s r W s x (enter_known _ _ _) I). }
    unfold known in *. destruct (place_in (places (enter subs Global s r)) x) as [q|] eqn:E; [|now elim K].
    rewrite (lines_keep msvc u _ _ _ E). congruence.
  - cbn [fold_left]. apply IH; auto. destruct l as [s|h]; cbn [ntake_line]; [now apply enter_whole|now apply ntake_whole].
Qed.

Lemma whole_start : whole (NReading [] []).
Proof. intros s x K. now elim K. Qed.

Lemma known_only msvc u x (P : string -> place -> Prop) : known (places (fold_left (ntake_line msvc subs) u (NReading [] []))) x ->
  only P (fold_left (ntake_line msvc subs) u (NReading [] [])) -> exists q, place_of msvc subs u x = Some q /\ P x q.
Proof.
  unfold known, place_of. intros K O. destruct (place_in _ x) as [q|] eqn:E; [|now elim K]. exists q. auto.
Qed.

Theorem elsewhere_global (C : complete subs) u x : In x (asked subs u) -> place_of false subs u x = Some Global.
Proof.
  intros I. destruct (known_only false u x (fun _ q => q = Global)) as (q & E & ->); auto.
  - apply (asked_known C); auto. apply whole_start.
  - apply (lines_ok false (fun _ q => q = Global) (fun _ => True)) with (G := fun _ => True); auto.
    + intros r h s _ J. destruct h; contradiction.
    + intros y q H. discriminate H.
Qed.

Definition of_intrin (x : string) : Prop := x = "intrin.h" \/ In x (subs "intrin.h").

Theorem msvc_others (C : complete subs) u x : In x (asked subs u) -> ~ of_intrin x -> place_of true subs u x = Some Global.
Proof.
  intros I N. destruct (known_only true u x (fun y q => q = InUtils -> of_intrin y)) as (q & E & H); auto.
  - apply (asked_known C); auto. apply whole_start.
  - apply (lines_ok true (fun y q => q = InUtils -> of_intrin y) (fun _ => True)) with (G := fun _ => True); auto.
    + intros s y _ _ q. discriminate q.
    + intros r h s _ J O. assert (s = "intrin.h") as -> by (destruct h; cbn in J; tauto || intuition congruence).
      apply enter_only; auto. intros y [<-|Jy] _; [now left|now right].
    + intros y q H. discriminate H.
  - rewrite E. destruct q; [reflexivity|]. now elim N; apply H.
Qed.

Theorem msvc_first (C : complete subs) u x : In x (asked subs (System "intrin.h" :: u)) ->
  place_of true subs (System "intrin.h" :: u) x = Some Global.
Proof.
  intros I. destruct (known_only true (System "intrin.h" :: u) x (fun _ q => q = Global)) as (q & E & ->); auto.
  - apply (asked_known C); auto. apply whole_start.
  - cbn [fold_left]. apply (lines_ok true (fun _ q => q = Global) (fun r => known (places r) "intrin.h")) with (G := fun _ => True); auto.
    + intros r r' K H. unfold known in *. destruct (place_in (places r) "intrin.h") as [q|] eqn:E; [|now elim K].
      rewrite (H _ _ E). congruence.
    + intros r h s K J O. assert (s = "intrin.h") as -> by (destruct h; cbn in J; tauto || intuition congruence).
      unfold enter. unfold known in K. destruct (place_in (places r) "intrin.h"); [exact O|now elim K].
    + cbn [ntake_line]. apply enter_known.
    + cbn [ntake_line]. apply enter_only; [|reflexivity]. intros y q H. discriminate H.
Qed.

(** with MSVC clz.h and ctz.h read it *)
Definition reads_intrin (r : nreading) : Prop :=
  In H_clz (nread r) \/ In H_ctz (nread r) -> known (places r) "intrin.h".
Lemma known_keeps r r' x : keeps r r' -> known (places r) x -> known (places r') x.
Proof.
  intros K. unfold known. destruct (place_in (places r) x) as [q|] eqn:E; [|now intros []].
  rewrite (K _ _ E). congruence.
Qed.
Lemma ntake_keeps msvc depth h r : keeps r (ntake msvc subs depth h r).
Proof.
  apply (ntake_ok msvc (fun _ _ => True) (fun _ => True)) with (G := fun _ => True); auto; intros; red; auto.
Qed.
Lemma enters_keep p ss : forall r, keeps r (fold_left (fun r s => enter subs p s r) ss r).
Proof.
  induction ss as [|s ss IH]; intros r; cbn; [apply keeps_refl|].
  apply keeps_trans with (enter subs p s r); [apply enter_keeps|apply IH].
Qed.
Lemma enters_nread p ss : forall r, nread (fold_left (fun r s => enter subs p s r) ss r) = nread r.
Proof.
  induction ss as [|s ss IH]; intros r; cbn; auto. rewrite IH. unfold enter. now destruct (place_in _ s).
Qed.
Lemma ntake_reads depth : forall h r, reads_intrin r -> reads_intrin (ntake true subs depth h r).
Proof.
  induction depth as [|depth IH]; intros h r H; cbn [ntake]; [exact H|].
  destruct (in_dec header_eq_dec h (nread r)); [exact H|].
  set (r1 := fold_left _ (systems h) r).
  assert (H1 : reads_intrin r1).
  { intros I. unfold r1 in I. rewrite enters_nread in I. apply (known_keeps r); [apply enters_keep|auto]. }
  assert (B : forall hs r0, reads_intrin r0 -> reads_intrin (fold_left (fun r g => ntake true subs depth g r) hs r0)).
  { induction hs as [|g hs IHh]; intros r0 W0; cbn; auto. }
  specialize (B (direct h) r1 H1). set (r2 := fold_left _ (direct h) r1) in *.
  set (r3 := fold_left _ (inside true h) r2).
  assert (K3 : keeps r2 r3) by apply enters_keep.
  assert (N3 : nread r3 = nread r2) by apply enters_nread.
  intros I. cbn [nread places] in *. rewrite N3 in I.
  assert (D : h = H_clz \/ h = H_ctz \/ (In H_clz (nread r2) \/ In H_ctz (nread r2))) by (cbn in I; intuition auto).
  destruct D as [->|[->|D]].
  - unfold r3. cbn. apply enter_known.
  - unfold r3. cbn. apply enter_known.
  - apply (known_keeps r2); auto.
Qed.
End Nest.

Lemma ntake_nread msvc subs subs' depth : forall h r r', nread r = nread r' ->
  nread (ntake msvc subs depth h r) = nread (ntake msvc subs' depth h r').
Proof.
  induction depth as [|depth IH]; intros h r r' H; cbn [ntake]; [exact H|]. rewrite H.
  destruct (in_dec header_eq_dec h (nread r')); [exact H|]. cbn [nread]. rewrite !enters_nread. f_equal.
  assert (B : forall hs r0 r0', nread r0 = nread r0' ->
    nread (fold_left (fun r g => ntake msvc subs depth g r) hs r0) =
    nread (fold_left (fun r g => ntake msvc subs' depth g r) hs r0')).
  { induction hs as [|g hs IHh]; intros r0 r0' H0; cbn; auto. }
  apply B. now rewrite !enters_nread.
Qed.

Theorem msvc_nested subs h : In h uses_intrinsics -> (forall s, s <> "intrin.h" -> ~ In "intrin.h" (subs s)) ->
  place_of true subs [Own h; System "intrin.h"] "intrin.h" = Some InUtils.
Proof.
  intros I N. unfold place_of. cbn [fold_left ntake_line]. set (r := ntake true subs 17 h (NReading [] [])).
  assert (K : known (places r) "intrin.h").
  { apply ntake_reads; [intros [J|J]; contradiction J|].
    rewrite (ntake_nread true subs (fun _ => []) 17 h _ (NReading [] []) eq_refl).
    cbn [uses_intrinsics In] in I. destruct I as [<-|[<-|[<-|[<-|[<-|[<-|[<-|[]]]]]]]]; vm_compute; tauto. }
  assert (O : only (fun x q => x = "intrin.h" -> q = InUtils) r).
  { apply (ntake_ok subs true (fun x q => x = "intrin.h" -> q = InUtils) (fun _ => True)) with (G := fun s => s <> "intrin.h"); auto.
    - intros g s J E. subst s. revert J. destruct g; vm_compute; intuition discriminate.
    - intros s x Gs J ->. exfalso. destruct J as [J|J]; [now elim Gs|]. exact (N s Gs J).
    - intros r0 g s _ J O0. apply enter_only; auto.
    - intros x q E. discriminate E. }
  unfold enter. unfold known in K. destruct (place_in (places r) "intrin.h") as [q|] eqn:E; [|now elim K].
  rewrite E. f_equal. now apply (O _ _ E).
Qed.

Lemma ntake_avoids subs depth : forall h r, ~ In h uses_intrinsics ->
  ntake true subs depth h r = ntake false subs depth h r.
Proof.
  induction depth as [|depth IH]; intros h r N; cbn [ntake]; [reflexivity|].
  destruct (in_dec header_eq_dec h (nread r)); [reflexivity|].
  assert (B : forall hs r0, (forall g, In g hs -> ~ In g uses_intrinsics) ->
    fold_left (fun r g => ntake true subs depth g r) hs r0 = fold_left (fun r g => ntake false subs depth g r) hs r0).
  { induction hs as [|g hs IHh]; intros r0 A; cbn [fold_left]; [reflexivity|].
    rewrite IH by (apply A; now left). apply IHh. intros g' I. apply A. now right. }
  rewrite B.
  - replace (inside true h) with (inside false h); [reflexivity|].
    destruct h; try reflexivity; elim N; cbn; tauto.
  - intros g I J. apply N. revert I J. clear. destruct h; cbn [direct]; intros I J; cbn [In uses_intrinsics] in *; intuition (subst; discriminate).
Qed.

Theorem msvc_avoids subs (C : complete subs) u x : (forall h, In (Own h) u -> ~ In h uses_intrinsics) ->
  In x (asked subs u) -> place_of true subs u x = Some Global.
Proof.
  intros A I. rewrite <- (elsewhere_global subs C u x I). unfold place_of.
  assert (E : forall r, fold_left (ntake_line true subs) u r = fold_left (ntake_line false subs) u r); [|now rewrite E].
  clear I. induction u as [|l u IH]; intros r; cbn [fold_left]; [reflexivity|].
  assert (L : ntake_line true subs r l = ntake_line false subs r l).
  { destruct l as [s|h]; cbn [ntake_line]; [reflexivity|]. apply ntake_avoids. apply A. now left. }
  rewrite L. apply IH. intros h J. apply A. now right.
Qed.

(** * Exactly when *)

(** none of the library's own [#include <...>] lines reads it *)
Definition not_read_by_library (subs : inner) (x : string) : Prop := forall h s, In s (systems h) -> ~ In x (s :: subs s).

Lemma ntake_visit msvc subs depth : forall h r, nread (ntake msvc subs depth h r) = visit depth h (nread r).
Proof.
  induction depth as [|depth IH]; intros h r; cbn [ntake visit]; [reflexivity|].
  destruct (in_dec header_eq_dec h (nread r)); [reflexivity|]. cbn [nread]. rewrite enters_nread. f_equal.
  assert (B : forall hs r0, nread (fold_left (fun r g => ntake msvc subs depth g r) hs r0) =
    fold_left (fun acc g => visit depth g acc) hs (nread r0)).
  { induction hs as [|g hs IHh]; intros r0; cbn [fold_left]; auto. rewrite IHh, IH. reflexivity. }
  rewrite B, enters_nread. reflexivity.
Qed.

Lemma taken msvc subs h r : closed (nread r) ->
  closed (nread (ntake msvc subs 17 h r)) /\ In h (nread (ntake msvc subs 17 h r)).
Proof.
  intros C. rewrite ntake_visit. destruct (visit_spec 17 h (nread r)) as (A & _ & B & _); auto. destruct h; cbn; lia.
Qed.

Lemma seven_read l h : closed l -> In h l -> In h uses_intrinsics -> In H_clz l \/ In H_ctz l.
Proof.
  intros C I S. assert (M : In H_memory l -> In H_ctz l) by (intros J; apply (C H_memory); [exact J|cbn; auto]).
  cbn [uses_intrinsics In] in S. destruct S as [<-|[<-|[<-|[<-|[<-|[<-|[<-|[]]]]]]]]; auto; right.
  - apply M. apply (C H_allocator); cbn; auto.
  - apply M. apply (C H_monotonic); cbn; auto.
  - apply (C H_simple); cbn; auto.
  - apply (C H_utils); cbn; auto.
Qed.

Section Exact.
Variable subs : inner.
Hypothesis C : complete subs.
Variable x : string.
Hypothesis OI : of_intrin subs x.
Hypothesis own : not_read_by_library subs x.

Lemma taken_place h r : place_in (places r) x = None ->
  only (fun y q => y = x -> q = InUtils) (ntake true subs 17 h r).
Proof.
  intros N. apply (ntake_ok subs true (fun y q => y = x -> q = InUtils) (fun _ => True)) with (G := fun s => ~ In x (s :: subs s)); auto.
  - intros s y Gs J ->. contradiction.
  - intros r0 g s _ J O0. apply enter_only; auto.
  - intros y q E ->. congruence.
Qed.

Lemma avoided h r : ~ In h uses_intrinsics -> place_in (places r) x = None -> place_in (places (ntake true subs 17 h r)) x = None.
Proof.
  intros S N. rewrite ntake_avoids by exact S.
  assert (O : only (fun y _ => y <> x) (ntake false subs 17 h r)).
  { apply (ntake_ok subs false (fun y _ => y <> x) (fun _ => True)) with (G := fun s => ~ In x (s :: subs s)); auto.
    - intros s y Gs J ->. contradiction.
    - intros r0 g s _ J. destruct g; contradiction.
    - intros y q E ->. congruence. }
  destruct (place_in (places (ntake false subs 17 h r)) x) as [q|] eqn:E; [|reflexivity]. elim (O x q E eq_refl).
Qed.

Lemma global_split : forall u r, closed (nread r) -> whole subs r -> reads_intrin r -> place_in (places r) x = None ->
  place_in (places (fold_left (ntake_line true subs) u r)) x = Some Global ->
  exists u1 s u2, u = (u1 ++ System s :: u2)%list /\ In x (s :: subs s) /\ forall h, In (Own h) u1 -> ~ In h uses_intrinsics.
Proof.
  induction u as [|l u IH]; intros r CL W RI N G; cbn [fold_left] in G; [congruence|]. destruct l as [s|h]; cbn [ntake_line] in G.
  - destruct (in_dec string_dec x (s :: subs s)) as [I|I].
    + exists [], s, u. split; [reflexivity|]. split; [exact I|]. intros h [].
    + destruct (IH (enter subs Global s r)) as (u1 & t & u2 & -> & J & A); auto.
      * unfold enter. destruct (place_in (places r) s); exact CL.
      * now apply enter_whole.
      * intros K. apply (known_keeps r); [apply enter_keeps|]. apply RI. unfold enter in K. destruct (place_in (places r) s); exact K.
      * destruct (place_in (places (enter subs Global s r)) x) as [q|] eqn:E; [|reflexivity]. exfalso.
        unfold enter in E. destruct (place_in (places r) s); [congruence|]. cbn [places] in E.
        apply notes_new in E as [E|[_ E]]; [congruence|contradiction].
      * exists (System s :: u1), t, u2. split; [reflexivity|]. split; [exact J|]. intros h [K|K]; [discriminate K|now apply A].
  - destruct (taken true subs h r CL) as [CL' I'].
    assert (W' : whole subs (ntake true subs 17 h r)) by now apply ntake_whole.
    assert (RI' : reads_intrin (ntake true subs 17 h r)) by now apply ntake_reads.
    destruct (in_dec header_eq_dec h uses_intrinsics) as [S|S].
    + exfalso. assert (K : known (places (ntake true subs 17 h r)) x).
      { assert (K := RI' (seven_read _ _ CL' I' S)). destruct OI as [->|J]; [exact K|]. exact (W' _ _ K J). }
      unfold known in K. destruct (place_in (places (ntake true subs 17 h r)) x) as [q|] eqn:E; [|now elim K].
      assert (q = InUtils) as -> by exact (taken_place h r N x q E eq_refl).
      rewrite (lines_keep subs true u _ _ _ E) in G. discriminate G.
    + destruct (IH (ntake true subs 17 h r)) as (u1 & t & u2 & -> & J & A); auto using avoided.
      exists (Own h :: u1), t, u2. split; [reflexivity|]. split; [exact J|].
      intros g [K|K]; [injection K as <-; exact S|now apply A].
Qed.

Theorem msvc_exact u : place_of true subs u x = Some Global <->
  exists u1 s u2, u = (u1 ++ System s :: u2)%list /\ In x (s :: subs s) /\ forall h, In (Own h) u1 -> ~ In h uses_intrinsics.
Proof.
  split.
  - intros G. apply (global_split u (NReading [] [])); auto.
    + intros h g [].
    + apply whole_start.
    + intros [[]|[]].
  - intros (u1 & s & u2 & -> & I & A).
    replace (u1 ++ System s :: u2)%list with ((u1 ++ [System s]) ++ u2)%list by (rewrite <- app_assoc; reflexivity).
    unfold place_of. rewrite fold_left_app. apply lines_keep. apply (msvc_avoids subs C (u1 ++ [System s]) x).
    + intros h J. apply in_app_iff in J as [J|[J|[]]]; [now apply A|discriminate J].
    + unfold asked. rewrite flat_map_app, in_app_iff. right. cbn [flat_map]. rewrite app_nil_r. exact I.
Qed.
End Exact.
