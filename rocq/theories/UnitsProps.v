(** Property C122, and C83 over whole programs: programs of several translation units. *)

Require Import ZArith List String Bool Lia.
Require Import Verif.UnitsSpec Verif.UnitsModel Verif.UnitsProofs.
Import ListNotations.
Open Scope string_scope.

(** ** C122 *)

(** whatever the units include, in whatever order: nothing is defined twice that may be
    defined once, and every name that the headers use is defined *)
Theorem C122_links_partial : forall p, no_duplicates (map preprocess p).
Proof. exact units_no_duplicates. Qed.
Print Assumptions C122_links_partial.

Theorem C122_self_contained_partial : forall s h d n, In h (all_headers (includes s)) -> In d (own_defs h) ->
  In n (uses d) -> exists d', In d' (definitions (preprocess s)) /\ name d' = n.
Proof. exact units_self_contained. Qed.
Print Assumptions C122_self_contained_partial.

(** exactly: the program keeps the one-definition rule if its source files are apart *)
Theorem C122_exact_partial : forall p, Forall complete p -> consistent p ->
  (one_definition (map preprocess p) <-> all_apart p).
Proof. exact units_exact. Qed.
Print Assumptions C122_exact_partial.

(** two units that include a header with the memory resources break it *)
Theorem C122_resources_refuted : forall s s', includes_some gives_resources s -> includes_some gives_resources s' ->
  ~ one_definition (map preprocess [s; s']).
Proof. exact resources_twice. Qed.
Print Assumptions C122_resources_refuted.

(** one unit has everything, the others do without resources; an inline function of the
    user that two of them define counts bits *)
Definition a_program : list source :=
  [Source [H_utils] [("user::f", ["bits_count"])] [[Arr 0 3 Lvalue; Arr 0 4 Lvalue]];
   Source [H_timer; H_ctz; H_common] [("user::f", ["bits_count"])] [[Arr 0 3 Lvalue; Arr 0 4 Rvalue]];
   Source [H_function_traits; H_fast_pimpl] [] []].
Example C122_instance : Forall complete a_program /\ consistent a_program /\ all_apart a_program.
Proof.
  assert (G : includes_some gives_common (Source [H_utils] [("user::f", ["bits_count"])] [[Arr 0 3 Lvalue; Arr 0 4 Lvalue]]))
    by (exists H_utils; cbn; tauto).
  assert (G' : includes_some gives_common (Source [H_timer; H_ctz; H_common] [("user::f", ["bits_count"])] [[Arr 0 3 Lvalue; Arr 0 4 Rvalue]]))
    by (exists H_common; cbn; tauto).
  split; [|split].
  - assert (U : forall i c, (c <> [] -> includes_some gives_common (Source i [("user::f", ["bits_count"])] c)) ->
        complete (Source i [("user::f", ["bits_count"])] c)).
    { intros i c Gc. split; [exact Gc|]. split.
      - intros f ns [E|[]]. injection E as <- <-. now exists "f".
      - intros f ns n [E|[]]. injection E as <- <-. intros [<-|[]]. split; intros X; cbn in X; intuition discriminate. }
    constructor; [apply U; intros _; exact G|]. constructor; [apply U; intros _; exact G'|]. constructor; [|constructor].
    split; [intros X; now elim X|]. split; [intros f ns []|intros f ns n []].
  - intros s s' f ns ns' H H' F F'. cbn in H, H'.
    destruct H as [<-|[<-|[<-|[]]]]; destruct H' as [<-|[<-|[<-|[]]]]; cbn in F, F'; intuition congruence.
  - assert (N : forall a b l, needs [a; b] l -> l = [a; b]).
    { intros a b l [[E _]|[done [rest [E [L [R _]]]]]]; [exact E|]. exfalso.
      destruct done as [|x [|y [|z done]]]; cbn in L; try lia; [|discriminate E].
      cbn in E. injection E as _ _ E. now symmetry in E. }
    assert (M : forall s s', ~ includes_some gives_resources s \/ ~ includes_some gives_resources s' ->
        ~ (includes_some gives_resources s /\ includes_some gives_resources s')) by tauto.
    assert (N1 : forall o c, ~ includes_some gives_resources (Source [H_timer; H_ctz; H_common] o c)).
    { intros o c [h [H E]]. cbn in H. repeat (destruct H as [<-|H]; [discriminate E|]). contradiction. }
    assert (N2 : forall o c, ~ includes_some gives_resources (Source [H_function_traits; H_fast_pimpl] o c)).
    { intros o c [h [H E]]. cbn in H. repeat (destruct H as [<-|H]; [discriminate E|]). contradiction. }
    assert (Sym : forall s s', apart s s' -> apart s' s).
    { intros s s' (A1 & A2 & A3). split; [tauto|]. split; [|eauto].
      intros c c' l Hc Hc' X X'. exact (A2 c' c l Hc' Hc X' X). }
    assert (A01 : apart (Source [H_utils] [("user::f", ["bits_count"])] [[Arr 0 3 Lvalue; Arr 0 4 Lvalue]])
        (Source [H_timer; H_ctz; H_common] [("user::f", ["bits_count"])] [[Arr 0 3 Lvalue; Arr 0 4 Rvalue]])).
    { split; [apply M; right; apply N1|]. split.
      - intros c c' l [<-|[]] [<-|[]] X X'. apply N in X. apply N in X'. subst l. discriminate X'.
      - intros f ns n [E|[]] _. injection E as <- <-. intros [<-|[]]. split; intros X; cbn in X; intuition discriminate. }
    assert (A2 : forall s, apart s (Source [H_function_traits; H_fast_pimpl] [] [])).
    { intros s. split; [apply M; right; apply N2|]. split; [intros c c' l _ []|intros f ns n _ []]. }
    intros i j s s' Hij Hs Hs'.
    destruct i as [|[|[|i]]]; [| | |destruct i; discriminate Hs]; injection Hs as <-;
      (destruct j as [|[|[|j]]]; [| | |destruct j; discriminate Hs']; injection Hs' as <-);
      first [now elim Hij | exact A01 | apply A2 | apply Sym; exact A01 | apply Sym, A2].
Qed.

(** the files share only the function that concatenates what is left: three arrays in one,
    two in the other *)
Example C122_concatenation_refuted :
  let p := [Source [H_common] [] [[Arr 0 1 Lvalue; Arr 0 2 Lvalue; Arr 0 4 Lvalue]];
            Source [H_common] [] [[Arr 0 3 Rvalue; Arr 0 4 Lvalue]]] in
  Forall complete p /\ consistent p /\ ~ one_definition (map preprocess p).
Proof.
  intros p.
  assert (C : Forall complete p).
  { assert (G : forall o c, includes_some gives_common (Source [H_common] o c)) by (intros; exists H_common; cbn; tauto).
    repeat apply Forall_cons; try apply Forall_nil; (split; [intros _; apply G|]); (split; [intros f ns []|intros f ns n []]). }
  assert (K : consistent p).
  { intros s s' f ns ns' [<-|[<-|[]]] _ []. }
  split; [exact C|]. split; [exact K|]. rewrite units_exact by assumption.
  intros A. destruct (A 0%nat 1%nat _ _ ltac:(discriminate) eq_refl eq_refl) as (_ & A2 & _).
  eapply (A2 _ _ [Arr 0 3 Rvalue; Arr 0 4 Lvalue]); [now left|now left| |].
  - right. exists [Arr 0 1 Lvalue; Arr 0 2 Lvalue], [Arr 0 4 Lvalue]. repeat split; cbn; try lia; discriminate.
  - left. split; [reflexivity|cbn; lia].
Qed.

(** an inline function of the user that calls abort_if, through UTILS_ABORT_IF *)
Example C122_own_refuted :
  let p := [Source [H_common] [("user::f", ["abort_if"])] []; Source [H_ctz] [("user::f", ["abort_if"])] []] in
  ~ all_apart p.
Proof.
  intros p A. destruct (A 0%nat 1%nat _ _ ltac:(discriminate) eq_refl eq_refl) as (_ & _ & A3).
  destruct (A3 "user::f" ["abort_if"] "abort_if") as [X _]; [now left|now left|now left|].
  apply X. cbn. tauto.
Qed.

(** ** C83 *)

(** exactly: two calls, anywhere in the program, that return a resource see equal resources
    if these are those of the same function of the same unit *)
Theorem C83_calls_exact_partial : forall place ops i j u v r q o o',
  (forall u w u' w', place u w = place u' w' -> u = u' /\ w = w') ->
  nth_error ops i = Some o -> nth_error ops j = Some o' ->
  nth_error (program_sees place ops) i = Some (UResource u r) ->
  nth_error (program_sees place ops) j = Some (UResource v q) ->
  (resources_equal r q = true <-> got (firstn i ops) o = got (firstn j ops) o').
Proof. exact units_equal. Qed.
Print Assumptions C83_calls_exact_partial.

(** so the system resource of one unit is not that of another *)
Theorem C83_calls_refuted : forall place u v w,
  (forall u w u' w', place u w = place u' w' -> u = u' /\ w = w') -> u <> v ->
  exists r q, program_sees place [UGet u w; UGet v w] = [UResource u r; UResource v q] /\ resources_equal r q = false.
Proof. exact units_differ. Qed.
Print Assumptions C83_calls_refuted.

(** the default resource is one for all units *)
Theorem C83_default_partial : forall place before u v w after x y r,
  (forall o, In o after -> match o with USetDefault _ _ _ => False | _ => True end) ->
  nth_error (program_sees place (before ++ USetDefault u v w :: after ++ [UDefault x; UGet v w]))
    (List.length before + 1 + List.length after) = Some (UResource y r) ->
  y = x /\ nth_error (program_sees place (before ++ USetDefault u v w :: after ++ [UDefault x; UGet v w]))
    (List.length before + 1 + List.length after + 1) = Some (UResource v r).
Proof. exact units_one_default. Qed.
Print Assumptions C83_default_partial.

(** unit 1 makes its system resource the default; unit 2 sees it, but its own is another *)
Example C83_calls_instance :
  let place u w := (Z.of_nat u * 16 + match w with System => 4096 | Null => 4104 end)%Z in
  (forall u w u' w', place u w = place u' w' -> u = u' /\ w = w') /\
  program_sees place [UDefault 2; USetDefault 1 1 System; UDefault 2; UGet 1 System; UGet 2 System] =
    [UResource 2 4096; UResource 1 4096; UResource 2 4112; UResource 1 4112; UResource 2 4128]%Z.
Proof. split; [intros u w u' w'; destruct w, w'; intros H; split; try reflexivity; lia|reflexivity]. Qed.
