(** Proofs about several translation units (UnitsModel.v). *)

Require Import ZArith List String Bool Lia.
Require Import Verif.UnitsSpec Verif.UnitsModel.
Import ListNotations.
Open Scope string_scope.

(** ** The preprocessor *)

Inductive reaches : header -> header -> Prop :=
| reaches_refl h : reaches h h
| reaches_step h g x : In g (direct h) -> reaches g x -> reaches h x.

Definition closed (l : list header) : Prop := forall h g, In h l -> In g (direct h) -> In g l.

(** how deep the headers are nested *)
Definition rank (h : header) : nat :=
  match h with
  | H_cartesian_product | H_detector | H_cxz | H_fast_pimpl | H_padding_checker | H_timer => 0
  | H_type_list => 1
  | H_value_list | H_function_traits => 2
  | H_common => 3
  | H_clz | H_ctz => 4
  | H_memory => 5
  | H_allocator | H_monotonic | H_simple => 6
  | H_utils => 7
  end.

Lemma rank_direct h g : In g (direct h) -> (rank g < rank h)%nat.
Proof. destruct h; cbn; intros H; repeat (destruct H as [<-|H]; [cbn; lia|]); contradiction. Qed.

Lemma visits (f : header -> list header -> list header) (gs : list header) (seen : list header) :
  (forall g acc, In g gs -> closed acc ->
     closed (f g acc) /\ incl acc (f g acc) /\ In g (f g acc) /\ (forall x, In x (f g acc) -> In x acc \/ reaches g x)) ->
  closed seen ->
  let r := fold_left (fun acc g => f g acc) gs seen in
  closed r /\ incl seen r /\ incl gs r /\ (forall x, In x r -> In x seen \/ exists g, In g gs /\ reaches g x).
Proof.
  revert seen. induction gs as [|g gs IH]; intros seen Hf Hc; cbn.
  { split; [exact Hc|]. split; [intros y; auto|]. split; [intros y []|]. intros x Hx. now left. }
  destruct (Hf g seen (or_introl eq_refl) Hc) as (C & I & G & R).
  destruct (IH (f g seen)) as (C2 & I2 & G2 & R2); [|exact C|].
  { intros g' acc Hg. apply Hf. now right. }
  split; [exact C2|]. split; [intros y Hy; apply I2, I, Hy|].
  split; [intros y [<-|Hy]; [apply I2, G|apply G2, Hy]|].
  intros x Hx. destruct (R2 x Hx) as [H|[g' [H1 H2]]].
  - destruct (R x H) as [H'|H']; [now left|]. right. exists g. split; [now left|exact H'].
  - right. exists g'. split; [now right|exact H2].
Qed.

Lemma visit_spec d : forall h seen, (rank h < d)%nat -> closed seen ->
  closed (visit d h seen) /\ incl seen (visit d h seen) /\ In h (visit d h seen) /\
  (forall x, In x (visit d h seen) -> In x seen \/ reaches h x).
Proof.
  induction d as [|d IH]; intros h seen Hr Hc; [lia|].
  cbn [visit]. destruct (in_dec header_eq_dec h seen) as [Hin|Hout].
  { split; [exact Hc|]. split; [intros y; auto|]. split; [exact Hin|]. intros x Hx. now left. }
  destruct (visits (visit d) (direct h) seen) as (C & I & G & R).
  { intros g acc Hg Hacc. apply IH; [|exact Hacc]. pose proof (rank_direct _ _ Hg). lia. }
  { exact Hc. }
  split.
  { intros h' g [<-|H] Hg; right; [now apply G|]. eapply C; eauto. }
  split; [intros y Hy; right; now apply I|]. split; [now left|].
  intros x [<-|Hx]; [right; constructor|].
  destruct (R x Hx) as [H|[g [H1 H2]]]; [now left|]. right. eapply reaches_step; eauto.
Qed.

Lemma all_headers_spec l :
  closed (all_headers l) /\ incl l (all_headers l) /\
  (forall x, In x (all_headers l) -> exists h, In h l /\ reaches h x).
Proof.
  unfold all_headers. destruct (visits (visit 17) l []) as (C & I & G & R).
  { intros g acc _ Hacc. apply visit_spec; [destruct g; cbn; lia|exact Hacc]. }
  { intros h g []. }
  split; [exact C|]. split; [exact G|]. intros x Hx. destruct (R x Hx) as [[]|H]. exact H.
Qed.

Lemma upward (P : header -> bool) : (forall h g, In g (direct h) -> P g = true -> P h = true) ->
  forall h x, reaches h x -> P x = true -> P h = true.
Proof. intros HP h x R. induction R; eauto. Qed.

Lemma common_up h g : In g (direct h) -> gives_common g = true -> gives_common h = true.
Proof. destruct h; cbn; intros H E; repeat (destruct H as [<-|H]; [first [reflexivity|discriminate E]|]); contradiction. Qed.
Lemma resources_up h g : In g (direct h) -> gives_resources g = true -> gives_resources h = true.
Proof. destruct h; cbn; intros H E; repeat (destruct H as [<-|H]; [first [reflexivity|discriminate E]|]); contradiction. Qed.

Lemma brought (P : header -> bool) s x : (forall h g, In g (direct h) -> P g = true -> P h = true) ->
  In x (all_headers (includes s)) -> P x = true -> includes_some P s.
Proof.
  intros HP Hx Px. destruct (all_headers_spec (includes s)) as (_ & _ & R).
  destruct (R x Hx) as [h [Hh Hr]]. exists h. split; [exact Hh|]. eapply upward; eauto.
Qed.

Lemma memory_brought s : In H_memory (all_headers (includes s)) <-> includes_some gives_resources s.
Proof.
  split; [intros H; eapply brought; [exact resources_up|exact H|reflexivity]|].
  intros [h [Hh E]]. destruct (all_headers_spec (includes s)) as (C & I & _). apply I in Hh.
  destruct h; try discriminate E; try exact Hh; (eapply C; [exact Hh|cbn; tauto]).
Qed.
Lemma common_brought s : In H_common (all_headers (includes s)) <-> includes_some gives_common s.
Proof.
  split; [intros H; eapply brought; [exact common_up|exact H|reflexivity]|].
  intros [h [Hh E]]. destruct (all_headers_spec (includes s)) as (C & I & _). apply I in Hh.
  assert (M : In H_memory (all_headers (includes s)) -> In H_common (all_headers (includes s))).
  { intros M. eapply (C H_ctz); [eapply C; [exact M|]|]; cbn; tauto. }
  destruct h; try discriminate E; try exact Hh;
    first [ (eapply C; [exact Hh|cbn; tauto])
          | apply M; first [exact Hh|eapply C; [exact Hh|cbn; tauto]]].
Qed.

(** ** What the headers define *)

Definition headers : list header :=
  [H_cartesian_product; H_clz; H_common; H_ctz; H_detector; H_cxz; H_fast_pimpl; H_function_traits;
   H_allocator; H_memory; H_monotonic; H_simple; H_padding_checker; H_timer; H_type_list; H_utils; H_value_list].
Lemma headers_all h : In h headers.
Proof. destruct h; cbn; tauto. Qed.
Definition table : list (header * definition) := flat_map (fun h => map (pair h) (own_defs h)) headers.
Lemma table_in h d : In d (own_defs h) -> In (h, d) table.
Proof. intros H. apply in_flat_map. exists h. split; [apply headers_all|]. now apply in_map. Qed.

Definition mem (n : string) (l : list string) : bool := existsb (String.eqb n) l.
Lemma mem_in n l : mem n l = true <-> In n l.
Proof.
  unfold mem. rewrite existsb_exists. split.
  - intros [x [H E]]. apply String.eqb_eq in E. now subst.
  - intros H. exists n. split; [exact H|apply String.eqb_refl].
Qed.

Fixpoint distinct (l : list string) : bool :=
  match l with [] => true | n :: l' => negb (mem n l') && distinct l' end.
Lemma distinct_nodup l : distinct l = true -> NoDup l.
Proof.
  induction l as [|n l IH]; cbn; intros E; constructor; apply andb_prop in E as [E1 E2]; auto.
  intros H. apply mem_in in H. rewrite H in E1. discriminate.
Qed.
Lemma nodup_map {A B} (f : A -> B) l x y : NoDup (map f l) -> In x l -> In y l -> f x = f y -> x = y.
Proof.
  induction l as [|z l IH]; cbn; intros H Hx Hy E; [contradiction|]. inversion H as [|? ? H1 H2]; subst.
  destruct Hx as [<-|Hx], Hy as [<-|Hy]; auto.
  - exfalso. apply H1. rewrite E. now apply in_map.
  - exfalso. apply H1. rewrite <- E. now apply in_map.
Qed.
Lemma table_distinct : distinct (map (fun e => name (snd e)) table) = true.
Proof. vm_compute. reflexivity. Qed.
Lemma same_definition h h' d d' : In d (own_defs h) -> In d' (own_defs h') -> name d = name d' -> h = h' /\ d = d'.
Proof.
  intros H H' E. apply table_in in H. apply table_in in H'.
  assert (X : (h, d) = (h', d')).
  { eapply (nodup_map (fun e => name (snd e))); eauto. apply distinct_nodup, table_distinct. }
  now injection X.
Qed.

Definition checked (e : header * definition) : bool :=
  let (h, d) := e in
  (* what has internal linkage, and where *)
  match link d with
  | Internal => mem (name d) statics_of_common && gives_common h || mem (name d) statics_of_memory && gives_resources h
  | External => negb (mem (name d) (statics_of_common ++ statics_of_memory))%list
  end &&
  match share d with EveryUnit => true | Once => false end &&
  negb (String.prefix "user::" (name d)) &&
  (* who uses it *)
  match link d with
  | Internal => true
  | External => forallb (fun n => negb (mem n (statics_of_common ++ statics_of_memory)%list) || gives_resources h) (uses d)
  end.
Lemma table_checked : forallb checked table = true.
Proof. vm_compute. reflexivity. Qed.

Lemma def_checked h d : In d (own_defs h) -> checked (h, d) = true.
Proof. intros H. apply table_in in H. pose proof table_checked as T. rewrite forallb_forall in T. now apply T. Qed.

Lemma prefix_user g : String.prefix "user::" ("user::" ++ g) = true.
Proof. cbn. destruct g; reflexivity. Qed.

Lemma no_user h d g : In d (own_defs h) -> name d <> ("user::" ++ g)%string.
Proof.
  intros H E. apply def_checked in H. unfold checked in H.
  apply andb_prop in H as [H _]. apply andb_prop in H as [_ H]. rewrite E, prefix_user in H. discriminate.
Qed.

Lemma def_internal h d : In d (own_defs h) -> link d = Internal ->
  (In (name d) statics_of_common /\ gives_common h = true) \/ (In (name d) statics_of_memory /\ gives_resources h = true).
Proof.
  intros H E. apply def_checked in H. unfold checked in H. rewrite E in H.
  do 3 apply andb_prop in H as [H _]. apply orb_prop in H as [H|H]; apply andb_prop in H as [H1 H2]; apply mem_in in H1; auto.
Qed.
Lemma def_shared h d : In d (own_defs h) -> share d = EveryUnit.
Proof.
  intros H. apply def_checked in H. unfold checked in H. do 2 apply andb_prop in H as [H _].
  apply andb_prop in H as [_ H]. destruct (share d); [discriminate|reflexivity].
Qed.
Lemma def_uses h d n : In d (own_defs h) -> link d = External -> In n (uses d) ->
  In n statics_of_common \/ In n statics_of_memory -> gives_resources h = true.
Proof.
  intros H E Hn Hs. apply def_checked in H. unfold checked in H. rewrite E in H.
  apply andb_prop in H as [_ H]. rewrite forallb_forall in H. specialize (H n Hn).
  apply orb_prop in H as [H|H]; [|exact H].
  assert (M : mem n (statics_of_common ++ statics_of_memory)%list = true) by (apply mem_in, in_or_app, Hs).
  rewrite M in H. discriminate.
Qed.

(** ** A source file after the preprocessor *)

Lemma in_definitions s d : In d (definitions (preprocess s)) <->
  (exists h, In h (all_headers (includes s)) /\ In d (own_defs h)) \/
  (exists f ns, In (f, ns) (own s) /\ d = shared f ns).
Proof.
  cbn [preprocess definitions]. rewrite in_app_iff, in_flat_map, in_map_iff. split; intros [H|H].
  - left. destruct H as [h [H1 H2]]. exists h. split; [now apply in_rev|exact H2].
  - right. destruct H as [[f ns] [H1 H2]]. exists f, ns. now split.
  - left. destruct H as [h [H1 H2]]. exists h. split; [now apply in_rev in H1|exact H2].
  - right. destruct H as [f [ns [H1 H2]]]. exists (f, ns). now split.
Qed.

Definition defines_static (l : list definition) (n : string) : bool :=
  existsb (fun d => String.eqb (name d) n && match link d with Internal => true | External => false end) l.
Lemma defines_static_spec l n : defines_static l n = true -> exists d, In d l /\ name d = n /\ link d = Internal.
Proof.
  unfold defines_static. rewrite existsb_exists. intros [d [H E]]. apply andb_prop in E as [E1 E2].
  exists d. split; [exact H|]. split; [now apply String.eqb_eq|]. destruct (link d); [reflexivity|discriminate].
Qed.
Lemma static_of_common n : In n statics_of_common -> exists d, In d defs_common /\ name d = n /\ link d = Internal.
Proof.
  intros H. apply defines_static_spec.
  assert (T : forallb (defines_static defs_common) statics_of_common = true) by (vm_compute; reflexivity).
  rewrite forallb_forall in T. auto.
Qed.
Lemma static_of_memory n : In n statics_of_memory -> exists d, In d defs_memory /\ name d = n /\ link d = Internal.
Proof.
  intros H. apply defines_static_spec.
  assert (T : forallb (defines_static defs_memory) statics_of_memory = true) by (vm_compute; reflexivity).
  rewrite forallb_forall in T. auto.
Qed.

Lemma internal_exact s n : internal_in (preprocess s) n <->
  (In n statics_of_common /\ includes_some gives_common s) \/ (In n statics_of_memory /\ includes_some gives_resources s).
Proof.
  split.
  - intros [d [H [E L]]]. subst n. apply in_definitions in H as [[h [H1 H2]]|[f [ns [_ ->]]]]; [|discriminate L].
    destruct (def_internal _ _ H2 L) as [[A B]|[A B]]; [left|right]; (split; [exact A|]).
    + eapply brought; eauto using common_up.
    + eapply brought; eauto using resources_up.
  - intros [[A B]|[A B]].
    + apply common_brought in B. destruct (static_of_common _ A) as [d [D1 [D2 D3]]].
      exists d. split; [|auto]. apply in_definitions. left. exists H_common. auto.
    + apply memory_brought in B. destruct (static_of_memory _ A) as [d [D1 [D2 D3]]].
      exists d. split; [|auto]. apply in_definitions. left. exists H_memory. auto.
Qed.

Lemma not_static s n : ~ In n statics_of_common -> ~ In n statics_of_memory -> ~ internal_in (preprocess s) n.
Proof. intros A B H. apply internal_exact in H as [[H _]|[H _]]; auto. Qed.

(** ** Instances *)

Definition chain : list string :=
  ["details::concatenate_arrays/1"; "details::concatenate_arrays/2"; "details::concatenate_2_arrays"].

Lemma concat_in rest : forall a x, In x (concat_instances a rest) ->
  (template x = "details::concatenate_arrays/1" /\ dependent x = []) \/
  (template x = "details::concatenate_arrays/2" /\ dependent x = chain /\ needs (a :: rest) (arguments x)).
Proof.
  induction rest as [|b rest IH]; intros a x; cbn [concat_instances].
  - intros [<-|[]]. left. now split.
  - intros [<-|H].
    + right. split; [reflexivity|]. split; [reflexivity|]. left. cbn. split; [reflexivity|lia].
    + apply IH in H as [H|[T [D N]]]; [now left|]. right. split; [exact T|]. split; [exact D|].
      right. destruct N as [[E L]|[done [rest' [E [L [R J]]]]]].
      * exists [a; b], rest. cbn in L. split; [reflexivity|]. split; [cbn; lia|].
        split; [destruct rest; [cbn in L; lia|discriminate]|].
        rewrite E. unfold joined. cbn. now rewrite Nat.add_0_r.
      * destruct done as [|m done]; [cbn in L; lia|]. cbn in E. injection E as Em Er. subst m rest.
        exists (a :: b :: done), rest'. split; [reflexivity|]. split; [cbn in L |- *; lia|].
        split; [exact R|]. rewrite J. unfold joined. cbn. now rewrite Nat.add_assoc.
Qed.

Lemma concat_made rest : forall a l, needs (a :: rest) l ->
  In (Inst "details::concatenate_arrays/2" l chain) (concat_instances a rest).
Proof.
  induction rest as [|b rest IH]; intros a l [[E L]|[done [rest' [E [L [R J]]]]]].
  - cbn in L. lia.
  - exfalso. destruct done as [|? [|? ?]]; cbn in L; try lia. discriminate E.
  - left. now rewrite E.
  - cbn [concat_instances]. right. apply IH.
    destruct done as [|a' [|b' done]]; cbn in L; try lia. cbn in E. injection E as <- <- E.
    destruct done as [|c done].
    + left. cbn in E. subst rest'. rewrite J. unfold joined. cbn. rewrite Nat.add_0_r.
      split; [reflexivity|]. destruct rest; [now elim R|cbn; lia].
    + right. exists (Arr (element a) (size a + size b) Rvalue :: c :: done), rest'.
      split; [cbn; now rewrite E|]. split; [cbn; lia|]. split; [exact R|].
      rewrite J. unfold joined. cbn. now rewrite Nat.add_assoc.
Qed.

Definition entries : list string := ["details::concatenate_arrays/1"; "details::concatenate_arrays/2"].
Lemma call_in c x : In x (call_instances c) ->
  (template x = "concatenate_arrays" /\ dependent x = entries) \/
  (template x = "details::concatenate_arrays/1" /\ dependent x = []) \/
  (template x = "details::concatenate_arrays/2" /\ dependent x = chain /\ needs c (arguments x)).
Proof.
  destruct c as [|a rest]; cbn [call_instances]; [intros []|].
  intros [<-|H]; [left; now split|]. right. now apply concat_in.
Qed.
Lemma call_made c l : needs c l -> In (Inst "details::concatenate_arrays/2" l chain) (call_instances c).
Proof.
  destruct c as [|a rest]; cbn [call_instances]; intros H; [|right; now apply concat_made].
  exfalso. destruct H as [[_ L]|[done [rest [E [L _]]]]]; [cbn in L; lia|].
  destruct done; [cbn in L; lia|discriminate E].
Qed.

(** ** The one-definition rule *)

Lemma nth_map {A B} (f : A -> B) l i y : nth_error (map f l) i = Some y -> exists x, nth_error l i = Some x /\ y = f x.
Proof.
  rewrite nth_error_map. destruct (nth_error l i) as [x|]; cbn; [|discriminate].
  intros E. injection E as <-. eauto.
Qed.

Lemma units_no_duplicates p : no_duplicates (map preprocess p).
Proof.
  intros i j t t' _ Ht Ht' d d' Hd Hd' _ _ _.
  apply nth_map in Ht as [s [_ ->]]. apply nth_map in Ht' as [s' [_ ->]].
  apply in_definitions in Hd. apply in_definitions in Hd'.
  split.
  - destruct Hd as [[h [_ H]]|[f [ns [_ ->]]]]; [eapply def_shared; eauto|reflexivity].
  - destruct Hd' as [[h [_ H]]|[f [ns [_ ->]]]]; [eapply def_shared; eauto|reflexivity].
Qed.

Lemma units_exact p : Forall complete p -> consistent p ->
  (one_definition (map preprocess p) <-> all_apart p).
Proof.
  intros Hcomp Hcons. split.
  - intros [_ Al] i j s s' Hij Hs Hs'.
    assert (Ht : nth_error (map preprocess p) i = Some (preprocess s)) by (rewrite nth_error_map, Hs; reflexivity).
    assert (Ht' : nth_error (map preprocess p) j = Some (preprocess s')) by (rewrite nth_error_map, Hs'; reflexivity).
    destruct (Al i j _ _ Hij Ht Ht') as [Defs Insts].
    assert (Cs : complete s) by (rewrite Forall_forall in Hcomp; eapply Hcomp, nth_error_In; eauto).
    split; [|split].
    + intros [M M']. apply memory_brought in M as MM. apply memory_brought in M' as MM'.
      set (d := shared "memory::details::default_resource" ["memory::system_memory_resource"]).
      assert (Dm : In d defs_memory) by (unfold defs_memory; cbn; tauto).
      destruct (Defs d d) as [_ U]; try reflexivity.
      { apply in_definitions. left. exists H_memory. now split. }
      { apply in_definitions. left. exists H_memory. now split. }
      destruct (U "memory::system_memory_resource") as [N _]; [now left|].
      apply N, internal_exact. right. split; [now left|exact M].
    + intros c c' l Hc Hc' N N'. apply call_made in N. apply call_made in N'.
      destruct (Insts (Inst "details::concatenate_arrays/2" l chain) (Inst "details::concatenate_arrays/2" l chain)) as [_ U];
        try reflexivity.
      { cbn [preprocess instances]. apply in_flat_map. eauto. }
      { cbn [preprocess instances]. apply in_flat_map. eauto. }
      destruct (U "details::concatenate_2_arrays") as [X _]; [cbn; tauto|].
      apply X, internal_exact. left. split; [now left|]. apply Cs. intros E. rewrite E in Hc. destruct Hc.
    + intros f ns n Hf Hf' Hn. destruct Cs as (_ & _ & Cu). destruct (Cu f ns n Hf Hn) as [Cc Cm].
      destruct (Defs (shared f ns) (shared f ns)) as [_ U]; try reflexivity.
      { apply in_definitions. right. eauto. }
      { apply in_definitions. right. eauto. }
      destruct (U n Hn) as [X _]. split; intros H; apply X, internal_exact; [left|right]; auto.
  - intros Ap. split; [apply units_no_duplicates|].
    intros i j t t' Hij Ht Ht'.
    apply nth_map in Ht as [s [Hs ->]]. apply nth_map in Ht' as [s' [Hs' ->]].
    destruct (Ap i j s s' Hij Hs Hs') as (A1 & A2 & A3).
    assert (Cs : complete s) by (rewrite Forall_forall in Hcomp; eapply Hcomp, nth_error_In; eauto).
    assert (Cs' : complete s') by (rewrite Forall_forall in Hcomp; eapply Hcomp, nth_error_In; eauto).
    split.
    + intros d d' Hd Hd' En L L'. apply in_definitions in Hd. apply in_definitions in Hd'.
      destruct Hd as [[h [Hh Hd]]|[f [ns [Hf ->]]]], Hd' as [[h' [Hh' Hd']]|[f' [ns' [Hf' ->]]]].
      * destruct (same_definition _ _ _ _ Hd Hd' En) as [<- <-]. split; [reflexivity|].
        intros n Hn.
        assert (X : ~ In n statics_of_common /\ ~ In n statics_of_memory).
        { apply Decidable.not_or. intros S.
          pose proof (def_uses _ _ _ Hd L Hn S) as G. apply A1.
          split; eapply brought; eauto using resources_up. }
        destruct X. split; now apply not_static.
      * exfalso. destruct Cs' as (_ & Cn & _). destruct (Cn _ _ Hf') as [g ->].
        eapply no_user; [exact Hd|exact En].
      * exfalso. destruct Cs as (_ & Cn & _). destruct (Cn _ _ Hf) as [g ->].
        eapply no_user; [exact Hd'|symmetry; exact En].
      * cbn in En. subst f'.
        assert (ns = ns') as <- by (eapply (Hcons s s'); eauto using nth_error_In).
        split; [reflexivity|]. cbn. intros n Hn.
        destruct (A3 f ns n Hf Hf' Hn). split; now apply not_static.
    + intros x x' Hx Hx' Et Ea. cbn [preprocess instances] in Hx, Hx'.
      apply in_flat_map in Hx as [c [Hc Hx]]. apply in_flat_map in Hx' as [c' [Hc' Hx']].
      apply call_in in Hx. apply call_in in Hx'.
      destruct Hx as [[T D]|[[T D]|[T [D N]]]], Hx' as [[T' D']|[[T' D']|[T' [D' N']]]];
        rewrite T, T' in Et; try discriminate Et.
      * rewrite D, D'. split; [reflexivity|]. intros n Hn.
        assert (X : ~ In n statics_of_common /\ ~ In n statics_of_memory).
        { cbn in Hn. repeat (destruct Hn as [<-|Hn]; [split; cbn; intuition discriminate|]). contradiction. }
        destruct X. split; now apply not_static.
      * rewrite D, D'. split; [reflexivity|]. intros n [].
      * exfalso. rewrite <- Ea in N'. eapply A2; eauto.
Qed.

Lemma resources_twice s s' : includes_some gives_resources s -> includes_some gives_resources s' ->
  ~ one_definition (map preprocess [s; s']).
Proof.
  intros M M' [_ Al].
  destruct (Al 0%nat 1%nat _ _ ltac:(discriminate) eq_refl eq_refl) as [Defs _].
  apply memory_brought in M as MM. apply memory_brought in M' as MM'.
  set (d := shared "memory::details::default_resource" ["memory::system_memory_resource"]).
  assert (Dm : In d defs_memory) by (unfold defs_memory; cbn; tauto).
  destruct (Defs d d) as [_ U]; try reflexivity.
  { apply in_definitions. left. exists H_memory. now split. }
  { apply in_definitions. left. exists H_memory. now split. }
  destruct (U "memory::system_memory_resource") as [N _]; [now left|].
  apply N, internal_exact. right. split; [now left|exact M].
Qed.

(** ** Every name is defined *)

Definition closure (h : header) : list definition := flat_map own_defs (all_headers [h]).
Lemma self_contained_table :
  forallb (fun e : header * definition => forallb (fun n => mem n (map name (closure (fst e)))) (uses (snd e))) table = true.
Proof. vm_compute. reflexivity. Qed.

Lemma reached_in l h x : In h (all_headers l) -> reaches h x -> In x (all_headers l).
Proof.
  intros H R. induction R; [exact H|]. apply IHR. destruct (all_headers_spec l) as (C & _). eapply C; eauto.
Qed.

Lemma units_self_contained s h d n : In h (all_headers (includes s)) -> In d (own_defs h) -> In n (uses d) ->
  exists d', In d' (definitions (preprocess s)) /\ name d' = n.
Proof.
  intros Hh Hd Hn. pose proof self_contained_table as T. rewrite forallb_forall in T.
  specialize (T _ (table_in _ _ Hd)). cbn [fst snd] in T. rewrite forallb_forall in T. specialize (T n Hn).
  apply mem_in, in_map_iff in T as [d' [E H']]. exists d'. split; [|exact E].
  apply in_definitions. left. apply in_flat_map in H' as [g [Hg Hd']]. exists g. split; [|exact Hd'].
  destruct (all_headers_spec [h]) as (_ & _ & R). destruct (R g Hg) as [h' [[<-|[]] Hr]].
  eapply reached_in; eauto.
Qed.

(** ** Resources of several units *)

Lemma units_run_nth place ops : forall d i, nth_error (units_run place d ops) i =
  match nth_error ops i with
  | None => None
  | Some o =>
    Some (snd (units_step place (fold_left (fun c o => fst (units_step place c o)) (firstn i ops) d) o))
  end.
Proof.
  induction ops as [|o ops IH]; intros d [|i]; cbn; try reflexivity.
  - destruct (units_step place d o) as [d' e]. reflexivity.
  - destruct (units_step place d o) as [d' e] eqn:E. cbn. rewrite IH. reflexivity.
Qed.

Lemma units_default place ops : forall c, fold_left (fun c o => fst (units_step place c o)) ops (place (fst c) (snd c)) =
  place (fst (default_before c ops)) (snd (default_before c ops)).
Proof.
  induction ops as [|o ops IH]; intros c; [reflexivity|]. destruct o; cbn [fold_left units_step fst default_before].
  - apply IH.
  - apply (IH (v, w)).
  - apply IH.
Qed.

Lemma units_seen place ops i u r : nth_error (program_sees place ops) i = Some (UResource u r) ->
  exists o, nth_error ops i = Some o /\ r = place (fst (got (firstn i ops) o)) (snd (got (firstn i ops) o)) /\
    u = match o with UGet u _ | USetDefault u _ _ | UDefault u => u end.
Proof.
  unfold program_sees. rewrite units_run_nth. destruct (nth_error ops i) as [o|]; [|discriminate].
  intros E. exists o. split; [reflexivity|].
  pose proof (units_default place (firstn i ops) (0%nat, System)) as D. cbn [fst snd] in D.
  unfold unit_resource in E. rewrite D in E. destruct o; cbn in E |- *; now injection E as <- <-.
Qed.

Lemma units_equal place ops i j u v r q o o' :
  (forall u w u' w', place u w = place u' w' -> u = u' /\ w = w') ->
  nth_error ops i = Some o -> nth_error ops j = Some o' ->
  nth_error (program_sees place ops) i = Some (UResource u r) ->
  nth_error (program_sees place ops) j = Some (UResource v q) ->
  (resources_equal r q = true <-> got (firstn i ops) o = got (firstn j ops) o').
Proof.
  intros P Ho Ho' Hr Hq. apply units_seen in Hr as [o1 [E1 [-> _]]]. apply units_seen in Hq as [o2 [E2 [-> _]]].
  rewrite Ho in E1. injection E1 as <-. rewrite Ho' in E2. injection E2 as <-.
  unfold resources_equal. rewrite Z.eqb_eq. split.
  - intros E. apply P in E as [A B]. destruct (got (firstn i ops) o), (got (firstn j ops) o'). cbn in A, B. now subst.
  - intros ->. reflexivity.
Qed.

Lemma units_differ place u v w : (forall u w u' w', place u w = place u' w' -> u = u' /\ w = w') -> u <> v ->
  exists r q, program_sees place [UGet u w; UGet v w] = [UResource u r; UResource v q] /\ resources_equal r q = false.
Proof.
  intros P N. exists (place u w), (place v w). split; [reflexivity|].
  unfold resources_equal. apply Z.eqb_neq. intros E. apply P in E as [E _]. now apply N.
Qed.

Lemma default_before_app ops : forall c ops', default_before c (ops ++ ops') = default_before (default_before c ops) ops'.
Proof. induction ops as [|o ops IH]; intros c ops'; [reflexivity|]. destruct o; cbn; apply IH. Qed.
Lemma default_before_quiet ops : forall c,
  (forall o, In o ops -> match o with USetDefault _ _ _ => False | _ => True end) -> default_before c ops = c.
Proof.
  induction ops as [|o ops IH]; intros c H; [reflexivity|]. pose proof (H o (or_introl eq_refl)) as Ho.
  destruct o; cbn; try contradiction; apply IH; intros o' Ho'; apply H; now right.
Qed.

Lemma units_one_default place before u v w after x y r :
  (forall o, In o after -> match o with USetDefault _ _ _ => False | _ => True end) ->
  nth_error (program_sees place (before ++ USetDefault u v w :: after ++ [UDefault x; UGet v w]))
    (List.length before + 1 + List.length after) = Some (UResource y r) ->
  y = x /\ nth_error (program_sees place (before ++ USetDefault u v w :: after ++ [UDefault x; UGet v w]))
    (List.length before + 1 + List.length after + 1) = Some (UResource v r).
Proof.
  intros Q H.
  set (pre := (before ++ USetDefault u v w :: after)%list).
  assert (Eo : (before ++ USetDefault u v w :: after ++ [UDefault x; UGet v w])%list = (pre ++ [UDefault x; UGet v w])%list)
    by (unfold pre; now rewrite <- app_assoc).
  assert (El : (List.length before + 1 + List.length after)%nat = List.length pre)
    by (unfold pre; rewrite app_length; cbn; lia).
  rewrite Eo, El in *. apply units_seen in H as [o [Ho [-> ->]]].
  rewrite nth_error_app2 in Ho by lia. rewrite Nat.sub_diag in Ho. cbn in Ho. injection Ho as <-.
  split; [reflexivity|].
  unfold program_sees. rewrite units_run_nth, nth_error_app2 by lia.
  replace (List.length pre + 1 - List.length pre)%nat with 1%nat by lia. cbn.
  rewrite firstn_app, firstn_all2, Nat.sub_diag by lia. cbn. rewrite app_nil_r.
  unfold pre. rewrite default_before_app. cbn. rewrite default_before_quiet by exact Q. reflexivity.
Qed.
