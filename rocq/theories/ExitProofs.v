(** Proofs about start-up and exit. *)

Require Import List Bool Arith Lia.
Require Import Verif.Outcome Verif.ExitSpec Verif.ExitModel.
Import ListNotations.

Lemma called_app : forall r a b, called r (a ++ b) <-> called r a \/ called r b.
Proof. intros. unfold called. rewrite !in_app_iff. tauto. Qed.

Definition calls (u : use) : option nat := match u with Call r | SetDefault r => Some r | UseDefault => None end.

Lemma called_do : forall r u, called r [Do u] <-> calls u = Some r.
Proof.
  intros r u. unfold called. cbn. destruct u; cbn; split; intros H; try destruct H as [[H|[]]|[H|[]]];
    try (inversion H; subst; auto; fail); try discriminate; injection H as ->; auto.
Qed.
Lemma called_complete : forall r x, ~ called r [Complete x].
Proof. intros r x [[H|[]]|[H|[]]]; discriminate. Qed.
Lemma called_nil : forall r, ~ called r [].
Proof. intros r [[]|[]]. Qed.

Lemma default_app : forall a d b, default_after d (a ++ b) = default_after (default_after d a) b.
Proof. induction a as [|[[r| |r]|x] a IH]; intros; cbn; auto. Qed.

Lemma mark_iff : forall f r q, mark f r q = true <-> q = r \/ f q = true.
Proof. intros. unfold mark. rewrite orb_true_iff, Nat.eqb_eq. reflexivity. Qed.

Definition on_order (o : list static) (s : estate) : estate := Estate (default_ s) (made s) (gone s) o.

(** the state after the history [h]: what is gone is described by [dead] *)
Record agrees (h : list event) (dead : nat -> Prop) (s : estate) : Prop := {
  a_default : default_ s = default_after None h;
  a_made : forall r, made s r = true <-> called r h;
  a_gone : forall r, gone s r = true <-> dead r
}.

Definition fine (dead : nat -> Prop) (h : list event) (u : use) : Prop := exists r, meant h u = Some r /\ ~ dead r.

Definition newly (s : estate) (u : use) : list static :=
  match calls u with Some r => if made s r then [] else [Resource r] | None => [] end.

Lemma use_ok : forall h dead s u, agrees h dead s -> fine dead h u ->
  exists s', use_step s u = Ok s' /\ agrees (h ++ [Do u]) dead s' /\ order s' = newly s u ++ order s.
Proof.
  intros h dead s u A (r & M & N).
  assert (G : gone s r = false).
  { destruct (gone s r) eqn:E; [|reflexivity]. destruct N. apply (a_gone _ _ _ A). exact E. }
  destruct u as [q| |q]; cbn in M; cbn [use_step newly calls].
  - injection M as ->. unfold function_static. rewrite G. destruct (made s r) eqn:E.
    + exists s. split; [reflexivity|]. split; [|reflexivity]. destruct A as [D H Gn]. split.
      * rewrite default_app. exact D.
      * intros q. rewrite called_app, called_do, H. cbn. split; [tauto|]. intros [X|X]; [exact X|].
        injection X as <-. apply H. exact E.
      * exact Gn.
    + eexists. split; [reflexivity|]. split; [|reflexivity]. destruct A as [D H Gn]. split; cbn.
      * rewrite default_app. exact D.
      * intros q. rewrite mark_iff, called_app, called_do, H. cbn. split.
        -- intros [->|X]; auto.
        -- intros [X|X]; [auto|]. injection X as <-. auto.
      * exact Gn.
  - rewrite (a_default _ _ _ A), M, G. exists s. split; [reflexivity|]. split; [|reflexivity].
    destruct A as [D H Gn]. split.
    + rewrite default_app. exact D.
    + intros q. rewrite called_app, called_do, H. cbn. split; [tauto|]. intros [X|X]; [exact X|discriminate].
    + exact Gn.
  - injection M as ->. unfold function_static. rewrite G. destruct (made s r) eqn:E; cbn [bind].
    + eexists. split; [reflexivity|]. split; [|reflexivity]. destruct A as [D H Gn]. split; cbn.
      * rewrite default_app. reflexivity.
      * intros q. rewrite called_app, called_do, H. cbn. split; [tauto|]. intros [X|X]; [exact X|].
        injection X as <-. apply H. exact E.
      * exact Gn.
    + eexists. split; [reflexivity|]. split; [|reflexivity]. destruct A as [D H Gn]. split; cbn.
      * rewrite default_app. reflexivity.
      * intros q. rewrite mark_iff, called_app, called_do, H. cbn. split.
        -- intros [->|X]; auto.
        -- intros [X|X]; [auto|]. injection X as <-. auto.
      * exact Gn.
Qed.

Lemma use_fine : forall h dead s u, agrees h dead s -> use_step s u <> UB -> fine dead h u.
Proof.
  intros h dead s u A H. destruct u as [q| |q]; cbn [use_step] in H.
  - exists q. split; [reflexivity|]. intros D. apply (a_gone _ _ _ A) in D. unfold function_static in H. rewrite D in H. auto.
  - unfold fine. cbn. rewrite <- (a_default _ _ _ A). destruct (default_ s) as [r|]; [|destruct H; reflexivity].
    exists r. split; [reflexivity|]. intros D. apply (a_gone _ _ _ A) in D. rewrite D in H. auto.
  - exists q. split; [reflexivity|]. intros D. apply (a_gone _ _ _ A) in D. unfold function_static in H. rewrite D in H. auto.
Qed.

Lemma use_step_cases : forall s u, use_step s u = UB \/ exists s', use_step s u = Ok s'.
Proof.
  intros s [q| |q]; cbn [use_step]; unfold function_static.
  - destruct (gone s q); [auto|]. destruct (made s q); eauto.
  - destruct (default_ s) as [r|]; [destruct (gone s r)|]; eauto.
  - destruct (gone s q); [auto|]. destruct (made s q); cbn [bind]; eauto.
Qed.

(** a list of uses *)
Lemma use_run_cases : forall us h dead s, agrees h dead s ->
  (use_run s us = UB /\ exists a u b, us = a ++ u :: b /\ ~ fine dead (h ++ map Do a) u) \/
  (exists s', use_run s us = Ok s' /\ agrees (h ++ map Do us) dead s' /\
     (forall a u b, us = a ++ u :: b -> fine dead (h ++ map Do a) u) /\
     (forall r, In (Resource r) (order s') <-> In (Resource r) (order s) \/ (~ called r h /\ called r (map Do us))) /\
     (forall x, In (Object x) (order s') <-> In (Object x) (order s))).
Proof.
  induction us as [|u us IH]; intros h dead s A; cbn [use_run map].
  - right. exists s. rewrite app_nil_r. split; [reflexivity|]. split; [exact A|]. split; [|split].
    + intros [|? ?] ? ? E; discriminate.
    + intros r. split; [tauto|]. intros [X|[_ X]]; [exact X|]. destruct (called_nil r X).
    + reflexivity.
  - destruct (use_step_cases s u) as [E|[s' E]]; rewrite E; cbn [bind].
    + left. split; [reflexivity|]. exists [], u, us. split; [reflexivity|]. cbn. rewrite app_nil_r. intros F.
      destruct (use_ok _ _ _ _ A F) as (t & T & _). congruence.
    + assert (F : fine dead h u) by (apply (use_fine _ _ _ _ A); congruence).
      destruct (use_ok _ _ _ _ A F) as (t & T & A' & O). assert (t = s') by congruence. subst t.
      destruct (IH _ _ _ A') as [(U & a & v & b & Eq & N)|(s2 & R & A2 & Fs & Or & Ob)].
      * left. split; [exact U|]. exists (u :: a), v, b. split; [rewrite Eq; reflexivity|].
        rewrite <- app_assoc in N. exact N.
      * right. exists s2. split; [exact R|]. rewrite <- app_assoc in A2. split; [exact A2|]. split; [|split].
        -- intros [|c a] v b Eq.
           ++ injection Eq as <- <-. cbn. rewrite app_nil_r. exact F.
           ++ injection Eq as <- ->. cbn. specialize (Fs a v b eq_refl). rewrite <- app_assoc in Fs. exact Fs.
        -- intros r. rewrite Or, O, in_app_iff, called_app, called_do.
           assert (Nw : In (Resource r) (newly s u) <-> calls u = Some r /\ ~ called r h).
           { unfold newly. destruct (calls u) as [q|]; [|split; [intros []|intros [? _]; discriminate]].
             rewrite <- (a_made _ _ _ A). destruct (made s q) eqn:M; cbn; split.
             - intros [].
             - intros [X N]. injection X as <-. congruence.
             - intros [X|[]]. injection X as <-. split; [reflexivity|congruence].
             - intros [X N]. injection X as <-. auto. }
           rewrite Nw. replace (Do u :: map Do us) with ([Do u] ++ map Do us) by reflexivity.
           rewrite called_app, called_do. destruct (calls u) as [q|]; [|intuition discriminate].
           assert (Dec : called r h \/ ~ called r h).
           { rewrite <- (a_made _ _ _ A). destruct (made s r); [left; reflexivity|right; discriminate]. }
           assert (Dq : Some q = Some r \/ Some q <> Some r).
           { destruct (Nat.eq_dec q r); [left; congruence|right; congruence]. }
           tauto.
        -- intros x. rewrite Ob, O, in_app_iff. split; [|tauto]. intros [X|X]; [|exact X].
           unfold newly in X. destruct (calls u) as [q|]; [|destruct X]. destruct (made s q); [destruct X|].
           destruct X as [X|[]]. discriminate.
Qed.

(** the statics constructed by a history, the latest first *)
Fixpoint statics (seen : list nat) (o : list static) (l : list event) : list static :=
  match l with
  | [] => o
  | Complete x :: l' => statics seen (Object x :: o) l'
  | Do u :: l' =>
    match calls u with
    | Some r => if existsb (Nat.eqb r) seen then statics seen o l' else statics (r :: seen) (Resource r :: o) l'
    | None => statics seen o l'
    end
  end.

Lemma exists_eqb : forall r l, existsb (Nat.eqb r) l = true <-> In r l.
Proof.
  intros r l. rewrite existsb_exists. split.
  - intros (x & I & E). apply Nat.eqb_eq in E. subst. exact I.
  - intros I. exists r. split; [exact I|apply Nat.eqb_refl].
Qed.

Lemma agrees_complete : forall h dead s x, agrees h dead s ->
  agrees (h ++ [Complete x]) dead (Estate (default_ s) (made s) (gone s) (Object x :: order s)).
Proof.
  intros h dead s x [D H G]. split; cbn.
  - rewrite default_app. exact D.
  - intros r. rewrite H, called_app. split; [tauto|]. intros [X|X]; [exact X|]. destruct (called_complete _ _ X).
  - exact G.
Qed.

Definition nothing_dead : nat -> Prop := fun _ => False.

Lemma main_cases : forall l h seen s, agrees h nothing_dead s -> (forall r, In r seen <-> called r h) ->
  (main_run s l = UB /\ exists before u after, l = before ++ Do u :: after /\ meant (h ++ before) u = None) \/
  (exists s', main_run s l = Ok s' /\ agrees (h ++ l) nothing_dead s' /\ order s' = statics seen (order s) l /\
     (forall before u after, l = before ++ Do u :: after -> meant (h ++ before) u <> None)).
Proof.
  induction l as [|[u|x] l IH]; intros h seen s A Sn; cbn [main_run statics].
  - right. exists s. rewrite app_nil_r. split; [reflexivity|]. split; [exact A|]. split; [reflexivity|].
    intros [|? ?] ? ? E; discriminate.
  - destruct (use_step_cases s u) as [E|[s' E]]; rewrite E; cbn [bind].
    + left. split; [reflexivity|]. exists [], u, l. split; [reflexivity|]. rewrite app_nil_r.
      destruct (meant h u) as [r|] eqn:M; [|reflexivity].
      destruct (use_ok h nothing_dead s u A) as (t & T & _); [exists r; split; [exact M|intros []]|congruence].
    + assert (F : fine nothing_dead h u) by (apply (use_fine _ _ _ _ A); congruence).
      destruct (use_ok _ _ _ _ A F) as (t & T & A' & O). assert (t = s') by congruence. subst t.
      assert (X : exists seen', (forall r, In r seen' <-> called r (h ++ [Do u])) /\
        match calls u with
        | Some r => if existsb (Nat.eqb r) seen then statics seen (order s) l else statics (r :: seen) (Resource r :: order s) l
        | None => statics seen (order s) l
        end = statics seen' (order s') l).
      { rewrite O. unfold newly. destruct (calls u) as [q|] eqn:C.
        - destruct (existsb (Nat.eqb q) seen) eqn:Eb.
          + apply exists_eqb in Eb. exists seen. apply Sn in Eb. pose proof Eb as Mq. apply (a_made _ _ _ A) in Mq. rewrite Mq.
            split; [|reflexivity]. intros r. rewrite called_app, called_do, Sn, C. split; [tauto|].
            intros [X|X]; [exact X|]. injection X as <-. exact Eb.
          + exists (q :: seen). assert (N : ~ called q h) by (rewrite <- Sn, <- exists_eqb; congruence).
            assert (Mq : made s q = false).
            { destruct (made s q) eqn:Mq; [|reflexivity]. destruct N. apply (a_made _ _ _ A). exact Mq. }
            rewrite Mq. split; [|reflexivity]. intros r. cbn. rewrite called_app, called_do, Sn, C. split.
            * intros [->|X]; auto.
            * intros [X|X]; [auto|]. injection X as <-. auto.
        - exists seen. split; [|reflexivity]. intros r. rewrite called_app, called_do, Sn, C. split; [tauto|].
          intros [X|X]; [exact X|discriminate]. }
      destruct X as (seen' & Sn' & ->).
      destruct (IH _ _ _ A' Sn') as [(U & b & v & a & Eq & N)|(s2 & R & A2 & Or & Fs)].
      * left. split; [exact U|]. exists (Do u :: b), v, a. split; [rewrite Eq; reflexivity|].
        rewrite <- app_assoc in N. exact N.
      * right. exists s2. rewrite <- app_assoc in A2. split; [exact R|]. split; [exact A2|]. split; [exact Or|].
        intros [|c b] v a Eq.
        -- injection Eq as <- <-. rewrite app_nil_r. destruct F as (r & -> & _). discriminate.
        -- injection Eq as <- ->. specialize (Fs b v a eq_refl). rewrite <- app_assoc in Fs. exact Fs.
  - pose proof (agrees_complete _ _ _ x A) as A'.
    assert (Sn' : forall r, In r seen <-> called r (h ++ [Complete x])).
    { intros r. rewrite Sn, called_app. split; [tauto|]. intros [X|X]; [exact X|destruct (called_complete _ _ X)]. }
    destruct (IH _ _ _ A' Sn') as [(U & b & v & a & Eq & N)|(s2 & R & A2 & Or & Fs)].
    + left. split; [exact U|]. exists (Complete x :: b), v, a. split; [rewrite Eq; reflexivity|].
      rewrite <- app_assoc in N. exact N.
    + right. exists s2. rewrite <- app_assoc in A2. split; [exact R|]. split; [exact A2|]. split; [exact Or|].
      intros [|c b] v a Eq; [discriminate|]. injection Eq as <- ->. specialize (Fs b v a eq_refl).
      rewrite <- app_assoc in Fs. exact Fs.
Qed.

(** statics of a history and one more event *)
Definition seen_in (l : list event) : list nat :=
  flat_map (fun e => match e with Do u => match calls u with Some r => [r] | None => [] end | Complete _ => [] end) l.
Lemma seen_called : forall l r, In r (seen_in l) <-> called r l.
Proof.
  intros l r. unfold seen_in. rewrite in_flat_map. split.
  - intros (e & I & J). destruct e as [u|x]; [|destruct J]. destruct u as [q| |q]; cbn in J;
      [destruct J as [->|[]]; left; exact I|destruct J|destruct J as [->|[]]; right; exact I].
  - intros [I|I]; [exists (Do (Call r))|exists (Do (SetDefault r))]; (split; [exact I|left; reflexivity]).
Qed.

Lemma statics_snoc : forall l seen o e, statics seen o (l ++ [e]) =
  match e with
  | Complete x => Object x :: statics seen o l
  | Do u => match calls u with
            | Some r => if existsb (Nat.eqb r) (seen ++ seen_in l) then statics seen o l else Resource r :: statics seen o l
            | None => statics seen o l
            end
  end.
Proof.
  induction l as [|[u|x] l IH]; intros seen o e.
  - cbn [app statics seen_in flat_map]. rewrite app_nil_r. destruct e as [u|x]; [|reflexivity]. reflexivity.
  - cbn [app statics]. cbn [seen_in flat_map]. destruct (calls u) as [r|].
    + destruct (existsb (Nat.eqb r) seen) eqn:E.
      * rewrite IH. destruct e as [v|x]; [|reflexivity]. destruct (calls v) as [q|]; [|reflexivity].
        assert (X : existsb (Nat.eqb q) (seen ++ seen_in l) = existsb (Nat.eqb q) (seen ++ [r] ++ flat_map
          (fun e => match e with Do u0 => match calls u0 with Some r0 => [r0] | None => [] end | Complete _ => [] end) l)).
        { apply eq_true_iff_eq. rewrite !exists_eqb, !in_app_iff. fold (seen_in l). cbn. apply exists_eqb in E.
          split; [tauto|]. intros [X|[[->|[]]|X]]; auto. }
        rewrite X. reflexivity.
      * rewrite IH. destruct e as [v|x]; [|reflexivity]. destruct (calls v) as [q|]; [|reflexivity].
        assert (X : existsb (Nat.eqb q) ((r :: seen) ++ seen_in l) = existsb (Nat.eqb q) (seen ++ [r] ++ flat_map
          (fun e => match e with Do u0 => match calls u0 with Some r0 => [r0] | None => [] end | Complete _ => [] end) l)).
        { apply eq_true_iff_eq. rewrite !exists_eqb, !in_app_iff. fold (seen_in l). cbn. tauto. }
        rewrite X. reflexivity.
    + rewrite IH. cbn [app]. reflexivity.
  - cbn [app statics seen_in flat_map]. rewrite IH. reflexivity.
Qed.

Lemma destroy_all_ok : forall l s, default_ (destroy_all s l) = default_ s /\ made (destroy_all s l) = made s /\
  forall r, gone (destroy_all s l) r = true <-> gone s r = true \/ In (Resource r) l.
Proof.
  induction l as [|[q|x] l IH]; intros s; cbn [destroy_all].
  - split; [reflexivity|]. split; [reflexivity|]. intros r. cbn. tauto.
  - destruct (IH (destroy s q)) as (-> & -> & G). split; [reflexivity|]. split; [reflexivity|]. intros r.
    rewrite G. cbn. rewrite mark_iff. split; [intros [[->|X]|X]|intros [X|[X|X]]]; auto. injection X as ->. auto.
  - destruct (IH s) as (-> & -> & G). split; [reflexivity|]. split; [reflexivity|]. intros r.
    rewrite G. cbn. split; [tauto|]. intros [X|[X|X]]; auto. discriminate.
Qed.

Lemma agrees_iff : forall h (d d' : nat -> Prop) s, (forall r, d r <-> d' r) -> agrees h d s -> agrees h d' s.
Proof. intros h d d' s E [D H G]. split; auto. intros r. rewrite G. apply E. Qed.

Definition destructors (p : program) (after : list event) : list event :=
  flat_map (fun y => map Do (destructor p y)) (rev (completed after)).

Lemma destructors_complete : forall p x after,
  destructors p (Complete x :: after) = destructors p after ++ map Do (destructor p x).
Proof. intros. unfold destructors. cbn. rewrite flat_map_app. cbn. rewrite app_nil_r. reflexivity. Qed.

(** exit, when the objects of [after] are destroyed and those of [before] are not *)
Lemma exit_cases : forall p before after s,
  agrees (before ++ meanwhile p after) (fun r => called r (before ++ meanwhile p after) /\ ~ called r before) s ->
  let all := before ++ after in
  (exit_run (destructor p) (statics [] [] before) s = UB /\
   exists b x a us u us', all = b ++ Complete x :: a /\ (exists c, before = b ++ Complete x :: c) /\
     destructor p x = us ++ u :: us' /\
     ~ fine (fun r => called r (meanwhile p a) /\ ~ called r b) (b ++ Complete x :: meanwhile p a ++ map Do us) u) \/
  (exists s', exit_run (destructor p) (statics [] [] before) s = Ok s' /\
   forall b x a us u us', all = b ++ Complete x :: a -> (exists c, before = b ++ Complete x :: c) ->
     destructor p x = us ++ u :: us' ->
     fine (fun r => called r (meanwhile p a) /\ ~ called r b) (b ++ Complete x :: meanwhile p a ++ map Do us) u).
Proof.
  intros p before. induction before as [|e before IH] using rev_ind; intros after s A all; subst all.
  - right. exists s. split; [reflexivity|]. intros b x a us u us' _ (c & C). destruct b; discriminate.
  - rewrite statics_snoc. cbn [app]. destruct e as [u|x].
    + assert (Sh : before ++ meanwhile p (Do u :: after) = (before ++ [Do u]) ++ meanwhile p after).
      { unfold meanwhile. cbn. rewrite <- app_assoc. reflexivity. }
      assert (Step : forall s', agrees (before ++ meanwhile p (Do u :: after))
          (fun r => called r (before ++ meanwhile p (Do u :: after)) /\ ~ called r before) s' ->
        (exit_run (destructor p) (statics [] [] before) s' = UB /\
         exists b x a us v us', (before ++ [Do u]) ++ after = b ++ Complete x :: a /\ (exists c, before ++ [Do u] = b ++ Complete x :: c) /\
           destructor p x = us ++ v :: us' /\
           ~ fine (fun r => called r (meanwhile p a) /\ ~ called r b) (b ++ Complete x :: meanwhile p a ++ map Do us) v) \/
        (exists s2, exit_run (destructor p) (statics [] [] before) s' = Ok s2 /\
         forall b x a us v us', (before ++ [Do u]) ++ after = b ++ Complete x :: a -> (exists c, before ++ [Do u] = b ++ Complete x :: c) ->
           destructor p x = us ++ v :: us' ->
           fine (fun r => called r (meanwhile p a) /\ ~ called r b) (b ++ Complete x :: meanwhile p a ++ map Do us) v)).
      { intros s' A'. specialize (IH (Do u :: after) s' A'). cbn zeta in IH.
        replace (before ++ Do u :: after) with ((before ++ [Do u]) ++ after) in IH by (rewrite <- app_assoc; reflexivity).
        destruct IH as [(U & b & x & a & us & v & us' & E1 & (c & E2) & E3 & N)|(s2 & R & Fs)].
        - left. split; [exact U|]. exists b, x, a, us, v, us'. split; [exact E1|]. split; [|split; assumption].
          exists (c ++ [Do u]). rewrite E2, <- app_assoc. reflexivity.
        - right. exists s2. split; [exact R|]. intros b x a us v us' E1 (c & E2) E3. apply (Fs b x a us v us' E1); [|exact E3].
          destruct c as [|c0 c _] using rev_ind; [apply app_inj_tail in E2; destruct E2; discriminate|].
          exists c. rewrite app_comm_cons, app_assoc in E2. apply app_inj_tail in E2. apply E2. }
      destruct (calls u) as [r|] eqn:C.
      * destruct (existsb (Nat.eqb r) (seen_in before)) eqn:Eb.
        -- apply Step. rewrite Sh. apply (agrees_iff _ _ _ s) with (2 := A). intros q.
           apply exists_eqb, seen_called in Eb. rewrite (called_app q before [Do u]), called_do, C.
           split; [tauto|]. intros [X Y]. split; [exact X|]. intros [Z|Z]; [auto|]. injection Z as <-. auto.
        -- cbn [exit_run]. apply Step. rewrite Sh. destruct A as [D H G]. split; [exact D|exact H|].
           intros q. cbn. rewrite mark_iff, G.
           assert (N : ~ called r before) by (rewrite <- seen_called, <- exists_eqb; congruence).
           rewrite !called_app, called_do, C. split.
           ++ intros [->|[X Y]]; [|tauto]. auto.
           ++ intros [X Y]. destruct (Nat.eq_dec q r) as [->|Nq]; [auto|]. right. split; [exact X|].
              intros [Z|Z]; [auto|]. congruence.
      * apply Step. rewrite Sh. apply (agrees_iff _ _ _ s) with (2 := A). intros q.
        rewrite (called_app q before [Do u]), called_do, C. split; [tauto|]. intros [X Y]. split; [exact X|].
        intros [Z|Z]; [auto|discriminate].
    + cbn [exit_run].
      set (s0 := Estate (default_ s) (made s) (gone s) []).
      assert (A0 : agrees ((before ++ [Complete x]) ++ meanwhile p after)
        (fun r => called r (meanwhile p after) /\ ~ called r before) s0).
      { apply (agrees_iff _ (fun r => called r ((before ++ [Complete x]) ++ meanwhile p after) /\ ~ called r (before ++ [Complete x])) _ s0).
        - intros r. rewrite !called_app. pose proof (called_complete r x). tauto.
        - destruct A as [D H G]. split; assumption. }
      assert (Sh : forall us, ((before ++ [Complete x]) ++ meanwhile p after) ++ map Do us = before ++ Complete x :: meanwhile p after ++ map Do us).
      { intros us. rewrite <- !app_assoc. reflexivity. }
      destruct (use_run_cases (destructor p x) _ _ _ A0) as [(U & a & u & b & E & N)|(s' & R & A' & Fs & Or & _)].
      * left. rewrite U. split; [reflexivity|]. exists before, x, after, a, u, b.
        rewrite Sh in N. split; [rewrite <- app_assoc; reflexivity|]. split; [exists []; reflexivity|]. split; assumption.
      * rewrite R. cbn [bind]. rewrite Sh in A'.
        assert (Mw : before ++ meanwhile p (Complete x :: after) = before ++ Complete x :: meanwhile p after ++ map Do (destructor p x)).
        { f_equal. unfold meanwhile. fold (destructors p (Complete x :: after)) (destructors p after).
          rewrite destructors_complete. cbn. rewrite app_assoc. reflexivity. }
        assert (A2 : agrees (before ++ meanwhile p (Complete x :: after))
          (fun r => called r (before ++ meanwhile p (Complete x :: after)) /\ ~ called r before) (destroy_all s' (order s'))).
        { destruct (destroy_all_ok (order s') s') as (D1 & D2 & D3). destruct A' as [D H G]. rewrite Mw. split.
          - rewrite D1. exact D.
          - rewrite D2. exact H.
          - intros r. rewrite D3, G, Or. cbn [order s0]. 
            replace (Complete x :: meanwhile p after ++ map Do (destructor p x)) with ([Complete x] ++ meanwhile p after ++ map Do (destructor p x)) by reflexivity.
            rewrite !called_app. pose proof (called_complete r x) as Nc. cbn [In].
            assert (Dec : called r (meanwhile p after) \/ ~ called r (meanwhile p after)).
            { rewrite <- seen_called. destruct (in_dec Nat.eq_dec r (seen_in (meanwhile p after))); auto. }
            tauto. }
        specialize (IH (Complete x :: after) _ A2). cbn zeta in IH.
        replace (before ++ Complete x :: after) with ((before ++ [Complete x]) ++ after) in IH by (rewrite <- app_assoc; reflexivity).
        destruct IH as [(U & b & y & a & us & v & us' & E1 & (c & E2) & E3 & N)|(s2 & R2 & Fs2)].
        -- left. split; [exact U|]. exists b, y, a, us, v, us'. split; [exact E1|]. split; [|split; assumption].
           exists (c ++ [Complete x]). rewrite E2, <- app_assoc. reflexivity.
        -- right. exists s2. split; [exact R2|]. intros b y a us v us' E1 (c & E2) E3.
           destruct c as [|c0 c _] using rev_ind.
           ++ apply app_inj_tail in E2. destruct E2 as [-> E2]. injection E2 as <-.
              rewrite <- app_assoc in E1. apply app_inv_head in E1. injection E1 as <-.
              specialize (Fs us v us' E3). rewrite Sh in Fs. exact Fs.
           ++ apply (Fs2 b y a us v us' E1); [|exact E3]. exists c.
              rewrite app_comm_cons, app_assoc in E2. apply app_inj_tail in E2. apply E2.
Qed.

Lemma estart_agrees : agrees [] nothing_dead estart.
Proof.
  split; [reflexivity| |].
  - intros r. cbn. split; [discriminate|]. intros X. destruct (called_nil r X).
  - intros r. cbn. split; [discriminate|intros []].
Qed.

Lemma exit_exact : forall p, ((exists s, program_run p = Ok s) <-> well_timed p) /\
  (~ well_timed p -> program_run p = UB).
Proof.
  intros p.
  assert (X : (program_run p = UB /\ ~ well_timed p) \/ ((exists s, program_run p = Ok s) /\ well_timed p)).
  { unfold program_run.
    destruct (main_cases (until_exit p) [] [] estart estart_agrees) as
      [(U & b & u & a & E & N)|(s & R & A & O & Fs)].
    - intros r. split; [intros []|]. intros X. destruct (called_nil r X).
    - left. rewrite U. split; [reflexivity|]. intros [H _]. exact (H _ _ _ E N).
    - rewrite R. cbn [bind]. rewrite O. cbn [order estart]. cbn [app] in A.
      assert (A0 : agrees (until_exit p ++ meanwhile p [])
        (fun r => called r (until_exit p ++ meanwhile p []) /\ ~ called r (until_exit p)) s).
      { unfold meanwhile. cbn. rewrite app_nil_r. apply (agrees_iff _ nothing_dead); [|exact A].
        intros r. unfold nothing_dead. tauto. }
      pose proof (exit_cases p (until_exit p) [] s A0) as EC. cbn zeta in EC. rewrite app_nil_r in EC.
      assert (Fine : forall b x a us u, (fine (fun r => called r (meanwhile p a) /\ ~ called r b) (b ++ Complete x :: meanwhile p a ++ map Do us) u <->
        exists r, meant (b ++ Complete x :: meanwhile p a ++ map Do us) u = Some r /\ (called r b \/ ~ called r (meanwhile p a)))).
      { intros b x a us u. unfold fine. split; intros (r & M & N); exists r; (split; [exact M|]).
        - destruct (in_dec Nat.eq_dec r (seen_in b)) as [I|I]; rewrite seen_called in I; tauto.
        - tauto. }
      destruct EC as [(U & b & x & a & us & u & us' & E1 & _ & E3 & N)|(s2 & R2 & Fs2)].
      + left. split; [exact U|]. intros [_ H]. apply N, Fine. exact (H b x a us u us' E1 E3).
      + right. split; [eauto|]. split; [exact Fs|]. intros b x a us u us' E1 E3. apply Fine.
        apply (Fs2 b x a us u us' E1); [eauto|exact E3]. }
  destruct X as [[U N]|[R W]].
  - split; [|auto]. split; [intros [s E]; congruence|intros W; contradiction].
  - split; [|intros N; contradiction]. split; auto.
Qed.

Lemma constructor_used : forall p,
  (forall before u after, until_exit p = before ++ Do u :: after -> meant before u <> None) ->
  (forall before x after u, until_exit p = before ++ Complete x :: after -> In u (destructor p x) ->
    exists r, u = Call r /\ called r before) ->
  exists s, program_run p = Ok s.
Proof.
  intros p M D. apply (proj1 (exit_exact p)). split; [exact M|]. intros b x a us u us' E1 E2.
  destruct (D b x a u E1) as (r & -> & C); [rewrite E2; apply in_elt|]. exists r. split; [reflexivity|]. auto.
Qed.

Lemma default_kept : forall l d, (forall r, ~ In (Do (SetDefault r)) l) -> default_after (Some d) l = Some d.
Proof.
  induction l as [|[[r| |r]|x] l IH]; intros d H; cbn; auto; try (apply IH; intros q I; apply (H q); right; exact I).
  destruct (H r). left. reflexivity.
Qed.

Lemma default_used : forall p d rest, until_exit p = Do (SetDefault d) :: rest ->
  (forall r, ~ In (Do (SetDefault r)) rest) -> (forall x u, In u (destructor p x) -> u = UseDefault) ->
  exists s, program_run p = Ok s.
Proof.
  intros p d rest E NS D. apply (proj1 (exit_exact p)).
  assert (NM : forall a r us, (forall q, ~ In (Do (SetDefault q)) a) -> (forall u, In u us -> u = UseDefault) ->
    ~ In (Do (SetDefault r)) (meanwhile p a ++ map Do us)).
  { intros a r us Ha Hu. unfold meanwhile. rewrite !in_app_iff, in_flat_map, in_map_iff.
    intros [[X|(y & _ & X)]|(u & X & I)].
    - exact (Ha r X).
    - apply in_map_iff in X. destruct X as (u & X & I). apply D in I. subst u. discriminate.
    - apply Hu in I. subst u. discriminate. }
  split.
  - intros [|e b] u a E'; rewrite E in E'; injection E' as Ee Er.
    + subst u. discriminate.
    + subst e. destruct u; cbn; try discriminate. rewrite default_kept; [discriminate|].
      intros r I. apply (NS r). rewrite Er. apply in_app_iff. auto.
  - intros [|e b] x a us u us' E' E3; rewrite E in E'; injection E' as Ee Er; [discriminate|]. subst e.
    assert (Hu : u = UseDefault) by (apply (D x); rewrite E3; apply in_elt). subst u.
    exists d. cbn. split.
    + rewrite default_kept; [reflexivity|]. intros r I. rewrite in_app_iff in I. destruct I as [I|[I|I]]; [|discriminate|].
      * apply (NS r). rewrite Er. apply in_app_iff. auto.
      * revert I. apply NM.
        -- intros q I. apply (NS q). rewrite Er. apply in_app_iff. right. right. exact I.
        -- intros v I. apply (D x). rewrite E3. apply in_app_iff. auto.
    + left. right. left. reflexivity.
Qed.

Lemma destroyed_first : forall p before x after r us, until_exit p = before ++ Complete x :: after ->
  ~ called r before -> called r after -> destructor p x = Call r :: us -> program_run p = UB.
Proof.
  intros p b x a r us E N C D. apply (proj2 (exit_exact p)). intros [_ H].
  destruct (H b x a [] (Call r) us E D) as (q & M & [Y|Y]); cbn in M; injection M as <-; [contradiction|].
  apply Y. unfold meanwhile. apply called_app. auto.
Qed.
