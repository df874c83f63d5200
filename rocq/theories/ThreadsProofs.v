(** Proofs for ThreadsProps.v. *)

Require Import ZArith List Bool Arith Lia.
Require Import Verif.Outcome Verif.Machine Verif.BitsSpec Verif.BitsModel Verif.SimpleSpec.
Require Import Verif.SimpleModel Verif.MonoModel Verif.WorldModel Verif.ThreadsSpec Verif.ThreadsModel.
Import ListNotations.
Open Scope Z_scope.

(** ** calls that do not write leave the object as it is *)
Lemma unwritten : forall dbg fuel b o p p' b0 e0 b1 e1,
  body_step dbg fuel b (with_answer o p) = Ok (b0, e0) ->
  body_step dbg fuel b (with_answer o p') = Ok (b1, e1) ->
  writes dbg b o (calls_of e0) = false -> b1 = b.
Proof.
  intros dbg fuel [s|mb bs s|] o p p' b0 e0 b1 e1 E0 E1 Wr.
  - destruct o as [size align ans|q|]; cbn [writes with_answer body_step mono_step] in *; [| |discriminate Wr].
    + unfold mono_allocate in E1. destruct (size =? 0); [cbn in E1; congruence|]. cbn [negb andb] in Wr.
      unfold cassert in E1. destruct dbg.
      * destruct (is_power_of_2 align); [|discriminate E1].
        destruct (mdata s =? 0); cbn [negb andb bind] in *.
        -- destruct (mup s); cbn in E1; congruence.
        -- unfold mono_serves in Wr. destruct (skip_to_align true (mnext s) align) as [k| | |]; cbn [bind] in *; try discriminate E1.
           rewrite Wr in E1. cbn [bind] in E1. destruct (mup s); cbn in E1; congruence.
      * destruct (mdata s =? 0); cbn [negb andb bind] in *.
        -- destruct (mup s); cbn in E1; congruence.
        -- unfold mono_serves in Wr. destruct (skip_to_align false (mnext s) align) as [k| | |]; cbn [bind] in *; try discriminate E1.
           rewrite Wr in E1. cbn [bind] in E1. destruct (mup s); cbn in E1; congruence.
    + cbn in E1. congruence.
  - destruct o as [size align ans|q|]; cbn [writes with_answer body_step step] in *; [| |discriminate Wr].
    + unfold allocate_impl in E1. destruct (size =? 0); [cbn in E1; congruence|]. cbn [negb andb] in Wr.
      unfold search_buffer in E1. destruct (data s =? 0); [|discriminate Wr].
      unfold cassert in E1. cbn [DBG bind] in E1.
      destruct dbg; [destruct (is_power_of_2 align); [|discriminate E1]|];
        change (0 =? 0) with true in E1; destruct (has_up s); cbn [andb bind] in E1;
        repeat match type of E1 with context [is_aligned ?a ?b ?c] => destruct (is_aligned a b c) as [[]| | |] end;
        cbn [bind] in E1; try discriminate E1; congruence.
    + destruct (q =? 0) eqn:Q.
      * unfold deallocate_impl in E1. rewrite Q in E1. cbn in E1. congruence.
      * cbn [negb andb] in Wr. rewrite E0 in E1. injection E1 as <- <-.
        unfold deallocate_impl in E0. rewrite Q in E0. cbn [DBG] in E0.
        destruct (is_aligned dbg q (BS (Cfg mb bs dbg))) as [al| | |]; cbn [bind] in E0; try discriminate E0.
        unfold abort_when in E0. destruct (negb al); [discriminate E0|].
        destruct ((data s <=? q) && (q <? wrap 64 (data s + size_ (Cfg mb bs dbg) s))).
        -- destruct (pointer_to_block_index (Cfg mb bs dbg) s q) as [i| | |]; cbn [bind] in E0; try discriminate E0.
           destruct (deallocate_blocks (Cfg mb bs dbg) s i) as [[s' j]| | |]; cbn [bind] in E0; try discriminate E0.
           injection E0 as <- <-. discriminate Wr.
        -- destruct (has_up s).
           ++ cbn [bind] in E0. congruence.
           ++ destruct (q <? data s); [discriminate E0|].
              destruct ((wrap 64 (data s + size_ (Cfg mb bs dbg) s) <=? q) && negb false); [discriminate E0|].
              cbn [bind] in E0. congruence.
  - cbn in E1. congruence.
Qed.

Lemma mark_dec : forall a b : nat * bool, {a = b} + {a <> b}.
Proof. decide equality; [apply Bool.bool_dec|apply Nat.eq_dec]. Qed.
Lemma pair_dec : forall a b : nat * nat, {a = b} + {a <> b}.
Proof. decide equality; apply Nat.eq_dec. Qed.

(** ** what a call does up to the upstream call does not depend on the answer *)
Lemma probe : forall dbg fuel b o b1 e1, body_step dbg fuel b o = Ok (b1, e1) ->
  exists b0 e0, body_step dbg fuel b (with_answer o 0) = Ok (b0, e0) /\ calls_of e0 = calls_of e1 /\
    match calls_of e1 with
    | UpAllocate size align :: _ => body_step dbg fuel b (with_answer o (library_answer o size align)) = Ok (b1, e1)
    | _ => b0 = b1 /\ e0 = e1
    end.
Proof.
  intros dbg fuel b o b1 e1 E. destruct o as [size align ans|q|]; cbn [with_answer library_answer].
  2:{ exists b1, e1. split; [exact E|]. split; [reflexivity|].
      assert (C : calls_of e1 = [] \/ calls_of e1 = [UpDeallocate q]).
      { destruct b as [s|mb bs s|]; cbn [body_step mono_step step mono_deallocate] in E.
        - injection E as _ <-. now left.
        - unfold deallocate_impl in E. destruct (q =? 0); [cbn in E; injection E as _ <-; now left|].
          destruct (is_aligned (DBG (Cfg mb bs dbg)) q (BS (Cfg mb bs dbg))) as [al| | |]; cbn [bind] in E; try discriminate E.
          unfold abort_when in E. destruct (negb al); [discriminate E|].
          destruct ((data s <=? q) && (q <? wrap 64 (data s + size_ (Cfg mb bs dbg) s))).
          + destruct (pointer_to_block_index (Cfg mb bs dbg) s q) as [i| | |]; cbn [bind] in E; try discriminate E.
            destruct (deallocate_blocks (Cfg mb bs dbg) s i) as [[s' j]| | |]; cbn [bind] in E; try discriminate E.
            injection E as _ <-. now left.
          + destruct (has_up s).
            * cbn [bind] in E. injection E as _ <-. now right.
            * destruct (q <? data s); [discriminate E|].
              destruct ((wrap 64 (data s + size_ (Cfg mb bs dbg) s) <=? q) && negb false); [discriminate E|].
              cbn [bind] in E. injection E as _ <-. now left.
        - injection E as _ <-. now left. }
      destruct C as [-> | ->]; split; reflexivity. }
  2:{ exists b1, e1. split; [exact E|]. split; [reflexivity|].
      assert (C : calls_of e1 = []); [|rewrite C; split; reflexivity].
      destruct b as [s|mb bs s|]; cbn [body_step mono_step step bind] in E.
      - injection E as _ <-. reflexivity.
      - destruct (release (Cfg mb bs dbg) fuel s) as [s'| | |]; cbn [bind] in E; try discriminate E.
        injection E as _ <-. reflexivity.
      - injection E as _ <-. reflexivity. }
  destruct b as [s|mb bs s|]; cbn [body_step mono_step step] in *.
  - unfold mono_allocate in *. destruct (size =? 0).
    { cbn [bind] in *. injection E as <- <-. do 2 eexists. split; [reflexivity|]. cbn. auto. }
    unfold cassert in *.
    destruct dbg; [destruct (is_power_of_2 align); [|discriminate E]|];
      (destruct (mdata s =? 0); [|destruct (skip_to_align _ (mnext s) align) as [k| | |]; cbn [bind] in *; try discriminate E;
         cbv zeta in *; destruct (wrap 64 (wrap 64 (mnext s + k) + size) <=? wrap 64 (mdata s + msize s))]);
      cbn [bind mup] in *;
      match type of E with context [if ?c then Ok (_, ans size align, _) else _] => destruct c end;
      cbn [bind] in *; injection E as <- <-; do 2 eexists; (split; [reflexivity|]); cbn; auto.
  - unfold allocate_impl in *. destruct (size =? 0).
    { cbn [bind] in *. injection E as <- <-. do 2 eexists. split; [reflexivity|]. cbn. auto. }
    unfold cassert in *. cbn [DBG] in *.
    destruct (search_buffer (Cfg mb bs dbg) fuel s size align) as [[s' p]| | |]; cbn [bind] in *;
      [|exfalso; destruct dbg; try destruct (is_power_of_2 align); discriminate E ..].
    destruct ((p =? 0) && has_up s') eqn:U.
    + assert (Al : dbg = true -> is_aligned true 0 (BS (Cfg mb bs dbg)) = Ok true).
      { intros ->. destruct (is_power_of_2 align); [|discriminate E]. unfold is_aligned, cassert in *.
        destruct (is_power_of_2 (BS (Cfg mb bs true))); [reflexivity|discriminate E]. }
      destruct dbg.
      * rewrite (Al eq_refl). destruct (is_power_of_2 align); [|discriminate E]. cbn [bind].
        destruct (is_aligned true (ans size align) (BS (Cfg mb bs true))) as [[]| | |] eqn:A; cbn [bind] in E; try discriminate E.
        injection E as <- <-. do 2 eexists. split; [reflexivity|]. cbn [calls_of]. rewrite A. cbn. auto.
      * cbn [bind] in *. injection E as <- <-. do 2 eexists. split; [reflexivity|]. cbn. auto.
    + destruct dbg; [destruct (is_power_of_2 align); [|discriminate E]|].
      * destruct (is_aligned true p (BS (Cfg mb bs true))) as [[]| | |] eqn:A; cbn [bind] in *; try discriminate E.
        injection E as <- <-. do 2 eexists. split; [reflexivity|]. cbn. auto.
      * cbn [bind] in *. injection E as <- <-. do 2 eexists. split; [reflexivity|]. cbn. auto.
  - injection E as <- <-. do 2 eexists. split; [reflexivity|]. cbn. auto.
Qed.

Section Linked.
Context (links : nat -> link) (dbg : bool) (fuel : nat).
Notation linked_step := (linked_step links dbg fuel).
Notation threads_run := (threads_run links dbg fuel).

Lemma put_same : forall W x b, store_put W x b x = Some b.
Proof. intros. unfold store_put. now rewrite Nat.eqb_refl. Qed.
Lemma put_other : forall W x b z, z <> x -> store_put W x b z = W z.
Proof. intros. unfold store_put. apply Nat.eqb_neq in H. now rewrite H. Qed.

(** a call writes only what it says *)
Lemma step_writes : forall n W x o W' e l, linked_step n W x o = Ok (W', e, l) ->
  forall z, ~ In (z, true) l -> W' z = W z.
Proof.
  induction n as [|n IH]; intros W x o W' e l E z N; [discriminate E|].
  cbn [ThreadsModel.linked_step] in E. destruct (W x) as [b|] eqn:Wx; [|discriminate E].
  destruct (body_step dbg fuel b (with_answer o 0)) as [[b0 e0]| | |] eqn:E0; cbn [bind] in E; try discriminate E.
  set (w := writes dbg b o (calls_of e0)) in *.
  assert (Main : forall (W1 : store) b1 p e1, body_step dbg fuel b (with_answer o p) = Ok (b1, e1) ->
    W1 z = W z -> ~ In (z, true) [(x, w)] -> store_put W1 x b1 z = W z).
  { intros W1 b1 p e1 E1 K M. destruct (Nat.eq_dec z x) as [->|Nz]; [|rewrite put_other by exact Nz; exact K].
    rewrite put_same, Wx. f_equal. apply (unwritten dbg fuel b o 0 p b0 e0 b1 e1 E0 E1).
    unfold w in M. destruct (writes dbg b o (calls_of e0)); [|reflexivity]. exfalso. apply M. now left. }
  destruct (calls_of e0) as [|c cs] eqn:C.
  - injection E as <- _ <-. exact (Main W b0 0 e0 E0 eq_refl N).
  - destruct (links x) as [| |y].
    + destruct c; discriminate E.
    + destruct c as [size align|q].
      * destruct (body_step dbg fuel b (with_answer o (library_answer o size align))) as [[b1 e1]| | |] eqn:E1;
          cbn [bind] in E; try discriminate E.
        injection E as <- _ <-. exact (Main W b1 _ e1 E1 eq_refl N).
      * injection E as <- _ <-. exact (Main W b0 0 e0 E0 eq_refl N).
    + destruct (linked_step n W y (passed c o)) as [[[W1 eu] lu]| | |] eqn:Eu; cbn [bind] in E; try discriminate E.
      2,3,4: destruct c; discriminate E.
      assert (E' : (' (b1, e1) <- body_step dbg fuel b (with_answer o (pointer_of eu));;
                    Ok (store_put W1 x b1, e1, (x, w) :: lu))%res = Ok (W', e, l)) by (destruct c; exact E).
      destruct (body_step dbg fuel b (with_answer o (pointer_of eu))) as [[b1 e1]| | |] eqn:E1;
        cbn [bind] in E'; try discriminate E'.
      injection E' as <- _ <-.
      apply (Main W1 b1 _ e1 E1).
      * apply (IH W y (passed c o) W1 eu lu Eu). intros I. apply N. now right.
      * intros [I|[]]. apply N. now left.
Qed.

(** a call depends only on what it says it accesses *)
Lemma step_reads : forall n W V x o W' e l, linked_step n W x o = Ok (W', e, l) ->
  (forall z w, In (z, w) l -> W z = V z) ->
  exists V', linked_step n V x o = Ok (V', e, l) /\ forall z w, In (z, w) l -> W' z = V' z.
Proof.
  induction n as [|n IH]; intros W V x o W' e l E A; [discriminate E|].
  cbn [ThreadsModel.linked_step] in *. destruct (W x) as [b|] eqn:Wx; [|discriminate E].
  destruct (body_step dbg fuel b (with_answer o 0)) as [[b0 e0]| | |] eqn:E0; cbn [bind] in E; try discriminate E.
  set (w := writes dbg b o (calls_of e0)) in *.
  assert (Vx : In (x, w) l -> V x = Some b) by (intros I; rewrite <- (A _ _ I); exact Wx).
  assert (Put : forall (W1 V1 : store) b1 l', (forall z v, In (z, v) l' -> W1 z = V1 z) ->
    forall z v, In (z, v) ((x, w) :: l') -> store_put W1 x b1 z = store_put V1 x b1 z).
  { intros W1 V1 b1 l' H z v I. destruct (Nat.eq_dec z x) as [->|Nz]; [now rewrite !put_same|].
    rewrite !put_other by exact Nz. destruct I as [I|I]; [injection I as I _; congruence|exact (H z v I)]. }
  destruct (calls_of e0) as [|c cs] eqn:C.
  - injection E as <- <- <-. rewrite Vx by now left. rewrite E0. cbn [bind]. rewrite C.
    eexists. split; [reflexivity|]. apply Put. intros z v [].
  - destruct (links x) as [| |y] eqn:L.
    + destruct c; discriminate E.
    + destruct c as [size align|q].
      * destruct (body_step dbg fuel b (with_answer o (library_answer o size align))) as [[b1 e1]| | |] eqn:E1;
          cbn [bind] in E; try discriminate E.
        injection E as <- <- <-. rewrite Vx by now left. rewrite E0. cbn [bind]. rewrite C, E1. cbn [bind].
        eexists. split; [reflexivity|]. apply Put. intros z v [].
      * injection E as <- <- <-. rewrite Vx by now left. rewrite E0. cbn [bind]. rewrite C.
        eexists. split; [reflexivity|]. apply Put. intros z v [].
    + destruct (linked_step n W y (passed c o)) as [[[W1 eu] lu]| | |] eqn:Eu; cbn [bind] in E; try discriminate E.
      2,3,4: destruct c; discriminate E.
      assert (E' : (' (b1, e1) <- body_step dbg fuel b (with_answer o (pointer_of eu));;
                    Ok (store_put W1 x b1, e1, (x, w) :: lu))%res = Ok (W', e, l)) by (destruct c; exact E).
      destruct (body_step dbg fuel b (with_answer o (pointer_of eu))) as [[b1 e1]| | |] eqn:E1;
        cbn [bind] in E'; try discriminate E'.
      injection E' as <- <- <-.
      destruct (IH W V y (passed c o) W1 eu lu Eu) as [V1 [Ev K]].
      { intros z v I. apply (A z v). now right. }
      rewrite Vx by now left. rewrite E0. cbn [bind]. rewrite C, Ev. cbn [bind]. rewrite E1. cbn [bind].
      exists (store_put V1 x b1). split; [now destruct c|]. apply Put. exact K.
Qed.

(** ** programs *)
Definition tagged (t : nat) (l : list (nat * bool)) : list access := map (fun a => (t, fst a, snd a)) l.

Lemma tagged_in : forall t l u z w, In (u, z, w) (tagged t l) <-> u = t /\ In (z, w) l.
Proof.
  intros t l u z w. unfold tagged. rewrite in_map_iff. split.
  - intros [[a b] [E I]]. cbn in E. injection E as <- <- <-. auto.
  - intros [-> I]. exists (z, w). auto.
Qed.

Lemma tagged_own : forall t l, accesses_of t (tagged t l) = tagged t l.
Proof.
  intros t l. unfold accesses_of, tagged. induction l as [|a l IH]; [reflexivity|]. cbn.
  rewrite Nat.eqb_refl. now rewrite IH.
Qed.

Lemma tagged_other : forall t u l, u <> t -> accesses_of t (tagged u l) = [].
Proof.
  intros t u l N. unfold accesses_of, tagged. induction l as [|a l IH]; [reflexivity|]. cbn.
  apply Nat.eqb_neq in N. rewrite N. exact IH.
Qed.

Lemma accesses_app : forall t l1 l2, accesses_of t (l1 ++ l2) = accesses_of t l1 ++ accesses_of t l2.
Proof. intros. apply filter_app. Qed.

Lemma run_ext : forall sched n W p q, (forall u, p u = q u) -> threads_run n W p sched = threads_run n W q sched.
Proof.
  induction sched as [|t sched IH]; intros n W p q H; [reflexivity|]. cbn [ThreadsModel.threads_run].
  rewrite (H t). destruct (q t) as [|[x o] rest]; [now apply IH|].
  destruct (linked_step n W x o) as [[[W1 e] l]| | |]; cbn [bind]; try reflexivity.
  rewrite (IH n W1 (next_calls p t rest) (next_calls q t rest)); [reflexivity|].
  intros u. unfold next_calls. now rewrite (H u).
Qed.

Lemma only_step_same : forall t (prog : nat -> list call) rest u,
  next_calls (only t prog) t rest u = only t (next_calls prog t rest) u.
Proof. intros. unfold next_calls, only. rewrite Nat.eqb_refl. now destruct (u =? t)%nat. Qed.

Lemma only_step_other : forall t s (prog : nat -> list call) rest u, s <> t ->
  only t prog u = only t (next_calls prog s rest) u.
Proof.
  intros t s prog rest u N. unfold next_calls, only. destruct (u =? t)%nat; [|reflexivity].
  assert (t <> s) by congruence. apply Nat.eqb_neq in H. now rewrite H.
Qed.

Lemma alone_step : forall sched n V prog t s rest, s <> t ->
  threads_run n V (only t prog) (s :: sched) = threads_run n V (only t (next_calls prog s rest)) sched.
Proof.
  intros sched n V prog t s rest N. cbn [ThreadsModel.threads_run]. unfold only at 1.
  pose proof N as N'. apply Nat.eqb_neq in N'. rewrite N'. apply run_ext. intros u. now apply only_step_other.
Qed.

Lemma race_tail : forall l1 l2, race_free (l1 ++ l2) -> race_free l2.
Proof. intros l1 l2 H t u x v w I J. apply (H t u x v w); apply in_or_app; now right. Qed.

(** a race-free execution: every thread sees what it would see alone *)
Lemma race_free_alone : forall sched n W V prog W' es log t, threads_run n W prog sched = Ok (W', es, log) ->
  race_free log -> (forall z w, In (t, z, w) log -> W z = V z) ->
  exists V', threads_run n V (only t prog) sched = Ok (V', of_thread t es, accesses_of t log) /\
    forall z w, In (t, z, w) log -> W' z = V' z.
Proof.
  induction sched as [|s sched IH]; intros n W V prog W' es log t E R A.
  - injection E as <- <- <-. exists V. split; [reflexivity|]. intros z w [].
  - cbn [ThreadsModel.threads_run] in E. destruct (prog s) as [|[x o] rest] eqn:P.
    + destruct (IH n W V prog W' es log t E R A) as [V' [K J]]. exists V'. split; [|exact J].
      cbn [ThreadsModel.threads_run]. unfold only at 1. destruct (s =? t)%nat eqn:Q; [|exact K].
      apply Nat.eqb_eq in Q. subst s. rewrite P. exact K.
    + destruct (linked_step n W x o) as [[[W1 e] l]| | |] eqn:St; cbn [bind] in E; try discriminate E.
      destruct (threads_run n W1 (next_calls prog s rest) sched) as [[[W2 es2] log2]| | |] eqn:Rn; cbn [bind] in E; try discriminate E.
      injection E as E2 <- <-. subst W2.
      change (map (fun a : nat * bool => (s, fst a, snd a)) l) with (tagged s l) in *.
      pose proof (race_tail _ _ R) as R2.
      destruct (Nat.eq_dec s t) as [->|N].
      * destruct (step_reads n W V x o W1 e l St) as [V1 [Sv K]].
        { intros z w I. apply (A z w). apply in_or_app. left. apply tagged_in. auto. }
        assert (A2 : forall z w, In (t, z, w) log2 -> W1 z = V1 z).
        { intros z w I. destruct (In_dec mark_dec (z, true) l) as [J|J].
          - exact (K z true J).
          - rewrite (step_writes n W x o W1 e l St z J), (step_writes n V x o V1 e l Sv z J).
            apply (A z w). apply in_or_app. now right. }
        destruct (IH n W1 V1 _ W' es2 log2 t Rn R2 A2) as [V' [Ev J]]. exists V'. split.
        -- cbn [ThreadsModel.threads_run]. unfold only at 1. rewrite Nat.eqb_refl, P, Sv. cbn [bind].
           rewrite (run_ext _ _ _ _ _ (only_step_same t prog rest)), Ev. cbn [bind].
           change (map (fun a : nat * bool => (t, fst a, snd a)) l) with (tagged t l).
           rewrite accesses_app, tagged_own. unfold of_thread. cbn [filter fst]. rewrite Nat.eqb_refl. reflexivity.
        -- intros z w I. apply in_app_or in I as [I|I]; [|exact (J z w I)].
           apply tagged_in in I as [_ I].
           (* not touched any more, or touched by this thread only *)
           destruct (In_dec pair_dec (t, z)
             (map fst log2)) as [M|M].
           ++ apply in_map_iff in M as [[[u z'] w'] [Q M]]. cbn in Q. injection Q as -> ->. exact (J z w' M).
           ++ assert (Wz : W' z = W1 z).
              { clear - Rn M R I. assert (F : forall u, ~ In (u, z, true) log2 \/ u = t).
                { intros u. destruct (Nat.eq_dec u t) as [->|Nu]; [now right|left]. intros B.
                  destruct (R t u z w true) as [_ X]; [apply in_or_app; left; apply tagged_in; auto|
                    apply in_or_app; right; exact B|congruence|discriminate X]. }
                assert (G : forall u, ~ In (u, z, true) log2).
                { intros u. destruct (F u) as [X| ->]; [exact X|]. intros B. apply M. apply (in_map fst) in B. exact B. }
                clear - Rn G. revert W1 Rn G. generalize (next_calls prog t rest) as p. revert es2 log2.
                induction sched as [|s0 sched IH]; intros es2 log2 p W1 Rn G; cbn [ThreadsModel.threads_run] in Rn.
                - injection Rn as <- _ _. reflexivity.
                - destruct (p s0) as [|[x0 o0] r0]; [exact (IH es2 log2 p W1 Rn G)|].
                  destruct (linked_step n W1 x0 o0) as [[[Wa ea] la]| | |] eqn:Sa; cbn [bind] in Rn; try discriminate Rn.
                  destruct (threads_run n Wa (next_calls p s0 r0) sched) as [[[Wb eb] lb]| | |] eqn:Rb; cbn [bind] in Rn; try discriminate Rn.
                  injection Rn as <- _ <-.
                  rewrite (IH eb lb _ Wa Rb); [|intros u B; apply (G u), in_or_app; now right].
                  apply (step_writes n W1 x0 o0 Wa ea la Sa). intros B. apply (G s0), in_or_app. left.
                  apply tagged_in. auto. }
              rewrite Wz, (K z w I).
              (* the run of the thread alone does not touch it either *)
              assert (Vz : V' z = V1 z).
              { clear - Ev M. assert (G : forall u, ~ In (u, z, true) (accesses_of t log2)).
                { intros u B. unfold accesses_of in B. apply filter_In in B as [B Q]. cbn in Q. apply Nat.eqb_eq in Q. subst u.
                  apply M. apply (in_map fst) in B. exact B. }
                revert V1 Ev G. generalize (only t (next_calls prog t rest)) as p. generalize (accesses_of t log2) as L.
                generalize (of_thread t es2) as ev.
                induction sched as [|s0 sched IH]; intros ev L p V1 Rn G; cbn [ThreadsModel.threads_run] in Rn.
                - injection Rn as <- _ _. reflexivity.
                - destruct (p s0) as [|[x0 o0] r0]; [exact (IH ev L p V1 Rn G)|].
                  destruct (linked_step n V1 x0 o0) as [[[Wa ea] la]| | |] eqn:Sa; cbn [bind] in Rn; try discriminate Rn.
                  destruct (threads_run n Wa (next_calls p s0 r0) sched) as [[[Wb eb] lb]| | |] eqn:Rb; cbn [bind] in Rn; try discriminate Rn.
                  injection Rn as <- _ <-.
                  rewrite (IH eb lb _ Wa Rb); [|intros u B; apply (G u), in_or_app; now right].
                  apply (step_writes n V1 x0 o0 Wa ea la Sa). intros B. apply (G s0), in_or_app. left.
                  apply tagged_in. auto. }
              now rewrite Vz.
      * assert (A2 : forall z w, In (t, z, w) log2 -> W1 z = V z).
        { intros z w I. rewrite (step_writes n W x o W1 e l St z).
          - apply (A z w). apply in_or_app. now right.
          - intros J. destruct (R t s z w true) as [_ X]; [apply in_or_app; now right|
              apply in_or_app; left; apply tagged_in; auto|congruence|discriminate X]. }
        destruct (IH n W1 V _ W' es2 log2 t Rn R2 A2) as [V' [Ev J]]. exists V'. split.
        -- rewrite (alone_step sched n V prog t s rest N), Ev. rewrite accesses_app, (tagged_other t s l N).
           unfold of_thread. cbn [filter fst]. apply Nat.eqb_neq in N. now rewrite N.
        -- intros z w I. apply in_app_or in I as [I|I]; [|exact (J z w I)].
           apply tagged_in in I as [I _]. congruence.
Qed.

Lemma as_alone : forall sched n W prog W' es log, threads_run n W prog sched = Ok (W', es, log) -> race_free log ->
  forall t, exists V', threads_run n W (only t prog) sched = Ok (V', of_thread t es, accesses_of t log) /\
    forall z w, In (t, z, w) log -> W' z = V' z.
Proof. intros sched n W prog W' es log E R t. apply (race_free_alone sched n W W prog W' es log t E R). reflexivity. Qed.

(** ** separate resources *)
Definition shared_stateless (owner : nat -> option nat) (W : store) : Prop :=
  forall x b, owner x = None -> W x = Some b -> bufferless b.

Lemma bufferless_unwritten : forall b o calls, bufferless b -> o <> ORelease -> writes dbg b o calls = false.
Proof.
  intros [s|mb bs s|] [size align ans|q|] calls B N; cbn in *; try congruence; try tauto.
  rewrite B. cbn. apply Bool.andb_false_iff. left. apply Bool.andb_false_r.
Qed.

Lemma passed_plain : forall c o, passed c o <> ORelease.
Proof. intros [] o; discriminate. Qed.

Lemma step_chain : forall owner : nat -> option nat,
  (forall x y, links x = Upstream y -> owner y = owner x \/ owner y = None) ->
  forall n W x o W' e l, shared_stateless owner W -> (owner x = None -> o <> ORelease) ->
  linked_step n W x o = Ok (W', e, l) -> forall z w, In (z, w) l ->
  (owner z = owner x \/ owner z = None) /\ (owner z = None -> w = false).
Proof.
  intros owner C. induction n as [|n IH]; intros W x o W' e l Sh No E z w I; [discriminate E|].
  cbn [ThreadsModel.linked_step] in E. destruct (W x) as [b|] eqn:Wx; [|discriminate E].
  destruct (body_step dbg fuel b (with_answer o 0)) as [[b0 e0]| | |]; cbn [bind] in E; try discriminate E.
  assert (One : In (z, w) [(x, writes dbg b o (calls_of e0))] ->
    (owner z = owner x \/ owner z = None) /\ (owner z = None -> w = false)).
  { intros [J|[]]. injection J as <- <-. split; [now left|]. intros N.
    apply bufferless_unwritten; [exact (Sh x b N Wx)|exact (No N)]. }
  destruct (calls_of e0) as [|c cs].
  - injection E as _ _ <-. exact (One I).
  - destruct (links x) as [| |y] eqn:L.
    + destruct c; discriminate E.
    + destruct c as [size align|q].
      * destruct (body_step dbg fuel b (with_answer o (library_answer o size align))) as [[b1 e1]| | |];
          cbn [bind] in E; try discriminate E.
        injection E as _ _ <-. exact (One I).
      * injection E as _ _ <-. exact (One I).
    + destruct (linked_step n W y (passed c o)) as [[[W1 eu] lu]| | |] eqn:Eu; cbn [bind] in E.
      2,3,4: destruct c; discriminate E.
      assert (E' : exists b1 e1, Ok (store_put W1 x b1, e1, (x, writes dbg b o (c :: cs)) :: lu) = Ok (W', e, l)).
      { destruct (body_step dbg fuel b (with_answer o (pointer_of eu))) as [[b1 e1]| | |]; cbn [bind] in E;
          destruct c; try discriminate E; eauto. }
      destruct E' as [b1 [e1 E']]. injection E' as _ _ <-.
      destruct I as [I|I]; [apply One; now left|].
      destruct (IH W y (passed c o) W1 eu lu Sh (fun _ => passed_plain c o) Eu z w I) as [K M]. split; [|exact M].
      destruct K as [K|K]; [|now right]. destruct (C x y L) as [J|J]; [left|right]; congruence.
Qed.

Lemma own_step : forall owner prog t rest x o, own_resources links owner prog -> prog t = (x, o) :: rest ->
  (owner x = Some t \/ owner x = None) /\ (owner x = None -> o <> ORelease) /\
  own_resources links owner (next_calls prog t rest).
Proof.
  intros owner prog t rest x o [C P] E.
  assert (X := P t x o). rewrite E in X. specialize (X (or_introl eq_refl)). split; [|split].
  - destruct X as [X|[X _]]; auto.
  - intros N. destruct X as [X|[_ X]]; [congruence|exact X].
  - split; [exact C|]. intros u y q I. unfold next_calls in I. destruct (u =? t)%nat eqn:Q; [|exact (P u y q I)].
    apply Nat.eqb_eq in Q. subst u. apply (P t y q). rewrite E. now right.
Qed.

Lemma own_shared : forall owner n W x o W' e l, own_resources links owner (fun _ => []) ->
  shared_stateless owner W -> (owner x = None -> o <> ORelease) -> linked_step n W x o = Ok (W', e, l) ->
  (forall z, owner z = None -> W' z = W z) /\ shared_stateless owner W'.
Proof.
  intros owner n W x o W' e l O Sh No E.
  assert (U : forall z, owner z = None -> W' z = W z).
  { intros z N. apply (step_writes n W x o W' e l E). intros I.
    destruct (step_chain owner (proj1 O) n W x o W' e l Sh No E z true I) as [_ X]. discriminate (X N). }
  split; [exact U|]. intros z b N Wz. apply (Sh z b N). rewrite <- (U z N). exact Wz.
Qed.

Lemma own_links : forall owner prog, own_resources links owner prog -> own_resources links owner (fun _ => []).
Proof. intros owner prog [C _]. split; [exact C|]. intros t x o []. Qed.

Lemma own_log : forall sched owner n W prog W' es log, own_resources links owner prog -> shared_stateless owner W ->
  threads_run n W prog sched = Ok (W', es, log) -> forall t z w, In (t, z, w) log ->
  owner z = Some t \/ (owner z = None /\ w = false).
Proof.
  induction sched as [|s sched IH]; intros owner n W prog W' es log O Sh E t z w I.
  - injection E as _ _ <-. destruct I.
  - cbn [ThreadsModel.threads_run] in E. destruct (prog s) as [|[x o] rest] eqn:P.
    + exact (IH owner n W prog W' es log O Sh E t z w I).
    + destruct (linked_step n W x o) as [[[W1 e] l]| | |] eqn:St; cbn [bind] in E; try discriminate E.
      destruct (threads_run n W1 (next_calls prog s rest) sched) as [[[W2 es2] log2]| | |] eqn:Rn; cbn [bind] in E; try discriminate E.
      injection E as _ _ <-. destruct (own_step owner prog s rest x o O P) as [Ox [No O2]].
      destruct (own_shared owner n W x o W1 e l (own_links _ _ O) Sh No St) as [_ Sh1].
      apply in_app_or in I as [I|I]; [|exact (IH owner n W1 _ W2 es2 log2 O2 Sh1 Rn t z w I)].
      apply tagged_in in I as [-> I].
      destruct (step_chain owner (proj1 O) n W x o W1 e l Sh No St z w I) as [[K|K] M].
      * rewrite K. destruct Ox as [Ox|Ox]; [now left|right; split; [exact Ox|apply M; congruence]].
      * right. auto.
Qed.

(** if every thread alone gets through, all of them together do *)
Lemma together : forall sched owner n W (V : nat -> store) prog, own_resources links owner prog ->
  shared_stateless owner W ->
  (forall t z, owner z = Some t \/ owner z = None -> V t z = W z) ->
  (forall t, exists r, threads_run n (V t) (only t prog) sched = Ok r) ->
  exists r, threads_run n W prog sched = Ok r.
Proof.
  induction sched as [|s sched IH]; intros owner n W V prog O Sh A H; [eexists; reflexivity|].
  cbn [ThreadsModel.threads_run]. destruct (prog s) as [|[x o] rest] eqn:P.
  - apply (IH owner n W V prog O Sh A). intros t. destruct (H t) as [r E]. cbn [ThreadsModel.threads_run] in E.
    unfold only at 1 in E. destruct (s =? t)%nat eqn:Q; [|eauto]. apply Nat.eqb_eq in Q. subst s. rewrite P in E. eauto.
  - destruct (own_step owner prog s rest x o O P) as [Ox [No O2]].
    destruct (H s) as [r E]. cbn [ThreadsModel.threads_run] in E. unfold only at 1 in E. rewrite Nat.eqb_refl, P in E.
    destruct (linked_step n (V s) x o) as [[[V1 e] l]| | |] eqn:Sv; cbn [bind] in E; try discriminate E.
    assert (ShV : shared_stateless owner (V s)).
    { intros z b N Wz. apply (Sh z b N). rewrite <- (A s z); [exact Wz|now right]. }
    assert (Mine : forall z w, In (z, w) l -> owner z = Some s \/ owner z = None).
    { intros z w I. destruct (step_chain owner (proj1 O) n (V s) x o V1 e l ShV No Sv z w I) as [[K|K] _]; [|now right].
      rewrite K. exact Ox. }
    destruct (step_reads n (V s) W x o V1 e l Sv) as [W1 [Sw K]].
    { intros z w I. apply A. exact (Mine z w I). }
    rewrite Sw. cbn [bind].
    destruct (own_shared owner n W x o W1 e l (own_links _ _ O) Sh No Sw) as [U Sh1].
    destruct (IH owner n W1 (fun t => if (t =? s)%nat then V1 else V t) (next_calls prog s rest) O2 Sh1) as [[[W2 es2] log2] R].
    + intros t z Oz. destruct (t =? s)%nat eqn:Q.
      * apply Nat.eqb_eq in Q. subst t.
        destruct (In_dec mark_dec (z, true) l) as [J|J].
        -- exact (K z true J).
        -- rewrite (step_writes n (V s) x o V1 e l Sv z J), (step_writes n W x o W1 e l Sw z J). apply A. exact Oz.
      * apply Nat.eqb_neq in Q. rewrite (step_writes n W x o W1 e l Sw z); [now apply A|].
        intros J. destruct (step_chain owner (proj1 O) n W x o W1 e l Sh No Sw z true J) as [_ X].
        destruct Oz as [Oz|Oz]; [|discriminate (X Oz)]. destruct (Mine z true J) as [M|M]; congruence.
    + intros t. destruct (t =? s)%nat eqn:Q.
      * apply Nat.eqb_eq in Q. subst t. rewrite <- (run_ext _ _ _ _ _ (only_step_same s prog rest)).
        destruct (threads_run n V1 (next_calls (only s prog) s rest) sched) as [r'| | |]; try discriminate E. eauto.
      * apply Nat.eqb_neq in Q. destruct (H t) as [r' Et]. exists r'.
        rewrite <- (alone_step sched n (V t) prog t s rest); [exact Et|congruence].
    + rewrite R. cbn [bind]. eauto.
Qed.

Lemma run_unwritten : forall z sched n W p W' es log, threads_run n W p sched = Ok (W', es, log) ->
  (forall u, ~ In (u, z, true) log) -> W' z = W z.
Proof.
  intros z. induction sched as [|s0 sched IH]; intros n W p W' es log Rn G; cbn [ThreadsModel.threads_run] in Rn.
  - injection Rn as <- _ _. reflexivity.
  - destruct (p s0) as [|[x0 o0] r0]; [exact (IH n W p W' es log Rn G)|].
    destruct (linked_step n W x0 o0) as [[[Wa ea] la]| | |] eqn:Sa; cbn [bind] in Rn; try discriminate Rn.
    destruct (threads_run n Wa (next_calls p s0 r0) sched) as [[[Wb eb] lb]| | |] eqn:Rb; cbn [bind] in Rn; try discriminate Rn.
    injection Rn as <- _ <-.
    rewrite (IH n Wa _ Wb eb lb Rb); [|intros u B; apply (G u), in_or_app; now right].
    apply (step_writes n W x0 o0 Wa ea la Sa). intros B. apply (G s0), in_or_app. left. apply tagged_in. auto.
Qed.

Lemma own_race_free : forall owner n W prog sched W' es log, own_resources links owner prog ->
  shared_stateless owner W -> threads_run n W prog sched = Ok (W', es, log) -> race_free log.
Proof.
  intros owner n W prog sched W' es log O Sh E t u x v w I J N.
  destruct (own_log sched owner n W prog W' es log O Sh E t x v I) as [K|[K ->]];
    destruct (own_log sched owner n W prog W' es log O Sh E u x w J) as [M|[M ->]]; try congruence; auto.
Qed.

Lemma separate_threads : forall owner n W prog sched, own_resources links owner prog ->
  shared_stateless owner W ->
  (forall t, exists r, threads_run n W (only t prog) sched = Ok r) ->
  exists W' es log, threads_run n W prog sched = Ok (W', es, log) /\ race_free log /\
    forall t, exists V', threads_run n W (only t prog) sched = Ok (V', of_thread t es, accesses_of t log) /\
      forall z, owner z = Some t -> W' z = V' z.
Proof.
  intros owner n W prog sched O Sh H.
  destruct (together sched owner n W (fun _ => W) prog O Sh) as [[[W' es] log] E]; [reflexivity|exact H|].
  exists W', es, log. split; [exact E|].
  assert (R := own_race_free owner n W prog sched W' es log O Sh E).
  split; [exact R|]. intros t. destruct (as_alone sched n W prog W' es log E R t) as [V' [Ev K]].
  exists V'. split; [exact Ev|]. intros z Oz.
  destruct (In_dec pair_dec (t, z) (map fst log)) as [M|M].
  - apply in_map_iff in M as [[[u z'] w'] [Q M]]. cbn in Q. injection Q as -> ->. exact (K z w' M).
  - rewrite (run_unwritten z sched n W prog W' es log E), (run_unwritten z sched n W _ V' _ _ Ev).
    + reflexivity.
    + intros u B. unfold accesses_of in B. apply filter_In in B as [B Q]. cbn in Q. apply Nat.eqb_eq in Q. subst u.
      apply M. apply (in_map fst) in B. exact B.
    + intros u B. destruct (own_log sched owner n W prog W' es log O Sh E u z true B) as [X|[_ X]]; [|discriminate X].
      assert (u = t) as -> by congruence. apply M. apply (in_map fst) in B. exact B.
Qed.
End Linked.

(** a call of a resource over the C library is a call of its own code *)
Lemma library_step : forall links dbg fuel n W x b o b1 e1, W x = Some b -> links x = SystemUpstream ->
  body_step dbg fuel b o = Ok (b1, e1) ->
  linked_step links dbg fuel (S n) W x o = Ok (store_put W x b1, e1, [(x, writes dbg b o (calls_of e1))]).
Proof.
  intros links dbg fuel n W x b o b1 e1 Wx L E. cbn [linked_step]. rewrite Wx.
  destruct (probe dbg fuel b o b1 e1 E) as [b0 [e0 [E0 [C M]]]]. rewrite E0. cbn [bind]. rewrite C, L.
  destruct (calls_of e1) as [|[size align|q] cs] eqn:Q.
  - destruct M as [-> ->]. reflexivity.
  - rewrite M. reflexivity.
  - destruct M as [-> ->]. reflexivity.
Qed.

(** ** sharing a buffer *)
Lemma small_alone : forall s want t size align ans, want t = (size, align) -> size <> 0 -> mdata s <> 0 -> mup s = false ->
  forall s' p calls, mono_allocate false s size align ans = Ok (s', p, calls) ->
  fst (small_run s want (fun _ => Start) [t; t; t]) = s' /\
  snd (small_run s want (fun _ => Start) [t; t; t]) t = Done p.
Proof.
  intros s want t size align ans Wt Sz D U s' p calls E. unfold mono_allocate in E.
  apply Z.eqb_neq in Sz. apply Z.eqb_neq in D. rewrite Sz, D in E. unfold cassert in E. cbn [small_run].
  rewrite Wt. cbn [fst snd small_step].
  destruct (skip_to_align false (mnext s) align) as [k| | |] eqn:K; cbn [bind] in E; try discriminate E.
  cbv zeta in E. rewrite ?Nat.eqb_refl. cbn [small_step fst snd]. rewrite ?Nat.eqb_refl.
  destruct (wrap 64 (wrap 64 (mnext s + k) + size) <=? wrap 64 (mdata s + msize s)); cbn [bind] in E.
  - cbn [mup] in E. rewrite U, Bool.andb_false_r in E. injection E as <- <- _. do 4 (rewrite ?Nat.eqb_refl; cbn [small_step fst snd]). rewrite U. auto.
  - rewrite U, Bool.andb_false_r in E. injection E as <- <- _. do 4 (rewrite ?Nat.eqb_refl; cbn [small_step fst snd]). auto.
Qed.

Lemma small_twice : forall s size align ans s' p, size <> 0 -> mdata s <> 0 -> p <> 0 ->
  mono_allocate false s size align ans = Ok (s', p, []) ->
  fst (small_run s (fun _ => (size, align)) (fun _ => Start) [0; 0; 1; 1; 0; 1]%nat) = s' /\
  snd (small_run s (fun _ => (size, align)) (fun _ => Start) [0; 0; 1; 1; 0; 1]%nat) 0%nat = Done p /\
  snd (small_run s (fun _ => (size, align)) (fun _ => Start) [0; 0; 1; 1; 0; 1]%nat) 1%nat = Done p.
Proof.
  intros s size align ans s' p Sz D P E. unfold mono_allocate in E.
  apply Z.eqb_neq in Sz. apply Z.eqb_neq in D. rewrite Sz, D in E. unfold cassert in E.
  cbn [small_run fst snd small_step].
  destruct (skip_to_align false (mnext s) align) as [k| | |] eqn:K; cbn [bind] in E; try discriminate E.
  cbv zeta in E. cbn [Nat.eqb small_step].
  destruct (wrap 64 (wrap 64 (mnext s + k) + size) <=? wrap 64 (mdata s + msize s)) eqn:F; cbn [bind] in E.
  - cbn [mup] in E. destruct ((wrap 64 (mnext s + k) =? 0) && mup s); [discriminate E|].
    injection E as <- <-. do 4 (rewrite ?K; cbn [small_step Nat.eqb fst snd mdata msize mup mnext]; rewrite ?F). auto.
  - destruct (mup s); cbn in E; [discriminate E|]. injection E as _ E. congruence.
Qed.

Lemma small_shared : forall s size align ans s' p, size <> 0 -> mdata s <> 0 -> p <> 0 ->
  mono_allocate false s size align ans = Ok (s', p, []) ->
  exists sched,
    fst (small_run s (fun _ => (size, align)) (fun _ => Start) sched) = s' /\
    snd (small_run s (fun _ => (size, align)) (fun _ => Start) sched) 0%nat = Done p /\
    snd (small_run s (fun _ => (size, align)) (fun _ => Start) sched) 1%nat = Done p.
Proof.
  intros s size align ans s' p Sz D P E. exists [0; 0; 1; 1; 0; 1]%nat. exact (small_twice s size align ans s' p Sz D P E).
Qed.

Lemma small_misaligned : exists s want sched p,
  snd (want 0%nat) = 8 /\ snd (small_run s want (fun _ => Start) sched) 0%nat = Done p /\ p <> 0 /\ ~ Z.divide 8 p.
Proof.
  exists (Mono 4096 64 false 4096), (fun t => match t with O => (8, 8) | _ => (1, 1) end), [0; 1; 1; 1; 0; 0]%nat, 4097.
  split; [reflexivity|]. split; [vm_compute; reflexivity|]. split; [discriminate|]. intros [k K]. lia.
Qed.

Lemma step_shape : forall dbg fuel b o b1 e1, body_step dbg fuel b o = Ok (b1, e1) ->
  match o, e1 with
  | OAllocate size align _, EAllocate size' align' _ _ => size = size' /\ align = align'
  | ODeallocate p, EDeallocate p' _ => p = p'
  | ORelease, ERelease => True
  | _, _ => False
  end.
Proof.
  intros dbg fuel [s|mb bs s|] [size align ans|q|] b1 e1 E; cbn [body_step mono_step step] in E.
  - destruct (mono_allocate dbg s size align ans) as [[[s' p] calls]| | |]; cbn [bind] in E; try discriminate E.
    injection E as _ <-. auto.
  - cbn in E. injection E as _ <-. auto.
  - cbn in E. injection E as _ <-. exact I.
  - destruct (allocate_impl (Cfg mb bs dbg) fuel s size align ans) as [[[s' p] calls]| | |]; cbn [bind] in E; try discriminate E.
    injection E as _ <-. auto.
  - destruct (deallocate_impl (Cfg mb bs dbg) s q) as [[s' calls]| | |]; cbn [bind] in E; try discriminate E.
    injection E as _ <-. auto.
  - destruct (release (Cfg mb bs dbg) fuel s) as [s'| | |]; cbn [bind] in E; try discriminate E. injection E as _ <-. exact I.
  - injection E as _ <-. auto.
  - injection E as _ <-. auto.
  - injection E as _ <-. exact I.
Qed.

Lemma step_marks : forall links dbg fuel n W x o W' e l b,
  linked_step links dbg fuel n W x o = Ok (W', e, l) -> W x = Some b ->
  exists w l', l = (x, w) :: l' /\
    match b, e with
    | BNull, _ => w = false
    | BMono s, EAllocate size _ _ _ => size = 0 \/ mdata s = 0 -> w = false
    | BMono _, EDeallocate _ _ => w = false
    | BMono _, ERelease => w = true
    | BSimple _ _ s, EAllocate size _ _ _ => w = false <-> size = 0 \/ data s = 0
    | BSimple _ _ _, EDeallocate p calls => w = false <-> p = 0 \/ calls <> []
    | BSimple _ _ _, ERelease => w = true
    end.
Proof.
  intros links dbg fuel [|n] W x o W' e l b E Wx; [discriminate E|]. cbn [linked_step] in E. rewrite Wx in E.
  destruct (body_step dbg fuel b (with_answer o 0)) as [[b0 e0]| | |] eqn:E0; cbn [bind] in E; try discriminate E.
  assert (K : exists p b1 l', body_step dbg fuel b (with_answer o p) = Ok (b1, e) /\ l = (x, writes dbg b o (calls_of e0)) :: l' /\
    match o with OAllocate _ _ _ => True | _ => e = e0 end).
  { destruct (calls_of e0) as [|c cs] eqn:C.
    - injection E as _ <- <-. exists 0, b0, []. split; [exact E0|]. split; [reflexivity|now destruct o].
    - destruct (links x) as [| |y].
      + destruct c; discriminate E.
      + destruct c as [size align|q].
        * destruct (body_step dbg fuel b (with_answer o (library_answer o size align))) as [[b1 e1]| | |] eqn:E1;
            cbn [bind] in E; try discriminate E.
          injection E as _ <- <-. eexists _, b1, []. split; [exact E1|]. split; [reflexivity|].
          destruct o; [exact I| |]; cbn [with_answer] in *; congruence.
        * injection E as _ <- <-. exists 0, b0, []. split; [exact E0|]. split; [reflexivity|now destruct o].
      + destruct (linked_step links dbg fuel n W y (passed c o)) as [[[W1 eu] lu]| | |]; cbn [bind] in E.
        2,3,4: destruct c; discriminate E.
        destruct (body_step dbg fuel b (with_answer o (pointer_of eu))) as [[b1 e1]| | |] eqn:E1; cbn [bind] in E.
        2,3,4: destruct c; discriminate E.
        exists (pointer_of eu), b1, lu. split; [|split].
        * destruct c; injection E as _ <- _; exact E1.
        * destruct c; injection E as _ _ <-; reflexivity.
        * destruct o; [exact I| |]; cbn [with_answer] in *; destruct c; congruence. }
  destruct K as [p [b1 [l' [E1 [-> Same]]]]]. eexists _, l'. split; [reflexivity|].
  apply step_shape in E1. destruct o as [size align ans|q|]; cbn [with_answer] in *; destruct e as [size' align' r calls|r calls|]; try contradiction.
  - destruct E1 as [<- <-]. destruct b as [s|mb bs s|]; cbn [writes]; [| |reflexivity].
    + intros [-> | ->]; cbn; [reflexivity|]. now rewrite Bool.andb_false_r.
    + destruct (Z.eqb_spec size 0), (Z.eqb_spec (data s) 0); cbn; split; intros H; try tauto; try discriminate H; auto.
  - subst q. subst e0. destruct b as [s|mb bs s|]; cbn [writes calls_of]; try reflexivity.
    destruct calls; destruct (Z.eqb_spec r 0); cbn; split; intros H; try tauto; try discriminate H; auto; try (right; discriminate);
    destruct H; congruence.
  - destruct b; reflexivity.
Qed.

Lemma step_calls : forall dbg fuel b o p b1 e1 c cs, body_step dbg fuel b (with_answer o p) = Ok (b1, e1) -> calls_of e1 = c :: cs ->
  match c, o with
  | UpAllocate size align, OAllocate size' align' _ => size = size' /\ align = align' /\ pointer_of e1 = p
  | UpDeallocate q, ODeallocate q' => q = q'
  | _, _ => False
  end.
Proof.
  intros dbg fuel [s|mb bs s|] [size align ans|q|] p b1 e1 c cs E C; cbn [body_step mono_step step with_answer] in E.
  - unfold mono_allocate in E. destruct (size =? 0); [cbn in E; injection E as _ <-; discriminate C|].
    unfold cassert in E. destruct dbg; [destruct (is_power_of_2 align); [|discriminate E]|];
      (destruct (mdata s =? 0); [|destruct (skip_to_align _ (mnext s) align) as [k| | |]; cbn [bind] in E; try discriminate E;
         cbv zeta in E; destruct (wrap 64 (wrap 64 (mnext s + k) + size) <=? wrap 64 (mdata s + msize s))]);
      cbn [bind mup] in E;
      match type of E with context [if ?c then Ok (_, p, _) else _] => destruct c end;
      cbn [bind] in E; injection E as _ <-; try discriminate C; cbn in C; injection C as <- _; auto.
  - cbn in E. injection E as _ <-. discriminate C.
  - cbn in E. injection E as _ <-. discriminate C.
  - unfold allocate_impl in E. destruct (size =? 0); [cbn in E; injection E as _ <-; discriminate C|].
    unfold cassert in E. cbn [DBG] in E.
    destruct (search_buffer (Cfg mb bs dbg) fuel s size align) as [[s' r]| | |]; cbn [bind] in E;
      [|destruct dbg; try destruct (is_power_of_2 align); discriminate E ..].
    destruct ((r =? 0) && has_up s'), dbg; try (destruct (is_power_of_2 align); [|discriminate E]);
      repeat match type of E with context [is_aligned ?a ?b ?d] => destruct (is_aligned a b d) as [[]| | |] end;
      cbn [bind] in E; try discriminate E; injection E as _ <-; try discriminate C; cbn in C; injection C as <- _; auto.
  - destruct (deallocate_impl (Cfg mb bs dbg) s q) as [[s' calls]| | |] eqn:D; cbn [bind] in E; try discriminate E.
    injection E as _ <-. cbn [calls_of] in C. subst calls.
    unfold deallocate_impl in D. destruct (q =? 0); [discriminate D|].
    destruct (is_aligned (DBG (Cfg mb bs dbg)) q (BS (Cfg mb bs dbg))) as [al| | |]; cbn [bind] in D; try discriminate D.
    unfold abort_when in D. destruct (negb al); [discriminate D|].
    destruct ((data s <=? q) && (q <? wrap 64 (data s + size_ (Cfg mb bs dbg) s))).
    + destruct (pointer_to_block_index (Cfg mb bs dbg) s q) as [i| | |]; cbn [bind] in D; try discriminate D.
      destruct (deallocate_blocks (Cfg mb bs dbg) s i) as [[s1 j]| | |]; cbn [bind] in D; discriminate D.
    + destruct (has_up s); [injection D as _ <- _; reflexivity|].
      destruct (q <? data s); [discriminate D|].
      destruct ((wrap 64 (data s + size_ (Cfg mb bs dbg) s) <=? q) && negb false); discriminate D.
  - destruct (release (Cfg mb bs dbg) fuel s) as [s'| | |]; cbn [bind] in E; try discriminate E. injection E as _ <-. discriminate C.
  - injection E as _ <-. discriminate C.
  - injection E as _ <-. discriminate C.
  - injection E as _ <-. discriminate C.
Qed.

Lemma step_same_calls : forall dbg fuel b o p b0 e0 b1 e1, body_step dbg fuel b (with_answer o p) = Ok (b1, e1) ->
  body_step dbg fuel b (with_answer o 0) = Ok (b0, e0) -> calls_of e0 = calls_of e1.
Proof.
  intros dbg fuel b o p b0 e0 b1 e1 E1 E0. destruct (probe _ _ _ _ _ _ E1) as [b' [e' [E' [C _]]]].
  assert (with_answer (with_answer o p) 0 = with_answer o 0) as W by now destruct o. rewrite W in E'. congruence.
Qed.

Lemma linked_pointer : forall links dbg fuel n W y q W1 eu lu,
  linked_step links dbg fuel n W y (ODeallocate q) = Ok (W1, eu, lu) -> pointer_of eu = 0.
Proof.
  intros links dbg fuel [|n] W y q W1 eu lu E; [discriminate E|]. cbn [linked_step] in E.
  destruct (W y) as [b|]; [|discriminate E]. cbn [with_answer] in E.
  destruct (body_step dbg fuel b (ODeallocate q)) as [[b0 e0]| | |] eqn:E0; cbn [bind] in E; try discriminate E.
  apply step_shape in E0. destruct e0 as [|q' calls|]; try contradiction.
  destruct calls as [|c cs]; cbn [calls_of] in E; [injection E as _ <- _; reflexivity|].
  destruct (links y) as [| |z].
  - destruct c; discriminate E.
  - destruct c; injection E as _ <- _; reflexivity.
  - destruct (linked_step links dbg fuel n W z (passed c (ODeallocate q))) as [[[W2 e2] l2]| | |]; cbn [bind] in E.
    2,3,4: destruct c; discriminate E.
    destruct c; injection E as _ <- _; reflexivity.
Qed.

Lemma step_through : forall links dbg fuel n W x y o W' e l c cs,
  linked_step links dbg fuel (S n) W x o = Ok (W', e, l) -> links x = Upstream y -> calls_of e = c :: cs ->
  exists W1 eu w lu, l = (x, w) :: lu /\ (forall z, z <> x -> W' z = W1 z) /\ pointer_of e = pointer_of eu /\
    match c, o with
    | UpAllocate size align, OAllocate _ _ ans => linked_step links dbg fuel n W y (OAllocate size align ans) = Ok (W1, eu, lu)
    | UpDeallocate p, ODeallocate _ => linked_step links dbg fuel n W y (ODeallocate p) = Ok (W1, eu, lu)
    | _, _ => False
    end.
Proof.
  intros links dbg fuel n W x y o W' e l c cs E L C. cbn [linked_step] in E.
  destruct (W x) as [b|]; [|discriminate E].
  destruct (body_step dbg fuel b (with_answer o 0)) as [[b0 e0]| | |] eqn:E0; cbn [bind] in E; try discriminate E.
  destruct (calls_of e0) as [|c0 cs0] eqn:C0; [injection E as _ <- _; congruence|].
  rewrite L in E. pose proof (step_calls dbg fuel b o 0 b0 e0 c0 cs0 E0 C0) as F.
  destruct (linked_step links dbg fuel n W y (passed c0 o)) as [[[W1 eu] lu]| | |] eqn:Eu; cbn [bind] in E.
  2,3,4: destruct c0; discriminate E.
  destruct (body_step dbg fuel b (with_answer o (pointer_of eu))) as [[b1 e1]| | |] eqn:E1; cbn [bind] in E.
  2,3,4: destruct c0; discriminate E.
  assert (E' : Ok (store_put W1 x b1, e1, (x, writes dbg b o (c0 :: cs0)) :: lu) = Ok (W', e, l)) by (destruct c0; exact E).
  injection E' as <- <- <-.
  pose proof (step_same_calls dbg fuel b o (pointer_of eu) b0 e0 b1 e1 E1 E0) as Sc.
  rewrite C0, C in Sc. injection Sc as -> ->.
  pose proof (step_calls dbg fuel b o (pointer_of eu) b1 e1 c cs E1 C) as G.
  exists W1, eu, (writes dbg b o (c :: cs)), lu. split; [reflexivity|].
  split; [intros z Nz; now apply put_other|].
  destruct c as [size align|q], o as [size' align' ans|q'|]; try contradiction; cbn [passed library_answer] in Eu.
  - destruct G as [_ [_ G]]. split; [exact G|exact Eu].
  - split; [|exact Eu]. apply step_shape in E1. cbn [with_answer] in E1. destruct e1; try contradiction.
    rewrite (linked_pointer links dbg fuel n W y q W1 eu lu Eu). reflexivity.
Qed.
