(** Lemmas about calls that leave the buffers of the resources alone. *)

Require Import ZArith Lia List Bool.
Require Import Verif.Outcome Verif.Machine Verif.BitsSpec Verif.BitsProofs.
Require Import Verif.SimpleModel Verif.SimpleSpec Verif.SimpleView Verif.SimpleProofs Verif.SimpleMainProofs Verif.SimpleAnyProofs.
Require Import Verif.MonoModel Verif.MonoSpec Verif.MonoProofs.
Require Import Verif.IdleSpec.
Import ListNotations.
Open Scope Z_scope.
Open Scope res_scope.

(** * simple_resource *)

Lemma idle_step : forall c fuel s o s' e, cfg_ok c -> (BS c | data s) -> 0 <= data s ->
  roomy (data s + MB c * BS c) o -> step c fuel s o = Ok (s', e) -> same_place s s' /\ (idle e = true -> s' = s).
Proof.
  intros c fuel s o s' e HC D D0 V H. assert (P := bs_pos c HC). assert (PM := mb_range c HC).
  destruct o as [size align ans|p|]; cbn [step roomy] in *.
  - apply bind_inv in H. destruct H as [[[s1 p] calls] [E H]]. injection H as <- <-. destruct V as [V1 [V2 V3]].
    destruct (allocate_any c fuel s size align ans s1 p calls HC D V2 ltac:(nia) V1 E) as [[->|[T [_ T']]] _].
    + split; [apply same_place_refl|auto].
    + split; [apply T|]. destruct (T' D0 V3) as [-> N]. cbn [idle length Nat.eqb negb]. rewrite orb_false_r.
      intros Q. apply Z.eqb_eq in Q. contradiction.
  - apply bind_inv in H. destruct H as [[s1 calls] [E H]]. injection H as <- <-.
    destruct (deallocate_any _ _ _ _ _ E) as [[_ [-> _]]|[[_ [-> _]]|[N [G ->]]]]; [split; [apply same_place_refl|auto]..|].
    split; [apply G|]. cbn [idle length Nat.eqb negb]. rewrite orb_false_r. intros Q. apply Z.eqb_eq in Q. contradiction.
  - apply bind_inv in H. destruct H as [s1 [E H]]. injection H as <- <-. split; [|discriminate].
    apply (release_any _ _ _ _ E).
Qed.

Lemma idle_run : forall c fuel ops s s' es, cfg_ok c -> (BS c | data s) -> 0 <= data s ->
  Forall (roomy (data s + MB c * BS c)) ops -> run c fuel s ops = Ok (s', es) ->
  run c fuel s (busy_ops ops es) = Ok (s', busy_events es).
Proof.
  intros c fuel ops. induction ops as [|o ops IH]; intros s s' es HC D D0 V H; cbn [run] in H.
  - injection H as <- <-. reflexivity.
  - apply bind_inv in H. destruct H as [[s1 e] [E1 H]]. apply bind_inv in H. destruct H as [[s2 es'] [E2 H]].
    injection H as <- <-. inversion V as [|? ? V1 V2]; subst.
    destruct (idle_step c fuel s o s1 e HC D D0 V1 E1) as [[P1 [P2 P3]] Q].
    assert (R := IH s1 s2 es' HC). rewrite P1 in R. specialize (R D D0 V2 E2).
    cbn [busy_ops]. unfold busy_events. cbn [filter]. destruct (idle e); cbn [negb].
    + rewrite <- (Q eq_refl) at 1. exact R.
    + cbn [run]. rewrite E1. cbn [bind]. rewrite R. reflexivity.
Qed.

Lemma idle_simple : forall c buffer size up s fuel ops s' es, made c buffer size up s ->
  Forall (roomy (data s + MB c * BS c)) ops -> run c fuel s ops = Ok (s', es) ->
  run c fuel s (busy_ops ops es) = Ok (s', busy_events es).
Proof.
  intros c buffer size up s fuel ops s' es M V H. destruct (made_wf _ _ _ _ _ M) as [C [_ [_ [_ [_ [D [_ [_ [DV _]]]]]]]]].
  apply idle_run; auto. lia.
Qed.

(** * monotonic_buffer_resource *)

Lemma mono_idle_step : forall dbg s l o, mono_inv s l -> fair_op (mdata s + msize s) o ->
  exists s' e, mono_step dbg s o = Ok (s', e) /\ mono_inv s' (handed_after l e) /\ same_buffer s s' /\ (idle e = true -> s' = s).
Proof.
  intros dbg s l o I F. destruct (mono_step_ok dbg s l o I F) as [s' [e [E [I' [S _]]]]]. exists s', e.
  split; auto. split; auto. split; auto. clear I' S. intros Q. destruct o as [size align ans|p|]; cbn [mono_step] in E.
  - destruct F as [F1 [F2 F3]]. destruct (Z.eq_dec size 0) as [->|N].
    + cbn in E. injection E as <- _. auto.
    + destruct (mono_alloc dbg s l size align ans I ltac:(lia) F2 F3) as [s1 [p [calls [E1 [Y [X [H|H]]]]]]];
      rewrite E1 in E; cbn [bind] in E; injection E as <- <-.
      * destruct (Y H) as [-> [P _]]. cbn [idle length Nat.eqb negb] in Q. rewrite orb_false_r in Q. apply Z.eqb_eq in Q. contradiction.
      * apply (X H).
  - injection E as <- _. auto.
  - injection E as _ <-. discriminate Q.
Qed.

Lemma mono_idle_run : forall dbg ops s l s' es, mono_inv s l -> Forall (fair_op (mdata s + msize s)) ops ->
  mono_run dbg s ops = Ok (s', es) -> mono_run dbg s (busy_ops ops es) = Ok (s', busy_events es).
Proof.
  intros dbg. induction ops as [|o ops IH]; intros s l s' es I F H; cbn [mono_run] in H.
  - injection H as <- <-. reflexivity.
  - inversion F as [|? ? F1 F2]; subst. destruct (mono_idle_step dbg s l o I F1) as [s1 [e [E1 [I1 [[P1 [P2 P3]] Q]]]]].
    rewrite E1 in H. cbn [bind] in H. apply bind_inv in H. destruct H as [[s2 es'] [E2 H]]. injection H as <- <-.
    assert (R := IH s1 _ s2 es' I1). rewrite P1, P2 in R. specialize (R F2 E2).
    cbn [busy_ops]. unfold busy_events. cbn [filter]. destruct (idle e); cbn [negb].
    + rewrite <- (Q eq_refl) at 1. exact R.
    + cbn [mono_run]. rewrite E1. cbn [bind]. rewrite R. reflexivity.
Qed.

Lemma idle_mono : forall dbg buffer size up ops s es, mono_made buffer size -> Forall (fair_op (buffer + size)) ops ->
  mono_run dbg (mono_construct buffer size up) ops = Ok (s, es) ->
  mono_run dbg (mono_construct buffer size up) (busy_ops ops es) = Ok (s, busy_events es).
Proof.
  intros dbg buffer size up ops s es M F H. destruct (made_end buffer size up M) as [E _].
  apply (mono_idle_run dbg ops _ [] s es); auto; [apply start_inv; auto|]. eapply fair_weaken; eauto.
Qed.

(** three requests, the second of which runs past the last address *)
Definition wrapped : list op := [ask 8; ask (2 ^ 64 - 4104); ask 8; ask 8].

Lemma null_moves : forall dbg, exists s es s' es', mono_run dbg (mono_construct 4096 32 false) wrapped = Ok (s, es) /\
  es = [EAllocate 8 1 4096 []; EAllocate (2 ^ 64 - 4104) 1 4104 []; EAllocate 8 1 0 []; EAllocate 8 1 8 []] /\
  busy_ops wrapped es = [ask 8; ask (2 ^ 64 - 4104); ask 8] /\
  mono_run dbg (mono_construct 4096 32 false) (busy_ops wrapped es) = Ok (s', es') /\
  s' <> s /\ es' <> busy_events es.
Proof.
  intros dbg. do 4 eexists. split; [destruct dbg; vm_compute; reflexivity|]. split; [vm_compute; reflexivity|].
  split; [vm_compute; reflexivity|]. split; [destruct dbg; vm_compute; reflexivity|]. split; vm_compute; discriminate.
Qed.
