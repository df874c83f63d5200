(** Proofs about SpillModel.v. *)

Require Import ZArith List Bool Lia.
Require Import Verif.Outcome Verif.BitsSpec Verif.Machine Verif.SimpleSpec Verif.MonoModel Verif.SimpleAnyProofs Verif.ShiftProofs.
Require Import Verif.HeapSpec Verif.HeapModel Verif.HeapProofs Verif.LoneSpec Verif.LoneProofs Verif.FallSpec Verif.FallModel Verif.FallProofs.
Require Import Verif.SpillSpec Verif.SpillModel.
Import ListNotations.
Open Scope Z_scope.
Open Scope res_scope.

Lemma spill_sees : forall dbg msvc word ops s,
  spill_seen (spill_run dbg msvc word s ops) = mono_run dbg s (map (as_op msvc word) ops).
Proof.
  intros dbg msvc word. induction ops as [|o ops IH]; intros s; [reflexivity|].
  cbn [spill_run map mono_run]. unfold spill_step. destruct (mono_step dbg s (as_op msvc word o)) as [[s1 e]| | |]; [|reflexivity..].
  cbn [bind]. rewrite <- IH. destruct (spill_run dbg msvc word s1 ops) as [[[s2 es] b]| | |]; reflexivity.
Qed.

Theorem mono_behind : forall dbg msvc word b n ops,
  mono_run dbg (mono_construct b n false) (map (no_heap b n) ops) =
  lone_outcome lone_mono b n (spill_seen (spill_run dbg msvc word (mono_construct b n true) ops)).
Proof. intros. rewrite spill_sees, (no_heap_lone msvc word). apply mono_lone. Qed.

Lemma mono_calls : forall dbg s size align ans s' q calls, mono_allocate dbg s size align ans = Ok (s', q, calls) ->
  calls = [] \/ (calls = [UpAllocate size align] /\ q = ans size align).
Proof.
  intros dbg s size align ans s' q calls E. unfold mono_allocate in E.
  destruct (size =? 0); [injection E as <- <- <-; auto|]. apply cassert_inv in E. destruct E as [E _].
  apply bind_inv in E. destruct E as [[s2 p] [_ E]].
  destruct ((p =? 0) && mup s2); injection E as <- <- <-; auto.
Qed.

Lemma spill_one : forall dbg msvc word s o s' e cs, spill_step dbg msvc word s o = Ok (s', e, cs) ->
  passed_on o e /\
  ((cs = [] /\ forall l, had l [e] = l) \/
   exists size align failed p, o = FAllocate size align failed p /\ cs = snd (aligned_malloc msvc word size align failed p) /\
     forall l, had l [e] = if (if failed then 0 else p) =? 0 then l else p :: l).
Proof.
  intros dbg msvc word s o s' e cs H. unfold spill_step in H. apply bind_inv in H. destruct H as [[s1 e1] [E H]].
  injection H as <- <- <-. destruct o as [size align failed p|p|]; cbn [as_op mono_step] in E.
  - apply bind_inv in E. destruct E as [[[s2 q] calls] [E E1]]. injection E1 as <- <-.
    destruct (mono_calls _ _ _ _ _ _ _ _ E) as [->|[-> ->]]; [split; [cbn [passed_on]; auto|left; split; reflexivity]|].
    rewrite heap_answer. split; [cbn [passed_on]; auto|]. right. exists size, align, failed, p. split; [reflexivity|].
    split; [cbn [up_calls flat_map by_upstream]; apply app_nil_r|]. intros l. cbn [had]. destruct failed; [reflexivity|].
    destruct (p =? 0); reflexivity.
  - injection E as <- <-. split; [cbn [passed_on]; auto|left; split; reflexivity].
  - injection E as <- <-. split; [exact I|left; split; reflexivity].
Qed.

Lemma had_cons : forall l e es, had l (e :: es) = had (had l [e]) es.
Proof. intros l [size align p [|u calls]|p calls|] es; reflexivity. Qed.

Lemma spill_all : forall dbg msvc word ops s s' es cs, spill_run dbg msvc word s ops = Ok (s', es, cs) ->
  Forall2 passed_on ops es /\ (forall f p, ~ In (Return_ f p) cs) /\
  (forall l, fold_left held_after cs (map (pair (family_of msvc)) l) = map (pair (family_of msvc)) (had l es)) /\
  (pow2 word -> Forall power_aligned ops -> forall l, correct_use word l cs).
Proof.
  intros dbg msvc word. induction ops as [|o ops IH]; intros s s' es cs H; cbn [spill_run] in H.
  - injection H as <- <- <-. repeat split; auto; try constructor.
  - apply bind_inv in H. destruct H as [[[s1 e] a] [E H]]. apply bind_inv in H. destruct H as [[[s2 es'] b] [R H]].
    injection H as <- <- <-. destruct (IH _ _ _ _ R) as (I1 & I2 & I3 & I4).
    destruct (spill_one _ _ _ _ _ _ _ _ E) as [PO [[-> K]|(size & align & failed & p & -> & -> & K)]].
    + cbn [app]. split; [constructor; auto|]. split; [exact I2|]. split; [intros l; rewrite had_cons, K; apply I3|].
      intros W P. apply Forall_cons_iff in P. apply I4; tauto.
    + assert (Q : snd (aligned_malloc msvc word size align failed p) = [Obtain (family_of msvc) (asked msvc word align) size failed p]).
      { unfold aligned_malloc, asked. destruct msvc; [reflexivity|]. cbn [snd family_of].
        destruct (Z.leb_spec word align); [rewrite Z.max_r by lia|rewrite Z.max_l by lia]; reflexivity. }
      rewrite Q. cbn [app]. split; [constructor; auto|]. split; [intros f q [X|X]; [discriminate X|exact (I2 f q X)]|]. split.
      * intros l. rewrite had_cons, K. cbn [fold_left held_after]. rewrite <- I3. f_equal. destruct failed; [reflexivity|].
        destruct (p =? 0); reflexivity.
      * intros W P l. apply Forall_cons_iff in P. destruct P as [P1 P]. cbn [correct_use]. split; [|apply I4; auto].
        cbn [power_aligned] in P1. assert (PA := asked_pow2 msvc word align W P1). destruct msvc; cbn [accepts family_of]; [exact PA|].
        split; [exact PA|]. apply pow2_divide; auto. unfold asked. lia.
Qed.

Theorem mono_answers : forall dbg msvc word s ops s' es cs, spill_run dbg msvc word s ops = Ok (s', es, cs) -> Forall2 passed_on ops es.
Proof. intros. eapply spill_all. eassumption. Qed.

Theorem mono_heap_use : forall dbg msvc word s ops s' es cs, pow2 word -> Forall power_aligned ops ->
  spill_run dbg msvc word s ops = Ok (s', es, cs) -> correct_use word [] cs.
Proof. intros dbg msvc word s ops s' es cs W P H. apply (spill_all _ _ _ _ _ _ _ _ H); auto. Qed.

Theorem mono_heap_held : forall dbg msvc word s ops s' es cs, spill_run dbg msvc word s ops = Ok (s', es, cs) ->
  (forall f p, ~ In (Return_ f p) cs) /\ fold_left held_after cs [] = map (pair (if msvc then Crt else Posix)) (had [] es).
Proof.
  intros dbg msvc word s ops s' es cs H. destruct (spill_all _ _ _ _ _ _ _ _ H) as (_ & A & B & _).
  split; [exact A|]. exact (B []).
Qed.

Lemma mono_leaks : exists s,
  spill_run true false 8 (mono_construct 4096 32 true) [FAllocate 64 8 false 65536; FDeallocate 65536; FRelease] =
    Ok (s, [EAllocate 64 8 65536 [UpAllocate 64 8]; EDeallocate 65536 []; ERelease], [Obtain Posix 8 64 false 65536]) /\
  fold_left held_after [Obtain Posix 8 64 false 65536] [] = [(Posix, 65536)].
Proof. eexists. split; vm_compute; reflexivity. Qed.
