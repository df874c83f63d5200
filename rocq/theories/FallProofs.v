(** Proofs about FallModel.v. *)

Require Import ZArith List Bool Lia.
Require Import Verif.Outcome Verif.BitsSpec Verif.Machine Verif.SimpleSpec Verif.SimpleModel Verif.SimpleView Verif.SimpleProofs Verif.SimpleOpProofs.
Require Import Verif.SimpleAnyProofs Verif.SimpleMainProofs Verif.SimplePinnedProofs Verif.SimpleRefuted.
Require Import Verif.HeapSpec Verif.HeapModel Verif.HeapProofs Verif.LoneSpec Verif.LoneProofs Verif.FallSpec Verif.FallModel.
Import ListNotations.
Open Scope Z_scope.
Open Scope res_scope.

Lemma heap_answer : forall msvc word sz al failed p,
  fst (aligned_malloc msvc word sz al failed p) = if failed then 0 else p.
Proof. intros [] word sz al [] p; reflexivity. Qed.

Lemma fall_seen : forall c msvc word fuel ops s,
  seen (fall_run c msvc word fuel s ops) = run c fuel s (map (as_op msvc word) ops).
Proof.
  intros c msvc word fuel. induction ops as [|o ops IH]; intros s; [reflexivity|].
  cbn [fall_run map run]. unfold fall_step. destruct (step c fuel s (as_op msvc word o)) as [[s1 e]| | |]; [|reflexivity..].
  cbn [bind]. rewrite <- IH. destruct (fall_run c msvc word fuel s1 ops) as [[[s2 es] b]| | |]; reflexivity.
Qed.

Lemma fair_plain : forall msvc word d n ops got, fair msvc word d n got ops -> Forall plain ops.
Proof.
  intros msvc word d n. induction ops as [|[size align failed p|p|] ops IH]; intros got F; cbn [fair] in F; constructor; cbn [plain];
    try (eapply IH; apply F); tauto.
Qed.

Lemma plain_sane : forall msvc word ops, Forall plain ops -> Forall sane_op (map (as_op msvc word) ops).
Proof.
  intros msvc word ops F. induction F as [|o ops P F IH]; cbn [map]; constructor; auto. destruct o; exact P || exact I.
Qed.

Lemma asked_pow2 : forall msvc word align, pow2 word -> pow2 align -> pow2 (asked msvc word align).
Proof.
  intros [] word align W A; [exact A|]. unfold asked. destruct (Z.max_spec word align) as [[_ ->]|[_ ->]]; auto.
Qed.

Lemma wide_divides : forall c msvc word align p d n, cfg_ok c -> pow2 word -> pow2 align -> BS c <= asked msvc word align ->
  promise msvc word d n align p -> (BS c | p).
Proof.
  intros c msvc word align p d n HC W A L [_ [D _]]. apply Z.divide_trans with (2 := D).
  apply pow2_divide; auto using asked_pow2. apply HC.
Qed.

Lemma fair_aligned : forall c msvc word d n, cfg_ok c -> pow2 word -> forall ops got,
  fair msvc word d n got ops -> Forall (wide msvc word (BS c)) ops -> Forall (fun p => (BS c | p)) got ->
  Forall (block_aligned (DBG c) (BS c) d n) (map (as_op msvc word) ops).
Proof.
  intros c msvc word d n HC W. induction ops as [|o ops IH]; intros got F L G; cbn [map]; [constructor|].
  apply Forall_cons_iff in L. destruct L as [L1 L]. destruct o as [size align failed p|p|]; cbn [fair wide as_op] in *.
  - destruct F as (F0 & F1 & F2 & F3 & F). constructor.
    + cbn [block_aligned]. intros _. rewrite heap_answer. destruct failed; [split; [lia|apply Z.divide_0_r]|].
      specialize (F3 eq_refl). split; [destruct F3; lia|]. exact (wide_divides c msvc word align p d n HC W F1 L1 F3).
    + apply (IH _ F); auto. destruct failed; auto. constructor; auto.
      exact (wide_divides c msvc word align p d n HC W F1 L1 (F3 eq_refl)).
  - destruct F as (F0 & F1 & F). constructor; [|apply (IH _ F); auto]. cbn [block_aligned]. split; [exact F0|].
    intros O. destruct (F1 O) as [->|I]; [apply Z.divide_0_r|]. rewrite Forall_forall in G. auto.
  - constructor; [exact I|]. apply (IH _ F); auto.
Qed.

Lemma no_heap_lone : forall msvc word d n ops, map (no_heap d n) ops = map (lone_op d n) (map (as_op msvc word) ops).
Proof. intros. rewrite map_map. apply map_ext. intros []; reflexivity. Qed.

Theorem heap_behind : forall c msvc word b n s s0 fuel ops, pow2 word -> made c b n true s -> made c b n false s0 ->
  fair msvc word (data s) (bc s * BS c) [] ops -> Forall (wide msvc word (BS c)) ops ->
  run c fuel s0 (map (no_heap (data s) (bc s * BS c)) ops) =
  lone_outcome lone (data s) (bc s * BS c) (seen (fall_run c msvc word fuel s ops)).
Proof.
  intros c msvc word b n s s0 fuel ops W M M0 F L. rewrite fall_seen, (no_heap_lone msvc word).
  assert (HC := made_cfg _ _ _ _ _ M). apply (simple_lone c b n); auto.
  - apply plain_sane. eapply fair_plain. exact F.
  - eapply fair_aligned; eauto.
Qed.

(** ** the system is used correctly *)

Lemma deallocate_calls : forall c s p s' calls, cfg_ok c -> geometry c s -> deallocate_impl c s p = Ok (s', calls) ->
  calls = if (p =? 0) || own (data s) (bc s * BS c) p then [] else [UpDeallocate p].
Proof.
  intros c s p s' calls HC G H. assert (PB := bs_pos c HC). destruct G as [G1 G2 G3 G4 G5]. unfold deallocate_impl in H.
  assert (0 <= bc s * BS c) by (apply Z.mul_nonneg_nonneg; lia).
  destruct (p =? 0); [injection H as <- <-; reflexivity|]. cbn [orb]. unfold own.
  assert (SZ : wrap 64 (data s + size_ c s) = data s + bc s * BS c).
  { unfold size_. rewrite (Z.mul_comm (BS c)). rewrite (wrap_id _ (bc s * BS c)) by lia. apply wrap_id. lia. }
  rewrite SZ in H. apply bind_inv in H. destruct H as [al [_ H]]. apply abort_inv in H. destruct H as [H _].
  destruct ((data s <=? p) && (p <? data s + bc s * BS c)) eqn:I.
  - apply bind_inv in H. destruct H as [i [_ H]]. apply bind_inv in H. destruct H as [[s1 m] [_ H]]. injection H as <- <-. reflexivity.
  - destruct (has_up s); [injection H as <- <-; reflexivity|].
    apply abort_inv in H. destruct H as [H C1]. apply abort_inv in H. destruct H as [_ C2]. cbn [negb] in C2.
    rewrite andb_true_r in C2. apply Z.ltb_ge in C1. apply Z.leb_gt in C2.
    apply andb_false_iff in I. destruct I as [I|I]; [apply Z.leb_gt in I; lia|apply Z.ltb_ge in I; lia].
Qed.

Lemma step_place : forall c fuel s o s' e, cfg_ok c -> geometry c s -> sane_op o -> step c fuel s o = Ok (s', e) ->
  geometry c s' /\ same_place s s'.
Proof.
  intros c fuel s o s' e HC G S H. destruct (step_any c fuel s o s' e HC (g_aligned _ _ G) S H) as [[P _] _].
  split; [|exact P]. destruct P as [P1 [P2 P3]]. destruct G as [G1 G2 G3 G4 G5]. constructor; rewrite ?P1, ?P2; auto.
Qed.

Definition as_heap (d n : Z) (o : fall_op) (e : event) : list heap_op :=
  match o, e with
  | FAllocate size align failed p, EAllocate _ _ _ (_ :: _) => [Malloc size align failed p]
  | _, EDeallocate p _ => if (p =? 0) || own d n p then [] else [Free p]
  | _, _ => []
  end.

Lemma step_heap : forall c msvc word fuel s o s' e cs, cfg_ok c -> geometry c s -> plain o ->
  fall_step c msvc word fuel s o = Ok (s', e, cs) ->
  heap_run msvc word (as_heap (data s) (bc s * BS c) o e) = (from_heap (data s) (bc s * BS c) e, cs) /\ passed_on o e.
Proof.
  intros c msvc word fuel s o s' e cs HC G P H. unfold fall_step in H. apply bind_inv in H. destruct H as [[s1 e1] [E H]].
  injection H as <- <- <-. destruct o as [size align failed p|p|]; cbn [plain as_op step] in *; apply bind_inv in E.
  - destruct E as [[[s2 q] calls] [E E1]]. injection E1 as <- <-. destruct P as (P0 & P1 & P2).
    destruct (allocate_any c fuel s size align _ s2 q calls HC (g_aligned _ _ G) P1 P2 P0 E) as (_ & _ & _ & A).
    destruct calls as [|u calls]; [split; [reflexivity|]; cbn [passed_on]; auto|]. destruct A as (A1 & A2 & _); [discriminate|].
    injection A1 as -> ->. rewrite heap_answer in A2. subst q. split; [|cbn [passed_on]; auto].
    cbn [as_heap from_heap up_calls flat_map by_upstream heap_run heap_step]. rewrite app_nil_r.
    rewrite <- (heap_answer msvc word size align failed p). destruct (aligned_malloc msvc word size align failed p) as [r cs].
    cbn [fst snd]. rewrite app_nil_r. reflexivity.
  - destruct E as [[s2 calls] [E E1]]. injection E1 as <- <-. apply deallocate_calls in E; auto. subst calls.
    cbn [as_heap from_heap up_calls passed_on].
    destruct ((p =? 0) || own (data s) (bc s * BS c) p); cbn [flat_map by_upstream heap_run heap_step]; rewrite ?app_nil_r; auto.
  - destruct E as [s2 [_ E]]. injection E as <- <-. split; [reflexivity|exact I].
Qed.

Lemma heap_app : forall msvc word a b, heap_run msvc word (a ++ b) =
  (fst (heap_run msvc word a) ++ fst (heap_run msvc word b), snd (heap_run msvc word a) ++ snd (heap_run msvc word b)).
Proof.
  intros msvc word a b. induction a as [|o a IH]; cbn [app heap_run fst snd]; [destruct (heap_run msvc word b); reflexivity|].
  destruct (heap_step msvc word o) as [e x]. rewrite IH.
  destruct (heap_run msvc word a) as [es y]. cbn [fst snd app]. rewrite app_assoc. reflexivity.
Qed.

Lemma run_heap : forall c msvc word fuel, cfg_ok c -> forall ops s s' es cs, geometry c s -> Forall plain ops ->
  fall_run c msvc word fuel s ops = Ok (s', es, cs) ->
  (exists hops, heap_run msvc word hops = (flat_map (from_heap (data s) (bc s * BS c)) es, cs)) /\ Forall2 passed_on ops es.
Proof.
  intros c msvc word fuel HC. induction ops as [|o ops IH]; intros s s' es cs G P H; cbn [fall_run] in H.
  - injection H as <- <- <-. split; [exists []; reflexivity|constructor].
  - apply bind_inv in H. destruct H as [[[s1 e] a] [E H]]. apply bind_inv in H. destruct H as [[[s2 es'] b] [R H]].
    injection H as <- <- <-. apply Forall_cons_iff in P. destruct P as [P1 P].
    destruct (step_heap c msvc word fuel s o s1 e a HC G P1 E) as [K PO].
    assert (SP : geometry c s1 /\ same_place s s1).
    { unfold fall_step in E. apply bind_inv in E. destruct E as [[t f] [E E']]. injection E' as -> -> _.
      apply (step_place c fuel s (as_op msvc word o) s1 e); auto. destruct o; exact P1 || exact I. }
    destruct SP as [G1 [D1 [D2 _]]]. destruct (IH s1 s2 es' b G1 P R) as [[hops K'] PO']. rewrite D1, D2 in K'.
    split; [|constructor; auto]. exists (as_heap (data s) (bc s * BS c) o e ++ hops). rewrite heap_app, K, K'. reflexivity.
Qed.

Theorem heap_used : forall c msvc word b n s fuel ops s' es cs, pow2 word -> made c b n true s -> Forall plain ops ->
  fall_run c msvc word fuel s ops = Ok (s', es, cs) -> 
  correct_client [] (flat_map (from_heap (data s) (bc s * BS c)) es) ->
  correct_use word [] cs /\
  fold_left held_after cs [] = map (pair (if msvc then Crt else Posix)) (fold_left owned_after (flat_map (from_heap (data s) (bc s * BS c)) es) []).
Proof.
  intros c msvc word b n s fuel ops s' es cs W M P R C. destruct (made_wf _ _ _ _ _ M) as [HC [WF _]].
  destruct (run_heap c msvc word fuel HC ops s s' es cs (wf_geom _ _ _ WF) P R) as [[hops K] _].
  split; [exact (heap_use msvc word hops _ _ W K C)|]. assert (H := held_owned msvc word hops []). rewrite K in H. exact H.
Qed.

Theorem heap_passed : forall c msvc word b n s fuel ops s' es cs, made c b n true s -> Forall plain ops ->
  fall_run c msvc word fuel s ops = Ok (s', es, cs) -> Forall2 passed_on ops es.
Proof.
  intros c msvc word b n s fuel ops s' es cs M P R. destruct (made_wf _ _ _ _ _ M) as [HC [WF _]].
  exact (proj2 (run_heap c msvc word fuel HC ops s s' es cs (wf_geom _ _ _ WF) P R)).
Qed.

(** ** which blocks the system's memory is good for *)

Theorem heap_exact : forall c msvc word b n s fuel ops s' es size align ans s1 p, pow2 word -> made c b n true s -> Forall sane_op ops ->
  run c fuel s ops = Ok (s', es) -> 0 < size -> pow2 align -> align < 2 ^ 64 ->
  allocate_impl c fuel s' size align ans = Ok (s1, p, [UpAllocate size align]) ->
  ((forall q, promise msvc word (data s) (bc s * BS c) align q ->
    exists s2 cs, fall_run c msvc word fuel s' [FAllocate size align false q; FDeallocate q] =
      Ok (s2, [EAllocate size align q [UpAllocate size align]; EDeallocate q [UpDeallocate q]], cs)) <-> BS c <= asked msvc word align).
Proof.
  intros c msvc word b n s fuel ops s' es size align ans s1 p W M SO R S0 PA LA H.
  destruct (made_geometry _ _ _ _ _ _ _ _ _ M SO R) as [HC [G [[P1 [P2 P3]] U]]].
  assert (PB := bs_pos c HC). assert (PK := asked_pow2 msvc word align W PA).
  assert (A : forall q, promise msvc word (data s) (bc s * BS c) align q ->
    allocate_impl c fuel s' size align (fun sz al => fst (aligned_malloc msvc word sz al false q)) =
    if negb (DBG c) || (q mod BS c =? 0) then Ok (s1, q, [UpAllocate size align]) else Abort).
  { intros q [Q _]. rewrite (upstream_answer c fuel s' size align ans _ s1 p HC ltac:(lia) H) by (rewrite heap_answer; lia).
    rewrite heap_answer. reflexivity. }
  assert (G1 : geometry c s1 /\ same_place s' s1).
  { apply (step_place c fuel s' (OAllocate size align ans) s1 (EAllocate size align p [UpAllocate size align]) HC G).
    - cbn [sane_op]. split; [lia|auto].
    - cbn [step]. rewrite H. reflexivity. }
  destruct G1 as [G1 [Q1 [Q2 Q3]]].
  assert (D : forall q, promise msvc word (data s) (bc s * BS c) align q ->
    deallocate_impl c s1 q = if q mod BS c =? 0 then Ok (s1, [UpDeallocate q]) else Abort).
  { intros q (Q & _ & O). rewrite (deallocate_outside c s1 q HC G1 Q).
    - rewrite Q3, P3, U, andb_true_r. reflexivity.
    - unfold own in O. rewrite Q1, Q2, P1, P2. apply andb_false_iff in O. rewrite Z.leb_gt, Z.ltb_ge in O. lia. }
  assert (T : forall q, promise msvc word (data s) (bc s * BS c) align q ->
    seen (fall_run c msvc word fuel s' [FAllocate size align false q; FDeallocate q]) =
    if q mod BS c =? 0 then Ok (s1, [EAllocate size align q [UpAllocate size align]; EDeallocate q [UpDeallocate q]]) else Abort).
  { intros q Q. rewrite fall_seen. cbn [map run as_op step]. rewrite (A q Q).
    destruct (q mod BS c =? 0) eqn:E.
    - rewrite orb_true_r. cbn [bind]. rewrite (D q Q), E. reflexivity.
    - rewrite orb_false_r. destruct (negb (DBG c)); cbn [bind]; [|reflexivity]. rewrite (D q Q), E. reflexivity. }
  split.
  - intros F. destruct (Z.le_gt_cases (BS c) (asked msvc word align)) as [L|L]; [exact L|exfalso].
    assert (K0 : 0 < asked msvc word align) by (destruct PK as (k & K & ->); apply Z.pow_pos_nonneg; lia).
    assert (GE := g_end _ _ G). assert (GA := g_aligned _ _ G). assert (GD := g_data _ _ G). rewrite P1 in *.
    assert (BD : BS c <= data s) by (apply Z.divide_pos_le; auto).
    assert (Q : promise msvc word (data s) (bc s * BS c) align (asked msvc word align)).
    { split; [|split; [apply Z.divide_refl|]].
      - split; [exact K0|]. assert (0 <= bc s' * BS c) by (apply Z.mul_nonneg_nonneg; [destruct (g_bc _ _ G)|]; lia). lia.
      - unfold own. rewrite (proj2 (Z.leb_gt _ _)) by lia. reflexivity. }
    destruct (F _ Q) as (s2 & cs & E). specialize (T _ Q). rewrite E in T.
    rewrite Z.mod_small in T by lia. rewrite (proj2 (Z.eqb_neq _ 0)) in T by lia. discriminate T.
  - intros L q Q. specialize (T q Q).
    rewrite (proj2 (Z.eqb_eq _ 0)) in T by (apply Z.mod_divide; [lia|]; exact (wide_divides c msvc word align q _ _ HC W PA L Q)).
    destruct (fall_run c msvc word fuel s' [FAllocate size align false q; FDeallocate q]) as [[[s2 es2] cs]| | |]; try discriminate T.
    cbn [seen bind] in T. injection T as <- ->. eauto.
Qed.

Lemma odd_heap :
  (forall dbg, made (Cfg 2 16 dbg) 48 32 true (fresh 48 2 true)) /\
  fair false 8 48 32 [] [FAllocate 100 8 false 9000; FDeallocate 9000] /\
  fall_run (Cfg 2 16 true) false 8 9 (fresh 48 2 true) [FAllocate 100 8 false 9000] = Abort /\
  fall_run (Cfg 2 16 false) false 8 9 (fresh 48 2 true) [FAllocate 100 8 false 9000] =
    Ok (fresh 48 2 true, [EAllocate 100 8 9000 [UpAllocate 100 8]], [Obtain Posix 8 100 false 9000]) /\
  (forall dbg, fall_run (Cfg 2 16 dbg) false 8 9 (fresh 48 2 true) [FAllocate 100 8 false 9000; FDeallocate 9000] = Abort).
Proof.
  split; [exact made_48|]. split.
  { cbn [fair]. repeat split; try lia.
    - exists 3. split; [lia|reflexivity].
    - exists 1125. reflexivity.
    - intros _. right. left. reflexivity. }
  split; [vm_compute; reflexivity|]. split; [vm_compute; reflexivity|].
  intros dbg. destruct dbg; vm_compute; reflexivity.
Qed.
