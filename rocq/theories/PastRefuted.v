(** Two histories of simple_resource that differ in the order of two calls of deallocate, and
    what comes of them. *)

Require Import ZArith Lia List Bool Permutation.
Require Import Verif.Outcome Verif.Machine Verif.BitsModel Verif.BitsSpec Verif.BitsProofs.
Require Import Verif.SimpleModel Verif.SimpleSpec Verif.SimpleView Verif.SimpleProofs Verif.SimpleOpProofs Verif.SimpleMainProofs
  Verif.SimpleExactProofs Verif.SimpleAstrayProofs Verif.SimpleKeepProofs Verif.SimpleExamples Verif.SimpleRefuted.
Import ListNotations.
Open Scope Z_scope.
Open Scope res_scope.

(** the first two blocks are taken and given back; then two blocks and one behind them are
    taken, and the two given back *)
Definition two_orders (first second : Z) : list op :=
  [get 1; get 1; ODeallocate first; ODeallocate second; get 5; get 1; ODeallocate 4096].
Definition two_orders_seen (first second : Z) : list event :=
  [EAllocate 1 1 4096 []; EAllocate 1 1 4100 []; EDeallocate first []; EDeallocate second [];
   EAllocate 5 1 4096 []; EAllocate 1 1 4104 []; EDeallocate 4096 []].

Definition upwards (dbg : bool) : state := after (conf 8 dbg) (fresh 4096 8 false) (two_orders 4096 4100).
Definition downwards (dbg : bool) : state := after (conf 8 dbg) (fresh 4096 8 false) (two_orders 4100 4096).

Lemma two_orders_plain : forall p q, Forall (plain_op 4) (two_orders p q).
Proof. intros p q. assert (P := pow2_1). repeat constructor; cbn; auto; lia. Qed.

Lemma two_orders_swapped : Permutation (two_orders 4096 4100) (two_orders 4100 4096).
Proof. unfold two_orders. do 2 apply perm_skip. apply perm_swap. Qed.

Lemma upwards_history : forall dbg,
  history (conf 8 dbg) false (fresh 4096 8 false) (two_orders 4096 4100) (upwards dbg) (two_orders_seen 4096 4100).
Proof.
  intros dbg. exists 4096, 32, 50%nat. split; [apply made_8|]. assert (P := pow2_1).
  split; [repeat constructor; cbn; auto; lia|]. split; [destruct dbg; vm_compute; reflexivity|cbn; repeat split; auto].
Qed.
Lemma downwards_history : forall dbg,
  history (conf 8 dbg) false (fresh 4096 8 false) (two_orders 4100 4096) (downwards dbg) (two_orders_seen 4100 4096).
Proof.
  intros dbg. exists 4096, 32, 50%nat. split; [apply made_8|]. assert (P := pow2_1).
  split; [repeat constructor; cbn; auto; lia|]. split; [destruct dbg; vm_compute; reflexivity|cbn; repeat split; auto].
Qed.

Lemma two_orders_granted : forall dbg p q, p = 4096 /\ q = 4100 \/ p = 4100 /\ q = 4096 ->
  forall es1 es2, two_orders_seen p q = es1 ++ es2 -> well_granted (conf 8 dbg) (fresh 4096 8 false) (live es1).
Proof.
  intros dbg p q H es1 es2 E1.
  assert (X : exists k, (k < 8)%nat /\ es1 = firstn k (two_orders_seen p q)).
  { exists (length es1). split.
    - apply (f_equal (@length event)) in E1. rewrite app_length in E1. change (length (two_orders_seen p q)) with 7%nat in E1. lia.
    - rewrite E1, firstn_app, firstn_all, Nat.sub_diag. cbn [firstn]. rewrite app_nil_r. reflexivity. }
  destruct X as [k [K ->]]. clear E1.
  do 8 (destruct k as [|k]; [destruct H as [[-> ->]|[-> ->]]; cbn; (split;
    [cbn; repeat (apply pairwise_cons; split;
        [let Y := fresh in intros ? Y; cbn in Y;
         repeat (destruct Y as [<-|Y]; [unfold disjoint; cbn; lia|]); destruct Y|]);
      intros [|? [|]] ? ? ? ? X; discriminate X
    |intros _; cbn; repeat constructor; unfold inside; cbn; lia])|]).
  lia.
Qed.

Definition left_over : list region := [Reg 0 2 false; Reg 2 1 true; Reg 3 5 false].

Lemma upwards_wf : forall dbg, wf (conf 8 dbg) (upwards dbg) left_over.
Proof. intros dbg. destruct dbg; concrete_wf. Qed.
Lemma downwards_wf : forall dbg, wf (conf 8 dbg) (downwards dbg) left_over.
Proof. intros dbg. destruct dbg; concrete_wf. Qed.

Lemma upwards_hangs : forall dbg ans, never_returns (fun fuel => allocate_impl (conf 8 dbg) fuel (upwards dbg) 9 1 ans).
Proof.
  intros dbg ans. assert (V : data (upwards dbg) = 4096 /\ bc (upwards dbg) = 8 /\ nxt (upwards dbg) 1 = 2)
    by (destruct dbg; vm_compute; auto). destruct V as [V1 [V2 V3]].
  apply (returns_exactly_long (conf 8 dbg) (upwards dbg) (Reg 0 2 false) [Reg 2 1 true; Reg 3 5 false]).
  - apply conf_ok. lia.
  - apply upwards_wf.
  - cbn. lia.
  - rewrite V3, V2. lia.
  - split; [lia|]. split; [exact pow2_1|lia].
  - rewrite V1, V2. apply ordinary_small; cbn [BS conf]; lia.
  - rewrite V1, V2. apply reach_divides; cbn [BS conf]; try lia; [exact pow2_1|exists 4096; reflexivity].
  - rewrite V1. split; [exact long_passes|]. split; [rewrite V3; lia|].
    unfold from_block_1. rewrite V2, V3. intros [q [Q1 [_ Q2]]]. cbn in *. lia.
Qed.

Lemma order_matters : forall dbg, exists c s ops1 ops2 s1 s2 es1 es2 rs size, DBG c = dbg /\ Permutation ops1 ops2 /\
  history c false s ops1 s1 es1 /\ history c false s ops2 s2 es2 /\
  Forall (plain_op (BS c)) ops1 /\ Forall (plain_op (BS c)) ops2 /\
  (forall es es', es1 = es ++ es' -> well_granted c s (live es)) /\
  (forall es es', es2 = es ++ es' -> well_granted c s (live es)) /\
  live es1 = live es2 /\ regions_of s1 rs /\ regions_of s2 rs /\
  (forall ans, never_returns (fun fuel => allocate_impl c fuel s1 size 1 ans)) /\
  forall ans, exists t p, allocate_impl c 50 s2 size 1 ans = Ok (t, p, []) /\
    exists a, In a (live es2) /\ ~ disjoint a (p, size).
Proof.
  intros dbg. exists (conf 8 dbg), (fresh 4096 8 false), (two_orders 4096 4100), (two_orders 4100 4096),
    (upwards dbg), (downwards dbg), (two_orders_seen 4096 4100), (two_orders_seen 4100 4096), left_over, 9.
  split; [reflexivity|]. split; [exact two_orders_swapped|]. split; [apply upwards_history|]. split; [apply downwards_history|].
  split; [apply two_orders_plain|]. split; [apply two_orders_plain|].
  split; [apply two_orders_granted; auto|]. split; [apply two_orders_granted; auto|]. split; [reflexivity|].
  split; [apply (wf_tiles _ _ _ (upwards_wf dbg))|]. split; [apply (wf_tiles _ _ _ (downwards_wf dbg))|].
  split; [apply upwards_hangs|]. intros ans. destruct dbg; (eexists; exists 4100; split; [vm_compute; reflexivity|]);
    exists (4104, 1); (split; [left; reflexivity|]); unfold disjoint; cbn; lia.
Qed.
