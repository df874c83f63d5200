(** Property C145: what a simple_resource does next depends only on what it has lent out. *)

Require Import ZArith Lia List Bool Permutation.
Require Import Verif.Outcome Verif.Machine Verif.BitsSpec.
Require Import Verif.SimpleModel Verif.SimpleSpec Verif.SimpleView.
Require Import Verif.SimpleExamples Verif.SimpleRefuted Verif.PastProofs Verif.PastRefuted.
Import ListNotations.
Open Scope Z_scope.
Open Scope res_scope.

(** C145: two histories of the same resource, with any calls, after which the same blocks are
    lent out.  next_index(), prev_index() and in_use() of the regions and both counters agree,
    and so does everything that happens from then on to a client whose requests the search
    serves as it should ([careful]). *)
Theorem C145_same_live_partial : forall c up s ops1 ops2 s1 s2 es1 es2,
  history c up s ops1 s1 es1 -> history c up s ops2 s2 es2 ->
  Forall (plain_op (BS c)) ops1 -> Forall (plain_op (BS c)) ops2 ->
  (forall es es', es1 = es ++ es' -> well_granted c s (live es)) ->
  (forall es es', es2 = es ++ es' -> well_granted c s (live es)) ->
  Permutation (map (granted (BS c)) (live es1)) (map (granted (BS c)) (live es2)) ->
  exists rs, regions_of s1 rs /\ regions_of s2 rs /\ tiling (bc s) rs /\ freec s1 = freec s2 /\ busyc s1 = busyc s2 /\
    forall fuel ops, (Z.to_nat (bc s) < fuel)%nat ->
      valid_client (data s) (BS c) (bc s) up false (careful (data s) (BS c) (bc s)) any_order rs ops ->
      exists t1 t2 es, run c fuel s1 ops = Ok (t1, es) /\ run c fuel s2 ops = Ok (t2, es).
Proof. exact same_live. Qed.
Print Assumptions C145_same_live_partial.

(** in particular memory can be given back in any order *)
Theorem C145_any_order_partial : forall c up s ops s' es ps qs, history c up s ops s' es -> Forall (plain_op (BS c)) ops ->
  (forall es1 es2, es = es1 ++ es2 -> well_granted c s (live es1)) ->
  NoDup ps -> incl ps (map fst (live es)) -> Permutation ps qs ->
  exists rs, tiling (bc s) rs /\
    forall fuel, exists t1 t2, run c fuel s' (map ODeallocate ps) = Ok (t1, map (fun p => EDeallocate p []) ps) /\
      run c fuel s' (map ODeallocate qs) = Ok (t2, map (fun p => EDeallocate p []) qs) /\
      regions_of t1 rs /\ regions_of t2 rs /\ freec t1 = freec t2 /\ busyc t1 = busyc t2 /\
      forall fuel2 ops2, (Z.to_nat (bc s) < fuel2)%nat ->
        valid_client (data s) (BS c) (bc s) up false (careful (data s) (BS c) (bc s)) any_order rs ops2 ->
        exists u1 u2 es2, run c fuel2 t1 ops2 = Ok (u1, es2) /\ run c fuel2 t2 ops2 = Ok (u2, es2).
Proof. exact any_order_same. Qed.
Print Assumptions C145_any_order_partial.

(** Not for every request: two blocks have been given back in one order or the other, nothing
    has been granted twice, the same is live and the regions are the same.  The next request never
    returns in the one case, and in the other gets memory that is in use. *)
Theorem C145_order_refuted : forall dbg, exists c s ops1 ops2 s1 s2 es1 es2 rs size, DBG c = dbg /\ Permutation ops1 ops2 /\
  history c false s ops1 s1 es1 /\ history c false s ops2 s2 es2 /\
  Forall (plain_op (BS c)) ops1 /\ Forall (plain_op (BS c)) ops2 /\
  (forall es es', es1 = es ++ es' -> well_granted c s (live es)) /\
  (forall es es', es2 = es ++ es' -> well_granted c s (live es)) /\
  live es1 = live es2 /\ regions_of s1 rs /\ regions_of s2 rs /\
  (forall ans, never_returns (fun fuel => allocate_impl c fuel s1 size 1 ans)) /\
  forall ans, exists t p, allocate_impl c 50 s2 size 1 ans = Ok (t, p, []) /\
    exists a, In a (live es2) /\ ~ disjoint a (p, size).
Proof. exact order_matters. Qed.
Print Assumptions C145_order_refuted.

(** the two histories of the refutation meet the hypotheses of C145_same_live_partial; here is a
    request that both serve alike, and the blocks given back in both orders *)
Example C145_instance : forall dbg, 
  history (conf 8 dbg) false (fresh 4096 8 false) (two_orders 4096 4100) (upwards dbg) (two_orders_seen 4096 4100) /\
  history (conf 8 dbg) false (fresh 4096 8 false) (two_orders 4100 4096) (downwards dbg) (two_orders_seen 4100 4096) /\
  live (two_orders_seen 4096 4100) = [(4104, 1)] /\ live (two_orders_seen 4100 4096) = [(4104, 1)] /\
  nxt (upwards dbg) 1 = 2 /\ nxt (downwards dbg) 1 = 0 /\
  (exists t1 t2, run (conf 8 dbg) 50 (upwards dbg) [get 7; get 19] = Ok (t1, [EAllocate 7 1 4096 []; EAllocate 19 1 4108 []]) /\
     run (conf 8 dbg) 50 (downwards dbg) [get 7; get 19] = Ok (t2, [EAllocate 7 1 4096 []; EAllocate 19 1 4108 []])).
Proof.
  intros dbg. split; [apply upwards_history|]. split; [apply downwards_history|]. do 2 (split; [reflexivity|]).
  destruct dbg; (split; [vm_compute; reflexivity|]); (split; [vm_compute; reflexivity|]);
    (do 2 eexists; split; vm_compute; reflexivity).
Qed.

(** and a client of the kind both theorems speak of *)
Example C145_client_instance :
  valid_client 4096 4 8 false false (careful 4096 4 8) any_order left_over [get 7; ODeallocate 4096] /\
  (forall dbg, regions_of (upwards dbg) left_over) /\ (forall dbg, regions_of (downwards dbg) left_over).
Proof.
  assert (C0 : can_hold 4096 4 (Reg 0 2 false) 7 1) by (exists 4096; cbn; split; [lia|split; [exists 4096; lia|lia]]).
  split; [|split; intros dbg; [apply (wf_tiles _ _ _ (upwards_wf dbg))|apply (wf_tiles _ _ _ (downwards_wf dbg))]].
  cbn [valid_client]. split.
  - right. split; [lia|]. split; [exact pow2_1|]. split; [|discriminate]. split; [lia|]. split.
    + left. apply SimpleOpProofs.reach_divides; try lia; [exact pow2_1|exists 4096; reflexivity].
    + split.
      * intros l f t E F N. destruct l as [|r0 [|r1 [|r2 l]]]; inversion E; subst; auto; try discriminate F; exfalso;
          [|destruct l; discriminate].
        apply (N (Reg 0 2 false)); [left; auto|reflexivity|exact C0].
      * intros l f t [E [F [C N]]]. destruct l as [|r0 l]; [inversion E; subst; exists 4096; cbn; split; [lia|split; [exists 4096; lia|lia]]|].
        inversion E; subst. exfalso. apply (N (Reg 0 2 false)); [left; auto|reflexivity|exact C0].
  - intros rs' e H. split; [|intros; exact I].
    inversion H as [|? ? ? ? l f t q i ? P FF FA Q T B| | | | | |]; subst; try discriminate;
      try (exfalso; match goal with X : nothing_fits _ _ _ _ _ |- _ => apply (X (Reg 0 2 false)); [left; auto|reflexivity|exact C0] end).
    destruct FF as [E [F [C N]]].
    assert (l = []).
    { destruct l as [|r0 l]; auto. inversion E; subst. exfalso. apply (N (Reg 0 2 false)); [left; auto|reflexivity|exact C0]. }
    subst l. inversion E; subst. destruct FA as [A1 [A2 A3]]. unfold region_addr in A1, A3. cbn [rstart] in A1, A3.
    assert (X := A3 4096 ltac:(lia) ltac:(exists 4096; lia)). assert (i = 0) by lia. subst i.
    right. left. exists (Reg 0 (7 / 4 + 1) true). split; [|split; [reflexivity|split; [exact I|reflexivity]]].
    assert (Y : In (Reg 0 (7 / 4 + 1) true) (busy rs')) by (rewrite B; left; reflexivity).
    unfold busy in Y. apply filter_In in Y. tauto.
Qed.
