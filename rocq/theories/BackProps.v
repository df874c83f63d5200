(** Properties C57, C58, C59: what holds as long as no block has been granted twice (and, in
    release builds, none behind the buffer), whatever the sizes and the order of calls. *)

Require Import ZArith Lia List Bool Permutation.
Require Import Verif.Outcome Verif.Machine Verif.BitsSpec.
Require Import Verif.SimpleModel Verif.SimpleSpec Verif.SimpleView.
Require Import Verif.SimpleHistProofs Verif.SimpleMainProofs Verif.SimpleKeepProofs Verif.SimpleExamples Verif.SimpleRefuted Verif.BackProofs.
Import ListNotations.
Open Scope Z_scope.
Open Scope res_scope.

(** C57: no two neighbours on the walk over next_index() are free *)
Theorem C57_until_overlap_partial : forall c up s ops s' es l i j t, history c up s ops s' es -> Forall (plain_op (BS c)) ops ->
  (forall es1 es2, es = es1 ++ es2 -> well_granted c s (live es1)) ->
  path (nxt s') 0 (l ++ i :: j :: t) -> inuse s' i = true \/ inuse s' j = true.
Proof. exact coalesced_until_overlap. Qed.
Print Assumptions C57_until_overlap_partial.

(** C59: free_count() and busy_count() count the free and the used blocks on that walk, and
    busy_count() the live allocations *)
Theorem C59_until_overlap_partial : forall c up s ops s' es l, history c up s ops s' es -> Forall (plain_op (BS c)) ops ->
  (forall es1 es2, es = es1 ++ es2 -> well_granted c s (live es1)) -> path (nxt s') 0 l ->
  freec s' = Z.of_nat (length (filter (fun i => negb (inuse s' i)) l)) /\
  busyc s' = Z.of_nat (length (filter (inuse s') l)) /\
  busyc s' = Z.of_nat (length (live es)).
Proof. exact counts_until_overlap. Qed.
Print Assumptions C59_until_overlap_partial.

(** C58: memory that does not overlap what is in use can be given back at once, and everything
    is as before *)
Theorem C58_until_overlap_partial : forall c up s ops s1 es fuel size align ans s2 p, history c up s ops s1 es ->
  Forall (plain_op (BS c)) ops -> (forall es1 es2, es = es1 ++ es2 -> well_granted c s (live es1)) ->
  0 <= size -> pow2 align -> align <= BS c -> size + align <= 2 ^ 64 ->
  allocate_impl c fuel s1 size align ans = Ok (s2, p, []) -> p <> 0 ->
  well_granted c s ((p, size) :: live es) ->
  exists s3 rs, deallocate_impl c s2 p = Ok (s3, []) /\ regions_of s1 rs /\ regions_of s3 rs /\ tiling (bc s) rs /\
    freec s3 = freec s1 /\ busyc s3 = busyc s1.
Proof. exact give_and_take_back. Qed.
Print Assumptions C58_until_overlap_partial.

(** C58 for any number of calls: when what they took has been given back (in any order, with
    other memory given back and taken again), everything is as before *)
Theorem C58_bracket_partial : forall c up s ops s1 es fuel ops' s2 es', history c up s ops s1 es -> Forall (plain_op (BS c)) ops ->
  (forall es1 es2, es = es1 ++ es2 -> well_granted c s (live es1)) ->
  Forall (plain_op (BS c)) ops' -> run c fuel s1 ops' = Ok (s2, es') -> polite (live es) es' ->
  (forall es1 es2, es' = es1 ++ es2 -> well_granted c s (live (es ++ es1))) ->
  Permutation (map (granted (BS c)) (live (es ++ es'))) (map (granted (BS c)) (live es)) ->
  exists rs, regions_of s1 rs /\ regions_of s2 rs /\ tiling (bc s) rs /\ freec s2 = freec s1 /\ busyc s2 = busyc s1 /\
    forall fuel2 ops2, (Z.to_nat (bc s) < fuel2)%nat ->
      valid_client (data s) (BS c) (bc s) up false (careful (data s) (BS c) (bc s)) any_order rs ops2 ->
      exists t1 t2 es2, run c fuel2 s1 ops2 = Ok (t1, es2) /\ run c fuel2 s2 ops2 = Ok (t2, es2).
Proof. exact bracket. Qed.
Print Assumptions C58_bracket_partial.

(** A history that leaves a gap, a request that fits into it, and two requests given back in the
    order they were made.  The last request of the history made the search go astray. *)
Definition gap_ops : list op := [get 9; get 1; get 9; ODeallocate 4108; get 29].
Definition gap_events : list event :=
  [EAllocate 9 1 4096 []; EAllocate 1 1 4108 []; EAllocate 9 1 4112 []; EDeallocate 4108 []; EAllocate 29 1 0 []].
Definition after_gap_ops : list op := [get 1; get 3; ODeallocate 4108; ODeallocate 4124].
Definition after_gap_events : list event :=
  [EAllocate 1 1 4108 []; EAllocate 3 1 4124 []; EDeallocate 4108 []; EDeallocate 4124 []].
Ltac settle := split; [
    repeat (apply pairwise_cons; split;
      [let Y := fresh in intros ? Y; cbn in Y;
       repeat (destruct Y as [<-|Y]; [unfold disjoint; cbn; lia|]); destruct Y|]);
    intros [|? [|]] ? ? ? ? X; discriminate X
  | intros _; repeat constructor; unfold inside; cbn; lia].
Example C58_until_overlap_instance : forall dbg, let c := conf 8 dbg in let s := fresh 4096 8 false in exists s1,
  history c false s gap_ops s1 gap_events /\ Forall (plain_op 4) gap_ops /\
  (forall es1 es2, gap_events = es1 ++ es2 -> well_granted c s (live es1)) /\
  path (nxt s1) 0 [0; 3; 4; 7] /\ freec s1 = 2 /\ busyc s1 = 2 /\
  (exists s2, allocate_impl c 50 s1 2 4 (fun _ _ => 0) = Ok (s2, 4108, []) /\ well_granted c s ((4108, 2) :: live gap_events)) /\
  (exists s2, Forall (plain_op 4) after_gap_ops /\ run c 50 s1 after_gap_ops = Ok (s2, after_gap_events) /\
     polite (live gap_events) after_gap_events /\
     (forall es1 es2, after_gap_events = es1 ++ es2 -> well_granted c s (live (gap_events ++ es1))) /\
     live (gap_events ++ after_gap_events) = live gap_events).
Proof.
  assert (P1 : pow2 1) by (exists 0; split; [lia|reflexivity]).
  intros dbg c s. eexists. split; [|split; [|split; [|split; [|split; [|split; [|split]]]]]].
  - exists 4096, 32, 50%nat. split; [apply made_8|]. split; [repeat constructor; cbn; auto; lia|].
    split; [destruct dbg; vm_compute; reflexivity|]. cbn. repeat split; auto.
  - repeat constructor; cbn; auto; lia.
  - intros es1 es2 E. unfold gap_events in E.
    destruct es1 as [|e1 [|e2 [|e3 [|e4 [|e5 [|e6 es1]]]]]]; cbn [app] in E; inversion E; subst; try discriminate;
      unfold well_granted; change (BS c) with 4; cbn; settle.
  - destruct dbg; vm_compute; repeat split; discriminate.
  - destruct dbg; reflexivity.
  - destruct dbg; reflexivity.
  - eexists. split; [destruct dbg; vm_compute; reflexivity|]. unfold well_granted; change (BS c) with 4; cbn; settle.
  - eexists. split; [repeat constructor; cbn; auto; lia|]. split; [destruct dbg; vm_compute; reflexivity|].
    split; [cbn; repeat split; auto|]. split; [|reflexivity].
    intros es1 es2 E. unfold after_gap_events in E.
    destruct es1 as [|e1 [|e2 [|e3 [|e4 [|e5 es1]]]]]; cbn [app] in E; inversion E; subst; try discriminate;
      unfold well_granted; change (BS c) with 4; cbn; settle.
Qed.
