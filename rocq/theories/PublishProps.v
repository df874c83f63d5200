(** Properties C130, C131: resources handed over between threads as default resource. *)

Require Import ZArith List Bool Lia Arith.
Require Import Verif.AllocSpec Verif.AllocModel Verif.PublishSpec Verif.PublishModel Verif.PublishProofs.
Import ListNotations.

(** C130: [v] is the default resource when the threads start *)
Theorem C130_publish : forall creator v prog sched, creator v = None ->
  let tr := publish_run v prog sched in hands_over creator tr ->
  (forall i j, ~ race tr i j) /\
  (forall i j t u w x, does tr i t (Plain true x) -> does tr j u (Plain w x) -> t <> u -> happens_before tr i j).
Proof. exact handed_over. Qed.
Print Assumptions C130_publish.

(** every call of set_default_resource synchronizes with every later call of
    set_default_resource or get_default_resource *)
Theorem C130_synchronizes : forall v prog sched a t o read r seen j u o' read' stored' seen',
  let tr := publish_run v prog sched in
  does tr a t (Atomic o read (Some r) seen) -> does tr j u (Atomic o' read' stored' seen') -> (a < j)%nat ->
  synchronizes tr a j.
Proof. exact set_synchronizes. Qed.
Print Assumptions C130_synchronizes.

(** and nothing else orders the threads *)
Theorem C130_exact : forall v prog sched, let tr := publish_run v prog sched in
  forall i j t u w w' x y, does tr i t (Plain w x) -> does tr j u (Plain w' y) -> t <> u ->
  (happens_before tr i j <->
   exists k m r old stored seen, (i < k)%nat /\ (k < m)%nat /\ (m < j)%nat /\
     does tr k t (Atomic SeqCst true (Some r) old) /\ does tr m u (Atomic SeqCst true stored seen)).
Proof. exact ordered_exactly. Qed.
Print Assumptions C130_exact.

(** thread 0 makes the resource at 1 and publishes it, thread 1 gets it and publishes it
    again after another resource, thread 2 gets it from there; all three use it *)
Definition relay_prog : nat -> list pcall :=
  fun t => match t with
           | O => [PUse true 1; PUse true 1; PSet 1; PUse false 1]
           | 1%nat => [PGet; PSet 5; PSet 1; PUse false 1]
           | 2%nat => [PGet; PUse false 1]
           | _ => []
           end.
Definition relay_creator (r : Z) : option nat := if Z.eqb r 1 then Some 0%nat else None.
Example C130_instance :
  let tr := publish_run 0 relay_prog [0; 0; 0; 1; 1; 1; 2; 0; 2; 1]%nat in
  relay_creator 0 = None /\ hands_over relay_creator tr /\
  does tr 1 0 (Plain true 1) /\ does tr 8 2 (Plain false 1) /\ happens_before tr 1 8.
Proof.
  cbv zeta. split; [reflexivity|].
  assert (H : hands_over relay_creator (publish_run 0 relay_prog [0; 0; 0; 1; 1; 1; 2; 0; 2; 1]%nat)).
  { assert (E : publish_run 0 relay_prog [0; 0; 0; 1; 1; 1; 2; 0; 2; 1]%nat =
      [(0, Plain true 1); (0, Plain true 1); (0, Atomic SeqCst true (Some 1%Z) 0); (1, Atomic SeqCst true None 1);
       (1, Atomic SeqCst true (Some 5%Z) 1); (1, Atomic SeqCst true (Some 1%Z) 5); (2, Atomic SeqCst true None 1);
       (0, Plain false 1); (2, Plain false 1); (1, Plain false 1)]%nat) by reflexivity.
    rewrite E. clear E. unfold hands_over, received, does. split; [|split; [|split]].
    - intros i t x D. do 10 (destruct i as [|i]; [cbn in D; try discriminate D; injection D as <- <-; reflexivity|]). destruct i; discriminate D.
    - intros i j t r o read seen D K.
      do 2 (destruct i as [|i]; [do 2 (destruct j as [|j]; [discriminate K|]); lia|]).
      do 8 (destruct i as [|i]; [discriminate D|]). destruct i; discriminate D.
    - intros j u w r D.
      do 10 (destruct j as [|j]; [cbn in D; try discriminate D; injection D as <- <- <-; try (left; reflexivity);
        try (right; right; exists 3%nat; split; [lia|do 2 eexists; reflexivity]);
        try (right; right; exists 6%nat; split; [lia|do 2 eexists; reflexivity])|]).
      destruct j; discriminate D.
    - intros j u r o read seen D.
      do 10 (destruct j as [|j]; [cbn in D; try discriminate D; injection D as <- <- <- <- <-; try (left; reflexivity);
        try (right; left; reflexivity); try (right; right; exists 3%nat; split; [lia|do 2 eexists; reflexivity])|]).
      destruct j; discriminate D. }
  split; [exact H|]. split; [reflexivity|]. split; [reflexivity|].
  eapply (proj2 (handed_over relay_creator 0 relay_prog _ eq_refl H)); [reflexivity|reflexivity|discriminate].
Qed.

(** C131: a resource that set_default_resource has returned is not free to be destroyed,
    although the other thread has long finished with it *)
Theorem C131_refuted : exists prog sched, let tr := publish_run 0 prog sched in
  does tr 2 1 (Atomic SeqCst true None 1) /\ does tr 3 1 (Plain false 1) /\
  does tr 4 0 (Atomic SeqCst true (Some 2%Z) 1) /\ does tr 5 0 (Plain true 1) /\ race tr 3 5.
Proof. exact retire_race. Qed.
Print Assumptions C131_refuted.

(** whatever the programs: a thread that only ever calls get_default_resource races with
    every later destruction of what it uses *)
Theorem C131_get_refuted : forall v prog sched, let tr := publish_run v prog sched in
  forall i j t u w x, (i < j)%nat -> does tr i t (Plain w x) -> does tr j u (Plain true x) -> t <> u ->
  (forall r, ~ In (PSet r) (prog t)) -> race tr i j.
Proof. exact get_is_not_enough. Qed.
Print Assumptions C131_get_refuted.

(** exactly: it is free if the user itself has called set_default_resource after its use,
    and the destroying thread one of the two functions after that *)
Theorem C131_exact_partial : forall v prog sched, let tr := publish_run v prog sched in
  forall i j t u w x, (i < j)%nat -> does tr i t (Plain w x) -> does tr j u (Plain true x) -> t <> u ->
  (~ race tr i j <->
   exists k m r old stored seen, (i < k)%nat /\ (k < m)%nat /\ (m < j)%nat /\
     does tr k t (Atomic SeqCst true (Some r) old) /\ does tr m u (Atomic SeqCst true stored seen)).
Proof. exact retired_exactly. Qed.
Print Assumptions C131_exact_partial.

(** thread 1 says that it is done by putting back another resource *)
Example C131_instance :
  let prog := fun t : nat => match t with
    | O => [PUse true 1; PSet 1; PSet 2; PUse true 1]
    | 1%nat => [PGet; PUse false 1; PSet 3]
    | _ => []
    end in
  publish_run 0 prog [0; 0; 1; 1; 1; 0; 0]%nat =
  [(0, Plain true 1); (0, Atomic SeqCst true (Some 1%Z) 0); (1, Atomic SeqCst true None 1); (1, Plain false 1);
   (1, Atomic SeqCst true (Some 3%Z) 1); (0, Atomic SeqCst true (Some 2%Z) 3); (0, Plain true 1)]%nat.
Proof. reflexivity. Qed.
