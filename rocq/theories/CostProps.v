(** Property C133: how long the calls of simple_resource take. *)

Require Import ZArith List.
Require Import Verif.Outcome Verif.SimpleSpec Verif.SimpleModel Verif.SimpleView Verif.SimpleRefuted
  Verif.CostSpec Verif.CostProofs.
Import ListNotations.
Open Scope Z_scope.

(** C133, allocate: a call that returns comes to each block at most once, whatever the state
    of the resource; how often its loop may go round makes no other difference.  The blocks
    are those of the buffer; a release build, which does not check indices against their number,
    is bounded by MaxBlockCount. *)
Theorem C133_allocate_partial : forall c fuel s size align ans x, allocate_impl c fuel s size align ans = Ok x ->
  exists k, (k <= Z.to_nat (if DBG c then bc s else MB c))%nat /\
    takes (fun n => allocate_impl c n s size align ans) k /\
    forall n, (k <= n)%nat -> allocate_impl c n s size align ans = Ok x.
Proof. exact allocate_rounds. Qed.
Print Assumptions C133_allocate_partial.

(** release(): once through the blocks for each block given back, and once more *)
Theorem C133_release_partial : forall c fuel s s', release c fuel s = Ok s' ->
  exists k, let blocks := if DBG c then bc s else MB c in
    (k <= (number (inuse s) blocks + 1) * Z.to_nat blocks)%nat /\
    takes (fun n => release c n s) k /\ forall n, (k <= n)%nat -> release c n s = Ok s'.
Proof. exact release_rounds. Qed.
Print Assumptions C133_release_partial.

(** what it takes when every block is an allocation of its own, whatever the history *)
Theorem C133_pool_partial : forall c buffer size up s fuel ops s' es, made c buffer size up s ->
  (enough (bc s) <= fuel)%nat -> 2 * BS c <= 2 ^ 64 -> single_block_client (data s) (BS c) (bc s) up ops ->
  run c fuel s ops = Ok (s', es) -> busyc s' = bc s -> 2 <= bc s ->
  takes (fun f => release c f s') (1 + Z.to_nat (bc s * (bc s - 1) / 2)).
Proof. exact pool_release_rounds. Qed.
Print Assumptions C133_pool_partial.

(** so not in proportion to the number of blocks: in every resource with two blocks or more of
    two bytes or more, as many requests of a byte as there are blocks lead to a release() that
    takes half the square of that number *)
Theorem C133_refuted : forall c buffer size up s fuel, made c buffer size up s -> (enough (bc s) <= fuel)%nat ->
  1 < BS c -> 2 * BS c <= 2 ^ 64 -> 2 <= bc s ->
  exists s' es, run c fuel s (repeat (OAllocate 1 1 (fun _ _ => 0)) (Z.to_nat (bc s))) = Ok (s', es) /\
    busyc s' = bc s /\ takes (fun f => release c f s') (1 + Z.to_nat (bc s * (bc s - 1) / 2)).
Proof. exact release_quadratic. Qed.
Print Assumptions C133_refuted.

Example C133_instance : forall dbg,
  let c := conf 8 dbg in let s := fresh 4096 8 false in
  made c 4096 32 false s /\ 1 < BS c /\ 2 * BS c <= 2 ^ 64 /\
  (let s' := after c s (repeat (get 1) 8) in
   busyc s' = 8 /\ release c 28 s' = Hang /\
   match release c 29 s' with Ok s2 => busyc s2 = 0 | _ => False end /\
   allocate_impl c 7 s' 1 1 (fun _ _ => 0) = Hang /\
   match allocate_impl c 8 s' 1 1 (fun _ _ => 0) with Ok (_, p, _) => p = 0 | _ => False end /\
   number (inuse s') 8 = 8%nat).
Proof.
  intros dbg. split; [exact (made_8 dbg)|]. split; [reflexivity|]. split; [vm_compute; discriminate|].
  cbv zeta. destruct dbg; (split; [vm_compute; reflexivity|]); (split; [vm_compute; reflexivity|]);
  (split; [vm_compute; reflexivity|]); (split; [vm_compute; reflexivity|]); (split; [vm_compute; reflexivity|]);
  vm_compute; reflexivity.
Qed.
