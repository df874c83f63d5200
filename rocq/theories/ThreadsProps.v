(** Threads and memory resources.  The specification is ThreadsSpec.v. *)

Require Import ZArith List Bool Arith Lia.
Require Import Verif.Outcome Verif.Machine Verif.BitsSpec Verif.BitsModel Verif.SimpleSpec.
Require Import Verif.SimpleModel Verif.MonoModel Verif.WorldModel Verif.ThreadsSpec Verif.ThreadsModel.
Require Import Verif.ThreadsProofs.
Import ListNotations.
Open Scope Z_scope.

(** C125: Threads that share no buffer do not disturb each other. *)

(** Every thread has resources of its own, over upstreams of its own or over shared resources
    that have no buffer, and every thread alone gets through.  Then under every schedule all of
    them get through, without a data race, and each thread sees, call by call, and leaves its
    resources exactly as if it were alone. *)
Theorem C125_separate : forall links dbg fuel owner n W prog sched,
  own_resources links owner prog ->
  (forall x b, owner x = None -> W x = Some b -> bufferless b) ->
  (forall t, exists r, threads_run links dbg fuel n W (only t prog) sched = Ok r) ->
  exists W' es log,
    threads_run links dbg fuel n W prog sched = Ok (W', es, log) /\ race_free log /\
    forall t, exists V',
      threads_run links dbg fuel n W (only t prog) sched = Ok (V', of_thread t es, accesses_of t log) /\
      forall x, owner x = Some t -> W' x = V' x.
Proof. exact separate_threads. Qed.
Print Assumptions C125_separate.

(** two threads, each with a monotonic buffer of 64 bytes over the same resource without a buffer *)
Definition two_buffers : store :=
  fun x => match x with
           | O => Some (BMono (Mono 4096 64 true 4096))
           | 1%nat => Some (BMono (Mono 8192 64 true 8192))
           | 2%nat => Some (BMono (Mono 0 0 true 0))
           | _ => None
           end.
Definition two_links : nat -> link := fun x => match x with 2%nat => SystemUpstream | _ => Upstream 2 end.
Definition two_owners : nat -> option nat := fun x => match x with O => Some 0%nat | 1%nat => Some 1%nat | _ => None end.
Definition two_programs : nat -> list call :=
  fun t => match t with
           | O => [(0%nat, OAllocate 3 1 (fun _ _ => 70000)); (0%nat, OAllocate 8 8 (fun _ _ => 70000))]
           | 1%nat => [(1%nat, OAllocate 64 1 (fun _ _ => 80000)); (1%nat, OAllocate 8 8 (fun _ _ => 80000))]
           | _ => []
           end.
Example C125_separate_instance :
  own_resources two_links two_owners two_programs /\
  (forall x b, two_owners x = None -> two_buffers x = Some b -> bufferless b) /\
  (forall t, exists r, threads_run two_links true 10 5 two_buffers (only t two_programs) [0; 1; 1; 0]%nat = Ok r) /\
  match threads_run two_links true 10 5 two_buffers two_programs [0; 1; 1; 0]%nat with
  | Ok (_, es, log) =>
    es = [(0, (0, EAllocate 3 1 4096 [])); (1, (1, EAllocate 64 1 8192 []));
          (1, (1, EAllocate 8 8 80000 [UpAllocate 8 8])); (0, (0, EAllocate 8 8 4104 []))]%nat /\
    log = [(0, 0, true); (1, 1, true); (1, 1, false); (1, 2, false); (0, 0, true)]%nat
  | _ => False
  end.
Proof.
  split; [|split; [|split]].
  - split.
    + intros [|[|[|x]]] y E; cbn in *; try discriminate E; injection E as <-; auto.
    + intros [|[|t]] x o I; cbn in I; [| |tauto]; destruct I as [I|[I|[]]]; injection I as <- _; auto.
  - intros [|[|[|x]]] b O E; cbn in *; try discriminate; injection E as <-; reflexivity.
  - intros [|[|t]].
    + vm_compute. eauto.
    + vm_compute. eauto.
    + cbn. eauto.
  - vm_compute. split; reflexivity.
Qed.

(** Whatever the resources and programs: in every execution without a data race, every thread
    sees what it would see alone, and leaves what it accessed as it would alone. *)
Theorem C125_race_free : forall links dbg fuel sched n W prog W' es log,
  threads_run links dbg fuel n W prog sched = Ok (W', es, log) -> race_free log ->
  forall t, exists V',
    threads_run links dbg fuel n W (only t prog) sched = Ok (V', of_thread t es, accesses_of t log) /\
    forall x w, In (t, x, w) log -> W' x = V' x.
Proof. exact as_alone. Qed.
Print Assumptions C125_race_free.

(** two threads sharing a resource both only pass on from *)
Example C125_race_free_instance :
  let prog := fun t : nat => match t with
    | O => [(2%nat, OAllocate 16 8 (fun _ _ => 70000))]
    | 1%nat => [(2%nat, ODeallocate 5); (1%nat, OAllocate 8 8 (fun _ _ => 80000))]
    | _ => []
    end in
  match threads_run two_links true 10 5 two_buffers prog [1; 0; 1]%nat with
  | Ok (_, es, log) => log = [(1, 2, false); (0, 2, false); (1, 1, true)]%nat /\
      of_thread 0%nat es = [(0, (2, EAllocate 16 8 70000 [UpAllocate 16 8]))]%nat
  | _ => False
  end.
Proof. vm_compute. split; reflexivity. Qed.

(** A call of a resource over the C library is what the other theorems speak of: a call of
    the code of its class, with the answer the library gives. *)
Theorem C125_call : forall links dbg fuel n W x b o b1 e1,
  W x = Some b -> links x = SystemUpstream -> body_step dbg fuel b o = Ok (b1, e1) ->
  linked_step links dbg fuel (S n) W x o = Ok (store_put W x b1, e1, [(x, writes dbg b o (calls_of e1))]).
Proof. exact library_step. Qed.
Print Assumptions C125_call.

Example C125_call_instance :
  match body_step true 10 (BMono (Mono 0 0 true 0)) (OAllocate 16 8 (fun _ _ => 70000)) with
  | Ok (_, e) => e = EAllocate 16 8 70000 [UpAllocate 16 8]
  | _ => False
  end.
Proof. vm_compute. reflexivity. Qed.

(** A call that is passed on is the call of the upstream: the same request, and the upstream's
    pointer is what the caller gets. *)
Theorem C125_chain : forall links dbg fuel n W x y o W' e l c cs,
  linked_step links dbg fuel (S n) W x o = Ok (W', e, l) -> links x = Upstream y -> calls_of e = c :: cs ->
  exists W1 eu w lu, l = (x, w) :: lu /\ (forall z, z <> x -> W' z = W1 z) /\ pointer_of e = pointer_of eu /\
    match c, o with
    | UpAllocate size align, OAllocate _ _ ans => linked_step links dbg fuel n W y (OAllocate size align ans) = Ok (W1, eu, lu)
    | UpDeallocate p, ODeallocate _ => linked_step links dbg fuel n W y (ODeallocate p) = Ok (W1, eu, lu)
    | _, _ => False
    end.
Proof. exact step_through. Qed.
Print Assumptions C125_chain.

Example C125_chain_instance :
  match linked_step two_links true 10 5 two_buffers 1%nat (OAllocate 65 1 (fun _ _ => 80000)) with
  | Ok (_, e, _) => calls_of e = [UpAllocate 65 1] /\ pointer_of e = 80000 /\ two_links 1%nat = Upstream 2
  | _ => False
  end.
Proof. vm_compute. repeat split. Qed.

(** An object a call does not say it writes is unchanged. *)
Theorem C125_unwritten : forall links dbg fuel n W x o W' e l,
  linked_step links dbg fuel n W x o = Ok (W', e, l) -> forall z, ~ In (z, true) l -> W' z = W z.
Proof. exact step_writes. Qed.
Print Assumptions C125_unwritten.

Example C125_unwritten_instance :
  match linked_step two_links true 10 5 two_buffers 1%nat (OAllocate 65 1 (fun _ _ => 80000)) with
  | Ok (_, e, l) => e = EAllocate 65 1 80000 [UpAllocate 65 1] /\ l = [(1, false); (2, false)]%nat
  | _ => False
  end.
Proof. vm_compute. split; reflexivity. Qed.

(** Which calls only read the object they are made on: on a null resource all; deallocations
    and requests without a buffer or of no bytes on monotonic buffers; on a simple resource
    requests of no bytes or without a buffer, deallocations of null and those passed on. *)
Theorem C125_marks : forall links dbg fuel n W x o W' e l b,
  linked_step links dbg fuel n W x o = Ok (W', e, l) -> W x = Some b ->
  exists w l', l = (x, w) :: l' /\
    match b, e with
    | BNull, _ => w = false
    | BMono s, EAllocate size _ _ _ => size = 0 \/ mdata s = 0 -> w = false
    | BMono _, EDeallocate _ _ => w = false
    | BMono _, ERelease => w = true
    | BSimple _ _ s, EAllocate size _ _ _ => w = false <-> size = 0 \/ data s = 0
    | BSimple _ _ _, EDeallocate p calls => w = false <-> p = 0 \/ calls <> []
    | BSimple _ _ _, ERelease => w = true
    end.
Proof. exact step_marks. Qed.
Print Assumptions C125_marks.

Example C125_marks_instance :
  match body_step true 10 (BSimple 2 16 (St 0 0 true (fun _ => 0) (fun _ => 0) (fun _ => false) 0 0)) (ODeallocate 64) with
  | Ok (_, e) => e = EDeallocate 64 [UpDeallocate 64]
  | _ => False
  end.
Proof. vm_compute. reflexivity. Qed.

(** The condition is needed: the resources have no lock.  For every monotonic buffer and
    every request it can serve, two threads making the request at once may both get the same
    memory. *)
Theorem C125_shared_refuted : forall s size align ans s' p, size <> 0 -> mdata s <> 0 -> p <> 0 ->
  mono_allocate false s size align ans = Ok (s', p, []) ->
  exists sched,
    fst (small_run s (fun _ => (size, align)) (fun _ => Start) sched) = s' /\
    snd (small_run s (fun _ => (size, align)) (fun _ => Start) sched) 0%nat = Done p /\
    snd (small_run s (fun _ => (size, align)) (fun _ => Start) sched) 1%nat = Done p.
Proof. exact small_shared. Qed.
Print Assumptions C125_shared_refuted.

(** the steps are those of the function: run without interruption they are the call *)
Theorem C125_steps : forall s want t size align ans,
  want t = (size, align) -> size <> 0 -> mdata s <> 0 -> mup s = false ->
  forall s' p calls, mono_allocate false s size align ans = Ok (s', p, calls) ->
  fst (small_run s want (fun _ => Start) [t; t; t]) = s' /\
  snd (small_run s want (fun _ => Start) [t; t; t]) t = Done p.
Proof. exact small_alone. Qed.
Print Assumptions C125_steps.

Example C125_shared_instance :
  mono_allocate false (Mono 4096 64 false 4099) 8 8 (fun _ _ => 0) = Ok (Mono 4096 64 false 4112, 4104, []).
Proof. vm_compute. reflexivity. Qed.

(** and what a thread gets need not even be aligned as it asked for *)
Theorem C125_misaligned_refuted : exists s want sched p,
  snd (want 0%nat) = 8 /\ snd (small_run s want (fun _ => Start) sched) 0%nat = Done p /\ p <> 0 /\ ~ Z.divide 8 p.
Proof. exact small_misaligned. Qed.
Print Assumptions C125_misaligned_refuted.
