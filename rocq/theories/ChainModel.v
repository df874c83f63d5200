(** Chains of memory resources: the upstream of each is the next one. *)

Require Import ZArith List Bool.
Require Import Verif.Outcome Verif.SimpleSpec Verif.MonoModel Verif.SimpleModel Verif.WorldModel Verif.ChainSpec.
Import ListNotations.
Open Scope Z_scope.
Open Scope res_scope.

(** no code: the calls of the upstream that a call makes (simple_resource.h:323-327, 353-356,
    monotonic_buffer_resource.h:84-88) *)
Definition calls_of (e : event) : list upcall :=
  match e with EAllocate _ _ _ calls => calls | EDeallocate _ calls => calls | ERelease => [] end.
(** no code: the pointer an allocate returned (memory.h:184-192) *)
Definition pointer_of (e : event) : Z := match e with EAllocate _ _ p _ => p | _ => 0 end.

(** simple_resource.h:283-332 and monotonic_buffer_resource.h:61-91 with
    upstream_->allocate(aSize, aAlignment) (simple_resource.h:323-327,
    monotonic_buffer_resource.h:84-88) being a call of the next resource.  The code looks at
    the upstream's answer only after it has asked, so what it asks is found by running it
    with null for the answer; [fuel] is for each search. *)
Fixpoint chain_allocate (dbg : bool) (fuel : nat) (l : list body) (size align : Z) : res (list body * Z) :=
  match l with
  | [] => UB
  | b :: up =>
    ' (b1, e1) <- body_step dbg fuel b (OAllocate size align (fun _ _ => 0));;
    match calls_of e1 with
    | UpAllocate sz al :: _ =>
      ' (up', q) <- chain_allocate dbg fuel up sz al;;
      ' (b2, e2) <- body_step dbg fuel b (OAllocate size align (fun _ _ => q));;
      Ok (b2 :: up', pointer_of e2)
    | _ => Ok (b1 :: up, pointer_of e1)
    end
  end.

(** simple_resource.h:334-373 with upstream_->deallocate(p) being a call of the next
    resource; monotonic_buffer_resource.h:93 makes none *)
Fixpoint chain_deallocate (dbg : bool) (fuel : nat) (l : list body) (p : Z) : res (list body) :=
  match l with
  | [] => UB
  | b :: up =>
    ' (b1, e1) <- body_step dbg fuel b (ODeallocate p);;
    match calls_of e1 with
    | UpDeallocate q :: _ => up' <- chain_deallocate dbg fuel up q;; Ok (b1 :: up')
    | _ => Ok (b1 :: up)
    end
  end.

(** simple_resource.h:214-219, monotonic_buffer_resource.h:58: release() concerns only the
    resource itself *)
Definition chain_step (dbg : bool) (fuel : nat) (l : list body) (o : chain_op) : res (list body * Z) :=
  match o with
  | ChAllocate size align => chain_allocate dbg fuel l size align
  | ChDeallocate p => l' <- chain_deallocate dbg fuel l p;; Ok (l', 0)
  | ChRelease =>
    match l with [] => UB | b :: up => ' (b', _) <- body_step dbg fuel b ORelease;; Ok (b' :: up, 0) end
  end.

(** a client's history: each call names the resource of the chain it is made on (memory.h:184-200) *)
Fixpoint chain_run (dbg : bool) (fuel : nat) (l : list body) (ops : list (nat * chain_op)) : res (list body * list Z) :=
  match ops with
  | [] => Ok (l, [])
  | (n, o) :: ops' =>
    ' (l1, p) <- from n (fun l => chain_step dbg fuel l o) l;;
    ' (l2, ps) <- chain_run dbg fuel l1 ops';;
    Ok (l2, p :: ps)
  end.
