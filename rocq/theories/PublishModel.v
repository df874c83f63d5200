(** Threads that hand resources over through the default resource of memory/memory.h. *)

Require Import ZArith List Bool.
Require Import Verif.AllocSpec Verif.AllocModel Verif.PublishSpec.
Import ListNotations.

(** A call of set_default_resource or get_default_resource, or a use of the resource at [x]
    that only reads it, or one that writes it (its construction, a call that changes it,
    its destruction). *)
Inductive pcall : Type := PSet (r : Z) | PGet | PUse (write : bool) (x : Z).

(** memory/memory.h:226-227: default_resource is a std::atomic; 301-305
    set_default_resource is exchange(aResource), a read-modify-write operation, 307-310
    get_default_resource is load(); both with the default order std::memory_order_seq_cst.
    The values are those of AllocModel.reg_step. *)
Definition publish_step (v : Z) (c : pcall) : Z * act :=
  match c with
  | PSet r => let (v', old) := reg_step v (RSet r) in (v', Atomic SeqCst true (Some r) old)
  | PGet => let (v', seen) := reg_step v RGet in (v', Atomic SeqCst true None seen)
  | PUse w x => (v, Plain w x)
  end.

(** Threads with programs [prog] under a schedule.  The order of the operations on the
    atomic object is the one sequentially consistent operations have; where the other
    accesses stand between them plays no part in happens-before. *)
Fixpoint publish_run (v : Z) (prog : nat -> list pcall) (sched : list nat) : trace :=
  match sched with
  | [] => []
  | t :: sched' =>
    match prog t with
    | [] => publish_run v prog sched'
    | c :: rest =>
      let (v1, a) := publish_step v c in
      (t, a) :: publish_run v1 (fun u => if Nat.eqb u t then rest else prog u) sched'
    end
  end.
