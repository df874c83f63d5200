(** Threads that use memory resources without any synchronisation of their own.  Nothing here
    refers to the model. *)

Require Import ZArith List Bool Arith.
Require Import Verif.SimpleSpec.
Import ListNotations.

(** where a resource passes on what it cannot serve: nowhere, to the C library (whose functions
    any number of threads may call), or to the resource [y] *)
Inductive link : Type := NoUpstream | SystemUpstream | Upstream (y : nat).

(** a call of the resource [x]; for an allocation, [op] says what the C library would answer *)
Definition call : Type := (nat * op)%type.

(** An access: the thread, the resource object, and whether the object may be written. *)
Definition access : Type := (nat * nat * bool)%type.

(** No object is accessed by two threads and written by one of them. *)
Definition race_free (log : list access) : Prop :=
  forall t u x v w, In (t, x, v) log -> In (u, x, w) log -> t <> u -> v = false /\ w = false.

(** the program in which only thread [t] does anything *)
Definition only {A} (t : nat) (prog : nat -> list A) : nat -> list A :=
  fun u => if Nat.eqb u t then prog t else [].

(** what a thread did and saw: the entries of thread [t], in order *)
Definition of_thread {A} (t : nat) (l : list (nat * A)) : list (nat * A) :=
  filter (fun e => Nat.eqb (fst e) t) l.
Definition accesses_of (t : nat) (l : list access) : list access :=
  filter (fun a => Nat.eqb (fst (fst a)) t) l.

(** Every resource belongs to one thread or ([None]) is shared.  A thread calls its own
    resources and the shared ones, but does not release shared ones; the upstream of a
    resource belongs to the same thread or is shared. *)
Definition own_resources (links : nat -> link) (owner : nat -> option nat) (prog : nat -> list call) : Prop :=
  (forall x y, links x = Upstream y -> owner y = owner x \/ owner y = None) /\
  (forall t x o, In (x, o) (prog t) -> owner x = Some t \/ owner x = None /\ o <> ORelease).
