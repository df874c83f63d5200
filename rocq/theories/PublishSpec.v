(** Happens-before and data races among threads that share one atomic object, as in C++17
    [intro.races].  Nothing here refers to the model. *)

Require Import ZArith List Bool.
Import ListNotations.

Inductive order : Type := Relaxed | Acquire | Release | AcqRel | SeqCst.

(** What a thread does: it reads or writes ([write]) the object at address [x], or it
    operates on the atomic object.  A load has [read = true] and stores nothing, a store has
    [read = false], a read-modify-write operation reads and stores; [seen] is the value the
    atomic object had. *)
Inductive act : Type :=
| Plain (write : bool) (x : Z)
| Atomic (o : order) (read : bool) (stored : option Z) (seen : Z).

(** An execution: what the threads do, in an order in which every operation on the atomic
    object sees what the last one before it stored. *)
Definition trace : Type := list (nat * act).

Definition does (tr : trace) (i t : nat) (a : act) : Prop := nth_error tr i = Some (t, a).

(** the operation at [i], by thread [t], changes the atomic object *)
Definition modifies (tr : trace) (i t : nat) : Prop :=
  exists o read v seen, does tr i t (Atomic o read (Some v) seen).

(** the release sequence headed by [a] (made by thread [t]) goes on up to [b]: every
    modification after [a] is made by the same thread or reads what it replaces *)
Definition release_sequence (tr : trace) (a t b : nat) : Prop :=
  (a <= b)%nat /\ modifies tr a t /\ (exists u, modifies tr b u) /\
  forall c u o read v seen, (a < c <= b)%nat -> does tr c u (Atomic o read (Some v) seen) ->
    u = t \/ read = true.

(** [j] sees what [b] stored *)
Definition reads_from (tr : trace) (b j : nat) : Prop :=
  (b < j)%nat /\ (exists u, modifies tr b u) /\
  (exists u o stored seen, does tr j u (Atomic o true stored seen)) /\
  forall c u, (b < c < j)%nat -> ~ modifies tr c u.

Definition releases (o : order) : bool := match o with Release | AcqRel | SeqCst => true | _ => false end.
Definition acquires (o : order) : bool := match o with Acquire | AcqRel | SeqCst => true | _ => false end.

Definition synchronizes (tr : trace) (a j : nat) : Prop :=
  exists t o read v seen u o' stored' seen' b,
    does tr a t (Atomic o read (Some v) seen) /\ releases o = true /\
    does tr j u (Atomic o' true stored' seen') /\ acquires o' = true /\
    release_sequence tr a t b /\ reads_from tr b j.

Inductive happens_before (tr : trace) : nat -> nat -> Prop :=
| hb_thread : forall i j t a b, does tr i t a -> does tr j t b -> (i < j)%nat -> happens_before tr i j
| hb_sync : forall i j, synchronizes tr i j -> happens_before tr i j
| hb_trans : forall i j k, happens_before tr i j -> happens_before tr j k -> happens_before tr i k.

Definition race (tr : trace) (i j : nat) : Prop :=
  exists t u x v w, does tr i t (Plain v x) /\ does tr j u (Plain w x) /\ t <> u /\ (v = true \/ w = true) /\
    ~ happens_before tr i j /\ ~ happens_before tr j i.

(** thread [u] has been given the address [r] by the atomic object at [k] *)
Definition received (tr : trace) (k u : nat) (r : Z) : Prop :=
  exists o stored, does tr k u (Atomic o true stored r).

(** How resources are handed over.  Every resource has a thread that makes it ([None]: made
    before the threads start).  Only that thread writes to it, and it does not write after
    it has stored its address.  Every other thread uses the resource, or stores its
    address, only after it has been given the address. *)
Definition hands_over (creator : Z -> option nat) (tr : trace) : Prop :=
  (forall i t x, does tr i t (Plain true x) -> creator x = Some t) /\
  (forall i j t r o read seen, does tr i t (Plain true r) -> does tr j t (Atomic o read (Some r) seen) -> (i < j)%nat) /\
  (forall j u w r, does tr j u (Plain w r) -> creator r = Some u \/ creator r = None \/ exists k, (k < j)%nat /\ received tr k u r) /\
  (forall j u r o read seen, does tr j u (Atomic o read (Some r) seen) ->
     creator r = Some u \/ creator r = None \/ exists k, (k < j)%nat /\ received tr k u r).
