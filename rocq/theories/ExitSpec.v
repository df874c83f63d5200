(** Objects with static storage duration that use the resources of memory.h, from start-up
    to exit.  Nothing here depends on the model. *)

Require Import List.
Import ListNotations.

(** What code does with resources.  A resource is the one object behind one of the functions
    system_memory_resource, null_memory_resource of one translation unit: they are numbered. *)
Inductive use : Type :=
| Call (r : nat)        (* calls the function of resource r and uses the resource *)
| UseDefault            (* uses the resource that get_default_resource returns *)
| SetDefault (r : nat). (* calls the function of r and makes it the default resource; the
                           initialisation of the default resource is one of these *)

(** Until exit: uses, anywhere in constructors and in main, and the completion of the
    constructors of objects with static storage duration *)
Inductive event : Type :=
| Do (u : use)
| Complete (x : nat).

(** A program: what happens until exit, and what the destructor of each object does.  At exit
    the objects are destroyed in the reverse order of their completion. *)
Record program : Type := Program { until_exit : list event; destructor : nat -> list use }.

Definition completed (l : list event) : list nat :=
  flat_map (fun e => match e with Complete x => [x] | Do _ => [] end) l.

(** the function of [r] is called in [l] *)
Definition called (r : nat) (l : list event) : Prop := In (Do (Call r)) l \/ In (Do (SetDefault r)) l.

(** the default resource after [l]; [None]: not initialised yet *)
Fixpoint default_after (d : option nat) (l : list event) : option nat :=
  match l with
  | [] => d
  | Do (SetDefault r) :: l' => default_after (Some r) l'
  | _ :: l' => default_after d l'
  end.

(** the resource a use after [l] is about *)
Definition meant (l : list event) (u : use) : option nat :=
  match u with Call r | SetDefault r => Some r | UseDefault => default_after None l end.

(** what happens from the completion of an object to its destructor, if [after] happens from
    there to exit: that, and the destructors of the objects completed in [after], the latest
    first *)
Definition meanwhile (p : program) (after : list event) : list event :=
  after ++ flat_map (fun y => map Do (destructor p y)) (rev (completed after)).

(** Until exit the default resource is only used when it is initialised.  In a destructor a
    resource is only used whose function was called before the completion of the object, or
    was not called from then to the destructor. *)
Definition well_timed (p : program) : Prop :=
  (forall before u after, until_exit p = before ++ Do u :: after -> meant before u <> None) /\
  (forall before x after us u us', until_exit p = before ++ Complete x :: after ->
    destructor p x = us ++ u :: us' ->
    exists r, meant (before ++ Complete x :: meanwhile p after ++ map Do us) u = Some r /\
      (called r before \/ ~ called r (meanwhile p after))).
