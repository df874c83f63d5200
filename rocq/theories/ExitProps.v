(** Property C117: the resources of memory/memory.h from start-up to exit. *)

Require Import List.
Require Import Verif.Outcome Verif.ExitSpec Verif.ExitModel Verif.ExitProofs.
Import ListNotations.

(** ** C117 *)

(** what does hold: every object may use in its destructor the resources that its
    constructor, or anything before, has called for *)
Theorem C117_constructor_partial : forall p,
  (forall before u after, until_exit p = before ++ Do u :: after -> meant before u <> None) ->
  (forall before x after u, until_exit p = before ++ Complete x :: after -> In u (destructor p x) ->
    exists r, u = Call r /\ called r before) ->
  exists s, program_run p = Ok s.
Proof. exact constructor_used. Qed.
Print Assumptions C117_constructor_partial.

(** and the default resource, if it is initialised first and then left alone *)
Theorem C117_default_partial : forall p d rest, until_exit p = Do (SetDefault d) :: rest ->
  (forall r, ~ In (Do (SetDefault r)) rest) -> (forall x u, In u (destructor p x) -> u = UseDefault) ->
  exists s, program_run p = Ok s.
Proof. exact default_used. Qed.
Print Assumptions C117_default_partial.

(** but not one that was first called for after its constructor *)
Theorem C117_late_refuted : forall p before x after r us, until_exit p = before ++ Complete x :: after ->
  ~ called r before -> called r after -> destructor p x = Call r :: us -> program_run p = UB.
Proof. exact destroyed_first. Qed.
Print Assumptions C117_late_refuted.

(** exactly *)
Theorem C117_exact_partial : forall p,
  ((exists s, program_run p = Ok s) <-> well_timed p) /\ (~ well_timed p -> program_run p = UB).
Proof. exact exit_exact. Qed.
Print Assumptions C117_exact_partial.

(** resource 0 is the system resource of the unit that initialises the default resource, 1
    that of another unit.  Object 10 uses resource 1 in its constructor and its destructor *)
Definition early : program :=
  Program [Do (SetDefault 0); Do (Call 1); Complete 10; Do UseDefault; Complete 11; Do (Call 1)]
          (fun x => if Nat.eqb x 10 then [Call 1; Call 0] else [Call 1]).
Example C117_constructor_instance :
  (exists s, program_run early = Ok s) /\ called 1 [Do (SetDefault 0); Do (Call 1)] /\ called 0 [Do (SetDefault 0); Do (Call 1)].
Proof. split; [eexists; vm_compute; reflexivity|]. unfold called. cbn. auto. Qed.

Definition default_only : program :=
  Program [Do (SetDefault 0); Complete 10; Do UseDefault; Complete 11] (fun _ => [UseDefault; UseDefault]).
Example C117_default_instance : exists s, program_run default_only = Ok s.
Proof. eexists. vm_compute. reflexivity. Qed.

(** object 10 does not use resource 1 before its destructor, but main does *)
Definition late : program :=
  Program [Do (SetDefault 0); Complete 10; Do (Call 1)] (fun _ => [Call 1]).
Example C117_late_instance : program_run late = UB /\
  until_exit late = [Do (SetDefault 0)] ++ Complete 10 :: [Do (Call 1)].
Proof. split; reflexivity. Qed.

(** the destructor of object 11 runs first, calls for resource 1 for the first time, and
    resource 1 is destroyed before object 10.  Without object 11 all is well *)
Definition at_exit (objects : list nat) : program :=
  Program (Do (SetDefault 0) :: map Complete objects) (fun _ => [Call 1; Call 1]).
Example C117_exact_instance : program_run (at_exit [10; 11]) = UB /\ (exists s, program_run (at_exit [10]) = Ok s).
Proof. split; [reflexivity|]. eexists. vm_compute. reflexivity. Qed.
