(** What the classes of the library say can be done with their objects.  The specification is
    OffersSpec.v. *)

Require Import Bool List ZArith.
Require Import Verif.OffersSpec Verif.OffersModel Verif.OffersProofs.
Import ListNotations.

(** C126: The classes say truthfully whether they can be constructed, copied, moved and assigned. *)

(** timers: moved only, never copied *)
Theorem C126_timer : forall d, let C := answers_of c_timer in
  says C d = (match d with Move | MoveAssign | Destroy => true | _ => false end) /\
  compiles C d = says C d /\ says_quiet C d = says C d.
Proof. exact timer_offers. Qed.
Print Assumptions C126_timer.

(** allocators: constructed and copied, never assigned *)
Theorem C126_allocator : forall d, let C := answers_of c_allocator in
  says C d = (match d with CopyAssign | MoveAssign => false | _ => true end) /\
  compiles C d = says C d /\ says_quiet C d = says C d.
Proof. exact allocator_offers. Qed.
Print Assumptions C126_allocator.

(** memory resources: not constructed from one another, but assigned (see C106, C107 for what that does) *)
Theorem C126_resources : forall c,
  In c [c_monotonic_buffer_resource; c_simple_resource; c_system_memory_resource; c_null_memory_resource] ->
  forall d, let C := answers_of c in
  says C d = (match d with Default | Copy | Move => false | _ => true end) /\
  compiles C d = says C d /\ says_quiet C d = says C d.
Proof. exact resource_offers. Qed.
Print Assumptions C126_resources.
Theorem C126_base : forall d, let C := answers_of c_memory_resource in
  says C d = (match d with Default | Copy | Move => false | _ => true end) /\
  compiles C d = says C d /\ says_quiet C d = says C d.
Proof. exact base_offers. Qed.
Print Assumptions C126_base.

(** a class derived from memory_resource has to call its constructor *)
Theorem C126_derived : forall mention ps, compiles (answers_of (c_holder mention (powers_of c_memory_resource :: ps))) Default = false.
Proof. exact derived_default. Qed.
Print Assumptions C126_derived.

(** Classes with members of the library, as of any other type, can do what the language makes of
    what their members can do. *)
Theorem C126_holder : forall mention ps d, let C := answers_of (c_holder mention ps) in
  says C d = holder_can mention ps d /\ compiles C d = holder_can mention ps d /\
  ((forall p, In p ps -> forall e, quiet p e = true) -> says_quiet C d = holder_can mention ps d) /\
  (forall p, In p ps -> quiet p Destroy = false -> constructs d = true -> says_quiet C d = false).
Proof. exact holder_offers. Qed.
Print Assumptions C126_holder.

(** a class with a timer and an allocator in it is moved with = default, never copied or assigned;
    one with a destructor of its own is not even moved *)
Example C126_holder_instance :
  let ps := [powers_of c_timer; powers_of c_allocator] in
  map (holder_can None ps) deeds = [false; false; true; false; false; true] /\
  map (holder_can (Some Destroy) ps) deeds = [false; false; false; false; false; true] /\
  map (holder_can (Some Move) [powers_of c_timer]) deeds = [false; false; true; false; false; true] /\
  map (holder_can None [powers_of c_timer]) deeds = [false; false; true; false; true; true].
Proof. vm_compute. repeat split. Qed.

(** a fast_pimpl of the right size can be used for exactly what T can be used for *)
Theorem C126_pimpl_partial : forall T size align d,
  compiles (answers_of (c_fast_pimpl T size align size align)) d = can T d.
Proof. exact pimpl_compiles. Qed.
Print Assumptions C126_pimpl_partial.

(** with a wrong size or alignment nothing that constructs or destroys one compiles *)
Theorem C126_misfit : forall T size align Size Alignment d, ~ (Size = size /\ Alignment = align) ->
  compiles (answers_of (c_fast_pimpl T size align Size Alignment)) d =
  (match d with CopyAssign | MoveAssign => able T d | _ => false end).
Proof. exact pimpl_misfit. Qed.
Print Assumptions C126_misfit.

(** but it says yes to everything: for a T that cannot be copied the answer is wrong *)
Theorem C126_refuted : forall T size align, can T Copy = false ->
  says (answers_of (c_fast_pimpl T size align size align)) Copy = true /\
  compiles (answers_of (c_fast_pimpl T size align size align)) Copy = false.
Proof. exact pimpl_not_copyable. Qed.
Print Assumptions C126_refuted.

(** its answers are right exactly if T can do everything *)
Theorem C126_exact_partial : forall T size align Size Alignment,
  truthful (answers_of (c_fast_pimpl T size align Size Alignment)) <->
  Size = size /\ Alignment = align /\ forall d, can T d = true.
Proof. exact pimpl_truthful. Qed.
Print Assumptions C126_exact_partial.

(** what is said about exceptions is what is said about T (but for destructors: C111) *)
Theorem C126_quiet_partial : forall T size align Size Alignment d, d <> Destroy ->
  says_quiet (answers_of (c_fast_pimpl T size align Size Alignment)) d = says_quiet (as_is T) d.
Proof. exact pimpl_quiet. Qed.
Print Assumptions C126_quiet_partial.

(** A consequence: a std::vector of T grows and one of fast_pimpls does not (or the other way
    round) exactly for classes that can be moved, with exceptions, and not copied. *)
Theorem C126_vector_refuted : forall T size align, let C := answers_of (c_fast_pimpl T size align size align) in
  vector_grows C <> vector_grows (as_is T) <->
  can T Move = true /\ can T Copy = false /\ (quiet T Move = false \/ quiet T Destroy = false).
Proof. exact pimpl_vector. Qed.
Print Assumptions C126_vector_refuted.

(** a class with a move constructor that may throw and no copy constructor *)
Definition move_only : powers := Powers (fun d => match d with Copy | CopyAssign => false | _ => true end)
                                        (fun d => match d with Move => false | _ => true end).
Example C126_instance : let C := answers_of (c_fast_pimpl move_only 8 8 8 8) in
  can move_only Move = true /\ can move_only Copy = false /\ quiet move_only Move = false /\
  vector_grows (as_is move_only) = true /\ vector_grows C = false /\
  vector_grows (answers_of c_timer) = true /\ vector_grows (answers_of c_simple_resource) = false.
Proof. vm_compute. repeat split. Qed.
