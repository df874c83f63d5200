(** Property C102: which callables a timer accepts. *)

Require Import Bool Arith Lia.
Require Import Verif.AcceptSpec Verif.AcceptModel Verif.AcceptProofs.

(** C102.  Full statement: timer t(x) compiles exactly when a copy (or move) of x fits into
    the storage of the timer and can be called with a const timer.  True: whatever is
    accepted can be called. *)
Theorem C102_accepted_can_be_called_partial : forall sz al ptr_size ptr_align a,
  constructor_compiles sz al ptr_size ptr_align a = true ->
  can_be_stored_and_called sz al ptr_size ptr_align a.
Proof. exact accepted_storable. Qed.
Print Assumptions C102_accepted_can_be_called_partial.

(** exactly what is accepted *)
Theorem C102_exact_partial : forall sz al ptr_size ptr_align a,
  constructor_compiles sz al ptr_size ptr_align a = true <->
  can_be_stored_and_called sz al ptr_size ptr_align a /\
  match a with
  | Function returns_void is_noexcept p => returns_void = true /\ is_noexcept = true /\ p = ConstTimerRef
  | Pointer p => p = ConstTimerRef
  | Object f c l => operator_fits f c l = true /\ (call_param f = Plain ConstTimerRef \/ call_param f = Generic true true)
  end.
Proof. exact accepted_exact. Qed.
Print Assumptions C102_exact_partial.

(** the timer of the library: storage for a function pointer *)
Example C102_instance :
  let lambda := Functor (Plain ConstTimerRef) true NoRef true true 1 1 in
  constructor_compiles 8 8 8 8 (Function true true ConstTimerRef) = true /\
  constructor_compiles 8 8 8 8 (Pointer ConstTimerRef) = true /\
  constructor_compiles 8 8 8 8 (Object lambda false true) = true /\
  constructor_compiles 8 8 8 8 (Object lambda false false) = true /\
  can_be_stored_and_called 8 8 8 8 (Object lambda false true).
Proof. cbn. repeat split; auto; lia. Qed.

(** a function that is not noexcept, or that returns a value, is rejected when it is named,
    although a pointer to it is accepted *)
Theorem C102_function_name_refuted : forall sz al ptr_size ptr_align returns_void is_noexcept,
  returns_void && is_noexcept = false -> ptr_size <= sz -> ptr_align <= al ->
  can_be_stored_and_called sz al ptr_size ptr_align (Function returns_void is_noexcept ConstTimerRef) /\
  constructor_compiles sz al ptr_size ptr_align (Function returns_void is_noexcept ConstTimerRef) = false /\
  constructor_compiles sz al ptr_size ptr_align (Pointer ConstTimerRef) = true.
Proof.
  intros sz al ps pa v e H H1 H2. split; [cbn; auto|]. split.
  - destruct v, e; [discriminate| | |]; reflexivity.
  - apply accepted_exact. cbn. auto.
Qed.
Print Assumptions C102_function_name_refuted.

(** a generic lambda whose body needs a timer is rejected: it is tried with a duration *)
Theorem C102_generic_refuted : exists f, can_be_stored_and_called 8 8 8 8 (Object f false true) /\
  constructor_compiles 8 8 8 8 (Object f false true) = false.
Proof. exists (Functor (Generic false true) true NoRef true true 1 1). cbn. repeat split; auto; lia. Qed.
Print Assumptions C102_generic_refuted.

(** a const object whose call operator is not const is rejected, although the copy that
    is called is not const *)
Theorem C102_const_object_refuted : exists f, can_be_stored_and_called 8 8 8 8 (Object f true true) /\
  constructor_compiles 8 8 8 8 (Object f true true) = false /\
  constructor_compiles 8 8 8 8 (Object f false true) = true.
Proof. exists (Functor (Plain ConstTimerRef) false NoRef true true 1 1). cbn. repeat split; auto; lia. Qed.
Print Assumptions C102_const_object_refuted.
