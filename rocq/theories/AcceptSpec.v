(** What can be handed to the constructor of timer, and what the language says about
    calling it.  Nothing here depends on the model. *)

Require Import Bool Arith.

(** the parameter of a callable with one parameter *)
Inductive param : Type :=
| ConstTimerRef                       (** const timer & *)
| TimerValue                          (** timer *)
| TimerRef                            (** timer & *)
| TimerRvalueRef                      (** timer && *)
| DurationValue                       (** timer::duration, also const and by const & or && *)
| DurationRef.                        (** timer::duration & *)

(** the parameter of a call operator, which may be a template: const auto &, with a body
    that compiles for a duration, for a timer *)
Inductive operator_param : Type :=
| Plain (p : param)
| Generic (with_duration with_timer : bool).

(** a const timer lvalue can be passed: a timer is not copied, and it does not convert
    to a duration *)
Definition takes_timer (p : param) : bool :=
  match p with
  | ConstTimerRef => true
  | _ => false
  end.
Definition operator_takes_timer (p : operator_param) : bool :=
  match p with
  | Plain p => takes_timer p
  | Generic _ with_timer => with_timer
  end.

Inductive ref_qualifier : Type := NoRef | Lvalue | Rvalue.

(** a class with one call operator *)
Record functor : Type := Functor
{ call_param : operator_param;
  call_const : bool;            (** operator() is const *)
  call_ref : ref_qualifier;
  copyable : bool;              (** copy constructible *)
  movable : bool;               (** constructible from an rvalue *)
  f_size : nat;
  f_align : nat }.

(** the argument of the constructor *)
Inductive argument : Type :=
| Function (returns_void is_noexcept : bool) (p : param)   (** the name of a function *)
| Pointer (p : param)                                      (** a function pointer, any category *)
| Object (f : functor) (is_const is_lvalue : bool).        (** an object with a call operator *)

(** [f] can be called on an object of the given constness and value category: an operator
    for lvalues can be called on an rvalue only when it is const *)
Definition operator_fits (f : functor) (is_const is_lvalue : bool) : bool :=
  (call_const f || negb is_const) &&
  match call_ref f with
  | NoRef => true
  | Lvalue => is_lvalue || call_const f
  | Rvalue => negb is_lvalue
  end.

(** after a copy or move of the argument into a place of size [sz] and alignment [al], the
    copy can be called with a const timer *)
Definition can_be_stored_and_called (sz al ptr_size ptr_align : nat) (a : argument) : Prop :=
  match a with
  | Function _ _ p | Pointer p => takes_timer p = true /\ ptr_size <= sz /\ ptr_align <= al
  | Object f c l => operator_takes_timer (call_param f) = true /\ operator_fits f false true = true /\
      (if l || c then copyable f else movable f) = true /\ f_size f <= sz /\ f_align f <= al
  end.
