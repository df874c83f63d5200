(** Model of which arguments the constructor of timer accepts (timer.h:24-43, 88-113):
    a computable account of the conditions under which an instantiation compiles.
    Callables with several call operators, volatile, pointers to members and classes that
    convert to a function pointer are not modelled. *)

Require Import Bool Arith.
Require Import Verif.AcceptSpec.

(** the argument of the call in is_invocable_r_v<void, Callable, duration> is an rvalue
    duration.  timer has an implicit constructor template that takes anything but a timer
    (timer.h:88-92), so a duration converts to a timer *)
Definition takes_duration (p : param) : bool :=
  match p with
  | ConstTimerRef | TimerValue | TimerRvalueRef | DurationValue => true
  | TimerRef | DurationRef => false
  end.
(** None: a hard error in the body of a generic callable, whose return type has to be
    deduced *)
Definition operator_takes_duration (p : operator_param) : option bool :=
  match p with
  | Plain p => Some (takes_duration p)
  | Generic true _ => Some true
  | Generic false _ => None
  end.

(** FinishCallback is deduced as a reference for an lvalue and as the class itself for an
    rvalue, const included: is_invocable_r_v<void, FinishCallback, duration> *)
Definition invocable_with_duration (a : argument) : option bool :=
  match a with
  | Function _ _ p | Pointer p => Some (takes_duration p)
  | Object f c l => if operator_fits f c l then operator_takes_duration (call_param f) else Some false
  end.

(** timer.h:20, 28 is_same_v<Callable, callback_ref_t>: the name of a noexcept function
    that takes a const timer & and returns void *)
Definition is_callback_ref (a : argument) : bool :=
  match a with
  | Function true true ConstTimerRef => true
  | _ => false
  end.

(** timer.h:24-35: what storable_t makes of the callback's type *)
Inductive stored : Type :=
| StoredPointer (p : param)
| StoredFunction                      (** a function type: there are no objects of it *)
| StoredObject (f : functor).

(** timer.h:24-35 storable_t: conditional_t instantiates both alternatives, so the
    enable_if_t is checked for callback_ref_t too *)
Definition storable (a : argument) : option stored :=
  match invocable_with_duration a with
  | Some true =>
      Some (match a with
            | Function _ _ p => if is_callback_ref a then StoredPointer p else StoredFunction
            | Pointer p => StoredPointer p
            | Object f _ _ => StoredObject f
            end)
  | _ => None
  end.

(** timer.h:37-42 call_finish_callback: the stored object, an lvalue that is not const,
    is called with a const Timer & *)
Definition call_compiles (s : stored) : bool :=
  match s with
  | StoredPointer p => takes_timer p
  | StoredFunction => false
  | StoredObject f => operator_fits f false true && operator_takes_timer (call_param f)
  end.

(** timer.h:92-113 the constructor: the static_asserts on alignment and size and the
    placement new of the stored type from the forwarded argument.  No function type can be
    the operand of new *)
Definition constructor_compiles (sz al ptr_size ptr_align : nat) (a : argument) : bool :=
  match storable a with
  | None => false
  | Some s =>
      call_compiles s &&
      match s with
      | StoredPointer _ => (ptr_align <=? al) && (ptr_size <=? sz)
      | StoredFunction => false
      | StoredObject f => (f_align f <=? al) && (f_size f <=? sz) &&
          match a with
          | Object _ c l => if l || c then copyable f else movable f
          | _ => true
          end
      end
  end.
