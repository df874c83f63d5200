(** The arguments of memory/allocator.h construct and new_object. *)

Require Import List Bool PeanoNat.
Require Import Verif.ForwardSpec.
Import ListNotations.

Section Forward.
  Variable W : types.

  (** [std::forward<T>(x)] for an expression [x], as allocator.h:40 uses it: T is the
      allocator's value type (const when [k]), not the type of the argument.  The
      parameter of the first overload, T&, binds to an object that is a T or derives from
      it and is not const unless T is; the parameter of the second, T&&, binds to rvalues
      of those, or to a temporary T made from anything that converts to it.  Either way
      the result is an rvalue of T.  Other expressions are ill-formed ([None]).
      Conversion functions to references and volatile are not modelled. *)
  Definition forward_as (T : nat) (k : bool) (x : argument) : option arrival :=
    if Nat.eqb (of_type x) T || derives W (of_type x) T then
      if implb (is_const x) k then Some (Arrives (Arg T k RValue) true) else None
    else if converts W x T then Some (Arrives (Arg T k RValue) false) else None.

  (** the name of a parameter is an lvalue, whatever it was bound to *)
  Definition named (a : argument) : argument := Arg (of_type a) (is_const a) LValue.

  (** no code: the expansion of a pack (allocator.h:40, 71) is well-formed when each element is *)
  Fixpoint all_some {A : Type} (l : list (option A)) : option (list A) :=
    match l with
    | [] => Some []
    | Some x :: l' => match all_some l' with Some xs => Some (x :: xs) | None => None end
    | None :: _ => None
    end.

  (** allocator.h:37-41 construct: what the constructor of U receives *)
  Definition construct_args (T : nat) (k : bool) (args : list argument) : option (list arrival) :=
    all_some (map (fun a => forward_as T k (named a)) args).

  (** allocator.h:64-74 new_object (71: [construct(ptr, aArgs...)] names its parameters) *)
  Definition new_object_args (T : nat) (k : bool) (args : list argument) : option (list arrival) :=
    construct_args T k (map named args).

  (** The constructor of U that construct calls (allocator.h:38-40): [None] if the call does
      not compile, else whether that constructor is noexcept *)
  Definition construct_calls (U : constructors) (T : nat) (k : bool) (args : list argument) : option bool :=
    match construct_args T k args with
    | Some res => U (map as_arg res)
    | None => None
    end.

  (** the same for new_object, whose static_assert (allocator.h:67) is about the arguments
      of the caller; that U's destructor must not throw either is not modelled *)
  Definition new_object_calls (U : constructors) (T : nat) (k : bool) (args : list argument) : option bool :=
    match U args with
    | Some true => construct_calls U T k (map named args)
    | _ => None
    end.
End Forward.
