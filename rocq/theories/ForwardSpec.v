(** What it means for an argument to arrive at a constructor.  Nothing here refers to the
    model. *)

Require Import List Bool.
Import ListNotations.

Inductive category : Type := LValue | RValue.

(** an argument: its type (a number), whether it is const, whether it is an lvalue or an
    rvalue *)
Record argument : Type := Arg { of_type : nat; is_const : bool; cat : category }.

(** what arrives for it: an argument again, which designates the caller's own object or a
    temporary made from it on the way *)
Record arrival : Type := Arrives { as_arg : argument; own_object : bool }.

(** the argument arrives as it is *)
Definition unchanged (a : argument) : arrival := Arrives a true.

(** how the types of a program are related: X derives from T; an lvalue or an rvalue of
    the possibly const type X converts to T *)
Record types : Type := Types
  { derives : nat -> nat -> bool;
    converts : argument -> nat -> bool }.

(** X is T or a class derived from it *)
Definition is_a (W : types) (X T : nat) : Prop := X = T \/ derives W X T = true.

(** a type can be initialised from arguments: not at all, or by a constructor of which is
    known whether it is noexcept *)
Definition constructors := list argument -> option bool.
