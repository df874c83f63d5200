(** Properties C81, C116: the arguments of construct and new_object
    (memory/allocator.h). *)

Require Import List Bool PeanoNat.
Require Import Verif.ForwardSpec Verif.ForwardModel Verif.ForwardProofs.
Import ListNotations.

(** C81: rvalues of the allocator's value type T (const when [k]) arrive as they are *)
Theorem C81_arguments_partial : forall W T k args, (forall a, In a args -> a = Arg T k RValue) ->
  new_object_args W T k args = Some (map unchanged args) /\
  construct_args W T k args = Some (map unchanged args).
Proof. exact unchanged_enough. Qed.
Print Assumptions C81_arguments_partial.

(** an lvalue of type T arrives as an rvalue of the same object, which the constructor may
    move from; a const T is rejected, an argument of an unrelated type arrives as a
    temporary T if it converts to T and is rejected if it does not *)
Theorem C81_arguments_refuted : forall W T,
  new_object_args W T false [Arg T false LValue] = Some [Arrives (Arg T false RValue) true] /\
  (forall k, new_object_args W T false [Arg T true k] = None) /\
  forall X c k kt, ~ is_a W X T ->
    new_object_args W T kt [Arg X c k] =
      if converts W (Arg X c LValue) T then Some [Arrives (Arg T kt RValue) false] else None.
Proof. exact not_forwarded. Qed.
Print Assumptions C81_arguments_refuted.

(** exactly: the arguments arrive as they are if and only if they all are rvalues of the
    value type itself *)
Theorem C81_unchanged_exact_partial : forall W T k args,
  (new_object_args W T k args = Some (map unchanged args) <-> forall a, In a args -> a = Arg T k RValue) /\
  (construct_args W T k args = Some (map unchanged args) <-> forall a, In a args -> a = Arg T k RValue).
Proof. exact arrive_unchanged. Qed.
Print Assumptions C81_unchanged_exact_partial.

(** and in general: construct and new_object pass on the same things, each an rvalue of T:
    the caller's object if it is a T (or derived from T) and not const unless T is, a
    temporary if it is of another type that converts to T; anything else is rejected *)
Theorem C81_exact_partial : forall W T k args res,
  (construct_args W T k args = Some res <-> new_object_args W T k args = Some res) /\
  (new_object_args W T k args = Some res <->
   Forall2 (fun a r => as_arg r = Arg T k RValue /\
     (is_a W (of_type a) T /\ (is_const a = true -> k = true) /\ own_object r = true \/
      ~ is_a W (of_type a) T /\ converts W (Arg (of_type a) (is_const a) LValue) T = true /\ own_object r = false))
     args res).
Proof. exact both_exact. Qed.
Print Assumptions C81_exact_partial.

(** value type 7; 8 derives from it, 9 converts to it, 10 does not; rvalues of 11 convert
    but lvalues do not *)
Definition example_types : types :=
  Types (fun X T => Nat.eqb X 8 && Nat.eqb T 7)
        (fun a T => Nat.eqb T 7 && (Nat.eqb (of_type a) 9 || Nat.eqb (of_type a) 11 &&
           match cat a with RValue => true | LValue => false end)).
Example C81_instance :
  construct_args example_types 7 false [Arg 7 false RValue; Arg 7 false LValue; Arg 8 false LValue; Arg 9 true RValue] =
    Some [Arrives (Arg 7 false RValue) true; Arrives (Arg 7 false RValue) true;
          Arrives (Arg 7 false RValue) true; Arrives (Arg 7 false RValue) false] /\
  new_object_args example_types 7 true [Arg 7 true LValue] = Some [Arrives (Arg 7 true RValue) true] /\
  new_object_args example_types 7 false [Arg 8 true LValue] = None /\
  new_object_args example_types 7 false [Arg 10 false RValue] = None /\
  construct_args example_types 7 false [Arg 11 false RValue] = None.
Proof. repeat split. Qed.

(** C116: with rvalues of the value type, new_object compiles exactly if U can be
    constructed from them without exceptions, and calls a constructor that is noexcept *)
Theorem C116_nothrow_partial : forall W U T k args, (forall a, In a args -> a = Arg T k RValue) ->
  (U args = Some true <-> exists b, new_object_calls W U T k args = Some b) /\
  forall b, new_object_calls W U T k args = Some b -> b = true.
Proof. exact nothrow_rvalues. Qed.
Print Assumptions C116_nothrow_partial.

(** with an lvalue the check looks at a constructor that is not called: here the copy is
    noexcept, and the constructor called, which moves, is not *)
Theorem C116_nothrow_refuted : forall W T,
  copies_quietly T [Arg T false LValue] = Some true /\
  new_object_calls W (copies_quietly T) T false [Arg T false LValue] = Some false.
Proof. exact nothrow_refuted. Qed.
Print Assumptions C116_nothrow_refuted.

(** and an argument that neither is a T nor converts to T is refused whatever U accepts *)
Theorem C116_refused_refuted : forall W T X c k kt, ~ is_a W X T -> converts W (Arg X c LValue) T = false ->
  forall U, construct_calls W U T kt [Arg X c k] = None /\ new_object_calls W U T kt [Arg X c k] = None.
Proof. exact refused. Qed.
Print Assumptions C116_refused_refuted.

(** exactly: new_object compiles if U can be constructed from the caller's arguments
    without exceptions, every argument can be passed on, and U can be constructed from as
    many rvalues of T; it calls the constructor for those, noexcept or not *)
Theorem C116_exact_partial : forall W U T k args b,
  new_object_calls W U T k args = Some b <->
  U args = Some true /\ (exists res, new_object_args W T k args = Some res) /\
  U (repeat (Arg T k RValue) (length args)) = Some b.
Proof. exact calls_new. Qed.
Print Assumptions C116_exact_partial.

(** construct does not look at exceptions at all *)
Theorem C116_construct_exact_partial : forall W U T k args b,
  construct_calls W U T k args = Some b <->
  (exists res, construct_args W T k args = Some res) /\ U (repeat (Arg T k RValue) (length args)) = Some b.
Proof. exact calls_construct. Qed.
Print Assumptions C116_construct_exact_partial.

(** a type made from two rvalues of 7 *)
Example C116_instance :
  let U : constructors := fun args => match args with [Arg 7 false RValue; Arg 7 false RValue] => Some true | _ => None end in
  new_object_calls example_types U 7 false [Arg 7 false RValue; Arg 7 false RValue] = Some true /\
  construct_calls example_types U 7 false [Arg 9 false LValue; Arg 8 false RValue] = Some true /\
  new_object_calls example_types U 7 false [Arg 9 false LValue; Arg 8 false RValue] = None /\
  construct_calls example_types U 7 false [Arg 10 false LValue; Arg 8 false RValue] = None.
Proof. repeat split. Qed.
