(** C++ types as far as function_traits.h and detector.h look at them, and what a
    user expects those traits to say.  Nothing here depends on the model. *)

Require Import List Bool Arith String.
Import ListNotations.

(** the reference qualifier of a function type *)
Inductive refq := RefNone | RefL | RefR.

(** the qualifiers a function type can carry: const, volatile, & or &&, noexcept *)
Record quals := Quals { q_const : bool; q_volatile : bool; q_ref : refq; q_noexcept : bool }.

Definition no_quals := Quals false false RefNone false.

(** const, volatile, const volatile *)
Inductive cvq := CvConst | CvVolatile | CvBoth.

(** types.  [Fund n] and [Class n] are the fundamental and the class types,
    [Cv c t] is [t] with a top-level const or volatile or both, [MemPtr k t] is
    [t (class k)::*] and [Fun r args e q] is the function type [r(args...) q], with
    a C ellipsis at the end of its parameters when [e].  Some of these are no types of
    C++ (a const reference, a pointer to a reference); the theorems hold for them too *)
Inductive ty : Type :=
| Fund (n : nat)
| Class (n : nat)
| Ptr (t : ty)
| LRef (t : ty)
| RRef (t : ty)
| Cv (c : cvq) (t : ty)
| MemPtr (k : nat) (t : ty)
| Fun (r : ty) (args : list ty) (e : bool) (q : quals).

(** the function type r(args...) with the qualifiers [q] *)
Definition fn (r : ty) (args : list ty) (q : quals) : ty := Fun r args false q.

(** function types without one of the qualifiers *)
Definition without_const (q : quals) := Quals false (q_volatile q) (q_ref q) (q_noexcept q).
Definition without_volatile (q : quals) := Quals (q_const q) false (q_ref q) (q_noexcept q).
Definition without_ref (q : quals) := Quals (q_const q) (q_volatile q) RefNone (q_noexcept q).
Definition without_noexcept (q : quals) := Quals (q_const q) (q_volatile q) (q_ref q) false.

(** what is declared under one name in a class: each overload has a function type,
    may be static, may be a template and may be inaccessible *)
Record overload := Overload { o_type : ty; o_static : bool; o_template : bool; o_public : bool }.

(** a program as far as C47 needs it: the call operators of each class, with the
    class that declares them *)
Record callops := CallOps { ops_owner : nat; ops_all : list overload }.

Definition program := nat -> callops.

(** a type is a class type, cv-qualified or not *)
Inductive class_type : ty -> nat -> Prop :=
| ct_plain : forall k, class_type (Class k) k
| ct_cv : forall c t k, class_type t k -> class_type (Cv c t) k.

(** the single accessible, non-template, non-static call operator of class [k] *)
Definition one_call_operator (P : program) (k : nat) (o : overload) : Prop :=
  ops_all (P k) = [o] /\ o_public o = true /\ o_template o = false /\ o_static o = false.

(** a type up to its top-level const and volatile *)
Inductive up_to_cv : ty -> ty -> Prop :=
| uc_same : forall t, up_to_cv t t
| uc_cv : forall c t u, up_to_cv t u -> up_to_cv (Cv c t) u.

(** the types C47 calls invocable *)
Inductive invocable (P : program) : ty -> Prop :=
| inv_function : forall r args e q, invocable P (Fun r args e q)
| inv_pointer : forall t r args e q, up_to_cv t (Ptr (Fun r args e q)) -> invocable P t
| inv_member : forall t k r args e q, up_to_cv t (MemPtr k (Fun r args e q)) -> invocable P t
| inv_functor : forall t k o, class_type t k -> one_call_operator P k o -> invocable P t.

(** the call operators of a C++17 program are functions and none is static *)
Definition cpp17 (P : program) : Prop :=
  forall k o, In o (ops_all (P k)) ->
  (exists r args e q, o_type o = Fun r args e q) /\ o_static o = false.

(** C++ has no pointer to a function type that has a cv or a reference qualifier *)
Definition pointee_ok (t : ty) : Prop :=
  match t with
  | Fun _ _ _ q => q_const q = false /\ q_volatile q = false /\ q_ref q = RefNone
  | _ => True
  end.

(** two shapes of types: a pointer type with a top-level const or
    volatile, and a pointer to a C-variadic function *)
Inductive missed : ty -> Prop :=
| missed_cv_pointer : forall c t u, up_to_cv t (Ptr u) -> missed (Cv c t)
| missed_cv_member : forall c t k u, up_to_cv t (MemPtr k u) -> missed (Cv c t)
| missed_variadic : forall r args q, missed (Ptr (Fun r args true q)).

(** one metafunction after another; None is a program that does not compile *)
Definition bind_ty (o : option ty) (f : ty -> option ty) : option ty :=
  match o with Some t => f t | None => None end.

