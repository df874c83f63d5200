(** Classes and their members, and what a user expects the member checkers of
    function_traits.h to say.  Nothing here depends on the model. *)

Require Import List Bool Arith String.
Require Import Verif.TraitsSpec.
Import ListNotations.
Open Scope string_scope.

(** what a name of a class can stand for: a type, a data member (a bit-field or not), a
    static data member, or a set of overloaded functions *)
Inductive decl :=
| DType (t : ty)
| DData (t : ty) (bitfield : bool)
| DStaticData (t : ty)
| DFunctions (l : list overload).

(** the result of looking a name up in a class: the class that declares it (a base
    perhaps), whether it is accessible (for functions each overload says so itself) and
    what it is.  None: the class has no such name, or it is ambiguous *)
Record found := Found { f_owner : nat; f_public : bool; f_decl : decl }.
Definition classes := nat -> string -> option found.

(** ** What the checkers should say of a type and a name *)

Definition names_type (K : classes) (t : ty) (x : string) (u : ty) : Prop :=
  exists k o, class_type t k /\ K k x = Some (Found o true (DType u)).

Definition names_data (K : classes) (t : ty) (x : string) : Prop :=
  exists k o u b, class_type t k /\ K k x = Some (Found o true (DData u b)).

Definition names_static_data (K : classes) (t : ty) (x : string) : Prop :=
  exists k o u, class_type t k /\ K k x = Some (Found o true (DStaticData u)).

(** [t] has a non-static (or static) accessible member function [x] of the function
    type [f], or of [f] with noexcept added *)
Definition with_noexcept (f : ty) : ty :=
  match f with
  | Fun r a e q => Fun r a e (Quals (q_const q) (q_volatile q) (q_ref q) true)
  | _ => f
  end.

Definition has_function (K : classes) (static : bool) (t : ty) (x : string) (f : ty) : Prop :=
  exists k o p l m, class_type t k /\ K k x = Some (Found o p (DFunctions l)) /\ In m l /\
  o_public m = true /\ o_static m = static /\ (o_type m = f \/ o_type m = with_noexcept f).

(** a parameter type loses its top-level const and volatile when a function type is
    formed *)
Fixpoint param (t : ty) : ty := match t with Cv _ t => param t | _ => t end.

(** the suffix that names the qualifiers [q]: _const, _volatile, _ref or _rref, and
    _noexcept in this order *)
Definition suffix (q : quals) : string :=
  (if q_const q then "_const" else "") ++ (if q_volatile q then "_volatile" else "") ++
  (match q_ref q with RefNone => "" | RefL => "_ref" | RefR => "_rref" end) ++
  (if q_noexcept q then "_noexcept" else "").

(** ** Well-formed classes *)

(** two member functions that could not be overloads of each other: the same parameters,
    const, volatile and reference qualifier *)
Definition clash (a b : ty) : Prop :=
  match a, b with
  | Fun _ x e q, Fun _ y e' q' => x = y /\ e = e' /\ without_noexcept q = without_noexcept q'
  | _, _ => False
  end.

(** overloads are functions, none a template, and no two clash; data members are no
    functions *)
Definition wf_classes (K : classes) : Prop := forall k x o p d, K k x = Some (Found o p d) ->
  match d with
  | DType _ => True
  | DData u _ => forall r a e q, u <> Fun r a e q
  | DStaticData u => forall r a e q, u <> Fun r a e q
  | DFunctions l =>
      (forall m, In m l -> o_template m = false /\ exists r a e q, o_type m = Fun r a e q) /\
      ForallOrdPairs (fun a b => ~ clash (o_type a) (o_type b)) l
  end.

(** the data members whose address a program can take *)
Definition no_reference (u : ty) : Prop := match u with LRef _ | RRef _ => False | _ => True end.
