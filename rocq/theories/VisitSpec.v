(** Expressions and calls of a callable.  Nothing here refers to the model. *)

Require Import List Bool.
Import ListNotations.

(** an expression of object type: the type (a number), whether it is const, its value category *)
Inductive category := Lvalue | Xvalue | Prvalue.
Record expr := Expr { type_of : nat; const_of : bool; category_of : category }.

(** a type of a variable or a tuple element: possibly const, possibly a reference *)
Inductive reference := NoRef | LRef | RRef.
Record type_ := Type_ { base : nat; is_const : bool; ref : reference }.

(** what a call [f(x)] of a callable gives: nothing or a value for which the comma operator is the
    built-in one; or a value of a class with a comma operator of its own, whose result can
    ([true]) or cannot ([false]) initialise an int in braces *)
Inductive answer := Plain | OwnComma (int_ : bool).

(** a callable type: for each expression denoting the callable and each argument, whether the call
    compiles and what it gives *)
Definition callable := expr -> expr -> option answer.

(** what happens: a call; a call of a comma operator of the user's *)
Inductive event := Called (f x : expr) | Comma (x : expr).

(** an expression bound to a reference and handed on as it was: temporaries become xvalues *)
Definition handed_on (e : expr) : expr :=
  Expr (type_of e) (const_of e) (match category_of e with Lvalue => Lvalue | _ => Xvalue end).

(** the calls f(x), for all arguments, from left to right, and nothing else; [None]: some call
    does not compile *)
Definition calls_each (F : callable) (f : expr) (xs : list expr) (r : option (list event)) : Prop :=
  (r <> None <-> forall x, In x xs -> F f x <> None) /\
  forall es, r = Some es -> es = map (Called f) xs.

(** the value of no call has a comma operator of its own *)
Definition no_commas (F : callable) : Prop := forall f x i, F f x <> Some (OwnComma i).

(** the element of a tuple as a subexpression: [std::get<i>(t)] for a tuple expression t; an element
    that is a reference denotes the object referred to *)
Definition element (t : expr) (e : type_) : expr :=
  match ref e with
  | NoRef => Expr (base e) (is_const e || const_of t) (match category_of t with Lvalue => Lvalue | _ => Xvalue end)
  | LRef => Expr (base e) (is_const e) Lvalue
  | RRef => Expr (base e) (is_const e) (match category_of t with Lvalue => Lvalue | _ => Xvalue end)
  end.

(** a callable that can be called on an lvalue wherever it can on an rvalue, with the same result *)
Definition lvalue_callable (F : callable) : Prop :=
  forall t c k x, F (Expr t c k) x = F (Expr t c Lvalue) x.

(** the call compiles, and so does a comma with an int after it, which gives an int *)
Definition passes (F : callable) (f x : expr) : Prop := exists a, F f x = Some a /\ a <> OwnComma false.

(** what [f(x), 0] does *)
Definition seen (F : callable) (f x : expr) : list event :=
  Called f x :: match F f x with Some (OwnComma _) => [Comma x] | _ => [] end.

(** the callable as a named object *)
Definition named (f : expr) : expr := Expr (type_of f) (const_of f) Lvalue.

(** a callable whose call operator has && *)
Definition rvalues_only : callable := fun f _ => match category_of f with Lvalue => None | _ => Some Plain end.

(** a callable whose result has a comma operator *)
Definition streams (int_ : bool) : callable := fun _ _ => Some (OwnComma int_).
