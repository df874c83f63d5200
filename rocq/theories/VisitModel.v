(** for_each_arg and for_each_in_tuple (common.h:648-661) with the types and value categories of
    what they pass on. *)

Require Import List Bool.
Require Import Verif.VisitSpec.
Import ListNotations.

(** deduction of T for a parameter T&& ([temp.deduct.call]) *)
Definition deduce (e : expr) : type_ :=
  Type_ (type_of e) (const_of e) (match category_of e with Lvalue => LRef | _ => NoRef end).
(** T&& and T& after reference collapsing ([dcl.ref]) *)
Definition rref (t : type_) : type_ :=
  Type_ (base t) (is_const t) (match ref t with LRef => LRef | _ => RRef end).
Definition lref (t : type_) : type_ := Type_ (base t) (is_const t) LRef.
(** const T: no effect on references *)
Definition add_const (t : type_) : type_ :=
  match ref t with NoRef => Type_ (base t) true NoRef | _ => t end.
(** a call that returns a type: an expression of category by its reference *)
Definition returned (t : type_) : expr :=
  Expr (base t) (is_const t) (match ref t with LRef => Lvalue | RRef => Xvalue | NoRef => Prvalue end).
(** std::forward<T>(x) returns T&&; the name of a variable of type t is an lvalue *)
Definition forward (t : type_) : expr := returned (rref t).
Definition name (t : type_) : expr := Expr (base t) (is_const t) Lvalue.

(** one element [(std::forward<F>(f)(std::forward<Ts>(ts)), 0)] of the braced list of ints
    (common.h:652) *)
Definition visit (F : callable) (f x : expr) : option (list event) :=
  match F f x with
  | None => None
  | Some Plain => Some [Called f x]
  | Some (OwnComma true) => Some [Called f x; Comma x]
  | Some (OwnComma false) => None
  end.
Fixpoint visit_all (F : callable) (f : expr) (xs : list expr) : option (list event) :=
  match xs with
  | [] => Some []
  | x :: xs' =>
    match visit F f x, visit_all F f xs' with
    | Some es, Some es' => Some (es ++ es')
    | _, _ => None
    end
  end.

(** common.h:648-653 for_each_arg *)
Definition for_each_arg (F : callable) (f : expr) (xs : list expr) : option (list event) :=
  visit_all F (forward (deduce f)) (map (fun x => forward (deduce x)) xs).

(** std::get<i>(t) for an element of type e of a tuple ([tuple.elem]): E&, E&&, const E& or
    const E&& *)
Definition get (t : expr) (e : type_) : expr :=
  let e := if const_of t then add_const e else e in
  returned (match category_of t with Lvalue => lref e | _ => rref e end).

(** common.h:655-661 for_each_in_tuple: std::apply calls the lambda with std::get<i>(t) of the
    forwarded tuple; [f] in the lambda names what the parameter F&& refers to; its parameters
    auto&& are deduced from the elements *)
Definition for_each_in_tuple (F : callable) (f t : expr) (elements : list type_) : option (list event) :=
  let xs := map (get (forward (deduce t))) elements in
  let params := map deduce xs in
  for_each_arg F (name (rref (deduce f))) (map (fun p => forward p) params).
