(** Property C140: what for_each_arg and for_each_in_tuple hand on. *)

Require Import List Bool.
Require Import Verif.VisitSpec Verif.VisitModel Verif.VisitProofs.
Import ListNotations.

(** C140: the callable and every argument are handed on with their type, constness and value category:
    for_each_arg compiles if every call does, and makes these calls and does nothing else; for all
    callables but those whose result has a comma operator of its own *)
Theorem C140_args_partial : forall F f xs, no_commas F ->
  calls_each F (handed_on f) (map handed_on xs) (for_each_arg F f xs).
Proof. exact args_as_given. Qed.
Print Assumptions C140_args_partial.

(** the elements of a tuple arrive as those of the tuple expression, the callable as an lvalue *)
Theorem C140_tuple_partial : forall F f t elements, no_commas F ->
  calls_each F (named f) (map (element t) elements) (for_each_in_tuple F f t elements).
Proof. exact tuple_as_given. Qed.
Print Assumptions C140_tuple_partial.

(** so for callables that can be called as lvalues for_each_in_tuple accepts what for_each_arg accepts *)
Theorem C140_alike_partial : forall F f t elements, no_commas F -> lvalue_callable F ->
  (for_each_in_tuple F f t elements <> None <-> for_each_arg F f (map (element t) elements) <> None).
Proof. exact tuple_like_args. Qed.
Print Assumptions C140_alike_partial.

(** but a callable that can be called as an rvalue only is accepted by for_each_arg and rejected by
    for_each_in_tuple, for all tuples with at least one element *)
Theorem C140_rvalue_refuted : forall f t e elements, category_of f <> Lvalue ->
  for_each_arg rvalues_only f (map (element t) (e :: elements)) <> None /\
  for_each_in_tuple rvalues_only f t (e :: elements) = None.
Proof. exact rvalues_only_rejected. Qed.
Print Assumptions C140_rvalue_refuted.

(** and a comma operator of the result's class is called, or the call is rejected on its account *)
Theorem C140_comma_refuted : forall f x xs,
  for_each_arg (streams false) f (x :: xs) = None /\
  exists es, for_each_arg (streams true) f (x :: xs) = Some es /\ In (Comma (handed_on x)) es.
Proof. exact commas_called. Qed.
Print Assumptions C140_comma_refuted.

(** exactly, for all callables *)
Theorem C140_args_exact_partial : forall F f xs,
  (for_each_arg F f xs <> None <-> forall x, In x xs -> passes F (handed_on f) (handed_on x)) /\
  forall es, for_each_arg F f xs = Some es -> es = flat_map (fun x => seen F (handed_on f) (handed_on x)) xs.
Proof. exact args_exact. Qed.
Print Assumptions C140_args_exact_partial.

Theorem C140_tuple_exact_partial : forall F f t elements,
  (for_each_in_tuple F f t elements <> None <-> forall e, In e elements -> passes F (named f) (element t e)) /\
  forall es, for_each_in_tuple F f t elements = Some es -> es = flat_map (fun e => seen F (named f) (element t e)) elements.
Proof. exact tuple_exact. Qed.
Print Assumptions C140_tuple_exact_partial.

(** a callable that takes rvalues of type 1 and const lvalues of type 2; a tuple of an int, a reference
    to const and an rvalue reference, as an rvalue: accepted; as an lvalue: rejected *)
Example C140_instance :
  let F : callable := fun f x =>
    match type_of x, const_of x, category_of x with
    | 1, false, Xvalue => Some Plain | 2, true, Lvalue => Some Plain | _, _, _ => None end in
  let f := Expr 9 false Prvalue in
  let elements := [Type_ 1 false NoRef; Type_ 2 true LRef; Type_ 1 false RRef] in
  no_commas F /\ lvalue_callable F /\
  for_each_in_tuple F f (Expr 8 false Prvalue) elements =
    Some [Called (Expr 9 false Lvalue) (Expr 1 false Xvalue); Called (Expr 9 false Lvalue) (Expr 2 true Lvalue);
          Called (Expr 9 false Lvalue) (Expr 1 false Xvalue)] /\
  for_each_in_tuple F f (Expr 8 false Lvalue) elements = None /\
  for_each_arg F f [Expr 1 false Prvalue; Expr 2 true Lvalue] =
    Some [Called (Expr 9 false Xvalue) (Expr 1 false Xvalue); Called (Expr 9 false Xvalue) (Expr 2 true Lvalue)] /\
  for_each_arg F f [Expr 1 false Lvalue] = None.
Proof.
  cbv zeta. split; [|split; [|repeat split; vm_compute; reflexivity]].
  - intros f x i. destruct (type_of x) as [|[|[|]]], (const_of x), (category_of x); discriminate.
  - intros t c k x. reflexivity.
Qed.
