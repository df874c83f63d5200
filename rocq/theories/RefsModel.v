(** value_list.h with references among its values: [template <decltype(auto)... Values>]
    takes [(x)] as a reference to the object x. *)

Require Import List Arith ZArith Bool.
Import ListNotations.

(** A value of the list: one of type [t] with an integral value, or a reference [t&] to the
    object [o] (const is part of [t]). *)
Inductive arg : Type :=
| ByValue (t : nat) (z : Z)
| ByRef (t : nat) (o : nat).

(** decltype(Value) *)
Inductive decl : Type := DValue (t : nat) | DRef (t : nat).
Definition decltype (a : arg) : decl :=
  match a with ByValue t _ => DValue t | ByRef t _ => DRef t end.
Definition decl_eqb (a b : decl) : bool :=
  match a, b with
  | DValue t, DValue u => t =? u
  | DRef t, DRef u => t =? u
  | _, _ => false
  end.

(** The contents of the objects as constant expressions see them: [None] for an object
    that is not usable in constant expressions. *)
Definition contents := nat -> option Z.

(** reading a value: the lvalue-to-rvalue conversion of the operands of == *)
Definition read (c : contents) (a : arg) : option Z :=
  match a with ByValue _ z => Some z | ByRef _ o => c o end.

(** value_list.h:141-142 at_t: std::tuple_element_t of std::tuple<decltype(Values)...>;
    [None] does not compile *)
Definition ref_at_t (i : nat) (l : list arg) : option decl := nth_error (map decltype l) i.
(** value_list.h:144-146 at: std::get of a tuple of the values, a reference stays one to the
    same object *)
Definition ref_at (i : nat) (l : list arg) : option arg := nth_error l i.

(** value_list.h:17-33 is_same_impl: false for different types, otherwise
    bool_constant<v1 == v2>, ill-formed ([None]) unless both can be read *)
Definition is_same_impl (c : contents) (a b : arg) : option bool :=
  if decl_eqb (decltype a) (decltype b) then
    match read c a, read c b with
    | Some x, Some y => Some (Z.eqb x y)
    | _, _ => None
    end
  else Some false.

(** value_list.h:35-41 count_of_impl: a fold over all of them *)
Fixpoint count_from (c : contents) (n : nat) (v : arg) (l : list arg) : option nat :=
  match l with
  | [] => Some n
  | u :: r =>
    match is_same_impl c v u with
    | Some b => count_from c (n + (if b then 1 else 0)) v r
    | None => None
    end
  end.
Definition ref_count_of (c : contents) (v : arg) (l : list arg) : option nat := count_from c 0 v l.

(** std::conjunction and std::disjunction instantiate their arguments from the left until
    the answer is known *)
Fixpoint conjunction {A} (f : A -> option bool) (l : list A) : option bool :=
  match l with
  | [] => Some true
  | x :: r => match f x with Some true => conjunction f r | other => other end
  end.
Fixpoint disjunction {A} (f : A -> option bool) (l : list A) : option bool :=
  match l with
  | [] => Some false
  | x :: r => match f x with Some false => disjunction f r | other => other end
  end.

(** value_list.h:43-52 is_all_same_impl, 152-155 *)
Definition ref_is_same (c : contents) (l : list arg) : option bool :=
  match l with [] => Some true | v :: r => conjunction (is_same_impl c v) r end.

(** value_list.h:54-58 more_than_once *)
Definition ref_more_than_once (c : contents) (v : arg) (l : list arg) : option bool :=
  match ref_count_of c v l with Some n => Some (1 <? n) | None => None end.

(** value_list.h:60-63 contains_impl, 161-165 *)
Definition ref_contains (c : contents) (v : arg) (l : list arg) : option bool :=
  disjunction (is_same_impl c v) l.

(** value_list.h:65-77 index_of_impl, 148-150: std::conditional_t does not instantiate the
    base it does not choose *)
Fixpoint ref_index_from (c : contents) (i : nat) (v : arg) (l : list arg) : option nat :=
  match l with
  | [] => Some i
  | u :: r =>
    match is_same_impl c v u with
    | Some true => Some i
    | Some false => ref_index_from c (S i) v r
    | None => None
    end
  end.
Definition ref_index_of (c : contents) (v : arg) (l : list arg) : option nat := ref_index_from c 0 v l.

(** value_list.h:167-168 contains_copies *)
Definition ref_contains_copies (c : contents) (l : list arg) : option bool :=
  disjunction (fun v => ref_more_than_once c v l) l.
