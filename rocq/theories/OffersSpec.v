(** What can be done with objects of a class, and what generic code is told about it.  Nothing
    here refers to the model. *)

Require Import Bool List.

(** [X x;]  [X x(y);]  [X x(std::move(y));]  [x = y;]  [x = std::move(y);]  and the end of x *)
Inductive deed := Default | Copy | Move | CopyAssign | MoveAssign | Destroy.
Definition deeds : list deed := Default :: Copy :: Move :: CopyAssign :: MoveAssign :: Destroy :: nil.

(** A class as its user knows it: which of the functions for these deeds can be called, which
    of them do not throw. *)
Record powers := Powers { able : deed -> bool; quiet : deed -> bool }.

(** An object that is constructed must be destroyed. *)
Definition constructs (d : deed) : bool := match d with Default | Copy | Move => true | _ => false end.
Definition can (T : powers) (d : deed) : bool := able T d && (negb (constructs d) || able T Destroy).

(** What std::is_default_constructible_v, is_copy_constructible_v, ... say about a class, and
    whether a program that does it compiles. *)
Record answers := Answers { says : deed -> bool; compiles : deed -> bool; says_quiet : deed -> bool }.

(** Generic code can rely on the answers. *)
Definition truthful (C : answers) : Prop := forall d, says C d = compiles C d.

(** std::move_if_noexcept, which growing std::vectors use for their elements: copy only if
    moving may throw and copying is possible *)
Definition grows_by (C : answers) : deed := if negb (says_quiet C Move) && says C Copy then Copy else Move.
Definition vector_grows (C : answers) : bool := compiles C (grows_by C).

(** a class that is used directly *)
Definition as_is (T : powers) : answers :=
  Answers (can T) (can T) (fun d => can T d && quiet T d && (negb (constructs d) || quiet T Destroy)).

(** Classes of users with members [ps], which mention none or one of their special members as
    = default.  What can be done with them by the rules of the language. *)
Definition holder_can (mention : option deed) (ps : list powers) (d : deed) : bool :=
  let all d := forallb (fun p => can p d) ps in
  match mention, d with
  | (None | Some Default), (Move | MoveAssign) => all d || all (if constructs d then Copy else CopyAssign)
  | (Some Copy | Some CopyAssign | Some Destroy), Move => all Copy
  | (Some Copy | Some CopyAssign | Some Destroy), MoveAssign => all CopyAssign
  | (Some Copy | Some Move), Default => false
  | Some Move, (Copy | CopyAssign | MoveAssign) => false
  | Some MoveAssign, (Copy | CopyAssign | Move) => false
  | _, _ => all d
  end.
