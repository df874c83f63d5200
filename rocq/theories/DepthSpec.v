(** How deep template instantiations nest.  Nothing here refers to the model. *)

Require Import List Arith String.
Import ListNotations.

(** the instantiation of a class template and those it causes before it is complete *)
Inductive tree : Type := Inst (template : string) (causes : list tree).

Fixpoint depth (t : tree) : nat :=
  match t with Inst _ l => S (fold_right max 0 (map depth l)) end.

(** [implimits]: every implementation should accept 1024 recursively nested instantiations *)
Definition accepted (t : tree) : Prop := depth t <= 1024.

(** a predicate whose own instantiation causes no others *)
Definition plain {A} (cost : A -> tree) : Prop := forall u, depth (cost u) = 1.
