(** The words in which the theorems about lists speak of the model. *)

Require Import List.
Require Import Verif.TypeListModel.
Import ListNotations.

(** [x] is [t] itself or, when [t] is a type_list, one of the types written in it at any
    depth that is not a type_list *)
Inductive leaf (x : ty) : ty -> Prop :=
| leaf_itself : (forall us, x <> TTypes us) -> leaf x x
| leaf_inside : forall u us, In u us -> leaf x u -> leaf x (TTypes us).

(** a type_list or value_list with at least one element *)
Definition non_empty_list (t : ty) : Prop :=
  (exists x l, t = TTypes (x :: l)) \/ (exists x l, t = TValues (x :: l)).
