(** The words in which the theorems about references in a value_list speak of the model. *)

Require Import List ZArith.
Require Import Verif.RefsModel.

(** every object the value refers to can be read in constant expressions *)
Definition readable (c : contents) (a : arg) : Prop :=
  match a with ByValue _ _ => True | ByRef _ o => c o <> None end.

(** same type and, read as constants, the same content *)
Definition alike (c : contents) (a b : arg) : Prop :=
  match a, b with
  | ByValue t x, ByValue u y => t = u /\ x = y
  | ByRef t o, ByRef u p => t = u /\ c o = c p
  | _, _ => False
  end.

(** different objects of one type among these values have different contents *)
Definition told_apart (c : contents) (l : list arg) : Prop :=
  forall t o p, In (ByRef t o) l -> In (ByRef t p) l -> c o = c p -> o = p.
