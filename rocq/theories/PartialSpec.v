(** Questions that cannot be asked about every type.  Nothing here refers to the model. *)

(** a question about types: [None] where asking is a compile-time error *)
Definition question (A : Type) := A -> option bool.

(** the answer, no where it cannot be asked *)
Definition says {A : Type} (p : question A) (t : A) : bool := match p t with Some b => b | None => false end.

(** other types in place of the given ones, different ones for different ones *)
Definition injective {A : Type} (f : A -> A) : Prop := forall a b, f a = f b -> a = b.
