(** The checkers that the CREATE_*_CHECKERS macros create for members of different
    names, and which of them cannot be created in one namespace.  Nothing here refers to
    the model. *)

Require Import List String.
Require Import Verif.TraitsSpec Verif.CheckersSpec.
Import ListNotations.
Open Scope string_scope.

(** the macros of function_traits.h *)
Inductive maker := MType | MData | MStaticData | MRMethod | MMethod | MStaticMethod | MFree.

(** where a name is declared: in the namespace of the macro's use or in its namespace
    details *)
Inductive scope := Outer | Details.

(** two uses declare the same name in the same namespace *)
Definition clashing (a b : list (scope * string)) : Prop := exists n, In n a /\ In n b.

Definition ends_with (e x : string) : Prop := exists z, x = z ++ e.
Definition starts_with (p x : string) : Prop := exists z, x = p ++ z.

(** the endings of the checkers of a macro *)
Definition calls_endings : list string := [""; "_v"; "_noexcept"; "_noexcept_v"].
Definition r_ending (e : string) : Prop := exists q v, In v [""; "_v"] /\ e = suffix q ++ v.

(** the pairs of uses that clash, each pair in one order *)
Definition collide1 (m : maker) (x : string) (n : maker) (y : string) : Prop :=
  match m, n with
  | MType, MType | MData, MData | MStaticData, MStaticData => exists e, In e [""; "_v"] /\ y = x ++ e
  | MMethod, MMethod => exists e, In e calls_endings /\ y = x ++ e
  | MRMethod, MRMethod => exists e, r_ending e /\ y = x ++ e
  | MStaticMethod, MStaticMethod =>
      exists e, In e calls_endings /\ (y = x ++ e \/ y = "r_" ++ x ++ e \/ "r_" ++ x = y ++ e)
  | MFree, MFree => exists e, In e [""; "_noexcept"] /\ y = x ++ e
  | MMethod, MRMethod =>
      (exists e, In e calls_endings /\ "r_" ++ y = x ++ e) \/ (exists e, r_ending e /\ x = "r_" ++ y ++ e)
  | MMethod, MFree => exists e, In e ["_return"; "_noexcept_return"] /\ "is_invocable_" ++ x = y ++ e
  | MData, MFree => exists e, In e ["_return_t"; "_noexcept_return_t"] /\ "has_data_" ++ x = y ++ e
  | MStaticData, MFree => exists e, In e ["_return_t"; "_noexcept_return_t"] /\ "has_static_data_" ++ x = y ++ e
  | MStaticMethod, MFree => exists e, In e ["_return"; "_noexcept_return"] /\ "static_method_result_" ++ x = y ++ e
  | _, _ => False
  end.
Definition collide (m : maker) (x : string) (n : maker) (y : string) : Prop :=
  collide1 m x n y \/ collide1 n y m x.

(** names that never clash: without an ending that a macro adds, and not beginning with
    the r_ of has_invocable_r_... *)
Definition ordinary (x : string) : Prop :=
  (forall e, In e ["_v"; "_const"; "_volatile"; "_ref"; "_rref"; "_noexcept"] -> ~ ends_with e x) /\
  ~ ends_with "_return" ("_" ++ x) /\ ~ ends_with "_return_t" ("_" ++ x) /\ ~ starts_with "r_" (x ++ "_").
