(** Property C112: the names that the CREATE_*_CHECKERS macros declare. *)

Require Import List String.
Require Import Verif.TraitsSpec Verif.CheckersSpec Verif.NamesSpec Verif.NamesModel Verif.NamesProofs.
Import ListNotations.
Open Scope string_scope.

(** one use declares no name twice *)
Theorem C112_one_use : forall m x, NoDup (names m x).
Proof. exact one_use. Qed.
Print Assumptions C112_one_use.

(** all the macros can be used for one name *)
Theorem C112_same_name : forall m n x, m <> n -> ~ clashing (names m x) (names n x).
Proof. exact same_name. Qed.
Print Assumptions C112_same_name.

(** different uses for ordinary names can stand side by side *)
Theorem C112_ordinary_partial : forall m x n y, ordinary x -> ordinary y -> m <> n \/ x <> y ->
  ~ clashing (names m x) (names n y).
Proof. exact plain_names. Qed.
Print Assumptions C112_ordinary_partial.

(** exactly the uses that clash *)
Theorem C112_exact_partial : forall m x n y, clashing (names m x) (names n y) <-> collide m x n y.
Proof. exact clash_iff. Qed.
Print Assumptions C112_exact_partial.

(** members called size and size_v, reset and reset_noexcept, v and r *)
Theorem C112_clash_refuted :
  clashing (names MType "size") (names MType "size_v") /\
  clashing (names MMethod "reset") (names MMethod "reset_noexcept") /\
  clashing (names MRMethod "get") (names MRMethod "get_const") /\
  clashing (names MMethod "r") (names MRMethod "v") /\
  clashing (names MStaticMethod "make") (names MStaticMethod "r_make") /\
  clashing (names MFree "swap") (names MFree "swap_noexcept").
Proof. exact clashes. Qed.
Print Assumptions C112_clash_refuted.

Example C112_instance : ordinary "size" /\ ordinary "value" /\ ordinary "return_value" /\ ordinary "reference" /\
  In (Outer, "has_invocable_r_size_const_noexcept_v") (names MRMethod "size") /\
  In (Details, "size_return_t") (names MFree "size") /\ MFree <> MType.
Proof. exact names_instance. Qed.
