(** Model of the names that the CREATE_*_CHECKERS macros of function_traits.h declare:
    the token pastings of each macro, as concatenations of strings. *)

Require Import List String.
Require Import Verif.CheckersModel Verif.NamesSpec.
Import ListNotations.
Open Scope string_scope.

(** function_traits.h:35-72  CREATE_MEMBER_TYPE_CHECKERS *)
Definition type_names (x : string) : list (scope * string) :=
  [ (Details, "has_type_" ++ x ++ "_helper");
    (Outer, "has_type_" ++ x); (Outer, "has_type_" ++ x ++ "_v");
    (Outer, "has_exact_type_" ++ x); (Outer, "has_exact_type_" ++ x ++ "_v");
    (Outer, "has_convertible_type_" ++ x); (Outer, "has_convertible_type_" ++ x ++ "_v") ].

(** function_traits.h:74-103  CREATE_MEMBER_DATA_CHECKERS *)
Definition data_names (x : string) : list (scope * string) :=
  [ (Details, "not_static_" ++ x ++ "_type"); (Details, "has_data_" ++ x);
    (Outer, "has_data_" ++ x); (Outer, "has_data_" ++ x ++ "_v") ].

(** function_traits.h:105-135  CREATE_STATIC_MEMBER_DATA_CHECKERS *)
Definition static_data_names (x : string) : list (scope * string) :=
  [ (Details, "static_" ++ x ++ "_type"); (Details, "has_static_data_" ++ x);
    (Outer, "has_static_data_" ++ x); (Outer, "has_static_data_" ++ x ++ "_v") ].

(** function_traits.h:189-210  X_IMPL and CREATE_R_METHOD_CHECKERS, one X_IMPL for each
    row of SYMBOLIZED_QUALIFIERS *)
Definition r_method_names (x : string) : list (scope * string) :=
  flat_map (fun w =>
    [ (Details, "method_" ++ x ++ x_sc w ++ x_sv w ++ x_sr w ++ x_sn w ++ "_ptr_t");
      (Outer, "has_invocable_r_" ++ x ++ x_sc w ++ x_sv w ++ x_sr w ++ x_sn w);
      (Outer, "has_invocable_r_" ++ x ++ x_sc w ++ x_sv w ++ x_sr w ++ x_sn w ++ "_v") ]) SYMBOLIZED_QUALIFIERS.

(** function_traits.h:212-246  CREATE_METHOD_CHECKERS *)
Definition method_names (x : string) : list (scope * string) :=
  [ (Details, "is_invocable_" ++ x ++ "_t"); (Details, "is_invocable_" ++ x ++ "_noexcept_t");
    (Outer, "has_invocable_" ++ x); (Outer, "has_invocable_" ++ x ++ "_v");
    (Outer, "has_invocable_" ++ x ++ "_noexcept"); (Outer, "has_invocable_" ++ x ++ "_noexcept_v") ].

(** function_traits.h:248-289  S_IMPL and CREATE_STATIC_METHOD_CHECKERS, one S_IMPL for
    each row of SYMBOLIZED_STATIC_METHOD_QUALIFIERS *)
Definition static_method_names (x : string) : list (scope * string) :=
  flat_map (fun w =>
    [ (Details, "static_method_result_" ++ x ++ fst w ++ "_t"); (Details, "static_method_r_" ++ x ++ fst w ++ "_ptr_t");
      (Outer, "has_static_invocable_" ++ x ++ fst w); (Outer, "has_static_invocable_" ++ x ++ fst w ++ "_v");
      (Outer, "has_static_invocable_r_" ++ x ++ fst w); (Outer, "has_static_invocable_r_" ++ x ++ fst w ++ "_v") ])
    SYMBOLIZED_STATIC_METHOD_QUALIFIERS.

(** function_traits.h:291-345  CREATE_FREE_FUNCTION_CHECKERS *)
Definition free_names (x : string) : list (scope * string) :=
  [ (Details, x ++ "_return_t"); (Details, x ++ "_noexcept_return_t");
    (Outer, "is_" ++ x ++ "_invocable"); (Outer, "is_" ++ x ++ "_invocable_v");
    (Outer, "is_" ++ x ++ "_noexcept_invocable"); (Outer, "is_" ++ x ++ "_noexcept_invocable_v");
    (Outer, "is_" ++ x ++ "_invocable_r"); (Outer, "is_" ++ x ++ "_invocable_r_v");
    (Outer, "is_" ++ x ++ "_noexcept_invocable_r"); (Outer, "is_" ++ x ++ "_noexcept_invocable_r_v") ].

(** function_traits.h:35-345: the names each CREATE_... macro defines *)
Definition names (m : maker) : string -> list (scope * string) :=
  match m with
  | MType => type_names
  | MData => data_names
  | MStaticData => static_data_names
  | MRMethod => r_method_names
  | MMethod => method_names
  | MStaticMethod => static_method_names
  | MFree => free_names
  end.
