(** Where the declarations of other projects' headers end up in a source file.  Nothing here
    refers to the model. *)

Require Import List String.
Require Import Verif.UnitsSpec Verif.IncludeSpec.
Import ListNotations.

(** the namespace in which the text of a header is read *)
Inductive place : Type := Global | InUtils.

(** the headers that a header of the system reads in turn: all of them, directly or not *)
Definition inner := string -> list string.
Definition complete (subs : inner) : Prop := forall s x, In x (subs s) -> incl (subs x) (subs s).

(** the headers of the system that the user asks for by [#include <...>] lines *)
Definition asked (subs : inner) (u : list line) : list string :=
  flat_map (fun l => match l with System s => s :: subs s | Own _ => [] end) u.

(** the headers of the library that read clz.h or ctz.h *)
Definition uses_intrinsics : list header := [H_clz; H_ctz; H_memory; H_allocator; H_monotonic; H_simple; H_utils].
