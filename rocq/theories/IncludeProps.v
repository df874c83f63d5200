(** Headers of the library in the source files of users.  The specification is IncludeSpec.v. *)

Require Import List String Bool.
Require Import Verif.UnitsSpec Verif.UnitsModel Verif.IncludeSpec Verif.IncludeModel Verif.IncludeProofs.
Import ListNotations.
Open Scope string_scope.

(** C127: The headers of the library can be included on their own and in every order, whichever
    other headers those of the standard library include. *)

(** true of three headers, among themselves in every order and number *)
Theorem C127_partial : forall L u, conforming L -> (forall h, In (Own h) u -> In h self_contained) -> accepted L u = true.
Proof. exact self_contained_units. Qed.
Print Assumptions C127_partial.

(** and of no other: they use names that nothing they include is sure to declare *)
Theorem C127_refuted : forall h, ~ In h self_contained -> exists L, conforming L /\ accepted L [Own h] = false.
Proof. exact others_refuted. Qed.
Print Assumptions C127_refuted.
Theorem C127_exact_partial : forall h,
  (forall L, conforming L -> accepted L [Own h] = true) <-> In h self_contained.
Proof. exact self_contained_exact. Qed.
Print Assumptions C127_exact_partial.

(** two headers include nothing and compile alone nowhere *)
Theorem C127_never_refuted : forall L h, In h [H_cartesian_product; H_cxz] -> accepted L [Own h] = false.
Proof. exact never_alone. Qed.
Print Assumptions C127_never_refuted.

(** of the headers that include no other header of the library: where they compile *)
Theorem C127_leaves_partial : forall L h, conforming L -> direct h = [] ->
  (accepted L [Own h] = true <-> forall n, In n (lacking h) -> exists s, In s (systems h) /\ L s n = true).
Proof. exact leaves_exact. Qed.
Print Assumptions C127_leaves_partial.

(** one such name declared nowhere but where it is promised is enough to stop the compiler *)
Theorem C127_lacking_refuted : forall h n, In n (lacking h) -> exists L, conforming L /\
  (forall s m, m <> n -> L s m = true) /\ accepted L [Own h] = false.
Proof. exact lacking_alone. Qed.
Print Assumptions C127_lacking_refuted.

(** behind nine standard headers everything can be included in every order; none of the nine can
    be left out *)
Theorem C127_prelude_partial : forall L u, conforming L -> accepted L (map System prelude ++ u) = true.
Proof. exact prelude_suffices. Qed.
Print Assumptions C127_prelude_partial.
Theorem C127_prelude_needed : forall s, In s prelude -> exists L h, conforming L /\
  accepted L (map System (remove string_dec s prelude) ++ [Own h]) = false.
Proof. exact prelude_needed. Qed.
Print Assumptions C127_prelude_needed.

(** a source file compiles everywhere if it does where nothing is declared beyond what is promised *)
Theorem C127_frugal : forall u, (forall L, conforming L -> accepted L u = true) <-> accepted frugal u = true.
Proof. exact frugal_decides. Qed.
Print Assumptions C127_frugal.

(** fast_pimpl.h behind <utility> and <cstddef>; detector.h alone; common.h where <cstring> brings along
    more than it must *)
Example C127_instance :
  conforming frugal /\
  accepted frugal [System "utility"; System "cstddef"; Own H_fast_pimpl] = true /\
  accepted frugal [System "utility"; Own H_fast_pimpl] = false /\
  accepted frugal [Own H_function_traits; Own H_detector; Own H_function_traits] = true /\
  accepted frugal [Own H_type_list; Own H_cartesian_product] = true /\
  accepted frugal [Own H_common] = false /\
  accepted (fun s n => (s =? "cstring") || frugal s n) [Own H_common; Own H_fast_pimpl] = true.
Proof. split; [exact frugal_conforming|]. vm_compute. repeat split. Qed.
