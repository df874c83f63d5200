(** Properties C88-C92: the checkers created by the macros of function_traits.h. *)

Require Import List Bool Arith String.
Require Import Verif.TraitsSpec Verif.TraitsModel Verif.CheckersSpec Verif.CheckersModel Verif.CheckersProofs.
Import ListNotations.
Open Scope string_scope.

(** a program to talk about: class 10 has a type "value_type", the data members "a" (a
    double), "r" (a reference), "b" (a bit-field), a private "p", static data "s", a
    static reference to a function "sf", and the functions "f" (two overloads) and "g"
    (static, noexcept); class 11 inherits "f" *)
Definition f_int := fn (Fund 0) [Fund 1] (Quals true false RefNone false).
Definition f_two := fn (Fund 2) [Fund 1; Fund 2] (Quals false false RefL true).
Definition g_sig := fn (Fund 0) [] (Quals false false RefNone true).
Definition sample : classes := fun k x =>
  if Nat.eqb k 10 || Nat.eqb k 11 && String.eqb x "f" then
    if String.eqb x "value_type" then Some (Found 10 true (DType (Fund 3)))
    else if String.eqb x "a" then Some (Found 10 true (DData (Fund 1) false))
    else if String.eqb x "r" then Some (Found 10 true (DData (LRef (Fund 0)) false))
    else if String.eqb x "b" then Some (Found 10 true (DData (Fund 0) true))
    else if String.eqb x "p" then Some (Found 10 false (DData (Fund 0) false))
    else if String.eqb x "s" then Some (Found 10 true (DStaticData (Fund 0)))
    else if String.eqb x "sf" then Some (Found 10 true (DStaticData (LRef g_sig)))
    else if String.eqb x "f" then Some (Found 10 true (DFunctions [Overload f_int false false true; Overload f_two false false true]))
    else if String.eqb x "g" then Some (Found 10 true (DFunctions [Overload g_sig true false true]))
    else None
  else None.

Lemma sample_wf : wf_classes sample.
Proof.
  intros k x o p d. unfold sample.
  destruct (Nat.eqb k 10 || Nat.eqb k 11 && String.eqb x "f"); [|discriminate].
  repeat match goal with |- (if ?c then _ else _) = _ -> _ => destruct c end; intros H; try discriminate;
    injection H as <- <- <-; cbn; try (intros; discriminate); auto.
  - split.
    + intros m [<-|[<-|[]]]; (split; [reflexivity|]); cbn; unfold f_int, f_two, fn; eauto 6.
    + repeat constructor. cbn. intros (H & _). discriminate.
  - split.
    + intros m [<-|[]]; (split; [reflexivity|]); cbn; unfold g_sig, fn; eauto 6.
    + repeat constructor.
Qed.

(** ** C88: member types *)

Theorem C88_has_type : forall K x t, has_type K x t = true <-> exists u, names_type K t x u.
Proof. exact has_type_iff. Qed.
Print Assumptions C88_has_type.

Theorem C88_has_exact_type : forall K x t e, e <> nonesuch -> (has_exact_type K x t e = true <-> names_type K t x e).
Proof. exact has_exact_type_iff. Qed.
Print Assumptions C88_has_exact_type.

Theorem C88_has_convertible_type : forall conv K x t to, conv nonesuch to = false ->
  (has_convertible_type conv K x t to = true <-> exists u, names_type K t x u /\ conv u to = true).
Proof. exact has_convertible_type_iff. Qed.
Print Assumptions C88_has_convertible_type.

Example C88_instance :
  has_type sample "value_type" (Class 10) = true /\ has_type sample "a" (Class 10) = false /\
  has_type sample "value_type" (LRef (Class 10)) = false /\ has_type sample "value_type" (Cv CvConst (Class 10)) = true /\
  has_exact_type sample "value_type" (Class 10) (Fund 3) = true /\ has_exact_type sample "value_type" (Class 10) (Fund 0) = false /\
  names_type sample (Class 10) "value_type" (Fund 3).
Proof. repeat split; vm_compute; try reflexivity. exists 10, 10. split; [constructor|reflexivity]. Qed.

(** ** C89: data members *)

(** has_data_x, for members that are neither references nor bit-fields *)
Theorem C89_has_data_partial : forall K x t, wf_classes K ->
  (has_data K x t = true <->
   exists k o u, class_type t k /\ K k x = Some (Found o true (DData u false)) /\ no_reference u).
Proof. exact has_data_iff. Qed.
Print Assumptions C89_has_data_partial.

(** has_static_data_x, for members that are no references to functions *)
Theorem C89_has_static_data_partial : forall K x t, wf_classes K ->
  (has_static_data K x t = true <->
   exists k o u, class_type t k /\ K k x = Some (Found o true (DStaticData u)) /\
   forall r a e q, u <> LRef (Fun r a e q) /\ u <> RRef (Fun r a e q)).
Proof. exact has_static_data_iff. Qed.
Print Assumptions C89_has_static_data_partial.

(** what is missing: a reference member and a bit-field are data members, and a static
    reference to a function is a static data member *)
Theorem C89_reference_refuted : wf_classes sample /\ names_data sample (Class 10) "r" /\ has_data sample "r" (Class 10) = false.
Proof.
  split; [exact sample_wf|split; [|reflexivity]]. exists 10, 10, (LRef (Fund 0)), false. split; [constructor|reflexivity].
Qed.
Print Assumptions C89_reference_refuted.

Theorem C89_bitfield_refuted : wf_classes sample /\ names_data sample (Class 10) "b" /\ has_data sample "b" (Class 10) = false.
Proof.
  split; [exact sample_wf|split; [|reflexivity]]. exists 10, 10, (Fund 0), true. split; [constructor|reflexivity].
Qed.
Print Assumptions C89_bitfield_refuted.

Theorem C89_static_reference_refuted : wf_classes sample /\ names_static_data sample (Class 10) "sf" /\
  has_static_data sample "sf" (Class 10) = false.
Proof.
  split; [exact sample_wf|split; [|reflexivity]]. exists 10, 10, (LRef g_sig). split; [constructor|reflexivity].
Qed.
Print Assumptions C89_static_reference_refuted.

Example C89_instance : wf_classes sample /\
  has_data sample "a" (Class 10) = true /\ has_data sample "s" (Class 10) = false /\ has_data sample "p" (Class 10) = false /\
  has_data sample "f" (Class 10) = false /\ has_data sample "value_type" (Class 10) = false /\
  has_static_data sample "s" (Class 10) = true /\ has_static_data sample "a" (Class 10) = false /\
  has_static_data sample "g" (Class 10) = false.
Proof. split; [exact sample_wf|]. repeat split; vm_compute; reflexivity. Qed.

(** ** C90: member functions of a given type *)

(** for each of the 24 qualifier combinations there is exactly one checker, its name
    spells the qualifiers, and it is true exactly when the class has an accessible
    non-static member function with this return type, these parameters and these
    qualifiers; one that is noexcept also serves where noexcept is not asked for *)
Theorem C90_has_invocable_r : forall K q x r t args, wf_classes K -> exists b,
  has_invocable_r K (suffix q) x r t args = Some b /\
  (b = true <-> has_function K false t x (fn r (map param args) q)).
Proof. exact has_invocable_r_iff. Qed.
Print Assumptions C90_has_invocable_r.

(** there are no checkers by other names *)
Theorem C90_names : forall K s x r t args, has_invocable_r K s x r t args <> None -> exists q, s = suffix q.
Proof. exact suffix_only. Qed.
Print Assumptions C90_names.

(** and the same for static member functions *)
Theorem C90_has_static_invocable_r : forall K (n : bool) x r t args, wf_classes K -> exists b,
  has_static_invocable_r K (if n then "_noexcept" else "") x r t args = Some b /\
  (b = true <-> has_function K true t x (fn r (map param args) (Quals false false RefNone n))).
Proof. exact has_static_invocable_r_iff. Qed.
Print Assumptions C90_has_static_invocable_r.

Example C90_instance : wf_classes sample /\
  has_invocable_r sample "_const" "f" (Fund 0) (Class 10) [Fund 1] = Some true /\
  has_invocable_r sample "_const" "f" (Fund 0) (Class 11) [Cv CvConst (Fund 1)] = Some true /\
  has_invocable_r sample "" "f" (Fund 0) (Class 10) [Fund 1] = Some false /\
  has_invocable_r sample "_const_noexcept" "f" (Fund 0) (Class 10) [Fund 1] = Some false /\
  has_invocable_r sample "_ref" "f" (Fund 2) (Class 10) [Fund 1; Fund 2] = Some true /\
  has_invocable_r sample "_ref_noexcept" "f" (Fund 2) (Class 10) [Fund 1; Fund 2] = Some true /\
  has_invocable_r sample "" "g" (Fund 0) (Class 10) [] = Some false /\
  has_invocable_r sample "_noexcept_const" "f" (Fund 0) (Class 10) [] = None /\
  has_static_invocable_r sample "" "g" (Fund 0) (Class 10) [] = Some true /\
  has_static_invocable_r sample "_noexcept" "g" (Fund 0) (Class 10) [] = Some true /\
  has_static_invocable_r sample "" "f" (Fund 0) (Class 10) [Fund 1] = Some false.
Proof. split; [exact sample_wf|]. repeat split; vm_compute; reflexivity. Qed.

(** ** C91: calls of member functions.  [c] says which call expressions compile, with
    their types and whether they are noexcept *)

Theorem C91_has_invocable : forall c t args, has_invocable c t args = true <-> c (t :: args) <> None.
Proof. exact has_invocable_iff. Qed.
Print Assumptions C91_has_invocable.

Theorem C91_has_invocable_noexcept : forall c t args,
  has_invocable_noexcept c t args = true <-> exists r, c (t :: args) = Some (r, true).
Proof. exact has_invocable_noexcept_iff. Qed.
Print Assumptions C91_has_invocable_noexcept.

(** static calls; of the conversions only three facts about std::true_type are used *)
Theorem C91_has_static_invocable : forall conv (n : bool) c t args,
  conv true_type true_type = true -> conv false_type true_type = false -> conv nonesuch true_type = false ->
  exists b, has_static_invocable conv (if n then "_noexcept" else "") c t args = Some b /\
  (b = true <-> exists r m, c (t :: args) = Some (r, m) /\ (n = true -> m = true)).
Proof. exact has_static_invocable_iff. Qed.
Print Assumptions C91_has_static_invocable.

(** a call with an int compiles and may throw, one with a char does not throw *)
Definition some_calls : calls := fun a =>
  match a with
  | [Class 10; Fund 0] => Some (Fund 5, false)
  | [Class 10; Fund 1] => Some (Fund 6, true)
  | _ => None
  end.
Example C91_instance :
  has_invocable some_calls (Class 10) [Fund 0] = true /\ has_invocable some_calls (Class 10) [Fund 2] = false /\
  has_invocable_noexcept some_calls (Class 10) [Fund 0] = false /\ has_invocable_noexcept some_calls (Class 10) [Fund 1] = true /\
  ty_eqb true_type true_type = true /\ ty_eqb false_type true_type = false /\ ty_eqb nonesuch true_type = false /\
  has_static_invocable ty_eqb "" some_calls (Class 10) [Fund 0] = Some true /\
  has_static_invocable ty_eqb "_noexcept" some_calls (Class 10) [Fund 0] = Some false /\
  has_static_invocable ty_eqb "_noexcept" some_calls (Class 10) [Fund 1] = Some true.
Proof. repeat split; vm_compute; reflexivity. Qed.

(** ** C92: calls of free functions *)

Theorem C92_invocable : forall c args, is_f_invocable c args = true <-> c args <> None.
Proof. exact is_f_invocable_iff. Qed.
Print Assumptions C92_invocable.

Theorem C92_noexcept_invocable : forall c args, is_f_noexcept_invocable c args = true <-> exists r, c args = Some (r, true).
Proof. exact is_f_noexcept_invocable_iff. Qed.
Print Assumptions C92_noexcept_invocable.

Theorem C92_invocable_r : forall c r args, r <> nonesuch ->
  (is_f_invocable_r c r args = true <-> exists n, c args = Some (r, n)).
Proof. exact is_f_invocable_r_iff. Qed.
Print Assumptions C92_invocable_r.

Theorem C92_noexcept_invocable_r : forall c r args, r <> nonesuch ->
  (is_f_noexcept_invocable_r c r args = true <-> c args = Some (r, true)).
Proof. exact is_f_noexcept_invocable_r_iff. Qed.
Print Assumptions C92_noexcept_invocable_r.

Example C92_instance :
  is_f_invocable_r some_calls (Fund 5) [Class 10; Fund 0] = true /\ is_f_invocable_r some_calls (Fund 6) [Class 10; Fund 0] = false /\
  is_f_noexcept_invocable some_calls [Class 10; Fund 0] = false /\ is_f_noexcept_invocable_r some_calls (Fund 6) [Class 10; Fund 1] = true /\
  Fund 5 <> nonesuch.
Proof. repeat split; discriminate. Qed.
