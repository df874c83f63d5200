(** The project's own unit tests of the function traits, the member and function
    checkers, the padding checker and the value lists with references, replayed in the
    model: every static_assert of function_traits_tests.cpp, of the six
    function_traits_*_checkers_tests.cpp and of padding_checker_tests.cpp, and the block
    of value_list_tests.cpp that has a reference among its values. *)

Require Import List Bool Arith String ZArith.
Require Import Verif.TraitsSpec Verif.TraitsModel Verif.CheckersSpec Verif.CheckersModel.
Require Verif.PaddingSpec Verif.PaddingModel Verif.RefsModel.
Import ListNotations.
Open Scope string_scope.

Definition void := Fund 0.
Definition int := Fund 1.
Definition bool_ := Fund 2.
Definition float := Fund 3.
Definition char := Fund 4.
Definition double := Fund 5.

(** function_traits_tests.cpp:74-100  Functor, PrivateFunctor, DualFunctor and
    TemplatedFunctor are the classes 10 to 13 *)
Definition tests : program := fun k =>
  CallOps k match k with
            | 10 => [Overload (fn void [int] (Quals true false RefL true)) false false true]
            | 11 => [Overload (fn void [int] no_quals) false false false]
            | 12 => [Overload (fn void [] no_quals) false false true; Overload (fn void [int] no_quals) false false true]
            | 13 => [Overload (fn void [int] no_quals) false true true]
            | _ => []
            end.

(** function_traits_tests.cpp:102-106 *)
Definition func1 := fn void [] no_quals.
Definition func2 := fn void [] (Quals false false RefNone true).
Definition func3 := fn void [int; bool_; LRef float] no_quals.

(** the trait [f] of member_signature_t of a pointer to the method of Methods
    (function_traits_tests.cpp:108-138) declared with the qualifiers [q] *)
Definition check {A} (f : ty -> option A) (q : quals) : option A :=
  match member_signature (MemPtr 14 (fn void [] q)) with Some t => f t | None => None end.

(** function_traits_free_function_checkers_tests.cpp:8-12: the calls the assertions make *)
Definition useful_func : calls := fun args =>
  match args with
  | [Fund 1] => Some (void, false)
  | [Fund 1; Fund 2] => Some (void, true)
  | [Fund 1; Fund 2; Fund 4] => Some (float, true)
  | _ => None
  end.

(** the classes empty, s1, s2, s3 and s4 of each file are the classes 20 to 24 *)
Definition one (k : nat) (d : decl) : option found := Some (Found k true d).
Definition method (args : list ty) (q : quals) (static : bool) (r : ty) : overload :=
  Overload (fn r args q) static false true.
Definition ne := Quals false false RefNone true.

(** function_traits_member_data_checkers_tests.cpp:4-26 *)
Definition data_classes : classes := fun k x =>
  if negb (x =? "mem_data") then None else
  match k with
  | 21 => one k (DData int false)
  | 22 => one k (DStaticData int)
  | 23 => one k (DFunctions [method [] no_quals false int])
  | 24 => one k (DFunctions [method [] no_quals true int])
  | _ => None
  end.

(** function_traits_static_member_data_checkers_tests.cpp:4-26 *)
Definition static_data_classes : classes := fun k x =>
  if negb (x =? "mem_data") then None else
  match k with
  | 21 => one k (DStaticData int)
  | 22 => one k (DData int false)
  | 23 => one k (DFunctions [method [] no_quals false int])
  | 24 => one k (DFunctions [method [] no_quals true int])
  | _ => None
  end.

(** function_traits_member_type_checkers_tests.cpp:4-26 *)
Definition type_classes : classes := fun k x =>
  if negb (x =? "mem_type") then None else
  match k with
  | 21 => one k (DType int)
  | 22 => one k (DStaticData int)
  | 23 => one k (DFunctions [method [] no_quals false int])
  | 24 => one k (DFunctions [method [] no_quals true int])
  | _ => None
  end.

(** std::is_convertible_v on the types of the tests: a type to itself, and the arithmetic
    types to one another *)
Definition conv (a b : ty) : bool :=
  ty_eqb a b ||
  match a, b with Fund (S _), Fund (S _) => true | _, _ => false end.

(** function_traits_static_method_checkers_tests.cpp:4-26 *)
Definition static_classes : classes := fun k x =>
  if negb (x =? "sfunc") then None else
  match k with
  | 21 => one k (DFunctions [method [] no_quals true int; method [float] no_quals true int; method [bool_] ne true int])
  | 22 => one k (DFunctions [method [] no_quals false int])
  | 23 => one k (DStaticData int)
  | _ => None
  end.

(** the calls T::sfunc(args) of the assertions *)
Definition sfunc_calls : calls := fun a =>
  match a with
  | [Class 21] => Some (int, false)
  | [Class 21; Fund 3] => Some (int, false)
  | [Class 21; Fund 2] => Some (int, true)
  | _ => None
  end.

(** function_traits_method_checkers_tests.cpp:4-25 *)
Definition method_classes : classes := fun k x =>
  if negb (x =? "mfunc") then None else
  match k with
  | 21 => one k (DFunctions [method [] no_quals false int; method [float] no_quals false int; method [bool_] ne false int])
  | 22 => one k (DFunctions [method [] no_quals true int; method [int; float] (Quals true false RefR false) false void;
                             method [bool_] (Quals false false RefL true) false void])
  | _ => None
  end.

(** the calls std::declval<T>().mfunc(args) of the assertions *)
Definition mfunc_calls : calls := fun a =>
  match a with
  | [Class 21] => Some (int, false)
  | [Class 21; Fund 3] => Some (int, false)
  | [Class 21; Fund 2] => Some (int, true)
  | [Class 22; Fund 1; Fund 3] => Some (void, false)
  | [LRef (Class 22); Fund 2] => Some (void, true)
  | _ => None
  end.

(** TEST IsSimpleFunctor *)
Example test_IsSimpleFunctor :
  is_simple_functor tests (Class 10) = true /\
  is_simple_functor tests (Class 11) = false /\
  is_simple_functor tests (Class 12) = false /\
  is_simple_functor tests (Class 13) = false.
Proof. repeat split. Qed.

(** TEST FunctorCallableTypeMustBeTreatedAsFunction *)
Example test_FunctorCallableTypeMustBeTreatedAsFunction :
  match functor_signature tests (Class 10) with Some f => is_function f | None => false end = true /\
  is_function func1 = true /\
  is_function func2 = true /\
  is_function func3 = true.
Proof. repeat split. Qed.

(** TEST IsInvocable *)
Example test_IsInvocable :
  is_invocable tests (Class 10) = true /\
  is_invocable tests func1 = true /\
  is_invocable tests func2 = true /\
  is_invocable tests func3 = true.
Proof. repeat split. Qed.

(** TEST RemoveAllQualifiers *)
Example test_RemoveAllQualifiers :
  bind_ty (signature tests (Class 10)) remove_all_qualifiers = Some (fn void [int] no_quals) /\
  bind_ty (signature tests func1) remove_all_qualifiers = Some (fn void [] no_quals) /\
  bind_ty (signature tests func2) remove_all_qualifiers = Some (fn void [] no_quals) /\
  bind_ty (signature tests func3) remove_all_qualifiers = Some (fn void [int; bool_; LRef float] no_quals) /\
  check remove_all_qualifiers (Quals false false RefNone false) = Some (fn void [] no_quals) /\
  check remove_all_qualifiers (Quals true false RefNone false) = Some (fn void [] no_quals) /\
  check remove_all_qualifiers (Quals false true RefNone false) = Some (fn void [] no_quals) /\
  check remove_all_qualifiers (Quals true true RefNone false) = Some (fn void [] no_quals) /\
  check remove_all_qualifiers (Quals false false RefL false) = Some (fn void [] no_quals) /\
  check remove_all_qualifiers (Quals true false RefL false) = Some (fn void [] no_quals) /\
  check remove_all_qualifiers (Quals false true RefL false) = Some (fn void [] no_quals) /\
  check remove_all_qualifiers (Quals true true RefL false) = Some (fn void [] no_quals) /\
  check remove_all_qualifiers (Quals false false RefR false) = Some (fn void [] no_quals) /\
  check remove_all_qualifiers (Quals true false RefR false) = Some (fn void [] no_quals) /\
  check remove_all_qualifiers (Quals false true RefR false) = Some (fn void [] no_quals) /\
  check remove_all_qualifiers (Quals true true RefR false) = Some (fn void [] no_quals) /\
  check remove_all_qualifiers (Quals false false RefNone true) = Some (fn void [] no_quals) /\
  check remove_all_qualifiers (Quals true false RefNone true) = Some (fn void [] no_quals) /\
  check remove_all_qualifiers (Quals false true RefNone true) = Some (fn void [] no_quals) /\
  check remove_all_qualifiers (Quals true true RefNone true) = Some (fn void [] no_quals) /\
  check remove_all_qualifiers (Quals false false RefL true) = Some (fn void [] no_quals) /\
  check remove_all_qualifiers (Quals true false RefL true) = Some (fn void [] no_quals) /\
  check remove_all_qualifiers (Quals false true RefL true) = Some (fn void [] no_quals) /\
  check remove_all_qualifiers (Quals true true RefL true) = Some (fn void [] no_quals) /\
  check remove_all_qualifiers (Quals false false RefR true) = Some (fn void [] no_quals) /\
  check remove_all_qualifiers (Quals true false RefR true) = Some (fn void [] no_quals) /\
  check remove_all_qualifiers (Quals false true RefR true) = Some (fn void [] no_quals) /\
  check remove_all_qualifiers (Quals true true RefR true) = Some (fn void [] no_quals).
Proof. repeat split. Qed.

(** TEST HasConst *)
Example test_HasConst :
  check has_const_qualifier (Quals false false RefNone false) = Some false /\
  check has_const_qualifier (Quals true false RefNone false) = Some true /\
  check has_const_qualifier (Quals false true RefNone false) = Some false /\
  check has_const_qualifier (Quals true true RefNone false) = Some true /\
  check has_const_qualifier (Quals false false RefL false) = Some false /\
  check has_const_qualifier (Quals true false RefL false) = Some true /\
  check has_const_qualifier (Quals false true RefL false) = Some false /\
  check has_const_qualifier (Quals true true RefL false) = Some true /\
  check has_const_qualifier (Quals false false RefR false) = Some false /\
  check has_const_qualifier (Quals true false RefR false) = Some true /\
  check has_const_qualifier (Quals false true RefR false) = Some false /\
  check has_const_qualifier (Quals true true RefR false) = Some true /\
  check has_const_qualifier (Quals false false RefNone true) = Some false /\
  check has_const_qualifier (Quals true false RefNone true) = Some true /\
  check has_const_qualifier (Quals false true RefNone true) = Some false /\
  check has_const_qualifier (Quals true true RefNone true) = Some true /\
  check has_const_qualifier (Quals false false RefL true) = Some false /\
  check has_const_qualifier (Quals true false RefL true) = Some true /\
  check has_const_qualifier (Quals false true RefL true) = Some false /\
  check has_const_qualifier (Quals true true RefL true) = Some true /\
  check has_const_qualifier (Quals false false RefR true) = Some false /\
  check has_const_qualifier (Quals true false RefR true) = Some true /\
  check has_const_qualifier (Quals false true RefR true) = Some false /\
  check has_const_qualifier (Quals true true RefR true) = Some true /\
  check has_const_qualifier (Quals true true RefNone false) = Some true.
Proof. repeat split. Qed.

(** TEST HasVolatile *)
Example test_HasVolatile :
  check has_volatile_qualifier (Quals false false RefNone false) = Some false /\
  check has_volatile_qualifier (Quals true false RefNone false) = Some false /\
  check has_volatile_qualifier (Quals false true RefNone false) = Some true /\
  check has_volatile_qualifier (Quals true true RefNone false) = Some true /\
  check has_volatile_qualifier (Quals false false RefL false) = Some false /\
  check has_volatile_qualifier (Quals true false RefL false) = Some false /\
  check has_volatile_qualifier (Quals false true RefL false) = Some true /\
  check has_volatile_qualifier (Quals true true RefL false) = Some true /\
  check has_volatile_qualifier (Quals false false RefR false) = Some false /\
  check has_volatile_qualifier (Quals true false RefR false) = Some false /\
  check has_volatile_qualifier (Quals false true RefR false) = Some true /\
  check has_volatile_qualifier (Quals true true RefR false) = Some true /\
  check has_volatile_qualifier (Quals false false RefNone true) = Some false /\
  check has_volatile_qualifier (Quals true false RefNone true) = Some false /\
  check has_volatile_qualifier (Quals false true RefNone true) = Some true /\
  check has_volatile_qualifier (Quals true true RefNone true) = Some true /\
  check has_volatile_qualifier (Quals false false RefL true) = Some false /\
  check has_volatile_qualifier (Quals true false RefL true) = Some false /\
  check has_volatile_qualifier (Quals false true RefL true) = Some true /\
  check has_volatile_qualifier (Quals true true RefL true) = Some true /\
  check has_volatile_qualifier (Quals false false RefR true) = Some false /\
  check has_volatile_qualifier (Quals true false RefR true) = Some false /\
  check has_volatile_qualifier (Quals false true RefR true) = Some true /\
  check has_volatile_qualifier (Quals true true RefR true) = Some true.
Proof. repeat split. Qed.

(** TEST HasLValueRef *)
Example test_HasLValueRef :
  check has_lvalue_reference_qualifier (Quals false false RefNone false) = Some false /\
  check has_lvalue_reference_qualifier (Quals true false RefNone false) = Some false /\
  check has_lvalue_reference_qualifier (Quals false true RefNone false) = Some false /\
  check has_lvalue_reference_qualifier (Quals true true RefNone false) = Some false /\
  check has_lvalue_reference_qualifier (Quals false false RefL false) = Some true /\
  check has_lvalue_reference_qualifier (Quals true false RefL false) = Some true /\
  check has_lvalue_reference_qualifier (Quals false true RefL false) = Some true /\
  check has_lvalue_reference_qualifier (Quals true true RefL false) = Some true /\
  check has_lvalue_reference_qualifier (Quals false false RefR false) = Some false /\
  check has_lvalue_reference_qualifier (Quals true false RefR false) = Some false /\
  check has_lvalue_reference_qualifier (Quals false true RefR false) = Some false /\
  check has_lvalue_reference_qualifier (Quals true true RefR false) = Some false /\
  check has_lvalue_reference_qualifier (Quals false false RefNone true) = Some false /\
  check has_lvalue_reference_qualifier (Quals true false RefNone true) = Some false /\
  check has_lvalue_reference_qualifier (Quals false true RefNone true) = Some false /\
  check has_lvalue_reference_qualifier (Quals true true RefNone true) = Some false /\
  check has_lvalue_reference_qualifier (Quals false false RefL true) = Some true /\
  check has_lvalue_reference_qualifier (Quals true false RefL true) = Some true /\
  check has_lvalue_reference_qualifier (Quals false true RefL true) = Some true /\
  check has_lvalue_reference_qualifier (Quals true true RefL true) = Some true /\
  check has_lvalue_reference_qualifier (Quals false false RefR true) = Some false /\
  check has_lvalue_reference_qualifier (Quals true false RefR true) = Some false /\
  check has_lvalue_reference_qualifier (Quals false true RefR true) = Some false /\
  check has_lvalue_reference_qualifier (Quals true true RefR true) = Some false.
Proof. repeat split. Qed.

(** TEST HasRValueRef *)
Example test_HasRValueRef :
  check has_rvalue_reference_qualifier (Quals false false RefNone false) = Some false /\
  check has_rvalue_reference_qualifier (Quals true false RefNone false) = Some false /\
  check has_rvalue_reference_qualifier (Quals false true RefNone false) = Some false /\
  check has_rvalue_reference_qualifier (Quals true true RefNone false) = Some false /\
  check has_rvalue_reference_qualifier (Quals false false RefL false) = Some false /\
  check has_rvalue_reference_qualifier (Quals true false RefL false) = Some false /\
  check has_rvalue_reference_qualifier (Quals false true RefL false) = Some false /\
  check has_rvalue_reference_qualifier (Quals true true RefL false) = Some false /\
  check has_rvalue_reference_qualifier (Quals false false RefR false) = Some true /\
  check has_rvalue_reference_qualifier (Quals true false RefR false) = Some true /\
  check has_rvalue_reference_qualifier (Quals false true RefR false) = Some true /\
  check has_rvalue_reference_qualifier (Quals true true RefR false) = Some true /\
  check has_rvalue_reference_qualifier (Quals false false RefNone true) = Some false /\
  check has_rvalue_reference_qualifier (Quals true false RefNone true) = Some false /\
  check has_rvalue_reference_qualifier (Quals false true RefNone true) = Some false /\
  check has_rvalue_reference_qualifier (Quals true true RefNone true) = Some false /\
  check has_rvalue_reference_qualifier (Quals false false RefL true) = Some false /\
  check has_rvalue_reference_qualifier (Quals true false RefL true) = Some false /\
  check has_rvalue_reference_qualifier (Quals false true RefL true) = Some false /\
  check has_rvalue_reference_qualifier (Quals true true RefL true) = Some false /\
  check has_rvalue_reference_qualifier (Quals false false RefR true) = Some true /\
  check has_rvalue_reference_qualifier (Quals true false RefR true) = Some true /\
  check has_rvalue_reference_qualifier (Quals false true RefR true) = Some true /\
  check has_rvalue_reference_qualifier (Quals true true RefR true) = Some true.
Proof. repeat split. Qed.

(** TEST HasNoexcept *)
Example test_HasNoexcept :
  check has_noexcept_qualifier (Quals false false RefNone false) = Some false /\
  check has_noexcept_qualifier (Quals true false RefNone false) = Some false /\
  check has_noexcept_qualifier (Quals false true RefNone false) = Some false /\
  check has_noexcept_qualifier (Quals true true RefNone false) = Some false /\
  check has_noexcept_qualifier (Quals false false RefL false) = Some false /\
  check has_noexcept_qualifier (Quals true false RefL false) = Some false /\
  check has_noexcept_qualifier (Quals false true RefL false) = Some false /\
  check has_noexcept_qualifier (Quals true true RefL false) = Some false /\
  check has_noexcept_qualifier (Quals false false RefR false) = Some false /\
  check has_noexcept_qualifier (Quals true false RefR false) = Some false /\
  check has_noexcept_qualifier (Quals false true RefR false) = Some false /\
  check has_noexcept_qualifier (Quals true true RefR false) = Some false /\
  check has_noexcept_qualifier (Quals false false RefNone true) = Some true /\
  check has_noexcept_qualifier (Quals true false RefNone true) = Some true /\
  check has_noexcept_qualifier (Quals false true RefNone true) = Some true /\
  check has_noexcept_qualifier (Quals true true RefNone true) = Some true /\
  check has_noexcept_qualifier (Quals false false RefL true) = Some true /\
  check has_noexcept_qualifier (Quals true false RefL true) = Some true /\
  check has_noexcept_qualifier (Quals false true RefL true) = Some true /\
  check has_noexcept_qualifier (Quals true true RefL true) = Some true /\
  check has_noexcept_qualifier (Quals false false RefR true) = Some true /\
  check has_noexcept_qualifier (Quals true false RefR true) = Some true /\
  check has_noexcept_qualifier (Quals false true RefR true) = Some true /\
  check has_noexcept_qualifier (Quals true true RefR true) = Some true.
Proof. repeat split. Qed.

(** function_traits_free_function_checkers_tests.cpp, TEST FreeFunctionCheckers_HasUsefulFunc *)
Example test_FreeFunctionCheckers_HasUsefulFunc :
  is_f_invocable useful_func [int] = true /\
  is_f_invocable_r useful_func void [int] = true /\
  is_f_noexcept_invocable useful_func [int] = false /\
  is_f_noexcept_invocable_r useful_func void [int] = false /\
  is_f_invocable useful_func [int; bool_] = true /\
  is_f_invocable_r useful_func void [int; bool_] = true /\
  is_f_noexcept_invocable useful_func [int; bool_] = true /\
  is_f_noexcept_invocable_r useful_func void [int; bool_] = true /\
  is_f_invocable useful_func [int; bool_; char] = true /\
  is_f_invocable_r useful_func float [int; bool_; char] = true /\
  is_f_noexcept_invocable useful_func [int; bool_; char] = true /\
  is_f_noexcept_invocable_r useful_func float [int; bool_; char] = true /\
  is_f_invocable useful_func [double; (Class 20)] = false /\
  is_f_invocable_r useful_func void [] = false /\
  is_f_noexcept_invocable useful_func [] = false /\
  is_f_noexcept_invocable_r useful_func (Class 20) [int; bool_] = false.
Proof. repeat split. Qed.

(** function_traits_member_data_checkers_tests.cpp, TEST MemberDataCheckers_HasData *)
Example test_MemberDataCheckers_HasData :
  has_data data_classes "mem_data" (Class 20) = false /\
  has_data data_classes "mem_data" void = false /\
  has_data data_classes "mem_data" (Class 21) = true /\
  has_data data_classes "mem_data" (Class 22) = false /\
  has_data data_classes "mem_data" (Class 23) = false /\
  has_data data_classes "mem_data" (Class 24) = false.
Proof. repeat split. Qed.

(** function_traits_static_member_data_checkers_tests.cpp, TEST StaticMemberDataCheckers_HasData *)
Example test_StaticMemberDataCheckers_HasData :
  has_static_data static_data_classes "mem_data" (Class 20) = false /\
  has_static_data static_data_classes "mem_data" void = false /\
  has_static_data static_data_classes "mem_data" (Class 21) = true /\
  has_static_data static_data_classes "mem_data" (Class 22) = false /\
  has_static_data static_data_classes "mem_data" (Class 23) = false /\
  has_static_data static_data_classes "mem_data" (Class 24) = false.
Proof. repeat split. Qed.

(** function_traits_member_type_checkers_tests.cpp, TEST MemberTypeCheckers_HasType *)
Example test_MemberTypeCheckers_HasType :
  has_type type_classes "mem_type" (Class 20) = false /\
  has_type type_classes "mem_type" (Class 21) = true /\
  has_type type_classes "mem_type" (Class 22) = false /\
  has_type type_classes "mem_type" (Class 23) = false /\
  has_type type_classes "mem_type" (Class 24) = false.
Proof. repeat split. Qed.

(** function_traits_member_type_checkers_tests.cpp, TEST MemberTypeCheckers_HasConvertibleType *)
Example test_MemberTypeCheckers_HasConvertibleType :
  has_convertible_type conv type_classes "mem_type" (Class 20) int = false /\
  has_convertible_type conv type_classes "mem_type" (Class 21) int = true /\
  has_convertible_type conv type_classes "mem_type" (Class 21) bool_ = true /\
  has_convertible_type conv type_classes "mem_type" (Class 22) int = false /\
  has_convertible_type conv type_classes "mem_type" (Class 23) int = false /\
  has_convertible_type conv type_classes "mem_type" (Class 24) int = false.
Proof. repeat split. Qed.

(** function_traits_member_type_checkers_tests.cpp, TEST MemberTypeCheckers_HasExactType *)
Example test_MemberTypeCheckers_HasExactType :
  has_exact_type type_classes "mem_type" (Class 20) int = false /\
  has_exact_type type_classes "mem_type" (Class 21) int = true /\
  has_exact_type type_classes "mem_type" (Class 21) bool_ = false /\
  has_exact_type type_classes "mem_type" (Class 22) int = false /\
  has_exact_type type_classes "mem_type" (Class 23) int = false /\
  has_exact_type type_classes "mem_type" (Class 23) (MemPtr 23 (fn int [] no_quals)) = false /\
  has_exact_type type_classes "mem_type" (Class 24) (fn int [] no_quals) = false.
Proof. repeat split. Qed.

(** function_traits_static_method_checkers_tests.cpp, TEST StaticMethodCheckers_HasStaticFunc *)
Example test_StaticMethodCheckers_HasStaticFunc :
  has_static_invocable conv "" sfunc_calls (Class 20) [] = Some false /\
  has_static_invocable conv "" sfunc_calls void [int; float] = Some false /\
  has_static_invocable conv "" sfunc_calls (Class 21) [] = Some true /\
  has_static_invocable conv "_noexcept" sfunc_calls (Class 21) [] = Some false /\
  has_static_invocable conv "" sfunc_calls (Class 21) [float] = Some true /\
  has_static_invocable conv "_noexcept" sfunc_calls (Class 21) [float] = Some false /\
  has_static_invocable conv "" sfunc_calls (Class 21) [bool_] = Some true /\
  has_static_invocable conv "_noexcept" sfunc_calls (Class 21) [bool_] = Some true /\
  has_static_invocable conv "" sfunc_calls (Class 22) [] = Some false /\
  has_static_invocable conv "_noexcept" sfunc_calls (Class 22) [] = Some false /\
  has_static_invocable conv "" sfunc_calls (Class 22) [(Ptr (Class 22))] = Some false /\
  has_static_invocable conv "_noexcept" sfunc_calls (Class 22) [(LRef (Class 22))] = Some false /\
  has_static_invocable conv "" sfunc_calls (Class 23) [] = Some false /\
  has_static_invocable conv "_noexcept" sfunc_calls (Class 23) [] = Some false.
Proof. repeat split. Qed.

(** function_traits_static_method_checkers_tests.cpp, TEST StaticMethodCheckers_HasStaticFuncR *)
Example test_StaticMethodCheckers_HasStaticFuncR :
  has_static_invocable_r static_classes "" "sfunc" void (Class 20) [] = Some false /\
  has_static_invocable_r static_classes "" "sfunc" void int [float] = Some false /\
  has_static_invocable_r static_classes "_noexcept" "sfunc" void int [float] = Some false /\
  has_static_invocable_r static_classes "" "sfunc" int (Class 21) [] = Some true /\
  has_static_invocable_r static_classes "" "sfunc" int (Class 21) [float] = Some true /\
  has_static_invocable_r static_classes "_noexcept" "sfunc" int (Class 21) [] = Some false /\
  has_static_invocable_r static_classes "_noexcept" "sfunc" int (Class 21) [float] = Some false /\
  has_static_invocable_r static_classes "_noexcept" "sfunc" int (Class 21) [bool_] = Some true /\
  has_static_invocable_r static_classes "" "sfunc" int (Class 22) [] = Some false /\
  has_static_invocable_r static_classes "" "sfunc" int (Class 22) [(LRef (Class 22))] = Some false /\
  has_static_invocable_r static_classes "" "sfunc" int (Class 23) [] = Some false.
Proof. repeat split. Qed.

(** function_traits_method_checkers_tests.cpp, TEST MethodRCheckers_HasFuncWithReturnType *)
Example test_MethodRCheckers_HasFuncWithReturnType :
  has_invocable_r method_classes "" "mfunc" void (Class 20) [] = Some false /\
  has_invocable_r method_classes "" "mfunc" void int [float] = Some false /\
  has_invocable_r method_classes "" "mfunc" int (Class 21) [] = Some true /\
  has_invocable_r method_classes "" "mfunc" int (Class 21) [float] = Some true /\
  has_invocable_r method_classes "_noexcept" "mfunc" int (Class 21) [] = Some false /\
  has_invocable_r method_classes "_noexcept" "mfunc" int (Class 21) [float] = Some false /\
  has_invocable_r method_classes "_ref" "mfunc" int (Class 21) [] = Some false /\
  has_invocable_r method_classes "_rref" "mfunc" int (Class 21) [] = Some false /\
  has_invocable_r method_classes "_const" "mfunc" int (Class 21) [] = Some false /\
  has_invocable_r method_classes "" "mfunc" int (Class 21) [bool_] = Some true /\
  has_invocable_r method_classes "_noexcept" "mfunc" int (Class 21) [bool_] = Some true /\
  has_invocable_r method_classes "" "mfunc" int (Class 22) [] = Some false /\
  has_invocable_r method_classes "_const_rref" "mfunc" void (Class 22) [int; float] = Some true /\
  has_invocable_r method_classes "_ref_noexcept" "mfunc" void (Class 22) [bool_] = Some true /\
  has_invocable_r method_classes "_const_rref_noexcept" "mfunc" void (Class 22) [int; float] = Some false /\
  has_invocable_r method_classes "_ref" "mfunc" void (Class 22) [bool_] = Some true /\
  has_invocable_r method_classes "_volatile_ref" "mfunc" void (Class 22) [bool_] = Some false.
Proof. repeat split. Qed.

(** function_traits_method_checkers_tests.cpp, TEST MethodCheckers_HasFunc *)
Example test_MethodCheckers_HasFunc :
  has_invocable_r method_classes "" "mfunc" void (Class 20) [] = Some false /\
  has_invocable_r method_classes "" "mfunc" void int [float] = Some false /\
  has_invocable mfunc_calls (Class 21) [] = true /\
  has_invocable mfunc_calls (Class 21) [float] = true /\
  has_invocable mfunc_calls (Class 21) [bool_] = true /\
  has_invocable_noexcept mfunc_calls (Class 21) [] = false /\
  has_invocable_noexcept mfunc_calls (Class 21) [float] = false /\
  has_invocable_noexcept mfunc_calls (Class 21) [bool_] = true /\
  has_invocable mfunc_calls (Class 22) [int; float] = true /\
  has_invocable mfunc_calls (Class 22) [bool_] = false /\
  has_invocable mfunc_calls (LRef (Class 22)) [bool_] = true /\
  has_invocable_noexcept mfunc_calls (Class 22) [int; float] = false /\
  has_invocable_noexcept mfunc_calls (Class 22) [bool_] = false /\
  has_invocable_noexcept mfunc_calls (LRef (Class 22)) [bool_] = true.
Proof. repeat split. Qed.

(** padding_checker_tests.cpp:7-33; std::tuple is no aggregate and not trivially copyable *)
Import PaddingSpec PaddingModel.
Definition c1 := Scalar 1 1.
Definition i4 := Scalar 4 4.
Definition f4 := Scalar 4 4.
Definition with_padding := Aggregate [c1; i4; c1].
Definition no_padding := Aggregate [i4; i4; i4].
Definition nested_with_padding := Aggregate [i4; i4; i4; with_padding].
Definition nested_no_padding := Aggregate [i4; no_padding; i4; i4].

(** padding_checker_tests.cpp, TEST Padding *)
Example test_Padding :
  has_padding f4 = Some false /\
  has_padding with_padding = Some true /\
  has_padding no_padding = Some false /\
  has_padding nested_with_padding = Some true /\
  has_padding nested_no_padding = Some false /\
  has_padding (NonAggregate false [f4; c1; i4]) = Some true /\
  has_padding (NonAggregate false [c1; c1; c1]) = Some true.
Proof. repeat split. Qed.

(** value_list_tests.cpp:54-76  value_list<'t', ri, i, 10, eFileError::kPermission> where
    ri is a const int& to the constant i = 5; the types char, const int, int and eFileError
    are 0, 1, 2 and 3, the object i is 1 and kPermission is [p] *)
Example test_At_references : forall p : Z,
  let l := [RefsModel.ByValue 0 116; RefsModel.ByRef 1 1; RefsModel.ByValue 2 5; RefsModel.ByValue 2 10; RefsModel.ByValue 3 p] in
  let c : RefsModel.contents := fun o => match o with 1 => Some 5%Z | _ => None end in
  map (fun k => RefsModel.ref_at_t k l) [0; 1; 2; 3; 4] =
  [Some (RefsModel.DValue 0); Some (RefsModel.DRef 1); Some (RefsModel.DValue 2); Some (RefsModel.DValue 2); Some (RefsModel.DValue 3)] /\
  map (fun k => match RefsModel.ref_at k l with Some a => RefsModel.read c a | None => None end) [0; 1; 2; 3; 4] =
  [Some 116; Some 5; Some 5; Some 10; Some p]%Z.
Proof. split; reflexivity. Qed.
