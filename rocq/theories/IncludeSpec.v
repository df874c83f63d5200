(** Source files that include headers, and what the C++17 standard promises that its headers
    declare.  Nothing here refers to the model. *)

Require Import List String.
Require Import Verif.UnitsSpec.
Import ListNotations.
Open Scope string_scope.

(** What a header is sure to declare, of the names that occur below ([cstddef.syn] and so on).
    <cname> declares its functions and types in std, name.h in the global namespace; both may do
    both ([headers], [depr.c.headers]).  "placement new" is operator new with an address.  The two
    headers of other projects declare what is theirs. *)
Definition promised (s : string) : list string :=
  if s =? "algorithm" then
    ["std::min"; "std::max"; "std::initializer_list"]
  else if s =? "array" then
    ["std::array"; "std::get"; "std::tuple_size_v"; "std::initializer_list"]
  else if s =? "atomic" then
    ["std::atomic"]
  else if s =? "bitset" then
    ["std::bitset"]
  else if s =? "boost/pfr.hpp" then
    ["boost::pfr"]
  else if s =? "cassert" then
    ["assert"]
  else if s =? "chrono" then
    ["std::chrono::duration_cast"; "std::chrono::microseconds"; "std::chrono::milliseconds";
     "std::chrono::nanoseconds"; "std::chrono::seconds"; "std::chrono::steady_clock";
     "std::chrono::time_point"]
  else if s =? "climits" then
    ["CHAR_BIT"]
  else if s =? "cstdarg" then
    ["std::va_list"; "va_start"; "va_end"]
  else if s =? "cstddef" then
    ["std::size_t"; "std::byte"; "std::max_align_t"]
  else if s =? "cstdint" then
    ["std::uintptr_t"]
  else if s =? "cstdio" then
    ["std::size_t"; "stderr"]
  else if s =? "cstdlib" then
    ["std::size_t"; "std::abort"; "std::div"]
  else if s =? "cstring" then
    ["std::size_t"; "std::memcpy"; "std::memmove"]
  else if s =? "functional" then
    ["std::invoke"; "std::reference_wrapper"; "std::less_equal"]
  else if s =? "limits" then
    ["std::numeric_limits"]
  else if s =? "new" then
    ["placement new"]
  else if s =? "stdint.h" then
    ["::uint8_t"; "::uint16_t"; "::uint32_t"; "::uint64_t"; "::uintptr_t"]
  else if s =? "stdio.h" then
    ["::vfprintf"; "stderr"]
  else if s =? "string_view" then
    ["std::basic_string_view"; "std::string_view"]
  else if s =? "sysops/memory_ops.h" then
    ["sysops::posix_memalign"; "sysops::free"]
  else if s =? "system_error" then
    []
  else if s =? "tuple" then
    ["std::tuple"; "std::get"; "std::apply"; "std::tuple_element_t"; "std::tuple_size_v"]
  else if s =? "type_traits" then
    ["std::bool_constant"; "std::common_type_t"; "std::conditional_t"; "std::conjunction";
     "std::conjunction_v"; "std::decay_t"; "std::disjunction"; "std::disjunction_v";
     "std::enable_if_t"; "std::false_type"; "std::integral_constant"; "std::is_aggregate_v";
     "std::is_convertible"; "std::is_function"; "std::is_function_v"; "std::is_integral";
     "std::is_integral_v"; "std::is_invocable_r_v"; "std::is_nothrow_constructible_v";
     "std::is_nothrow_copy_assignable_v"; "std::is_nothrow_copy_constructible_v";
     "std::is_nothrow_invocable_r_v"; "std::is_nothrow_move_assignable_v";
     "std::is_nothrow_move_constructible_v"; "std::is_same"; "std::is_same_v";
     "std::is_trivially_constructible_v"; "std::is_trivially_copyable";
     "std::is_trivially_copyable_v"; "std::is_unsigned"; "std::is_unsigned_v"; "std::negation";
     "std::remove_cv_t"; "std::remove_reference_t"; "std::true_type"; "std::underlying_type_t";
     "std::void_t"]
  else if s =? "utility" then
    ["std::forward"; "std::move"; "std::declval"; "std::index_sequence"; "std::integer_sequence";
     "std::make_index_sequence"; "std::make_integer_sequence"; "std::tuple_size_v";
     "std::tuple_element_t"; "std::get"; "std::initializer_list"]
  else [].

(** an implementation: what each header declares, be it promised or not *)
Definition implementation := string -> string -> bool.
Definition conforming (L : implementation) : Prop := forall s n, In n (promised s) -> L s n = true.
(** the one that declares no more than that *)
Definition frugal : implementation := fun s n => if in_dec string_dec n (promised s) then true else false.

(** the #include lines of a source file *)
Inductive line := System (s : string) | Own (h : header).

(** the standard headers to include before those of the library *)
Definition prelude : list string :=
  ["algorithm"; "cstddef"; "cstdint"; "functional"; "new"; "stdint.h"; "stdio.h"; "type_traits"; "utility"].
(** the headers that do without *)
Definition self_contained : list header := [H_detector; H_function_traits; H_type_list].

(** what the headers without #include "..." use and do not include *)
Definition lacking (h : header) : list string :=
  match h with
  | H_cartesian_product | H_padding_checker => ["std::size_t"]
  | H_cxz => ["std::bool_constant"]
  | H_fast_pimpl => ["std::byte"; "std::forward"; "std::move"; "std::size_t"]
  | H_timer => ["std::byte"; "std::invoke"; "std::size_t"; "placement new"]
  | _ => []
  end.
