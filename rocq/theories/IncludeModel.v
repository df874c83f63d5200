(** The headers of the library as the compiler reads them: which standard headers they include,
    which names of those and of other headers of the library they use, which they declare.

    Simplifications.  A name is looked up when the text of the header is read, also in templates
    (qualified names and types have to be declared there; of unqualified functions with dependent
    arguments that is true of their definition only).  Within a header every name is declared
    before it is used.  Not MSVC, not __STDC_LIB_EXT1__. *)

Require Import List String Bool.
Require Import Verif.UnitsSpec Verif.UnitsModel Verif.IncludeSpec.
Import ListNotations.
Open Scope string_scope.

(** #include <...>: allocator.h:4, clz.h:4, common.h:4-15, ctz.h:4, detector.h:4, fast_pimpl.h:4-5,
    function_traits.h:4, memory.h:4-13, monotonic_buffer_resource.h:4, padding_checker.h:4-6,
    simple_resource.h:4-11, timer.h:4-6, type_list.h:4-6, value_list.h:4-6; always before the
    #include "..." ([direct]) *)
Definition systems (h : header) : list string :=
  match h with
  | H_cartesian_product => []
  | H_clz => ["type_traits"]
  | H_common => ["array"; "cassert"; "climits"; "cstdarg"; "cstdio"; "cstdlib"; "cstring"; "functional";
       "limits"; "string_view"; "tuple"; "type_traits"]
  | H_ctz => ["type_traits"]
  | H_detector => ["type_traits"]
  | H_cxz => []
  | H_fast_pimpl => ["new"; "type_traits"]
  | H_function_traits => ["type_traits"]
  | H_allocator => ["type_traits"]
  | H_memory => ["sysops/memory_ops.h"; "algorithm"; "atomic"; "cstddef"; "cstdlib"; "cstring"; "functional";
       "system_error"; "type_traits"]
  | H_monotonic => ["functional"]
  | H_simple => ["algorithm"; "bitset"; "climits"; "cstddef"; "cstdlib"; "functional"; "limits"; "tuple"]
  | H_padding_checker => ["boost/pfr.hpp"; "type_traits"; "utility"]
  | H_timer => ["chrono"; "type_traits"; "utility"]
  | H_type_list => ["cstddef"; "type_traits"; "utility"]
  | H_utils => []
  | H_value_list => ["cstddef"; "tuple"; "type_traits"]
  end.

(** names each header uses and does not declare (common.h:184-208, 354, 462-557 uint8_t ...; common.h:455
    vfprintf; simple_resource.h:298, 448-452 uintptr_t; placement new: fast_pimpl.h:25-55, timer.h:105-111,
    allocator.h) *)
Definition needs (h : header) : list string :=
  match h with
  | H_cartesian_product =>
    ["std::size_t"]
  | H_clz =>
    ["std::declval"; "std::enable_if_t"; "std::size_t"; "CHAR_BIT"; "assert"; "utils::is_uint_v";
     "utils::less_eq_pred"; "utils::type_list"]
  | H_common =>
    ["std::abort"; "std::apply"; "std::array"; "std::basic_string_view"; "std::byte";
     "std::common_type_t"; "std::conditional_t"; "std::conjunction"; "std::conjunction_v";
     "std::decay_t"; "std::disjunction"; "std::div"; "std::enable_if_t"; "std::false_type";
     "std::forward"; "std::get"; "std::index_sequence"; "std::initializer_list";
     "std::integer_sequence"; "std::integral_constant"; "std::is_integral"; "std::is_integral_v";
     "std::is_same"; "std::is_same_v"; "std::is_trivially_constructible_v";
     "std::is_trivially_copyable_v"; "std::is_unsigned"; "std::is_unsigned_v";
     "std::make_index_sequence"; "std::make_integer_sequence"; "std::max"; "std::memcpy";
     "std::min"; "std::move"; "std::negation"; "std::numeric_limits"; "std::reference_wrapper";
     "std::remove_cv_t"; "std::remove_reference_t"; "std::size_t"; "std::string_view";
     "std::true_type"; "std::tuple"; "std::tuple_size_v"; "std::uintptr_t";
     "std::underlying_type_t"; "std::va_list"; "CHAR_BIT"; "assert"; "va_start"; "va_end";
     "stderr"; "::vfprintf"; "::uint8_t"; "::uint16_t"; "::uint32_t"; "::uint64_t";
     "utils::value_list"; "utils::type_list"]
  | H_ctz =>
    ["std::enable_if_t"; "std::size_t"; "CHAR_BIT"; "assert"; "utils::is_uint_v";
     "utils::less_eq_pred"; "utils::type_list"]
  | H_detector =>
    ["std::false_type"; "std::is_convertible"; "std::is_same"; "std::true_type"; "std::void_t"]
  | H_cxz =>
    ["std::bool_constant"]
  | H_fast_pimpl =>
    ["std::byte"; "std::forward"; "std::is_nothrow_constructible_v";
     "std::is_nothrow_copy_assignable_v"; "std::is_nothrow_copy_constructible_v";
     "std::is_nothrow_move_assignable_v"; "std::is_nothrow_move_constructible_v"; "std::move";
     "std::size_t"; "placement new"]
  | H_function_traits =>
    ["std::bool_constant"; "std::conditional_t"; "std::declval"; "std::disjunction";
     "std::enable_if_t"; "std::false_type"; "std::integral_constant"; "std::is_function";
     "std::is_function_v"; "std::negation"; "std::size_t"; "std::true_type"; "UTILS_TO_STR";
     "utils::is_detected"; "utils::is_detected_convertible"; "utils::is_detected_exact";
     "utils::is_detected_v"; "utils::type_list"]
  | H_allocator =>
    ["std::forward"; "std::is_nothrow_constructible_v"; "std::max_align_t"; "std::size_t";
     "placement new"; "memory::memory_resource"; "memory::get_default_resource"]
  | H_memory =>
    ["std::atomic"; "std::byte"; "std::disjunction_v"; "std::invoke"; "std::is_same";
     "std::is_same_v"; "std::max_align_t"; "std::memcpy"; "std::memmove"; "std::size_t";
     "std::uintptr_t"; "assert"; "utils::ctz"; "sysops::posix_memalign"; "sysops::free"]
  | H_monotonic =>
    ["std::byte"; "std::less_equal"; "std::size_t"; "assert"; "utils::is_power_of_2";
     "utils::skip_to_align"; "memory::memory_resource"; "memory::get_default_resource"]
  | H_simple =>
    ["std::bitset"; "std::byte"; "std::enable_if_t"; "std::get"; "std::invoke";
     "std::is_nothrow_invocable_r_v"; "std::min"; "std::numeric_limits"; "std::size_t";
     "std::tuple"; "assert"; "::uintptr_t"; "UTILS_ABORT_IF"; "utils::bits_count"; "utils::ctz";
     "utils::is_aligned"; "utils::is_power_of_2"; "utils::max_alignment_inside_block";
     "utils::skip_to_align"; "memory::memory_resource"; "memory::get_default_resource"]
  | H_padding_checker =>
    ["std::bool_constant"; "std::declval"; "std::disjunction"; "std::index_sequence";
     "std::integral_constant"; "std::is_aggregate_v"; "std::is_trivially_copyable";
     "std::make_index_sequence"; "std::negation"; "std::size_t"; "boost::pfr"]
  | H_timer =>
    ["std::byte"; "std::chrono::duration_cast"; "std::chrono::microseconds";
     "std::chrono::milliseconds"; "std::chrono::nanoseconds"; "std::chrono::seconds";
     "std::chrono::steady_clock"; "std::chrono::time_point"; "std::conditional_t"; "std::declval";
     "std::enable_if_t"; "std::forward"; "std::index_sequence"; "std::invoke";
     "std::is_invocable_r_v"; "std::is_same_v"; "std::make_index_sequence"; "std::remove_cv_t";
     "std::remove_reference_t"; "std::size_t"; "placement new"]
  | H_type_list =>
    ["std::bool_constant"; "std::conditional_t"; "std::conjunction"; "std::conjunction_v";
     "std::disjunction_v"; "std::enable_if_t"; "std::false_type"; "std::index_sequence";
     "std::integral_constant"; "std::is_same"; "std::is_same_v"; "std::make_index_sequence";
     "std::size_t"; "std::true_type"; "utils::concatenate_t"; "utils::cartesian_product"]
  | H_utils =>
    []
  | H_value_list =>
    ["std::bool_constant"; "std::conditional_t"; "std::conjunction"; "std::disjunction";
     "std::disjunction_v"; "std::false_type"; "std::get"; "std::index_sequence";
     "std::integral_constant"; "std::make_index_sequence"; "std::max"; "std::min"; "std::size_t";
     "std::true_type"; "std::tuple"; "std::tuple_element_t"; "utils::concatenate_t";
     "utils::type_list"]
  end.

(** names that other headers use *)
Definition gives (h : header) : list string :=
  match h with
  | H_cartesian_product => ["utils::concatenate"; "utils::concatenate_t"; "utils::cartesian_product"]
  | H_clz => ["utils::clz"]
  | H_common => ["UTILS_ABORT_IF"; "utils::is_uint_v"; "utils::bits_count"; "utils::is_power_of_2";
       "utils::skip_to_align"; "utils::max_alignment_inside_block"; "utils::is_aligned"]
  | H_ctz => ["utils::ctz"]
  | H_detector => ["UTILS_TO_STR"; "utils::is_detected"; "utils::is_detected_v"; "utils::is_detected_exact";
       "utils::is_detected_convertible"]
  | H_cxz => ["utils::less_eq_pred"]
  | H_memory => ["memory::memory_resource"; "memory::get_default_resource"]
  | H_type_list => ["utils::type_list"]
  | H_value_list => ["utils::value_list"]
  | H_fast_pimpl | H_function_traits | H_allocator | H_monotonic | H_simple | H_padding_checker | H_timer | H_utils => []
  end.

(** the compiler between two lines: headers read, standard headers included, names declared by the
    library, whether everything was found so far *)
Record reading := Reading { read : list header; included : list string; declared : list string; fine : bool }.

(** the language: whether a name is declared where it is used *)
Definition knows (L : implementation) (r : reading) (n : string) : bool :=
  existsb (fun s => L s n) (included r) || existsb (String.eqb n) (declared r).
(** the text of a header behind its #include lines *)
Definition text (L : implementation) (h : header) (r : reading) : reading :=
  Reading (h :: read r) (included r) (gives h ++ declared r) (fine r && forallb (knows L r) (needs h)).
Definition take_system (s : string) (r : reading) : reading :=
  Reading (read r) (s :: included r) (declared r) (fine r).

(** include guards and depth as in [visit] *)
Fixpoint take (L : implementation) (depth : nat) (h : header) (r : reading) : reading :=
  match depth with
  | O => r
  | S depth' =>
    if in_dec header_eq_dec h (read r) then r
    else text L h (fold_left (fun r g => take L depth' g r) (direct h) (fold_left (fun r s => take_system s r) (systems h) r))
  end.
Definition take_line (L : implementation) (r : reading) (l : line) : reading :=
  match l with System s => take_system s r | Own h => take L 17 h r end.
(** a source file with these lines compiles up to there *)
Definition accepted (L : implementation) (u : list line) : bool := fine (fold_left (take_line L) u (Reading [] [] [] true)).
