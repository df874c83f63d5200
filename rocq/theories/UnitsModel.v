(** Model of the headers of the library as a translation unit sees them: which headers
    include which, and what they define at namespace scope.

    Simplifications.  Of what a definition uses only the names of functions, variables and
    classes of the library are listed, not those of types and traits, which all have
    external linkage.  Overloads have different names here: name<> is the template beside a
    function, name/k the k-th overload.  Class templates and traits that use no function of
    the library are left out (type_list.h, value_list.h, cartesian_product.h, detector.h,
    function_traits.h, padding_checker.h, fast_pimpl.h, timer.h: their member functions
    are inline because they are defined in the class).  Non-MSVC branches. *)

Require Import ZArith List String Bool.
Require Import Verif.UnitsSpec.
Import ListNotations.
Open Scope string_scope.

(** a static function; an inline or constexpr function or variable, a class, a template *)
Definition static_ (n : string) (us : list string) : definition := Def n Internal EveryUnit us.
Definition shared (n : string) (us : list string) : definition := Def n External EveryUnit us.

(** common.h, in the order of the file *)
Definition defs_common : list definition := [
  shared "is_uint_v" [];                                                        (* 73 *)
  shared "is_uint_or_byte_v" [];                                                (* 82 *)
  shared "is_equal_sizes_v" [];                                                 (* 90 *)
  shared "tag" [];                                                              (* 98 *)
  shared "is_std_array_v" [];                                                   (* 111 *)
  shared "std_array_size_v" [];                                                 (* 123 *)
  shared "is_same_data_std_arrays" [];                                          (* 130 *)
  shared "std_array_sizes_sum" ["std_array_size_v"];                            (* 135 *)
  static_ "details::concatenate_2_arrays" ["is_same_data_std_arrays"; "std_array_sizes_sum"]; (* 142-149 *)
  shared "details::concatenate_arrays/1" ["is_std_array_v"];                    (* 151-155 *)
  shared "details::concatenate_arrays/2" ["std_array_sizes_sum"; "std_array_size_v"]; (* 157-169: the calls depend on the arguments *)
  shared "details::make_element_for_index" [];                                  (* 172 *)
  shared "details::make_array_with_value_impl" ["details::make_element_for_index"]; (* 178-182 *)
  shared "details::numBitSet" [];                                               (* 185 *)
  shared "details::getNumBits" ["details::numBitSet"];                          (* 190-194 *)
  shared "details::make_num_bits_table_impl" ["details::getNumBits"];           (* 197-201 *)
  shared "details::make_num_bits_table" ["details::make_num_bits_table_impl"];  (* 203-208 *)
  shared "concatenate_arrays" ["std_array_sizes_sum"; "details::concatenate_arrays/1"; "details::concatenate_arrays/2"]; (* 211-219 *)
  shared "make_array/1" [];                                                     (* 223 *)
  shared "make_array/2" [];                                                     (* 229 *)
  shared "make_array/3" ["details::make_array_with_value_impl"];                (* 235-239 *)
  shared "details::make_array_from_sv" ["make_array/1"];                        (* 244-255 *)
  shared "make_array/4" ["details::make_array_from_sv"];                        (* 259-264 *)
  shared "is_valid_range_v" [];                                                 (* 278 *)
  shared "make_array_from_range" ["is_valid_range_v"];                          (* 284-312 *)
  shared "sv_to_array" ["make_array/1"; "make_array/2"];                        (* 315-325 *)
  shared "make_zero_array" ["details::make_array_with_value_impl"];             (* 328-332 *)
  shared "is_equal" [];                                                         (* 335 *)
  shared "kNumBitsTable" ["details::make_num_bits_table"];                      (* 352: inline *)
  shared "bits_count" ["bits_count"];                                           (* 354-357 *)
  static_ "memvcmp" [];                                                         (* 359-368 *)
  shared "greatest_divisor_that_is_power_of_2" [];                              (* 371 *)
  shared "is_power_of_2" [];                                                    (* 378 *)
  shared "next_multiple_of" ["is_power_of_2"];                                  (* 383-388 *)
  shared "next_multiple_of<>" ["is_power_of_2"];                                (* 390-395 *)
  static_ "skip_to_align" ["is_power_of_2"; "next_multiple_of"];                (* 397-403 *)
  static_ "skip_to_align<>" ["is_power_of_2"; "skip_to_align"];                 (* 405-411 *)
  shared "max_alignment_inside_block" ["is_power_of_2"; "bits_count"];          (* 413-430 *)
  shared "is_aligned" ["is_power_of_2"];                                        (* 432-436 *)
  shared "is_aligned<>" ["is_aligned"];                                         (* 438-443 *)
  static_ "abort_if" [];                                                        (* 445-459 *)
  shared "num_bits" [];                                                         (* 560 *)
  shared "num_bits<bool>" [];                                                   (* 566: constexpr *)
  shared "div" [];                                                              (* 588 *)
  shared "div_as" ["div"];                                                      (* 617-623 *)
  shared "sum_size" ["num_bits"];                                               (* 626-630 *)
  shared "nbits_occupied" [];                                                   (* 633 *)
  shared "for_each_arg" [];                                                     (* 649 *)
  shared "for_each_in_tuple" ["for_each_arg"];                                  (* 656-661 *)
  shared "bit_cast" [];                                                         (* 663-677 *)
  shared "to_underlying" [];                                                    (* 680 *)
  shared "is_tuple_v" [];                                                       (* 733 *)
  shared "is_ref_wrapper_v" [];                                                 (* 746 *)
  shared "shift_right" [];                                                      (* 764 *)
  shared "shift_left" []].                                                      (* 776 *)

(** clz.h; all functions are constexpr or specialisations declared constexpr *)
Definition defs_clz : list definition := [
  shared "details::crafted_clz" ["is_uint_v"];                                  (* 17-27 *)
  shared "clz_ui" []; shared "clz_ul" []; shared "clz_ull" [];                  (* 93, 99, 105 *)
  shared "details::calc_clz<unsigned int>" ["clz_ui"];                          (* 116-120 *)
  shared "details::calc_clz<unsigned long>" ["clz_ul"];                         (* 122-126 *)
  shared "details::calc_clz<unsigned long long>" ["clz_ull"];                   (* 128-133 *)
  shared "clz" ["is_uint_v"; "details::less_eq_pred"; "details::crafted_clz"]]. (* 138- *)
(** ctz.h *)
Definition defs_ctz : list definition := [
  shared "details::crafted_ctz" ["is_uint_v"];                                  (* 17-26 *)
  shared "ctz_ui" []; shared "ctz_ul" []; shared "ctz_ull" [];                  (* 90, 96, 102 *)
  shared "details::calc_ctz<unsigned int>" ["ctz_ui"];                          (* 113-117 *)
  shared "details::calc_ctz<unsigned long>" ["ctz_ul"];                         (* 119-123 *)
  shared "details::calc_ctz<unsigned long long>" ["ctz_ull"];                   (* 125-130 *)
  shared "ctz" ["is_uint_v"; "details::less_eq_pred"; "details::crafted_ctz"]]. (* 135- *)
(** details/cxz.h:8-11 *)
Definition defs_cxz : list definition := [shared "details::less_eq_pred" []].

(** type_list.h *)
Definition defs_type_list : list definition := [
  shared "details::min_sizeof_index_impl" [];                                   (* 255 *)
  shared "details::max_sizeof_index_impl" [];                                   (* 274 *)
  shared "min_sizeof_index_v" ["details::min_sizeof_index_impl"];               (* 311-320 *)
  shared "max_sizeof_index_v" ["details::max_sizeof_index_impl"];               (* 326-335 *)
  shared "is_type_list_v" []].                                                  (* 479 *)

(** memory/memory.h *)
Definition defs_memory : list definition := [
  shared "memory::aligned_malloc" []; shared "memory::aligned_free" [];         (* 21, 36 *)
  shared "memory::secure_zero_memory" [];                                       (* 45 *)
  shared "memory::secure_zero_memory_safe" ["memory::secure_zero_memory"];      (* 75-90 *)
  shared "memory::memmove" [];                                                  (* 92 *)
  shared "memory::get_alignment" ["ctz"];                                       (* 113-119 *)
  shared "memory::memcpy" [];                                                   (* 122 *)
  shared "memory::memory_resource" [];                                          (* 157-219 *)
  shared "memory::details::default_resource" ["memory::system_memory_resource"];  (* 226-227: an inline variable *)
  shared "memory::details::system_memory_resource"                              (* 229-257: 241 the friend declaration *)
    ["memory::memory_resource"; "memory::system_memory_resource"; "memory::aligned_malloc"; "memory::aligned_free"];
  shared "memory::details::null_memory_resource"                                (* 259-286: 271 *)
    ["memory::memory_resource"; "memory::null_memory_resource"];
  static_ "memory::system_memory_resource" ["memory::details::system_memory_resource"];  (* 221, 289-293 *)
  static_ "memory::null_memory_resource" ["memory::details::null_memory_resource"];      (* 222, 295-299 *)
  static_ "memory::set_default_resource" ["memory::details::default_resource"];          (* 301-305 *)
  static_ "memory::get_default_resource" ["memory::details::default_resource"]].         (* 307-310 *)

(** memory/allocator.h *)
Definition defs_allocator : list definition := [
  shared "memory::allocator" ["memory::memory_resource"; "memory::get_default_resource"]; (* 12-102: 101 *)
  shared "memory::allocator operator==" ["memory::allocator"];                  (* 104-108 *)
  shared "memory::allocator operator!=" ["memory::allocator"]].                 (* 110-114 *)
(** memory/monotonic_buffer_resource.h *)
Definition defs_monotonic : list definition := [
  shared "memory::monotonic_buffer_resource"                                    (* 12-98: 32, 45, 97; 74 *)
    ["memory::memory_resource"; "memory::get_default_resource"; "skip_to_align"]].
(** memory/simple_resource.h *)
Definition defs_simple : list definition := [
  shared "memory::details::allocate_not_matched" [];                            (* 22-49 *)
  shared "memory::details::allocate_begin_matched" [];                          (* 51-73 *)
  shared "memory::details::allocate_end_matched" [];                            (* 75-97 *)
  shared "memory::details::allocate_matched" [];                                (* 99-107 *)
  shared "memory::details::origin_and_block_count" ["is_power_of_2"; "skip_to_align"];   (* 109-134: 121 *)
  shared "memory::details::origin_and_block_count/2" ["memory::details::origin_and_block_count"];  (* 136-141 *)
  shared "memory::simple_resource"                                              (* 144-556: 192, 198, 551; 311; 171, 341, 359, 365, 378 *)
    ["memory::memory_resource"; "memory::get_default_resource"; "skip_to_align"; "abort_if"; "ctz";
     "memory::details::allocate_not_matched"; "memory::details::allocate_begin_matched";
     "memory::details::allocate_end_matched"; "memory::details::allocate_matched";
     "memory::details::origin_and_block_count"]].

(** what each header itself defines *)
Definition own_defs (h : header) : list definition :=
  match h with
  | H_common => defs_common | H_clz => defs_clz | H_ctz => defs_ctz | H_cxz => defs_cxz
  | H_type_list => defs_type_list | H_memory => defs_memory | H_allocator => defs_allocator
  | H_monotonic => defs_monotonic | H_simple => defs_simple
  | H_cartesian_product | H_detector | H_fast_pimpl | H_function_traits | H_padding_checker
  | H_timer | H_utils | H_value_list => []
  end.

(** the #include lines with quotes: clz.h:6-8, common.h:17, ctz.h:6-8, function_traits.h:6-7,
    type_list.h:8, utils.h:4-17, value_list.h:8, allocator.h:6, memory.h:15,
    monotonic_buffer_resource.h:6, simple_resource.h:13-14 *)
Definition direct (h : header) : list header :=
  match h with
  | H_clz | H_ctz => [H_common; H_cxz; H_type_list]
  | H_common => [H_value_list]
  | H_function_traits => [H_detector; H_type_list]
  | H_type_list => [H_cartesian_product]
  | H_value_list => [H_type_list]
  | H_allocator | H_monotonic => [H_memory]
  | H_memory => [H_ctz]
  | H_simple => [H_ctz; H_memory]
  | H_utils => [H_clz; H_common; H_ctz; H_detector; H_fast_pimpl; H_function_traits; H_allocator;
                H_memory; H_monotonic; H_simple; H_padding_checker; H_timer; H_type_list; H_value_list]
  | H_cartesian_product | H_detector | H_cxz | H_fast_pimpl | H_padding_checker | H_timer => []
  end.

(** no code: whether two headers are the same (the include guards tell them apart) *)
Definition header_eq_dec (a b : header) : {a = b} + {a <> b}.
Proof. decide equality. Defined.

(** The preprocessor.  Each header begins with an include guard (#ifndef utils_..._h): its
    text counts once per unit.  [depth] bounds the nesting; there are 17 headers.  Result: the
    headers in the order of their text, the latest first. *)
Fixpoint visit (depth : nat) (h : header) (seen : list header) : list header :=
  match depth with
  | O => seen
  | S depth' =>
    if in_dec header_eq_dec h seen then seen
    else h :: fold_left (fun acc g => visit depth' g acc) (direct h) seen
  end.
Definition all_headers (l : list header) : list header :=
  fold_left (fun acc h => visit 17 h acc) l [].

(** common.h:157-169 details::concatenate_arrays for two or more arrays: calls
    concatenate_2_arrays and itself, or, at the end, the overload for one (151-155) *)
Fixpoint concat_instances (a : array_arg) (rest : list array_arg) : list instance :=
  match rest with
  | [] => [Inst "details::concatenate_arrays/1" [a] []]
  | b :: rest' =>
    Inst "details::concatenate_arrays/2" (a :: b :: rest')
      ["details::concatenate_arrays/1"; "details::concatenate_arrays/2"; "details::concatenate_2_arrays"] ::
    concat_instances (Arr (element a) (size a + size b) Rvalue) rest'
  end.
(** common.h:211-219 concatenate_arrays *)
Definition call_instances (c : list array_arg) : list instance :=
  match c with
  | [] => []
  | a :: rest =>
    Inst "concatenate_arrays" c ["details::concatenate_arrays/1"; "details::concatenate_arrays/2"] ::
    concat_instances a rest
  end.

(** a source file after the preprocessor *)
Definition preprocess (s : source) : tunit :=
  Unit (flat_map own_defs (rev (all_headers (includes s))) ++ map (fun f => shared (fst f) (snd f)) (own s))
       (flat_map call_instances (concatenations s)).

(** ** The resources of several units.

    memory.h:289-299: system_memory_resource and null_memory_resource are static, so each
    unit has a function of its own, and with it a local static of its own.  [place] is where
    the linker puts these objects; 226-227 default_resource is inline, there is one, and the
    initialiser of one of the units (number 0) counts.  Simplification: one thread; the
    initialisation is over. *)
Definition unit_resource (place : nat -> which -> Z) (u : nat) (w : which) : Z := place u w.

(** memory.h:301-305, 307-310 *)
Definition units_step (place : nat -> which -> Z) (d : Z) (o : uop) : Z * uevent :=
  match o with
  | UGet u w => (d, UResource u (unit_resource place u w))
  | USetDefault u v w => (unit_resource place v w, UResource u d)
  | UDefault u => (d, UResource u d)
  end.
Fixpoint units_run (place : nat -> which -> Z) (d : Z) (ops : list uop) : list uevent :=
  match ops with
  | [] => []
  | o :: ops' => let (d', e) := units_step place d o in e :: units_run place d' ops'
  end.
Definition program_sees (place : nat -> which -> Z) (ops : list uop) : list uevent :=
  units_run place (unit_resource place 0 System) ops.

(** memory.h:203-207 operator==, 234-237 and 264-267 is_equal: the address of the other *)
Definition resources_equal (r q : Z) : bool := (q =? r)%Z.
