{
 "claims": [
  {
   "property": "C01",
   "status": "proved",
   "theorems": [
    "C01_is_power_of_2"
   ],
   "note": ""
  },
  {
   "property": "C02",
   "status": "proved",
   "theorems": [
    "C02_next_multiple_of",
    "C02_misuse_aborts"
   ],
   "note": "Includes the debug abort for a multiple that is not a power of two."
  },
  {
   "property": "C03",
   "status": "proved",
   "theorems": [
    "C03_unsigned",
    "C03_signed",
    "C03_signed_no_overflow"
   ],
   "note": "Signed types narrower than int wrap; int and wider have undefined behaviour exactly when v+P-1 is not representable."
  },
  {
   "property": "C04",
   "status": "proved",
   "theorems": [
    "C04_skip_to_align"
   ],
   "note": ""
  },
  {
   "property": "C05",
   "status": "proved",
   "theorems": [
    "C05_is_aligned",
    "C05_of_type"
   ],
   "note": ""
  },
  {
   "property": "C06",
   "status": "partial",
   "theorems": [
    "C06_max_alignment_partial",
    "C06_above_2GiB_refuted",
    "C06_above_4GiB_refuted",
    "C06_exact_partial"
   ],
   "note": "Proved while the result is below 2^31. Above that the code shifts an int: undefined behaviour or a wrong value (two refutations with witnesses). C06_exact_partial: for all powers of two and sizes, the answer is right iff a + n - 1 < 2^31."
  },
  {
   "property": "C07",
   "status": "proved",
   "theorems": [
    "C07_bit_length",
    "C07_bit_length_unique"
   ],
   "note": ""
  },
  {
   "property": "C08",
   "status": "proved",
   "theorems": [
    "C08_bool",
    "C08_greatest_divisor"
   ],
   "note": ""
  },
  {
   "property": "C09",
   "status": "proved",
   "theorems": [
    "C09_num_bits_table"
   ],
   "note": ""
  },
  {
   "property": "C10",
   "status": "proved",
   "theorems": [
    "C10_clz",
    "C10_platforms"
   ],
   "note": "Every intrinsic set that has a wide enough intrinsic."
  },
  {
   "property": "C11",
   "status": "proved",
   "theorems": [
    "C11_ctz",
    "C11_platforms"
   ],
   "note": "As C10."
  },
  {
   "property": "C12",
   "status": "proved",
   "theorems": [
    "C12_crafted_agrees"
   ],
   "note": ""
  },
  {
   "property": "C13",
   "status": "proved",
   "theorems": [
    "C13_get_alignment"
   ],
   "note": ""
  },
  {
   "property": "C14",
   "status": "proved",
   "theorems": [
    "C14_shift_right",
    "C14_shift_left_unsigned",
    "C14_shift_left_signed",
    "C14_excess_shift_aborts"
   ],
   "note": "Includes the aborting misuse case."
  },
  {
   "property": "C15",
   "status": "partial",
   "theorems": [
    "C15_div_constant_partial",
    "C15_div_runtime_partial",
    "C15_div_runtime_is_64bit_partial",
    "C15_division_unique",
    "C15_safe_types_partial",
    "C15_uint64_operands_partial",
    "C15_operands_exact_partial",
    "C15_div_modes_differ_refuted",
    "C15_bool_operand",
    "C15_two_bools"
   ],
   "note": "Proved for each evaluation mode; the two modes differ for operands that do not fit in 64-bit signed (refuted with a witness). C15_safe_types_partial: the modes agree on all operands exactly for the listed pairs of types; C15_uint64_operands_partial: exactly which uint64_t operands agree. C15_bool_operand, C15_two_bools: bool operands. C15_operands_exact_partial: for every pair of types with an unsigned common type, exactly which operands agree."
  },
  {
   "property": "C16",
   "status": "partial",
   "theorems": [
    "C16_div_as_partial",
    "C16_div_as_uint64_partial",
    "C16_div_as_uint64_refuted",
    "C16_bool"
   ],
   "note": "For every R but uint64_t both modes give the quotient and remainder in R; for R = uint64_t C16_div_as_uint64_partial says exactly which operands agree (refuted for others). R = bool: C16_bool."
  },
  {
   "property": "C17",
   "status": "proved",
   "theorems": [
    "C17_uint_from_nbits",
    "C17_uint_from_nbytes",
    "C17_fast_variant",
    "C17_fast_nbytes"
   ],
   "note": ""
  },
  {
   "property": "C18",
   "status": "proved",
   "theorems": [
    "C18_sum_size"
   ],
   "note": ""
  },
  {
   "property": "C19",
   "status": "proved",
   "theorems": [
    "C19_enum_properties"
   ],
   "note": ""
  },
  {
   "property": "C20",
   "status": "partial",
   "theorems": [
    "C20_values_in_range_partial",
    "C20_values_in_range_mixed_partial",
    "C20_exact_partial",
    "C20_mixed_exact_partial",
    "C20_cut_refuted",
    "C20_values_in_range_sound_partial",
    "C20_full_range_refuted"
   ],
   "note": "Proved when both bounds and their number are values of the common type and last+1 does not wrap; these conditions are exact, for bounds of one type (C20_exact_partial) and of any two types (C20_mixed_exact_partial). Refuted for the full range of an unsigned type (empty list) and for a 64-bit first with the greatest 32-bit unsigned last (C20_cut_refuted: the list ends at -1)."
  },
  {
   "property": "C21",
   "status": "partial",
   "theorems": [
    "C21_ascending_partial",
    "C21_descending_refuted",
    "C21_max_end_diverges_refuted",
    "C21_ascending_exact_partial",
    "C21_descending_exact_partial"
   ],
   "note": "Proved for ascending ranges whose end is not the maximum; descending ranges and ranges ending at the type's maximum are refuted. C21_ascending_exact_partial and C21_descending_exact_partial give, for each direction, the exact condition (iff) under which the result is the documented progression."
  },
  {
   "property": "C22",
   "status": "proved",
   "theorems": [
    "C22_concatenate_arrays"
   ],
   "note": ""
  },
  {
   "property": "C23",
   "status": "partial",
   "theorems": [
    "C23_make_array_value_partial",
    "C23_make_zero_array_partial",
    "C23_make_array_args",
    "C23_make_array_args_same_type",
    "C23_moved_from_value_refuted",
    "C23_make_array_value_exact_partial",
    "C23_make_array_sv",
    "C23_make_array_sv_short",
    "C23_sv_to_array"
   ],
   "note": "All parts proved except N copies of v: the element constructor moves from the same parameter N times, so the copies are equal only when a move leaves the source unchanged (refuted for the rest). C23_make_array_value_exact_partial says what every element is and exactly when all are copies."
  },
  {
   "property": "C24",
   "status": "proved",
   "theorems": [
    "C24_is_equal",
    "C24_later_elements_irrelevant",
    "C24_count_too_big_aborts"
   ],
   "note": ""
  },
  {
   "property": "C25",
   "status": "proved",
   "theorems": [
    "C25_memvcmp",
    "C25_memvcmp_local",
    "C25_memvcmp_reads",
    "C25_memvcmp_first_byte"
   ],
   "note": ""
  },
  {
   "property": "C26",
   "status": "proved",
   "theorems": [
    "C26_secure_zero_memory",
    "C26_secure_zero_memory_safe",
    "C26_undefined"
   ],
   "note": "The sysops/memset_s branches of MSVC and Annex K are not modelled."
  },
  {
   "property": "C27",
   "status": "partial",
   "theorems": [
    "C27_memmove_runtime",
    "C27_memmove_constant_partial",
    "C27_memmove_constant_overlap_refuted",
    "C27_memmove_constant_exact_partial",
    "C27_undefined"
   ],
   "note": "Run-time evaluation proved for every overlap. Compile-time evaluation proved right exactly when, with dst above src, the source repeats itself with period dst-src (C27_memmove_constant_exact_partial); otherwise it repeats the first dst-src bytes. C27_undefined says exactly when inaccessible memory makes the call undefined."
  },
  {
   "property": "C28",
   "status": "partial",
   "theorems": [
    "C28_memcpy_runtime",
    "C28_memcpy_modes_agree_partial",
    "C28_memcpy_bool_refuted",
    "C28_memcpy_modes_exact_partial",
    "C28_memcpy_undefined",
    "C28_memcpy_constant_undefined",
    "C28_memcpy_constant_overlap_partial"
   ],
   "note": "Run time proved, with the exact condition for undefined behaviour; compile time agrees exactly when the destination is not bool or all bytes are 0 or 1 (C28_memcpy_modes_exact_partial)."
  },
  {
   "property": "C29",
   "status": "proved",
   "theorems": [
    "C29_bit_cast",
    "C29_round_trip",
    "C29_undefined",
    "C29_sizes_must_match"
   ],
   "note": ""
  },
  {
   "property": "C30",
   "status": "proved",
   "theorems": [
    "C30_for_each_arg",
    "C30_for_each_in_tuple",
    "C30_run_unique"
   ],
   "note": ""
  },
  {
   "property": "C31",
   "status": "proved",
   "theorems": [
    "C31_at_is_positional",
    "C31_at_with_predicate"
   ],
   "note": "Both the plain positional query and at_with_predicate."
  },
  {
   "property": "C32",
   "status": "proved",
   "theorems": [
    "C32_first_match"
   ],
   "note": ""
  },
  {
   "property": "C33",
   "status": "partial",
   "theorems": [
    "C33_counting_queries",
    "C33_contains_is_membership",
    "C33_contains_list_is_inclusion",
    "C33_contains_exact_partial",
    "C33_contains_nested_refuted"
   ],
   "note": "Counting, containment and inclusion are proved for plain element types. contains<T> is false of the claim when the queried type is itself a type_list: the query is read as list inclusion (C33_contains_nested_refuted). C33_contains_exact_partial: it asks for every type written in T at any depth."
  },
  {
   "property": "C34",
   "status": "proved",
   "theorems": [
    "C34_predicate_compliant_is_filter"
   ],
   "note": ""
  },
  {
   "property": "C35",
   "status": "proved",
   "theorems": [
    "C35_sublist_window"
   ],
   "note": ""
  },
  {
   "property": "C36",
   "status": "proved",
   "theorems": [
    "C36_exclude_at"
   ],
   "note": ""
  },
  {
   "property": "C37",
   "status": "proved",
   "theorems": [
    "C37_concatenate",
    "C37_concatenate_associative",
    "C37_concatenate_neutral"
   ],
   "note": ""
  },
  {
   "property": "C38",
   "status": "proved",
   "theorems": [
    "C38_extreme_index"
   ],
   "note": ""
  },
  {
   "property": "C39",
   "status": "proved",
   "theorems": [
    "C39_sort_is_stable",
    "C39_stable_sort_unique"
   ],
   "note": ""
  },
  {
   "property": "C40",
   "status": "proved",
   "theorems": [
    "C40_value_queries"
   ],
   "note": ""
  },
  {
   "property": "C41",
   "status": "proved",
   "theorems": [
    "C41_values_of_type"
   ],
   "note": ""
  },
  {
   "property": "C42",
   "status": "proved",
   "theorems": [
    "C42_cartesian_product_types",
    "C42_cartesian_product_values",
    "C42_accepts"
   ],
   "note": ""
  },
  {
   "property": "C43",
   "status": "proved",
   "theorems": [
    "C43_const",
    "C43_volatile",
    "C43_lvalue_reference",
    "C43_rvalue_reference",
    "C43_noexcept"
   ],
   "note": ""
  },
  {
   "property": "C44",
   "status": "proved",
   "theorems": [
    "C44_const",
    "C44_volatile",
    "C44_reference",
    "C44_noexcept",
    "C44_all",
    "C44_idempotent_commute"
   ],
   "note": ""
  },
  {
   "property": "C45",
   "status": "proved",
   "theorems": [
    "C45_return_type",
    "C45_params_list",
    "C45_determined"
   ],
   "note": "C-variadic function types are C85."
  },
  {
   "property": "C46",
   "status": "proved",
   "theorems": [
    "C46_is_detected",
    "C46_detected_or_well_formed",
    "C46_detected_or_ill_formed",
    "C46_exact",
    "C46_exact_nonesuch"
   ],
   "note": "C46_exact_nonesuch shows that the exclusion of nonesuch is needed."
  },
  {
   "property": "C47",
   "status": "partial",
   "theorems": [
    "C47_classifies_partial",
    "C47_signature_function",
    "C47_signature_functor",
    "C47_signature_none",
    "C47_const_pointer_refuted",
    "C47_variadic_pointer_refuted"
   ],
   "note": "is_invocable is exact except for pointers (to functions or members) with a top-level const or volatile and for pointers to C-variadic functions, where it answers false (two refutations). signature_t is proved in full."
  },
  {
   "property": "C48",
   "status": "proved",
   "theorems": [
    "C48_exact",
    "C48_layout"
   ],
   "note": "Boost.PFR's member listing is assumed; array members, bit-fields and bases are not modelled."
  },
  {
   "property": "C49",
   "status": "proved",
   "theorems": [
    "C49_construction"
   ],
   "note": "Closed for every buffer address and size below 2^64 and every configuration. MaxBlockCount = 1 does not compile and is excluded by cfg_ok."
  },
  {
   "property": "C50",
   "status": "partial",
   "theorems": [
    "C50_no_overlap_partial",
    "C50_pool_clients",
    "C50_stack_clients",
    "C50_debug_bounds",
    "C50_pinned_partial",
    "C50_no_overlap_refuted",
    "C50_astray_refuted",
    "C50_release_outside_refuted",
    "C50_release_inside_refuted",
    "C50_release_full_refuted",
    "C50_distinct_partial",
    "C50_same_pointer_refuted"
   ],
   "note": "Refuted as stated: C50_no_overlap_refuted is a four-call history after which two live allocations overlap, in both builds. Proved: disjointness and bounds for every history of a careful client (one whose searches stop at the first free region that can hold the request, or find none; pool and stack clients are shown to be such clients); bounds for every history whatsoever in debug builds. C50_pinned_partial: in debug builds, a client that takes the first block first and keeps it sees, for every other history that terminates, exactly an ideal first-fit allocator. C50_astray_refuted: from every consistent state whose first region is in use and longer than a block, a request that the first free region (not the last one) cannot hold is given memory inside that first region. In release builds a request that takes the whole of the first free region is shown, for every consistent state, to make the next request return memory behind the buffer (C50_release_outside_refuted), inside the region that follows (C50_release_inside_refuted) or, for MaxBlockCount = 2^8, 2^16 or 2^32, inside the whole buffer already given out (C50_release_full_refuted). C50_same_pointer_refuted: a request aligned beyond BlockSize is given the very pointer that is still live, on the fourth call. C50_distinct_partial: in debug builds and with alignments up to BlockSize, the live pointers are pairwise different after every history. C60_until_overlap_exact_partial ties inconsistency to the first overlap."
  },
  {
   "property": "C51",
   "status": "proved",
   "theorems": [
    "C51_alignment"
   ],
   "note": "For every history, safe or not, in both builds."
  },
  {
   "property": "C52",
   "status": "partial",
   "theorems": [
    "C52_allocate_returns_partial",
    "C52_allocate_returns_refuted",
    "C52_hangs_refuted",
    "C52_exact_partial",
    "C52_exact_long_partial"
   ],
   "note": "Refuted as stated: C52_allocate_returns_refuted gives a reachable state and request for which no amount of fuel is enough; C52_hangs_refuted characterises a whole family of such states. Proved: careful requests return. C52_exact_partial is exact for every state whose first region is one block: a request never returns if and only if a free region that is too small, neither first nor last, has no fitting region before it. C52_exact_long_partial is the exact condition for all other consistent states (first region of two blocks or more); its side condition on the index stored for block 1 holds in every state a debug build reaches. C53_search_exact_partial has the exact outcome, including non-termination, for every debug history, also where the links are no longer consistent."
  },
  {
   "property": "C53",
   "status": "partial",
   "theorems": [
    "C53_first_fit_partial",
    "C53_conforms_partial",
    "C53_first_fit_refuted",
    "C53_astray_refuted",
    "C53_search_exact_partial"
   ],
   "note": "Refuted as stated by C53_first_fit_refuted. Proved for every consistent state when no too-small free region precedes the fitting one in the way search_safe describes, and one byte is left over. C53_conforms_partial: in debug builds, from every state whose first region is one block, each answer that is given is that of the ideal first-fit allocator. C53_astray_refuted says where exactly the memory comes from instead when the first region is longer than a block and the first free region is too small and not the last. C53_search_exact_partial: in debug builds, after every history that returned (consistent or not), the outcome of every request is exactly determined by what a walk over next_index() and in_use() comes upon: served from the named block, abort when no byte is left over, upstream or null, or no return."
  },
  {
   "property": "C54",
   "status": "partial",
   "theorems": [
    "C54_upstream_partial",
    "C54_long_partial",
    "C54_no_block",
    "C54_exact_partial",
    "C54_alignment_refuted",
    "C54_served_refuted"
   ],
   "note": "Refuted as stated in both directions: C54_alignment_refuted (upstream asked although the request fits) and C54_served_refuted (served although nothing fits). Proved for careful requests and for resources without blocks. C54_long_partial: the request is passed on when the search strays to block 1 and finds too few blocks up to the end of the buffer. C54_exact_partial says exactly when upstream is asked, after every debug history: the alignment is out of reach or the search from block 0 ends without a region; then nothing changes and the answer is the one of upstream."
  },
  {
   "property": "C55",
   "status": "partial",
   "theorems": [
    "C55_exact_fill_refuted",
    "C55_exact_fill_release_refuted",
    "C55_forgets_refuted",
    "C55_blocks_exact_partial",
    "C55_extra_block_refuted"
   ],
   "note": "Refuted as stated: a request that fills the first free region to its last byte aborts in every debug state (C55_exact_fill_refuted); in release builds it overruns the arrays in every state where they end with the buffer or one entry later (C55_exact_fill_release_refuted), makes the resource forget every other region when there is one block fewer than BIndex can count (C55_forgets_refuted), and otherwise spoils the next request (C50_release_outside_refuted, C50_release_inside_refuted, C50_release_full_refuted); a request of BlockSize bytes occupies two blocks (C55_extra_block_refuted). C55_blocks_exact_partial: when a byte is left over the request is served and occupies ceil(n/BlockSize) blocks exactly when BlockSize does not divide n, and one more otherwise."
  },
  {
   "property": "C56",
   "status": "proved",
   "theorems": [
    "C56_deallocate"
   ],
   "note": "For every consistent state (wf) and every address in the buffer."
  },
  {
   "property": "C57",
   "status": "partial",
   "theorems": [
    "C57_until_overlap_partial",
    "C57_coalesced_partial",
    "C57_coalesced_refuted"
   ],
   "note": "Proved for every consistent state, and (C57_until_overlap_partial) after every history with alignments up to BlockSize and no release() in which no block was granted twice, whatever the search did. Refuted after histories that granted memory twice (C57_coalesced_refuted)."
  },
  {
   "property": "C58",
   "status": "partial",
   "theorems": [
    "C58_until_overlap_partial",
    "C58_bracket_partial",
    "C58_allocate_deallocate_partial",
    "C58_allocate_deallocate_refuted"
   ],
   "note": "Proved for every consistent state and every request whose search is safe; C58_until_overlap_partial: after every history with alignments up to BlockSize and no release() that granted no block twice, for every request whose memory overlaps nothing in use, whether the search was right or went astray; C58_bracket_partial: the same for any series of calls that gives back what it took. Refuted for a request that is given memory in use (C58_allocate_deallocate_refuted)."
  },
  {
   "property": "C59",
   "status": "partial",
   "theorems": [
    "C59_until_overlap_partial",
    "C59_counts_partial",
    "C59_counts_refuted",
    "C59_busy_count"
   ],
   "note": "busy_count() equals the number of live allocations after every history without release (C59_busy_count). Both counts are right after every careful history and (C59_until_overlap_partial) after every history with alignments up to BlockSize and no release() that granted no block twice; C59_counts_refuted is a history after which both are wrong about the region list. C63_live_refuted contains a history after which free_count() is 2^64-1."
  },
  {
   "property": "C60",
   "status": "partial",
   "theorems": [
    "C60_tiling_partial",
    "C60_lengths",
    "C60_walk_partial",
    "C60_until_overlap_partial",
    "C60_until_overlap_exact_partial",
    "C60_large_alignment_refuted",
    "C60_tiling_refuted"
   ],
   "note": "Proved after every careful history; C60_tiling_refuted gives a history whose links no list of regions explains. C60_walk_partial: in debug builds, after every history whatsoever, the walk by next_index() from any block goes up and ends, and block_size() and block_size_in_bytes() are positive and within the buffer. C60_until_overlap_partial and C60_until_overlap_exact_partial (both builds, alignments up to BlockSize, no release): as long as the blocks granted to the live allocations are pairwise disjoint and, in release builds, inside the buffer, whether or not the client is careful, everything the observers show is right; the first moment of a terminating history at which it is wrong is exactly the first at which two grants overlap (or, in release builds, one leaves the buffer). With an alignment above BlockSize the links can go wrong although nothing has been granted twice (C60_large_alignment_refuted)."
  },
  {
   "property": "C61",
   "status": "partial",
   "theorems": [
    "C61_release_partial",
    "C61_release_refuted",
    "C61_one_block_partial",
    "C61_pinned_partial",
    "C61_first_only_refuted",
    "C61_pool_refuted",
    "C61_no_block_refuted",
    "C61_release_exact_partial"
   ],
   "note": "Proved after every history of single-block requests and, C61_one_block_partial, from every consistent state whose first region is one block; in debug builds after every history of a client that takes block 0 first and keeps it (C61_pinned_partial). Refuted in general: C61_release_refuted leaves an allocation in place, C61_first_only_refuted and C61_pool_refuted show that only the first allocation is released from every state whose first region is longer and whose block 1 has no next index, in particular after every history of requests of k >= 2 blocks each; C61_no_block_refuted aborts on a resource without blocks. C61_release_exact_partial: exactly which blocks are given back, after every debug history."
  },
  {
   "property": "C62",
   "status": "partial",
   "theorems": [
    "C62_destructor_partial",
    "C62_destructor_refuted",
    "C62_exact_partial",
    "C62_every_partial"
   ],
   "note": "Proved for every history without release(), safe or not. C62_destructor_refuted: release() can leave busy_count() nonzero. C62_exact_partial: in debug builds, after every history that comes to an end, releases and misused pointers included, busy_count() is what was served less what was returned and what each release() gave back, and the destructor aborts exactly when that is not 0. C62_every_partial: in every build, after every history that comes to an end, the same with what each release() gave back counted by in_use()."
  },
  {
   "property": "C63",
   "status": "partial",
   "theorems": [
    "C63_pointers_returned_partial",
    "C63_pointers_returned_refuted",
    "C63_debug_refuted",
    "C63_pinned_partial",
    "C63_foreign_exact_partial",
    "C63_answer_exact_partial",
    "C63_deallocate_exact_partial",
    "C63_live_exact_partial",
    "C63_live_refuted",
    "C63_until_overlap_partial"
   ],
   "note": "Proved for careful clients and, in debug builds, for every client that takes block 0 first and keeps it (C63_pinned_partial). Pointers from the upstream: C63_foreign_exact_partial (after every history they are passed on exactly when they are multiples of BlockSize) and C63_answer_exact_partial (debug builds abort in allocate otherwise). Refuted for upstream pointers with only the requested alignment, in both builds. C63_deallocate_exact_partial: in debug builds, after every history of fewer than 2^64 calls (consistent or not), exactly which pointers into the buffer can be given back and what that changes; C63_live_exact_partial is the condition for live pointers where alignments are at most BlockSize; C63_live_refuted: a five-call history after which no live pointer can be given back (free_count() has wrapped to 2^64-1). C63_until_overlap_partial: as long as no blocks have been granted twice (release builds: or behind the buffer), every live pointer can be given back."
  },
  {
   "property": "C64",
   "status": "proved",
   "theorems": [
    "C64_single_block"
   ],
   "note": "Refinement to an ideal first-fit allocator for every history of single-block requests, deallocations and releases."
  },
  {
   "property": "C65",
   "status": "partial",
   "theorems": [
    "C65_oversized_partial",
    "C65_oversized_refuted",
    "C65_release_partial",
    "C65_after_fill_refuted"
   ],
   "note": "Proved in debug builds after every history, for every size and alignment (C65_oversized_partial), and in release builds after every history that the debug build passes, for size + align <= 2^64 (C65_release_partial). Refuted in release builds for sizes near 2^64 (wraparound) and after the buffer was filled to the last byte (C65_after_fill_refuted)."
  },
  {
   "property": "C66",
   "status": "partial",
   "theorems": [
    "C66_disjoint_partial",
    "C66_disjoint_refuted",
    "C66_exact_partial",
    "C66_lower_half",
    "C66_no_room_refuted"
   ],
   "note": "Proved for every history of requests whose padding and size stay below 2^64. Refuted beyond: a request of 2^64-4 bytes is served and later memory overlaps (C66_disjoint_refuted). C66_exact_partial: for requests of every size, in any buffer, if each alignment leaves room for one aligned address behind the buffer (always so in the lower half of the address space, C66_lower_half): alignment always holds and the rest holds exactly when nothing handed out since the last release runs past 2^64. C66_no_room_refuted: without that room an answer can lie outside the buffer."
  },
  {
   "property": "C67",
   "status": "partial",
   "theorems": [
    "C67_least_padding_partial",
    "C67_least_padding_refuted",
    "C67_exact_partial",
    "C67_exact_any_partial"
   ],
   "note": "Proved (exactly when it fits, at the least suitable address) below the wraparound; refuted for a request of 2^64-4 bytes. C67_exact_partial is the exact rule for requests of every size after a history without wraparound. C67_exact_any_partial extends the rule to histories of requests of every size and any final alignment."
  },
  {
   "property": "C68",
   "status": "proved",
   "theorems": [
    "C68_rewind"
   ],
   "note": "The calls after release are answered as by a fresh resource after every history."
  },
  {
   "property": "C69",
   "status": "proved",
   "theorems": [
    "C69_deallocate_ignored"
   ],
   "note": "Erasing the deallocate calls from any history changes nothing else."
  },
  {
   "property": "C70",
   "status": "partial",
   "theorems": [
    "C70_upstream_partial",
    "C70_upstream_refuted",
    "C70_exact_partial",
    "C70_state_refuted"
   ],
   "note": "Proved below the wraparound; C70_exact_partial: for requests and histories of every size exactly when the upstream is asked, and nothing changes then if the alignment leaves room behind the buffer. Refuted: a request of 2^64-4 bytes is served by the buffer although it cannot be (C70_upstream_refuted); without that room a request that was passed on can leave the buffer handing out address 8 (C70_state_refuted)."
  },
  {
   "property": "C71",
   "status": "partial",
   "theorems": [
    "C71_room_partial",
    "C71_room_refuted",
    "C71_exact_partial"
   ],
   "note": "Proved over every safe resource for products below 2^64; refuted when the product wraps. C71_exact_partial: for every count there is room for exactly the product modulo 2^64."
  },
  {
   "property": "C72",
   "status": "proved",
   "theorems": [
    "C72_objects",
    "C72_new_one",
    "C72_delete_one"
   ],
   "note": "Over every safe resource and every sequence of calls deleting only living objects; the behaviour of a single call is proved for any resource."
  },
  {
   "property": "C73",
   "status": "proved",
   "theorems": [
    "C73_aligned_malloc",
    "C73_system"
   ],
   "note": "For every behaviour of posix_memalign; C73_system lifts it to whole histories."
  },
  {
   "property": "C74",
   "status": "proved",
   "theorems": [
    "C74_register"
   ],
   "note": "Every number of threads, program and schedule; both operations are single atomic steps (std::atomic, sequentially consistent)."
  },
  {
   "property": "C75",
   "status": "partial",
   "theorems": [
    "C75_called_once_partial",
    "C75_runs",
    "C75_at_most_once",
    "C75_called_once_refuted",
    "C75_exact_partial"
   ],
   "note": "Proved for every history that never move-assigns onto a timer still owning a callback; at most once in every history. C75_called_once_refuted: move assignment drops the target's callback. C75_exact_partial: what becomes of every callable in every history; all are called exactly once iff no assignment forgot one."
  },
  {
   "property": "C76",
   "status": "partial",
   "theorems": [
    "C76_move_partial",
    "C76_self_move_refuted",
    "C76_self_exact_partial",
    "C76_reset"
   ],
   "note": "Proved for every pair of different timers after every history; refuted for self-move, which loses the callback. C76_self_exact_partial: what self-move does, always."
  },
  {
   "property": "C77",
   "status": "proved",
   "theorems": [
    "C77_leaked_exact",
    "C77_leaked_monotone",
    "C77_units"
   ],
   "note": "Exact value, monotonicity and relation between units, for a steady clock with 63-bit nanosecond readings."
  },
  {
   "property": "C78",
   "status": "proved",
   "theorems": [
    "C78_like_plain",
    "C78_balance",
    "C78_validate"
   ],
   "note": "Refinement: every fast_pimpl<T> program, throwing constructors and assignments included, behaves as the same program with plain T objects whose destructor is noexcept (for destructors that throw see C111)."
  },
  {
   "property": "C79",
   "status": "proved",
   "theorems": [
    "C79_abort_if",
    "C79_debug",
    "C79_shorthand"
   ],
   "note": "Also shows that the abort shorthands of the other models are these macros."
  },
  {
   "property": "C80",
   "status": "partial",
   "theorems": [
    "C80_upstream_memory_refuted"
   ],
   "note": "Refuted: in no history does the resource call the upstream's deallocate. Nothing of the property holds, so there is no positive part."
  },
  {
   "property": "C81",
   "status": "partial",
   "theorems": [
    "C81_arguments_partial",
    "C81_arguments_refuted",
    "C81_unchanged_exact_partial",
    "C81_exact_partial"
   ],
   "note": "Proved for rvalue arguments of the allocator's value type; refuted for lvalues (moved from), const objects and unrelated types (converted to the value type or rejected). C81_unchanged_exact_partial: the exact condition; C81_exact_partial: what arrives for every argument list."
  },
  {
   "property": "C82",
   "status": "partial",
   "theorems": [
    "C82_mono_over_partial",
    "C82_simple_over_partial",
    "C82_simple_mixed_refuted",
    "C82_mono_huge_refuted",
    "C82_null"
   ],
   "note": "Proved for the null and system resources, for monotonic_buffer_resource below the wraparound, and for simple_resource, with or without upstream, with requests of one number of blocks (any number) aligned to BlockSize (without upstream: up to it). Refuted for simple_resource with mixed sizes and for monotonic buffers with sizes that wrap around."
  },
  {
   "property": "C83",
   "status": "partial",
   "theorems": [
    "C83_equality_partial",
    "C83_equality_refuted",
    "C83_units_exact_partial",
    "C83_calls_exact_partial",
    "C83_calls_refuted",
    "C83_default_partial"
   ],
   "note": "Equality is identity; refuted across translation units, each of which has its own system_memory_resource. Exact: two units see one system resource only when they are the same unit. In whole programs of several units (UnitsModel.v): C83_calls_exact_partial says when any two calls see equal resources, C83_default_partial that the default resource is shared by all units."
  },
  {
   "property": "C84",
   "status": "partial",
   "theorems": [
    "C84_callable_destroyed_refuted"
   ],
   "note": "Refuted: no history runs the destructor of a stored callable. Nothing of the property holds, so there is no positive part."
  },
  {
   "property": "C85",
   "status": "partial",
   "theorems": [
    "C85_variadic_refuted",
    "C85_total_partial"
   ],
   "note": "Refuted: no trait compiles for a function type with a C ellipsis. Exact: among function types each of the twelve traits compiles if and only if there is none."
  },
  {
   "property": "C86",
   "status": "partial",
   "theorems": [
    "C86_convertible_partial",
    "C86_convertible_refuted",
    "C86_exact_partial"
   ],
   "note": "Exact when nonesuch does not convert to To; refuted for a To constructible from anything. C86_exact_partial gives the answer in all cases."
  },
  {
   "property": "C87",
   "status": "partial",
   "theorems": [
    "C87_no_false_alarm_partial",
    "C87_exact_partial",
    "C87_nonaggregate_refuted",
    "C87_nested_refuted",
    "C87_empty_refuted"
   ],
   "note": "No false alarms (proved); refuted: padding inside a trivially copyable non-aggregate is missed, and an empty member struct does not compile. C87_exact_partial gives the exact answer for every type: classes that are no aggregates count as one piece."
  },
  {
   "property": "C88",
   "status": "proved",
   "theorems": [
    "C88_has_type",
    "C88_has_exact_type",
    "C88_has_convertible_type"
   ],
   "note": "Expected other than nonesuch, and nonesuch not convertible to To (see C46, C86)."
  },
  {
   "property": "C89",
   "status": "partial",
   "theorems": [
    "C89_has_data_partial",
    "C89_has_static_data_partial",
    "C89_reference_refuted",
    "C89_bitfield_refuted",
    "C89_static_reference_refuted"
   ],
   "note": "Refuted for reference members, bit-fields and static references to functions; exact for all others."
  },
  {
   "property": "C90",
   "status": "proved",
   "theorems": [
    "C90_has_invocable_r",
    "C90_names",
    "C90_has_static_invocable_r"
   ],
   "note": "Function templates in the overload set are not modelled."
  },
  {
   "property": "C91",
   "status": "proved",
   "theorems": [
    "C91_has_invocable",
    "C91_has_invocable_noexcept",
    "C91_has_static_invocable"
   ],
   "note": "Overload resolution is taken from the language as an arbitrary partial function."
  },
  {
   "property": "C92",
   "status": "proved",
   "theorems": [
    "C92_invocable",
    "C92_noexcept_invocable",
    "C92_invocable_r",
    "C92_noexcept_invocable_r"
   ],
   "note": "As C91; R other than nonesuch."
  },
  {
   "property": "C93",
   "status": "partial",
   "theorems": [
    "C93_is_uint_partial",
    "C93_is_uint_or_byte_partial",
    "C93_cv_bool_refuted",
    "C93_cv_byte_refuted",
    "C93_exact_partial"
   ],
   "note": "Exact for every type but bool and std::byte with a top-level const or volatile: const bool counts as an unsigned integer other than bool, const std::byte is missed (two refutations). Exact answer given for every type."
  },
  {
   "property": "C94",
   "status": "proved",
   "theorems": [
    "C94_is_equal_sizes"
   ],
   "note": "Proved for every list of types."
  },
  {
   "property": "C95",
   "status": "proved",
   "theorems": [
    "C95_is_std_array",
    "C95_parts",
    "C95_concatenate_arrays"
   ],
   "note": "Proved for every list of argument types; a volatile std::array has no std::get and is rejected."
  },
  {
   "property": "C96",
   "status": "partial",
   "theorems": [
    "C96_unwrap_partial",
    "C96_cv_refuted",
    "C96_exact_partial"
   ],
   "note": "Exact for types without top-level cv; a const reference_wrapper or tuple is not recognised (refuted). Exact answer given for every type."
  },
  {
   "property": "C97",
   "status": "proved",
   "theorems": [
    "C97_history",
    "C97_captured"
   ],
   "note": "Proved for every history."
  },
  {
   "property": "C98",
   "status": "partial",
   "theorems": [
    "C98_usable_partial",
    "C98_null_refuted",
    "C98_exact_partial"
   ],
   "note": "Proved while nobody makes null the default; refuted otherwise: set_default_resource(nullptr) does not restore the system resource. C98_exact_partial: usable iff the resource it captured is not null."
  },
  {
   "property": "C99",
   "status": "partial",
   "theorems": [
    "C99_startup_partial",
    "C99_startup_refuted",
    "C99_exact_partial",
    "C99_reads"
   ],
   "note": "Proved for variables of units that include the header; refuted for a unit that does not and calls into one that does. C99_exact_partial: a unit is safe in every allowed order iff it includes the header; C99_reads says what every initialiser reads in every order."
  },
  {
   "property": "C100",
   "status": "partial",
   "theorems": [
    "C100_same_type_partial",
    "C100_other_type_refuted",
    "C100_exact_partial"
   ],
   "note": "Proved for one value type. Refuted for different ones: conversion and comparison need the private member of another class and never compile. Exact: both compile if and only if the value types are the same."
  },
  {
   "property": "C101",
   "status": "proved",
   "theorems": [
    "C101_not_trivially_copyable"
   ],
   "note": "std::disjunction stops before the sizes are added up, so empty members do not matter."
  },
  {
   "property": "C102",
   "status": "partial",
   "theorems": [
    "C102_accepted_can_be_called_partial",
    "C102_exact_partial",
    "C102_function_name_refuted",
    "C102_generic_refuted",
    "C102_const_object_refuted"
   ],
   "note": "Whatever is accepted can be called (proved); C102_exact_partial gives the exact condition. Refuted: functions that are not noexcept (or return a value) when passed by name, generic lambdas whose body needs a timer (they are tried with a duration), const objects with a call operator that is not const. Overloaded call operators, volatile, pointers to members and conversions to function pointers are not modelled."
  },
  {
   "property": "C103",
   "status": "proved",
   "theorems": [
    "C103_recognised",
    "C103_concatenate_kind"
   ],
   "note": ""
  },
  {
   "property": "C104",
   "status": "proved",
   "theorems": [
    "C104_alignment",
    "C104_max_alignment",
    "C104_zero",
    "C104_crafted_zero",
    "C104_shift",
    "C104_div",
    "C104_div_as",
    "C104_memcpy",
    "C104_monotonic",
    "C104_simple"
   ],
   "note": "Exact (if and only if) for all functions but simple_resource::allocate, which has further asserts; C104_zero and C104_crafted_zero give the release outcome too."
  },
  {
   "property": "C105",
   "status": "proved",
   "theorems": [
    "C105_round_trip",
    "C105_order"
   ],
   "note": "For enumerations whose underlying type is an integer type; bool as underlying type is not modelled."
  },
  {
   "property": "C106",
   "status": "partial",
   "theorems": [
    "C106_alone_partial",
    "C106_separate_partial",
    "C106_null",
    "C106_assigned_refuted",
    "C106_twins_refuted",
    "C106_forgotten_refuted",
    "C106_exact_partial"
   ],
   "note": "Proved for every program that does not assign resources: each resource behaves as if alone (C106_alone_partial), and memory from different resources is disjoint within the limits of C66 and C50 (C106_separate_partial). Refuted as stated: the classes delete only the copy constructor, so x = y compiles, and then both hand out the same memory (C106_assigned_refuted, C106_twins_refuted), and live allocations are forgotten (C106_forgotten_refuted). C106_exact_partial: in every program, assignments included, a call does what it does for a lone resource with the past that assignments gave it."
  },
  {
   "property": "C107",
   "status": "partial",
   "theorems": [
    "C107_own_code_partial",
    "C107_base_refuted",
    "C107_exact_partial"
   ],
   "note": "Proved for every history whose assignments through memory_resource& are between objects of one class. Refuted otherwise: the implicit assignment copies the member function pointers, and every later allocate or deallocate is undefined behaviour. C107_exact_partial: after every program, a call is defined exactly when the resource the pointers were copied from has the class of the object."
  },
  {
   "property": "C108",
   "status": "partial",
   "theorems": [
    "C108_text_partial",
    "C108_path_refuted",
    "C108_path_exact_partial",
    "C108_boundaries_partial",
    "C108_block_partial",
    "C108_size_refuted"
   ],
   "note": "Proved when the path of the source file holds no % sign: where (file, line, function) and why. Refuted: __FILE__ is pasted into the format, so a conversion in the path is undefined behaviour (C108_path_refuted) or, for %% and %s, another text: C108_path_exact_partial says that a message without arguments is right exactly when the path holds no %. The messages of ~simple_resource and of a misaligned deallocate print a std::size_t with %d and are never defined; the message about a block that is not in use is defined exactly when the index type has at most 32 bits and the index fits an int. Meaning of vfprintf restricted to %s, %d, %p and %% without flags, widths and precisions."
  },
  {
   "property": "C109",
   "status": "partial",
   "theorems": [
    "C109_told_apart_partial",
    "C109_by_content_partial",
    "C109_equal_contents_refuted",
    "C109_variable_refuted",
    "C109_variable_copies_refuted"
   ],
   "note": "Proved for objects that are constants with different contents (C109_told_apart_partial); for all constants the queries compare type and content (C109_by_content_partial, exact). Refuted: constants with one content are taken for one another, and an object that is not a constant cannot be looked for (does not compile) wherever a reference of its type stands. list_all_of and at keep references as they are and are not modelled here; min and max do not compile for references."
  },
  {
   "property": "C110",
   "status": "partial",
   "theorems": [
    "C110_intact_partial",
    "C110_exact_partial",
    "C110_intact_refuted"
   ],
   "note": "Proved for callables whose bytes do not depend on their address; C110_exact_partial says exactly when a callable is intact. Refuted: the move copies bytes and runs no move constructor, so a callable with a pointer into itself points into the old timer after one move."
  },
  {
   "property": "C111",
   "status": "partial",
   "theorems": [
    "C111_quiet_partial",
    "C111_exact_partial",
    "C111_destructor_refuted",
    "C111_nothrow"
   ],
   "note": "Proved for all histories in which no destructor throws, and C111_exact_partial: for exactly the classes with a noexcept destructor do all histories agree. Refuted for a destructor that throws: ~fast_pimpl is implicitly noexcept, so the program is terminated."
  },
  {
   "property": "C112",
   "status": "partial",
   "theorems": [
    "C112_one_use",
    "C112_same_name",
    "C112_ordinary_partial",
    "C112_exact_partial",
    "C112_clash_refuted"
   ],
   "note": "Proved for one use, for different macros with one name, and for names without the endings the macros add; C112_exact_partial lists exactly the pairs of uses that declare a common name. Refuted for names like size and size_v, reset and reset_noexcept, make and r_make."
  },
  {
   "property": "C113",
   "status": "proved",
   "theorems": [
    "C113_programs",
    "C113_construction",
    "C113_numbers",
    "C113_zeros",
    "C113_memory"
   ],
   "note": "C113_programs: every program that calls and assigns resources, from every state; the other theorems cover every modelled function with an assert. Nothing is said about a release build whose debug build aborts or is undefined. Resources above other resources (C82) are covered with a fixed answer of the upstream only."
  },
  {
   "property": "C114",
   "status": "proved",
   "theorems": [
    "C114_exact",
    "C114_integers",
    "C114_values"
   ],
   "note": "C114_exact: acceptance, type and values for every pair of integer operands; C114_integers: nothing but integers is accepted; C114_values: run-time values."
  },
  {
   "property": "C115",
   "status": "proved",
   "theorems": [
    "C115_references",
    "C115_types",
    "C115_values",
    "C115_concatenated"
   ],
   "note": "C115_types, C115_values, C115_concatenated: the positions of type lists and value lists. C115_references: the same with references among the values, which index_of compares by content (C109)."
  },
  {
   "property": "C116",
   "status": "partial",
   "theorems": [
    "C116_nothrow_partial",
    "C116_nothrow_refuted",
    "C116_refused_refuted",
    "C116_exact_partial",
    "C116_construct_exact_partial"
   ],
   "note": "Proved for rvalues of the allocator's value type; refuted otherwise: the check looks at the caller's arguments, the call passes rvalues of the value type. C116_exact_partial: exactly when it compiles and which constructor is called."
  },
  {
   "property": "C117",
   "status": "partial",
   "theorems": [
    "C117_constructor_partial",
    "C117_default_partial",
    "C117_late_refuted",
    "C117_exact_partial"
   ],
   "note": "Refuted: a resource first called for after the constructor of an object is destroyed before that object. Proved for resources called for before the end of the constructor, and for the default resource when it is initialised first and not replaced. Exact criterion given for every program."
  },
  {
   "property": "C118",
   "status": "partial",
   "theorems": [
    "C118_exact_partial",
    "C118_defined_partial",
    "C118_null_partial",
    "C118_refuted"
   ],
   "note": "Refuted: supposed_result + aSize is formed before it is compared with the end of the buffer, so a request that ends behind the array is undefined and, with a buffer that is a whole array, the upstream is never reached by a defined program. Proved: the exact outcome of every request after every defined history, and C66/C67 for all sizes in defined programs. A resource without a buffer forms no pointer in any history (C118_null_partial)."
  },
  {
   "property": "C119",
   "status": "partial",
   "theorems": [
    "C119_defined_partial",
    "C119_construct_partial",
    "C119_whole_partial",
    "C119_release_partial",
    "C119_debug_refuted",
    "C119_debug_exact_partial",
    "C119_size_refuted"
   ],
   "note": "Refuted in debug builds on arrays with room for fewer than MaxBlockCount blocks (the assert in pointer_to_block_index forms data_ + kMaxResourceSize), and for sizes at which padding and size wrap around. Proved: construction always; debug builds on large enough arrays, whatever the calls do; release builds after every history the debug build passes; in every build a defined history is that of the flat addresses; exactly which calls are undefined in the refuted debug case."
  },
  {
   "property": "C120",
   "status": "partial",
   "theorems": [
    "C120_valid_partial",
    "C120_exact_partial",
    "C120_negative_begin_refuted",
    "C120_negative_end_refuted",
    "C120_step_wraps_refuted",
    "C120_step_overflows_refuted",
    "C120_same_type"
   ],
   "note": "Proved for Begin, End, Step of any types whenever no comparison and no sum changes a value; exact answer (valid / does not compile) for arguments of one type. Refuted in four families: a negative Begin with an unsigned End is refused, an unsigned Begin with a negative End is accepted, a first step over the end of an unsigned type is refused and over the end of a signed type does not compile."
  },
  {
   "property": "C121",
   "status": "partial",
   "theorems": [
    "C121_quiet_partial",
    "C121_exact_partial",
    "C121_caught_refuted",
    "C121_construct_refuted"
   ],
   "note": "Refuted: the constructor and all other members are noexcept, so no exception of a callable is ever caught (C121_caught_refuted) and one thrown while the callable is copied or moved into the timer ends the program (C121_construct_refuted). C121_exact_partial: the program is terminated exactly if some code of the user that a timer runs throws (clock, construction or call of a callable that the timer still owns), and is the one of C75-C77 otherwise (C121_quiet_partial)."
  },
  {
   "property": "C122",
   "status": "partial",
   "theorems": [
    "C122_links_partial",
    "C122_self_contained_partial",
    "C122_exact_partial",
    "C122_resources_refuted"
   ],
   "note": "Refuted: two units that include a header with the memory resources break the one-definition rule, because classes and the inline variable default_resource name static functions, of which each unit has its own (C122_resources_refuted; further witnesses C122_concatenation_refuted, C122_own_refuted). C122_exact_partial: a program keeps the rule iff its source files are pairwise apart (at most one with the resources, no common instance of concatenation, no shared inline function that uses a static function). C122_links_partial: nothing is multiply defined; C122_self_contained_partial: every name the headers use is defined."
  },
  {
   "property": "C123",
   "status": "proved",
   "theorems": [
    "C123_exact",
    "C123_distinct",
    "C123_blocks"
   ],
   "note": "Element types with any effect of a move; the copy or move from each argument, the moves through the temporaries of the recursion and the state of the arguments are given exactly. Objects may be repeated among the arguments."
  },
  {
   "property": "C124",
   "status": "partial",
   "theorems": [
    "C124_concatenate_exact_partial",
    "C124_refuted",
    "C124_make_array_partial",
    "C124_filled_exact_partial",
    "C124_zero_exact_partial",
    "C124_view_exact_partial",
    "C124_is_equal_partial",
    "C124_for_each_partial"
   ],
   "note": "Refuted: concatenate_arrays is noexcept although it copies elements, so whichever operation of a call throws the program is terminated (C124_refuted, exactly then: C124_concatenate_exact_partial); so too for the N moves of make_array<T,N>(v) and make_zero_array and for make_array from a view. Proved: make_array(args...), is_equal, for_each_arg, for_each_in_tuple and the first operation of make_array<T,N>(v) and make_zero_array let the exception through, and what has happened until then."
  },
  {
   "property": "C125",
   "status": "proved",
   "theorems": [
    "C125_separate",
    "C125_race_free",
    "C125_call",
    "C125_chain",
    "C125_unwritten",
    "C125_marks",
    "C125_shared_refuted",
    "C125_steps",
    "C125_misaligned_refuted"
   ],
   "note": "C125_separate (all programs over own resources and shared bufferless ones, all schedules), C125_race_free (every race-free execution is, for each thread, its execution alone), C125_call and C125_unwritten tie the accesses to the code of the classes. The two _refuted theorems show that the condition of the claim is needed: a shared buffer hands out the same memory twice, or misaligned memory. Calls are the steps of the schedule, which is faithful for executions without a data race. Not modelled: the C library's own synchronisation (assumed thread safe) and threads calling set_default_resource."
  },
  {
   "property": "C126",
   "status": "partial",
   "theorems": [
    "C126_timer",
    "C126_allocator",
    "C126_resources",
    "C126_base",
    "C126_derived",
    "C126_holder",
    "C126_pimpl_partial",
    "C126_misfit",
    "C126_refuted",
    "C126_exact_partial",
    "C126_quiet_partial",
    "C126_vector_refuted"
   ],
   "note": "Proved, with the exact answers, for timers, allocators and all memory resources; fast_pimpl<T> can be used for exactly what T can (C126_pimpl_partial). Refuted for fast_pimpl: its members are declared whatever T can do, so the traits say yes to everything (C126_refuted), and a vector of fast_pimpls cannot grow where one of T can (C126_vector_refuted, exactly when). C126_exact_partial: the answers are right iff T can do everything and the size fits. C126_holder: classes with such members, for every list of members and every single special member they default."
  },
  {
   "property": "C127",
   "status": "partial",
   "theorems": [
    "C127_partial",
    "C127_refuted",
    "C127_exact_partial",
    "C127_never_refuted",
    "C127_leaves_partial",
    "C127_lacking_refuted",
    "C127_prelude_partial",
    "C127_prelude_needed",
    "C127_frugal"
   ],
   "note": "Proved for detector.h, type_list.h and function_traits.h, and for all headers behind nine standard headers, none of which can be left out (C127_prelude_partial, C127_prelude_needed). Refuted for every other header: std::size_t, std::byte, std::min, std::uintptr_t, ::uint8_t, placement new and others are used without a header that promises them."
  },
  {
   "property": "C128",
   "status": "proved",
   "theorems": [
    "C128_power",
    "C128_next_multiple",
    "C128_skip",
    "C128_aligned",
    "C128_misuse",
    "C128_get_alignment",
    "C128_block",
    "C128_block_answer",
    "C128_same"
   ],
   "note": "model with the width as a parameter; the 64-bit model of C01-C06 and C13 is its case w = 64 (C128_same)."
  },
  {
   "property": "C129",
   "status": "partial",
   "theorems": [
    "C129_partial",
    "C129_refuted",
    "C129_exact_partial",
    "C129_served_partial",
    "C129_upstream_partial",
    "C129_rewind",
    "C129_deallocate",
    "C129_count_partial",
    "C129_count_refuted"
   ],
   "note": "refuted as stated: as with 64 bits (C66, C67, C70, C71) sums and products wrap, here at 2^32, so a request for 2^32 - 4 bytes or 2^29 + 1 objects of 8 bytes is served by a buffer of 32 bytes; proved for requests that do not lead out of the address space, with the exact rule for requests of every size whose alignment leaves room behind the buffer."
  },
  {
   "property": "C130",
   "status": "proved",
   "theorems": [
    "C130_publish",
    "C130_synchronizes",
    "C130_exact"
   ],
   "note": "happens-before of C++17 with release sequences, stated for any atomic object; the calls are exchange and load with sequentially consistent order."
  },
  {
   "property": "C131",
   "status": "partial",
   "theorems": [
    "C131_refuted",
    "C131_get_refuted",
    "C131_exact_partial"
   ],
   "note": "refuted as stated: get_default_resource is a load and releases nothing, so nothing orders a user's last use before the destruction; exactly: it is free if the user has called set_default_resource after its use and the destroying thread one of the two functions after that."
  },
  {
   "property": "C132",
   "status": "partial",
   "theorems": [
    "C132_refuted",
    "C132_predicate_exact_partial",
    "C132_partial",
    "C132_product_partial",
    "C132_depths_partial",
    "C132_sort_partial",
    "C132_product_depth_partial"
   ],
   "note": "refuted as stated: at<I, Predicate> nests two levels per element passed, so it fails from the 512th on (exact bound proved); every other operation is proved to stay within the limit up to 1000 elements, with its exact depth (bounds for the sorts and the product)."
  },
  {
   "property": "C133",
   "status": "partial",
   "theorems": [
    "C133_allocate_partial",
    "C133_release_partial",
    "C133_pool_partial",
    "C133_refuted"
   ],
   "note": "Refuted for release(): in every resource of two blocks or more, as many one-byte requests as there are blocks lead to a release() of exactly 1 + n(n-1)/2 rounds (C133_refuted; C133_pool_partial for every history of single-block requests that leaves no block free), because the action's index is converted to bool and the walk starts again at block 1. Proved: allocate comes to each block at most once in any state of any build (C133_allocate_partial); release() takes at most (busy + 1) * n rounds when it returns (C133_release_partial). Steps are rounds of the loop in apply(); deallocate has no loop."
  },
  {
   "property": "C134",
   "status": "proved",
   "theorems": [
    "C134_construct",
    "C134_debug",
    "C134_release",
    "C134_64",
    "C134_sizes_needed"
   ],
   "note": "A second model of simple_resource.h with the width of std::size_t and std::uintptr_t as a parameter (WidthModel.v); with 64 bits it is SimpleModel.v (C134_64). C134_debug: every debug history, ending well, aborting or never ending, is the same; C134_release for release builds whose debug build passes. C134_sizes_needed: without the bound on sizes the two differ (2^32 - 48 bytes). Conditions: MaxBlockCount blocks fit behind the buffer, and fewer than 2^31 calls (a misused resource's counters can drift by two per call)."
  },
  {
   "property": "C135",
   "status": "partial",
   "theorems": [
    "C135_careful_partial",
    "C135_debug_bounds_partial",
    "C135_single_block",
    "C135_until_overlap_exact_partial",
    "C135_no_overlap_refuted"
   ],
   "note": "Refuted as stated: the overlap of C50 happens with 32 bits too (C135_no_overlap_refuted). Proved for the same clients as with 64 bits: careful clients (C135_careful_partial, first fit, disjoint, in bounds, counters exact, histories of any length, both builds) and clients of single blocks with release() (C135_single_block); in debug builds nothing outside the buffer is handed out in any history of fewer than 2^31 calls (C135_debug_bounds_partial), and for any sizes with alignments up to BlockSize and without release() the observers are right at every moment exactly if no two live grants overlap, histories of any length (C135_until_overlap_exact_partial). Sizes plus alignments are at most 2^32."
  },
  {
   "property": "C136",
   "status": "partial",
   "theorems": [
    "C136_clears",
    "C136_same_as_C26",
    "C136_erased_partial",
    "C136_erased_exact_partial",
    "C136_erased_refuted",
    "C136_too_large_refuted"
   ],
   "note": "Holds with SecureZeroMemory and memset_s (up to RSIZE_MAX). Elsewhere (GCC and Clang with glibc) the hand-made loop makes ordinary writes: the exact condition is that the program shows the byte afterwards; refuted for a secret that is used, cleared and never looked at again. memset_s refuses sizes above RSIZE_MAX and its answer is ignored. Compilers are modelled as leaving out accesses, nothing else."
  },
  {
   "property": "C137",
   "status": "proved",
   "theorems": [
    "C137_call",
    "C137_use",
    "C137_no_leak"
   ],
   "note": "For both branches and every size of pointers. The functions of the system by their documented contracts; sysops is taken to forward to them."
  },
  {
   "property": "C138",
   "status": "partial",
   "theorems": [
    "C138_global_partial",
    "C138_others_partial",
    "C138_first_partial",
    "C138_avoids_partial",
    "C138_global_refuted",
    "C138_exact_partial"
   ],
   "note": "Holds except with MSVC, where clz.h and ctz.h include <intrin.h> inside namespace utils: refuted for each of the seven headers that read them; holds there for headers intrin.h does not read, for files that begin with intrin.h and for files without the seven headers. C138_exact_partial: exactly when, for intrin.h and what it reads, unless the library asks for that itself: iff the user asks for it before the first of the seven."
  },
  {
   "property": "C139",
   "status": "partial",
   "theorems": [
    "C139_container_refuted",
    "C139_exact_partial",
    "C139_insert_refuted",
    "C139_null_refuted"
   ],
   "note": "Refuted for every container that owns memory: std::allocator_traits gives memory back with deallocate(p, n), allocator<T>::deallocate has one parameter; elements cannot be copied in, other value types not converted, and allocate returns null instead of throwing. C139_exact_partial says exactly which lists of requests compile."
  },
  {
   "property": "C140",
   "status": "partial",
   "theorems": [
    "C140_args_partial",
    "C140_tuple_partial",
    "C140_alike_partial",
    "C140_rvalue_refuted",
    "C140_comma_refuted",
    "C140_args_exact_partial",
    "C140_tuple_exact_partial"
   ],
   "note": "Holds for all callables that can be called as lvalues and whose results have no comma operator of their own; refuted for callables with a &&-qualified call operator in for_each_in_tuple and for results with a comma operator, which is called. Exact theorems for all callables."
  },
  {
   "property": "C141",
   "status": "proved",
   "theorems": [
    "C141_index_of",
    "C141_at",
    "C141_count",
    "C141_contains",
    "C141_list",
    "C141_extremes",
    "C141_sorts",
    "C141_renaming"
   ],
   "note": "Exact theorems (if and only if) for every query with a predicate or a size; the others are invariant under injective renaming of types."
  },
  {
   "property": "C142",
   "status": "partial",
   "theorems": [
    "C142_count",
    "C142_portable_count",
    "C142_same_functions",
    "C142_expression_refuted",
    "C142_difference_exact_partial",
    "C142_comparison_exact_partial"
   ],
   "note": "the counts are proved right and equal on all compilers and in both phases, with every conversion of the code (C142_count, C142_portable_count). Refuted for expressions: the result is int with GCC and Clang but unsigned long with MSVC, so negative differences and comparisons with negative ints come out wrong there; the exact theorems say precisely when."
  },
  {
   "property": "C143",
   "status": "partial",
   "theorems": [
    "C143_zero_partial",
    "C143_zero_refuted",
    "C143_zero_exact_partial"
   ],
   "note": "proved for debug builds (abort, or rejection while compiling). Refuted for release builds: with MSVC clz(0) is W - 1 and ctz(0) is 31 or 63 while compiling, and elsewhere a call is undefined (rejected while compiling); C143_zero_exact_partial lists every case."
  },
  {
   "property": "C144",
   "status": "partial",
   "theorems": [
    "C144_checks_partial",
    "C144_whole_buffer_refuted"
   ],
   "note": "C144_checks_partial: for alignments up to BlockSize and programs without release(), a release build that has granted (in whole blocks, size / BlockSize + 1 of them) no block twice and none behind the buffer is followed by the debug build step by step. Counting the bytes asked for instead of the blocks granted the claim is refuted: a request for the whole buffer is served correctly by the release build and stops the debug build (C144_whole_buffer_refuted)."
  },
  {
   "property": "C145",
   "status": "partial",
   "theorems": [
    "C145_same_live_partial",
    "C145_any_order_partial",
    "C145_order_refuted"
   ],
   "note": "proved for alignments up to BlockSize, histories without release() and without double grants: the regions and counters agree, giving back succeeds in every order, and every continuation for which the search is right ([careful]) has the same results. Refuted for other continuations: merged blocks keep their old links, a search that goes astray to block 1 reads them, and two orders of giving back make the next request hang or get memory in use (C145_order_refuted)."
  },
  {
   "property": "C146",
   "status": "partial",
   "theorems": [
    "C146_moves_partial",
    "C146_third_refuted",
    "C146_next_exact_partial",
    "C146_fourth_refuted",
    "C146_doubling_refuted"
   ],
   "note": "proved for every sequence in which every second memory is smaller than the blocks of the one before last (shrinking capacities, capacities within the same number of blocks); for containers that take a block or more this is exact, size of exactly the blocks apart (C146_next_exact_partial). Refuted for growing capacities in every configuration: with a first memory of two blocks or more the third is laid over the second (C146_third_refuted), with a first memory of one block the fourth call never returns (C146_fourth_refuted), so doubling fails by the third time (C146_doubling_refuted)."
  },
  {
   "property": "C147",
   "status": "partial",
   "theorems": [
    "C147_cut_exact_partial",
    "C147_cut_at_end_refuted",
    "C147_windows",
    "C147_exclude_joins",
    "C147_exclude_order",
    "C147_picking",
    "C147_sorting",
    "C147_sorting_parts",
    "C147_sorting_parts_down",
    "C147_products",
    "C147_values"
   ],
   "note": "all laws proved for every list; the cut law fails at one position, behind the last type of a list that is not empty, because sublist rejects an empty window there (C147_cut_at_end_refuted); C147_cut_exact_partial says exactly where it holds."
  },
  {
   "property": "C148",
   "status": "partial",
   "theorems": [
    "C148_simple_resource",
    "C148_monotonic_partial",
    "C148_monotonic_refuted"
   ],
   "note": "proved for every history of simple_resource, and for monotonic_buffer_resource where no request runs past the last address. Refuted otherwise: after a request that ends exactly at 2^64 the next one is served at address 0, which is the answer null, and the place for the next memory moves (C148_monotonic_refuted)."
  },
  {
   "property": "C149",
   "status": "proved",
   "theorems": [
    "C149_pool",
    "C149_stack",
    "C149_careful",
    "C149_pinned",
    "C149_monotonic"
   ],
   "note": "one theorem for each kind of client; C149_pinned is for debug builds and calls that return (C52), the requests of C149_careful, C149_pinned and C149_stack have alignments up to BlockSize."
  },
  {
   "property": "C150",
   "status": "proved",
   "theorems": [
    "C150_clz_bits",
    "C150_power_counts",
    "C150_divisor_ctz",
    "C150_alignment_divisor",
    "C150_aligned_up_to",
    "C150_aligned_less",
    "C150_round_up",
    "C150_round_monotone",
    "C150_round_forms",
    "C150_shift_back",
    "C150_shift_clears",
    "C150_shift_power",
    "C150_table_powers"
   ],
   "note": "with the intrinsic types of GCC and Clang (C10, C11 and C13 relate the other compilers)."
  },
  {
   "property": "C151",
   "status": "proved",
   "theorems": [
    "C151_zero_then_compare",
    "C151_zero_twice",
    "C151_zero_pieces",
    "C151_compare_pieces",
    "C151_compare_one_value",
    "C151_move_same",
    "C151_move_back",
    "C151_move_twice",
    "C151_move_copy",
    "C151_copy_twice",
    "C151_copies_commute",
    "C151_cast_copy",
    "C151_arrays_associative",
    "C151_arrays_empty",
    "C151_arrays_views"
   ],
   "note": "memmove and memcpy as at run time (C27, C28 say where constant evaluation differs); overlapping moves at compile time are refuted in C27."
  },
  {
   "property": "C152",
   "status": "proved",
   "theorems": [
    "C152_value_type",
    "C152_type_of_width",
    "C152_type_monotone",
    "C152_sum_one",
    "C152_sum_order",
    "C152_sum_join",
    "C152_div_power",
    "C152_div_again",
    "C152_ranges_join",
    "C152_range_single",
    "C152_ranges_agree"
   ],
   "note": "the run-time part of the division law is an equivalence: C15 refutes it for other 64-bit operands."
  },
  {
   "property": "C153",
   "status": "partial",
   "theorems": [
    "C153_swap",
    "C153_rearrange",
    "C153_grow",
    "C153_insert",
    "C153_clear",
    "C153_erase_refuted",
    "C153_erase_exact_partial"
   ],
   "note": "erasing a timer that is not the last loses its callable, because the next timer is move-assigned onto it: C153_erase_refuted; C153_erase_exact_partial says what every erasure does. Everything else is proved in full. What std::swap and std::vector do is taken from their usual implementation: ShelfSpec.v."
  },
  {
   "property": "C154",
   "status": "partial",
   "theorems": [
    "C154_position_partial",
    "C154_monotonic",
    "C154_position_refuted",
    "C154_distance_refuted"
   ],
   "note": "false for a simple_resource whose buffer starts at a multiple of 2^31 or is of 2 GiB or more, because the natural alignment of the address is computed with a shift of an int: C154_position_refuted. C154_position_partial proves it, as an equation of outcomes, for all other pairs of addresses; C154_monotonic proves it for monotonic_buffer_resource at every address; C154_distance_refuted shows that the alignments have to divide the distance."
  },
  {
   "property": "C155",
   "status": "partial",
   "theorems": [
    "C155_debug",
    "C155_checked_partial",
    "C155_release_partial",
    "C155_release_refuted"
   ],
   "note": "proved for debug builds (every history, C155_debug) and for release builds as long as the debug build of one of the types passes (C155_checked_partial) or, without reference to debug builds, no block is granted twice or behind the buffer (C155_release_partial, no release(), alignments up to BlockSize). Refuted for release builds otherwise: a request for the whole buffer runs over the tables when they end with it and is served when they are longer (C155_release_refuted)."
  },
  {
   "property": "C156",
   "status": "partial",
   "theorems": [
    "C156_without_partial",
    "C156_two_upstreams_partial",
    "C156_monotonic",
    "C156_answer_refuted",
    "C156_return_refuted"
   ],
   "note": "proved for simple_resource when the upstream's memory is aligned to blocks (C156_without_partial, C156_two_upstreams_partial) and without any condition for monotonic_buffer_resource (C156_monotonic). Refuted otherwise: debug builds abort on an answer not aligned to blocks (C156_answer_refuted), all builds abort when such memory is given back (C156_return_refuted)."
  },
  {
   "property": "C157",
   "status": "partial",
   "theorems": [
    "C157_same_blocks_partial",
    "C157_full_block_refuted",
    "C157_exact_partial"
   ],
   "note": "proved for all sizes that do not fill their last block (C157_same_blocks_partial). Refuted for those that do: a request for exactly one block is given two (C157_full_block_refuted); the condition is exact for a first request that leaves blocks free (C157_exact_partial)."
  },
  {
   "property": "C158",
   "status": "partial",
   "theorems": [
    "C158_apart_partial",
    "C158_blocks_refuted",
    "C158_monotonic_refuted",
    "C158_return_refuted"
   ],
   "note": "proved for chains in which the block size of each simple_resource divides that of its upstream, with monotonic buffers only in front of them and memory given back to a simple_resource (C158_apart_partial). Refuted for upstreams with smaller blocks (C158_blocks_refuted) and for a monotonic buffer as upstream of a simple_resource (C158_monotonic_refuted), whose memory is refused; memory given back to a monotonic buffer never reaches the resource behind it (C158_return_refuted, as C80)."
  },
  {
   "property": "C159",
   "status": "partial",
   "theorems": [
    "C159_fallback_partial",
    "C159_answers",
    "C159_heap_use",
    "C159_alignment_exact_partial",
    "C159_fallback_refuted"
   ],
   "note": "the heap is used correctly and its answers are handed out in every history that returns (C159_answers, C159_heap_use). That the heap stops no program is proved for requests whose alignment, or that of a pointer with posix_memalign, is at least BlockSize (C159_fallback_partial), which is exactly when a request is safe (C159_alignment_exact_partial). Otherwise an answer aligned as asked for aborts debug builds at once and all builds when it is given back (C159_fallback_refuted)."
  },
  {
   "property": "C160",
   "status": "partial",
   "theorems": [
    "C160_fallback",
    "C160_answers",
    "C160_heap_use",
    "C160_held_exact_partial",
    "C160_return_refuted"
   ],
   "note": "all but the last part is proved without a condition on heap or client (C160_fallback, C160_answers, C160_heap_use). The heap never gets anything back (C160_return_refuted): it holds exactly all it ever answered (C160_held_exact_partial)."
  },
  {
   "property": "C161",
   "status": "partial",
   "theorems": [
    "C161_monotonic_partial",
    "C161_monotonic_refuted",
    "C161_careful_partial",
    "C161_odd_partial",
    "C161_exact_partial",
    "C161_less_refuted",
    "C161_release_refuted"
   ],
   "note": "proved for monotonic buffers as long as no request leads out of the address space (C161_monotonic_partial; else C161_monotonic_refuted), for simple_resource in both builds where the search is right (C161_careful_partial), and in debug builds after every history for sizes that are no multiple of the block size (C161_odd_partial). A smaller request that exactly fills the free region it comes upon aborts the program where a larger one is served (C161_less_refuted); that is the only exception, in debug builds after every history (C161_exact_partial). In release builds a smaller request can lead to a write outside of the table of blocks where a larger one is served (C161_release_refuted)."
  },
  {
   "property": "C162",
   "status": "partial",
   "theorems": [
    "C162_careful_partial",
    "C162_return_refuted",
    "C162_monotonic_partial",
    "C162_monotonic_refuted"
   ],
   "note": "proved for simple_resource in both builds and all pairs of histories for which its search is right (C162_careful_partial) and for monotonic buffers as long as no request leads out of the address space (C162_monotonic_partial; else C162_monotonic_refuted). False of simple_resource in general: giving memory back can make a request that was served run forever (C162_return_refuted). Missing: an exact rule for the histories for which the search is not right."
  },
  {
   "property": "C163",
   "status": "partial",
   "theorems": [
    "C163_monotonic",
    "C163_careful_partial",
    "C163_larger_refuted",
    "C163_release_refuted"
   ],
   "note": "proved for monotonic buffers and every history (C163_monotonic), and for simple_resource in both builds and all histories for which the search of the smaller one is right (C163_careful_partial). Where the search is not right the debug build with the larger buffer can abort where the one with the smaller buffer goes on (C163_larger_refuted). In release builds the larger buffer can refuse what the smaller one serves, wrongly, from the memory behind its end (C163_release_refuted)."
  },
  {
   "property": "C164",
   "status": "proved",
   "theorems": [
    "C164_monotonic",
    "C164_simple"
   ],
   "note": "C164_monotonic for every history; C164_simple for a resource just made, in both builds (later on, the free regions differ, and objects go where they fit)."
  },
  {
   "property": "C165",
   "status": "partial",
   "theorems": [
    "C165_phase_partial",
    "C165_temporary_partial",
    "C165_temporary_refuted",
    "C165_monotonic_refuted"
   ],
   "note": "proved for simple_resource in both builds and all clients for whose requests the search is right: C165_phase_partial, and C165_temporary_partial for a single request. Violated otherwise: a request that is refused never returns once a byte has been taken and given back (C165_temporary_refuted). Violated by design by monotonic buffers (C165_monotonic_refuted; see C68 and C69)."
  },
  {
   "property": "C166",
   "status": "proved",
   "theorems": [
    "C166_monotonic",
    "C166_simple"
   ],
   "note": "C166_monotonic for every history; C166_simple for a resource just made, in both builds. C164 is the case of equal requests."
  },
  {
   "property": "C167",
   "status": "partial",
   "theorems": [
    "C167_kept_partial",
    "C167_single_partial",
    "C167_again_refuted"
   ],
   "note": "proved in both builds for clients for whose requests the search is right, if the first block is lent out on its own when release() is called (C167_kept_partial), and after requests for single blocks and any number of calls of release() (C167_single_partial). Violated otherwise: release() gives back only the first of two allocations of two blocks each, and the buffer cannot be lent out as a whole again (C167_again_refuted; C61 says exactly what release() gives back)."
  }
 ]
}