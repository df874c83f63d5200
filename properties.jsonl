{"id": "C01", "title": "is_power_of_2 is exact", "statement": "is_power_of_2(x) is true exactly when x is 2^k for some k in 0..63; in particular it is false for 0.", "quantifier": "every size_t value", "why_tests_cant": "the domain has 2^64 (or 2^128) points; a test samples a handful", "anchors": ["sources/include/utils/common.h:is_power_of_2"]}
{"id": "C02", "title": "next_multiple_of rounds up to the least multiple", "statement": "For every power of two m and every address v, next_multiple_of(m,v) is the least multiple of m that is >= v whenever that multiple is representable in 64 bits, and 0 otherwise.", "quantifier": "every power of two m and every uintptr_t v", "why_tests_cant": "the domain has 2^64 (or 2^128) points; a test samples a handful", "anchors": ["sources/include/utils/common.h:next_multiple_of"]}
{"id": "C03", "title": "next_multiple_of<P> is right at every integer width", "statement": "For every unsigned integer type U (8 to 64 bits, with C++ integer promotion) and every power of two P representable in U, next_multiple_of<P>(v) is the least multiple of P >= v modulo 2^bits(U); for signed types narrower than int it is that multiple wrapped to U; for int and wider signed types it is the least multiple of P >= v whenever v+P-1 is representable, and undefined behaviour otherwise.", "quantifier": "every integer type of the library, every power of two, every value", "why_tests_cant": "tests use two values of P at type int only", "anchors": ["sources/include/utils/common.h:next_multiple_of<PowOf2,U>"]}
{"id": "C04", "title": "skip_to_align is the least padding", "statement": "For every pointer p and power of two a, skip_to_align(p,a) is the least k >= 0 such that p+k (mod 2^64) is a multiple of a; it is < a, and 0 exactly when p is aligned. It is right even when rounding p up overflows the address space.", "quantifier": "every address and every power-of-two alignment", "why_tests_cant": "the domain has 2^64 (or 2^128) points; a test samples a handful", "anchors": ["sources/include/utils/common.h:skip_to_align"]}
{"id": "C05", "title": "is_aligned is divisibility", "statement": "is_aligned(p,a) is true exactly when a divides the address p.", "quantifier": "every address, every power-of-two alignment", "why_tests_cant": "the domain has 2^64 (or 2^128) points; a test samples a handful", "anchors": ["sources/include/utils/common.h:is_aligned"]}
{"id": "C06", "title": "max_alignment_inside_block is the best guaranteed alignment", "statement": "max_alignment_inside_block(A,n) is the greatest power of two M such that every block of n bytes that starts at a multiple of A contains an address divisible by M.", "quantifier": "every power-of-two block alignment, every block size with A+n-1 < 2^64, every start address", "why_tests_cant": "tests sweep alignments 1..8 and sizes up to 13; the claim is about all block positions", "anchors": ["sources/include/utils/common.h:max_alignment_inside_block"]}
{"id": "C07", "title": "bits_count and nbits_occupied are the bit length", "statement": "bits_count(v) and nbits_occupied(v) return the least n with v < 2^n (0 for v = 0), agree with each other, and nbits_occupied does not depend on the width of the argument type.", "quantifier": "every unsigned value of every unsigned type", "why_tests_cant": "the domain has 2^64 (or 2^128) points; a test samples a handful", "anchors": ["sources/include/utils/common.h:bits_count", "sources/include/utils/common.h:nbits_occupied"]}
{"id": "C08", "title": "greatest_divisor_that_is_power_of_2", "statement": "For v > 0 it returns the power of two that divides v and such that twice it does not divide v; for v = 0 it returns the greatest power of two representable in the type.", "quantifier": "every unsigned type and every value of it", "why_tests_cant": "tests cover 0..12", "anchors": ["sources/include/utils/common.h:greatest_divisor_that_is_power_of_2"]}
{"id": "C09", "title": "kNumBitsTable counts set bits", "statement": "Entry b of kNumBitsTable is the number of one bits of the byte b, for all 256 bytes.", "quantifier": "all 256 bytes", "why_tests_cant": "no test touches the table; an exhaustive proof is needed to trust a lookup table", "anchors": ["sources/include/utils/common.h:kNumBitsTable", "sources/include/utils/common.h:details::numBitSet"]}
{"id": "C10", "title": "clz is the number of leading zeros", "statement": "For every unsigned type T of size 1,2,4,8 and every value v>0 of T, clz(v) = n where 2^(W-1-n) <= v < 2^(W-n), W the bit width of T, whatever list of compiler intrinsics (unsigned long only, ul+ull, or ui+ul+ull) is available provided some intrinsic is at least as wide as T.", "quantifier": "every unsigned type, every positive value, every supported intrinsic set", "why_tests_cant": "the domain has 2^64 (or 2^128) points; a test samples a handful", "anchors": ["sources/include/utils/clz.h:clz", "sources/include/utils/clz.h:supported_clz_types"]}
{"id": "C11", "title": "ctz is the number of trailing zeros", "statement": "For every unsigned type T and every v>0, ctz(v) = n where 2^n divides v and 2^(n+1) does not, whatever intrinsic set is available.", "quantifier": "every unsigned type, every positive value, every supported intrinsic set", "why_tests_cant": "the domain has 2^64 (or 2^128) points; a test samples a handful", "anchors": ["sources/include/utils/ctz.h:ctz", "sources/include/utils/ctz.h:supported_ctz_types"]}
{"id": "C12", "title": "hand-written clz/ctz agree with the intrinsics", "statement": "crafted_clz and crafted_ctz (the compile-time implementations on MSVC) terminate and return the same number as the run-time intrinsic for every positive value of every unsigned type, so an expression has the same value at compile time and at run time.", "quantifier": "every unsigned type, every positive value", "why_tests_cant": "the domain has 2^64 (or 2^128) points; a test samples a handful", "anchors": ["sources/include/utils/clz.h:crafted_clz", "sources/include/utils/ctz.h:crafted_ctz"]}
{"id": "C13", "title": "get_alignment is the largest power of two dividing the address", "statement": "For every non-null pointer, get_alignment(p) is a power of two dividing p, and no greater power of two divides p.", "quantifier": "every non-null address", "why_tests_cant": "tests compare 150 small addresses", "anchors": ["sources/include/utils/memory/memory.h:get_alignment"]}
{"id": "C14", "title": "shift_left / shift_right are arithmetic shifts in the operand's own type", "statement": "For every unsigned T and n < bits(T): shift_right(v,n) = floor(v/2^n) and shift_left(v,n) = v*2^n mod 2^bits(T). For signed T shift_right is floor division and shift_left is v*2^n wrapped to T when v >= 0 and the C++17 shift is defined, undefined behaviour otherwise.", "quantifier": "every integer type, value and shift amount", "why_tests_cant": "no test at all; integer promotion of narrow types makes sampling unreliable", "anchors": ["sources/include/utils/common.h:shift_left", "sources/include/utils/common.h:shift_right"]}
{"id": "C15", "title": "div satisfies Euclid and is the same at compile time and run time", "statement": "For all integral T,U and all n, d with d != 0 (and no overflow), utils::div(n,d) returns quot and rem of the common type with n' = quot*d'+rem, |rem|<|d'|, rem having the sign of n' (n',d' the operands converted to the common type), and the compile-time and run-time evaluations return the same pair.", "quantifier": "all pairs of integral types, all operand values, both evaluation modes", "why_tests_cant": "tests use 10/3 in every type", "anchors": ["sources/include/utils/common.h:div", "sources/include/utils/common.h:div_t"]}
{"id": "C16", "title": "div_as divides in the requested type", "statement": "div_as<R>(n,d) returns the quotient and remainder of n and d converted to R, identically at compile time and run time.", "quantifier": "all integral R,T,U and all operand values", "why_tests_cant": "tests use 10/3", "anchors": ["sources/include/utils/common.h:div_as"]}
{"id": "C17", "title": "uint_from_nbits / fast variants pick the narrowest type that fits", "statement": "For 1 <= n <= 64 uint_from_nbits_t<n> is the narrowest of the 8/16/32/64-bit unsigned types with at least n bits; every other n is rejected at compile time; uint_from_nbytes_t<k> accepts exactly k = 1..8 and is uint_from_nbits_t<8k>. The fast variants accept the same arguments and give the uint_fastN_t of the same N.", "quantifier": "all 256 template arguments", "why_tests_cant": "no test", "anchors": ["sources/include/utils/common.h:uint_from_nbits", "sources/include/utils/common.h:uint_from_nbytes_t", "sources/include/utils/common.h:fast_uint_from_nbits"]}
{"id": "C18", "title": "num_bits and sum_size", "statement": "sum_size<Ts...>() is the least number of bytes that can hold the concatenated bits of all Ts, where bool needs one bit and every other type all its bits.", "quantifier": "every non-empty list of types", "why_tests_cant": "unbounded packs; no test", "anchors": ["sources/include/utils/common.h:num_bits", "sources/include/utils/common.h:sum_size"]}
{"id": "C19", "title": "enum_properties::SerializeT can hold every enumerator", "statement": "For an enum with T::Count in 1..2^64-1, SerializeT can represent every value 0..Count, and numBits is the bit length of Count.", "quantifier": "every enumerator count", "why_tests_cant": "no test", "anchors": ["sources/include/utils/common.h:enum_properties"]}
{"id": "C20", "title": "values_in_range enumerates the closed interval", "statement": "values_in_range_t<First,Last> with First <= Last is the list First, First+1, ..., Last in this order.", "quantifier": "every pair of bounds of every integral type", "why_tests_cant": "no test; compile-time arithmetic wraps at type boundaries", "anchors": ["sources/include/utils/common.h:values_in_range", "sources/include/utils/common.h:shifted_sequence"]}
{"id": "C21", "title": "make_array_from_range enumerates an arithmetic progression inside the range", "statement": "make_array_from_range<Begin,End,Step>() contains Begin, Begin+Step, ... : every element lies in [min(Begin,End), max(Begin,End)], consecutive elements differ by Step, and the array is as long as possible.", "quantifier": "every Begin, End and positive Step of every integral type", "why_tests_cant": "tests only use it to build parameter lists", "anchors": ["sources/include/utils/common.h:make_array_from_range", "sources/include/utils/common.h:is_valid_range"]}
{"id": "C22", "title": "concatenate_arrays keeps every element in order", "statement": "The result of concatenate_arrays(a1,...,ak) has size equal to the sum of sizes and is a1 followed by a2 ... followed by ak.", "quantifier": "any number of arrays of any sizes", "why_tests_cant": "unbounded packs; no test", "anchors": ["sources/include/utils/common.h:concatenate_arrays", "sources/include/utils/common.h:concatenate_2_arrays"]}
{"id": "C23", "title": "make_array / make_zero_array / sv_to_array contents", "statement": "make_array(v1..vn) holds v1..vn in order; make_array<T,N>(v) holds N copies of v; make_zero_array<T,N>() holds N zeros; make_array<N>(sv) and sv_to_array<I...>(sv) hold exactly the selected characters and read nothing outside the view when N <= sv.size().", "quantifier": "all element lists, all N, all strings", "why_tests_cant": "tests use five literals", "anchors": ["sources/include/utils/common.h:make_array", "sources/include/utils/common.h:make_zero_array", "sources/include/utils/common.h:sv_to_array"]}
{"id": "C24", "title": "is_equal compares exactly the first kCount elements", "statement": "is_equal(a,b,k) with k <= N is true exactly when a[i] == b[i] for all i<k; elements at positions >= k never influence the result.", "quantifier": "all arrays, all k <= N", "why_tests_cant": "no test", "anchors": ["sources/include/utils/common.h:is_equal"]}
{"id": "C25", "title": "memvcmp: every byte equals val", "statement": "memvcmp(p,val,size) is true exactly when p is non-null, size > 0 and each of the size bytes at p equals val; it reads no byte outside [p,p+size).", "quantifier": "every memory content, every val, every size", "why_tests_cant": "tests use all-zero buffers", "anchors": ["sources/include/utils/common.h:memvcmp"]}
{"id": "C26", "title": "secure_zero_memory clears exactly the given range", "statement": "After secure_zero_memory(p,n) every byte of [p,p+n) is 0 and every other byte is unchanged. secure_zero_memory_safe returns -1 for null, else -2 for size 0 (memory unchanged in both cases), else 0 with the range cleared.", "quantifier": "every memory content, address and size", "why_tests_cant": "tests check one buffer and never the bytes around it", "anchors": ["sources/include/utils/memory/memory.h:secure_zero_memory", "sources/include/utils/memory/memory.h:secure_zero_memory_safe"]}
{"id": "C27", "title": "memmove moves correctly for every overlap", "statement": "After memory::memmove(dst,src,n), byte dst+i holds the byte that was at src+i before the call, for all i<n, and every byte outside [dst,dst+n) is unchanged; compile-time and run-time evaluation leave the same memory.", "quantifier": "every memory content, every dst, src, n, overlapping or not", "why_tests_cant": "tests use one overlap with dst < src", "anchors": ["sources/include/utils/memory/memory.h:memmove"]}
{"id": "C28", "title": "memcpy copies exactly n bytes", "statement": "For non-overlapping ranges memory::memcpy(dst,src,n) makes byte dst+i equal to the old src+i and changes nothing else, identically at compile time and run time.", "quantifier": "every memory content, disjoint ranges", "why_tests_cant": "tests use one 16-byte buffer", "anchors": ["sources/include/utils/memory/memory.h:memcpy"]}
{"id": "C29", "title": "bit_cast preserves the object representation", "statement": "bit_cast<To>(x) has exactly the bytes of x, and bit_cast<From>(bit_cast<To>(x)) gives back the bytes of x.", "quantifier": "every object representation", "why_tests_cant": "no test", "anchors": ["sources/include/utils/common.h:bit_cast"]}
{"id": "C30", "title": "for_each_arg / for_each_in_tuple visit every element once, left to right", "statement": "The callable is invoked exactly once per argument (tuple element), in order, threading its state from one call to the next.", "quantifier": "every argument list and every stateful callable", "why_tests_cant": "no test", "anchors": ["sources/include/utils/common.h:for_each_arg", "sources/include/utils/common.h:for_each_in_tuple"]}
{"id": "C31", "title": "type_list::at is positional and rejects out-of-range indices", "statement": "at<I> is the I-th type for I < size and a compile-time error otherwise; at<I,Pred> is the I-th type among those satisfying Pred and an error if there are not that many.", "quantifier": "every list, index and predicate", "why_tests_cant": "templates are checked only at the instantiations written in tests", "anchors": ["sources/include/utils/type_list.h:type_list::at", "sources/include/utils/type_list.h:at_with_predicate"]}
{"id": "C32", "title": "type_list::index_of and first_index_of_type find the first match", "statement": "index_of<Pred> / first_index_of_type<T> is the position of the first type satisfying Pred / equal to T, and equals size exactly when there is none.", "quantifier": "every list, predicate, type", "why_tests_cant": "templates are checked only at the instantiations written in tests", "anchors": ["sources/include/utils/type_list.h:index_of", "sources/include/utils/type_list.h:get_first_index_of"]}
{"id": "C33", "title": "counting queries of type_list are consistent", "statement": "count_of<T>, count_of_predicate_compliant<P>, contains, contains_predicate_compliant, contains_copies and is_same report respectively the number of occurrences, the number of compliant types, membership (subset for a type_list argument), existence of a compliant type, existence of a repeated type, and that all types are equal.", "quantifier": "every list", "why_tests_cant": "templates are checked only at the instantiations written in tests", "anchors": ["sources/include/utils/type_list.h:count_of", "sources/include/utils/type_list.h:contains", "sources/include/utils/type_list.h:contains_copies", "sources/include/utils/type_list.h:is_same"]}
{"id": "C34", "title": "list_of_predicate_compliant is filter", "statement": "list_of_predicate_compliant_t<P> contains exactly the types satisfying P, in their original order and multiplicity.", "quantifier": "every list and predicate", "why_tests_cant": "templates are checked only at the instantiations written in tests", "anchors": ["sources/include/utils/type_list.h:list_of_predicate_compliant"]}
{"id": "C35", "title": "sublist selects a contiguous window", "statement": "sublist_t<L,First,Count> with First+Count <= size and Count>0 is the Count types starting at First; windows exceeding the list are rejected; an empty window is accepted exactly for First < size or an empty list with First = 0.", "quantifier": "every list, First, Count", "why_tests_cant": "templates are checked only at the instantiations written in tests", "anchors": ["sources/include/utils/type_list.h:sublist"]}
{"id": "C36", "title": "exclude_at removes exactly one element", "statement": "exclude_at_t<L,I> with I < size is L without its I-th element, all others in order; I >= size is rejected.", "quantifier": "every list and index", "why_tests_cant": "templates are checked only at the instantiations written in tests", "anchors": ["sources/include/utils/type_list.h:exclude_at"]}
{"id": "C37", "title": "concatenate joins lists in order", "statement": "concatenate_t<L1,...,Lk> (k>=1) is L1 followed by ... followed by Lk, for type lists and value lists; it is associative with neutral element the empty list; it is rejected for no argument.", "quantifier": "every sequence of lists", "why_tests_cant": "unbounded packs", "anchors": ["sources/include/utils/cartesian_product.h:concatenate"]}
{"id": "C38", "title": "min/max_sizeof_index find the first extremal type", "statement": "min_sizeof_index (max_sizeof_index) of a non-empty list is the least index whose type has minimal (maximal) sizeof.", "quantifier": "every non-empty list of types of any sizes", "why_tests_cant": "unbounded packs", "anchors": ["sources/include/utils/type_list.h:min_sizeof_index", "sources/include/utils/type_list.h:max_sizeof_index"]}
{"id": "C39", "title": "sort_sizeof_ascending/descending are stable sorts", "statement": "The result is a permutation of the list, ordered by sizeof ascending (descending), and types of equal size keep their relative order.", "quantifier": "every list", "why_tests_cant": "unbounded packs; stability is invisible in samples without ties", "anchors": ["sources/include/utils/type_list.h:sort_sizeof_ascending", "sources/include/utils/type_list.h:sort_sizeof_descending"]}
{"id": "C40", "title": "value_list queries compare type and value", "statement": "index_of<v>, count_of<v>, contains<v>, contains_copies, is_same treat two values as equal exactly when both their types and their values are equal; index_of is the first such position or size.", "quantifier": "every value list and value", "why_tests_cant": "unbounded packs; mixed types", "anchors": ["sources/include/utils/value_list.h:index_of", "sources/include/utils/value_list.h:count_of", "sources/include/utils/value_list.h:contains", "sources/include/utils/value_list.h:is_same", "sources/include/utils/value_list.h:contains_copies"]}
{"id": "C41", "title": "value_list::list_all_of / min / max", "statement": "list_all_of_t<T> is the sublist of values of type T in order; min<T>/max<T> is a member of that sublist that is <= / >= all of its members; they are rejected when there is no value of type T.", "quantifier": "every value list and type", "why_tests_cant": "unbounded packs", "anchors": ["sources/include/utils/value_list.h:list_all_of", "sources/include/utils/value_list.h:min_impl", "sources/include/utils/value_list.h:max_impl"]}
{"id": "C42", "title": "cartesian_product is the lexicographically ordered product", "statement": "cartesian_product_t<L1,...,Lk> (k>=2, L1..L(k-1) non-empty) lists every tuple (x1,...,xk) with xi in Li exactly as often as it can be chosen, in lexicographic order of positions; its size is the product of the sizes.", "quantifier": "every k and every lists", "why_tests_cant": "unbounded packs", "anchors": ["sources/include/utils/cartesian_product.h:cartesian_product", "sources/include/utils/cartesian_product.h:one_element_mult"]}
{"id": "C43", "title": "has_*_qualifier report exactly the written qualifiers", "statement": "For every function type R(Args...) c v r n, has_const/volatile/lvalue_reference/rvalue_reference/noexcept_qualifier are true exactly when that qualifier is written in the type.", "quantifier": "all 24 qualifier combinations, all return types and parameter lists", "why_tests_cant": "R and Args range over all types", "anchors": ["sources/include/utils/function_traits.h:has_const_qualifier", "sources/include/utils/function_traits.h:details::has_const", "sources/include/utils/function_traits.h:QUALIFIERS"]}
{"id": "C44", "title": "remove_*_qualifier remove one qualifier and keep everything else", "statement": "remove_X_qualifier<F> has the same return type, parameters and all qualifiers of F except X, which is absent; remove_all_qualifiers leaves R(Args...). They are idempotent and commute.", "quantifier": "all function types", "why_tests_cant": "R and Args range over all types", "anchors": ["sources/include/utils/function_traits.h:remove_const_qualifier", "sources/include/utils/function_traits.h:remove_all_qualifiers"]}
{"id": "C45", "title": "return_type and params_list decompose a function type", "statement": "return_type_t and params_list_t return R and type_list<Args...> for every qualifier combination, and a function type is determined by its return type, parameter list and the five has_* answers.", "quantifier": "all function types", "why_tests_cant": "R and Args range over all types", "anchors": ["sources/include/utils/function_traits.h:return_type", "sources/include/utils/function_traits.h:params_list"]}
{"id": "C46", "title": "the detection idiom", "statement": "is_detected<Op,Args...> is true exactly when Op<Args...> is well-formed; detected_or_t is Op<Args...> then and Default otherwise; is_detected_exact<Expected,...> is true exactly when Op<Args...> is well-formed and equals Expected (Expected != nonesuch).", "quantifier": "every Op, Args, Default, Expected", "why_tests_cant": "quantifies over all metafunctions", "anchors": ["sources/include/utils/detector.h:detector", "sources/include/utils/detector.h:is_detected_exact"]}
{"id": "C47", "title": "is_invocable and signature classify callables", "statement": "is_invocable is true exactly for function types, pointers to functions, pointers to member functions and class types with a single non-overloaded accessible operator(); signature_t returns the function type itself or the type of operator() with its qualifiers.", "quantifier": "all types", "why_tests_cant": "quantifies over all types", "anchors": ["sources/include/utils/function_traits.h:is_invocable", "sources/include/utils/function_traits.h:signature", "sources/include/utils/function_traits.h:is_simple_functor"]}
{"id": "C48", "title": "has_padding is exact for trivially copyable aggregates", "statement": "For a trivially copyable type built from scalars by (nested) aggregate structs laid out by the usual ABI rules, has_padding<T> is false exactly when every byte of T's object representation belongs to exactly one scalar member.", "quantifier": "every nesting of aggregates of any scalar sizes and alignments", "why_tests_cant": "unbounded family of types", "anchors": ["sources/include/utils/padding_checker.h:has_padding"]}
{"id": "C49", "title": "simple_resource construction carves the maximal aligned block array", "statement": "After construction from (buffer,size): either data() is null and size() is 0 (buffer null, or no whole aligned block fits), or data() is BlockSize-aligned, [data(), data()+size()) lies inside the buffer, size()/BlockSize <= MaxBlockCount, and no larger aligned block array would fit (unless capped by MaxBlockCount).", "quantifier": "every buffer address and size, every BlockSize (power of two) and MaxBlockCount", "why_tests_cant": "tests construct from one aligned array", "anchors": ["sources/include/utils/memory/simple_resource.h:origin_and_block_count", "sources/include/utils/memory/simple_resource.h:simple_resource"]}
{"id": "C50", "title": "simple_resource never hands out overlapping or out-of-bounds memory", "statement": "In every history of allocate/deallocate calls the memory ranges [p, p+size) of all live allocations served from the buffer are pairwise disjoint and lie inside [data(), data()+size()).", "quantifier": "every history of calls, every sizes and alignments", "why_tests_cant": "tests exercise single-block allocations in three orders", "anchors": ["sources/include/utils/memory/simple_resource.h:allocate_impl", "sources/include/utils/memory/simple_resource.h:allocate_blocks", "sources/include/utils/memory/simple_resource.h:apply"]}
{"id": "C51", "title": "simple_resource honours the requested alignment", "statement": "Every pointer that allocate(size,align) serves from the buffer is a multiple of align and of BlockSize.", "quantifier": "every history, size, power-of-two alignment", "why_tests_cant": "tests only request alignment 1", "anchors": ["sources/include/utils/memory/simple_resource.h:allocate_impl"]}
{"id": "C52", "title": "simple_resource::allocate always returns", "statement": "allocate terminates (returns a pointer or null) in every reachable state for every request.", "quantifier": "every reachable state and every request", "why_tests_cant": "non-termination is not observable by a finite test", "anchors": ["sources/include/utils/memory/simple_resource.h:apply", "sources/include/utils/memory/simple_resource.h:allocate_impl"]}
{"id": "C53", "title": "simple_resource allocation is first fit", "statement": "allocate serves a request from the lowest-addressed free region that can hold it at the requested alignment, at the lowest suitable address of that region.", "quantifier": "every reachable state and every request", "why_tests_cant": "tests have a single fitting region", "anchors": ["sources/include/utils/memory/simple_resource.h:allocate_impl", "sources/include/utils/memory/simple_resource.h:allocate_blocks"]}
{"id": "C54", "title": "simple_resource falls back to the upstream resource exactly when nothing fits", "statement": "allocate calls the upstream resource exactly when no free region can hold the request, with the same size and alignment, and returns its answer unchanged; without upstream it returns null. The resource's own state is unchanged in that case.", "quantifier": "every reachable state, request and upstream behaviour", "why_tests_cant": "tests have one too-big request", "anchors": ["sources/include/utils/memory/simple_resource.h:allocate_impl"]}
{"id": "C55", "title": "a request can use a free region completely", "statement": "A request whose size equals the size of a free region can be served from it, and the bookkeeping stays consistent; a request of size n occupies ceil(n/BlockSize) blocks.", "quantifier": "every reachable state, every request that exactly fills a region", "why_tests_cant": "tests only use 1-byte requests", "anchors": ["sources/include/utils/memory/simple_resource.h:allocate_blocks", "sources/include/utils/memory/simple_resource.h:pointer_to_block_index"]}
{"id": "C56", "title": "simple_resource::deallocate accepts exactly the live pointers", "statement": "In every consistent state, deallocate(p) for p inside the buffer succeeds exactly when p is the address of a live allocation and aborts otherwise (free block, interior of an allocation, misaligned); after success exactly that allocation is gone and all other live allocations are untouched.", "quantifier": "every consistent state and every pointer", "why_tests_cant": "tests check 4 bad pointers", "anchors": ["sources/include/utils/memory/simple_resource.h:deallocate_impl", "sources/include/utils/memory/simple_resource.h:deallocate_blocks"]}
{"id": "C57", "title": "adjacent free regions are always coalesced", "statement": "After every deallocate no two neighbouring regions are both free, so the free regions are maximal.", "quantifier": "every history", "why_tests_cant": "tests check three orders of 32 blocks", "anchors": ["sources/include/utils/memory/simple_resource.h:merge_adjacent_blocks", "sources/include/utils/memory/simple_resource.h:merge_if_both_not_in_use"]}
{"id": "C58", "title": "allocate followed by deallocate restores the region structure", "statement": "Deallocating a pointer just obtained from the buffer restores the list of regions, free_count and busy_count that existed before the allocation.", "quantifier": "every consistent state and served request", "why_tests_cant": "tests check one state", "anchors": ["sources/include/utils/memory/simple_resource.h:allocate_blocks", "sources/include/utils/memory/simple_resource.h:deallocate_blocks"]}
{"id": "C59", "title": "free_count and busy_count count regions", "statement": "In every history free_count() is the number of free regions and busy_count() the number of live allocations served from the buffer.", "quantifier": "every history", "why_tests_cant": "tests check particular sequences", "anchors": ["sources/include/utils/memory/simple_resource.h:free_count", "sources/include/utils/memory/simple_resource.h:busy_count"]}
{"id": "C60", "title": "the region list tiles the buffer", "statement": "Walking next_index() from block 0 visits each region once in increasing order and ends; consecutive regions are adjacent, prev_index() of each region is the previous one, the first starts at block 0 and the last ends at the last block, so block_size() of the visited regions adds up to the whole buffer.", "quantifier": "every history", "why_tests_cant": "structural invariant over all reachable states", "anchors": ["sources/include/utils/memory/simple_resource.h:block_size", "sources/include/utils/memory/simple_resource.h:set_prev_next"]}
{"id": "C61", "title": "release() frees everything", "statement": "After release() there is no live allocation: busy_count() is 0, free_count() is 1 and one free region covers the whole buffer. It terminates without aborting.", "quantifier": "every reachable state", "why_tests_cant": "tests release after single-block allocations only", "anchors": ["sources/include/utils/memory/simple_resource.h:release", "sources/include/utils/memory/simple_resource.h:apply"]}
{"id": "C62", "title": "destroying a simple_resource aborts exactly when something is still allocated", "statement": "The destructor aborts if and only if some allocation served from the buffer has not been deallocated.", "quantifier": "every history", "why_tests_cant": "tests check one case", "anchors": ["sources/include/utils/memory/simple_resource.h:~simple_resource"]}
{"id": "C63", "title": "every pointer allocate returns may be passed to deallocate", "statement": "A pointer obtained from allocate (from the buffer or from the upstream resource) can be given back to deallocate of the same resource: it is released by the buffer or forwarded to the upstream unchanged, without aborting.", "quantifier": "every state, request and upstream resource that honours the requested alignment", "why_tests_cant": "tests use a default upstream with large alignment", "anchors": ["sources/include/utils/memory/simple_resource.h:deallocate_impl", "sources/include/utils/memory/simple_resource.h:allocate_impl"]}
{"id": "C64", "title": "single-block clients are fully safe", "statement": "A client that only makes requests of fewer than BlockSize bytes with alignment at most BlockSize, in any interleaving with valid deallocations and release(), gets the complete contract: termination, disjointness, bounds, alignment, first fit, exact counts, release frees everything, and the upstream is used exactly when all blocks are in use.", "quantifier": "every such history of any length", "why_tests_cant": "histories are unbounded", "anchors": ["sources/include/utils/memory/simple_resource.h:allocate_impl", "sources/include/utils/memory/simple_resource.h:deallocate_impl", "sources/include/utils/memory/simple_resource.h:release"]}
{"id": "C65", "title": "oversized requests are refused", "statement": "A request that is larger than the whole buffer never succeeds from the buffer and never changes its state.", "quantifier": "every reachable state, every size up to 2^64-1, every alignment", "why_tests_cant": "tests use size()+1", "anchors": ["sources/include/utils/memory/simple_resource.h:allocate_impl"]}
{"id": "C66", "title": "monotonic_buffer_resource allocations are disjoint, aligned and in bounds", "statement": "Since construction or the last release(), all buffer-served allocations are pairwise disjoint, inside [data(), data()+size()), aligned as requested, and have increasing addresses.", "quantifier": "every history, sizes and alignments", "why_tests_cant": "no behavioural test exists", "anchors": ["sources/include/utils/memory/monotonic_buffer_resource.h:allocate_impl"]}
{"id": "C67", "title": "monotonic_buffer_resource wastes only alignment padding", "statement": "A request is served from the buffer exactly when it fits after the alignment padding that follows the previous allocation; the served address is the least suitable one.", "quantifier": "every state and request", "why_tests_cant": "no behavioural test exists", "anchors": ["sources/include/utils/memory/monotonic_buffer_resource.h:allocate_impl"]}
{"id": "C68", "title": "monotonic release() rewinds completely", "statement": "After release() the resource behaves exactly as when freshly constructed: any sequence of requests gets the same answers.", "quantifier": "every history before and every sequence after release", "why_tests_cant": "no behavioural test exists", "anchors": ["sources/include/utils/memory/monotonic_buffer_resource.h:release"]}
{"id": "C69", "title": "monotonic deallocate is a no-op", "statement": "deallocate(p) changes nothing for any p, so no later allocate can return memory overlapping an earlier one before release().", "quantifier": "every history", "why_tests_cant": "no behavioural test exists", "anchors": ["sources/include/utils/memory/monotonic_buffer_resource.h:deallocate_impl"]}
{"id": "C70", "title": "monotonic_buffer_resource uses upstream exactly when the buffer cannot serve", "statement": "A zero-size request returns null without upstream call; otherwise the upstream is called, with the same arguments, exactly when the buffer cannot serve the request, and the buffer state is then unchanged.", "quantifier": "every state, request, upstream", "why_tests_cant": "no behavioural test exists", "anchors": ["sources/include/utils/memory/monotonic_buffer_resource.h:allocate_impl"]}
{"id": "C71", "title": "allocator<T>::allocate(n) returns room for n objects", "statement": "allocate(n) / allocate_object<U>(n) requests n*sizeof(T) bytes with alignment alignof(T) from the resource, so a non-null result is storage for n objects.", "quantifier": "every count and object size", "why_tests_cant": "overflow needs counts near 2^64", "anchors": ["sources/include/utils/memory/allocator.h:allocate", "sources/include/utils/memory/allocator.h:allocate_object"]}
{"id": "C72", "title": "new_object / delete_object balance", "statement": "new_object constructs exactly one object in freshly allocated storage, or returns null without constructing; delete_object(null) does nothing, otherwise destroys exactly once and then returns the same storage to the resource. For every sequence, objects constructed = objects destroyed + live, and no object is destroyed twice.", "quantifier": "every sequence of new_object/delete_object on live pointers, every resource behaviour", "why_tests_cant": "histories are unbounded; no test", "anchors": ["sources/include/utils/memory/allocator.h:new_object", "sources/include/utils/memory/allocator.h:delete_object"]}
{"id": "C73", "title": "aligned_malloc always calls posix_memalign with a legal alignment", "statement": "For every power-of-two alignment the value passed to posix_memalign is a power of two, a multiple of sizeof(void*), and at least the requested alignment, so a successful result has the requested alignment; on failure null is returned.", "quantifier": "every power-of-two alignment, size and posix_memalign behaviour", "why_tests_cant": "no test", "anchors": ["sources/include/utils/memory/memory.h:aligned_malloc"]}
{"id": "C74", "title": "the default resource is an atomic register", "statement": "Under any interleaving of set_default_resource and get_default_resource by any number of threads, get returns the value of the latest set before it, set returns the previous value, and every resource ever installed (and the initial one) is returned by exactly one later set or is the current default.", "quantifier": "every interleaving of any number of threads", "why_tests_cant": "schedules are unbounded", "anchors": ["sources/include/utils/memory/memory.h:set_default_resource", "sources/include/utils/memory/memory.h:get_default_resource"]}
{"id": "C75", "title": "a timer's finish callback runs exactly once", "statement": "For every sequence of constructions, move constructions, move assignments and destructions, each callback given to a timer is invoked exactly once, at the destruction of the timer that finally owns it.", "quantifier": "every history of timer operations", "why_tests_cant": "tests never observe the callback", "anchors": ["sources/include/utils/timer.h:timer"]}
{"id": "C76", "title": "moving a timer transfers start point and callback", "statement": "After move construction/assignment the target has the source's start_tp() and callback, and destroying the source invokes nothing; reset() changes only the start point.", "quantifier": "every pair of timers", "why_tests_cant": "tests check only start_tp of one move", "anchors": ["sources/include/utils/timer.h:timer(timer&&)", "sources/include/utils/timer.h:operator="]}
{"id": "C77", "title": "leaked() is non-negative and monotone, leaked_X truncates", "statement": "With a steady clock, leaked() never decreases between resets, is never negative, and leaked_sec/milli/micro/nano are its truncations, so leaked_sec <= leaked_milli/1000 <= ...", "quantifier": "every clock history", "why_tests_cant": "clock histories are unbounded", "anchors": ["sources/include/utils/timer.h:leaked", "sources/include/utils/timer.h:leaked_sec"]}
{"id": "C78", "title": "fast_pimpl owns exactly one T", "statement": "For every history of constructing, copying, moving, assigning and destroying fast_pimpl objects, each fast_pimpl holds exactly one constructed T from its construction to its destruction; constructor and destructor calls of T balance and no T is used outside its lifetime; copies have the source's value.", "quantifier": "every history", "why_tests_cant": "histories are unbounded; the only test default-constructs one", "anchors": ["sources/include/utils/fast_pimpl.h:fast_pimpl"]}
{"id": "C79", "title": "abort_if aborts exactly when the condition holds", "statement": "abort_if(c,...) aborts if and only if c, printing the message only when it aborts; UTILS_DEBUG_ABORT_IF does nothing in NDEBUG builds.", "quantifier": "every condition and build mode", "why_tests_cant": "decision table; kept for completeness of the abort semantics used by all other properties", "anchors": ["sources/include/utils/common.h:abort_if", "sources/include/utils/common.h:UTILS_DEBUG_ABORT_IF"]}
{"id": "C80", "title": "monotonic_buffer_resource gives upstream memory back", "statement": "Memory that monotonic_buffer_resource obtained from its upstream resource is returned to the upstream, by deallocate, release or at the latest the destructor.", "quantifier": "every history of calls", "why_tests_cant": "histories are unbounded; no test counts upstream deallocations", "anchors": ["sources/include/utils/memory/monotonic_buffer_resource.h:release", "sources/include/utils/memory/monotonic_buffer_resource.h:deallocate_impl"]}
{"id": "C81", "title": "new_object and construct forward their arguments", "statement": "The constructor called by new_object<U>(args...) and construct(p, args...) receives every argument with its own type and value category: lvalues are not moved from and any argument type is accepted.", "quantifier": "every allocator value type and argument list", "why_tests_cant": "argument lists and types are unbounded", "anchors": ["sources/include/utils/memory/allocator.h:construct", "sources/include/utils/memory/allocator.h:new_object"]}
{"id": "C82", "title": "stacked resources keep a client's storage disjoint", "statement": "A buffer resource on top of a well-behaved upstream is itself well-behaved: whatever mix of buffer and upstream memory the client holds, its pieces are pairwise disjoint, lie in the buffer or the upstream's memory, are aligned as requested, and every fair call returns, however many resources are stacked.", "quantifier": "every history, every well-behaved upstream, every depth of stacking", "why_tests_cant": "histories and stacks are unbounded", "anchors": ["sources/include/utils/memory/memory.h:memory_resource", "sources/include/utils/memory/simple_resource.h:simple_resource", "sources/include/utils/memory/monotonic_buffer_resource.h:monotonic_buffer_resource"]}
{"id": "C83", "title": "equal resources and allocators are interchangeable", "statement": "Two allocators compare equal exactly when they use the same resource, and system_memory_resource() is the same resource everywhere in a program.", "quantifier": "every pair of resources and every translation unit", "why_tests_cant": "a test binary has one translation unit", "anchors": ["sources/include/utils/memory/allocator.h:operator==", "sources/include/utils/memory/memory.h:system_memory_resource"]}
{"id": "C84", "title": "a timer releases what its callback owns", "statement": "When a timer is destroyed, after its finish callback has run, the stored callable is destroyed too, so that resources captured by it are released.", "quantifier": "every history of timer operations", "why_tests_cant": "histories are unbounded; no test captures an owning object", "anchors": ["sources/include/utils/timer.h:~timer"]}
{"id": "C85", "title": "function type traits answer for every function type", "statement": "has_*_qualifier, remove_*_qualifier, remove_all_qualifiers, return_type and params_list compile for every function type, including those with a C ellipsis.", "quantifier": "all function types, all qualifiers", "why_tests_cant": "R and Args range over all types", "anchors": ["sources/include/utils/function_traits.h:QUALIFIERS", "sources/include/utils/function_traits.h:return_type"]}
{"id": "C86", "title": "is_detected_convertible", "statement": "is_detected_convertible<To,Op,Args...> is true exactly when Op<Args...> is well-formed and converts to To.", "quantifier": "every Op, Args and To", "why_tests_cant": "quantifies over all metafunctions and types", "anchors": ["sources/include/utils/detector.h:is_detected_convertible"]}
{"id": "C87", "title": "has_padding answers, correctly, for every trivially copyable class", "statement": "For every trivially copyable class, aggregate or not, has_padding<T> compiles and is true exactly when some byte of T's object representation belongs to no scalar.", "quantifier": "every trivially copyable class of any nesting, member sizes and alignments", "why_tests_cant": "unbounded family of types", "anchors": ["sources/include/utils/padding_checker.h:has_padding", "sources/include/utils/padding_checker.h:sum_size_of_all_members"]}
{"id": "C88", "title": "member type checkers", "statement": "has_type_x<T> is true exactly when T is a class with an accessible member type x; has_exact_type_x<T,E> exactly when that type is E; has_convertible_type_x<T,To> exactly when it converts to To.", "quantifier": "every class, member name and type", "why_tests_cant": "quantifies over all classes", "anchors": ["sources/include/utils/function_traits.h:CREATE_MEMBER_TYPE_CHECKERS"]}
{"id": "C89", "title": "data member checkers", "statement": "has_data_x<T> is true exactly when T is a class with an accessible non-static data member x; has_static_data_x<T> exactly when x is an accessible static data member.", "quantifier": "every class and member", "why_tests_cant": "quantifies over all classes", "anchors": ["sources/include/utils/function_traits.h:CREATE_MEMBER_DATA_CHECKERS", "sources/include/utils/function_traits.h:CREATE_STATIC_MEMBER_DATA_CHECKERS"]}
{"id": "C90", "title": "method checkers check the qualifiers in their names", "statement": "For each of the 24 qualifier combinations there is one checker has_invocable_r_x<quals>, and it is true exactly when the class has an accessible non-static method x with this return type, these parameters and these qualifiers (a noexcept method also satisfies the checker without noexcept); likewise has_static_invocable_r_x for static methods.", "quantifier": "all 24 qualifier combinations, every class, overload set, return type and parameter list", "why_tests_cant": "quantifies over all classes and signatures", "anchors": ["sources/include/utils/function_traits.h:SYMBOLIZED_QUALIFIERS", "sources/include/utils/function_traits.h:CREATE_R_METHOD_CHECKERS", "sources/include/utils/function_traits.h:CREATE_STATIC_METHOD_CHECKERS"]}
{"id": "C91", "title": "method call checkers", "statement": "has_invocable_x<T,Args...> is true exactly when the call of x on a T compiles, has_invocable_x_noexcept exactly when it compiles and cannot throw; has_static_invocable_x and its noexcept form likewise for T::x(...).", "quantifier": "every class, argument types and call", "why_tests_cant": "quantifies over all classes and argument lists", "anchors": ["sources/include/utils/function_traits.h:CREATE_METHOD_CHECKERS", "sources/include/utils/function_traits.h:CREATE_STATIC_METHOD_CHECKERS"]}
{"id": "C92", "title": "free function checkers", "statement": "is_f_invocable<Args...> is true exactly when f(args...) compiles; the noexcept form when it also cannot throw; the _r forms when its type is exactly R.", "quantifier": "every function, argument types and R", "why_tests_cant": "quantifies over all argument lists", "anchors": ["sources/include/utils/function_traits.h:CREATE_FREE_FUNCTION_CHECKERS"]}
{"id": "C93", "title": "is_uint and is_uint_or_byte recognise exactly the unsigned integer types", "statement": "is_uint_v<T> is true exactly when T, const or volatile or not, is an unsigned integer type other than bool; is_uint_or_byte_v<T> exactly when it is one or std::byte.", "quantifier": "every type T, with any cv-qualification", "why_tests_cant": "quantifies over all types", "anchors": ["sources/include/utils/common.h:is_uint", "sources/include/utils/common.h:is_uint_or_byte"]}
{"id": "C94", "title": "is_equal_sizes compares all sizes", "statement": "is_equal_sizes_v<Ts...> is true exactly when any two of the types have the same sizeof.", "quantifier": "every list of types", "why_tests_cant": "quantifies over all lists of types", "anchors": ["sources/include/utils/common.h:is_equal_sizes"]}
{"id": "C95", "title": "concatenate_arrays accepts exactly the arrays of one element type", "statement": "A call of concatenate_arrays compiles exactly when there is at least one argument and all arguments are std::arrays (lvalues or rvalues, const or not, volatile only if empty and not alone) with the same element type, and the result is a std::array of that element type whose size is the sum of the sizes; is_std_array_v, std_array_size_v and std_array_data_t see through references and cv.", "quantifier": "every list of argument types", "why_tests_cant": "quantifies over all argument lists, of any length", "anchors": ["sources/include/utils/common.h:concatenate_arrays", "sources/include/utils/common.h:is_std_array_v", "sources/include/utils/common.h:std_array_sizes_sum"]}
{"id": "C96", "title": "unwrap_reference, is_ref_wrapper and is_tuple classify types", "statement": "unwrap_reference_t<T> is U& when T is std::reference_wrapper<U> and T otherwise, is_ref_wrapper_v<T> tells which, is_tuple_v<T> tells the tuples; also when T is const.", "quantifier": "every type T", "why_tests_cant": "quantifies over all types", "anchors": ["sources/include/utils/common.h:unwrap_reference", "sources/include/utils/common.h:is_ref_wrapper", "sources/include/utils/common.h:is_tuple"]}
{"id": "C97", "title": "objects constructed without a resource keep the default of that moment", "statement": "An allocator or buffer resource that is constructed without naming a resource uses the default resource of the moment of its construction, whatever set_default_resource does later; one constructed on a resource uses that; a copied allocator uses the resource of the original; set_default_resource returns the previous default.", "quantifier": "all histories of set_default_resource, constructions, copies and requests", "why_tests_cant": "quantifies over all histories", "anchors": ["sources/include/utils/memory/memory.h:set_default_resource", "sources/include/utils/memory/allocator.h:allocator", "sources/include/utils/memory/monotonic_buffer_resource.h:monotonic_buffer_resource", "sources/include/utils/memory/simple_resource.h:simple_resource"]}
{"id": "C98", "title": "a default-constructed allocator can always be used", "statement": "Whatever the history of set_default_resource, an allocator constructed without a resource can be asked for memory without undefined behaviour.", "quantifier": "all histories, null arguments included", "why_tests_cant": "quantifies over all histories", "anchors": ["sources/include/utils/memory/memory.h:set_default_resource", "sources/include/utils/memory/allocator.h:allocator"]}
{"id": "C99", "title": "the default resource is there during static initialisation", "statement": "Whatever order the language allows for the initialisation of static variables, an initialiser that asks for the default resource gets a resource, not null.", "quantifier": "all allowed initialisation orders of all programs of any number of translation units", "why_tests_cant": "the order is up to the linker", "anchors": ["sources/include/utils/memory/memory.h:default_resource", "sources/include/utils/memory/memory.h:get_default_resource"]}
{"id": "C100", "title": "allocators of different value types convert and compare", "statement": "allocator<T> can be constructed from allocator<U> and then uses the same resource; allocators, of the same or of different value types, are equal exactly when they use the same resource.", "quantifier": "all value types T, U and resources", "why_tests_cant": "quantifies over all types", "anchors": ["sources/include/utils/memory/allocator.h:allocator(const allocator<U>&)", "sources/include/utils/memory/allocator.h:operator=="]}
{"id": "C101", "title": "has_padding is conservative for types that are not trivially copyable", "statement": "For every type that is not trivially copyable has_padding<T> compiles, whatever its members are, and is true.", "quantifier": "every type of any nesting, member sizes and alignments", "why_tests_cant": "unbounded family of types", "anchors": ["sources/include/utils/padding_checker.h:has_padding"]}
{"id": "C102", "title": "a timer accepts what it can call", "statement": "timer t(x) compiles exactly when a copy of x (a move of x, for an rvalue) fits into the timer's storage and can be called with a const timer, be x the name of a function, a function pointer or an object with a call operator.", "quantifier": "all callables: functions with any parameter, noexcept or not, pointers to them, objects with a call operator of any constness, reference qualifier, parameter, size and alignment, passed as any value category; all storage sizes and alignments", "why_tests_cant": "tests try one noexcept function, one pointer and one lambda", "anchors": ["sources/include/utils/timer.h:storable", "sources/include/utils/timer.h:timer"]}
{"id": "C103", "title": "is_type_list and is_value_list tell the kinds of list apart", "statement": "is_type_list<Ts...> is true exactly when Ts is a single type that is a type_list; is_value_list<T> is true exactly when T is a value_list; the result of concatenate is a list of the same kind as every one of its arguments.", "quantifier": "all packs of types, lists of any length and nesting", "why_tests_cant": "unbounded family of types", "anchors": ["sources/include/utils/type_list.h:is_type_list", "sources/include/utils/value_list.h:is_value_list", "sources/include/utils/cartesian_product.h:concatenate"]}
{"id": "C104", "title": "debug builds stop at a violated precondition", "statement": "In debug builds a call that breaks a documented precondition aborts, and a call that keeps it does not: alignments that are no power of two (next_multiple_of, skip_to_align, is_aligned, max_alignment_inside_block, the resources), empty blocks, clz/ctz of 0, the alignment of a null pointer, shifts by the width or more, division by zero (for div_as: by a divisor that is zero after the conversion), memcpy of or to a null pointer. In release builds the zero cases are undefined, except for the handmade clz/ctz, which answer the width minus one.", "quantifier": "every argument of every integer type, both builds", "why_tests_cant": "death tests cover a few values, and none of these asserts is tested; the converse (no assert fires on valid arguments) is about all arguments", "anchors": ["sources/include/utils/common.h:next_multiple_of", "sources/include/utils/common.h:max_alignment_inside_block", "sources/include/utils/common.h:div", "sources/include/utils/common.h:shift_left", "sources/include/utils/clz.h:clz", "sources/include/utils/ctz.h:ctz", "sources/include/utils/memory/memory.h:get_alignment", "sources/include/utils/memory/memory.h:memcpy"]}
{"id": "C105", "title": "to_underlying keeps the value of an enumerator", "statement": "to_underlying(e) is the number e stands for, as a value of the underlying type; converting it back gives e, and comparing the numbers compares the enumerators.", "quantifier": "every integral underlying type but bool, every value of the enumeration", "why_tests_cant": "tests name a few enumerators", "anchors": ["sources/include/utils/common.h:to_underlying"]}
{"id": "C106", "title": "different resources never hand out the same memory", "statement": "In a program with any number of memory resources on separate buffers, whatever a client holds from different resources is disjoint, and what one resource does never depends on the calls made on another.", "quantifier": "any number of resources, every interleaving of calls on them and of statements between resources that compile", "why_tests_cant": "the tests use one resource at a time; the claim ranges over all programs", "anchors": ["sources/include/utils/memory/memory.h:memory_resource", "sources/include/utils/memory/monotonic_buffer_resource.h:monotonic_buffer_resource", "sources/include/utils/memory/simple_resource.h:simple_resource"]}
{"id": "C107", "title": "a resource always runs the code of its own class", "statement": "allocate and deallocate called through memory_resource run allocate_impl and deallocate_impl of the object's own class, whatever happened to the object before.", "quantifier": "every history of calls and assignments, all resource classes", "why_tests_cant": "it is about every way a program can treat a resource, not about one object", "anchors": ["sources/include/utils/memory/memory.h:memory_resource"]}
{"id": "C108", "title": "the library says where and why it stops a program", "statement": "Before UTILS_ABORT_IF ends the program it prints the file, the line, the enclosing function and the given reason with the values of its arguments; so do the checks of simple_resource.", "quantifier": "every path, line and function name, every reason whose format fits its arguments, all values, all MaxBlockCount", "why_tests_cant": "tests see the text of a few calls in one directory on one platform, where a wrong format specifier happens to print", "anchors": ["sources/include/utils/common.h:UTILS_ABORT_IF", "sources/include/utils/common.h:abort_if", "sources/include/utils/memory/simple_resource.h:~simple_resource", "sources/include/utils/memory/simple_resource.h:deallocate_impl", "sources/include/utils/memory/simple_resource.h:deallocate_blocks"]}
{"id": "C109", "title": "value_list tells references to different objects apart", "statement": "A value_list may hold references to objects (its values are decltype(auto)). index_of, count_of, contains, contains_copies and is_same then treat two values as the same exactly when they refer to the same object, and they can be used with every object a reference template argument may name.", "quantifier": "all lists of values and references, all contents of the objects, constants or not", "why_tests_cant": "tests use a few lists, and none with references; the answer depends on the contents of all objects", "anchors": ["sources/include/utils/value_list.h:is_same_impl", "sources/include/utils/value_list.h:count_of_impl", "sources/include/utils/value_list.h:index_of_impl", "sources/include/utils/value_list.h:contains_impl", "sources/include/utils/value_list.h:contains_copies"]}
{"id": "C110", "title": "a moved timer calls its callback intact", "statement": "When a timer's finish callback runs, the callable object it is invoked on is as the callable was constructed, adjusted to the place where it now lives: moving the timer (by construction or assignment, any number of times) moves the callable, so a callable that holds pointers into itself (for example a lambda that captured a std::string by value) finds its own parts.", "quantifier": "every callable type storable in a timer, every history of constructions, moves, assignments, resets and destructions, every placement of the timers in memory", "why_tests_cant": "Tests use stateless lambdas and function pointers; whether a byte-wise move is enough depends on the representation of the callable and on the addresses of all timers it passes through.", "anchors": ["sources/include/utils/timer.h: timer(timer&&), operator=(timer&&), timer_impl::copy, call_finish_callback"]}
{"id": "C111", "title": "fast_pimpl lets T's exceptions through", "statement": "A fast_pimpl<T> throws what T throws: when a special member of T throws, the user of the fast_pimpl can catch the exception exactly where the user of a T could, with the same T objects left and the same values in them; the program is terminated only where it would be with a T; and std::is_nothrow_* give the same answers about constructing and assigning a fast_pimpl<T> as about T.", "quantifier": "every class T (which of its special members are noexcept, what a failed one leaves behind) and every history of operations, each throwing or not", "why_tests_cant": "the tests default-construct one fast_pimpl; nothing throws", "anchors": ["sources/include/utils/fast_pimpl.h:fast_pimpl"]}
{"id": "C112", "title": "Checkers of different members can be created side by side", "statement": "In one namespace the CREATE_*_CHECKERS macros can be used for any set of members: no use declares a name twice, the uses of different macros for one member declare different names, and so do uses for members of different names; otherwise the program does not compile.", "quantifier": "every pair of uses: which of the seven macros, and every pair of member names", "why_tests_cant": "each test file uses the macros for one name; the names are unbounded", "anchors": ["sources/include/utils/function_traits.h:CREATE_MEMBER_TYPE_CHECKERS", "sources/include/utils/function_traits.h:CREATE_MEMBER_DATA_CHECKERS", "sources/include/utils/function_traits.h:CREATE_STATIC_MEMBER_DATA_CHECKERS", "sources/include/utils/function_traits.h:CREATE_R_METHOD_CHECKERS", "sources/include/utils/function_traits.h:CREATE_METHOD_CHECKERS", "sources/include/utils/function_traits.h:CREATE_STATIC_METHOD_CHECKERS", "sources/include/utils/function_traits.h:CREATE_FREE_FUNCTION_CHECKERS"]}
{"id": "C113", "title": "debug builds only add aborts", "statement": "A program whose debug build runs without a failed check gives the same results when it is compiled with NDEBUG: every call returns the same value, every resource hands out the same memory and makes the same calls of its upstream, and what never returns still never returns.", "quantifier": "every program that calls and assigns memory resources, every argument of the checked functions (alignment, clz and ctz, shifts, div, memcpy, make_array, is_equal)", "why_tests_cant": "tests are run in one build type at a time, and the claim compares two builds on every input and history", "anchors": ["sources/include/utils/common.h:UTILS_DEBUG_ABORT_IF", "sources/include/utils/memory/simple_resource.h:simple_resource", "sources/include/utils/memory/monotonic_buffer_resource.h:allocate_impl", "sources/include/utils/memory/memory.h:memcpy"]}
{"id": "C114", "title": "quotient and remainder objects can be written down directly", "statement": "div_t{q, r} is accepted exactly for two integers (bool included) whose conversion to their common type keeps the value - for constants that the value fits, for run-time values that every value fits - and the object then has the common type and holds the two values unchanged.", "quantifier": "every pair of operand types and every pair of values, constant or known at run time only", "why_tests_cant": "no test writes div_t{...}; acceptance depends on every combination of types and, for constants, on the values", "anchors": ["sources/include/utils/common.h:div_t"]}
{"id": "C115", "title": "positions of a list and searches in it fit together", "statement": "at<I> of a type_list or value_list compiles exactly for I below size; at<index_of<v>> (at<first_index_of_type<T>>) is v (T) whenever the list contains it; the index found for at<I> is never above I and is I exactly when no copy stands before; two lists with the same elements at all positions are the same type; concatenation keeps the positions of the first list and shifts those of the second by its size. With references among the values at<I> refers to the same object and at_t<I> is its reference type.", "quantifier": "every type_list, every value_list (references included), every position, every type and value looked for", "why_tests_cant": "the tests look up a handful of positions of a few fixed lists; the laws range over all lists with copies at any positions", "anchors": ["sources/include/utils/type_list.h:at", "sources/include/utils/type_list.h:first_index_of_type", "sources/include/utils/value_list.h:at", "sources/include/utils/value_list.h:at_t", "sources/include/utils/value_list.h:index_of"]}
{"id": "C116", "title": "new_object compiles for what the type accepts and calls a constructor that does not throw", "statement": "new_object<U>(args...) compiles exactly when U can be constructed from those arguments without exceptions, and the constructor it then calls is noexcept, so the noexcept new_object never ends the program through a constructor's exception.", "quantifier": "every allocator value type, every set of constructors of U, every list of arguments of any types, constness and value categories", "why_tests_cant": "the tests construct one or two types from one or two argument lists; the claim is about every overload set and argument list, including those where the check and the call select different constructors", "anchors": ["sources/include/utils/memory/allocator.h:new_object", "sources/include/utils/memory/allocator.h:construct"]}
{"id": "C117", "title": "Resources outlive the objects that use them at exit", "statement": "In every program an object with static storage duration can use, in its destructor, the system resource, the null resource and the default resource, just as it can in its constructor.", "quantifier": "all orders of construction of objects with static storage duration, all uses of the resources before exit and in the destructors", "why_tests_cant": "depends on the order in which the first calls and the constructors of all translation units happen; the undefined behaviour shows no symptom in a test", "anchors": ["sources/include/utils/memory/memory.h: system_memory_resource", "sources/include/utils/memory/memory.h: null_memory_resource", "sources/include/utils/memory/memory.h: details::default_resource"]}
{"id": "C118", "title": "A monotonic buffer stays inside its array", "statement": "monotonic_buffer_resource forms no pointer outside the array that contains its buffer, so every request has defined behaviour; in particular a request that does not fit behind what has been handed out is passed to the upstream resource.", "quantifier": "all arrays and buffers inside them, all histories of allocate, deallocate and release, all sizes and power-of-two alignments, with and without upstream, debug and release builds", "why_tests_cant": "pointer arithmetic beyond an array has no visible effect on the tested platforms, and the pointers formed depend on every earlier request", "anchors": ["sources/include/utils/memory/monotonic_buffer_resource.h: allocate_impl", "sources/include/utils/memory/monotonic_buffer_resource.h: release"]}
{"id": "C119", "title": "simple_resource stays inside its array", "statement": "simple_resource forms no pointer outside the array that contains its buffer: making it, allocating, giving back and releasing have defined behaviour and give the addresses of the flat address space.", "quantifier": "all block sizes and block counts, all arrays and buffers inside them, all histories of calls, debug and release builds", "why_tests_cant": "pointer arithmetic beyond an array has no visible effect on the tested platforms; the pointers formed depend on the history and on the build", "anchors": ["sources/include/utils/memory/simple_resource.h: pointer_to_block_index", "sources/include/utils/memory/simple_resource.h: block_index_to_pointer", "sources/include/utils/memory/simple_resource.h: allocate_impl", "sources/include/utils/memory/simple_resource.h: allocate_blocks", "sources/include/utils/memory/simple_resource.h: deallocate_impl", "sources/include/utils/memory/simple_resource.h: details::origin_and_block_count"]}
{"id": "C120", "title": "is_valid_range says whether a range can be walked upwards", "statement": "is_valid_range_v<Begin,End,Step> is true exactly if Begin equals End, or Begin is below End and Step is positive.", "quantifier": "all Begin, End and Step of all standard integer types, each of its own type", "why_tests_cant": "the answer depends on the usual conversions of three types and on overflow of Begin + Step; the tests instantiate a few int ranges", "anchors": ["sources/include/utils/common.h: is_valid_range", "sources/include/utils/common.h: is_valid_range_v"]}
{"id": "C121", "title": "A timer lets the callable's exceptions through", "statement": "If copying or moving the callable into a timer throws, the exception reaches whoever constructs the timer and there is no timer; a program is terminated by an exception only where a finish callback, called by the destructor, throws.", "quantifier": "all histories of constructing, moving, assigning, reading, resetting and destroying timers, with any callables and clocks, whichever of them throw", "why_tests_cant": "which calls run user code depends on the history (a timer that was moved from calls nothing), and a test that is terminated reports nothing", "anchors": ["sources/include/utils/timer.h: details::timer", "sources/include/utils/timer.h: details::timer_impl::call_finish_callback"]}
{"id": "C122", "title": "The headers can be used in programs of several translation units", "statement": "Any number of source files of a program may include any headers of the library, in any order, call its function templates with any arguments and use its functions in inline functions of their own: every name is defined, nothing is defined twice that may be defined only once, and whatever several units define means the same in all of them (the one-definition rule).", "quantifier": "programs of any number of source files with any lists of included headers, any shared inline functions of the user and any calls of concatenate_arrays", "why_tests_cant": "the tests are built file by file, and no diagnostic is required when definitions in different units differ in what their names denote; the set of programs is unbounded", "anchors": ["sources/include/utils/common.h: details::concatenate_2_arrays, skip_to_align, memvcmp, abort_if", "sources/include/utils/memory/memory.h: system_memory_resource, get_default_resource, details::default_resource", "sources/include/utils/utils.h"]}
{"id": "C123", "title": "concatenate_arrays copies lvalues once and only moves from rvalues", "statement": "concatenate_arrays copies each element of an lvalue (or const) array exactly once and no element of a non-const rvalue array; afterwards lvalue and const arrays are unchanged, rvalue arrays are moved from once, element by element; the values in the result are those the arguments held when they were read, from left to right, also when one object is given several times.", "quantifier": "any number of arrays of any sizes of any element type, given as lvalues or rvalues, const or not, the same object any number of times, after any history", "why_tests_cant": "the number of copies and moves depends on the number of arguments and on the overload the recursion reaches; tests use trivially copyable elements, for which a needless copy or a double move is invisible", "anchors": ["sources/include/utils/common.h: concatenate_arrays, details::concatenate_arrays, details::concatenate_2_arrays"]}
{"id": "C124", "title": "The array functions let exceptions of the elements through", "statement": "When an element operation (copy, move, conversion, comparison, call) throws inside concatenate_arrays, make_array, make_zero_array, is_equal, for_each_arg or for_each_in_tuple, the exception reaches the caller; the operations after it are not made.", "quantifier": "all element types, all argument lists and sizes, every operation of a call that may throw", "why_tests_cant": "each operation of each call can be the one that throws; the tests use elements that never throw", "anchors": ["sources/include/utils/common.h: concatenate_arrays, make_array, make_zero_array, details::make_array_with_value_impl, details::make_array_from_sv, is_equal, for_each_arg, for_each_in_tuple"]}
{"id": "C125", "title": "Threads that share no buffer do not disturb each other", "statement": "When every thread calls allocate, deallocate and release only on memory resources of its own, whose upstreams are its own or are shared resources without a buffer (which are not released), no two threads access the same object unless both only read it, and under every schedule each thread gets, call by call, exactly the answers it gets when it runs alone, and leaves its resources in the same states. The resources take no locks: a buffer shared by two threads may hand out the same memory twice.", "quantifier": "all numbers of threads, all programs (call sequences), all schedules, all resources and chains of upstreams, debug and release builds", "why_tests_cant": "the tests are single-threaded, and no number of runs covers all interleavings", "anchors": ["sources/include/utils/memory/memory.h: memory_resource::allocate, memory_resource::deallocate, null_memory_resource", "sources/include/utils/memory/monotonic_buffer_resource.h: allocate_impl, deallocate_impl, release", "sources/include/utils/memory/simple_resource.h: allocate_impl, deallocate_impl, release"]}
{"id": "C126", "title": "The classes say truthfully whether they can be constructed, copied, moved and assigned", "statement": "std::is_default_constructible, is_copy_constructible, is_move_constructible, is_copy_assignable, is_move_assignable and is_destructible answer true for a class of the library exactly if a program that does it compiles, for timer, allocator<T>, the memory resources and fast_pimpl<T, Size, Alignment>; generic code (such as a growing std::vector) treats fast_pimpl<T> as it treats T; a class with such members can do what the language rules make of what its members can do.", "quantifier": "all classes T with any combination of special members that exist and may throw, all sizes and alignments, all operations", "why_tests_cant": "the answers depend on the special members of T; tests instantiate the templates with a few classes", "anchors": ["sources/include/utils/fast_pimpl.h: fast_pimpl", "sources/include/utils/timer.h: details::timer", "sources/include/utils/memory/allocator.h: allocator", "sources/include/utils/memory/memory.h: memory_resource, details::system_memory_resource, details::null_memory_resource", "sources/include/utils/memory/monotonic_buffer_resource.h: monotonic_buffer_resource", "sources/include/utils/memory/simple_resource.h: simple_resource"]}
{"id": "C127", "title": "The headers can be included on their own and in every order", "statement": "A source file that includes any of the headers of the library, each on its own or several in any order, compiles with every implementation of C++17, whichever further headers the standard headers of that implementation include.", "quantifier": "all conforming implementations of the standard library (any declarations beyond the promised ones), all lists of #include lines", "why_tests_cant": "a test is compiled with one implementation, and the tests include a testing framework and other headers first", "anchors": ["sources/include/utils/*.h: the #include lines and the names used", "sources/include/utils/memory/*.h", "sources/include/utils/details/cxz.h"]}
{"id": "C128", "title": "The alignment functions on 32-bit platforms", "statement": "Where std::size_t and std::uintptr_t have 32 bits, is_power_of_2, next_multiple_of, skip_to_align, is_aligned and get_alignment give the same mathematical answers for every 32-bit argument as they do with 64 bits, misuse is caught in debug builds, and max_alignment_inside_block returns the greatest guaranteed alignment of every block that has one (with 64 bits it does not from 2 GiB on).", "quantifier": "all 32-bit addresses, sizes and alignments (most of it: all widths)", "why_tests_cant": "the tests run on 64-bit machines; masks and shifts at the ends of a 32-bit range are not reached", "anchors": ["sources/include/utils/common.h: is_power_of_2, next_multiple_of, skip_to_align, max_alignment_inside_block, is_aligned", "sources/include/utils/memory/memory.h: get_alignment"]}
{"id": "C129", "title": "Monotonic buffers on 32-bit platforms", "statement": "Where addresses and sizes have 32 bits, a monotonic_buffer_resource hands out aligned, pairwise disjoint memory inside its buffer, serves a request exactly when it fits behind what was handed out, asks its upstream otherwise, starts over after release, and an allocator on top of it never finds room for more objects than fit.", "quantifier": "all buffers, all histories of calls with requests of any 32-bit size and alignment, all counts", "why_tests_cant": "the tests run on 64-bit machines with small requests; sums and products pass 2^32 far sooner than 2^64", "anchors": ["sources/include/utils/memory/monotonic_buffer_resource.h: allocate_impl", "sources/include/utils/memory/allocator.h: allocate"]}
{"id": "C130", "title": "A resource can be handed to other threads as default resource", "statement": "A thread may construct a memory resource, make it the default with set_default_resource, and any thread that obtains it from get_default_resource (or as the previous default from set_default_resource), directly or after other threads have passed it on, may use it without further synchronisation: its construction happens before every such use, and there is no data race.", "quantifier": "all programs of any number of threads that hand resources over this way, all schedules, all orders of the operations on the default resource", "why_tests_cant": "a missing happens-before edge does not show on the machine the tests run on; races are properties of all executions", "anchors": ["sources/include/utils/memory/memory.h: default_resource, set_default_resource, get_default_resource"]}
{"id": "C131", "title": "A resource replaced as default can be destroyed", "statement": "Once set_default_resource has returned the previous default resource to the thread that made it, and the threads that had obtained it have finished with it, that thread may destroy it.", "quantifier": "all programs of any number of threads, all schedules, all pairs of a use and a destruction", "why_tests_cant": "the race exists even when the use is long over; no execution on real hardware has to show it", "anchors": ["sources/include/utils/memory/memory.h: set_default_resource, get_default_resource"]}
{"id": "C132", "title": "The list operations can be used on lists of up to 1000 elements", "statement": "Every operation on type lists and value lists (at, at with a predicate, index_of, the filters, list_all_of, min, max, concatenate, sublist, exclude_at, the two sorts, and the cartesian product of up to 22 lists) can be applied to lists of up to 1000 elements: the template instantiations it causes nest no deeper than the 1024 levels every implementation should accept.", "quantifier": "all lists of up to 1000 elements, all predicates whose own instantiation causes no other, all indices", "why_tests_cant": "the tests use lists of a few elements and one compiler's own limit; the depth depends on the length, the index and which elements the predicate holds for", "anchors": ["sources/include/utils/type_list.h: at, index_of, list_of_predicate_compliant, sublist, exclude_at, sort_sizeof_ascending, sort_sizeof_descending", "sources/include/utils/value_list.h: index_of, list_all_of, min, max", "sources/include/utils/cartesian_product.h: concatenate, cartesian_product"]}
{"id": "C133", "title": "The time a call takes grows at most in proportion to the number of blocks", "statement": "A call of allocate or release() that returns does so after a number of steps in proportion to the number of blocks of the resource: allocate looks at each block at most once, whatever calls came before, and release() takes no more than a fixed number of steps per block.", "quantifier": "all resources, all states they can be in, all requests, both builds; for release(): all histories of requests that take one block each", "why_tests_cant": "tests look at results on buffers of a few blocks, not at how the time grows with the number of blocks, and the worst state depends on the history", "anchors": ["sources/include/utils/memory/simple_resource.h: apply, allocate_impl, release, deallocate_blocks"]}
{"id": "C134", "title": "simple_resource does the same with 32-bit addresses as with 64-bit addresses", "statement": "On a platform with 32-bit addresses a simple_resource is built like, and answers every history of calls like, one on a platform with 64-bit addresses: the same pointers, the same calls of the upstream resource, the same aborts, as long as the buffer lies in the smaller address space (with room for MaxBlockCount blocks), no size plus alignment exceeds it and fewer than 2^31 calls are made. A release build does so for every history the debug build passes.", "quantifier": "all buffers, block sizes and block counts, all histories of allocate, deallocate and release() with any arguments, polite or not, and all answers of the upstream resource", "why_tests_cant": "the tests run on one platform; a difference would need sums, counters or shifts that wrap at one width and not at the other, in some state of some history", "anchors": ["sources/include/utils/memory/simple_resource.h: simple_resource, allocate_impl, deallocate_impl, release, pointer_to_block_index, block_index_to_pointer, block_size_in_bytes", "sources/include/utils/common.h: skip_to_align, is_aligned, is_power_of_2, max_alignment_inside_block"]}
{"id": "C135", "title": "The contract of simple_resource holds with 32-bit addresses", "statement": "On a platform with 32-bit addresses live allocations of a simple_resource never overlap and lie inside its buffer, requests are answered by first fit, and free_count() and busy_count() count the free regions and the live allocations, after every history however long.", "quantifier": "all buffers, block sizes and block counts, all histories of a client, both builds", "why_tests_cant": "the tests run on one platform, on a few requests; addresses, sizes and counters wrap earlier with 32 bits", "anchors": ["sources/include/utils/memory/simple_resource.h: allocate_impl, deallocate_impl, release, free_count, busy_count"]}
{"id": "C136", "title": "secure_zero_memory erases, whatever the optimizer does", "statement": "After secure_zero_memory(p,n) at run time, no byte of [p,p+n) still holds what it held before, in every program the compiler may make of the source: the compiler may leave out accesses that cannot be observed, and a buffer that is cleared and never looked at again is the usual case. This holds on every platform the function has a branch for.", "quantifier": "every platform, address, size, program before and after the call, memory content, and every choice of accesses the compiler leaves out without changing what can be observed", "why_tests_cant": "a test that looks at the buffer afterwards forces the compiler to keep the writes; the ones that go are those no test can look at", "anchors": ["sources/include/utils/memory/memory.h:secure_zero_memory"]}
{"id": "C137", "title": "aligned_malloc and aligned_free fit together on every platform", "statement": "With MSVC and elsewhere, for every pointer size: aligned_malloc(size, align) with a power of two asks the system once, with an alignment the system accepts and that is a multiple of align, and returns its answer, or null if it fails; a client that frees only what aligned_malloc returned never passes a pointer to the wrong function of the system; nothing stays allocated that the client does not own.", "quantifier": "every platform, pointer size, history of calls and every answer of the system", "why_tests_cant": "the tests run on one platform, whose system does not fail on demand", "anchors": ["sources/include/utils/memory/memory.h:aligned_malloc", "sources/include/utils/memory/memory.h:aligned_free"]}
{"id": "C138", "title": "The headers leave other headers' declarations in the global namespace", "statement": "In every source file, every header the user includes with #include <...> (and every header it reads in turn) is read outside of any namespace of the library, whatever headers of the library are included before it, after it or in between, so that its names are where its documentation says.", "quantifier": "every order of #include lines, every compiler the headers have branches for, every relation of which headers of the system read which", "why_tests_cant": "there are infinitely many source files, and each test file has one order of its lines and is compiled on one platform", "anchors": ["sources/include/utils/clz.h", "sources/include/utils/ctz.h", "sources/include/utils/utils.h"]}
{"id": "C139", "title": "allocator<T> can be given to the standard containers", "statement": "A program that uses std::vector, std::list or another standard container with utils::memory::allocator<T> compiles: everything a container asks of its allocator through std::allocator_traits is there, and allocate returns storage or throws.", "quantifier": "every element type, every container and every list of requests it makes, every set of constructors of the elements", "why_tests_cant": "a test instantiates one container with one element type, and code that does not compile is in no test", "anchors": ["sources/include/utils/memory/allocator.h:allocator", "sources/include/utils/memory/allocator.h:deallocate", "sources/include/utils/memory/allocator.h:construct"]}
{"id": "C140", "title": "for_each_arg and for_each_in_tuple hand on what they are given as it is", "statement": "for_each_arg(f, xs...) and for_each_in_tuple(f, t) compile exactly if the calls f(x) compile for the callable, the arguments and the elements of the tuple with the type, constness and value category they are given with; these calls are made and nothing else.", "quantifier": "every callable type (which calls it accepts as lvalue, rvalue, const and with which arguments, and what they return), every list of arguments, every tuple with elements of any object or reference types, as lvalue or rvalue, const or not", "why_tests_cant": "tests use a few lambdas and argument lists, and calls that must not compile cannot be run", "anchors": ["sources/include/utils/common.h:for_each_arg", "sources/include/utils/common.h:for_each_in_tuple"]}
{"id": "C141", "title": "A query of type_list looks only at the types it needs", "statement": "index_of<P> and at<I, P> compile whenever the predicate can be asked about the types up to the one that is found; count, contains and list with a predicate whenever it can be asked about every type of the list; min and max by size and the sorts need sizeof of the types (a sort only from two types on); every other query compiles for types without a size, and depends only on which types are the same.", "quantifier": "every list of types, every index, every predicate that may be ill-formed for some types, every set of types without sizeof, every injective replacement of types", "why_tests_cant": "tests list a few complete types with total predicates; code that must not compile is in no test", "anchors": ["sources/include/utils/type_list.h:index_of", "sources/include/utils/type_list.h:at", "sources/include/utils/type_list.h:count_of_predicate_compliant", "sources/include/utils/type_list.h:contains_predicate_compliant", "sources/include/utils/type_list.h:list_of_predicate_compliant", "sources/include/utils/type_list.h:min_sizeof_index", "sources/include/utils/type_list.h:max_sizeof_index", "sources/include/utils/type_list.h:sort_sizeof_ascending"]}
{"id": "C142", "title": "expressions with clz and ctz mean the same on every compiler, while compiling and at run time", "statement": "For every unsigned operand type and positive value, clz and ctz return the same count whether the call is evaluated by the compiler or when the program runs, on every supported compiler; and an expression made of such counts - the difference of two, the comparison of one with an int - has the same, mathematically right value on all of them.", "quantifier": "every compiler and pointer width, every phase, every operand type and positive value, every int compared with", "why_tests_cant": "a test run exercises one compiler and one phase on a few values; the result type differs between compilers and so does the arithmetic done with it.", "anchors": ["sources/include/utils/clz.h: clz, clz_ui, clz_ul, clz_ull, crafted_clz", "sources/include/utils/ctz.h: ctz, ctz_ui, ctz_ul, ctz_ull, crafted_ctz"]}
{"id": "C143", "title": "clz and ctz never make up a count for 0", "statement": "For the value 0, for which the functions have no defined result, no build returns a number as if it were a count: a call stops with the failed assertion, or is rejected if it is evaluated while compiling.", "quantifier": "every compiler, phase and build mode, every unsigned operand type", "why_tests_cant": "tests cannot contain calls that abort or do not compile, and the outcome differs by compiler, phase and NDEBUG.", "anchors": ["sources/include/utils/clz.h: clz, clz_ul, crafted_clz", "sources/include/utils/ctz.h: ctz, ctz_ul, crafted_ctz"]}
{"id": "C144", "title": "the checks of debug builds stop no program that the release build serves correctly", "statement": "Whenever the release build of a program that uses a simple_resource hands out, at every moment of the program, only memory of its own inside the buffer, the debug build of the same program runs to the same end, with the same results and the same calls of the upstream.", "quantifier": "every configuration and buffer, every client program that gives back only what it holds, every answer of the upstream", "why_tests_cant": "it compares two builds over every history; a test run sees one build and a handful of histories", "anchors": ["sources/include/utils/memory/simple_resource.h: allocate_impl, deallocate_impl, the asserts of the helper functions", "sources/include/utils/common.h: UTILS_DEBUG_ABORT_IF"]}
{"id": "C145", "title": "what a simple_resource does next depends only on what it has lent out", "statement": "Two histories of the same simple_resource after which the same memory is lent out leave it in the same condition, whatever was asked for in between and in whatever order memory was given back: the queries answer alike and every further call has the same result.", "quantifier": "every configuration and buffer, every two histories that end with the same live allocations, every order of giving back, every continuation", "why_tests_cant": "it compares all pairs of histories; tests run single ones, and traces of the past show only in later calls", "anchors": ["sources/include/utils/memory/simple_resource.h: allocate_impl, deallocate_impl, deallocate_blocks, merge_if_both_not_in_use, apply"]}
{"id": "C146", "title": "a container that grows by moving to larger memory can live in a simple_resource", "statement": "A container that keeps its elements in one piece of memory (std::vector) and changes its capacity by asking for new memory, moving the elements and giving the old memory back can do so any number of times in a simple_resource, as long as the old and the new memory both fit in the buffer: every call returns, and the new memory does not overlap the old one.", "quantifier": "every block size and buffer, every alignment up to the block size, every sequence of capacities", "why_tests_cant": "it ranges over all sequences of capacities and all block sizes; the tests make a few fixed calls and no container grows in them", "anchors": ["sources/include/utils/memory/simple_resource.h: allocate_impl, deallocate_impl, allocate_blocks, deallocate_blocks, apply"]}
{"id": "C147", "title": "the list operations combine by the usual laws", "statement": "A list cut in two at any position by sublist and joined by concatenate is the list again; a window of a window is a window; exclude_at is what is before joined with what is behind, and two types can be excluded in either order; picking by a predicate, counting and searching in a joined list is doing so in its parts; sorting is idempotent, independent of an earlier sort of the list or of its parts, and may be done before or after picking; the first type of a sorted list is the one at min_sizeof_index (max_sizeof_index); the product of a joined list is the products of its parts joined; the minimum of a joined value_list is the smaller of the minima of its parts.", "quantifier": "every type_list and value_list of less than SIZE_MAX elements, every predicate, every position and window, every way of cutting", "why_tests_cant": "laws over all lists, predicates and positions; the tests apply each operation to a few lists and combine none", "anchors": ["sources/include/utils/type_list.h: sublist, exclude_at, list_of_predicate_compliant, count_of, index_of, sort_sizeof_ascending, sort_sizeof_descending, min_sizeof_index", "sources/include/utils/cartesian_product.h: concatenate, cartesian_product", "sources/include/utils/value_list.h: list_all_of, min, max"]}
{"id": "C148", "title": "a request that a resource does not serve from its buffer leaves no trace in it", "statement": "From every history of a simple_resource or monotonic_buffer_resource the calls that were answered with null or passed on to the upstream resource, and those that gave back null or memory of the upstream, can be left out: the remaining calls have the same results and the resource ends in the same state.", "quantifier": "every buffer and configuration, every history, including those in which memory was granted twice, every choice of idle calls in it; alignments that do not lead out of the address space", "why_tests_cant": "it compares every history with its shorter version; a lasting effect of a refused request would show only in some later call", "anchors": ["sources/include/utils/memory/simple_resource.h: allocate_impl, deallocate_impl", "sources/include/utils/memory/monotonic_buffer_resource.h: allocate_impl, deallocate_impl"]}
{"id": "C149", "title": "there is room for a request whenever enough blocks are left", "statement": "Whether a request is served can be told from what the client holds. If all requests need k blocks, one is served exactly when (live allocations + 1) * k is at most the number of blocks, in whatever order memory was given back. If memory is given back in the opposite order, exactly when the blocks of the live allocations and of the request are at most all blocks. For every client for which the search is right, at the latest when one block more is left; for a client that keeps block 0, at the latest when the free blocks are more than (blocks asked for - 1) for each live allocation. A monotonic_buffer_resource serves a request whenever the sizes since the last release, each with align - 1 bytes of padding, fit in the buffer. Nothing is ever served beyond the number of blocks or bytes.", "quantifier": "every buffer and configuration, every history of such a client of any length, every last request", "why_tests_cant": "fragmentation depends on the whole history; a test can show one order of calls, not that no order loses room", "anchors": ["sources/include/utils/memory/simple_resource.h: allocate_impl, deallocate_impl", "sources/include/utils/memory/monotonic_buffer_resource.h: allocate_impl"]}
{"id": "C150", "title": "the bit and alignment functions fit together", "statement": "clz(v) + bits_count(v) is the width of v; clz(v) + ctz(v) is the width less one exactly for powers of two, which are the bytes with one bit in kNumBitsTable; greatest_divisor_that_is_power_of_2(v) is 2^ctz(v) and, for an address, get_alignment; is_aligned(p, a) exactly when a <= get_alignment(p); next_multiple_of(a, p) is p + skip_to_align(p, a), is aligned, is left alone by a second rounding, keeps the order of addresses and equals next_multiple_of<a>(p); shift_right takes shift_left back exactly when no bit is lost, shift_left after shift_right clears the low bits.", "quantifier": "every value of every unsigned type of up to 8 bytes, every power of two, every address (up to the end of the address space for roundings), every shift below the width, debug and release builds", "why_tests_cant": "each law relates two or three functions for all 64-bit arguments", "anchors": ["sources/include/utils/common.h: is_power_of_2, next_multiple_of, skip_to_align, is_aligned, greatest_divisor_that_is_power_of_2, bits_count, shift_left, shift_right, kNumBitsTable", "sources/include/utils/clz.h: clz", "sources/include/utils/ctz.h: ctz", "sources/include/utils/memory/memory.h: get_alignment"]}
{"id": "C151", "title": "the memory and array functions fit together", "statement": "Zeroed memory passes memvcmp against 0; zeroing twice is zeroing once and zeroing in pieces is zeroing at once; memvcmp of a range is the conjunction over its pieces and no range compares equal to two values; memmove of a range onto itself changes nothing, away and back restores it whatever the overlap, in two steps arrives at the same bytes as in one; where memcpy is defined memmove does the same; memcpy twice is once and independent copies commute; an object and its memcpy copy bit_cast to the same bytes; concatenate_arrays is associative with the empty array as unit and joins the arrays made from the parts of a view to the array of the whole.", "quantifier": "every memory, every address and size (accessible ranges), every overlap of the ranges moved, every split of a range or view, all arrays", "why_tests_cant": "the laws range over all memories, placements and splits", "anchors": ["sources/include/utils/memory/memory.h: secure_zero_memory, memmove, memcpy", "sources/include/utils/common.h: memvcmp, bit_cast, concatenate_arrays, make_array"]}
{"id": "C152", "title": "the integer helpers fit together", "statement": "uint_from_nbits_t<bits_count(v)> holds v and no narrower unsigned type does; an unsigned type is the one picked for its own number of bits or bytes; more bits never give a narrower type; sum_size does not depend on the order of the types, of one type is its size, and of two lists together is the sum, or one less when both contain a bool; dividing an unsigned value by 2^n is shift_right by n with the bits shifted out as remainder - at compile time always, at run time in 64 bits exactly for values below 2^63, n = 0 and equal operands; div recovers the quotient and remainder a number was made from; neighbouring ranges of values join, the range of one value is that value, and make_array_from_range with step 1 lists what values_in_range lists.", "quantifier": "every 64-bit value, every unsigned type, all lists of types below 2^64 bits, all operands of div, all ranges the functions accept", "why_tests_cant": "each law relates two or more helpers for all arguments", "anchors": ["sources/include/utils/common.h: uint_from_nbits_t, uint_from_nbytes_t, bits_count, sum_size, div, shift_right, values_in_range, make_array_from_range"]}
{"id": "C153", "title": "timers can be kept in containers", "statement": "Timers may be kept in a std::vector and rearranged: std::swap exchanges two timers' start points and callables (and leaves a timer swapped with itself as it was), any series of swaps only permutes them, growth and insertion keep each timer's start point and callable in order, none of these calls anything, destroying or clearing the sequence calls every callable once in order, and erasing a timer calls its callable.", "quantifier": "every history of timers, every sequence of places, any contents including moved-from timers, any position, any series of swaps", "why_tests_cant": "lengths, positions and histories are unbounded", "anchors": ["sources/include/utils/timer.h: timer::timer(timer &&), timer::operator=(timer &&), timer::~timer, copy"]}
{"id": "C154", "title": "where the buffer lies does not matter", "statement": "Two simple_resources of one type (or two monotonic_buffer_resources) made from buffers of one size that lie some distance apart, a multiple of the block size and of the alignments asked for, behave alike: every series of calls has the same outcome on both (returned values, what the upstream is asked, aborts, endless loops), a pointer served from the buffer being displaced by that distance and every other pointer being the same, and leaves the same counters and the same free and used blocks.", "quantifier": "every type, every two addresses whose distance is such a multiple, every buffer size, upstream or none, every history of calls including wrong ones, both builds", "why_tests_cant": "addresses and histories are unbounded, and a test runs at the addresses its process happens to get", "anchors": ["sources/include/utils/memory/simple_resource.h: allocate_impl, deallocate_impl, release, pointer_to_block_index, block_index_to_pointer, origin_and_block_count", "sources/include/utils/memory/monotonic_buffer_resource.h: allocate_impl, deallocate_impl, release"]}
{"id": "C155", "title": "MaxBlockCount is only a limit", "statement": "Two types simple_resource<M1, B> and simple_resource<M2, B> made from the same buffer with the same number of blocks behave alike: every series of calls has the same outcome on both (pointers, what the upstream is asked, aborts, endless loops) and leaves the same counters and the same free and used blocks, although the sizes of their tables and the widths of their indices differ.", "quantifier": "every two values of MaxBlockCount, every block size, buffer and upstream, every history of calls including wrong ones, both builds", "why_tests_cant": "the template parameters and the histories are unbounded", "anchors": ["sources/include/utils/memory/simple_resource.h: simple_resource, BIndex, infos_, in_use_, allocate_impl, allocate_blocks, pointer_to_block_index, deallocate_impl, release"]}
{"id": "C156", "title": "The upstream has no influence on what the buffer serves", "statement": "Give two simple_resources (or two monotonic_buffer_resources) the same buffer, one with an upstream and one without, and make the same calls: each request the first serves from its buffer is served by the second with the same pointer, each request the first passes on gets null from the second, giving back memory of the upstream changes nothing in the books, and the histories abort, loop or return alike. So two upstreams that answer differently make no difference to what the buffer serves.", "quantifier": "every buffer, block size and MaxBlockCount, every answer of the upstream that is aligned to blocks, every history of calls including wrong ones, both builds", "why_tests_cant": "histories and upstream answers are unbounded", "anchors": ["sources/include/utils/memory/simple_resource.h: allocate_impl, deallocate_impl, upstream_", "sources/include/utils/memory/monotonic_buffer_resource.h: allocate_impl, upstream_"]}
{"id": "C157", "title": "requests that need the same number of blocks are served alike", "statement": "A simple_resource lends whole blocks that are aligned to BlockSize. Two series of calls that differ only in sizes needing the same number of blocks, and in alignments up to BlockSize, get the same pointers, ask the upstream at the same calls, leave the same free and used blocks and counters, and end alike if they abort or do not return.", "quantifier": "every resource, every history of calls including wrong ones, every choice of sizes within the same block and of alignments up to BlockSize, both builds", "why_tests_cant": "sizes, alignments and histories are unbounded", "anchors": ["sources/include/utils/memory/simple_resource.h: allocate_impl, allocate_blocks, pointer_to_block_index, block_size_in_bytes"]}
{"id": "C158", "title": "resources can be chained", "statement": "Memory resources can be chained, each being the upstream of the one before it. A request to any of them is served by the first one from there on that has room; memory given back to any of them reaches the one it came from; the others are as if nothing had happened; and if a call aborts or does not return, it is because the resource concerned would do so by itself.", "quantifier": "every chain of any length of simple_resources and monotonic_buffer_resources, every program calling any of them in any order, including wrong calls, both builds", "why_tests_cant": "chains, block sizes and programs are unbounded", "anchors": ["sources/include/utils/memory/simple_resource.h: allocate_impl, deallocate_impl, upstream_", "sources/include/utils/memory/monotonic_buffer_resource.h: allocate_impl, deallocate_impl, upstream_", "sources/include/utils/memory/memory.h: memory_resource::allocate, memory_resource::deallocate"]}
{"id": "C159", "title": "a simple_resource falls back on the heap", "statement": "A simple_resource whose upstream is the system resource, as it is when no upstream is named, can serve from the heap what its buffer has no room for: the client gets what the heap answered, can give it back, and the heap gets it back; the heap is used as the system allows; and no call stops the program that would not stop it without the heap.", "quantifier": "every configuration and buffer, every history of calls, every heap that keeps its promise about alignment, whichever requests it fails, both branches of aligned_malloc, both builds", "why_tests_cant": "histories, heaps and the addresses they answer are unbounded", "anchors": ["sources/include/utils/memory/simple_resource.h: simple_resource, allocate_impl, deallocate_impl, upstream_", "sources/include/utils/memory/memory.h: aligned_malloc, aligned_free, details::system_memory_resource, get_default_resource"]}
{"id": "C160", "title": "a monotonic_buffer_resource falls back on the heap", "statement": "A monotonic_buffer_resource whose upstream is the system resource, as it is when no upstream is named, can serve from the heap what its buffer has no room for: the client gets what the heap answered, no call stops the program that would not stop it without the heap, the heap is used as the system allows, and it gets its memory back when the client gives it back.", "quantifier": "every buffer, every history of calls, every heap, whichever requests it fails, both branches of aligned_malloc, both builds", "why_tests_cant": "histories, heaps and the addresses they answer are unbounded", "anchors": ["sources/include/utils/memory/monotonic_buffer_resource.h: monotonic_buffer_resource, allocate_impl, deallocate_impl, upstream_", "sources/include/utils/memory/memory.h: aligned_malloc, aligned_free, details::system_memory_resource, get_default_resource"]}
{"id": "C161", "title": "asking for less succeeds where asking for more does", "statement": "If a resource serves a request from its buffer, it would have served from its buffer any request in its place for as many or fewer bytes (at least one) and as strict or weaker an alignment, at an address not behind; so a program may retry with a smaller request, and rounding a request up never makes it succeed.", "quantifier": "every buffer and block size, every history of calls before the request, every pair of requests of which one asks for less, both builds", "why_tests_cant": "it compares two futures of every history, for all pairs of sizes and alignments", "anchors": ["sources/include/utils/memory/simple_resource.h: simple_resource::allocate_impl, allocate_blocks, apply", "sources/include/utils/memory/monotonic_buffer_resource.h: monotonic_buffer_resource::allocate_impl", "sources/include/utils/common.h: skip_to_align, max_alignment_inside_block"]}
{"id": "C162", "title": "holding less never hurts", "statement": "If a resource serves a request from its buffer after one history of calls, it serves the same request, or one that asks for less, after every other history that leaves nothing allocated that the first does not, at an address not behind; in particular giving memory back before a request never makes it fail.", "quantifier": "every buffer and block size, every pair of histories of which one leaves no more allocated, every pair of requests of which one asks for no more, both builds", "why_tests_cant": "it compares the futures of all pairs of histories", "anchors": ["sources/include/utils/memory/simple_resource.h: simple_resource::allocate_impl, deallocate_impl, allocate_blocks, apply", "sources/include/utils/memory/monotonic_buffer_resource.h: monotonic_buffer_resource::allocate_impl, release"]}
{"id": "C163", "title": "a larger buffer serves whatever a smaller one does", "statement": "If a resource deals with every call of a history on its own (serves every request from its buffer), a resource on a larger buffer that begins at the same address gives the same results for the same calls; so a buffer can be enlarged, or measured once and cut to size, without changing what a program sees.", "quantifier": "every pair of buffers of which one is a prefix of the other, every history of calls that the smaller one serves, every pair of types with one BlockSize, both builds", "why_tests_cant": "it compares two resources over all histories and all pairs of sizes", "anchors": ["sources/include/utils/memory/simple_resource.h: simple_resource::allocate_impl, deallocate_impl, allocate_blocks, origin_and_block_count", "sources/include/utils/memory/monotonic_buffer_resource.h: monotonic_buffer_resource::monotonic_buffer_resource, allocate_impl"]}
{"id": "C164", "title": "objects allocated one after another lie one after another", "statement": "Objects of one size and alignment allocated one after another are laid out as an array: on a monotonic buffer, at any point of a history, k requests for sz bytes (a multiple of the alignment) are served at p, p + sz, p + 2 sz, ... exactly when one request for k * sz bytes would be served at p, and leave the same room; a simple_resource just made serves k requests at the start of its blocks, one whole number of blocks apart, for every k whose blocks are in the buffer.", "quantifier": "every number of requests, every size, alignment and buffer, every history before them (monotonic buffers), both builds", "why_tests_cant": "it compares two ways to ask for the same memory over all histories and counts", "anchors": ["sources/include/utils/memory/monotonic_buffer_resource.h: monotonic_buffer_resource::allocate_impl", "sources/include/utils/memory/simple_resource.h: simple_resource::allocate_impl, origin_and_block_count, allocate_blocks"]}
{"id": "C165", "title": "memory used for a while leaves no trace", "statement": "Calls after which the same allocations are live as before them (a scratch buffer taken and given back, a phase that cleans up after itself) can be left out of a program without changing the result of any later call of the resource.", "quantifier": "every history before the calls, every sequence of calls that gives back what it took, every sequence of calls after them, both builds", "why_tests_cant": "it compares two executions over all histories, phases and continuations", "anchors": ["sources/include/utils/memory/simple_resource.h: simple_resource::allocate_impl, deallocate_impl, allocate_blocks, deallocate_blocks, merge_adjacent_blocks", "sources/include/utils/memory/monotonic_buffer_resource.h: monotonic_buffer_resource::deallocate_impl"]}
{"id": "C166", "title": "different objects are packed one behind the other", "statement": "Objects of different types allocated one after another waste no room: on a monotonic buffer, at any point of a history, objects allocated in the order of their alignments, the largest first, lie at p and directly behind one another exactly when one request for the sum of their sizes would be served at p, and leave the same room; a simple_resource just made serves any requests one directly behind the blocks of the other, as long as the sum of their blocks is in the buffer.", "quantifier": "every list of sizes and alignments, every buffer, every history before them (monotonic buffers), both builds", "why_tests_cant": "it compares many requests with one over all lists of sizes and all histories", "anchors": ["sources/include/utils/memory/monotonic_buffer_resource.h: monotonic_buffer_resource::allocate_impl", "sources/include/utils/memory/simple_resource.h: simple_resource::allocate_impl, origin_and_block_count, allocate_blocks"]}
{"id": "C167", "title": "after release() a simple_resource can be used again as if it were new", "statement": "Whatever was allocated from a simple_resource and not given back, after release() all later calls have the results they have with a new resource on the same buffer, so that one resource can serve one phase of a program after the other (as monotonic buffers do, C68).", "quantifier": "every history before release(), every sequence of calls after it, both builds", "why_tests_cant": "it compares two executions over all histories and continuations", "anchors": ["sources/include/utils/memory/simple_resource.h: simple_resource::release, apply, deallocate_blocks, allocate_impl"]}
