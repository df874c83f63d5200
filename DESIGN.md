# A Rocq model of rokoDev/utils

The properties are in `properties.jsonl`, the theorems that settle each one in
`MANIFEST.json`, the mutation log in `seeded/LOG.jsonl`, the development in
`rocq/theories`.

## 1. How the code is modelled

* **Machine integers** are `Z` with explicit wrapping (`wrap w x = x mod 2^w`).
  C++ integer types are a record (bits, signedness); promotions and the usual
  arithmetic conversions are modelled, because several functions of the library
  compute in a promoted type (LP64: `int` 32, `long` = `size_t` = 64 bits).
* **Outcomes.** A call yields `Ok v`, `Abort` (failed `assert` in a debug build,
  `UTILS_ABORT_IF`), `UB` (undefined behaviour, including out-of-range array
  access and undefined shifts) or `Hang` (loop fuel used up). A loop
  terminates when some fuel gives a result other than `Hang`; it diverges when
  every fuel gives `Hang`.
* **Build mode.** Debug / NDEBUG is a field of the configuration; theorems are
  for both unless they say otherwise.
* **Upstream resources, posix_memalign, intrinsics, clocks** are adversaries: the
  theorem quantifies over their answers (subject to their documented contract
  when the statement says so).
* **Templates** are functions on lists; ill-formed instantiation is `None`.
* **Memory** is a map from addresses to bytes.

Every model definition carries a comment with the file and lines it models.

## 2. File layout (rocq/theories)

`XModel.v` (transcription of the code), `XSpec.v` (small specification, does not
import the model), `XProofs.v` (lemmas), `XProps.v` (only the property theorems,
closed by `exact`, with `Print Assumptions`, and Examples showing that
hypotheses are met). Larger areas have several proof files, named after what they
are about: SimpleKeepProofs, SimpleWalkProofs, SimpleFreeProofs, SimpleSweepProofs,
SimpleBalanceProofs, MonoExactProofs, WidthKeepProofs, DivModeProofs, ArithRangeProofs.

| area | files | properties |
|---|---|---|
| outcomes, integers | Outcome, Machine | all |
| bit arithmetic | Bits* | C01-C14, C105 |
| division, types, ranges | Arith*, DivProofs | C15-C21; C114 |
| arrays, raw memory | Mem* | C22-C30 |
| type/value lists | TypeList*, ListSpec | C31-C42, C103, C115 |
| function traits, detector | Traits* | C43-C47, C85, C86 |
| padding_checker | Padding* | C48, C87, C101 |
| member and free function checkers | Checkers*, Names* | C88-C92; C112 |
| debug and release builds | Build* | C113 |
| type predicates of common.h | Common* | C93-C96 |
| use of the default resource | Default* | C97-C100 |
| start-up and exit | Exit* | C117 |
| pointer arithmetic of the buffer resources | Strict* | C118, C119 |
| is_valid_range | Valid* | C120 |
| programs of several translation units | Units* | C122, C83 |
| element operations of the array functions (copies, moves, exceptions) | Elements* | C123, C124 |
| threads calling memory resources (schedules, data races) | Threads* | C125 |
| special members of the classes and what the traits say | Offers* | C126 |
| headers in the source files of users | Include* | C127 |
| alignment arithmetic and monotonic buffers with addresses of any width | Word* | C128, C129 |
| the default resource between threads | Publish* | C130, C131 |
| depth of template instantiations | Depth* | C132 |
| time of the calls of simple_resource | Cost* | C133 |
| simple_resource with 32-bit addresses | Width* | C134–C135 |
| what compilers leave out of secure_zero_memory | Wipe* | C136 |
| aligned_malloc, aligned_free on every platform | Heap* | C137 |
| the namespace in which other headers are read | Nest* | C138 |
| simple_resource | Simple* | C49-C65 |
| monotonic_buffer_resource | Mono* | C66-C70, C80 |
| allocator, resources, default resource, malloc | Alloc*, Forward* | C71-C74, C82-C83; C81, C116 |
| timer | Timer*, Accept*, Relocate*, Throw* | C75-C77, C84; C102; C110; C121 |
| violated preconditions | Pre* (on the models above) | C104 |
| several resources in one program | World* | C106, C107 |
| the text printed before abort | Message* | C108 |
| references in a value_list | Refs* | C109, C115 |
| fast_pimpl | Pimpl* | C78, C111 |
| abort_if | Abort* | C79 |
| the allocator seen by std::allocator_traits | Contain* | C139 |
| value categories in for_each_arg, for_each_in_tuple | Visit* | C140 |
| type_list with predicates and sizes that are not there for every type | Partial* | C141 |
| clz.h, ctz.h: compilers, phases, result types | Scan* | C142, C143 |
| simple_resource: what its past leaves behind | Past* | C145 |
| simple_resource: containers that move | Grow* | C146 |
| type_list, value_list: combining the operations | Laws* | C147 |
| both resources: calls that do not touch the buffer | Idle* | C148 |
| both resources: when there is room | Room* | C149 |
| bit and alignment functions together | Fit* | C150 |
| memory and array functions together | Store* | C151 |
| integer helpers together | Sums* | C152 |
| timers in containers | Shelf* | C153 |
| simple_resource until something is granted twice | Back* | C57, C58, C59 |
| displaced buffers | Shift* | C154 |
| different limits | Limit* | C155 |
| with and without an upstream | Lone* | C156 |
| sizes within one block | Round* | C157 |
| chains of resources | Chain* | C158 |
| a simple_resource over the heap | Fall* | C159 |
| a monotonic_buffer_resource over the heap | Spill* | C160 |
| requests for less | Less* | C161 |
| holding less | Hold* | C162 |
| larger buffers | Larger* | C163 |
| rows of objects | Row* | C164 |
| temporary use | Temp* | C165 |
| packing | Pack* | C166 |
| use after release() | Again* | C167 |
| debug builds of programs that are served correctly | BuildKeep* (theorems in BuildProps) | C144 |

## 3. Plan per property

| id | model | proof |
|---|---|---|
| C01 | bit-and on Z | `x land (x-1) = 0` iff power of two, by binary induction on positive |
| C02-C05 | `(v+m-1) & -m` on 64-bit Z | rewrite the mask to `x - x mod 2^k`, then arithmetic |
| C06 | int shift `1 << msb` incl. UB | partial: holds while A+n-1 < 2^31; refuted beyond (shift of an `int`) |
| C07, C08 | clz/ctz based functions | `Z.log2` bounds; lowest set bit |
| C09 | table built from numBitSet | exhaustive over a finite type, by recursion lemma over bits |
| C10-C12 | dispatch over a list of intrinsics; loops with fuel | loop invariants |
| C13, C14 | address bit trick; promoted shifts | arithmetic |
| C15, C16 | both evaluation modes with all conversions | partial: equal when the operands are representable in `long long` and their conversion preserves value; refuted for `uint64_t` >= 2^63 and mixed signedness |
| C17-C19 | case tables | case analysis + arithmetic |
| C20 | `Last+1-First` cast to the type | partial: refuted for the full range of a narrow type |
| C21 | loop with fuel | partial: Begin <= End without wrap; refuted when Begin > End; divergence theorem |
| C22-C24, C30 | list functions | induction |
| C25-C29 | byte memory | induction on size; C27 refuted in constant evaluation for dst inside (src, src+n), partial otherwise |
| C31-C42, C103 | template recursion as Fixpoint, `None` = ill-formed | list induction |
| C43-C47 | function types as records; macro tables expanded | case analysis |
| C48 | ABI layout function | structural induction on nested aggregates |
| C49 | arithmetic of `origin_and_block_count` | arithmetic |
| C50-C55, C60-C65 | function-by-function state machine of simple_resource, incl. the `bool` return of the visitor that truncates the next index, and the off-by-one in the last block | representation invariant (regions tile the buffer) preserved by every operation; guarded theorems `_partial`, concrete histories for `_refuted` |
| C56-C59 | same | proved for every consistent state |
| C66-C70 | flat 64-bit addresses | invariant over histories; partial for requests whose end address wraps |
| C71-C73 | 64-bit arithmetic, adversarial resource | arithmetic, invariant over histories |
| C74 | interleavings as lists of operations | induction over the history |
| C80 | event traces with upstream calls | induction over histories; refuted: upstream memory is never given back |
| C81 | type, constness and value category of arguments through construct; derived and convertible types | refuted for lvalues, const and unrelated types; exact |
| C116 | constructors as a partial function from argument lists | refuted: the check and the call see different arguments; exact |
| C82 | resources as records of state and two functions, composed | safety as an invariant preserved by composition |
| C83 | one object per translation unit | identity; refuted across units |
| C75, C76 | timers as slots of a store | conservation invariant; C75 refuted for move assignment onto a timer with a pending callback |
| C77 | clock as monotone sequence | arithmetic |
| C78 | T objects and fast_pimpl objects in places | refinement to the program with plain T objects |
| C84 | destructor events of stored callables | refuted: none is ever run |
| C79 | two-line functions | case analysis |
| C85 | function types with C-style variadic arguments and with abominable qualifiers | case analysis; refuted for `R(Args..., ...)` |
| C86 | detection as a partial function on types, convertibility a parameter | case analysis; refuted for a target constructible from anything, which accepts the placeholder type too |
| C87, C101 | Itanium/LP64 layout of aggregates, Boost.PFR's view of them | structural induction; refuted where PFR sees only the top level; exact condition in `C87_exact_partial` |
| C88-C92 | classes as lists of members; macro rows expanded | reflection over the rows, overload resolution an adversary |
| C93-C96 | types as an inductive datatype | structural case analysis; C93, C96 refuted for cv-qualified types |
| C97-C99 | register, objects and translation units as histories | induction over histories; C98 refuted after `set_default_resource(nullptr)`, C99 by initialisation order |
| C100 | allocators as records | refuted: the converting constructor reads a private member of another specialization |
| C102 | C++17 rules for storing, invoking and `noexcept` | case analysis; refuted for function names, generic lambdas and const objects, where the constraint and the call disagree |
| C104 | the `assert`s of the functions modelled for other properties | case analysis: the outcome is Abort exactly for the arguments that break the precondition |
| C105 | enumeration values as values of the underlying type | conversion lemmas |
| C106, C107 | objects with two function pointers and the members of their class; implicit assignment operators | simulation of each object by itself; refuted for assignment, which the classes forget to delete |
| C108 | the macros as string concatenation, vfprintf for %s, %d, %p, %% with typed arguments | induction over the format; refuted for % in the path and for std::size_t printed with %d |
| C109 | value_list's queries over values and references, the contents of objects as constant expressions see them, short-circuit instantiation of conjunction and disjunction | induction over the list; refuted for constants with one content and for variables |
| C110 | the byte copies of Timer*, callables as objects whose bytes may hold their own address | from C75: what is called was stored; injectivity of the layout in the address; refuted for pointers into the object |
| C111 | classes with a noexcept flag per special member; operations throw or not; noexcept specifications computed from the traits as in the header | refinement to the plain program; exact for classes with a noexcept destructor, refuted for others |
| C112 | the token pastings of each macro as string concatenations | the equation p ++ x ++ s = q ++ y ++ t between two templates is solved symbolically for all x and y; the finite list of solved forms is compared with the table in NamesSpec.v |
| C113 | both builds of every function with an assert: the models take the build as a parameter | the relation "debug stops, or both do the same" is kept by sequencing, branching, assert and loops; then function by function up to whole programs (BuildProofs.v) |
| C114 | the two deduction guides of `div_t` and list-initialisation with its narrowing rule | case analysis on the operand types; acceptance as a predicate on the common type (DivProofs.v) |
| C115 | `at`, `at_t`, `index_of`, `first_index_of_type`, `concatenate` together | first positions; lists equal position by position are equal (TypeListMoreProofs.v, RefsProofs.v) |
| C117 | function-local statics and objects with static storage duration, destroyed in reverse order of construction | simulation of the history; refuted for a resource first called for after the constructor; exact criterion |
| C118 | allocate_impl of the monotonic buffer with every `p + n` checked against the array around the buffer ([expr.add]) | invariant of the history; refuted for requests that end behind the array; exact outcome of every request |
| C119 | simple_resource with every `p + n` checked, function by function | simulation by the flat model (equal or undefined); equality on large arrays and in release builds; refuted for debug builds on shorter arrays |
| C120 | `is_valid_range` for three integer types, comparison and sum after the usual conversions | case analysis on the types, linear arithmetic; refuted for mixed signedness and for a first step that leaves the type |
| C121 | `timer` with callables and clocks that throw; noexcept turns an exception into termination | case analysis on each call with the owner invariant of C75, induction on the history; refuted: nothing can be caught |
| C122 | the `#include` graph with include guards, the definitions of each header at namespace scope with their linkage and the library names they use, the instances that a call of concatenate_arrays makes | the preprocessor visits what is reachable (invariant: closed sets); table facts by computation; the one-definition rule reduced to "at most one unit has the resources, no common instance, no shared inline function naming a static"; refuted for two units with memory.h |
| C123 | the array functions as sequences of copies and moves of single elements; what a move leaves behind is a parameter | induction over the arguments with the temporaries of the recursion; invariant: each array has been moved from as often as earlier arguments say |
| C124 | as C123, with an oracle that says which element operation throws; noexcept turns an exception into termination | refuted for the noexcept functions, exact outcome for all: induction over operations, quiet stretches of the oracle |
| C125 | resources linked by upstream pointers, threads with call lists, schedules; every call reports which objects it reads and may write; the monotonic buffer also cut into single reads and writes | induction over chains and schedules: a call depends only on what it accesses and changes only what it writes; race-free executions project to each thread alone. Refuted (witness schedules) for a shared buffer |
| C126 | class definitions as tables of special members (absent, defaulted, deleted, written), the rules by which the compiler adds and chooses them, T as an arbitrary set of abilities | exact answers for every class; refuted for fast_pimpl of a T that cannot be copied |
| C127 | the #include lines with include guards, the names each header uses and declares, the table of what C++17 promises of its headers; implementations that declare more | invariant of the preprocessor (what has been read is closed under inclusion); monotonicity in the implementation; refuted with the implementation that declares only what is promised |
| C128, C129 | the same functions as C01-C06, C13, C66-C71 with the width of `size_t` and `uintptr_t` as a parameter | as for 64 bits, arithmetic with 2^w; the 64-bit model is shown to be the case w = 64; the wraps of C66 and C71 are refuted again at 2^32 |
| C130, C131 | threads that call set_default_resource and get_default_resource and use resources; happens-before with release sequences as in C++17 | every exchange continues all release sequences, so every set synchronizes with every later call; induction on positions; characterisation of happens-before; C131 refuted by an execution with a race |
| C132 | each operation of the lists as the tree of class template instantiations it causes; depth of a tree | depth formulas by induction; C132 refuted for at<I, Predicate> (two levels per element), exact bound |
| C133 | rounds of the loop of apply(): the least bound on the loop with which a call of the Simple* model returns | a walk that ends does not come to a place twice; each pass of release() frees a block; invariant of the emptied pool for the exact count; C133 refuted for release() (quadratic) |
| C134–C135 | simple_resource.h once more with the width of std::size_t and std::uintptr_t as a parameter | function by function the narrow model computes what the wide one computes as long as nothing leaves the address space (invariants: the links lead forward; a bound on how far the counters have come); the theorems of C50, C60 and C64 carry over; C135 refuted for the clients of C50_no_overlap_refuted |
| C136 | memory accesses as lists, observations as the C++ standard has them; the compiler leaves out any accesses that do not change the observations | counting the observable accesses shows the promised ones are kept; for the hand-made loop the exact condition, by leaving out the writes to one byte; refuted for a secret not looked at again |
| C137 | the calls of posix_memalign/free and _aligned_malloc/_aligned_free as a trace | the system holds what the client owns: invariant over histories |
| C138 | the preprocessor with include guards and the namespace each #include line stands in, for any relation of headers of the system | invariants of the set of headers read; refuted with MSVC |
| C139 | the requests of containers, the members of allocator<T> with their parameters, the choices of std::allocator_traits | case analysis over requests; refuted, exact |
| C140 | deduction, reference collapsing, std::forward, std::get on expressions with type, constness and category; callables as any relation | induction over the argument list; refuted for &&-qualified and comma operators, exact |
| C141 | the instantiations of type_list.h with predicates ty -> option bool and sizeof as a partial function | induction over the list; exact |
| C142 | count_zeros with both phases, all compilers and every conversion; right_count is the specification | C142_count, C142_portable_count; expressions refuted with exact conditions |
| C143 | the same functions at 0 | debug proved; release refuted with all cases listed |
| C144 | run of the simple_resource model in both builds | induction along the program with the invariant of C60 (regions and grants agree); every assert of the debug build is shown to hold as long as nothing is granted twice (BuildKeepProofs.v); refuted for bytes instead of blocks |
| C145 | pairs of runs of the simple_resource model; the ideal allocator of SimpleSpec.v | the regions are determined by what is live (C60 plus uniqueness of a tiling), the ideal allocator is deterministic, careful continuations follow it; refuted by two histories that differ in the order of two calls |
| C146 | runs of the simple_resource model; the container's calls and what it should see in GrowSpec.v | the regions after each call are computed with the lemmas about single calls behind C53 and C56 and induction over the moves; the refutations for all configurations use the exact description of a search that goes astray (C50, C52) |
| C147 | the list operations of TypeListModel.v | laws derived from the characterisations behind C31-C42 (windows, filters, uniqueness of stable sorts, lexicographic products); the cut law exactly where it holds, refuted at the end of the list |
| C148 | runs of the models of both resources; which calls are idle in IdleSpec.v | induction over the history with the description of single calls in arbitrary states (simple_resource) and the invariant of C66 (monotonic); refuted by a request that wraps around to 0 |
| C149 | runs of the models of both resources; blocks and bytes in use by the client's own accounts in RoomSpec.v | the regions of the ideal allocator add up to all blocks; a request that finds nothing means few and small free regions (grid of the pool, order of the stack, condition of the search, coalescing) |
| C150 | the models of C01-C14 together | from the characterisations of the single functions (C01-C14): bit length and counts determine one another, least multiples are unique |
| C151 | the models of C22-C29 together | from the characterisations of the single functions: each call replaces a range of the memory, the laws compare the replaced ranges byte by byte |
| C152 | the models of C07, C14-C21 together | from the characterisations of the single helpers: bit lengths, sums of bits rounded up to bytes, uniqueness of truncating division and of intervals |
| C153 | the timer model of C75, C76; std::swap, vector growth, insertion and erasure as sequences of moves, assignments and destructions | induction over the sequence of places on what each timer shows |
| C154 | the models of C49 to C70; a displaced twin of a resource, of a call and of what it shows | simulation of each function by its displaced twin, with the skip to a boundary and the reachable alignments unchanged by the distance |
| C155 | the model of C49 to C65 for two values of MaxBlockCount | each function gives the same result for both, an index behind the blocks ending at a check in both; C113 and C144 carry it over to release builds |
| C156 | the models of C49 to C70 with and without an upstream | each function commutes with dropping the upstream; induction over histories |
| C157 | the model of C49 to C65 for two histories | comparisons with multiples of the block size and quotients by it do not tell the sizes apart; induction over the search and the history |
| C158 | the models of C49 to C70 joined: the upstream call of each is a call of the next | a chain equals its resources without upstreams, asked in turn (from C156's lemmas); induction over the chain and the program |
| C159 | the models of C49 to C65 and C137 joined: the upstream is the system resource | block alignment of the heap's answers reduces the history to C156; each step's system calls are those of a history of C137; the exact alignment from C63's lemmas |
| C160 | the models of C66 to C70 and C137 joined | C156's theorem for monotonic buffers; induction over the history for the calls of the system |
| C161 | the models of C49 to C70 | C67 for monotonic buffers; refinement of the ideal allocator (C53) where the search is right; the description of the search whatever the links are (C53) in debug builds |
| C162 | the models of C49 to C70 | refinement of the ideal allocator (C53): with less in use every free region is part of a free region; C67 for monotonic buffers |
| C163 | the models of C49 to C70 | relation between the regions of the two buffers, refinement of the ideal allocator (C53) on both sides; simulation for monotonic buffers |
| C164 | the models of C49 to C70 | induction on the number of requests; the regions of simple_resource are determined by the live blocks |
| C165 | the models of C49 to C70 | the live allocations determine the regions, the regions determine what happens next (C145) |
| C166 | the models of C49 to C70 | induction on the list of requests; the regions of simple_resource are determined by the live blocks |
| C167 | the models of C49 to C65 | the state after release() has the regions of a new resource (C61), the regions determine what happens next (C145) |

## 4. Trusted base

* Coq 8.16.1's kernel, with `vm_compute` (used for examples, counterexamples and
  for finite tables, never in place of a quantifier over an infinite type).
* `Print Assumptions` is printed under every property theorem in the `*Props.v`
  files. All of them print `Closed under the global context`: no axiom is used,
  neither of ours nor of the standard library. (A checker that lists the axioms of
  all *loaded* libraries also sees seven constants `Coq.ssr.ssrunder.Under_rel.*`:
  these are module-type declarations of the standard library's ssreflect plugin
  files, which are loaded with the tactic library; no theorem depends on them.)
* The reading of C++17 described in section 1 and in section 5, and the
  transcription of the code. Every definition of a `*Model.v` file cites the lines
  it transcribes and says where it simplifies.

The transcription is tested against the project's own expectations: `SimpleTests.v`,
`UtilsTests.v`, `ListTests.v`, `TraitsTests.v` and `SmallTests.v` replay the unit tests of
`/repo/tests/src` in the model, assertion by assertion (simple_resource, common, clz/ctz, memory,
memvcmp, type and value lists, function traits, the checkers and padding; timer, allocator,
monotonic_buffer_resource and fast_pimpl, whose tests are construction checks).
These are tests of the model, not proofs of properties, and no theorem uses them.

## 5. What is modelled and what is not

Modelled, by file of `sources/include/utils`:

| file | modelled | not modelled |
|---|---|---|
| common.h | every function and type predicate used by a property, see Bits*, Arith*, Mem*, Common*, Abort*, Message* | `tag`, `__FUNCSIG__` |
| clz.h, ctz.h, details/cxz.h | dispatch and both hand-written loops; the intrinsics by their documented contract | which intrinsics a compiler has (all combinations are covered by quantification) |
| type_list.h, value_list.h, cartesian_product.h | every member template, as functions on lists | compile-time cost other than the depth of instantiations (Depth*) |
| detector.h | all | errors outside the immediate context (hard errors) |
| function_traits.h | qualifier tables token by token, `has_*`, `remove_*`, `return_type`, `params_list`, `is_invocable`, `signature`, all CREATE_* checkers | function templates as members, overload resolution (an arbitrary oracle), inheritance of ambiguous members |
| padding_checker.h | all; Boost.PFR's field enumeration is assumed to be right for the aggregates it accepts | arrays, bit-fields and base classes as members |
| fast_pimpl.h | all special members and accessors | layout mismatch beyond the two static_asserts |
| timer.h | construction, move, destruction, clocks, the constraint on the callable | overloaded call operators, volatile callables, pointers to members |
| memory/memory.h | resource base, default resource, the system and null resources, implicit assignment, `aligned_malloc`/`aligned_free`, equality | (the MSVC and memset_s branches are in Wipe* and Heap*, by the contracts of the system's functions) values read in another order than the sequentially consistent one (the register's operations have that order by default; happens-before is modelled, C130) |
| memory/allocator.h | all | fancy pointers; conversion functions to references and volatile arguments (C81, C116) |
| memory/simple_resource.h | every function, with the block tables as maps from block indices and all integer conversions | contents of client memory |
| memory/monotonic_buffer_resource.h | every function | contents of client memory |
| utils.h | nothing to model (includes) | |

Simplifications that matter for reading a theorem:

* LP64 and two's complement throughout; `size_t` and pointers have 64 bits (other widths:
  only Word* and Width*, C128, C129, C134 and C135; where `long` has 32 bits the functions of Arith* use `long
  long`, which this model does not tell from `long`); pointers
  are flat addresses and pointer arithmetic wraps at 2^64 (what every supported
  compiler does; formally such arithmetic outside an array is undefined). Strict*
  (C118, C119) states the language rule and says where the two models agree; there
  too, comparing a pointer from elsewhere with `>=` and `<` compares addresses (in
  C++ the result is unspecified).
* `make_array_from_range` with one type for Begin and End (another pair does not compile: std::min).
* A debug build stops at a failed assertion (`Abort`); a release build runs on.
* Loops that can diverge are run with fuel; "returns" means "for some fuel", "never
  returns" means "for no fuel".
* `vfprintf` is modelled for `%s`, `%d`, `%p` and `%%` only, with the C standard's
  rule that an argument of another type is undefined (C108). Elsewhere the text of a
  message plays no part, and an abort whose message is undefined counts as `Abort`.
* Threads: Default* and World* run histories that interleave threads at whole calls; Threads* reports the
  objects each call reads and writes and cuts the monotonic buffer into single accesses. The C library
  and the upstream of another project synchronise themselves.

## 6. Properties the code does not have

A property that fails stays in the list as stated, with status `partial`. Its
`_refuted` theorem shows concrete inputs that falsify it, its `_partial` theorems
prove it under the weakest guard found, where possible with the exact condition
(`_exact_partial`).
