{"id": "C01", "title": "insertion_sort(_by) sorts and is stable", "statement": "After insertion_sort_by(v, comp) with comp a strict weak order, v holds exactly the original elements, no later element is comp-less than an earlier one, and elements that compare equivalent keep their original relative order. insertion_sort is the same with <.", "quantifier": "every vector (any length, any element type, any moved-from state) and every strict weak order", "why_tests_cant": "infinitely many vectors and orders; stability needs all tie patterns", "anchors": ["include/efp/sort.hpp:insertion_sort_by_", "include/efp/sort.hpp:insertion_sort_by", "include/efp/sort.hpp:insertion_sort"]}
{"id": "C02", "title": "merge_sort_by sorts the requested range", "statement": "After merge_sort_by(v, left, right, comp) with left<=right<size and comp a strict weak order, positions left..right hold a sorted permutation of what they held before and every other position is unchanged.", "quantifier": "every vector, every in-range left/right, every strict weak order", "why_tests_cant": "unbounded sizes and ranges", "anchors": ["include/efp/sort.hpp:merge", "include/efp/sort.hpp:merge_sort_by"]}
{"id": "C03", "title": "heapsort(_by) sorts", "statement": "After heapsort_by(v, comp) with comp a strict weak order, v is a sorted permutation of its original content.", "quantifier": "every vector and strict weak order", "why_tests_cant": "heap shape depends on size; off-by-one errors show only at particular sizes", "anchors": ["include/efp/sort.hpp:max_heapify_by", "include/efp/sort.hpp:heapsort_by", "include/efp/sort.hpp:heapsort"]}
{"id": "C04", "title": "quicksort(_by) sorts the requested range", "statement": "After quicksort_by(v, low, high, comp) with low<=high<size and comp a strict weak order, positions low..high are a sorted permutation and every other position is unchanged, although the code computes low-1 in size_t and wraps around at low=0.", "quantifier": "every vector, every in-range low/high, every strict weak order", "why_tests_cant": "unbounded sizes; wraparound of low-1", "anchors": ["include/efp/sort.hpp:partition_by", "include/efp/sort.hpp:quicksort_by", "include/efp/sort.hpp:quicksort"]}
{"id": "C05", "title": "sort_unstable(_by) sorts", "statement": "After sort_unstable_by(v, comp) (introsort: quicksort followed by insertion sort) with comp a strict weak order, v is a sorted permutation of its original content; sort_unstable likewise with <.", "quantifier": "every vector and strict weak order", "why_tests_cant": "unbounded sizes", "anchors": ["include/efp/sort.hpp:size_trosort_by", "include/efp/sort.hpp:sort_unstable_by", "include/efp/sort.hpp:sort_unstable"]}
{"id": "C06", "title": "sort(_by) / timsort(_by) sorts every vector", "statement": "After sort_by(v, comp) with comp a strict weak order, v is a sorted permutation of its original content, for every size.", "quantifier": "every vector and strict weak order", "why_tests_cant": "the shipped tests only use 11 elements; merging starts above 32", "anchors": ["include/efp/sort.hpp:timsort_merge", "include/efp/sort.hpp:timsort_by", "include/efp/sort.hpp:sort_by", "include/efp/sort.hpp:sort"]}
{"id": "C07", "title": "exact effect of sort(_by)", "statement": "For vectors of at most 64 elements sort_by(v, comp) with comp a strict weak order leaves in v exactly the concatenation of its 32-element chunks, each chunk stably sorted on its own (so vectors of at most 32 elements are sorted stably); a vector of any length that is already sorted is left unchanged.", "quantifier": "every vector and strict weak order", "why_tests_cant": "unbounded contents and orders", "anchors": ["include/efp/sort.hpp:timsort_merge", "include/efp/sort.hpp:timsort_by", "include/efp/sort.hpp:insertion_sort_by_"]}
{"id": "C08", "title": "sorting is memory-safe, terminating and a permutation for any comparator", "statement": "For any comparison function whatsoever (even inconsistent), insertion_sort_by, merge_sort_by, heapsort_by, quicksort_by, sort_unstable_by and sort_by terminate, never index outside the vector, never leave a moved-from element behind, and permute the elements.", "quantifier": "every vector and every boolean comparison function", "why_tests_cant": "comparators that are not orders are unboundedly many; safety must hold on every path", "anchors": ["include/efp/sort.hpp"]}
{"id": "C09", "title": "merge_sort_by is stable", "statement": "merge_sort_by keeps the relative order of elements that compare equivalent, as a merge sort is expected to.", "quantifier": "every vector and strict weak order", "why_tests_cant": "needs all tie patterns", "anchors": ["include/efp/sort.hpp:merge"]}
{"id": "C10", "title": "Vcb is the window of the last n pushes", "statement": "After any number of push_back on a Vcb<A,n> (n>0), reading indices 0..n-1 yields the n most recent values oldest first, with default values standing for the missing ones; size() is always n.", "quantifier": "every n>0, every push history", "why_tests_cant": "wrap-around happens after arbitrarily many pushes", "anchors": ["include/efp/cyclic.hpp:Vcb"]}
{"id": "C11", "title": "Vcq is a bounded FIFO that drops the oldest", "statement": "For every sequence of push_back and pop_front (pop only when non-empty), a Vcq<A,n> (n>0) behaves as a queue of at most n elements in which pushing when full discards the oldest: size(), empty(), indexing and popped values all agree with it.", "quantifier": "every n>0 and every operation history", "why_tests_cant": "wrap-around interleavings of push and pop are unbounded", "anchors": ["include/efp/cyclic.hpp:Vcq"]}
{"id": "C12", "title": "copying a Vcq preserves its content", "statement": "A copy-constructed or copy-assigned Vcq has the same size and the same element at every index as its source.", "quantifier": "every reachable source queue", "why_tests_cant": "depends on the history-dependent read offset", "anchors": ["include/efp/cyclic.hpp:Vcq::Vcq(const Vcq&)", "include/efp/cyclic.hpp:Vcq::operator="]}
{"id": "C13", "title": "copying a Vcq whose head is at offset 0 preserves its content", "statement": "If no element was ever popped or evicted from the source (read offset 0), copy construction and copy assignment of a Vcq give the same size and elements, read back both directly and after any further pushes and pops.", "quantifier": "every source history without pops or evictions", "why_tests_cant": "unbounded histories", "anchors": ["include/efp/cyclic.hpp:Vcq"]}
{"id": "C14", "title": "copy and move of Vcb preserve the window", "statement": "A Vcb copy-constructed, copy-assigned (from a different object), move-constructed or move-assigned from another reads the same n values as the source did, and pushes afterwards behave as on the source.", "quantifier": "every reachable source and later push history", "why_tests_cant": "unbounded histories", "anchors": ["include/efp/cyclic.hpp:Vcb"]}
{"id": "C15", "title": "iteration covers exactly the contents", "statement": "Iterating begin()..end() of a Vcb or a Vcq visits exactly the elements that indexing 0..size()-1 gives, in order.", "quantifier": "every reachable state", "why_tests_cant": "end() is computed from pointer comparison that is history dependent", "anchors": ["include/efp/cyclic.hpp:Vcq::end", "include/efp/cyclic.hpp:Vcb::end", "include/efp/format.hpp"]}
{"id": "C16", "title": "an element written through operator[] stays written", "statement": "After vcb[i] = x (or vcq[i] = x, or through nth), later reads give x at that element's position until it is overwritten or leaves the buffer, however many pushes or pops happen in between.", "quantifier": "every reachable state, index and later history", "why_tests_cant": "the duplicate copy is only consulted after wrap-around", "anchors": ["include/efp/cyclic.hpp:operator[]"]}
{"id": "C17", "title": "Vcb and Vcq construct and destroy each element exactly once", "statement": "For a class-type element, along any history of pushes and pops ended by destruction no destroyed or never-constructed element is read, moved, assigned or destroyed, and no live element is overwritten without being destroyed.", "quantifier": "every operation history", "why_tests_cant": "leaks and double destruction depend on history", "anchors": ["include/efp/cyclic.hpp:push_back", "include/efp/cyclic.hpp:pop_front", "include/efp/cyclic.hpp:~Vcq", "include/efp/cyclic.hpp:~Vcb"]}
{"id": "C18", "title": "Vector behaves as a growable list", "statement": "For every sequence of push_back, emplace_back, pop_back, insert, erase, clear, reserve, shrink_to_fit and element writes on a Vector of trivially copyable elements, size(), indexing and iteration agree with a plain list; pop_back, insert and erase throw exactly when the list is empty / the index is out of range, and then change nothing.", "quantifier": "every operation history and argument", "why_tests_cant": "reallocation happens at history-dependent points", "anchors": ["include/efp/sequence.hpp:VectorBase"]}
{"id": "C19", "title": "Vector always keeps a spare slot", "statement": "After every such history, either nothing is allocated (size and capacity 0) or size()+1 <= capacity(), and no operation reads or writes outside the allocation.", "quantifier": "every operation history", "why_tests_cant": "capacity arithmetic over all histories", "anchors": ["include/efp/sequence.hpp:VectorBase::push_back", "include/efp/sequence.hpp:VectorBase::reserve", "include/efp/sequence.hpp:VectorBase::insert"]}
{"id": "C20", "title": "copy construction of a Vector yields an equal independent Vector", "statement": "A Vector copy-constructed from another has the same elements and later operations on either do not affect the other.", "quantifier": "every source vector and later history", "why_tests_cant": "all sizes including the never-allocated one", "anchors": ["include/efp/sequence.hpp:VectorBase(const VectorBase&)"]}
{"id": "C21", "title": "copy assignment of a Vector makes the target equal to the source", "statement": "After a = b (distinct objects) a has exactly b's elements and b is unchanged.", "quantifier": "every pair of vectors", "why_tests_cant": "depends on relation of sizes and capacities", "anchors": ["include/efp/sequence.hpp:VectorBase::operator=(const VectorBase&)"]}
{"id": "C22", "title": "move construction and assignment transfer the content", "statement": "After moving from b, the target has exactly b's former elements, b is empty and reusable, nothing is leaked or freed twice.", "quantifier": "every pair of vectors and later history", "why_tests_cant": "ownership over all histories", "anchors": ["include/efp/sequence.hpp:VectorBase(VectorBase&&)", "include/efp/sequence.hpp:VectorBase::operator=(VectorBase&&)"]}
{"id": "C23", "title": "push_back of an element of the same Vector", "statement": "v.push_back(v[i]) appends a copy of element i, as with std::vector.", "quantifier": "every vector and index", "why_tests_cant": "fails only when the push reallocates", "anchors": ["include/efp/sequence.hpp:VectorBase::push_back"]}
{"id": "C24", "title": "Vector manages element lifetimes correctly", "statement": "For class-type elements, every history of Vector operations constructs elements only in raw storage, assigns and destroys only live elements, and after destruction no element or allocation is leaked.", "quantifier": "every operation history", "why_tests_cant": "lifetime errors are silent", "anchors": ["include/efp/sequence.hpp:VectorBase::insert", "include/efp/sequence.hpp:VectorBase::erase", "include/efp/sequence.hpp:VectorBase::resize"]}
{"id": "C25", "title": "Vector element lifetimes for push/pop/clear/reserve/move histories", "statement": "Restricted to default construction, push_back, emplace_back, pop_back, clear, reserve, shrink_to_fit, copy construction from allocated sources, moves and destruction, element lifetimes of class-type elements are handled correctly and nothing leaks.", "quantifier": "every such history", "why_tests_cant": "lifetime errors are silent", "anchors": ["include/efp/sequence.hpp:VectorBase"]}
{"id": "C26", "title": "ArrVec behaves as a list bounded by its capacity", "statement": "For every sequence of push_back, insert, erase, pop_back, clear on an ArrVec<A,cap>, contents and size agree with a plain list of at most cap elements; each operation throws exactly when it would exceed the capacity, the index is out of range or the list is empty, and then changes nothing; element lifetimes are respected for class-type elements.", "quantifier": "every cap and operation history", "why_tests_cant": "unbounded histories and boundary cases", "anchors": ["include/efp/sequence.hpp:ArrVec"]}
{"id": "C27", "title": "copy and move of ArrVec and Array", "statement": "Copies and moves (construction and assignment between distinct objects) of ArrVec and Array give the target the source's elements; a moved-from ArrVec is empty.", "quantifier": "every pair of containers", "why_tests_cant": "all size combinations", "anchors": ["include/efp/sequence.hpp:ArrVec", "include/efp/sequence.hpp:Array"]}
{"id": "C28", "title": "converting an ArrVec to a larger-capacity ArrVec preserves it", "statement": "Constructing ArrVec<A,m> from ArrVec<A,k> with k<=m gives the same elements and size.", "quantifier": "every source", "why_tests_cant": "only full sources work", "anchors": ["include/efp/sequence.hpp:ArrVec(const ArrVec<Element, ct_size_>&)"]}
{"id": "C29", "title": "container equality is element-wise equality", "statement": "For Array, ArrVec and Vector, a == b holds exactly when both have the same length and equal elements at every index.", "quantifier": "every pair of contents", "why_tests_cant": "all contents", "anchors": ["include/efp/sequence.hpp:operator=="]}
{"id": "C30", "title": "views refer to exactly the requested elements", "statement": "ArrayView, ArrVecView and VectorView built over a sequence read the underlying element at every index below their size and see later writes to the underlying storage; construction of a non-empty view over null throws.", "quantifier": "every storage, offset and size", "why_tests_cant": "all storages", "anchors": ["include/efp/sequence.hpp:ArrayView", "include/efp/sequence.hpp:ArrVecView", "include/efp/sequence.hpp:VectorViewBase"]}
{"id": "C31", "title": "String operations agree with character lists", "statement": "Construction from C string, push_back, append, assign, both inserts, erase, substr, copy, at, += (of a different string) produce exactly the characters of the corresponding list operation, and at/insert/substr/copy throw exactly when the position is out of range.", "quantifier": "every content, argument and history", "why_tests_cant": "unbounded contents", "anchors": ["include/efp/string.hpp"]}
{"id": "C32", "title": "c_str() returns a terminated copy of the content without touching foreign memory", "statement": "For every String, c_str() writes only inside the string's own allocation and the returned buffer holds the content followed by NUL.", "quantifier": "every String value however built", "why_tests_cant": "depends on capacity history", "anchors": ["include/efp/string.hpp:c_str"]}
{"id": "C33", "title": "compare orders strings lexicographically", "statement": "s.compare(t) is negative, zero or positive according to the lexicographic order of the whole strings and reads only their characters.", "quantifier": "every pair of strings", "why_tests_cant": "prefix pairs and length differences", "anchors": ["include/efp/string.hpp:compare"]}
{"id": "C34", "title": "s += s doubles the string", "statement": "Appending a string to itself terminates and yields the content twice.", "quantifier": "every string", "why_tests_cant": "non-termination cannot be observed by a test", "anchors": ["include/efp/string.hpp:operator+="]}
{"id": "C35", "title": "comparison with a C string", "statement": "s == cstr holds exactly when s has the characters of cstr, for allocated s and NUL-free content.", "quantifier": "every string and C string", "why_tests_cant": "all contents", "anchors": ["include/efp/string.hpp:operator==(const Char*)"]}
{"id": "C36", "title": "map / map_with_index apply the function point-wise", "statement": "map(f, as...) calls f exactly once per index below the shortest length, in increasing index order, and the result holds the i-th returned value at index i; map_with_index additionally passes i. Holds for result containers Array, ArrVec and Vector of trivially copyable result type.", "quantifier": "every function (with side effects), every tuple of sequences", "why_tests_cant": "all lengths, arities and container kinds", "anchors": ["include/efp/prelude.hpp:map", "include/efp/prelude.hpp:map_with_index", "include/efp/prelude.hpp:_min_length"]}
{"id": "C37", "title": "filter keeps exactly the satisfying elements in order", "statement": "filter(f, as) returns the elements satisfying f in original order; it never throws.", "quantifier": "every predicate and sequence", "why_tests_cant": "all inputs", "anchors": ["include/efp/prelude.hpp:filter"]}
{"id": "C38", "title": "foldl and foldr", "statement": "foldl(f,a,bs) is the left fold, foldr(f,b,as) the right fold, each calling f once per element in the corresponding order.", "quantifier": "every function (with side effects), initial value and sequence", "why_tests_cant": "all inputs", "anchors": ["include/efp/prelude.hpp:foldl", "include/efp/prelude.hpp:foldr"]}
{"id": "C39", "title": "append concatenates in argument order", "statement": "append(as, bs, ...) is the concatenation of its arguments in order.", "quantifier": "every list of sequences and every argument evaluation order the language allows", "why_tests_cant": "the compiler chooses the evaluation order", "anchors": ["include/efp/prelude.hpp:append", "include/efp/prelude.hpp:execute_pack"]}
{"id": "C40", "title": "append concatenates under left-to-right evaluation", "statement": "If arguments are evaluated left to right, append returns the in-order concatenation; under any order it returns the concatenation of some permutation of the arguments and stays in bounds.", "quantifier": "every list of sequences, every evaluation order", "why_tests_cant": "all inputs", "anchors": ["include/efp/prelude.hpp:append"]}
{"id": "C41", "title": "concat and intercalate", "statement": "concat(ass) is the concatenation of the inner sequences; intercalate(d, ass) is the same with d inserted between neighbours, empty for empty ass.", "quantifier": "every nested sequence and delimiter", "why_tests_cant": "all shapes", "anchors": ["include/efp/prelude.hpp:concat", "include/efp/prelude.hpp:intercalate"]}
{"id": "C42", "title": "statically chosen result capacity always suffices", "statement": "Whenever the result type of map, filter, append, concat, intercalate, cartesian_map, elem_indices or find_indices is a fixed-capacity container, the actual result length never exceeds it (so no call throws or overflows), and when it is a fixed-size Array the result length is exactly its size.", "quantifier": "every combination of argument container kinds and every content respecting them", "why_tests_cant": "type-level arithmetic over all combinations", "anchors": ["include/efp/prelude.hpp:NAryReturn", "include/efp/prelude.hpp:AppendReturn", "include/efp/prelude.hpp:ConcatReturn", "include/efp/prelude.hpp:IntercalateReturn", "include/efp/prelude.hpp:CartesianMapReturn", "include/efp/prelude.hpp:FilterReturn"]}
{"id": "C43", "title": "take and drop clamp", "statement": "take(n, as) views the first min(n,length) elements and drop(n, as) the rest after min(n,length); take(n) followed by drop(n) is the whole sequence; neither ever reaches outside the sequence.", "quantifier": "every n (run time or compile time) and sequence", "why_tests_cant": "all n including beyond the length", "anchors": ["include/efp/prelude.hpp:take", "include/efp/prelude.hpp:drop"]}
{"id": "C44", "title": "slice stays inside the sequence", "statement": "slice(start, end, as) views exactly the elements with index in [start, end) that exist in as, for any start and end.", "quantifier": "every start, end and sequence", "why_tests_cant": "out-of-range arguments", "anchors": ["include/efp/prelude.hpp:slice"]}
{"id": "C45", "title": "slice with valid bounds", "statement": "For start <= end <= length(as), slice(start,end,as) views exactly elements start..end-1.", "quantifier": "every valid start, end and sequence", "why_tests_cant": "all inputs", "anchors": ["include/efp/prelude.hpp:slice", "include/efp/prelude.hpp:slice_unsafe"]}
{"id": "C46", "title": "take_while and drop_while split the sequence", "statement": "take_while(f,as) is the longest prefix satisfying f and drop_while(f,as) is the remainder.", "quantifier": "every predicate and sequence", "why_tests_cant": "all inputs", "anchors": ["include/efp/prelude.hpp:take_while", "include/efp/prelude.hpp:drop_while"]}
{"id": "C47", "title": "search functions", "statement": "elem/find report whether some element equals/satisfies; elem_index/find_index return the least such index or nothing; elem_indices/find_indices return exactly all such indices in increasing order.", "quantifier": "every value/predicate and sequence", "why_tests_cant": "all inputs", "anchors": ["include/efp/prelude.hpp:elem", "include/efp/prelude.hpp:find", "include/efp/prelude.hpp:elem_index", "include/efp/prelude.hpp:find_index", "include/efp/prelude.hpp:elem_indices", "include/efp/prelude.hpp:find_indices"]}
{"id": "C48", "title": "head, last, tail, init", "statement": "On a non-empty sequence head/last return the first/last element and tail/init view all but the first/last; on an empty sequence each throws.", "quantifier": "every sequence", "why_tests_cant": "all inputs", "anchors": ["include/efp/prelude.hpp:head", "include/efp/prelude.hpp:last", "include/efp/prelude.hpp:tail", "include/efp/prelude.hpp:init"]}
{"id": "C49", "title": "cartesian functions enumerate in lexicographic order", "statement": "cartesian_for_each, cartesian_map and cartesian_for_index visit exactly all combinations, once each, in lexicographic order with the last argument varying fastest; cartesian_map stores the results in that order.", "quantifier": "every list of sequences and every function with side effects", "why_tests_cant": "all arities and lengths", "anchors": ["include/efp/prelude.hpp:cartesian_for_each", "include/efp/prelude.hpp:cartesian_map", "include/efp/prelude.hpp:cartesian_for_index"]}
{"id": "C50", "title": "from_function tabulates", "statement": "from_function(n, f) calls f(0)..f(n-1) in order and the result holds f(i) at index i.", "quantifier": "every n and f", "why_tests_cant": "all sizes", "anchors": ["include/efp/prelude.hpp:from_function"]}
{"id": "C51", "title": "for_each variants visit in order and mutate in place", "statement": "for_each/for_each_with_index call f once per index below the shortest length in order; the _mut variants additionally leave each sequence equal to the result of applying f at each visited index and unchanged beyond.", "quantifier": "every f with side effects, every tuple of sequences", "why_tests_cant": "all inputs", "anchors": ["include/efp/prelude.hpp:for_each", "include/efp/prelude.hpp:for_each_mut", "include/efp/prelude.hpp:for_each_with_index", "include/efp/prelude.hpp:for_each_with_index_mut"]}
{"id": "C52", "title": "compose is right-to-left function composition", "statement": "compose(f1,...,fk)(x) = f1(...fk(x)) with fk called first, for any number k>=1 of functions.", "quantifier": "every list of functions and argument", "why_tests_cant": "all arities", "anchors": ["include/efp/prelude.hpp:Composed", "include/efp/prelude.hpp:compose"]}
{"id": "C53", "title": "Enum dispatch reaches the held alternative", "statement": "For every number of alternatives from 1 to 128 and every valid index, the generated switch calls the case of exactly that alternative.", "quantifier": "every alternative count and index", "why_tests_cant": "the switch is generated for every size", "anchors": ["include/efp/enum.hpp:power_2_ceiling", "include/efp/enum.hpp:_EnumSwitch", "include/efp/enum.hpp:EnumSwitch"]}
{"id": "C54", "title": "Enum supports up to 256 alternatives", "statement": "The README promises up to 256 alternatives: the compile-time size computation terminates and dispatch is correct for every count from 1 to 256.", "quantifier": "every alternative count up to 256", "why_tests_cant": "a compile failure or recursion depends on the count", "anchors": ["include/efp/enum.hpp:power_2_ceiling", "README.md"]}
{"id": "C55", "title": "Enum get/index/match agree with the value it was built from", "statement": "An Enum built from a value of alternative T reports T's position as index(), get<T>() returns the value, get of any other alternative throws, and match runs the selected branch on exactly that value.", "quantifier": "every alternative list, value and history of copies/moves/assignments", "why_tests_cant": "all alternative lists and histories", "anchors": ["include/efp/enum.hpp:EnumBase"]}
{"id": "C56", "title": "Enum copy, move, assignment and destruction manage the held value exactly once", "statement": "Along any history of construction, copy, move, assignment (including self-assignment) and destruction, every held value is destroyed exactly once with the destructor of its own alternative.", "quantifier": "every history", "why_tests_cant": "lifetimes over all histories", "anchors": ["include/efp/enum.hpp:EnumBase"]}
{"id": "C57", "title": "Enum equality", "statement": "a == b holds exactly when both hold the same alternative and the values are equal.", "quantifier": "every pair of Enums", "why_tests_cant": "all values", "anchors": ["include/efp/enum.hpp:operator=="]}
{"id": "C58", "title": "match selects the branch overload resolution would select", "statement": "With a pattern made of typed branches and optionally a final wildcard, match on alternative T runs the branch declared for T if there is one and otherwise the wildcard; the static check rejects patterns with a wildcard not in last place or a branch no alternative can reach.", "quantifier": "every alternative list and pattern", "why_tests_cant": "all patterns", "anchors": ["include/efp/enum.hpp:match", "include/efp/enum.hpp:PatternCheck", "include/efp/enum.hpp:IsWildCard"]}
{"id": "C59", "title": "Maybe satisfies the functor, applicative and monad laws", "statement": "fmap, pure, ap, bind (free and member forms, and >>=) satisfy the functor, applicative and monad laws, and value() throws exactly when there is no value.", "quantifier": "every value and function", "why_tests_cant": "laws quantify over all functions", "anchors": ["include/efp/maybe.hpp"]}
{"id": "C60", "title": "Tuple access, match and equality", "statement": "get<i>(tuple(a0..ak)) is ai, match applies the function to all components in order, and t == u holds exactly when all components are equal.", "quantifier": "every tuple", "why_tests_cant": "all arities and values", "anchors": ["include/efp/meta.hpp:Tuple", "include/efp/meta.hpp:TupleLeafComparatorImpl"]}
{"id": "C61", "title": "max_elem and min_elem return the extreme element", "statement": "On a non-empty sequence max_elem returns an element of the sequence that is >= all others, min_elem one that is <= all others, for integer and floating-point element types.", "quantifier": "every non-empty sequence", "why_tests_cant": "all contents; NumericLimits<double>::min() is positive", "anchors": ["include/efp/numeric.hpp:max_elem", "include/efp/numeric.hpp:min_elem"]}
{"id": "C62", "title": "integer max_elem, min_elem, sum, product", "statement": "For bounded integer element types max_elem/min_elem return the extreme element of a non-empty sequence, and sum/product return the mathematical sum/product whenever every partial result is representable.", "quantifier": "every sequence of representable integers", "why_tests_cant": "all contents", "anchors": ["include/efp/numeric.hpp:max_elem", "include/efp/numeric.hpp:min_elem", "include/efp/numeric.hpp:sum", "include/efp/numeric.hpp:product"]}
{"id": "C63", "title": "clamp, abs, min, max", "statement": "clamp(lo,hi,x) with lo<=hi lies in [lo,hi] and equals x when x does; max/min return the larger/smaller argument; abs is non-negative and correct except at the most negative integer.", "quantifier": "every argument", "why_tests_cant": "all values", "anchors": ["include/efp/meta.hpp:clamp", "include/efp/meta.hpp:max", "include/efp/meta.hpp:min", "include/efp/numeric.hpp:abs"]}
{"id": "C64", "title": "mean, variance, covariance and error measures compute the textbook quantities", "statement": "In exact real arithmetic mean, variance, covariance, sse, mse, rmse, rms equal their textbook formulas; variance is non-negative and zero exactly for constant data; covariance(x,x)=variance(x); |correlation| <= 1.", "quantifier": "every non-empty data set(s) of equal length", "why_tests_cant": "all data sets", "anchors": ["include/efp/scientific.hpp"]}
{"id": "C65", "title": "linear_regression minimises the squared error", "statement": "In exact real arithmetic, for data whose abscissae are not all equal, the returned slope and intercept minimise the sum of squared residuals over all lines, uniquely.", "quantifier": "every data set", "why_tests_cant": "all data sets and all competing lines", "anchors": ["include/efp/scientific.hpp:linear_regression"]}
{"id": "C66", "title": "linear_regression_with_index agrees with linear_regression on indices and detrend removes the trend", "statement": "In exact real arithmetic, linear_regression_with_index(as) equals linear_regression of as against 0..n-1; remove_dc has mean zero; detrend has mean zero and zero slope, and detrending twice is detrending once.", "quantifier": "every data set with at least two points", "why_tests_cant": "all data sets", "anchors": ["include/efp/scientific.hpp:linear_regression_with_index", "include/efp/scientific.hpp:detrend", "include/efp/scientific.hpp:remove_dc"]}
{"id": "C67", "title": "BlockingQ delivers every element once in FIFO order", "statement": "For any number of threads calling enqueue and dequeue on an unbounded BlockingQ, under every schedule including spurious wake-ups, the sequence of dequeued values is a prefix of the sequence of enqueued values (in lock order): nothing is lost, duplicated, invented or reordered.", "quantifier": "every program, every schedule", "why_tests_cant": "schedules are unbounded", "anchors": ["include/efp/concurrency.hpp:BlockingQ<A, dyn>"]}
{"id": "C68", "title": "BlockingQ never misses a wake-up", "statement": "Under every schedule, if no thread can take a step (other than a spurious wake-up) then either the queue is empty or no thread is blocked in dequeue.", "quantifier": "every program, every schedule", "why_tests_cant": "a lost wake-up needs a specific interleaving", "anchors": ["include/efp/concurrency.hpp:BlockingQ::enqueue", "include/efp/concurrency.hpp:BlockingQ::dequeue"]}
{"id": "C69", "title": "bounded BlockingQ drops only the oldest", "statement": "For the fixed-capacity BlockingQ under every schedule the dequeued values are a subsequence of the enqueued values in order, and a value is lost only when it was the oldest of a full queue at a later enqueue.", "quantifier": "every program, schedule and capacity", "why_tests_cant": "schedules are unbounded", "anchors": ["include/efp/concurrency.hpp:BlockingQ", "include/efp/cyclic.hpp:Vcq"]}
{"id": "C70", "title": "NonBlockingQ is linearizable", "statement": "Under every schedule NonBlockingQ dequeue returns nothing exactly when the queue is empty at its lock point and otherwise the oldest element.", "quantifier": "every program, schedule", "why_tests_cant": "schedules are unbounded", "anchors": ["include/efp/concurrency.hpp:NonBlockingQ"]}
{"id": "C71", "title": "NonBlockingQ::is_empty is safe to call from any thread", "statement": "Calling is_empty concurrently with enqueue/dequeue is free of data races.", "quantifier": "every schedule", "why_tests_cant": "races need specific interleavings", "anchors": ["include/efp/concurrency.hpp:NonBlockingQ::is_empty"]}
{"id": "C72", "title": "DoubleBuffer keeps FIFO order across swaps", "statement": "Values dequeued after swap_buffer come out in the order they were enqueued, for every history.", "quantifier": "every history of enqueue, swap_buffer, dequeue", "why_tests_cant": "needs a swap before the read side is drained", "anchors": ["include/efp/concurrency.hpp:DoubleBuffer"]}
{"id": "C73", "title": "DoubleBuffer with drained swaps", "statement": "If the consumer only swaps when the read side is empty and no buffer overflows, the dequeued values are a prefix of the enqueued values.", "quantifier": "every such history", "why_tests_cant": "unbounded histories", "anchors": ["include/efp/concurrency.hpp:DoubleBuffer"]}
{"id": "C74", "title": "read_lines returns the lines of the file", "statement": "read_lines() on a file positioned at its start returns the newline-separated lines of its content; a trailing newline does not produce an extra empty line, empty lines in the middle are kept.", "quantifier": "every file content", "why_tests_cant": "all contents", "anchors": ["include/efp/io.hpp:read_line", "include/efp/io.hpp:read_lines"]}
{"id": "C75", "title": "what is written is read back", "statement": "Writing lines joined by newlines and reading them back yields the same lines, for lines without newline characters.", "quantifier": "every list of lines", "why_tests_cant": "all contents", "anchors": ["include/efp/io.hpp:write", "include/efp/io.hpp:read_lines"]}
{"id": "C76", "title": "File remembers its mode", "statement": "A File obtained from File::open can be written to: write consults the mode the file was opened with.", "quantifier": "every mode and path", "why_tests_cant": "the mode field is read uninitialised", "anchors": ["include/efp/io.hpp:File(File&&)", "include/efp/io.hpp:write", "include/efp/io.hpp:open"]}
{"id": "C77", "title": "File closes its handle exactly once", "statement": "Along any history of open, move construction, move assignment, close and destruction each opened handle is closed exactly once and never used after.", "quantifier": "every history", "why_tests_cant": "handle leaks are silent", "anchors": ["include/efp/io.hpp:operator=(File&&)", "include/efp/io.hpp:close", "include/efp/io.hpp:~File"]}
{"id": "C78", "title": "func_ptr(f) calls f", "statement": "The function pointer returned by func_ptr(f) calls f whenever it is invoked while f is alive.", "quantifier": "every sequence of func_ptr and calls", "why_tests_cant": "two callables of the same type share one static slot", "anchors": ["include/efp/c_utility.hpp:func_ptr", "include/efp/c_utility.hpp:LambdaPointer"]}
{"id": "C79", "title": "integers are formatted in decimal exactly", "statement": "format(\"{}\", n) yields the decimal representation of n without leading zeros, with '-' for negatives, for every 32/64-bit integer; parsing it back gives n.", "quantifier": "every integer of the type", "why_tests_cant": "2^64 values", "anchors": ["include/efp/fmt/format.h:count_digits", "include/efp/fmt/format.h:format_decimal", "include/efp/fmt/format.h:write"]}
{"id": "C80", "title": "sequences are formatted as bracketed comma-separated lists", "statement": "format(\"{}\", seq) yields '[' then the formatted elements separated by ', ' then ']'.", "quantifier": "every sequence", "why_tests_cant": "all contents", "anchors": ["include/efp/format.hpp", "include/efp/fmt/format.h:join_view"]}
{"id": "C81", "title": "literal text and escaped braces", "statement": "A format string without replacement fields is output unchanged except that '{{' becomes '{' and '}}' becomes '}'; a lone '}' or unterminated '{' is an error.", "quantifier": "every format string", "why_tests_cant": "all strings", "anchors": ["include/efp/fmt/core.h:parse_format_string", "include/efp/fmt/core.h:parse_replacement_field"]}
{"id": "C82", "title": "pushing an element of a Vcq onto itself", "statement": "vcq.push_back(vcq[i]) appends the value vcq[i] had before the call (dropping the oldest element if the queue was full).", "quantifier": "every reachable queue and index", "why_tests_cant": "the argument is a reference into the buffer that is being overwritten; depends on history and element type", "anchors": ["include/efp/cyclic.hpp:Vcq::push_back"]}
{"id": "C83", "title": "inserting an element of a container into itself", "statement": "v.insert(i, v[j]) on a Vector or ArrVec inserts at i the value v[j] had before the call.", "quantifier": "every reachable container and pair of indices", "why_tests_cant": "the argument is a reference into the storage being shifted or released", "anchors": ["include/efp/sequence.hpp:ArrVec::insert", "include/efp/sequence.hpp:VectorBase::insert"]}
{"id": "C84", "title": "moving an ArrVec destroys every element exactly once", "statement": "After move construction or move assignment from an ArrVec, destroying both objects ends the lifetime of every element, moved-from ones included.", "quantifier": "every history, capacity and element type", "why_tests_cant": "leaked lifetimes are invisible to assertions on values", "anchors": ["include/efp/sequence.hpp:ArrVec(ArrVec&&)", "include/efp/sequence.hpp:ArrVec::operator=(ArrVec&&)"]}
{"id": "C85", "title": "a default-constructed view is empty", "statement": "A default-constructed ArrayView, ArrVecView or VectorView has no elements: size() is 0 and iteration reads nothing.", "quantifier": "every static size and capacity", "why_tests_cant": "holds only for size 0", "anchors": ["include/efp/sequence.hpp:ArrayView()", "include/efp/sequence.hpp:ArrVecView()", "include/efp/sequence.hpp:VectorViewBase()"]}
{"id": "C86", "title": "view equality is identity of the viewed range", "statement": "Two views of the same kind compare equal exactly when they start at the same address and have the same size, however they were built.", "quantifier": "every pair of views, including converted ones", "why_tests_cant": "a converted VectorView compares an uninitialised field, whose value varies", "anchors": ["include/efp/sequence.hpp:ArrayView::operator==", "include/efp/sequence.hpp:ArrVecView::operator==", "include/efp/sequence.hpp:VectorViewBase::operator=="]}
{"id": "C87", "title": "resize gives n usable elements", "statement": "resize(n) on an ArrVec or Vector leaves the first min(n, old size) elements unchanged and every element below n readable; elements cut off are destroyed; ArrVec::resize throws exactly when n exceeds the capacity.", "quantifier": "every history, n and element type", "why_tests_cant": "uninitialised reads and leaks depend on history", "anchors": ["include/efp/sequence.hpp:ArrVec::resize", "include/efp/sequence.hpp:VectorBase::resize"]}
{"id": "C88", "title": "an empty String equals the empty C string", "statement": "s == \"\" holds for every empty String s, however it was obtained.", "quantifier": "every way of obtaining an empty string", "why_tests_cant": "a String that never allocated has a null data pointer, one that was cleared has not", "anchors": ["include/efp/string.hpp:operator==(const Char*)"]}
{"id": "C89", "title": "StringView equality compares contents", "statement": "Two StringViews are equal exactly when they have the same characters; a StringView equals a C string exactly when the characters agree.", "quantifier": "every pair of views", "why_tests_cant": "literals may or may not share an address", "anchors": ["include/efp/string.hpp:VectorView::operator=="]}
{"id": "C90", "title": "a string's own c_str() is a valid argument", "statement": "Passing s.c_str() to s.append, s.assign or s.insert has the effect of passing a copy of the characters.", "quantifier": "every string and position", "why_tests_cant": "depends on spare capacity and on the order of shifting and copying", "anchors": ["include/efp/string.hpp:append", "include/efp/string.hpp:assign", "include/efp/string.hpp:insert", "include/efp/string.hpp:c_str"]}
{"id": "C91", "title": "results may be of class type", "statement": "map, from_function, append and concat work for result elements of any type, including class types, whatever container kind the result has.", "quantifier": "every element type and combination of argument kinds", "why_tests_cant": "assigning to storage without an object may appear to work", "anchors": ["include/efp/prelude.hpp:map", "include/efp/prelude.hpp:from_function", "include/efp/prelude.hpp:append", "include/efp/prelude.hpp:concat"]}
{"id": "C92", "title": "a composition can be stored and called later", "statement": "compose(f, g) can be kept and called after the expression that created it, also when f and g were temporaries such as lambdas.", "quantifier": "every list of functions and every later call", "why_tests_cant": "a dangling reference may appear to work", "anchors": ["include/efp/prelude.hpp:compose", "include/efp/prelude.hpp:Composed"]}
{"id": "C93", "title": "Enum survives a copy that throws", "statement": "If copying the held value throws during construction or assignment of an Enum, every Enum object that exists afterwards can still be read and destroyed.", "quantifier": "every history, target, source and throwing copy", "why_tests_cant": "needs a throwing copy at every operation", "anchors": ["include/efp/enum.hpp:EnumBase::operator=", "include/efp/enum.hpp:EnumBase::~EnumBase"]}
{"id": "C94", "title": "Enum can be assigned from a part of its own value", "statement": "a = b is defined even if b is owned by the value a holds (list = list.tail), as for assignment through a copy.", "quantifier": "every ownership structure", "why_tests_cant": "needs a recursive type and a tool that detects the dead read", "anchors": ["include/efp/enum.hpp:EnumBase::operator="]}
{"id": "C95", "title": "autocovariance and autocorrelation compute the textbook quantities for every lag", "statement": "In exact real arithmetic autocovariance(x, lag) is the sum of products of deviations lag places apart, divided by the number of data (or as requested by the Bessel and adjusted flags); the autocorrelation lies in [-1,1] and is 1 at lag 0; a negative lag gives the value of the opposite lag and a lag beyond the data gives 0.", "quantifier": "every data sequence and every int lag", "why_tests_cant": "the loop bound mixes size_t and int; needs every lag, and the bound is an inequality over all data", "anchors": ["include/efp/scientific.hpp:autocovariance", "include/efp/scientific.hpp:autocorrelation"]}
{"id": "C96", "title": "is_approx compares within epsilon whatever the two types", "statement": "is_approx(a,b) is true exactly when |a-b| is at most the epsilon of the more precise type, and does not depend on the order of the arguments.", "quantifier": "all pairs of numbers and of arithmetic types", "why_tests_cant": "type selection depends on the sizes of two types", "anchors": ["include/efp/numeric.hpp:is_approx"]}
{"id": "C97", "title": "normalised RMSE divides by the mean or the range of the reference", "statement": "nrmse_mean and nrmse_max_min equal rmse divided by the mean, and by the difference of the largest and smallest element, of the reference data.", "quantifier": "every pair of sequences of equal length with non-zero mean or range", "why_tests_cant": "the divisor is wrong only for data of one sign", "anchors": ["include/efp/scientific.hpp:nrmse_mean", "include/efp/scientific.hpp:nrmse_max_min", "include/efp/numeric.hpp:max_min"]}
{"id": "C98", "title": "sum and mean of integers are right whenever the total is representable", "statement": "sum of a sequence of integers is the mathematical sum whenever that fits the element type, and mean<double> of integers is their mean.", "quantifier": "every integer type and sequence", "why_tests_cant": "depends on every partial sum", "anchors": ["include/efp/numeric.hpp:sum", "include/efp/scientific.hpp:mean"]}
{"id": "C99", "title": "clamp of integers of different types", "statement": "clamp(lo,hi,x) with lo<=hi, all integers but of possibly different types, is the number of [lo,hi] nearest to x.", "quantifier": "all integer types and values", "why_tests_cant": "the usual arithmetic conversions depend on the pair of types", "anchors": ["include/efp/meta.hpp:clamp"]}
{"id": "C100", "title": "Enum storage fits and is aligned for every alternative", "statement": "The storage of an Enum is at least as large as every alternative, as large as one of them, and its alignment is a multiple of every alternative's.", "quantifier": "every list of sizes and power-of-two alignments", "why_tests_cant": "needs every list of alternatives", "anchors": ["include/efp/enum.hpp:Enum", "include/efp/meta.hpp:_maximum"]}
{"id": "C101", "title": "compile-time folds compute conjunction, disjunction, sum and product", "statement": "_all, _any, _sum and _product of an array are the conjunction, disjunction, sum and product of its elements.", "quantifier": "every array", "why_tests_cant": "intermediate types depend on the element type and the values", "anchors": ["include/efp/meta.hpp:_foldl", "include/efp/meta.hpp:_all", "include/efp/meta.hpp:_any", "include/efp/meta.hpp:_sum", "include/efp/meta.hpp:_product"]}
{"id": "C102", "title": "swap exchanges two objects", "statement": "After swap(a,b) a holds the old value of b and b that of a, and nothing else changes, also when a and b are the same object.", "quantifier": "every pair of objects and every moved-from state", "why_tests_cant": "aliasing and moved-from states", "anchors": ["include/efp/meta.hpp:swap"]}
{"id": "C103", "title": "square of an integer", "statement": "square(x) is x*x whenever that is representable, and never undefined for unsigned types.", "quantifier": "every integer type and value", "why_tests_cant": "integral promotion depends on the type", "anchors": ["include/efp/numeric.hpp:square"]}
{"id": "C104", "title": "DoubleBuffer with one consumer is linearizable and race-free", "statement": "With any number of producers and one thread that swaps, dequeues (only when there is something) and tests for emptiness, every history is that of two sequential bounded buffers exchanged by swap_buffer; no access is undefined and no two accesses race although dequeue and empty take no lock.", "quantifier": "every program of this form, every schedule, every capacity", "why_tests_cant": "needs every interleaving, including those inside swap_buffer", "anchors": ["include/efp/concurrency.hpp:DoubleBuffer"]}
{"id": "C105", "title": "DoubleBuffer can be shared by any threads", "statement": "Any threads may call enqueue, swap_buffer, dequeue and empty without data races.", "quantifier": "every program, every schedule", "why_tests_cant": "races show only under rare interleavings", "anchors": ["include/efp/concurrency.hpp:DoubleBuffer::dequeue", "include/efp/concurrency.hpp:DoubleBuffer::swap_buffer"]}
{"id": "C106", "title": "a closed or moved-from File is harmless", "statement": "After close() or after being moved from, every operation on a File is defined, does nothing and reports failure; the destructor does nothing.", "quantifier": "every operation on every closed or moved-from File", "why_tests_cant": "all operations and histories", "anchors": ["include/efp/io.hpp:close", "include/efp/io.hpp:File(File&&)", "include/efp/io.hpp:seek", "include/efp/io.hpp:tell", "include/efp/io.hpp:read_line", "include/efp/io.hpp:write"]}
{"id": "C107", "title": "tell returns the position", "statement": "After seek(n) succeeds, tell() returns n.", "quantifier": "every non-negative n of type long", "why_tests_cant": "all 2^63 offsets", "anchors": ["include/efp/io.hpp:seek", "include/efp/io.hpp:tell"]}
{"id": "C108", "title": "digits are counted exactly", "statement": "The number of digits computed for an unsigned integer before it is written, in base 10 by any of the algorithms, or in base 2, 8 or 16, is the least number of digits that can hold it.", "quantifier": "every 32-bit and 64-bit unsigned integer", "why_tests_cant": "2^64 values; an error at one power of ten overruns the output", "anchors": ["include/efp/fmt/format.h:do_count_digits", "include/efp/fmt/format.h:count_digits", "include/efp/fmt/format.h:count_digits_fallback"]}
{"id": "C109", "title": "text is decoded as UTF-8 says", "statement": "Iterating the code points of a string visits each maximal valid code point and each byte that starts none, in order, with its value, position and length, and reads nothing outside the string.", "quantifier": "every byte string and every callback", "why_tests_cant": "all byte strings, with truncated and overlong sequences and surrogates at any place", "anchors": ["include/efp/fmt/format.h:utf8_decode", "include/efp/fmt/format.h:for_each_codepoint"]}
{"id": "C110", "title": "the width of a text", "statement": "The estimated width of a text is the sum of the columns of its code points: 2 for wide ones, 1 for others.", "quantifier": "every byte string", "why_tests_cant": "all strings", "anchors": ["include/efp/fmt/format.h:compute_width"]}
{"id": "C111", "title": "a precision does not split a code point", "statement": "Formatting a string with precision n keeps its first n code points, whole.", "quantifier": "every byte string and every precision", "why_tests_cant": "all strings and cuts", "anchors": ["include/efp/fmt/format.h:code_point_index", "include/efp/fmt/format.h:write"]}
{"id": "C112", "title": "debug text of strings", "statement": "The debug form of a string is, between quotes, its code points, where quotes, backslashes, control and unprintable characters and invalid bytes are escaped.", "quantifier": "every byte string", "why_tests_cant": "all strings", "anchors": ["include/efp/fmt/format.h:write_escaped_string", "include/efp/fmt/format.h:find_escape", "include/efp/fmt/format.h:write_escaped_cp", "include/efp/fmt/format.h:is_printable"]}
{"id": "C113", "title": "debug text tells strings apart", "statement": "Two strings with the same debug text are equal.", "quantifier": "every pair of byte strings", "why_tests_cant": "all pairs of strings", "anchors": ["include/efp/fmt/format.h:write_escaped_string", "include/efp/fmt/format.h:write_escaped_cp"]}
{"id": "C114", "title": "a number in a field", "statement": "An integer written with format specs is its sign, prefix and digits in the base asked for, zero-padded or padded with the fill to the width and alignment asked for, or with the separators of the locale.", "quantifier": "every integer type and value, every fill, alignment, sign, flag, base, width and locale", "why_tests_cant": "combinations of 2^64 values with all specs", "anchors": ["include/efp/fmt/format.h:write_int", "include/efp/fmt/format.h:write_padded", "include/efp/fmt/format.h:digit_grouping", "include/efp/fmt/format.h:make_write_int_arg"]}
{"id": "C115", "title": "booleans, chars and strings in a field", "statement": "A bool, char or string written with format specs is its text (true, false, the char, the first code points of the string, a debug text or a number) padded with the fill to the width and alignment asked for.", "quantifier": "every value, fill, alignment, width, precision and presentation", "why_tests_cant": "combinations of all values with all specs", "anchors": ["include/efp/fmt/format.h:write", "include/efp/fmt/format.h:write_char", "include/efp/fmt/format.h:write_bytes", "include/efp/fmt/format.h:write_padded"]}
{"id": "C116", "title": "a field is as wide as asked", "statement": "The text of a value in a field of width w takes max(w, its own width) columns.", "quantifier": "every value and width", "why_tests_cant": "all values and widths", "anchors": ["include/efp/fmt/format.h:write_padded", "include/efp/fmt/format.h:write_char"]}
{"id": "C117", "title": "zeros go between the sign and the digits", "statement": "With the 0 flag and no alignment, the padding is zeros between the sign and the digits.", "quantifier": "every integer, width, sign and locale flag", "why_tests_cant": "all integers and widths", "anchors": ["include/efp/fmt/format.h:write_int_data", "include/efp/fmt/format.h:write_int"]}
{"id": "C118", "title": "the base asked for is the base used", "statement": "An integer formatted with a presentation type is written in that base.", "quantifier": "every integer, base and flag", "why_tests_cant": "all integers and flag combinations", "anchors": ["include/efp/fmt/format.h:write_int", "include/efp/fmt/format.h:loc_writer"]}
{"id": "C119", "title": "a format string is its items, one after the other", "statement": "Formatting a well-formed format string with arguments that fit returns the text of its chars and fields, in order: each field shows the argument it asks for (by order, index or name), with the fill, alignment, sign, flags, width, precision and presentation it is written with, where a width or precision may itself be an argument.", "quantifier": "every format string in the grammar, every list of integer, bool, char, string, sequence and join arguments, every locale", "why_tests_cant": "all format strings and arguments", "anchors": ["include/efp/format.hpp:format", "include/efp/fmt/core.h:parse_format_string", "include/efp/fmt/core.h:parse_replacement_field", "include/efp/fmt/core.h:parse_format_specs", "include/efp/fmt/format.h:format_handler"]}
{"id": "C120", "title": "formatting returns or throws", "statement": "Formatting with any format string, well-formed or not, reads the string in its bounds only, always ends, and returns a text or throws format_error.", "quantifier": "every byte string as a format string, every list of arguments", "why_tests_cant": "all strings, including those cut off anywhere", "anchors": ["include/efp/fmt/core.h:parse_format_string", "include/efp/fmt/core.h:parse_format_specs", "include/efp/fmt/core.h:parse_nonnegative_int", "include/efp/fmt/format.h:vformat_to"]}
{"id": "C121", "title": "arguments that do not fit are rejected", "statement": "A well-formed format string throws exactly if it asks for an argument that is not there, or of a type that does not admit the field, or for a width or precision that is no nonnegative int, or mixes fields with and without an index.", "quantifier": "every format string in the grammar and every list of arguments", "why_tests_cant": "all combinations of fields and argument types", "anchors": ["include/efp/fmt/core.h:parse_format_specs", "include/efp/fmt/core.h:next_arg_id", "include/efp/fmt/core.h:check_arg_id", "include/efp/fmt/format.h:get_dynamic_spec", "include/efp/fmt/format.h:get_arg"]}
{"id": "C122", "title": "fields without an index take the arguments in order", "statement": "A format string with fields without an index gives the same text as the one with the indexes written out, counting widths and precisions from arguments as well.", "quantifier": "every format string in the grammar and every list of arguments", "why_tests_cant": "all format strings", "anchors": ["include/efp/fmt/core.h:next_arg_id", "include/efp/fmt/core.h:parse_arg_id", "include/efp/fmt/core.h:dynamic_spec_id_handler"]}
{"id": "C123", "title": "numbers in a format string are read exactly", "statement": "An index, width or precision in a format string is the decimal number written, and one that does not fit an int is an error.", "quantifier": "every number", "why_tests_cant": "all numbers, overflow at each digit count", "anchors": ["include/efp/fmt/core.h:parse_nonnegative_int", "include/efp/fmt/core.h:parse_dynamic_spec", "include/efp/fmt/core.h:parse_arg_id"]}
{"id": "C124", "title": "floating-point numbers are printed with the shortest decimal that reads back", "statement": "For every positive finite float and double, the significand and exponent that the default presentation prints form a decimal that reads back (nearest number, ties to even) as that very number; no decimal with fewer digits does, and among the decimals with as many digits that do, none is nearer to the number.", "quantifier": "all 2^63 positive doubles and 2^31 positive floats that are finite, subnormals included", "why_tests_cant": "2^63 inputs; errors of shortest-decimal algorithms hide in single inputs", "anchors": ["include/efp/fmt/format-inl.h:dragonbox::to_decimal", "include/efp/fmt/format.h:dragonbox", "include/efp/fmt/format.h:write_float"]}
{"id": "C125", "title": "different floating-point numbers are printed differently", "statement": "Two different positive finite floats, or two different positive finite doubles, are never printed with decimals of the same value.", "quantifier": "all pairs of positive finite numbers of one type", "why_tests_cant": "2^126 pairs", "anchors": ["include/efp/fmt/format-inl.h:dragonbox::to_decimal"]}
{"id": "C126", "title": "floating-point numbers are laid out with the point where it belongs", "statement": "Formatting a float or double without specs writes a minus sign if the sign bit is set, and then the digits of the shortest decimal that reads back: with the point where it belongs (0.1, 123.456, 100) for numbers from 10^-4 on and below 10^16, otherwise with one digit before the point and an exponent of at least two digits (5e-324). Zero is written 0, infinity inf, and what is no number nan.", "quantifier": "all 2^64 doubles and 2^32 floats, every output before the text, every locale", "why_tests_cant": "2^64 inputs in four layouts with digit counts from 1 to 17", "anchors": ["include/efp/fmt/format.h:write(out, float)", "include/efp/fmt/format.h:do_write_float", "include/efp/fmt/format.h:write_significand", "include/efp/fmt/format.h:write_exponent", "include/efp/fmt/format.h:write_nonfinite"]}
{"id": "C127", "title": "the text of a floating-point number reads back as it", "statement": "The text written for a finite non-zero float or double without specs is, after the sign, a number in the usual notation; the decimal that it stands for is unique, and reading it (nearest number, ties to even) gives the number that was formatted, and no other.", "quantifier": "all finite non-zero floats and doubles", "why_tests_cant": "2^64 inputs", "anchors": ["include/efp/fmt/format.h:write(out, float)", "include/efp/fmt/format.h:do_write_float", "include/efp/fmt/format-inl.h:dragonbox::to_decimal"]}
{"id": "C128", "title": "at most 17 digits for a double, 9 for a float", "statement": "Formatted without specs, a double is written with at most 17 significant digits and a float with at most 9.", "quantifier": "all finite non-zero floats and doubles", "why_tests_cant": "the longest outputs are rare among 2^64 inputs", "anchors": ["include/efp/fmt/format.h:write(out, float)", "include/efp/fmt/format-inl.h:dragonbox::to_decimal"]}
{"id": "C129", "title": "different floating-point numbers have different texts", "statement": "Formatted without specs, two floats or two doubles, infinities and signed zeros included, give the same text only if they are the same number.", "quantifier": "all pairs of doubles or floats that are no nan", "why_tests_cant": "2^127 pairs", "anchors": ["include/efp/fmt/format.h:write(out, float)", "include/efp/fmt/format.h:do_write_float"]}
{"id": "C130", "title": "fixed-point text is correctly rounded", "statement": "With f or F a finite number is written as its integer part, a point and exactly as many decimals as the precision says (6 if none is given): the value is the number rounded to the nearest multiple of 10^-precision, ties to the even digit. Without decimals there is a point only with '#'. Sign, fill, alignment and zero padding are those of the field.", "quantifier": "all finite floats and doubles, every precision up to 767 minus the digits before the point, every field, width, sign and fill, every output before it", "why_tests_cant": "correct rounding is decided by digits far beyond those printed; 2^64 inputs times every precision", "anchors": ["include/efp/fmt/format.h:write_float", "include/efp/fmt/format.h:format_float", "include/efp/fmt/format.h:format_dragon", "include/efp/fmt/format.h:bigint", "include/efp/fmt/format.h:do_write_float"]}
{"id": "C131", "title": "fixed-point text with many decimals", "statement": "With more decimals than that the text still stands for the number rounded to the decimals asked for; the code however leaves out zeros at the end, so that {:.1000f} of 0.5 has 767 decimals instead of 1000. If the digits before the point and the decimals together are more than INT_MAX an error is reported, and only then.", "quantifier": "all finite floats and doubles, every precision", "why_tests_cant": "long precisions are rarely tried and the value of the text is right", "anchors": ["include/efp/fmt/format.h:write_float", "include/efp/fmt/format.h:format_float", "include/efp/fmt/format.h:do_write_float"]}
{"id": "C132", "title": "scientific text is correctly rounded", "statement": "With e or E a finite number is written with one digit before the point, exactly as many after it as the precision says (6 if none is given) and an exponent with a sign and at least two digits: the digits are those of the number rounded to precision+1 significant digits, ties to even. Zero has as many zeros and the exponent +00. The precision INT_MAX is reported as an error.", "quantifier": "all finite floats and doubles, every precision, every field", "why_tests_cant": "correct rounding is decided by digits far beyond those printed; 2^64 inputs times every precision", "anchors": ["include/efp/fmt/format.h:write_float", "include/efp/fmt/format.h:format_float", "include/efp/fmt/format.h:format_dragon", "include/efp/fmt/format.h:do_write_float"]}
{"id": "C133", "title": "general text is correctly rounded", "statement": "With g or G, or with a precision and no type, a finite number is rounded to as many significant digits as the precision says (6 if none is given, 1 for 0), ties to even; it is in fixed point if its decimal exponent is at least -4 and below that number, and else has an exponent. Without '#' no zeros are left at the end; with '#' all digits are there, except that above 767 digits numbers below 1 lack the zeros.", "quantifier": "all finite floats and doubles, every precision, every field", "why_tests_cant": "correct rounding is decided by digits far beyond those printed; the choice of layout depends on the rounded value", "anchors": ["include/efp/fmt/format.h:write_float", "include/efp/fmt/format.h:format_float", "include/efp/fmt/format.h:do_write_float"]}
{"id": "C134", "title": "shortest text in a field", "statement": "Without type and precision a finite number in a field has the digits of the shortest decimal that reads back, in fixed point from 10^-4 on and below 10^16 and else with an exponent; '#' keeps the point, and sign, fill, alignment and zero padding are those of the field.", "quantifier": "all finite floats and doubles, every field, width, sign and fill", "why_tests_cant": "2^64 inputs times every field", "anchors": ["include/efp/fmt/format.h:write_float", "include/efp/fmt/format.h:format_float", "include/efp/fmt/format-inl.h:dragonbox::to_decimal"]}
{"id": "C135", "title": "infinities and nans in a field", "statement": "Infinity is inf and what is no number nan after the sign, in capitals with the capital presentations. They are aligned as the field says, on the left without an alignment, and never filled with zeros.", "quantifier": "all infinities and nans of both types and signs, every field, presentation and precision", "why_tests_cant": "all nan payloads times every field", "anchors": ["include/efp/fmt/format.h:write_float", "include/efp/fmt/format.h:write_nonfinite"]}
{"id": "C136", "title": "hexadecimal text", "statement": "With a or A a finite number is 0x, a digit, a point and digits in base 16, p and a power of two. Without a precision the text is exactly the number, with as few digits as possible; with one it has exactly as many digits after the point and is the nearest such number, the larger of two. The zeros that fill a field come before 0x, so that {:08a} of 8.0 is 000x1p+3.", "quantifier": "all finite floats and doubles, subnormal ones and zero included, every precision and field", "why_tests_cant": "2^64 inputs times every precision; carries through all digits are rare", "anchors": ["include/efp/fmt/format.h:format_hexfloat", "include/efp/fmt/format.h:write_float"]}
{"id": "C137", "title": "17 digits read back", "statement": "Written with 17 significant digits or more (9 for a float), by e with a precision of 16 (8) or g with 17 (9), a finite non-zero number is read back as itself.", "quantifier": "all finite non-zero floats and doubles, every such precision, every field", "why_tests_cant": "2^64 inputs", "anchors": ["include/efp/fmt/format.h:write_float", "include/efp/fmt/format.h:format_float", "include/efp/fmt/format.h:format_dragon"]}
{"id": "C138", "title": "floats and doubles in format strings", "statement": "An argument that is a float or double, a sequence of them or a join of them is written where its field says so, as the field says: shortest without options, and with a letter, a precision, a width, a sign, a fill and an alignment as C130 to C136 say. All else of the format string is unaffected.", "quantifier": "all format strings of the grammar, all arguments of the modelled types with any number of floats and doubles among them, every locale", "why_tests_cant": "the parsed options, the width and precision taken from other arguments and the number combine without bound", "anchors": ["include/efp/fmt/format.h:vformat_to", "include/efp/fmt/format.h:formatter::format", "include/efp/fmt/core.h:parse_format_specs", "include/efp/fmt/core.h:check_float_type_spec", "include/efp/fmt/format.h:write_float"]}
{"id": "C139", "title": "an empty list of options changes nothing", "statement": "{:} writes what {} writes, or reports an error where {} does, for every argument.", "quantifier": "all argument lists of the modelled types, every locale", "why_tests_cant": "two separate code paths (default formatting, and formatting with default options) must agree on every value, 2^64 doubles among them", "anchors": ["include/efp/fmt/format.h:default_arg_formatter", "include/efp/fmt/format.h:arg_formatter", "include/efp/fmt/format.h:vformat_to", "include/efp/fmt/format.h:write"]}
{"id": "C140", "title": "floats and sequences of floats are told apart by their text", "statement": "Two floats, or two doubles, that {} writes alike are the same number with the same sign, and two sequences of floats, or of doubles, that {} writes alike have the same elements, NaNs aside.", "quantifier": "all pairs of floats or doubles other than NaNs, all pairs of sequences of them, of every length", "why_tests_cant": "pairs of inputs out of 2^64, sequences of every length", "anchors": ["include/efp/format.hpp:formatter", "include/efp/fmt/format.h:write", "include/efp/fmt/format-inl.h:dragonbox::to_decimal"]}
{"id": "C141", "title": "precisions that are refused", "statement": "A precision that a field gives for a float or double is refused exactly if it is INT_MAX with e or E, or if with f or F the digits before the point and the decimals together are more than INT_MAX; infinities, NaNs and the other letters are never refused.", "quantifier": "all floats and doubles, all fields that such a number admits", "why_tests_cant": "the boundary depends on the number of digits before the point of every number, up to 309", "anchors": ["include/efp/fmt/format.h:write_float", "include/efp/fmt/format.h:adjust_precision", "include/efp/fmt/format.h:format_float"]}
{"id": "C142", "title": "the format strings that are accepted", "statement": "format returns a text if and only if the string is one of the grammar of format strings and the arguments are what its fields ask for; the text is then that of its items, one after the other. Every other string is reported as an error: no string of bytes leads to undefined behaviour or is accepted by accident.", "quantifier": "all strings of bytes, of any length, all argument lists of the modelled types, every locale", "why_tests_cant": "strings and argument lists are unbounded, and rejection must hold for every string that is not in the grammar", "anchors": ["include/efp/fmt/core.h:parse_format_string", "include/efp/fmt/core.h:parse_replacement_field", "include/efp/fmt/core.h:parse_format_specs", "include/efp/fmt/format.h:vformat_to"]}
{"id": "C143", "title": "the strings that pass the check when they are compiled", "statement": "The check of a format string against the types of the arguments ends for every string, and passes it if and only if it is one of the grammar, with one way of numbering, where every field finds an argument of a type that admits its options and every width or precision by index is that of an integer, a bool or a char.", "quantifier": "all strings of bytes, all lists of argument types of the modelled kinds with any names", "why_tests_cant": "unbounded strings against unbounded type lists", "anchors": ["include/efp/fmt/core.h:format_string_checker", "include/efp/fmt/core.h:check_format_string", "include/efp/fmt/core.h:dynamic_spec_id_handler", "include/efp/fmt/core.h:get_arg_index_by_name"]}
{"id": "C144", "title": "a string that passed the check does not fail when it runs", "statement": "A format string that passed the check is formatted without an error for all arguments of the types it was checked for.", "quantifier": "all strings, all lists of types, all arguments of these types", "why_tests_cant": "for all values of the arguments", "anchors": ["include/efp/fmt/core.h:format_string_checker", "include/efp/fmt/core.h:check_dynamic_spec", "include/efp/fmt/format.h:width_checker", "include/efp/fmt/format.h:precision_checker"]}
{"id": "C145", "title": "a string that the check refuses would fail when it runs", "statement": "A format string that the check refuses would be reported as an error at run time for all arguments of the types, unless one of them is a join of an empty range.", "quantifier": "all strings of bytes, all lists of types, all arguments of these types without a join of an empty range", "why_tests_cant": "for all values of the arguments and all strings", "anchors": ["include/efp/fmt/core.h:format_string_checker", "include/efp/fmt/core.h:basic_format_string", "include/efp/fmt/format.h:vformat_to"]}
{"id": "C146", "title": "format returns the text that was written, however the buffer grows", "statement": "The string that format returns consists of the chars that formatting wrote, in order, for every size of the array inside of the buffer and every mix of single chars, ranges and direct writes; the storage of the buffer is released, also when formatting throws half way, and no other storage is touched.", "quantifier": "every sequence of writes of every length, every size of the inline array, every state of the storage", "why_tests_cant": "growth happens at capacities that depend on all earlier writes; tests reach a few of them", "anchors": ["include/efp/fmt/format.h:basic_memory_buffer::grow, buffer::append, to_pointer, reserve", "include/efp/fmt/core.h:buffer::push_back, try_reserve, try_resize", "include/efp/fmt/format-inl.h:vformat"]}
{"id": "C147", "title": "memory buffers keep their text through any history", "statement": "Along any history of creating, writing to, clearing, shrinking, moving and destroying memory buffers, every buffer holds exactly the text that the history says, its size never exceeds its capacity, no released storage is used, and when all buffers are gone all storage is released, once.", "quantifier": "every history of any number of buffers, every size of the inline array", "why_tests_cant": "buffers share and pass on storage; which storage is live depends on the whole history", "anchors": ["include/efp/fmt/format.h:basic_memory_buffer, move, operator=, deallocate, resize", "include/efp/fmt/core.h:buffer::clear, set"]}
{"id": "C148", "title": "a memory buffer that was moved from is empty", "statement": "After a memory buffer was moved from, the other one has its text and it is empty itself.", "quantifier": "every history before the move, every size of the inline array", "why_tests_cant": "whether the text was in the inline array depends on all earlier writes and moves", "anchors": ["include/efp/fmt/format.h:basic_memory_buffer::move, basic_memory_buffer(basic_memory_buffer&&)"]}
{"id": "C149", "title": "format_to_n writes at most n chars and returns the whole size", "statement": "format_to_n(out, n, ...) into an array writes the first n chars of the text and nothing else, returns an iterator past them, and as size the length of the whole text.", "quantifier": "every n, every text however it is written, every array with room for n chars", "why_tests_cant": "the buffer switches to a scratch array when it is full, at a point that depends on the sizes of the writes", "anchors": ["include/efp/fmt/core.h:iterator_buffer<T*, T, fixed_buffer_traits>, fixed_buffer_traits::limit, vformat_to_n"]}
{"id": "C150", "title": "format_to, formatted_size and output iterators agree with format", "statement": "format_to writes the text of format to an array with room for it and changes nothing else; an output iterator is given that text, or its first n chars; formatted_size returns its length, and an array of that size is filled exactly.", "quantifier": "every text however it is written, every array, every n", "why_tests_cant": "the outputs go through buffers of 256 chars that are flushed when full; lengths around multiples of 256 and every mix of writes matter", "anchors": ["include/efp/fmt/core.h:iterator_buffer, counting_buffer, buffer_traits, vformat_to, formatted_size", "include/efp/fmt/format.h:buffer::append"]}
{"id": "C151", "title": "the chars of a memory buffer can be appended to itself", "statement": "push_back(buf[k]) and append(buf.begin() + k, buf.begin() + k + n) append the char or range that was there, for every state of the buffer.", "quantifier": "every sequence of writes before, every char or range of the buffer, every size of the inline array", "why_tests_cant": "it fails only when the buffer grows at that very call and had already grown before", "anchors": ["include/efp/fmt/core.h:buffer::push_back, try_reserve", "include/efp/fmt/format.h:buffer::append, basic_memory_buffer::grow"]}
{"id": "C152", "title": "print and println print what format returns", "statement": "print writes the string that format returns for the same arguments to the stream, println the same and a newline; if format throws, they throw and print nothing.", "quantifier": "every format string, arguments and locale, everything printed before", "why_tests_cant": "all format strings and arguments", "anchors": ["include/efp/fmt/format-inl.h:vprint, print, fwrite_fully", "include/efp/fmt/core.h:print, println", "include/efp/format.hpp:print, println"]}
{"id": "C153", "title": "a printing call that returns printed everything", "statement": "On a stream that takes only so much, print and println return only if all chars were taken, and otherwise throw after the stream took what it could; along a history of calls the stream has the texts of the calls that succeed, in order.", "quantifier": "every stream capacity, every history of calls", "why_tests_cant": "failure points of the stream fall anywhere in the text", "anchors": ["include/efp/fmt/format-inl.h:fwrite_fully, vprint", "include/efp/fmt/core.h:print, println"]}
{"id": "C154", "title": "The error of a sum of floating-point numbers", "statement": "If sum of a sequence of floats or doubles gives a finite number, every element is finite and the result differs from the exact sum by at most ((1+u)^(n-1) - 1) times the sum of the absolute values, u being 2^-prec. If the elements are finite and their absolute values add up to little enough, the sum is finite. A NaN element gives a NaN, finite elements never do, and infinities of one sign among finite numbers give that infinity.", "quantifier": "every binary IEEE 754 format, every sequence of any length", "why_tests_cant": "rounding errors depend on every bit of every element and on the length", "anchors": ["include/efp/numeric.hpp:sum"]}
{"id": "C155", "title": "Sums of small whole numbers are exact", "statement": "Floats or doubles that are whole numbers and whose absolute values add up to at most 2^prec are summed without error, in whatever order, and their mean is the number nearest to the exact mean. For other elements the order does not matter either.", "quantifier": "every format, every sequence of whole numbers, every permutation", "why_tests_cant": "all sequences and all their permutations", "anchors": ["include/efp/numeric.hpp:sum", "include/efp/scientific.hpp:mean"]}
{"id": "C156", "title": "The mean of floating-point numbers", "statement": "mean differs from the exact mean by at most its n + 1 roundings; raising elements never lowers sum or mean; the mean of finite numbers is a NaN for the empty sequence only; it lies between the least and the greatest element.", "quantifier": "every format, every sequence of any length below 2^64", "why_tests_cant": "the worst case of the error and of the order is over all bit patterns", "anchors": ["include/efp/scientific.hpp:mean", "include/efp/numeric.hpp:sum"]}
{"id": "C157", "title": "Variances and root mean squares are not negative in floating-point arithmetic", "statement": "rms, sse, mse, rmse, variance and standard_deviation of finite floats or doubles are zero or more or infinite, never negative or NaN, for one number or more; with Bessel's correction too.", "quantifier": "every format, all sequences of finite numbers, whatever is rounded, overflows or underflows", "why_tests_cant": "a NaN or a negative value could come from any combination of roundings", "anchors": ["include/efp/scientific.hpp:rms, sse, mse, rmse, variance, standard_deviation"]}
{"id": "C158", "title": "Symmetry of errors, covariance and correlation in floating-point arithmetic", "statement": "Exchanging two sequences of equal length changes no bit of sse, mse, rmse, covariance and correlation; the covariance of a sequence with itself is its variance; the errors of a sequence of finite numbers against itself are 0, and only those; a correlation lies between -1 and 1.", "quantifier": "every format, all pairs of sequences, NaNs and infinities included for the symmetry", "why_tests_cant": "all pairs of bit patterns", "anchors": ["include/efp/scientific.hpp:sse, mse, rmse, covariance, correlation, variance"]}
{"id": "C159", "title": "Extreme elements of sequences with infinities and NaNs", "statement": "max_elem is an element that no element exceeds and min_elem one that exceeds none, in the order of IEEE 754, for any nonempty sequence without NaNs; NaNs do not hide other elements.", "quantifier": "every format, every sequence", "why_tests_cant": "where NaNs and infinities stand in a sequence is not bounded", "anchors": ["include/efp/numeric.hpp:max_elem, min_elem"]}
{"id": "C160", "title": "is_approx of two floating-point numbers", "statement": "Numbers of one type at most epsilon apart are approximately equal, numbers more than epsilon and half its last place apart are not; from absolute value 2 on only equal numbers are; the relation is symmetric, and reflexive for all but NaNs.", "quantifier": "every format, every pair of numbers", "why_tests_cant": "all pairs of bit patterns", "anchors": ["include/efp/numeric.hpp:is_approx, abs"]}
{"id": "C161", "title": "The errors of sse and mse in floating-point arithmetic", "statement": "If sse or mse of two sequences of equal length is finite, it differs from the exact value by at most ((1+u)^(n+2) - 1) or ((1+u)^(n+3) - 1) times it, and by what the squares and the quotient lose near zero.", "quantifier": "every format, all pairs of sequences of any equal length", "why_tests_cant": "rounding errors depend on every bit of every element and on the length", "anchors": ["include/efp/scientific.hpp:sse, mse"]}
{"id": "C162", "title": "variance and covariance are as accurate as their roundings and the means allow", "statement": "If variance or covariance of a nonempty sequence gives a finite number, then every element and the means are finite and the result differs from the exact variance or covariance (with n, or n - 1 with Bessel's correction, as divisor) by at most the relative error of n + 4 roundings of the sum of the absolute products, plus the product of the errors of the means, plus the error of roundings near zero.", "quantifier": "all sequences of floating-point numbers of every IEEE format, every length, with and without Bessel's correction", "why_tests_cant": "the error depends on every rounding of every element", "anchors": ["include/efp/scientific.hpp:variance", "include/efp/scientific.hpp:covariance"]}
{"id": "C163", "title": "roots and quotients in the statistics are rounded once", "statement": "rms and rmse are the numbers nearest to the root of a number within the roundings of the exact mean of squares; standard_deviation is the number nearest to the root of variance; nrmse_mean, nrmse_max_min and correlation are the numbers nearest to the quotients that define them.", "quantifier": "all sequences of floating-point numbers of every IEEE format for which the results are finite", "why_tests_cant": "ranges over all inputs and lengths", "anchors": ["include/efp/scientific.hpp:rms", "include/efp/scientific.hpp:rmse", "include/efp/scientific.hpp:standard_deviation", "include/efp/scientific.hpp:nrmse_mean", "include/efp/scientific.hpp:nrmse_max_min", "include/efp/scientific.hpp:correlation"]}
{"id": "C164", "title": "remove_dc and linear_regression within rounding errors", "statement": "remove_dc gives the numbers nearest to the differences from the mean and they add up to almost zero; linear_regression gives a slope nearest to a quotient of sums that are within rounding errors of the exact ones, and the intercept that goes with it; the regression of finite data is defined.", "quantifier": "all sequences of floating-point numbers of every IEEE format", "why_tests_cant": "ranges over all inputs and lengths", "anchors": ["include/efp/scientific.hpp:remove_dc", "include/efp/scientific.hpp:linear_regression"]}
{"id": "C165", "title": "a formatted pointer is its address", "statement": "A pointer argument is written as 0x and its address in hexadecimal without leading zeros, right aligned unless an alignment is given and filled to the width of its field; different addresses have different texts.", "quantifier": "all addresses, all fields without options that are for numbers only, all locales", "why_tests_cant": "ranges over all 64-bit addresses and all fields", "anchors": ["include/efp/fmt/format.h:write_ptr", "include/efp/fmt/format.h:write", "include/efp/fmt/core.h:parse_format_specs"]}
{"id": "C166", "title": "a C string is formatted as the string of its chars", "statement": "Formatting C strings, alone or in sequences and joins, gives the same text or error as formatting the strings of their chars before the first 0, with any format string that does not ask for the address; a null C string is refused at run time though the check of the format string accepts it, and an array without a 0 is read past its end.", "quantifier": "all format strings that do not ask for an address, all argument lists, all locales", "why_tests_cant": "ranges over all format strings and arguments", "anchors": ["include/efp/fmt/format.h:write", "include/efp/fmt/core.h:basic_string_view"]}
{"id": "C167", "title": "format_int writes the integer in base 10", "statement": "The text of a format_int is the integer in base 10 with a minus sign if it is negative, the same as format gives; size is its length, data points to it, and c_str to it and a terminating 0; nothing is written outside its buffer. A copy does not have the text: it points into the original.", "quantifier": "all integers of all types up to 64 bits", "why_tests_cant": "ranges over all 64-bit values", "anchors": ["include/efp/fmt/format.h:format_int", "include/efp/fmt/format.h:format_decimal"]}
{"id": "C168", "title": "an error message has at most 500 chars and always the code", "statement": "format_error_code leaves in the buffer, whatever it held, the message, ': error ' and the code in base 10 if that has at most 500 chars, and only 'error ' and the code otherwise; it never throws.", "quantifier": "all messages, all values of int including the least, all previous contents, all locales", "why_tests_cant": "all messages around and beyond the limit with all codes", "anchors": ["include/efp/fmt/format-inl.h:format_error_code", "include/efp/fmt/format.h:inline_buffer_size"]}
{"id": "C169", "title": "a reported error is one line", "statement": "report_system_error writes the text for the error and the end of the line to the stream, as much of it as the stream takes and the end only after the whole text, and lets no exception out; if the library fails to give a text, the message of C168 is written and nothing of the failed one; reports that follow each other are a line each. format_system_error appends to the buffer.", "quantifier": "all codes and messages, everything the library can answer, all streams with and without room, all sequences of reports", "why_tests_cant": "ranges over all answers and failures of the library and all sequences of reports", "anchors": ["include/efp/fmt/format-inl.h:report_error", "include/efp/fmt/format-inl.h:format_system_error", "include/efp/fmt/format-inl.h:report_system_error"]}
{"id": "C170", "title": "a text that fits into a memory buffer is written without allocation", "statement": "As long as every write to a memory buffer finds room in the array of the buffer object, the text stays there and no storage is allocated, and otherwise it leaves the object for good; so writing an error message (C168) does not allocate.", "quantifier": "all sizes of the array, all sequences of writes", "why_tests_cant": "all sequences of writes that fit", "anchors": ["include/efp/fmt/format.h:basic_memory_buffer", "include/efp/fmt/core.h:buffer", "include/efp/fmt/format-inl.h:format_error_code"]}
{"id": "C171", "title": "UTF-8 becomes UTF-16 exactly, or is refused", "statement": "Converting the UTF-8 encoding of any sequence of code points with utf8_to_utf16 gives exactly their UTF-16 encoding (RFC 2781) followed by a terminating 0 that size and str leave out; a byte string throws exactly if it is not the UTF-8 encoding of any code points; different texts give different results.", "quantifier": "All byte strings and all sequences of Unicode scalar values.", "why_tests_cant": "The byte strings are unbounded and the decoder works on blocks of four bytes with a padded tail, so every position of every length of sequence matters.", "anchors": ["include/efp/fmt/format-inl.h: utf8_to_utf16::utf8_to_utf16", "include/efp/fmt/format.h: utf8_to_utf16, for_each_codepoint"]}
{"id": "C172", "title": "Wide text becomes UTF-8", "statement": "to_utf8 turns UTF-32 or UTF-16 text into the UTF-8 of the same code points followed by a terminating 0; text that encodes no code points throws, or with the policy replace has each stray UTF-16 surrogate turned into U+FFFD.", "quantifier": "All sequences of 16-bit or 32-bit units and both policies.", "why_tests_cant": "Examples with a few characters cannot show which of all unit sequences are accepted, and common test texts have no code points above U+FFFF.", "anchors": ["include/efp/fmt/format.h: to_utf8::convert, to_utf8::to_utf8"]}
{"id": "C173", "title": "Text survives the way to wide chars and back", "statement": "A UTF-8 text converted with utf8_to_utf16 and back with to_utf8 is the same text.", "quantifier": "All sequences of Unicode scalar values, both policies, wide chars of two and of four bytes.", "why_tests_cant": "The claim is about every text; it holds for every text below U+10000 and fails for every other one.", "anchors": ["include/efp/fmt/format.h: to_utf8, utf8_to_utf16", "include/efp/fmt/format-inl.h: utf8_to_utf16::utf8_to_utf16"]}
{"id": "C174", "title": "A converter can be used for several texts", "statement": "Calling convert on a to_utf8 object makes it hold the UTF-8 of the text it was given, also when it was used before; when convert returns false, the object holds what was converted so far.", "quantifier": "All sequences of code points, both policies, wide chars of two and of four bytes.", "why_tests_cant": "Tests convert one text with one object; what a second call leaves depends on every text before.", "anchors": ["include/efp/fmt/format.h: to_utf8::convert, to_utf8::size, to_utf8::str"]}
