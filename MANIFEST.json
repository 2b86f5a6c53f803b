{
 "claims": [
  {
   "property": "C01",
   "status": "proved",
   "theorems": [
    "C01_insertion_sort_stable",
    "C01_stable_sort_unique"
   ],
   "note": ""
  },
  {
   "property": "C02",
   "status": "proved",
   "theorems": [
    "C02_merge_sort_range"
   ],
   "note": ""
  },
  {
   "property": "C03",
   "status": "proved",
   "theorems": [
    "C03_heapsort_sorts"
   ],
   "note": ""
  },
  {
   "property": "C04",
   "status": "proved",
   "theorems": [
    "C04_quicksort_range",
    "C04_quicksort_sorts"
   ],
   "note": ""
  },
  {
   "property": "C05",
   "status": "proved",
   "theorems": [
    "C05_sort_unstable_sorts"
   ],
   "note": ""
  },
  {
   "property": "C06",
   "status": "partial",
   "theorems": [
    "C06_sort_sorts_refuted",
    "C06_sort_sorts_partial"
   ],
   "note": "False of the code: for every length > 32 there is an unsorted result (the early exit of timsort_merge is inverted). Proved: stable sort for length <= 32."
  },
  {
   "property": "C07",
   "status": "proved",
   "theorems": [
    "C07_sort_exact_effect",
    "C07_sort_keeps_sorted"
   ],
   "note": ""
  },
  {
   "property": "C08",
   "status": "proved",
   "theorems": [
    "C08_insertion_sort_safe",
    "C08_merge_sort_safe",
    "C08_heapsort_safe",
    "C08_quicksort_safe",
    "C08_sort_unstable_safe",
    "C08_sort_safe"
   ],
   "note": ""
  },
  {
   "property": "C09",
   "status": "partial",
   "theorems": [
    "C09_merge_sort_stable_refuted"
   ],
   "note": "False of the code: merge takes the right element on ties. merge_sort_by itself sorts (C02)."
  },
  {
   "property": "C10",
   "status": "proved",
   "theorems": [
    "C10_vcb_window",
    "C10_vcb_window_all"
   ],
   "note": ""
  },
  {
   "property": "C11",
   "status": "proved",
   "theorems": [
    "C11_vcq_bounded_fifo"
   ],
   "note": ""
  },
  {
   "property": "C12",
   "status": "partial",
   "theorems": [
    "C12_vcq_copy_refuted",
    "C12_vcq_copy_dead_refuted"
   ],
   "note": "False of the code: copies read other._buffer[i] instead of the slot of element i, so a copy is right only if the head is at offset 0 (C13)."
  },
  {
   "property": "C13",
   "status": "proved",
   "theorems": [
    "C13_vcq_copy_head_zero",
    "C13_vcq_copy_assign_head_zero"
   ],
   "note": "Stated for every source whose number of removed elements (pops and evictions) is a multiple of n, which includes the property's case of none removed."
  },
  {
   "property": "C14",
   "status": "proved",
   "theorems": [
    "C14_vcb_copy",
    "C14_vcb_move",
    "C14_vcb_copy_assign",
    "C14_vcb_move_assign"
   ],
   "note": ""
  },
  {
   "property": "C15",
   "status": "partial",
   "theorems": [
    "C15_vcb_iter",
    "C15_vcq_iter_partial",
    "C15_vcq_iter_empty_refuted"
   ],
   "note": "Vcb in full; Vcq for non-empty queues. False for an empty Vcq: end() is begin()+n."
  },
  {
   "property": "C16",
   "status": "partial",
   "theorems": [
    "C16_vcb_write_refuted",
    "C16_vcq_write_refuted",
    "C16_vcb_write_partial",
    "C16_vcq_write_partial"
   ],
   "note": "False of the code: operator[] refers to only one of the two copies. Proved where the element is not beyond the wrap-around point."
  },
  {
   "property": "C17",
   "status": "proved",
   "theorems": [
    "C17_vcb_lifecycle",
    "C17_vcq_lifecycle"
   ],
   "note": ""
  },
  {
   "property": "C18",
   "status": "proved",
   "theorems": [
    "C18_vector_is_list",
    "C18_vector_throws"
   ],
   "note": ""
  },
  {
   "property": "C19",
   "status": "proved",
   "theorems": [
    "C19_vector_spare_slot"
   ],
   "note": ""
  },
  {
   "property": "C20",
   "status": "partial",
   "theorems": [
    "C20_vector_copy_partial",
    "C20_vector_copy_empty_refuted",
    "C20_vector_copy_empty_all_refuted"
   ],
   "note": "False of the code for vectors without storage: the copy's data pointer is never initialised. Proved for every vector that owns storage."
  },
  {
   "property": "C21",
   "status": "partial",
   "theorems": [
    "C21_vector_copy_assign_partial",
    "C21_vector_copy_assign_shorter_refuted",
    "C21_vector_copy_assign_keeps_tail_refuted",
    "C21_vector_copy_assign_class_refuted"
   ],
   "note": "False of the code: with enough capacity the size is not updated; for class types growing moves from destroyed elements. Proved for equal sizes, and for growing with trivial elements or an empty target."
  },
  {
   "property": "C22",
   "status": "proved",
   "theorems": [
    "C22_vector_move_construct",
    "C22_vector_move_assign"
   ],
   "note": ""
  },
  {
   "property": "C23",
   "status": "partial",
   "theorems": [
    "C23_vector_push_own_partial",
    "C23_vector_push_own_refuted"
   ],
   "note": "False of the code whenever the push reallocates (proved for all such cases). Proved when two slots are free."
  },
  {
   "property": "C24",
   "status": "partial",
   "theorems": [
    "C24_vector_class_insert_refuted",
    "C24_vector_class_erase_refuted",
    "C24_vector_programs_trivial_partial"
   ],
   "note": "False of the code: insert and erase before the end are undefined for every class type (proved for all such calls). Proved for trivial element types; C25 is the positive part for class types."
  },
  {
   "property": "C25",
   "status": "proved",
   "theorems": [
    "C25_vector_programs"
   ],
   "note": ""
  },
  {
   "property": "C26",
   "status": "proved",
   "theorems": [
    "C26_arrvec_is_bounded_list",
    "C26_arrvec_throws",
    "C26_arrvec_lifetimes",
    "C26_arrvec_init_throws"
   ],
   "note": ""
  },
  {
   "property": "C27",
   "status": "proved",
   "theorems": [
    "C27_arrvec_copy",
    "C27_arrvec_copy_assign",
    "C27_arrvec_move",
    "C27_arrvec_move_assign",
    "C27_array_copy_move"
   ],
   "note": ""
  },
  {
   "property": "C28",
   "status": "partial",
   "theorems": [
    "C28_arrvec_convert_partial",
    "C28_arrvec_convert_refuted"
   ],
   "note": "False of the code for every source that is not full (proved for all such). Proved for full sources."
  },
  {
   "property": "C29",
   "status": "proved",
   "theorems": [
    "C29_array_eq",
    "C29_arrvec_eq",
    "C29_vector_eq"
   ],
   "note": ""
  },
  {
   "property": "C30",
   "status": "proved",
   "theorems": [
    "C30_view_of_vector",
    "C30_view_of_arrvec",
    "C30_view_of_array",
    "C30_view_null_throws"
   ],
   "note": ""
  },
  {
   "property": "C31",
   "status": "proved",
   "theorems": [
    "C31_string_is_char_list",
    "C31_string_reads",
    "C31_string_plus",
    "C31_string_lifetimes"
   ],
   "note": ""
  },
  {
   "property": "C32",
   "status": "partial",
   "theorems": [
    "C32_cstr_partial",
    "C32_cstr_spare_partial",
    "C32_cstr_empty_refuted",
    "C32_cstr_full_refuted"
   ],
   "note": "False of the code for a String without storage (writes through null) and for one whose size equals its capacity (writes past the end). Proved for all others."
  },
  {
   "property": "C33",
   "status": "partial",
   "theorems": [
    "C33_compare_partial",
    "C33_compare_at_partial",
    "C33_compare_prefix_refuted",
    "C33_compare_longer_refuted"
   ],
   "note": "False of the code: a proper prefix compares equal, a longer receiver reads past the argument. Proved for equal lengths or an earlier difference."
  },
  {
   "property": "C34",
   "status": "partial",
   "theorems": [
    "C34_plus_self_refuted",
    "C34_plus_self_partial"
   ],
   "note": "False of the code for every non-empty s (the argument is freed while being read; proved for all such). Holds for the empty string."
  },
  {
   "property": "C35",
   "status": "proved",
   "theorems": [
    "C35_equals_cstr"
   ],
   "note": ""
  },
  {
   "property": "C36",
   "status": "proved",
   "theorems": [
    "C36_map",
    "C36_map_with_index"
   ],
   "note": ""
  },
  {
   "property": "C37",
   "status": "proved",
   "theorems": [
    "C37_filter",
    "C37_filter_pure"
   ],
   "note": ""
  },
  {
   "property": "C38",
   "status": "proved",
   "theorems": [
    "C38_foldl",
    "C38_foldr",
    "C38_folds_pure"
   ],
   "note": ""
  },
  {
   "property": "C39",
   "status": "partial",
   "theorems": [
    "C39_append_order_refuted",
    "C39_append_order_partial"
   ],
   "note": "False of the code: the order is the evaluation order of function arguments, which is unspecified (proved wrong for all non-commuting pairs). Proved when at most one argument is non-empty; C40 is the general positive part."
  },
  {
   "property": "C40",
   "status": "proved",
   "theorems": [
    "C40_append_any_order",
    "C40_append_left_to_right"
   ],
   "note": ""
  },
  {
   "property": "C41",
   "status": "proved",
   "theorems": [
    "C41_concat",
    "C41_intercalate"
   ],
   "note": ""
  },
  {
   "property": "C42",
   "status": "proved",
   "theorems": [
    "C42_capacity_suffices",
    "C42_capacity_suffices_nested",
    "C42_capacity_suffices_filter",
    "C42_no_call_throws"
   ],
   "note": ""
  },
  {
   "property": "C43",
   "status": "proved",
   "theorems": [
    "C43_take_drop",
    "C43_take_drop_whole",
    "C43_take_drop_unsafe"
   ],
   "note": ""
  },
  {
   "property": "C44",
   "status": "partial",
   "theorems": [
    "C44_slice_past_end_refuted",
    "C44_slice_reversed_refuted",
    "C44_slice_static_partial"
   ],
   "note": "False of the code for run-time bounds (proved for all Arrays and all ends past the end, and for all ends before the start). Proved for compile-time bounds on Arrays; C45 is the case of valid bounds."
  },
  {
   "property": "C45",
   "status": "proved",
   "theorems": [
    "C45_slice_valid",
    "C45_slice_unsafe_valid"
   ],
   "note": ""
  },
  {
   "property": "C46",
   "status": "proved",
   "theorems": [
    "C46_take_while",
    "C46_drop_while",
    "C46_split_pure"
   ],
   "note": "take_while/drop_while compile only for sequences of const elements (views); modelled for those."
  },
  {
   "property": "C47",
   "status": "proved",
   "theorems": [
    "C47_find_index",
    "C47_find_pure",
    "C47_elem_pure",
    "C47_find_indices",
    "C47_find_indices_pure",
    "C47_elem_indices_pure"
   ],
   "note": ""
  },
  {
   "property": "C48",
   "status": "proved",
   "theorems": [
    "C48_nonempty",
    "C48_empty"
   ],
   "note": ""
  },
  {
   "property": "C49",
   "status": "proved",
   "theorems": [
    "C49_cartesian_for_each",
    "C49_cartesian_for_index",
    "C49_cartesian_map"
   ],
   "note": ""
  },
  {
   "property": "C50",
   "status": "proved",
   "theorems": [
    "C50_from_function"
   ],
   "note": ""
  },
  {
   "property": "C51",
   "status": "proved",
   "theorems": [
    "C51_for_each",
    "C51_for_each_with_index",
    "C51_for_each_with_index_mut",
    "C51_for_each_mut"
   ],
   "note": ""
  },
  {
   "property": "C52",
   "status": "proved",
   "theorems": [
    "C52_compose"
   ],
   "note": ""
  },
  {
   "property": "C53",
   "status": "proved",
   "theorems": [
    "C53_dispatch"
   ],
   "note": ""
  },
  {
   "property": "C54",
   "status": "partial",
   "theorems": [
    "C54_256_alternatives_refuted",
    "C54_128_alternatives_partial"
   ],
   "note": "False of the code: for 129 to 255 alternatives the compile-time recursion never ends (proved for all fuel), 256 wraps to 0. Proved for 1 to 128."
  },
  {
   "property": "C55",
   "status": "proved",
   "theorems": [
    "C55_enum_reads",
    "C55_enum_match"
   ],
   "note": ""
  },
  {
   "property": "C56",
   "status": "proved",
   "theorems": [
    "C56_enum_lifetimes",
    "C56_enum_all_destroyed"
   ],
   "note": ""
  },
  {
   "property": "C57",
   "status": "proved",
   "theorems": [
    "C57_enum_equality"
   ],
   "note": ""
  },
  {
   "property": "C58",
   "status": "proved",
   "theorems": [
    "C58_exact_branch",
    "C58_wild_card",
    "C58_only_branch",
    "C58_duplicate_rejected",
    "C58_pattern_check"
   ],
   "note": "conv ranks standard conversions; user-defined conversions are not modelled (see the comment in Model/Enum.v)."
  },
  {
   "property": "C59",
   "status": "partial",
   "theorems": [
    "C59_functor_partial",
    "C59_applicative_partial",
    "C59_monad_partial",
    "C59_value_partial",
    "C59_maybe_of_nothing_refuted"
   ],
   "note": "False of the code for the element type Nothing (AltIndex of Nothing is 0, so no Maybe<Nothing> has a value; proved for all values). Proved for all other element types. Applicative composition needs an inner function that returns."
  },
  {
   "property": "C60",
   "status": "proved",
   "theorems": [
    "C60_tuple"
   ],
   "note": "Components are of types whose != is the negation of ==."
  },
  {
   "property": "C61",
   "status": "partial",
   "theorems": [
    "C61_extremes_partial",
    "C61_max_elem_refuted"
   ],
   "note": "False of the code for max_elem of floating-point data all below the least positive normalised number (every such case). Proved otherwise. Real numbers instead of IEEE arithmetic."
  },
  {
   "property": "C62",
   "status": "proved",
   "theorems": [
    "C62_extremes",
    "C62_sum_product",
    "C62_unsigned",
    "C62_max_min"
   ],
   "note": ""
  },
  {
   "property": "C63",
   "status": "proved",
   "theorems": [
    "C63_clamp",
    "C63_max_min",
    "C63_abs",
    "C63_abs_least"
   ],
   "note": ""
  },
  {
   "property": "C64",
   "status": "proved",
   "theorems": [
    "C64_mean_errors",
    "C64_mean_best",
    "C64_variance",
    "C64_variance_laws",
    "C64_covariance",
    "C64_correlation"
   ],
   "note": "Exact real arithmetic; a division by zero or a root of a negative number is a distinct outcome."
  },
  {
   "property": "C65",
   "status": "proved",
   "theorems": [
    "C65_regression"
   ],
   "note": "Exact real arithmetic."
  },
  {
   "property": "C66",
   "status": "partial",
   "theorems": [
    "C66_with_index_partial",
    "C66_with_index_refuted",
    "C66_remove_dc",
    "C66_detrend_partial",
    "C66_detrend_refuted"
   ],
   "note": "False of the code from 1291 data on (int overflow) and for 8-bit elements from 129 data on (index converted to the element type); proved otherwise, in exact arithmetic."
  },
  {
   "property": "C67",
   "status": "proved",
   "theorems": [
    "C67_blocking_fifo"
   ],
   "note": "Linearizability to a sequential FIFO queue, for any number of threads, operations and schedules including spurious wake-ups; memory is sequentially consistent in the model and data races are shown absent."
  },
  {
   "property": "C68",
   "status": "proved",
   "theorems": [
    "C68_no_missed_wakeup",
    "C68_progress"
   ],
   "note": "A state in which no call can take a step has no waiting thread or an empty queue; calls in progress take boundedly many steps."
  },
  {
   "property": "C69",
   "status": "proved",
   "theorems": [
    "C69_bounded_blocking"
   ],
   "note": "Linearizability to a bounded queue, with the exact list of values that leave and why."
  },
  {
   "property": "C70",
   "status": "proved",
   "theorems": [
    "C70_nonblocking_linearizable",
    "C70_nonblocking_fifo",
    "C70_nonblocking_progress"
   ],
   "note": "For interleaved accesses; the races of is_empty are C71."
  },
  {
   "property": "C71",
   "status": "partial",
   "theorems": [
    "C71_is_empty_refuted",
    "C71_without_is_empty_partial"
   ],
   "note": "False of the code: is_empty reads without the mutex. Without is_empty there is no race."
  },
  {
   "property": "C72",
   "status": "partial",
   "theorems": [
    "C72_order_across_swaps_refuted"
   ],
   "note": "False of the code for every three values and capacity of at least 2."
  },
  {
   "property": "C73",
   "status": "proved",
   "theorems": [
    "C73_drained_swaps"
   ],
   "note": "Single consumer, any number of producers."
  },
  {
   "property": "C74",
   "status": "proved",
   "theorems": [
    "C74_read_lines",
    "C74_lines_unique",
    "C74_read_line"
   ],
   "note": "read_line and read_lines are modelled with their loops over a model of C streams (unbuffered, text mode = binary mode, as on POSIX); C74_read_lines covers every content, including byte 255 and missing final newlines; C74_lines_unique shows the specification determines the result."
  },
  {
   "property": "C75",
   "status": "partial",
   "theorems": [
    "C75_read_back_partial"
   ],
   "note": "Only for a File whose mode array is initialised, which no File obtained from open has (see C76): then lines ended by newlines, or with newlines between them and a non-empty last line, are read back, by both overloads of write. Missing: the code as it is, where write is undefined."
  },
  {
   "property": "C76",
   "status": "partial",
   "theorems": [
    "C76_mode_lost_refuted",
    "C76_mode_lost_in_all_histories_refuted"
   ],
   "note": "Refuted: File(File&&) does not copy _mode and open always moves its result, so every write to an opened File reads an uninitialised array, in all histories."
  },
  {
   "property": "C77",
   "status": "partial",
   "theorems": [
    "C77_assign_leaks_refuted",
    "C77_failed_close_refuted",
    "C77_closed_once_partial"
   ],
   "note": "Refuted twice: move assignment to an open File leaks its stream, and if fclose fails in close() the destructor closes the stream again. The partial theorem covers all histories without these: no undefined behaviour, each open stream owned by exactly one object, none open when no object is left. write is not among the operations (C76)."
  },
  {
   "property": "C78",
   "status": "partial",
   "theorems": [
    "C78_second_callable_refuted",
    "C78_last_callable_partial"
   ],
   "note": "Refuted: all callables of one type share LambdaPointer<F>::inner_ptr, so a second func_ptr redirects the first pointer, for every two objects. The partial theorem covers every history in which the object is alive and func_ptr is applied to no other object of its type."
  },
  {
   "property": "C79",
   "status": "proved",
   "theorems": [
    "C79_decimal",
    "C79_reads_back",
    "C79_one_text"
   ],
   "note": "for every integer type up to 64 bits; room of the output is arbitrary"
  },
  {
   "property": "C80",
   "status": "proved",
   "theorems": [
    "C80_sequence",
    "C80_sequence_of_ints_tells_apart"
   ],
   "note": "Array, ArrVec, Vector, Vcb and Vcq share the formatter; elements are integers, floats, doubles, bools, chars or strings (nested sequences do not compile), or C strings that are not null (C166). C119 has sequences inside other format strings."
  },
  {
   "property": "C81",
   "status": "proved",
   "theorems": [
    "C81_literal",
    "C81_every_text",
    "C81_lone_brace",
    "C81_open_brace"
   ],
   "note": ""
  },
  {
   "property": "C82",
   "status": "partial",
   "theorems": [
    "C82_vcq_push_own_refuted",
    "C82_vcq_push_own_partial"
   ],
   "note": "False of the code for the oldest element of a full queue of class-type elements (destroyed before it is read). Proved for all other cases."
  },
  {
   "property": "C83",
   "status": "partial",
   "theorems": [
    "C83_arrvec_insert_own_partial",
    "C83_arrvec_insert_own_refuted",
    "C83_vector_insert_own_refuted"
   ],
   "note": "False of the code: the argument is read after the shift or reallocation. Proved for ArrVec when j < i."
  },
  {
   "property": "C84",
   "status": "partial",
   "theorems": [
    "C84_arrvec_move_lifetimes_partial",
    "C84_arrvec_move_leaks_refuted",
    "C84_arrvec_move_assign_leaks_refuted"
   ],
   "note": "False of the code for every class type: exactly size() objects leak (proved). Proved for trivial types."
  },
  {
   "property": "C85",
   "status": "partial",
   "theorems": [
    "C85_default_view_partial",
    "C85_default_arrayview_refuted"
   ],
   "note": "False of the code for ArrayView<A,n>, n > 0. Proved for the others."
  },
  {
   "property": "C86",
   "status": "partial",
   "theorems": [
    "C86_view_eq_partial",
    "C86_vectorview_eq_refuted"
   ],
   "note": "False of the code for a VectorView converted from another view. Proved for views built from a pointer."
  },
  {
   "property": "C87",
   "status": "partial",
   "theorems": [
    "C87_arrvec_resize_partial",
    "C87_vector_resize_partial",
    "C87_arrvec_resize_refuted",
    "C87_vector_resize_refuted"
   ],
   "note": "False of the code: growing exposes uninitialised elements, shrinking leaks class-type ones (proved for all such cases of ArrVec). Proved for shrinking with trivial types."
  },
  {
   "property": "C88",
   "status": "partial",
   "theorems": [
    "C88_empty_equals_refuted",
    "C88_empty_equals_partial"
   ],
   "note": "False of the code for a String that never allocated. Proved for every string with storage."
  },
  {
   "property": "C89",
   "status": "partial",
   "theorems": [
    "C89_view_cstr",
    "C89_view_of_cstr",
    "C89_view_equality_refuted"
   ],
   "note": "False of the code: view equality compares addresses (and, after conversion, an uninitialised field). Comparison with a C string is proved."
  },
  {
   "property": "C90",
   "status": "partial",
   "theorems": [
    "C90_own_cstr_partial",
    "C90_own_cstr_refuted",
    "C90_insert_own_refuted"
   ],
   "note": "False of the code when the append reallocates and for insertion before the end. Proved for assign of an owned copy and non-reallocating append."
  },
  {
   "property": "C91",
   "status": "partial",
   "theorems": [
    "C91_map_class_type_refuted",
    "C91_from_function_class_type_refuted",
    "C91_append_class_type_refuted",
    "C91_concat_class_type_refuted",
    "C91_map_class_type_partial"
   ],
   "note": "False of the code whenever the result is an ArrVec or Vector (proved for all non-empty calls). Proved for Array results."
  },
  {
   "property": "C92",
   "status": "partial",
   "theorems": [
    "C92_compose_outlives_refuted"
   ],
   "note": "False of the code: Composed holds references; every call after the first-called function died is undefined. C52 is the positive part."
  },
  {
   "property": "C93",
   "status": "partial",
   "theorems": [
    "C93_construction_throws_partial",
    "C93_assignment_throws_refuted"
   ],
   "note": "False of the code for assignment (proved for every throwing copy into a different object). Proved for construction."
  },
  {
   "property": "C94",
   "status": "partial",
   "theorems": [
    "C94_assign_from_own_part_refuted"
   ],
   "note": "False of the code in every such case (destroy before read)."
  },
  {
   "property": "C95",
   "status": "partial",
   "theorems": [
    "C95_autocovariance",
    "C95_autocorrelation",
    "C95_lag_refuted"
   ],
   "note": "Proved for lags 0..n; false of the code for every negative lag and every lag above n (reads outside the sequence)."
  },
  {
   "property": "C96",
   "status": "partial",
   "theorems": [
    "C96_is_approx_partial",
    "C96_is_approx_refuted"
   ],
   "note": "Proved when the type compared in is a floating-point type; false of the code when it is an integer type. Two integer types are not covered."
  },
  {
   "property": "C97",
   "status": "partial",
   "theorems": [
    "C97_nrmse_partial",
    "C97_nrmse_refuted"
   ],
   "note": "Proved when some datum reaches the least positive normalised number; false of the code otherwise."
  },
  {
   "property": "C98",
   "status": "partial",
   "theorems": [
    "C98_sum_refuted",
    "C98_sum_modular",
    "C98_mean_partial",
    "C98_mean_refuted"
   ],
   "note": "False of the code for int and wider signed types when a partial sum overflows, and for means whose total does not fit the element type; proved otherwise."
  },
  {
   "property": "C99",
   "status": "partial",
   "theorems": [
    "C99_signed",
    "C99_nonnegative",
    "C99_mixed_refuted"
   ],
   "note": "Proved for signed types of any widths and for non-negative numbers of any types; false of the code for a negative number with an unsigned upper limit."
  },
  {
   "property": "C100",
   "status": "proved",
   "theorems": [
    "C100_storage"
   ],
   "note": ""
  },
  {
   "property": "C101",
   "status": "partial",
   "theorems": [
    "C101_all_any",
    "C101_sum_product_partial",
    "C101_sum_product_refuted"
   ],
   "note": "_sum and _product pass through int: proved up to 2^31-1, false of the code from 2^31 to 2^32-1."
  },
  {
   "property": "C102",
   "status": "proved",
   "theorems": [
    "C102_swap"
   ],
   "note": ""
  },
  {
   "property": "C103",
   "status": "partial",
   "theorems": [
    "C103_square_partial",
    "C103_square_refuted"
   ],
   "note": "False of the code for uint16_t from 46341 on; proved when the square is representable."
  },
  {
   "property": "C104",
   "status": "proved",
   "theorems": [
    "C104_single_consumer"
   ],
   "note": "Single consumer that dequeues only what is there."
  },
  {
   "property": "C105",
   "status": "partial",
   "theorems": [
    "C105_dequeue_races_refuted"
   ],
   "note": "False of the code: dequeue reads the read pointer without the lock that swap_buffer holds to write it."
  },
  {
   "property": "C106",
   "status": "partial",
   "theorems": [
    "C106_seek_tell_refuted",
    "C106_other_operations_partial"
   ],
   "note": "Refuted for seek and tell, which pass a null pointer to fseek and ftell; the other operations are proved harmless."
  },
  {
   "property": "C107",
   "status": "partial",
   "theorems": [
    "C107_tell_partial",
    "C107_tell_refuted"
   ],
   "note": "tell returns int: proved below 2^31, refuted for every position from 2^31 on."
  },
  {
   "property": "C108",
   "status": "proved",
   "theorems": [
    "C108_count_digits",
    "C108_count_digits_bits"
   ],
   "note": "the table-driven 32-bit and 64-bit versions and the fallback agree"
  },
  {
   "property": "C109",
   "status": "proved",
   "theorems": [
    "C109_decodes",
    "C109_one_way"
   ],
   "note": "any callback, with early stop"
  },
  {
   "property": "C110",
   "status": "proved",
   "theorems": [
    "C110_width",
    "C110_width_ascii"
   ],
   "note": ""
  },
  {
   "property": "C111",
   "status": "proved",
   "theorems": [
    "C111_truncation"
   ],
   "note": ""
  },
  {
   "property": "C112",
   "status": "proved",
   "theorems": [
    "C112_debug_string"
   ],
   "note": "which code points are printable is the function of the code, proved total"
  },
  {
   "property": "C113",
   "status": "partial",
   "theorems": [
    "C113_debug_tells_apart_partial",
    "C113_debug_tells_apart_refuted"
   ],
   "note": "proved for valid UTF-8; refuted in general: U+0080..U+009F and stray bytes have the same text"
  },
  {
   "property": "C114",
   "status": "proved",
   "theorems": [
    "C114_int_field"
   ],
   "note": "from parsed specs to text; the parsing of specs is a separate property"
  },
  {
   "property": "C115",
   "status": "proved",
   "theorems": [
    "C115_bool_field",
    "C115_char_field",
    "C115_string_field"
   ],
   "note": "from parsed specs to text"
  },
  {
   "property": "C116",
   "status": "partial",
   "theorems": [
    "C116_debug_char_width_refuted",
    "C116_width_ascii_partial"
   ],
   "note": "refuted for debug chars, which count as one column; proved for the padding of one-byte fills"
  },
  {
   "property": "C117",
   "status": "partial",
   "theorems": [
    "C117_zero_padding_partial",
    "C117_zero_padding_refuted"
   ],
   "note": "proved without L; refuted with L: zeros before the sign"
  },
  {
   "property": "C118",
   "status": "partial",
   "theorems": [
    "C118_local_base_refuted",
    "C118_base_partial"
   ],
   "note": "proved without L; with L the base is ignored"
  },
  {
   "property": "C119",
   "status": "proved",
   "theorems": [
    "C119_format",
    "C119_format_iff"
   ],
   "note": "The grammar is in Spec/TemplateSpec.v and Spec/FieldSpec.v. long double, pointers, 128-bit integers and const char* are not modelled. The text of floating-point numbers is that of the code here and of the specification in C138. Debug texts are those of C112. Precision is ignored in debug presentation, and the 'c' presentation of a negative integer shows its absolute value: the specification says so."
  },
  {
   "property": "C120",
   "status": "proved",
   "theorems": [
    "C120_returns_or_throws"
   ],
   "note": "int overflow of the automatic index after 2^31 fields and memory exhaustion are not modelled."
  },
  {
   "property": "C121",
   "status": "proved",
   "theorems": [
    "C121_rejects_iff",
    "C121_mixed_numbering",
    "C121_too_few"
   ],
   "note": "The width or precision of a join of no elements is not looked up."
  },
  {
   "property": "C122",
   "status": "proved",
   "theorems": [
    "C122_numbering"
   ],
   "note": ""
  },
  {
   "property": "C123",
   "status": "partial",
   "theorems": [
    "C123_width_too_large",
    "C123_index_too_large",
    "C123_zeros_refuted"
   ],
   "note": "Read exactly, as part of C119, for numbers written without needless zeros; a precision with zeros before it is an error if it has more than ten digits (C123_zeros_refuted)."
  },
  {
   "property": "C124",
   "status": "proved",
   "theorems": [
    "C124_double",
    "C124_float",
    "C124_bits"
   ],
   "note": "Bits of a positive number as input; long double is not modelled (its arithmetic is the compiler's). The text around the decimal is not part of this property."
  },
  {
   "property": "C125",
   "status": "proved",
   "theorems": [
    "C125_double",
    "C125_float"
   ],
   "note": ""
  },
  {
   "property": "C126",
   "status": "proved",
   "theorems": [
    "C126_double",
    "C126_float",
    "C126_double_special",
    "C126_float_special"
   ],
   "note": "For char output to an iterator that is no pointer; long double is not modelled."
  },
  {
   "property": "C127",
   "status": "proved",
   "theorems": [
    "C127_double",
    "C127_float",
    "C127_one_decimal",
    "C127_one_number",
    "C127_one_number_float"
   ],
   "note": ""
  },
  {
   "property": "C128",
   "status": "proved",
   "theorems": [
    "C128_double",
    "C128_float"
   ],
   "note": ""
  },
  {
   "property": "C129",
   "status": "proved",
   "theorems": [
    "C129_double",
    "C129_float"
   ],
   "note": ""
  },
  {
   "property": "C130",
   "status": "proved",
   "theorems": [
    "C130_fixed"
   ],
   "note": "The presentation is an argument; C138 has the letters. long double is not modelled, localized output only as for its existence."
  },
  {
   "property": "C131",
   "status": "partial",
   "theorems": [
    "C131_fixed_reads_partial",
    "C131_too_many",
    "C131_all_decimals_refuted"
   ],
   "note": "Refuted as for the number of decimals; the value is proved for every precision that is not refused."
  },
  {
   "property": "C132",
   "status": "proved",
   "theorems": [
    "C132_scientific",
    "C132_scientific_zero",
    "C132_largest_precision"
   ],
   "note": "Zero separately."
  },
  {
   "property": "C133",
   "status": "partial",
   "theorems": [
    "C133_general",
    "C133_general_alternate_partial",
    "C133_general_zero",
    "C133_all_digits_refuted"
   ],
   "note": "Refuted for '#' above 767 digits and numbers below 1 (the value is proved then, too); proved otherwise. Zero separately."
  },
  {
   "property": "C134",
   "status": "proved",
   "theorems": [
    "C134_shortest",
    "C134_zero"
   ],
   "note": ""
  },
  {
   "property": "C135",
   "status": "proved",
   "theorems": [
    "C135_nonfinite"
   ],
   "note": ""
  },
  {
   "property": "C136",
   "status": "partial",
   "theorems": [
    "C136_hexadecimal",
    "C136_zeros_refuted"
   ],
   "note": "That zeros are filled in after 0x is refuted."
  },
  {
   "property": "C137",
   "status": "proved",
   "theorems": [
    "C137_scientific_reads",
    "C137_general_reads"
   ],
   "note": ""
  },
  {
   "property": "C138",
   "status": "proved",
   "theorems": [
    "C138_format",
    "C138_one"
   ],
   "note": "The locale's decimal point is assumed not to be the char 0 and its separator to be at most one char. long double is not modelled."
  },
  {
   "property": "C139",
   "status": "proved",
   "theorems": [
    "C139_no_options"
   ],
   "note": ""
  },
  {
   "property": "C140",
   "status": "proved",
   "theorems": [
    "C140_sequences",
    "C140_numbers"
   ],
   "note": ""
  },
  {
   "property": "C141",
   "status": "proved",
   "theorems": [
    "C141_refused_iff"
   ],
   "note": "For widths and precisions written in the string; those taken from arguments are covered by C121."
  },
  {
   "property": "C142",
   "status": "proved",
   "theorems": [
    "C142_accepted_iff",
    "C142_rejected_iff",
    "C142_text_iff",
    "C142_text_specified",
    "C142_malformed"
   ],
   "note": ""
  },
  {
   "property": "C143",
   "status": "proved",
   "theorems": [
    "C143_ends",
    "C143_accepts_iff",
    "C143_rejects_iff"
   ],
   "note": "For compilers with consteval, or EFP_FMT_STRING, other than GCC before 12 (which leaves out checks)."
  },
  {
   "property": "C144",
   "status": "partial",
   "theorems": [
    "C144_passed_throws_iff",
    "C144_literal",
    "C144_bool_width_refuted",
    "C144_char_precision_refuted",
    "C144_no_such_name_refuted",
    "C144_passed_never_fails_refuted"
   ],
   "note": "Refuted: a bool or a char passes as a width or precision and is always refused at run time, and a width or precision by a name is not checked, and neither is whether a C string is null (C166). Proved: the exact set of arguments with which a string that passed is refused, and that there are none if widths and precisions are numbers in the string and no C string is null."
  },
  {
   "property": "C145",
   "status": "proved",
   "theorems": [
    "C145_rejected_throws",
    "C145_empty_join"
   ],
   "note": ""
  },
  {
   "property": "C146",
   "status": "proved",
   "theorems": [
    "C146_text",
    "C146_thrown_away"
   ],
   "note": "The writes that vformat_to makes are abstracted to an arbitrary sequence: their concatenated text is that of C119."
  },
  {
   "property": "C147",
   "status": "proved",
   "theorems": [
    "C147_buffers"
   ],
   "note": "basic_memory_buffer with the array inside of the object as a block; allocation does not fail."
  },
  {
   "property": "C148",
   "status": "partial",
   "theorems": [
    "C148_moved",
    "C148_empty_refuted"
   ],
   "note": "Refuted: a text that fits the inline array stays in the moved-from buffer. Proved: the new buffer has the text and the old one has it too or is empty."
  },
  {
   "property": "C149",
   "status": "proved",
   "theorems": [
    "C149_format_to_n"
   ],
   "note": "As C146 for the writes. Arrays of char."
  },
  {
   "property": "C150",
   "status": "proved",
   "theorems": [
    "C150_array",
    "C150_iterator",
    "C150_iterator_n",
    "C150_size",
    "C150_size_fits"
   ],
   "note": "Output iterators are modelled as lists that take every char. C150_room_needed: without the room the array is overrun."
  },
  {
   "property": "C151",
   "status": "partial",
   "theorems": [
    "C151_push_partial",
    "C151_append_partial",
    "C151_own_chars_refuted"
   ],
   "note": "Exact characterisation: it works if there is room or if the text is still in the inline array; otherwise released storage is read (C151_own_chars_refuted)."
  },
  {
   "property": "C152",
   "status": "proved",
   "theorems": [
    "C152_print",
    "C152_println",
    "C152_throws"
   ],
   "note": "vprint_mojibake of Windows is not modelled. is_utf8 is taken to be true."
  },
  {
   "property": "C153",
   "status": "proved",
   "theorems": [
    "C153_room",
    "C153_history"
   ],
   "note": "A stream is modelled as the list of chars it took and the number it still takes."
  },
  {
   "property": "C154",
   "status": "partial",
   "theorems": [
    "C154_sum_error",
    "C154_no_overflow",
    "C154_nan",
    "C154_infinity_refuted"
   ],
   "note": "The part on infinities is refuted: finite elements may overflow to the other infinity before. Elements and result of one type; expressions evaluated in that type, without contraction."
  },
  {
   "property": "C155",
   "status": "partial",
   "theorems": [
    "C155_exact",
    "C155_order_refuted"
   ],
   "note": "Refuted for other elements: the order matters."
  },
  {
   "property": "C156",
   "status": "partial",
   "theorems": [
    "C156_mean_error",
    "C156_monotone",
    "C156_nan",
    "C156_between_refuted"
   ],
   "note": "Refuted: that the mean lies between the least and the greatest element (0.1 three times; overflow of the sum)."
  },
  {
   "property": "C157",
   "status": "partial",
   "theorems": [
    "C157_non_negative",
    "C157_bessel_refuted"
   ],
   "note": "Refuted with Bessel's correction for one number (NaN) and none (0)."
  },
  {
   "property": "C158",
   "status": "partial",
   "theorems": [
    "C158_symmetric",
    "C158_self",
    "C158_zero_refuted",
    "C158_correlation_refuted"
   ],
   "note": "Refuted: sequences that differ may have the error 0 (underflow), and correlations may exceed 1."
  },
  {
   "property": "C159",
   "status": "partial",
   "theorems": [
    "C159_extremes_partial",
    "C159_extremes_refuted"
   ],
   "note": "Refuted if every element is below the least positive normalised number (max_elem), for infinities only (min_elem), and with NaNs."
  },
  {
   "property": "C160",
   "status": "partial",
   "theorems": [
    "C160_is_approx_partial",
    "C160_symmetric",
    "C160_is_approx_refuted"
   ],
   "note": "Refuted for infinities, which are not approximately equal to themselves. Two numbers of one type."
  },
  {
   "property": "C161",
   "status": "proved",
   "theorems": [
    "C161_squares_error"
   ],
   "note": "Lengths above 2^prec are rounded; the bound of mse counts that too (count_error)."
  },
  {
   "property": "C162",
   "status": "proved",
   "theorems": [
    "C162_covariance_error",
    "C162_variance_error"
   ],
   "note": "Model/Ieee.v over Flocq's binary floats, every precision and exponent range."
  },
  {
   "property": "C163",
   "status": "proved",
   "theorems": [
    "C163_roots",
    "C163_quotients"
   ],
   "note": "Model/Ieee.v; finiteness of the results is a hypothesis."
  },
  {
   "property": "C164",
   "status": "partial",
   "theorems": [
    "C164_remove_dc",
    "C164_remove_dc_refuted",
    "C164_linear_regression",
    "C164_regression_refuted"
   ],
   "note": "Refuted parts: the results of remove_dc need not have the mean 0; the regression of one point is NaN, and equal abscissas can give a finite slope by rounding."
  },
  {
   "property": "C165",
   "status": "proved",
   "theorems": [
    "C165_pointer_field",
    "C165_pointer",
    "C165_tells_apart"
   ],
   "note": "Model/FormatSpecs.v write_ptr; the pointers are addresses. C119-C123 and C142 also include pointers and C strings."
  },
  {
   "property": "C166",
   "status": "partial",
   "theorems": [
    "C166_as_string",
    "C166_null",
    "C166_null_refuted",
    "C166_unterminated_refuted"
   ],
   "note": "C strings are arrays of chars that a pointer points into, with an address. C166_null: null C strings, also in sequences and joins, are refused by every format string that does not ask for the address. Refuted parts: null (passes the check, throws) and unterminated arrays (undefined behaviour)."
  },
  {
   "property": "C167",
   "status": "partial",
   "theorems": [
    "C167_text",
    "C167_c_str",
    "C167_as_format",
    "C167_copy_refuted"
   ],
   "note": "Model/FormatInt.v; refuted part: a copied format_int points into the buffer of the original, so its size and str are undefined."
  },
  {
   "property": "C168",
   "status": "proved",
   "theorems": [
    "C168_text"
   ],
   "note": "Through the model of format strings, with the assertion of a debug build."
  },
  {
   "property": "C169",
   "status": "partial",
   "theorems": [
    "C169_format",
    "C169_appends_refuted",
    "C169_report",
    "C169_lines",
    "C169_null_refuted"
   ],
   "note": "What std::system_error says is a parameter: any text, or an exception after any part of it. Refuted parts: if the library fails, format_system_error discards what the buffer held instead of appending; a null message is undefined behaviour."
  },
  {
   "property": "C170",
   "status": "proved",
   "theorems": [
    "C170_in_place",
    "C170_iff",
    "C170_error_code"
   ],
   "note": "The writes are those of C146; C170_error_code has any sequence of writes of the text that asks for room only for what follows."
  },
  {
   "property": "C171",
   "status": "proved",
   "theorems": [
    "C171_valid",
    "C171_throws_iff",
    "C171_tells_apart"
   ],
   "note": "Proved in full: C171_valid, C171_throws_iff, C171_tells_apart."
  },
  {
   "property": "C172",
   "status": "partial",
   "theorems": [
    "C172_utf32",
    "C172_utf32_throws_iff",
    "C172_utf32_stops",
    "C172_utf16_partial",
    "C172_utf16_refuted",
    "C172_pairs_dropped",
    "C172_utf16_throws_iff",
    "C172_replace",
    "C172_pieces"
   ],
   "note": "UTF-32 is proved in full (C172_utf32, C172_utf32_throws_iff, C172_utf32_stops), and so is when UTF-16 throws (C172_utf16_throws_iff). UTF-16 text below U+10000 is proved (C172_utf16_partial). The rest is false of the code: a surrogate pair is decoded but never written, so every code point from U+10000 on silently vanishes (C172_utf16_refuted, C172_pairs_dropped); C172_replace says exactly what is written. With 32-bit units the policy replace throws all the same."
  },
  {
   "property": "C173",
   "status": "partial",
   "theorems": [
    "C173_two_bytes_iff",
    "C173_four_bytes_iff",
    "C173_refuted"
   ],
   "note": "C173_refuted: not every text comes back. Exactly the texts below U+10000 come back (C173_two_bytes_iff); with wide chars of four bytes all others throw on the way back (C173_four_bytes_iff). So the claim in full is false of the code; these theorems give its exact extent."
  },
  {
   "property": "C174",
   "status": "partial",
   "theorems": [
    "C174_first",
    "C174_again",
    "C174_again_refuted",
    "C174_failed",
    "C174_again_two_bytes",
    "C174_failed_two_bytes"
   ],
   "note": "The first text comes out right (C174_first). A second one is put behind the 0 of the first, for every pair of texts, so str is never the text alone (C174_again_refuted, with the exact contents in C174_again). After a failure the buffer holds the text before the error but no 0, so str lacks its last byte (C174_failed). The same with wide chars of two bytes: C174_again_two_bytes, C174_failed_two_bytes."
  }
 ]
}