{
 "claims": [
  {
   "property": "C01",
   "status": "proved",
   "theorems": [
    "C01_history_refines_python_list",
    "C01_elements_canonical",
    "C01_raise_keeps_contents",
    "C01_pop_huge_empty_refuted",
    "C01_index_huge_bound_refuted"
   ],
   "note": "Refinement by induction over call histories, both element widths, all CPU flags; the two excluded edges are refuted separately. sort, repetition and comparison are C20, C14, C10."
  },
  {
   "property": "C02",
   "status": "proved",
   "theorems": [
    "C02_stored_value_unique",
    "C02_append",
    "C02_setitem",
    "C02_extend_and_construct",
    "C02_round_trip",
    "C02_big_exact",
    "C02_int_silent_change",
    "C02_insert_rejects"
   ],
   "note": "append, item assignment, extend, construction, insert."
  },
  {
   "property": "C03",
   "status": "proved",
   "theorems": [
    "C03_construct_items",
    "C03_bad_item_runtime_error",
    "C03_iterator_error",
    "C03_int_argument_empty",
    "C03_programs_refine_python",
    "C03_copy_is_fresh",
    "C03_frame"
   ],
   "note": "Constructor on lists, tuples, iterators, integers; multi-object programs with aliasing refine Python's reference semantics; frame theorem."
  },
  {
   "property": "C04",
   "status": "proved",
   "theorems": [
    "C04_failed_extend_keeps_prefix",
    "C04_raising_iterator_keeps_prefix",
    "C04_not_iterable"
   ],
   "note": "Every failure position, list/tuple and iterator sources, extend and +=."
  },
  {
   "property": "C05",
   "status": "proved",
   "theorems": [
    "C05_index_least",
    "C05_value_out_of_range"
   ],
   "note": "All bounds in the ssize range; bounds beyond it are covered by C01_index_huge_bound_refuted."
  },
  {
   "property": "C06",
   "status": "proved",
   "theorems": [
    "C06_contains",
    "C06_count",
    "C06_remove",
    "C06_rejected",
    "C06_false_membership_refuted"
   ],
   "note": "Exact answer for every accepted integer; false membership shown for every 64-bit value outside 32 bits."
  },
  {
   "property": "C07",
   "status": "proved",
   "theorems": [
    "C07_slice_read"
   ],
   "note": "All slices including bounds beyond the ssize range; out-of-bounds reads and ssize overflow would be Undef in the model."
  },
  {
   "property": "C08",
   "status": "proved",
   "theorems": [
    "C08_slice_assign",
    "C08_other_steps",
    "C08_from_other_list",
    "C08_from_other_list_312_refuted",
    "C08_self_assignment_refuted",
    "C08_delete_slice_crashes"
   ],
   "note": "List/tuple source, other array list, the list itself, del, other steps."
  },
  {
   "property": "C09",
   "status": "proved",
   "theorems": [
    "C09_failed_slice_assign",
    "C09_not_atomic_refuted"
   ],
   "note": "Exact contents after a failure at any position."
  },
  {
   "property": "C10",
   "status": "proved",
   "theorems": [
    "C10_same_class",
    "C10_list_operand",
    "C10_order_laws",
    "C10_unconvertible_refuted",
    "C10_item_fails",
    "C10_size_refuted",
    "C10_wrapped_equal_refuted",
    "C10_not_sequence",
    "C10_length",
    "C10_reads_total",
    "C10_order_any_refuted",
    "C10_equality_any_refuted"
   ],
   "note": "Same-class and list/tuple operands; operands that wrap or fail to convert are refuted separately."
  },
  {
   "property": "C11",
   "status": "proved",
   "theorems": [
    "C11_repr_is_list_repr",
    "C11_repr_injective"
   ],
   "note": "Text is unique for the contents, equals the model's output, and parses back; the 32-byte buffer bound is checked in the model."
  },
  {
   "property": "C12",
   "status": "proved",
   "theorems": [
    "C12_positive_step",
    "C12_negative_step",
    "C12_overflow",
    "C12_overflow_refuted",
    "C12_arguments",
    "C12_linked",
    "C12_range_unique",
    "C12_zero_step",
    "C12_short_forms",
    "C12_sentinel_refuted"
   ],
   "note": "All of Py_ssize_t; the values are stated before reduction to the element width. IntLinkedList by C12_linked."
  },
  {
   "property": "C13",
   "status": "proved",
   "theorems": [
    "C13_resize",
    "C13_resize_rejects"
   ],
   "note": "Pointwise."
  },
  {
   "property": "C14",
   "status": "proved",
   "theorems": [
    "C14_mul_copies",
    "C14_mul_misaligned",
    "C14_mul_nonpositive",
    "C14_imul_refuted",
    "C14_imul_small"
   ],
   "note": "mul exactly characterised for every CPU flag set; imul characterised with arbitrary spare capacity contents."
  },
  {
   "property": "C15",
   "status": "proved",
   "theorems": [
    "C15_add_python_list",
    "C15_add_same_class",
    "C15_iadd_rebinds_none",
    "C15_iadd_other_iterable",
    "C15_iadd_list_keeps_name"
   ],
   "note": "The MemoryError of same-class + rests on reading Py_CreateObj as PyObject_CallObject with a non-tuple, which CPython always rejects."
  },
  {
   "property": "C16",
   "status": "proved",
   "theorems": [
    "C16_forward_trace",
    "C16_for_loop_is_python",
    "C16_unmodified",
    "C16_resumes_refuted"
   ],
   "note": "Arbitrary contents at each call, so every interleaving of mutations."
  },
  {
   "property": "C17",
   "status": "proved",
   "theorems": [
    "C17_unmodified",
    "C17_trace",
    "C17_for_loop_is_python",
    "C17_shrunk_refuted",
    "C17_empty_grown_refuted"
   ],
   "note": "Arbitrary contents at each call; out-of-bounds reads are Undef."
  },
  {
   "property": "C18",
   "status": "proved",
   "theorems": [
    "C18_canonical_object",
    "C18_old_exact",
    "C18_312_canonical_iff",
    "C18_312_equal_iff",
    "C18_312_value",
    "C18_312_truthy"
   ],
   "note": "PyFast_FromInt in both interpreter layouts; object identity, equality, value and truth value."
  },
  {
   "property": "C19",
   "status": "proved",
   "theorems": [
    "C19_asint_312",
    "C19_asint_old_iff",
    "C19_asint_old_value",
    "C19_assmall_old",
    "C19_assmall_312"
   ],
   "note": "PyFast_AsInt/AsShort/AsChar on every canonical integer."
  },
  {
   "property": "C20",
   "status": "proved",
   "theorems": [
    "C20_sorts",
    "C20_scalar_cpu",
    "C20_short",
    "C20_timsort",
    "C20_timsort_safe",
    "C20_safe",
    "C20_out_of_bounds_refuted",
    "C20_blocks",
    "C20_distinct_refuted",
    "C20_bigint_eight_refuted",
    "C20_bigint_distinct_refuted"
   ],
   "note": "std::sort is taken to be the sorted list (library); gfx::timsort is modelled and proved. The claim that sort() sorts is refuted universally on the vector path for distinct elements of both widths (an element is always lost); for long long the result at length eight is given exactly."
  },
  {
   "property": "C21",
   "status": "proved",
   "theorems": [
    "C21_plain_sort",
    "C21_key_sort",
    "C21_array_list",
    "C21_int_linked_list",
    "C21_exact_domain",
    "C21_object_lists",
    "C21_object_lists_key",
    "C21_slices_in_step",
    "C21_slot_steps"
   ],
   "note": "Complete model of CPythonSort.c (powersort, galloping merges, binary insertion); any weak order, any length whose pointer array fits Py_ssize_t. The choice of a specialised comparison is not part of it."
  },
  {
   "property": "C22",
   "status": "proved",
   "theorems": [
    "C22_plain_any_oracle",
    "C22_key_any_oracle",
    "C22_key_array_refused"
   ],
   "note": "Any oracle, any failure point, any allocation failure; termination is part of the statement (fuel exhaustion is a fault the theorem excludes)."
  },
  {
   "property": "C23",
   "status": "proved",
   "theorems": [
    "C23_array_list",
    "C23_int_linked_list",
    "C23_object_lists",
    "C23_key_failure",
    "C23_no_memory",
    "C23_error_reported_refuted"
   ],
   "note": "The original English claim is refuted for four of the five classes; the theorems say what happens instead."
  },
  {
   "property": "C24",
   "status": "proved",
   "theorems": [
    "C24_reverse",
    "C24_reverse_twice",
    "C24_reverse16_refuted",
    "C24_reverse16_exact"
   ],
   "note": "All widths and CPU flags on byte memory; the 16-byte AVX2 step is characterised exactly and refuted. The method-level reverse() of the lists is covered in C01."
  },
  {
   "property": "C25",
   "status": "proved",
   "theorems": [
    "C25_copied_meaning",
    "C25_copy_exact",
    "C25_aligned_copy"
   ],
   "note": "Both variants; exact alignment condition of the aligned one."
  },
  {
   "property": "C26",
   "status": "proved",
   "theorems": [
    "C26_fast_memcpy"
   ],
   "note": "All sizes; built on the C25 model."
  },
  {
   "property": "C27",
   "status": "proved",
   "theorems": [
    "C27_seek"
   ],
   "note": "Any slist with distinct node identities; exact node, value, and step count."
  },
  {
   "property": "C28",
   "status": "proved",
   "theorems": [
    "C28_history_refines_python_list",
    "C28_sort_specification",
    "C28_construction",
    "C28_construction_fails",
    "C28_construction_iterator",
    "C28_not_iterable",
    "C28_repr"
   ],
   "note": "All calls of PyListSpec except resize (absent) and pop(i) (C29), plus sort(reverse); std::list::sort is modelled by its documented result. Also construction and repr."
  },
  {
   "property": "C29",
   "status": "proved",
   "theorems": [
    "C29_pop_index",
    "C29_pop_empty"
   ],
   "note": "Use after free is a distinct outcome of the node model."
  },
  {
   "property": "C30",
   "status": "proved",
   "theorems": [
    "C30_append",
    "C30_extend",
    "C30_append_converts",
    "C30_iadd_values"
   ],
   "note": "Every failure position, list/tuple and iterator sources."
  },
  {
   "property": "C31",
   "status": "proved",
   "theorems": [
    "C31_not_sequence",
    "C31_length",
    "C31_size_refuted",
    "C31_item_fails",
    "C31_unconvertible_refuted",
    "C31_order_any_refuted",
    "C31_equality_any_refuted",
    "C31_list_operand",
    "C31_same_class",
    "C31_shorter_is_greater_refuted",
    "C31_not_reflexive_refuted",
    "C31_copy_unequal_312_refuted"
   ],
   "note": "Operands whose items convert; reread is C13's pointwise re-conversion."
  },
  {
   "property": "C32",
   "status": "proved",
   "theorems": [
    "C32_mul",
    "C32_imul",
    "C32_imul_refuted",
    "C32_add",
    "C32_add_fails",
    "C32_object_lists",
    "C32_object_lists_by_zero"
   ],
   "note": "Both linked lists; object lists with their reference counts. + of an IntLinkedList; from 3.12 on the elements are the objects PyFast_FromInt makes (C18)."
  },
  {
   "property": "C33",
   "status": "proved",
   "theorems": [
    "C33_interleavings",
    "C33_unmodified",
    "C33_quiet_calls",
    "C33_modified_drops_last",
    "C33_modified_at_end",
    "C33_del_use_after_free",
    "C33_iadd_derefs_end",
    "C33_python_iterator_refuted"
   ],
   "note": "All interleavings of one iterator with calls other than item deletion, clear and slice assignment; those are covered by the use-after-free theorem."
  },
  {
   "property": "C34",
   "status": "proved",
   "theorems": [
    "C34_reversed",
    "C34_empty",
    "C34_reversed_refuted"
   ],
   "note": "All non-empty lists, any number of steps; empty list undefined."
  },
  {
   "property": "C35",
   "status": "proved",
   "theorems": [
    "C35_balanced",
    "C35_all_released"
   ],
   "note": "Any number of lists, objects and external references; lists of at most 2^60-1 elements. Calls outside the domain are characterised in C36, C38 and C51."
  },
  {
   "property": "C36",
   "status": "proved",
   "theorems": [
    "C36_item_assignment_leaks",
    "C36_leak_history",
    "C36_construction_takes_no_references",
    "C36_construction_history",
    "C36_resize",
    "C36_resize_frees_none",
    "C36_growing_slice_assignment",
    "C36_repetition_by_zero_leaks"
   ],
   "note": "Each defect as an exact equation for every state, three of them also as whole histories."
  },
  {
   "property": "C37",
   "status": "proved",
   "theorems": [
    "C37_search_by_identity",
    "C37_linked",
    "C37_agrees_without_equal_objects",
    "C37_count_refuted",
    "C37_index_remove_refuted",
    "C37_membership_refuted"
   ],
   "note": "Both classes; equality is an arbitrary relation."
  },
  {
   "property": "C38",
   "status": "proved",
   "theorems": [
    "C38_never_returns",
    "C38_otherwise_returns"
   ],
   "note": "Small-step model of the loop with any number of steps; memory is unbounded in the model."
  },
  {
   "property": "C39",
   "status": "proved",
   "theorems": [
    "C39_not_sequence",
    "C39_length",
    "C39_size_refuted",
    "C39_item_fails",
    "C39_equality_is_python",
    "C39_equality_linked",
    "C39_ordering",
    "C39_ordering_right_when_first_pair_differs",
    "C39_different_lengths_refuted",
    "C39_reflexivity_refuted",
    "C39_later_pairs_ignored_refuted",
    "C39_incoherent_items_refuted"
   ],
   "note": "Item comparisons are arbitrary and may raise; the ordering claim is refuted against Python's order."
  },
  {
   "property": "C40",
   "status": "proved",
   "theorems": [
    "C40_balanced",
    "C40_all_released",
    "C40_item_assignment_leaks",
    "C40_leak_history",
    "C40_extend_self_leaks",
    "C40_repetition_by_zero_leaks",
    "C40_construction_history"
   ],
   "note": "The earlier claim that slice assignment releases an object too often was false and has been replaced; the leaks are exact equations."
  },
  {
   "property": "C41",
   "status": "proved",
   "theorems": [
    "C41_blocks_apart",
    "C41_get",
    "C41_set",
    "C41_memset",
    "C41_memcpy",
    "C41_call",
    "C41_call_large",
    "C41_malloc",
    "C41_malloc_fails",
    "C41_calloc",
    "C41_calloc_overflow",
    "C41_aligned_malloc",
    "C41_aligned_address",
    "C41_realloc",
    "C41_realloc_fails",
    "C41_realloc_zero_refuted",
    "C41_free",
    "C41_bad_access",
    "C41_overlap",
    "C41_bad_release",
    "C41_arguments",
    "C41_wrong_release",
    "C41_get_null_refuted",
    "C41_persists"
   ],
   "note": "Byte-addressed heap of blocks; what the C allocator answers is an input. The Unsafe functions of the method table except those on files, threads of control and module loading."
  },
  {
   "property": "C42",
   "status": "proved",
   "theorems": [
    "C42_same_object",
    "C42_counts",
    "C42_dropped",
    "C42_freed_refuted",
    "C42_with_incref",
    "C42_immortal"
   ],
   "note": "Both interpreter configurations; counts below 2^31 for mortal objects."
  },
  {
   "property": "C43",
   "status": "proved",
   "theorems": [
    "C43_exclusive",
    "C43_no_race",
    "C43_table",
    "C43_released",
    "C43_progress",
    "C43_only_relock",
    "C43_free",
    "C43_free_unknown",
    "C43_no_null",
    "C43_failed_free_refuted",
    "C43_fast_race_refuted",
    "C43_fast_lost_entry_refuted",
    "C43_fast_phantom_refuted",
    "C43_not_windows"
   ],
   "note": "Steps cut at mutex and table operations; VirtualProtect and allocator answers are inputs. run/runFast are outside."
  },
  {
   "property": "C44",
   "status": "proved",
   "theorems": [
    "C44_construct",
    "C44_construct_total",
    "C44_first_refused",
    "C44_refused_refuted",
    "C44_refused_ways",
    "C44_no_workers_refuted",
    "C44_one_task",
    "C44_fifo",
    "C44_window",
    "C44_returned_never_begins",
    "C44_submit_refused",
    "C44_dangling",
    "C44_dangling_refuted",
    "C44_future",
    "C44_shutdown",
    "C44_self_submit_refuted",
    "C44_no_lost_wakeup",
    "C44_holder_moves",
    "C44_join"
   ],
   "note": "Steps cut at mutex, condition variable and task object. A refused push leaves std::deque as it was; a packaged_task refused its own memory touches nothing and is no step. The original due-time claim had no counterpart in the code and was replaced."
  },
  {
   "property": "C45",
   "status": "proved",
   "theorems": [
    "C45_places",
    "C45_reduced_iff",
    "C45_count",
    "C45_undefined"
   ],
   "note": "All six setters, both interpreter configurations; value arguments are ints."
  },
  {
   "property": "C46",
   "status": "proved",
   "theorems": [
    "C46_buffer_describes_list"
   ],
   "note": "Both widths."
  },
  {
   "property": "C47",
   "status": "proved",
   "theorems": [
    "C47_contents",
    "C47_old_iff",
    "C47_new_negative",
    "C47_big",
    "C47_values_kept_refuted"
   ],
   "note": "Both layouts; the claim that values are kept is refuted with an iff before 3.12."
  },
  {
   "property": "C48",
   "status": "proved",
   "theorems": [
    "C48_array_moved",
    "C48_array_resized",
    "C48_linked_resized"
   ],
   "note": "What the callbacks did to the list is a parameter (the new contents, or that the buffer moved)."
  },
  {
   "property": "C49",
   "status": "proved",
   "theorems": [
    "C49_nokey_only_one",
    "C49_linked_only_one",
    "C49_key_any_nonzero",
    "C49_nokey_refuted"
   ],
   "note": "Array lists of both widths and the linked list."
  },
  {
   "property": "C50",
   "status": "proved",
   "theorems": [
    "C50_array_histories_like_python",
    "C50_excluded_refuted"
   ],
   "note": "Same-object comparison against a Python list with identity search; see C37 for equality."
  },
  {
   "property": "C51",
   "status": "proved",
   "theorems": [
    "C51_slice_deletion",
    "C51_extend_self",
    "C51_self_slice_assignment",
    "C51_no_length",
    "C51_no_length_at_start"
   ],
   "note": ""
  },
  {
   "property": "C52",
   "status": "proved",
   "theorems": [
    "C52_pop_index",
    "C52_slice_deletion",
    "C52_slice_assignment",
    "C52_assignment_undefined",
    "C52_equal_size",
    "C52_wrong_size",
    "C52_crossing_bounds",
    "C52_stepped_assignment_refuted",
    "C52_crossing_bounds_refuted"
   ],
   "note": "Exact for values that are a list or another ObjectLinkedList; linked_setslice restates the outcome on plain lists, the other theorems relate it to Python. List and value together at most SSIZE_MAX items."
  },
  {
   "property": "C53",
   "status": "proved",
   "theorems": [
    "C53_array",
    "C53_linked"
   ],
   "note": "What the callback leaves is a parameter; proved for emptying at the first comparison."
  },
  {
   "property": "C54",
   "status": "proved",
   "theorems": [
    "C54_repr"
   ],
   "note": "Item texts that return with an error pending are excluded."
  },
  {
   "property": "C55",
   "status": "proved",
   "theorems": [
    "C55_linked_histories_like_python"
   ],
   "note": "As C50."
  },
  {
   "property": "C56",
   "status": "proved",
   "theorems": [
    "C56_array_iterator",
    "C56_linked_iterator"
   ],
   "note": "Arbitrary contents at each call."
  },
  {
   "property": "C57",
   "status": "proved",
   "theorems": [
    "C57_bounded",
    "C57_drift_refuted",
    "C57_mortal_refuted",
    "C57_before_312"
   ],
   "note": "The refutations give the exact drift for every k."
  },
  {
   "property": "C58",
   "status": "proved",
   "theorems": [
    "C58_memcpy",
    "C58_reverse",
    "C58_reverse_long_double_refuted",
    "C58_argument_count",
    "C58_memcpy_bad_count_refuted",
    "C58_memcpy_bad_address_refuted",
    "C58_reverse_bad_refuted",
    "C58_nothing"
   ],
   "note": "All element widths and CPU flags; flat memory."
  },
  {
   "property": "C59",
   "status": "proved",
   "theorems": [
    "C59_register",
    "C59_memory",
    "C59_count",
    "C59_bad_operand",
    "C59_masks",
    "C59_results",
    "C59_names",
    "C59_stub",
    "C59_unimplemented",
    "C59_gated_refuted",
    "C59_setters"
   ],
   "note": "Table of bindings and stub generated from the sources by a script; the intrinsics' own arithmetic is a parameter. MSVC bodies of the 25 gated bindings and the ARM branch are outside."
  },
  {
   "property": "C60",
   "status": "proved",
   "theorems": [
    "C60_read",
    "C60_same",
    "C60_not_the_value",
    "C60_declared_int"
   ],
   "note": "Both object layouts; the double to float conversion is a parameter."
  },
  {
   "property": "C61",
   "status": "proved",
   "theorems": [
    "C61_load",
    "C61_load_undefined",
    "C61_store",
    "C61_store_undefined",
    "C61_bound",
    "C61_direct_refuted"
   ],
   "note": "Plain loads and stores; their effect on memory is in the spec."
  },
  {
   "property": "C62",
   "status": "proved",
   "theorems": [
    "C62_selected",
    "C62_sorts",
    "C62_never_long"
   ],
   "note": "What the interpreter's comparison does on ints, floats, strings and tuples is in the spec; comparisons of other classes are arbitrary but answer the same each time, and types keep their slots during the sort."
  },
  {
   "property": "C63",
   "status": "proved",
   "theorems": [
    "C63_answers",
    "C63_system",
    "C63_exact",
    "C63_avx512",
    "C63_blocks",
    "C63_unsaved",
    "C63_bytes_words",
    "C63_avx512_refuted",
    "C63_msvc_refuted"
   ],
   "note": "The guarded blocks are a table generated from the sources; what instructions need is in the spec, after Intel's manual. Code the compiler itself vectorises is outside."
  },
  {
   "property": "C64",
   "status": "proved",
   "theorems": [
    "C64_finite_map",
    "C64_equality",
    "C64_hash",
    "C64_product",
    "C64_distance_bits"
   ],
   "note": "Keys are integers; allocation failure, reserve/rehash and the iterator forms are not modelled. Beyond 2^24 - 2 entries nothing is claimed."
  },
  {
   "property": "C65",
   "status": "proved",
   "theorems": [
    "C65_output",
    "C65_flush",
    "C65_complete",
    "C65_lines",
    "C65_ascii",
    "C65_cut",
    "C65_split_refuted",
    "C65_nul_refuted",
    "C65_one_refuted",
    "C65_size",
    "C65_safe",
    "C65_leak",
    "C65_no_memory",
    "C65_encoder",
    "C65_decoder"
   ],
   "note": "POSIX streams that do not fail and are used by nobody else; CPython's strict UTF-8 codec is modelled and proved to be UTF-8."
  },
  {
   "property": "C66",
   "status": "proved",
   "theorems": [
    "C66_atomic",
    "C66_index_default",
    "C66_index_default_refuted",
    "C66_pop_exact",
    "C66_pop_same_size",
    "C66_pop_shrink_refuted",
    "C66_pop_grow_refuted",
    "C66_set_exact",
    "C66_set_same_size",
    "C66_set_shrink_refuted",
    "C66_slice_assign_safe",
    "C66_slice_assign_atomic",
    "C66_slice_unconverted",
    "C66_zero_step",
    "C66_slice_shrink_refuted",
    "C66_slice_stale_refuted",
    "C66_len_raises_refuted",
    "C66_compare_safe",
    "C66_compare_plain",
    "C66_compare_unconverted",
    "C66_compare_shrink_refuted",
    "C66_extend",
    "C66_extend_unique",
    "C66_sort_key"
   ],
   "note": "User code is a function of the contents that returns or raises (it may not diverge or escape through longjmp); the list is its only shared state, other lists and threads are not modelled."
  },
  {
   "property": "C67",
   "status": "proved",
   "theorems": [
    "C67_refines",
    "C67_only_freed",
    "C67_no_leak",
    "C67_when_freed",
    "C67_view_shows",
    "C67_dropped_refuted",
    "C67_outgrown_refuted",
    "C67_shape_refuted"
   ],
   "note": "One element is one cell; the vector's growth policy and sort are parameters. Histories whose arguments suit the element type; views are never released (release does nothing here)."
  },
  {
   "property": "C68",
   "status": "proved",
   "theorems": [
    "C68_atomic",
    "C68_append_unconverted",
    "C68_index_default",
    "C68_index_default_refuted",
    "C68_pop",
    "C68_set_exact",
    "C68_set_unconverted",
    "C68_set_clear_refuted",
    "C68_slice_assign_safe",
    "C68_slice_assign_atomic",
    "C68_slice_unconverted",
    "C68_slice_erased_refuted",
    "C68_len_raises_refuted",
    "C68_compare_safe",
    "C68_compare_plain",
    "C68_compare_unconverted",
    "C68_compare_erased_refuted",
    "C68_zero_step",
    "C68_extend",
    "C68_extend_unique",
    "C68_adds_only_keeps"
   ],
   "note": "User code is a function of the list object, nodes included, that returns or raises; the list is its only shared state. Node identity is a number: a reused address is not modelled."
  },
  {
   "property": "C69",
   "status": "proved",
   "theorems": [
    "C69_enough_memory",
    "C69_refusals_are_reported",
    "C69_only_extend_kills",
    "C69_objects_exact",
    "C69_growth_exact",
    "C69_extend_list_exact",
    "C69_extend_same_exact",
    "C69_extend_iter_killed",
    "C69_length_hint_refuted",
    "C69_mul_exact",
    "C69_mul_huge_refuted",
    "C69_imul_exact",
    "C69_sort_exact",
    "C69_sort_key_exact",
    "C69_repr",
    "C69_init_safe",
    "C69_init_enough",
    "C69_init_huge_hint",
    "C69_from_range",
    "C69_add",
    "C69_add_exact"
   ],
   "note": "Requests of the list code itself: vectors, strings, Python objects. Requests made by user code and by the interpreter around a call are not modelled, nor what leaks; a cached small int counts as a request that is granted."
  },
  {
   "property": "C70",
   "status": "proved",
   "theorems": [
    "C70_del_polite",
    "C70_del_appending",
    "C70_del_exact",
    "C70_del_shared",
    "C70_del_dangling_refuted",
    "C70_del_twice_refuted",
    "C70_remove",
    "C70_clear_polite",
    "C70_clear_appending",
    "C70_clear_spoiled_refuted",
    "C70_clear_read_refuted",
    "C70_slice_polite",
    "C70_slice_step",
    "C70_slice_appending",
    "C70_slice_spoiled_refuted",
    "C70_dealloc",
    "C70_del_without",
    "C70_clear_without"
   ],
   "note": "Finalizers return (their exceptions are dropped); weak reference callbacks and the garbage collector are not modelled. Memory in the buffer beyond the size counts as outside the list. Sources are read by index without running code; self-assignment and steps other than 1 are in C51."
  },
  {
   "property": "C71",
   "status": "proved",
   "theorems": [
    "C71_from_dict",
    "C71_from_dict_exact",
    "C71_from_map",
    "C71_from_iterator",
    "C71_from_iterator_distinct",
    "C71_last_pair_wins_refuted",
    "C71_from_iterator_stops",
    "C71_from_sequence",
    "C71_from_sequence_stops",
    "C71_from_mapping_refuted",
    "C71_iterable_ignored",
    "C71_refused",
    "C71_first_captures",
    "C71_second_refuted",
    "C71_copy_refuted"
   ],
   "note": "Keys and values are ints or objects without __index__; the code of iterators, mappings and entries is represented by its answers, so a nested construction of another map during the first one is left out, and so are reference leaks."
  },
  {
   "property": "C72",
   "status": "proved",
   "theorems": [
    "C72_array_like_python",
    "C72_array_safe",
    "C72_array_equality_undefined",
    "C72_array_order_undefined",
    "C72_array_repr",
    "C72_array_repr_undefined",
    "C72_array_repr_safe",
    "C72_array_repr_again_refuted",
    "C72_array_repr_late_refuted",
    "C72_linked_like_python",
    "C72_linked_safe",
    "C72_linked_equality_undefined",
    "C72_linked_order_undefined",
    "C72_linked_repr",
    "C72_linked_repr_undefined",
    "C72_linked_repr_safe",
    "C72_linked_repr_emptied_refuted",
    "C72_array_refuted",
    "C72_linked_refuted",
    "C72_linked_repr_front_refuted"
   ],
   "note": "User code returns or raises, is written in Python (it holds its operands until it returns) and reaches the list only through its container; recursion limits and failing allocations are left out. Non-terminating repr (items appended for ever) is represented by a step bound."
  },
  {
   "property": "C73",
   "status": "proved",
   "theorems": [
    "C73_serial",
    "C73_alone",
    "C73_locked",
    "C73_readers",
    "C73_owner",
    "C73_element_race_refuted",
    "C73_size_race_refuted",
    "C73_imul_race_refuted",
    "C73_lost_refuted",
    "C73_progress"
   ],
   "note": "One list, one location for its header; reallocation is not a separate access (a call that changes the size writes the header anyway). Methods other than len, append, clear and item access are taken to read, or read and write, the whole list; sort reads and then writes it all. x *= n for n > 1 changes the size once and reads and writes all copies at once; where it is undefined alone (C14) the list left behind is not compared. Sequentially consistent interleavings: with a data race C++ promises nothing."
  },
  {
   "property": "C74",
   "status": "proved",
   "theorems": [
    "C74_linked",
    "C74_answers",
    "C74_memory",
    "C74_clean",
    "C74_careless_refuted",
    "C74_refused",
    "C74_iterator_refuted"
   ],
   "note": "Of the methods only len, item read, append (of a convertible value) and clear are in the histories; reference counts are C36, C40 and C50 (a second initialisation also never releases the old elements). Requests for memory other than the reservation succeed. Arguments without __index__ and subclass instances as arguments are covered only as non-iterables and iterables. SystemError stands for a result returned with the error indicator set."
  },
  {
   "property": "C75",
   "status": "proved",
   "theorems": [
    "C75_del_polite",
    "C75_del_appending",
    "C75_del_keeping",
    "C75_del_exact",
    "C75_del_shared",
    "C75_del_twice_refuted",
    "C75_remove",
    "C75_clear_polite",
    "C75_clear_appending",
    "C75_clear_keeping",
    "C75_clear_fuel",
    "C75_clear_endless_refuted",
    "C75_clear_front_refuted",
    "C75_clear_removed_refuted",
    "C75_clear_read_refuted",
    "C75_slice_polite",
    "C75_slice_appending",
    "C75_slice_zero",
    "C75_slice_removed_refuted",
    "C75_dealloc",
    "C75_del_without",
    "C75_clear_without",
    "C75_get"
   ],
   "note": "Finalizers return (their exceptions are dropped) or run into undefined behaviour; weak reference callbacks and the garbage collector are not modelled. clear and deallocation are loops with a step bound, None when it is used up; more steps never change an answer. The source of a slice assignment is another sequence, read by index without running code and not changed by the finalizers; x[a:b] = x with finalizers is left out."
  },
  {
   "property": "C76",
   "status": "proved",
   "theorems": [
    "C76_call",
    "C76_drop",
    "C76_values",
    "C76_array_call",
    "C76_array_session",
    "C76_array_session_keyed",
    "C76_sort_none_refuted",
    "C76_linked_session",
    "C76_linked_get_refuted",
    "C76_init_lost_refuted"
   ],
   "note": "Conversions and key comparisons run no code that changes counts; the size of a sequence does not fail. C76_values gives results, exceptions and contents; the answers of in, of keyed sorting and of repetition are those of C01 to C34. Immortal objects (None, booleans and cached ints from Python 3.12 on) are not counted."
  },
  {
   "property": "C77",
   "status": "proved",
   "theorems": [
    "C77_call",
    "C77_session",
    "C77_life",
    "C77_imul_refuted",
    "C77_set_refuted",
    "C77_sort_refuted",
    "C77_hint_refuted",
    "C77_init_refuted",
    "C77_pop_refuted"
   ],
   "note": "User code in a call does not touch the list or other counts (C70, C72, C75); the size of a sequence does not fail; a list argument is not the list itself; a permutation stands for the order a sort reaches. Refusals are a predicate on the size before and after growing. The contents a linked list's slice assignment leaves and exactly when it is undefined are C52. repr is C54."
  },
  {
   "property": "C78",
   "status": "proved",
   "theorems": [
    "C78_alone",
    "C78_clean",
    "C78_serial",
    "C78_locked",
    "C78_owner",
    "C78_value_race_refuted",
    "C78_node_race_refuted",
    "C78_freed_refuted",
    "C78_progress",
    "C78_object_serial",
    "C78_object_locked",
    "C78_object_owner",
    "C78_object_refuted"
   ],
   "note": "Linked lists: libstdc++'s node layout; the allocator hands out a new node each time; what a method does with values apart from the list (references, conversions) is left out; the loop of reverse is cut off after as many rounds as the list had elements when it was called. Object array list: only len, del, item store and reverse, no finalizers; reallocation does not occur in these. Sequentially consistent interleavings: with a data race C++ promises nothing."
  },
  {
   "property": "C79",
   "status": "proved",
   "theorems": [
    "C79_loaded",
    "C79_result",
    "C79_left",
    "C79_left_refuted",
    "C79_retry",
    "C79_files",
    "C79_files_all"
   ],
   "note": "CPython's PyModule_Create, PyModule_AddObject and the loader's treatment of a module returned with an error set are modelled; each of the first two makes one request. The slots of the types, and that PyType_Ready is never called, are outside; so are the package's __init__.py and the constants unsafe/__init__.py takes from a Python file."
  },
  {
   "property": "C80",
   "status": "proved",
   "theorems": [
    "C80_append",
    "C80_insert",
    "C80_extend_same",
    "C80_extend_items",
    "C80_construct_items",
    "C80_init_items",
    "C80_made",
    "C80_imul",
    "C80_slice",
    "C80_erase",
    "C80_nodes",
    "C80_freed",
    "C80_again_refuted"
   ],
   "note": "std::list is libstdc++'s: ranges are copied into a list of their own before they are linked in. Items are given by the value and error of PyLong_AsLong, indices and slices as positions (their arithmetic is C28's); + of two IntLinkedLists never gets to a node (C28). Python references are in C76."
  },
  {
   "property": "C81",
   "status": "proved",
   "theorems": [
    "C81_run",
    "C81_run_restores",
    "C81_run_restores_refuted",
    "C81_run_stays",
    "C81_run_fails",
    "C81_histories",
    "C81_clean",
    "C81_histories_refuted",
    "C81_free_refused"
   ],
   "note": "One thread (the interleavings and the lock are C43's). The machine code changes neither memory, protections nor the table; it needs every page it lies on to be executable. Page size 4096; VirtualProtect fails for an empty region or when the input says so. That freeFunctionFast has VirtualProtect write into a const variable is not modelled."
  },
  {
   "property": "C82",
   "status": "proved",
   "theorems": [
    "C82_direct",
    "C82_no_args",
    "C82_arguments_refuted",
    "C82_keywords_refuted",
    "C82_drained_refuted",
    "C82_method_refuted",
    "C82_no_slot_refuted",
    "C82_instance_refuted",
    "C82_not_callable_refuted",
    "C82_no_memory_refuted",
    "C82_global",
    "C82_global_refuted"
   ],
   "note": "The callee is an input: it changes no counts but the result's and keeps neither tuple nor dict. The behaviour of CPython's method_vectorcall (it writes args[-1] when told it may) is assumed."
  },
  {
   "property": "C83",
   "status": "proved",
   "theorems": [
    "C83_safe",
    "C83_whole",
    "C83_lists",
    "C83_left",
    "C83_freed",
    "C83_cycle_refuted"
   ],
   "note": "The collector is CPython's (update_refs, subtract_refs, move_unreachable, delete_garbage), reduced to one generation, without finalizers, weak references or resurrection. An object is known to the collector or not for good; a cleared object gives up the references it shows and keeps the hidden ones."
  },
  {
   "property": "C84",
   "status": "proved",
   "theorems": [
    "C84_same",
    "C84_left",
    "C84_sequence",
    "C84_iterator_refuted"
   ],
   "note": "Counts of the objects the call meets only: what these hold is released when they die. Conversions change no count. The exact amounts are for arguments without the undefined cases of C71 (a list of two inside a list or tuple that is an iterator; undefined user code); an entry that is not iterable is included, the process then ends."
  },
  {
   "property": "C85",
   "status": "proved",
   "theorems": [
    "C85_text",
    "C85_text_else",
    "C85_digits",
    "C85_digits_exact",
    "C85_constant",
    "C85_constant_long_refuted",
    "C85_count_refuted",
    "C85_form_refuted",
    "C85_iter",
    "C85_iter_exact",
    "C85_next",
    "C85_next_same",
    "C85_next_refuted"
   ],
   "note": "What CPython's PyLong_FromString, _PyLong_FromDigits, PyObject_GetIter and PyIter_Next do is written down from CPython's sources and trusted; memory for the int is granted. The slots of the five builtin types are assumed to return iterators or fail. The answers of slots are inputs."
  },
  {
   "property": "C86",
   "status": "proved",
   "theorems": [
    "C86_program",
    "C86_first_refuted",
    "C86_ready",
    "C86_attributes",
    "C86_list",
    "C86_methods",
    "C86_checked",
    "C86_dunders",
    "C86_hash",
    "C86_view",
    "C86_iterators",
    "C86_next",
    "C86_with",
    "C86_table",
    "C86_rmul_refuted",
    "C86_params"
   ],
   "note": "CPython's dispatch (which operation tries which slot, when a type is made ready, what readiness inherits) for 3.9 to 3.12 is written down from its sources and trusted. The tables are made by a script from the sources. Operands whose type is a Python subclass of the list, instances of subclasses, SIMDLowAVX512 and IntIntHashMap (not registered) are left out; what an attribute inherited from object does is left to object."
  },
  {
   "property": "C87",
   "status": "proved",
   "theorems": [
    "C87_construct",
    "C87_extend",
    "C87_recognised",
    "C87_add_refuted",
    "C87_slice",
    "C87_compare",
    "C87_subclass_right",
    "C87_exact",
    "C87_negative_refuted",
    "C87_own_iterator_refuted",
    "C87_linked_own_iterator_refuted",
    "C87_linked_own_end_refuted",
    "C87_own_empty"
   ],
   "note": "The elements converted are ints made by the lists themselves, so no conversion fails; memory is granted, no subclass overrides __iter__, __len__ or __getitem__ (then the operand is user code: C66, C68). Slices of other steps raise (C08); a list assigned to a slice of itself is C08 too. The loops without end are stated by rounds; lists reach the limits of memory long before the bound 2^64 of the linked case. Object lists: C88."
  },
  {
   "property": "C88",
   "status": "proved",
   "theorems": [
    "C88_recognised",
    "C88_extend",
    "C88_construct",
    "C88_own_iterator_refuted",
    "C88_linked_own_iterator_refuted",
    "C88_linked_own_end_refuted"
   ],
   "note": "The operand is not the list itself (C40, C51), its objects live, memory is granted, no subclass overrides the iteration. Slice assignment from an operand that is not recognised is the tuple case of C36, C50 and C52; comparisons recognise no class (C39). Int lists given to object lists are C90."
  },
  {
   "property": "C89",
   "status": "proved",
   "theorems": [
    "C89_history",
    "C89_granted",
    "C89_refused_value",
    "C89_refused_buckets_refuted",
    "C89_cleared_refuted",
    "C89_init",
    "C89_init_escapes_refuted"
   ],
   "note": "The allocator's answers are inputs of each step, one for the vector of values and one for the buckets; a vector that has room does not ask, so a history may refuse only where the code would ask. A failing emplace_back or copy assignment of std::vector is taken to leave the vector as it was (libstdc++, libc++). The copy is into a table just made. IntIntHashMap_copy is undefined anyway (C71). The other arguments of the construction, and refusals inside CPython, are not covered here."
  },
  {
   "property": "C90",
   "status": "proved",
   "theorems": [
    "C90_extend",
    "C90_construct",
    "C90_granted",
    "C90_exact",
    "C90_negative_refuted"
   ],
   "note": "The memory of the vector or of the list nodes is granted; objects are mortal (from 3.12 on small integers are not, so their counts stay). The object is given by the integer it stands for; its digits are C18. The operand is the list itself or an instance of a subclass without methods of its own."
  },
  {
   "property": "C91",
   "status": "proved",
   "theorems": [
    "C91_extend",
    "C91_construct",
    "C91_array_stops",
    "C91_construct_stops",
    "C91_linked_refuted",
    "C91_total"
   ],
   "note": "The conversion (PyLong_AsLong) of an object runs no code that changes counts or lists; memory is granted; the reference to the iterator is left out. PyIter_Next is CPython's: it calls tp_iternext and clears a StopIteration that is set. Instances of subclasses without methods of their own are read the same way."
  },
  {
   "property": "C92",
   "status": "proved",
   "theorems": [
    "C92_calls",
    "C92_sound",
    "C92_granted",
    "C92_memory_error_refuted"
   ],
   "note": "One thread (threads are C43) and arguments of the right type; what the code blocks do is left out. The allocator's two answers are inputs of each call. The string of freeFunction's message and the int returned find memory. The specification has the count of entries and buckets, not hashes or places; answers tell the size and protection given back to VirtualProtect, whose own answer is an input (C81 has the pages)."
  },
  {
   "property": "C93",
   "status": "proved",
   "theorems": [
    "C93_history",
    "C93_defined",
    "C93_clean",
    "C93_second_refuted"
   ],
   "note": "Blocks only: what the tables hold is C64, C71 and C89, references are C84. A construction is any list of growths of the vector, growths of the buckets and copies, more than the arguments can cause. The vector of a zeroed object is taken to be an empty one (libstdc++, libc++). IntIntHashMap_copy is undefined (C71) and not in the histories; errors of the arguments end a construction like an empty rest of the list."
  }
 ]
}
