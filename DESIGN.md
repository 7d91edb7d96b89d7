# Formal model of PyFastUtil (Rocq/Coq 8.16.1)

Sources modelled: `/repo/pyfastutil/src` (C++), read as text, never built.

## Approach

* Model files (`*Model.v`) translate the C++ functions one by one into executable
  Gallina. Each definition cites the file and lines it comes from. Model files
  contain no proofs.
* Outcomes are explicit (`Base.v`): normal return, raised exception, *return
  with the error indicator still set*, and undefined behaviour with its kind
  (out of bounds, misaligned, use after free, null, signed overflow, overlap,
  bad free). Non-termination is a statement about all step counts.
* Spec files (`*Spec.v`) are written from the documentation of Python, C and
  the processor and do not mention the model (a few use its data types).
* Proof files (`*Proofs.v`, `*Facts.v`, `*Lemmas.v`) connect the two.
* `Props*.v` contain only the property theorems, each closed by a lemma, each
  followed by `Print Assumptions`, with an `Example` instance beside it.
* When a property a user relies on is false of the code, the property statement
  gives the exact domain where it holds. The theorem set contains the positive
  theorem on that domain and a `_refuted` theorem, or a characterisation of what
  happens, outside it.

## Per property: what is modelled, how it is proved

| id | model | proof |
|----|-------|-------|
| C01 | vector state, every method as state -> result * state, one `kind` parameter for the 32 and 64 bit files | per-method refinement to the Python list of PyListSpec, then induction over histories; several lists and names in ArrayWorldModel |
| C02 | PyLong_AsLong / AsLongLong conversion with truncation | arithmetic characterisation for all z |
| C03 | constructor over its argument shapes | induction over items; independence through the store of lists |
| C04 | extend loop over a possibly failing iterator | induction over items |
| C05 | index with bounds normalisation and std::find | least index in the range |
| C06 | contains/count/remove with truncation | as C02, plus refutations |
| C07 | PySlice_Unpack/AdjustIndices and the read loop with bounds checked accesses | equality with a slice spec stated by membership; in bounds as absence of undefined behaviour |
| C08, C09 | slice assignment loops, re-reading the source on every step | loop invariants; refutation for aliasing; state after a failure |
| C10 | the comparison functions and the comparison with a foreign sequence | equality with a lexicographic spec, order laws |
| C11 | repr with a decimal printer | printer/parser round trip, injectivity |
| C12 | PyParse_EvalRange + from_range | closed form, divisibility domain, refutation outside |
| C13 | resize | list lemmas |
| C14 | mul/imul on byte memory with the vector copy of SimdCopyModel | memory lemmas, alignment predicate, refutations |
| C15 | add/iadd | direct |
| C16, C17 | iterator state machine interleaved with list operations | invariants over traces, refutations |
| C18, C19 | sign + 30-bit digit representation of Python integers, two layouts | arithmetic on digit lists |
| C20 | simdsort, block sorts, block merge; gfx::timsort on the machine of C21 | sorted permutation on the safe lengths, characterisation of the elements lost elsewhere |
| C21, C22, C23 | powersort/timsort of CPythonSort.c on an array memory with an arbitrary comparison oracle that may fail | permutation invariant for every oracle; sortedness and stability for weak orders; absence of undefined behaviour |
| C24 | qReverse per width and CPU flags on byte memory, vector instructions at byte level | loop invariant over blocks |
| C25, C26 | simdMemCpy(Aligned), fast_memcpy on byte memory with alignment | loop invariants |
| C27-C34 | std::list with node identities, iterator with cached node | refinement, invariants, refutations |
| C35-C40 | reference count store; object array list and object linked list | balance invariant over histories, refutations |
| C41, C42 | C heap of blocks with an allocator oracle; object counts | invariants over histories |
| C43 | lock and table state machine with threads | reachability and invariants over all interleavings |
| C44 | pool state machine; construction beside running workers | invariants over all interleavings, progress, refutation of task ownership; runs of the constructor embedded in those of the machine |
| C45, C58 | setters, copy and reverse wrappers over the C heap | lane decomposition; reuse of C24, C25 |
| C46 | get_buffer | the bytes of the view decode to the list |
| C47, C48, C49 | the sort methods around CPython_sort; ArgParse of `reverse` | composition with C21; refutations for resizing callbacks and for narrowed `reverse` |
| C50, C55 | several object lists with shared references, every call, destruction | refinement to histories of Python lists, balance as invariant |
| C51, C52 | same; LinkSliceSpec states slice assignment on plain lists, LinkSliceProofs proves the model equal to it | calls that are undefined or wrong, each characterised |
| C53, C54, C56 | comparison, repr and iterators of object lists against item callbacks that may change the list | refinement to list_richcompare / list_repr when the list is not changed; refutations |
| C57 | Py_INCREF / Py_DECREF before and from 3.12, the library's own raw counters | invariants over histories; lifetime of immortal objects |
| C59, C60, C61 | one binding function over a table of all AVX-512 bindings | facts for all arguments, table facts by computation |
| C62 | pre-sort check and unsafe comparison functions of CPythonSort.c | agreement with Python's `<`; refutation on the values where the shortcut differs |
| C63 | CPUID/XCR0 feature detection and the list of guarded blocks | all CPUs: what each flag guarantees; refutations |
| C64 | robin-hood table of UnorderedDense.h | invariant of the bucket array, refinement to a finite map for every history |
| C65 | the C streams with an arbitrary buffering, CPython's UTF-8 codec | codec against RFC 3629 as a relation; induction over histories and lines |
| C66 | the array-list methods again, every conversion running user code that may change the list | user code as an arbitrary function on contents; equality with the atomic Python call, induction over the loops |
| C67 | get_buffer and dealloc over a heap of numbered buffers; any number of lists and views | simulation between the heap and a specification without addresses (lists count their moves), induction over histories |
| C68 | the linked-list methods again, every conversion running user code that may change the list, nodes included | user code as an arbitrary function on the list object; equality with the atomic Python call, invariant on the iterator's node (still linked, at least the expected number of nodes after it) |
| C69 | the array-list methods with every request for memory made explicit: which are inside a try, inside a region without the thread state, or neither | memory as an oracle (which requests are refused, size limits, growth); refinement up to reported refusals by induction over histories, exact conditions per method |
| C70 | the releasing methods of ObjectArrayList with finalizers, reference counts, owners and the identity of the buffers | finalizer as an arbitrary state function; invariant (one owner per reference) by induction over the release loops, exact equations for del and remove |
| C71 | IntIntHashMap_init and copy over the table of C64: argument kinds, conversions with pending errors, the static lambda | refinement to finite maps by induction over items and entries, using the table's refinement; exact outcome at the first bad entry |
| C72 | the comparison and repr loops of both object lists over an arbitrary Python side (liveness, methods, finalizers), with do_richcompare's order of questions | refinement to list_richcompare and list_repr as inductive relations; undefined outcomes characterised by reachability of a bad pair or item, both directions |
| C73 | calls as programs of single memory accesses with lock release and acquire; threads and their interleavings; the calls of the integer array lists as such programs | DRF theorem (race-free implies serial) by commuting accesses; lock-set rules for race freedom; schedules that reach a race |
| C74 | zero-filled and constructed containers, argument parsing, heap blocks with identities, histories over named objects; stale iterators | simulation of Python lists with block ownership as invariant; ownership is a permutation of the heap |
| C75 | the releasing methods of ObjectLinkedList with finalizers, node identities, reference counts and owners | as C70; a finalizer that keeps its object's node as a rely condition on the nodes around it, by induction over the release loops |
| C76 | the calls of the three integer lists as changes to reference counts, with a supply of objects not yet made, refused allocations, iterators and sequences that fail | each state by the multiset of references added to the first one; induction over items, then over calls |
| C77 | the calls of the two object lists as changes to the contents and the reference counts, with growth that may be refused, objects that cannot be made, failing iterators, sequences, keys and comparisons | as C76, with the elements as references the list owns: each call by the multisets of references left behind and not taken; then induction over programs |
| C78 | the methods of a linked list as programs over the links, values and allocation marks of its nodes, those of the object array list over elements and reference counts; reverse gives up the lock | each program walked through symbolically on any chain of nodes (result, no freed node, accesses met on the way); C73's serialisation, rules and schedules; for each gap and position the round in which reverse reaches it |
| C79 | PyInit functions over reference counts and module dictionaries, with memory as an oracle; the loader; the three Python files | what one class adds in each of four cases, composed by induction over the classes; every attempt leaves a state from which the next may start |
| C80 | std::list with every node a request that may be refused, the exception paths of each call, histories over a pool of lists | each operation keeps 'allocated nodes = nodes of the lists, each once' (permutations), with the values given by the number of requests met; induction over the history |
| C81 | run, runFast, the makers and freers with a protection per page, the allocated blocks and the table; answers of the allocator and VirtualProtect as inputs | the pages of the model (an interval) are those the bytes lie on; each call keeps 'protection = executable under live functions, else as before' and the recorded protections; induction over the history |
| C82 | the three ways a call reaches its callee, argument tuple and keyword dict, reference counts; the callee's answer as input | releasing a list of references succeeds iff there are so many, then each count falls by the occurrences; cases by the kind of callable; induction over repeated calls |
| C83 | heap of objects with the references the collector sees and those it does not, the collector's passes and the release of what has no reference left | counts after the subtraction are the references from elsewhere and the unseen ones; the passes reach a fixpoint (pigeonhole on the filtered list) that is the inductive 'held'; sets closed under being referred to survive the release, and what survives is such a set |
| C84 | the loops of IntIntHashMap_init with a reference count per object; same inputs as C71 | agreement with C71's model by induction over the entries; counts: each entry adds its own, the loop's reference goes unless an entry is no pair; the table steps succeed below 2^24 - 2 entries (C71) |
| C85 | reading a text as PyLong_FromString does, digits as they are, the type tests of PyFast_GetIter, the slots' answers as input | the scanner accepts exactly the inductive numerals, by induction over text and numeral; digits by the uniqueness of Python's form; the rest by cases |
| C86 | the tables of slots and methods (script from the sources), a flag per type for readiness, CPython's dispatch of each operation | answers compared in both states by cases over classes; induction over programs for readiness; the tables by computation, names and argument counts in general |
| C87 | an operand is a list of one of the three classes with a flag for the exact type; iteration and item access of the source class feed the functions of the target class | induction over the drained iterator; results by the element-wise relation; the loops over the own iterator by induction over rounds with the position as invariant |
| C88 | the push loop over the iterators of the object lists with their reference counts, a flag for the exact type | induction over the iterated elements; rounds as in C87 with the counts as invariant |
| C89 | C64's table or values without buckets, two answers of the allocator for each step; the dict loop of IntIntHashMap_init | simulation by a finite map with a bucket count, on top of C64's refinement; induction over histories and over the dict's entries |
| C90 | the push loop over the iterators of the int lists; a heap of counts, integers and the next free address, the cache of small integers and the allocator's answers as inputs | the loop is the fold over the elements; induction with cache and free addresses as invariant |
| C91 | the two item loops (checked, unchecked) of the int lists over the object lists' iterators with reference counts and the pending error | the iterators hand out the objects in order; induction over them, cut at the first object that does not convert |
| C92 | the four table methods of ASM.cpp over C89's table, refused memory ending the process; debug assertion as a flag | simulation by a finite map with a bucket count, each access by C89's step lemma; induction over calls |
| C93 | the two blocks of each IntIntHashMap under any steps of its table, placement new forgetting them, the destructor | invariant: allocated blocks are a permutation of owned and lost ones; induction over steps and histories |


## Trusted base

* Coq's kernel (8.16.1, `vm_compute` included).
* Axioms: `Print Assumptions` answers *Closed under the global context* for each
  of the 704 theorems below; no axiom of the standard library is used. (A scan
  of all loaded libraries also shows seven constants of `Coq.ssr.ssrunder`,
  parameters of a module type there; nothing depends on them.)
* That the Gallina models say what the C++ code does. They were written by
  reading; the cited lines are the check. Nothing was executed.
* The behaviour assumed of things outside the repository: the C++ standard
  library (std::vector, std::list, std::sort, std::find, std::count, mutex,
  condition variable), the C library, the CPython C API in the two
  configurations "before 3.12" and "3.12 and later", the processor's vector
  instructions, the compiler. LP64 (`long` has 64 bits) on x86 with GCC or Clang
  unless a definition says otherwise. Allocation succeeds except where the
  allocator's answer is an explicit input (Unsafe, ASM, the merge buffer).
* Tables made by a script from the sources: `TypeTable.v` (slots and methods of
  the other classes), `Avx512Table.v`, `Avx512Stub.v` (rows of
  SIMDLowAVX512.cpp) and the list `guarded` in `CpuModel.v`.

| property | file | theorems, each closed under the global context |
|----|----|----|
| C01 | PropsArrayList.v | C01_history_refines_python_list, C01_elements_canonical, C01_raise_keeps_contents, C01_pop_huge_empty_refuted, C01_index_huge_bound_refuted |
| C02 | PropsArrayList.v | C02_stored_value_unique, C02_append, C02_setitem, C02_extend_and_construct, C02_round_trip, C02_big_exact, C02_int_silent_change, C02_insert_rejects |
| C03 | PropsArrayList.v | C03_construct_items, C03_bad_item_runtime_error, C03_iterator_error, C03_int_argument_empty, C03_programs_refine_python, C03_copy_is_fresh, C03_frame |
| C04 | PropsArrayList.v | C04_failed_extend_keeps_prefix, C04_raising_iterator_keeps_prefix, C04_not_iterable |
| C05 | PropsArrayList.v | C05_index_least, C05_value_out_of_range |
| C06 | PropsArrayList.v | C06_contains, C06_count, C06_remove, C06_rejected, C06_false_membership_refuted |
| C07 | PropsArrayList.v | C07_slice_read |
| C08 | PropsArrayList.v | C08_slice_assign, C08_other_steps, C08_from_other_list, C08_from_other_list_312_refuted, C08_self_assignment_refuted, C08_delete_slice_crashes |
| C09 | PropsArrayList.v | C09_failed_slice_assign, C09_not_atomic_refuted |
| C10 | PropsArrayMore.v, PropsCmpErrors.v | C10_same_class, C10_list_operand, C10_order_laws, C10_unconvertible_refuted, C10_item_fails, C10_size_refuted, C10_wrapped_equal_refuted, C10_not_sequence, C10_length, C10_reads_total, C10_order_any_refuted, C10_equality_any_refuted |
| C11 | PropsArrayMore.v | C11_repr_is_list_repr, C11_repr_injective |
| C12 | PropsArrayMore.v | C12_positive_step, C12_negative_step, C12_overflow, C12_overflow_refuted, C12_arguments, C12_linked, C12_range_unique, C12_zero_step, C12_short_forms, C12_sentinel_refuted |
| C13 | PropsArrayList.v | C13_resize, C13_resize_rejects |
| C14 | PropsArrayMore.v | C14_mul_copies, C14_mul_misaligned, C14_mul_nonpositive, C14_imul_refuted, C14_imul_small |
| C15 | PropsArrayList.v | C15_add_python_list, C15_add_same_class, C15_iadd_rebinds_none, C15_iadd_other_iterable, C15_iadd_list_keeps_name |
| C16 | PropsArrayMore.v | C16_forward_trace, C16_for_loop_is_python, C16_unmodified, C16_resumes_refuted |
| C17 | PropsArrayMore.v | C17_unmodified, C17_trace, C17_for_loop_is_python, C17_shrunk_refuted, C17_empty_grown_refuted |
| C18 | PropsPyLong.v | C18_canonical_object, C18_old_exact, C18_312_canonical_iff, C18_312_equal_iff, C18_312_value, C18_312_truthy |
| C19 | PropsPyLong.v | C19_asint_312, C19_asint_old_iff, C19_asint_old_value, C19_assmall_old, C19_assmall_312 |
| C20 | PropsSimdSort.v | C20_sorts, C20_scalar_cpu, C20_short, C20_timsort, C20_timsort_safe, C20_safe, C20_out_of_bounds_refuted, C20_blocks, C20_distinct_refuted, C20_bigint_eight_refuted, C20_bigint_distinct_refuted |
| C21 | PropsSort.v | C21_plain_sort, C21_key_sort, C21_array_list, C21_int_linked_list, C21_exact_domain, C21_object_lists, C21_object_lists_key, C21_slices_in_step, C21_slot_steps |
| C22 | PropsSort.v | C22_plain_any_oracle, C22_key_any_oracle, C22_key_array_refused |
| C23 | PropsSort.v | C23_array_list, C23_int_linked_list, C23_object_lists, C23_key_failure, C23_no_memory, C23_error_reported_refuted |
| C24 | PropsMem.v | C24_reverse, C24_reverse_twice, C24_reverse16_refuted, C24_reverse16_exact |
| C25 | PropsMem.v | C25_copied_meaning, C25_copy_exact, C25_aligned_copy |
| C26 | PropsMem.v | C26_fast_memcpy |
| C27 | PropsLinkedList.v | C27_seek |
| C28 | PropsLinkedList.v | C28_history_refines_python_list, C28_sort_specification, C28_construction, C28_construction_fails, C28_construction_iterator, C28_not_iterable, C28_repr |
| C29 | PropsLinkedList.v | C29_pop_index, C29_pop_empty |
| C30 | PropsLinkedList.v | C30_append, C30_extend, C30_append_converts, C30_iadd_values |
| C31 | PropsCmpErrors.v, PropsLinkedList.v | C31_not_sequence, C31_length, C31_size_refuted, C31_item_fails, C31_unconvertible_refuted, C31_order_any_refuted, C31_equality_any_refuted, C31_list_operand, C31_same_class, C31_shorter_is_greater_refuted, C31_not_reflexive_refuted, C31_copy_unequal_312_refuted |
| C32 | PropsLinkedList.v, PropsObject.v | C32_mul, C32_imul, C32_imul_refuted, C32_add, C32_add_fails, C32_object_lists, C32_object_lists_by_zero |
| C33 | PropsLinkedList.v | C33_interleavings, C33_unmodified, C33_quiet_calls, C33_modified_drops_last, C33_modified_at_end, C33_del_use_after_free, C33_iadd_derefs_end, C33_python_iterator_refuted |
| C34 | PropsLinkedList.v | C34_reversed, C34_empty, C34_reversed_refuted |
| C35 | PropsObject.v | C35_balanced, C35_all_released |
| C36 | PropsObject.v | C36_item_assignment_leaks, C36_leak_history, C36_construction_takes_no_references, C36_construction_history, C36_resize, C36_resize_frees_none, C36_growing_slice_assignment, C36_repetition_by_zero_leaks |
| C37 | PropsObject.v | C37_search_by_identity, C37_linked, C37_agrees_without_equal_objects, C37_count_refuted, C37_index_remove_refuted, C37_membership_refuted |
| C38 | PropsObject.v | C38_never_returns, C38_otherwise_returns |
| C39 | PropsCmpErrors.v, PropsObject.v | C39_not_sequence, C39_length, C39_size_refuted, C39_item_fails, C39_equality_is_python, C39_equality_linked, C39_ordering, C39_ordering_right_when_first_pair_differs, C39_different_lengths_refuted, C39_reflexivity_refuted, C39_later_pairs_ignored_refuted, C39_incoherent_items_refuted |
| C40 | PropsObject.v | C40_balanced, C40_all_released, C40_item_assignment_leaks, C40_leak_history, C40_extend_self_leaks, C40_repetition_by_zero_leaks, C40_construction_history |
| C41 | PropsUnsafe.v | C41_blocks_apart, C41_get, C41_set, C41_memset, C41_memcpy, C41_call, C41_call_large, C41_malloc, C41_malloc_fails, C41_calloc, C41_calloc_overflow, C41_aligned_malloc, C41_aligned_address, C41_realloc, C41_realloc_fails, C41_realloc_zero_refuted, C41_free, C41_bad_access, C41_overlap, C41_bad_release, C41_arguments, C41_wrong_release, C41_get_null_refuted, C41_persists |
| C42 | PropsUnsafe.v | C42_same_object, C42_counts, C42_dropped, C42_freed_refuted, C42_with_incref, C42_immortal |
| C43 | PropsThread.v | C43_exclusive, C43_no_race, C43_table, C43_released, C43_progress, C43_only_relock, C43_free, C43_free_unknown, C43_no_null, C43_failed_free_refuted, C43_fast_race_refuted, C43_fast_lost_entry_refuted, C43_fast_phantom_refuted, C43_not_windows |
| C44 | PropsPoolMake.v, PropsThread.v | C44_construct, C44_construct_total, C44_first_refused, C44_refused_refuted, C44_refused_ways, C44_no_workers_refuted, C44_one_task, C44_fifo, C44_window, C44_returned_never_begins, C44_submit_refused, C44_dangling, C44_dangling_refuted, C44_future, C44_shutdown, C44_self_submit_refuted, C44_no_lost_wakeup, C44_holder_moves, C44_join |
| C45 | PropsSimdBind.v | C45_places, C45_reduced_iff, C45_count, C45_undefined |
| C46 | PropsArrayMore.v | C46_buffer_describes_list |
| C47 | PropsSort.v | C47_contents, C47_old_iff, C47_new_negative, C47_big, C47_values_kept_refuted |
| C48 | PropsSort.v | C48_array_moved, C48_array_resized, C48_linked_resized |
| C49 | PropsSimdSort.v | C49_nokey_only_one, C49_linked_only_one, C49_key_any_nonzero, C49_nokey_refuted |
| C50 | PropsObject.v | C50_array_histories_like_python, C50_excluded_refuted |
| C51 | PropsObject.v | C51_slice_deletion, C51_extend_self, C51_self_slice_assignment, C51_no_length, C51_no_length_at_start |
| C52 | PropsObject.v | C52_pop_index, C52_slice_deletion, C52_slice_assignment, C52_assignment_undefined, C52_equal_size, C52_wrong_size, C52_crossing_bounds, C52_stepped_assignment_refuted, C52_crossing_bounds_refuted |
| C53 | PropsObject.v | C53_array, C53_linked |
| C54 | PropsObject.v | C54_repr |
| C55 | PropsObject.v | C55_linked_histories_like_python |
| C56 | PropsObject.v | C56_array_iterator, C56_linked_iterator |
| C57 | PropsUnsafe.v | C57_bounded, C57_drift_refuted, C57_mortal_refuted, C57_before_312 |
| C58 | PropsSimdBind.v | C58_memcpy, C58_reverse, C58_reverse_long_double_refuted, C58_argument_count, C58_memcpy_bad_count_refuted, C58_memcpy_bad_address_refuted, C58_reverse_bad_refuted, C58_nothing |
| C59 | PropsAvx512.v | C59_register, C59_memory, C59_count, C59_bad_operand, C59_masks, C59_results, C59_names, C59_stub, C59_unimplemented, C59_gated_refuted, C59_setters |
| C60 | PropsAvx512.v | C60_read, C60_same, C60_not_the_value, C60_declared_int |
| C61 | PropsAvx512.v | C61_load, C61_load_undefined, C61_store, C61_store_undefined, C61_bound, C61_direct_refuted |
| C62 | PropsPreSort.v | C62_selected, C62_sorts, C62_never_long |
| C63 | PropsCpu.v | C63_answers, C63_system, C63_exact, C63_avx512, C63_blocks, C63_unsaved, C63_bytes_words, C63_avx512_refuted, C63_msvc_refuted |
| C64 | PropsHash.v | C64_finite_map, C64_equality, C64_hash, C64_product, C64_distance_bits |
| C65 | PropsStdio.v | C65_output, C65_flush, C65_complete, C65_lines, C65_ascii, C65_cut, C65_split_refuted, C65_nul_refuted, C65_one_refuted, C65_size, C65_safe, C65_leak, C65_no_memory, C65_encoder, C65_decoder |
| C66 | PropsReentrant.v | C66_atomic, C66_index_default, C66_index_default_refuted, C66_pop_exact, C66_pop_same_size, C66_pop_shrink_refuted, C66_pop_grow_refuted, C66_set_exact, C66_set_same_size, C66_set_shrink_refuted, C66_slice_assign_safe, C66_slice_assign_atomic, C66_slice_unconverted, C66_zero_step, C66_slice_shrink_refuted, C66_slice_stale_refuted, C66_len_raises_refuted, C66_compare_safe, C66_compare_plain, C66_compare_unconverted, C66_compare_shrink_refuted, C66_extend, C66_extend_unique, C66_sort_key |
| C67 | PropsView.v | C67_refines, C67_only_freed, C67_no_leak, C67_when_freed, C67_view_shows, C67_dropped_refuted, C67_outgrown_refuted, C67_shape_refuted |
| C68 | PropsLinkedReentrant.v | C68_atomic, C68_append_unconverted, C68_index_default, C68_index_default_refuted, C68_pop, C68_set_exact, C68_set_unconverted, C68_set_clear_refuted, C68_slice_assign_safe, C68_slice_assign_atomic, C68_slice_unconverted, C68_slice_erased_refuted, C68_len_raises_refuted, C68_compare_safe, C68_compare_plain, C68_compare_unconverted, C68_compare_erased_refuted, C68_zero_step, C68_extend, C68_extend_unique, C68_adds_only_keeps |
| C69 | PropsAlloc.v | C69_enough_memory, C69_refusals_are_reported, C69_only_extend_kills, C69_objects_exact, C69_growth_exact, C69_extend_list_exact, C69_extend_same_exact, C69_extend_iter_killed, C69_length_hint_refuted, C69_mul_exact, C69_mul_huge_refuted, C69_imul_exact, C69_sort_exact, C69_sort_key_exact, C69_repr, C69_init_safe, C69_init_enough, C69_init_huge_hint, C69_from_range, C69_add, C69_add_exact |
| C70 | PropsFinal.v | C70_del_polite, C70_del_appending, C70_del_exact, C70_del_shared, C70_del_dangling_refuted, C70_del_twice_refuted, C70_remove, C70_clear_polite, C70_clear_appending, C70_clear_spoiled_refuted, C70_clear_read_refuted, C70_slice_polite, C70_slice_step, C70_slice_appending, C70_slice_spoiled_refuted, C70_dealloc, C70_del_without, C70_clear_without |
| C71 | PropsMap.v | C71_from_dict, C71_from_dict_exact, C71_from_map, C71_from_iterator, C71_from_iterator_distinct, C71_last_pair_wins_refuted, C71_from_iterator_stops, C71_from_sequence, C71_from_sequence_stops, C71_from_mapping_refuted, C71_iterable_ignored, C71_refused, C71_first_captures, C71_second_refuted, C71_copy_refuted |
| C72 | PropsCompare.v | C72_array_like_python, C72_array_safe, C72_array_equality_undefined, C72_array_order_undefined, C72_array_repr, C72_array_repr_undefined, C72_array_repr_safe, C72_array_repr_again_refuted, C72_array_repr_late_refuted, C72_linked_like_python, C72_linked_safe, C72_linked_equality_undefined, C72_linked_order_undefined, C72_linked_repr, C72_linked_repr_undefined, C72_linked_repr_safe, C72_linked_repr_emptied_refuted, C72_array_refuted, C72_linked_refuted, C72_linked_repr_front_refuted |
| C73 | PropsGil.v | C73_serial, C73_alone, C73_locked, C73_readers, C73_owner, C73_element_race_refuted, C73_size_race_refuted, C73_imul_race_refuted, C73_lost_refuted, C73_progress |
| C74 | PropsLife.v | C74_linked, C74_answers, C74_memory, C74_clean, C74_careless_refuted, C74_refused, C74_iterator_refuted |
| C75 | PropsLFinal.v | C75_del_polite, C75_del_appending, C75_del_keeping, C75_del_exact, C75_del_shared, C75_del_twice_refuted, C75_remove, C75_clear_polite, C75_clear_appending, C75_clear_keeping, C75_clear_fuel, C75_clear_endless_refuted, C75_clear_front_refuted, C75_clear_removed_refuted, C75_clear_read_refuted, C75_slice_polite, C75_slice_appending, C75_slice_zero, C75_slice_removed_refuted, C75_dealloc, C75_del_without, C75_clear_without, C75_get |
| C76 | PropsIRef.v | C76_call, C76_drop, C76_values, C76_array_call, C76_array_session, C76_array_session_keyed, C76_sort_none_refuted, C76_linked_session, C76_linked_get_refuted, C76_init_lost_refuted |
| C77 | PropsORef.v | C77_call, C77_session, C77_life, C77_imul_refuted, C77_set_refuted, C77_sort_refuted, C77_hint_refuted, C77_init_refuted, C77_pop_refuted |
| C78 | PropsLGil.v | C78_alone, C78_clean, C78_serial, C78_locked, C78_owner, C78_value_race_refuted, C78_node_race_refuted, C78_freed_refuted, C78_progress, C78_object_serial, C78_object_locked, C78_object_owner, C78_object_refuted |
| C79 | PropsImport.v | C79_loaded, C79_result, C79_left, C79_left_refuted, C79_retry, C79_files, C79_files_all |
| C80 | PropsLMem.v | C80_append, C80_insert, C80_extend_same, C80_extend_items, C80_construct_items, C80_init_items, C80_made, C80_imul, C80_slice, C80_erase, C80_nodes, C80_freed, C80_again_refuted |
| C81 | PropsPage.v | C81_run, C81_run_restores, C81_run_restores_refuted, C81_run_stays, C81_run_fails, C81_histories, C81_clean, C81_histories_refuted, C81_free_refused |
| C82 | PropsNative.v | C82_direct, C82_no_args, C82_arguments_refuted, C82_keywords_refuted, C82_drained_refuted, C82_method_refuted, C82_no_slot_refuted, C82_instance_refuted, C82_not_callable_refuted, C82_no_memory_refuted, C82_global, C82_global_refuted |
| C83 | PropsGc.v | C83_safe, C83_whole, C83_lists, C83_left, C83_freed, C83_cycle_refuted |
| C84 | PropsMapRef.v | C84_same, C84_left, C84_sequence, C84_iterator_refuted |
| C85 | PropsHelper.v | C85_text, C85_text_else, C85_digits, C85_digits_exact, C85_constant, C85_constant_long_refuted, C85_count_refuted, C85_form_refuted, C85_iter, C85_iter_exact, C85_next, C85_next_same, C85_next_refuted |
| C86 | PropsType.v | C86_program, C86_first_refuted, C86_ready, C86_attributes, C86_list, C86_methods, C86_checked, C86_dunders, C86_hash, C86_view, C86_iterators, C86_next, C86_with, C86_table, C86_rmul_refuted, C86_params |
| C87 | PropsMix.v | C87_construct, C87_extend, C87_recognised, C87_add_refuted, C87_slice, C87_compare, C87_subclass_right, C87_exact, C87_negative_refuted, C87_own_iterator_refuted, C87_linked_own_iterator_refuted, C87_linked_own_end_refuted, C87_own_empty |
| C88 | PropsMixObj.v | C88_recognised, C88_extend, C88_construct, C88_own_iterator_refuted, C88_linked_own_iterator_refuted, C88_linked_own_end_refuted |
| C89 | PropsHashMem.v | C89_history, C89_granted, C89_refused_value, C89_refused_buckets_refuted, C89_cleared_refuted, C89_init, C89_init_escapes_refuted |
| C90 | PropsBox.v | C90_extend, C90_construct, C90_granted, C90_exact, C90_negative_refuted |
| C91 | PropsUnbox.v | C91_extend, C91_construct, C91_array_stops, C91_construct_stops, C91_linked_refuted, C91_total |
| C92 | PropsAsmMap.v | C92_calls, C92_sound, C92_granted, C92_memory_error_refuted |
| C93 | PropsMapLife.v | C93_history, C93_defined, C93_clean, C93_second_refuted |

## What of the code is modelled

Paths relative to `/repo/pyfastutil/src`.

| file | modelled in | left out |
|----|----|----|
| ints/IntArrayList.cpp, ints/BigIntArrayList.cpp | ArrayListModel, ArrayListMoreModel, ArrayWorldModel, SortMethodModel, SimdSortModel: every method and slot; ReentrantModel: user code in between; ViewModel: get_buffer, dealloc and the buffers' life time; AllocModel: failing allocations; GilModel: released GIL and threads; LifeModel: argument parsing, init and dealloc; IRefModel: references taken; TypeTable, TypeModel: slots and methods; MixModel: operands of other classes | what `__class_getitem__` returns |
| ints/*ArrayListIter.cpp | ArrayListMoreModel, IRefModel (create, dealloc), TypeTable | - |
| ints/IntLinkedList.cpp, ints/IntLinkedListIter.cpp | LinkedListModel, StdListModel, SortMethodModel, LinkedReentrantModel, LGilModel (threads); LifeModel: argument parsing, init and dealloc; IRefModel: references taken; LMemModel: nodes and refused memory; MixModel: operands of other classes | as above |
| ints/IntIntHashMap.cpp | MapModel, over HashModel; MapRefModel: references taken by the construction; HashMemModel: refused memory, from a dict; MapLifeModel: blocks, dealloc | the class is not registered with the module |
| objects/ObjectArrayList.cpp, ObjectArrayListIter.cpp | ObjModel, ObjArrayModel, ObjMoreModel, ObjWorldModel, SortMethodModel, LGilModel (threads), FinalModel (finalizers), CompareModel (user code in comparisons and repr), LifeModel (argument parsing, init, dealloc), ORefModel (references, refused memory), GcModel (no garbage collector support), TypeTable, TypeModel, MixObjModel (operands of other classes), BoxModel (int lists as operands), UnboxModel (given to int lists) | as above |
| objects/ObjectLinkedList.cpp, ObjectLinkedListIter.cpp | ObjLinkedModel, StdListModel, ObjMoreModel, ObjWorldModel, SortMethodModel, LGilModel (threads), LFinalModel (finalizers), CompareModel, LifeModel, ORefModel, GcModel, MixObjModel, BoxModel, UnboxModel | as above |
| unsafe/Unsafe.cpp | UnsafeModel (malloc, calloc, realloc, free, aligned_*, get, set, memcpy, memset, call*), RefCountModel (get_address, as_object, incref, decref, refcnt), StdioModel (fputs, fflush, fgets), TypeModel (`with`) | what the function called by call* does |
| unsafe/ASM.cpp | AsmModel (makeFunction, freeFunction, their Fast forms, threads), AsmMapModel (the same in one thread over the hash table, memory refused), PageModel (all six calls, page protections) | what the machine code does |
| unsafe/SIMD.cpp | SimdBindModel; the is*Supported getters in CpuModel | ARM branches |
| unsafe/SIMDLowAVX512.cpp | Avx512Model, Avx512Table, Avx512Stub | what the intrinsics compute |
| utils/PythonUtils.h | PyLongModel (PyFast_FromInt/AsInt/AsShort/AsChar), ArrayListMoreModel (PyParse_EvalRange), RefCountModel (Py_FastIncRef and friends), NativeModel (call helpers, PyFast_LoadGlobal), HelperModel (PyFast_FromDigits, PyFast_GetIter, PyFast_Next) | Line 217 names an undeclared variable, so the code before Python 3.12 does not compile at the pinned commit; that configuration is modelled all the same |
| utils/Utils.h | StdListModel (`at`) | - |
| utils/memory/FastMemcpy.h, utils/simd/SIMDUtils.h | SimdCopyModel, QReverseModel | prefetch, ARM |
| utils/memory/AlignedAllocator.h, PreFetch.h | the 64-byte alignment of vectors; AllocModel: a refusal is std::bad_alloc | prefetch |
| utils/simd/BitonicSort.cpp | SimdSortModel | prefetch |
| utils/simd/SIMDHelper.cpp | CpuModel | ARM |
| utils/include/CPythonSort.c | CPythonSortModel, SortSliceModel, PreSortModel | statistics macros |
| utils/include/TimSort.h | TimSortModel | iterator and traits boilerplate |
| utils/include/qreverse.hpp | QReverseModel | ARM branch |
| utils/include/UnorderedDense.h | HashModel; HashMemModel: refused memory | rehash, reserve, segmented vector, sets, transparent lookup, iterator overloads |
| utils/thread/ScheduledThreadPool | PoolModel (with refused memory in submit); PoolMakeModel: the constructors, threads that cannot be had | what tasks compute |
| PyFastUtil.cpp, the PyInit functions, ints.py, objects.py, unsafe/__init__.py | ImportModel, TypeModel (readiness and dispatch) | - |
| Compat.h, *.h, setup.py, scripts/ | not modelled | build, code generators |

Simplifications inside a modelled function are stated in the comment of the
definition or at the head of its file.

## Mutation testing

`seeded/LOG.jsonl` has one line per attempt: a model definition was changed as a
plausible bug would change the code, in a copy, and the development rebuilt. The
line names the claim the change falsifies and the theorems that stopped proving.
Theorems that had survived a falsifying change were tightened; the line says so.
Lines A001 and following are a screening by script: one small edit in each
definition that has a place for one, the build stopped at the first proof that
fails. Their survivors were only read, not rebuilt with further theorems; the line
gives the reason found.
