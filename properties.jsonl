{"id": "C01", "title": "Array lists refine the Python list over every history", "statement": "Starting from any IntArrayList or BigIntArrayList, after any finite sequence of append, extend, insert, pop, remove, reverse, clear, resize, item read/write/delete, slice read, contiguous slice assignment from a list or tuple, index, count, membership and len calls whose integer arguments fit the element type, the contents equal those of a Python list driven by the same calls, every returned value agrees, and a call raises exactly when the Python list raises, with the same exception class; a raising call leaves the contents unchanged. (Two edges differ from Python and are excluded: pop of an index beyond the ssize range on an empty list raises IndexError instead of OverflowError, and index() with a start or stop beyond the ssize range raises OverflowError instead of clamping. Step-1 slice assignment only, see C08.)", "quantifier": "for every initial contents, every finite history of calls, every argument in range (including every negative, huge and empty index or slice), both element widths, every CPU feature set", "why_tests_cant": "the history space is infinite and the interaction of negative indices, clamping, growth and shrinkage is not covered by the fixed examples in the suite", "anchors": ["pyfastutil/src/ints/IntArrayList.cpp:IntArrayList_append..IntArrayList_clear", "pyfastutil/src/ints/BigIntArrayList.cpp:BigIntArrayList_append..BigIntArrayList_clear"]}
{"id": "C02", "title": "Storing an integer into an array list", "statement": "Storing an integer z through append, item assignment, extend or construction raises if and only if z does not fit the platform long (64-bit); when it does not raise, an IntArrayList stores the unique 32-bit value congruent to z modulo 2^32 and a BigIntArrayList stores z itself. insert rejects every value outside the element type. Hence every value that fits the element type round-trips, and an IntArrayList silently stores a different number for every z that fits 64 bits but not 32 bits.", "quantifier": "for every integer z of any magnitude and every list state", "why_tests_cant": "there are infinitely many integers; the tests never store a value outside 32 bits", "anchors": ["pyfastutil/src/ints/IntArrayList.cpp:IntArrayList_append,IntArrayList_extend,IntArrayList_setitem,IntArrayList_init", "pyfastutil/src/ints/BigIntArrayList.cpp:BigIntArrayList_append"]}
{"id": "C03", "title": "Construction from an iterable", "statement": "Building an array list from a list, tuple, other iterable or another array list yields exactly the (element-type-reduced) items in order; if some item cannot be converted the constructor raises RuntimeError whatever the original error was; a plain integer argument only reserves capacity and yields an empty list. Construction from another array list gives an independent copy: later operations on either never change the other.", "quantifier": "for every finite sequence of items, every position of a bad item, every later history on either list", "why_tests_cant": "needs all sequences and all interleavings of later mutations", "anchors": ["pyfastutil/src/ints/IntArrayList.cpp:IntArrayList_init,IntArrayList_copy"]}
{"id": "C04", "title": "Failed extend and in-place add keep exactly the converted prefix", "statement": "When extend (or += with a non-array-list iterable) meets an item that cannot be converted, or the iterator itself raises, the call raises and the list is exactly the old contents followed by the conversions of the items before the failure. An argument that is not iterable raises TypeError and changes nothing.", "quantifier": "for every iterable, every failure position, every state", "why_tests_cant": "crash-point style quantification over every failure position", "anchors": ["pyfastutil/src/ints/IntArrayList.cpp:IntArrayList_extend,IntArrayList_iadd"]}
{"id": "C05", "title": "Index search honours start and stop", "statement": "index(v, start, stop) returns the least position i with v at i and i inside the normalised Python range [start, stop), and raises ValueError if and only if there is none, for negative, oversized and crossing bounds; a v outside the C int range raises OverflowError for IntArrayList.", "quantifier": "for every list, every value, every start and stop in the ssize range", "why_tests_cant": "three unbounded integer parameters and an unbounded list", "anchors": ["pyfastutil/src/ints/IntArrayList.cpp:IntArrayList_index", "pyfastutil/src/ints/BigIntArrayList.cpp:BigIntArrayList_index"]}
{"id": "C06", "title": "Membership and counting compare reduced values", "statement": "For an in-range v, `v in a`, a.count(v) and a.remove(v) agree with Python. For a v that fits 64 bits but not 32 bits IntArrayList answers for the 32-bit reduction of v, so `v in a` can be True although no stored integer equals v, and remove(v) can delete a different integer; membership of an integer beyond 64 bits raises OverflowError instead of answering False.", "quantifier": "for every list and every integer", "why_tests_cant": "needs all integers; tests only use small members", "anchors": ["pyfastutil/src/ints/IntArrayList.cpp:IntArrayList_contains,IntArrayList_count,IntArrayList_remove"]}
{"id": "C07", "title": "Slice reads equal Python's extended slices", "statement": "a[start:stop:step] returns exactly the Python list slice for every combination of missing, negative, huge and crossing bounds and every non-zero step, and never reads outside the buffer.", "quantifier": "for every list and every start, stop, step (including None)", "why_tests_cant": "memory safety and equality for all triples cannot be enumerated", "anchors": ["pyfastutil/src/ints/IntArrayList.cpp:IntArrayList_getitem_slice", "pyfastutil/src/ints/BigIntArrayList.cpp:BigIntArrayList_getitem_slice"]}
{"id": "C08", "title": "Contiguous slice assignment equals Python's", "statement": "a[i:j] = seq with step 1 and seq a list or tuple of convertible integers leaves a equal to Python's result for all bounds, crossing ones included; any other step raises NotImplementedError and changes nothing; `del a[i:j]` dereferences a null pointer. A replacement that is another array list works like a list, except that on Python >= 3.12 every negative element of an IntArrayList is stored with its sign flipped. Assigning an array list to a slice of itself does not behave as Python: the part before the slice is repeated periodically.", "quantifier": "for every list, every bounds, every replacement sequence", "why_tests_cant": "length-changing overlap cases are unbounded; aliasing is untested", "anchors": ["pyfastutil/src/ints/IntArrayList.cpp:IntArrayList_setitem_slice"]}
{"id": "C09", "title": "Failed slice assignment corrupts predictably", "statement": "If the k-th item of the replacement cannot be converted, slice assignment raises but the list has already been changed: the items before k are stored and the bad item itself is stored as -1 (inserted, when the replacement is growing the list); nothing else changes. It is therefore never all-or-nothing when k>0 or the slice is non-empty, unlike Python.", "quantifier": "for every list, slice, replacement and failure position k", "why_tests_cant": "quantifies over every failure position", "anchors": ["pyfastutil/src/ints/IntArrayList.cpp:IntArrayList_setitem_slice"]}
{"id": "C10", "title": "Array list ordering is a total lexicographic order", "statement": "For array lists (and list/tuple operands of in-range integers) <, <=, >, >=, ==, != equal Python's lexicographic list comparison; in particular they form a total order: exactly one of a<b, a==b, b<a holds, < is transitive, a<=b iff not b<a. The error of an operand's item is raised once the elements before it are equal (!= dereferences a null pointer instead); the error of its size stays set while a bool is returned. An item of a list or tuple that does not convert counts as -1 for the orderings, which go on; the last such error up to the first difference stays set behind the answer. == and != stop at it, unequal, with the error set. An operand that is not a sequence is unequal and answers False to every ordering, where Python raises TypeError.", "quantifier": "for every pair and triple of lists", "why_tests_cant": "order laws quantify over all triples", "anchors": ["pyfastutil/src/ints/IntArrayList.cpp:IntArrayList_compare,IntArrayList_eq,IntArrayList_lt", "pyfastutil/src/ints/BigIntArrayList.cpp:BigIntArrayList_compare"]}
{"id": "C11", "title": "repr round-trips", "statement": "repr of an array list is exactly Python's list repr text for the stored integers, and parsing it back yields the stored integers; distinct contents have distinct repr.", "quantifier": "for every contents of the element type", "why_tests_cant": "all contents, all digits/sign combinations", "anchors": ["pyfastutil/src/ints/IntArrayList.cpp:IntArrayList_repr", "pyfastutil/src/ints/BigIntArrayList.cpp:BigIntArrayList_repr"]}
{"id": "C12", "title": "from_range builds range()", "statement": "from_range(start, stop, step) of the integer lists equals list(range(start, stop, step)), reduced to the element type, for every positive step, and for a negative step exactly when start<=stop or step divides stop-start; otherwise the last element of the range is missing. The computation is undefined exactly when stop-start+step or the first value not below the stop (start-stop or -step going down) leaves Py_ssize_t, which happens for ranges of one small element. Step 0 raises ValueError, arguments outside Py_ssize_t OverflowError. A stop or step equal to the largest ssize value is treated as absent.", "quantifier": "for every start, stop and step", "why_tests_cant": "three unbounded integers; the tests use two ascending examples", "anchors": ["pyfastutil/src/ints/IntArrayList.cpp:IntArrayList_from_range", "pyfastutil/src/utils/PythonUtils.h:PyParse_EvalRange"]}
{"id": "C13", "title": "resize truncates or zero-fills", "statement": "resize(n) with n>=0 gives a list of length n that keeps the first min(n, len) items and fills the rest with 0; a negative n raises ValueError and changes nothing.", "quantifier": "for every list and n", "why_tests_cant": "unbounded sizes", "anchors": ["pyfastutil/src/ints/IntArrayList.cpp:IntArrayList_resize"]}
{"id": "C14", "title": "Repetition", "statement": "a*n and n*a return a new list holding n copies of a in order and leave a unchanged, whenever the CPU's vector path is not taken at a misaligned destination; they are free of misaligned vector stores for every n exactly when len(a) is smaller than every enabled vector block, or n<=1, or the byte length of a is a multiple of every block width used. a*=n with n>=2 on a non-empty list never gives Python's result unless a is all zeros: either it writes outside its allocation, which it does whenever the spare capacity is smaller than the misplaced last copy needs, or it returns with zeros where the second copy belongs.", "quantifier": "for every list, every n and every CPU feature set", "why_tests_cant": "undefined behaviour depends on CPU features and on length modulo vector width", "anchors": ["pyfastutil/src/ints/IntArrayList.cpp:IntArrayList_mul,IntArrayList_imul,IntArrayList_rmul", "pyfastutil/src/utils/simd/SIMDUtils.h:simdMemCpyAligned"]}
{"id": "C15", "title": "Concatenation", "statement": "a + seq with a Python list returns a Python list with the elements of a followed by those of seq, changing neither; a + b for two array lists always raises MemoryError and changes neither; a += b for two array lists appends b's elements but evaluates to None (so the name is rebound to None), while a += seq for any other iterable evaluates to a.", "quantifier": "for every pair of operands", "why_tests_cant": "the suite covers one happy example", "anchors": ["pyfastutil/src/ints/IntArrayList.cpp:IntArrayList_add,IntArrayList_iadd", "pyfastutil/src/utils/PythonUtils.h:Py_CreateObj"]}
{"id": "C16", "title": "Forward iteration of array lists is memory safe under mutation", "statement": "A forward iterator over an array list yields the element currently at position k on its k-th step and stops for the first time when k reaches the current length, whatever mutations happen between steps; it never reads out of bounds; on an unmodified list it yields the contents once in order. A for loop therefore sees what a Python list iterator gives; unlike CPython's, an exhausted iterator resumes when the list grows.", "quantifier": "for every list, every interleaving of list mutations and next() calls", "why_tests_cant": "needs every interleaving", "anchors": ["pyfastutil/src/ints/IntArrayListIter.cpp:IntArrayListIter_next", "pyfastutil/src/ints/BigIntArrayListIter.cpp"]}
{"id": "C17", "title": "Reverse iteration of array lists", "statement": "reversed(a) on an unmodified list yields the contents in reverse order once and then stops for ever. If the list is shrunk below the cursor between steps (but not emptied) the next step reads out of bounds; if it never becomes shorter than the cursor each step is in bounds and agrees with CPython's reverse iterator.", "quantifier": "for every list and every interleaving of mutations", "why_tests_cant": "needs every interleaving", "anchors": ["pyfastutil/src/ints/IntArrayListIter.cpp:IntArrayListIter_create,IntArrayListIter_next"]}
{"id": "C18", "title": "Reading an element back as a Python int", "statement": "On Python < 3.12 reading a stored 32-bit element returns the Python integer with that value, for every value. On Python >= 3.12 the returned object is the canonical integer exactly for 1..2^30-1 and compares equal to the stored value exactly for 0..2^30-1; the object returned for 0 is nevertheless true in a boolean context, a negative value v is read by arithmetic as -(2^32+v), and values >= 2^30 carry an oversized digit and compare unequal to themselves written as a literal.", "quantifier": "for every 32-bit value and both interpreter configurations", "why_tests_cant": "2^32 values times two configurations; the tests use only small positive numbers", "anchors": ["pyfastutil/src/utils/PythonUtils.h:PyFast_FromInt"]}
{"id": "C19", "title": "Fast integer extraction", "statement": "The internal int/short/char extraction used by key-sorting and the vector setters returns the C value of a normalised Python integer: PyFast_AsInt on Python < 3.12 is right exactly for |z|<2^30 and on >= 3.12 for every 32-bit z with OverflowError outside; AsShort/AsChar on < 3.12 return z reduced to 16/8 bits for every z, on >= 3.12 they return |z| reduced (the sign is lost).", "quantifier": "for every integer of any number of digits, both interpreter configurations", "why_tests_cant": "unbounded integers, two interpreter layouts", "anchors": ["pyfastutil/src/utils/PythonUtils.h:PyFast_AsInt,PyFast_AsShort,PyFast_AsChar"]}
{"id": "C20", "title": "sort() of integer array lists without key", "statement": "sort() leaves the list a permutation of its old contents in ascending (descending for reverse=True) order for every length on a CPU without AVX2/AVX-512, and for every length below 9 (IntArrayList) or below 8 (BigIntArrayList) on any CPU. On longer lists the vector code runs: it stays in bounds and keeps the length, except that with AVX-512 and AVX2 every IntArrayList of 9 to 15 elements is read beyond its end; but no IntArrayList or BigIntArrayList of distinct elements that reaches it is ever sorted (an element is always lost: within a sorted block of an IntArrayList only values with at least eight others on their far side survive), and a BigIntArrayList of eight elements on AVX2 becomes two runs of four equal integers.", "quantifier": "for every contents, length and CPU feature set", "why_tests_cant": "depends on CPU features and lengths; the tests sort at most seven elements", "anchors": ["pyfastutil/src/utils/simd/BitonicSort.cpp:simdsort,sort8Epi32AVX2,mergeSortedBlocks", "pyfastutil/src/utils/include/TimSort.h"]}
{"id": "C21", "title": "sort(key=...) is a stable sort", "statement": "With a key function whose keys are weakly ordered, a comparison that never raises and enough memory, CPython_sort leaves a permutation of the old contents ordered by key, equal keys keeping their original relative order, also with reverse=True (still stable); so do the sort methods of the object lists, with and without key, and sort(key=...) of the integer lists on elements whose conversion to a Python int and back is exact.", "quantifier": "for every list, every key function, every weak order", "why_tests_cant": "all lists and all orders; merges, galloping and run detection start only at lengths the tests never use", "anchors": ["pyfastutil/src/utils/include/CPythonSort.c:CPython_sort,count_run,binarysort,merge_at,merge_lo,merge_hi,gallop_left,gallop_right,found_new_run,merge_force_collapse"]}
{"id": "C22", "title": "Sorting never loses elements, whatever the comparison does", "statement": "For every comparison behaviour - inconsistent, non-transitive, or raising at any call - and every allocation failure, CPython_sort terminates with the array being a permutation of the original elements and never accesses outside the array or its merge buffer.", "quantifier": "for every list and every comparison oracle, including one that raises at any point", "why_tests_cant": "adversarial comparison oracles and every raise point", "anchors": ["pyfastutil/src/utils/include/CPythonSort.c:CPython_sort,merge_lo,merge_hi,binarysort"]}
{"id": "C23", "title": "Errors raised during sort are not reported as such", "statement": "If the key function, a comparison or an allocation inside CPython_sort fails, the sort methods of IntArrayList, BigIntArrayList, IntLinkedList and ObjectLinkedList return None with an error still pending (the interpreter reports SystemError) instead of raising it; ObjectArrayList raises the original error. The contents remain a permutation of the old contents (of their round trip through Python ints for the integer lists). Only a failure to allocate the temporary array is raised, as MemoryError, with the list unchanged.", "quantifier": "for every failing oracle and failure point", "why_tests_cant": "every failure point", "anchors": ["pyfastutil/src/ints/IntArrayList.cpp:IntArrayList_sort", "pyfastutil/src/objects/ObjectArrayList.cpp:ObjectArrayList_sort", "pyfastutil/src/utils/include/CPythonSort.c:CPython_sort"]}
{"id": "C24", "title": "reverse() is list reversal on every CPU", "statement": "reverse() and the SIMD reverse helpers for 1, 2, 4 and 8-byte elements reverse exactly the given elements, touch no other memory and stay in bounds for every length and every CPU feature set; reversing twice is the identity. For 16-byte elements this holds except on AVX2 CPUs with (without AVX-512) four or more elements, or (with AVX-512) when half the count leaves a remainder of at least 2 modulo 4, where the two 8-byte halves of the elements moved by the AVX2 step are exchanged.", "quantifier": "for every length, contents, element width and CPU feature set", "why_tests_cant": "vector block/tail boundaries times CPU features", "anchors": ["pyfastutil/src/utils/include/qreverse.hpp:qReverse", "pyfastutil/src/utils/simd/SIMDUtils.h:simdReverse", "pyfastutil/src/ints/IntArrayList.cpp:IntArrayList_reverse"]}
{"id": "C25", "title": "Vectorised copy copies exactly count elements", "statement": "The vectorised copy writes exactly the source elements into the destination, changes no other byte, reads and writes in bounds, for every count, element size dividing 16 and CPU feature set and non-overlapping buffers; the aligned variant does so exactly when both pointers are aligned to each vector width it uses, and is undefined otherwise.", "quantifier": "for every count, element size, alignment, CPU feature set", "why_tests_cant": "boundaries of block and tail for each CPU", "anchors": ["pyfastutil/src/utils/simd/SIMDUtils.h:simdMemCpy,simdMemCpyAligned", "pyfastutil/src/unsafe/SIMD.cpp:SIMD_memcpy"]}
{"id": "C26", "title": "Small-size memcpy dispatch", "statement": "fast_memcpy copies exactly n bytes for every n, dispatching sizes 0..32 to fixed-size copies and larger sizes to the vector copies, and changes nothing else.", "quantifier": "for every n, every pointer alignment, every CPU feature set", "why_tests_cant": "all n and alignments", "anchors": ["pyfastutil/src/utils/memory/FastMemcpy.h:fast_memcpy"]}
{"id": "C27", "title": "Linked list node seek", "statement": "Seeking the i-th node of a linked list returns that node for every i below the size and the end position otherwise, walking at most about half the list.", "quantifier": "for every list and index", "why_tests_cant": "unbounded lists", "anchors": ["pyfastutil/src/utils/Utils.h:at"]}
{"id": "C28", "title": "IntLinkedList refines the Python list over every history", "statement": "Starting from any IntLinkedList, after any finite sequence of append, insert, pop() without index, remove, item read/write/delete, index, count, membership, reverse, clear, extend, copy and sort() calls with in-range integer arguments, contents, results and exceptions equal those of a Python list driven by the same calls. Construction gives the items of any iterable; the error of an iterator is passed on, an item that does not convert is RuntimeError, an argument that is not iterable TypeError.", "quantifier": "for every contents and finite history", "why_tests_cant": "infinite histories", "anchors": ["pyfastutil/src/ints/IntLinkedList.cpp"]}
{"id": "C29", "title": "IntLinkedList.pop(i) reads a freed node", "statement": "pop(i) with a valid index always dereferences the list node it has just erased, for every list and every valid index; with an invalid index it raises IndexError and changes nothing.", "quantifier": "for every list and index", "why_tests_cant": "use-after-free is invisible to value tests", "anchors": ["pyfastutil/src/ints/IntLinkedList.cpp:IntLinkedList_pop", "pyfastutil/src/objects/ObjectLinkedList.cpp:ObjectLinkedList_pop"]}
{"id": "C30", "title": "Failed conversion in IntLinkedList append/extend", "statement": "append(x) with an unconvertible x appends -1 and returns None with the error still set; extend and += store every item before the first unconvertible one, then -1 for it, and raise its error (or the iterator's own final error); nothing after it is stored. Convertible items are stored exactly.", "quantifier": "for every list, iterable and failure position", "why_tests_cant": "every failure position", "anchors": ["pyfastutil/src/ints/IntLinkedList.cpp:IntLinkedList_append,IntLinkedList_extend,IntLinkedList_iadd"]}
{"id": "C31", "title": "Linked list ordering", "statement": "Comparing an IntLinkedList with a list or another linked list: for different lengths all of <, <=, >, >= answer by length alone (shorter is True for all four); for equal lengths <= is < and >= is >, strictly lexicographic, so equal lists are neither <= nor >=. The relations are not an order: a<b and a>b can hold together. == and != are exact against lists; against another linked list they are exact before Python 3.12 and for non-negative elements, while from 3.12 on a list containing a negative element other than -2^31 is unequal to its own copy. An operand that is not a sequence is unequal and answers False to the orderings. Behind an equal prefix the error of an operand's item is raised (!= dereferences a null pointer instead), and an item that does not convert leaves the error set behind a returned bool (for the orderings it counts as -1 and the comparison goes on); the error of the operand's size is raised by the orderings and left set by == and !=.", "quantifier": "for every pair of lists", "why_tests_cant": "laws over all pairs", "anchors": ["pyfastutil/src/ints/IntLinkedList.cpp:IntLinkedList_lt,IntLinkedList_le,IntLinkedList_gt,IntLinkedList_ge,IntLinkedList_eq", "pyfastutil/src/objects/ObjectLinkedList.cpp"]}
{"id": "C32", "title": "Linked list repetition and concatenation", "statement": "a + list returns a new Python list of the elements followed by the items; a + b of two IntLinkedLists always raises MemoryError, a + anything else TypeError, nothing changing. a*n returns n copies. a*=n on an IntLinkedList leaves 2^(n-1) copies instead of n; for ObjectLinkedList it leaves n copies.", "quantifier": "for every list and n", "why_tests_cant": "unbounded n; the test uses n=2 where both agree", "anchors": ["pyfastutil/src/ints/IntLinkedList.cpp:IntLinkedList_add,IntLinkedList_mul,IntLinkedList_imul", "pyfastutil/src/objects/ObjectLinkedList.cpp:ObjectLinkedList_imul"]}
{"id": "C33", "title": "Linked list forward iteration", "statement": "Forward iteration of an unmodified linked list yields the contents once in order and then stops for ever; interleaved with reads, item assignment and reverse it is Python's iterator. After an append/extend/insert/pop()/remove/sort between two steps the iterator re-seeks its position but counts the step twice, so with at least two items left the last one is never delivered. Deleting the item it stands on (which does not bump the counter) makes the next step read a freed node, and += after exhaustion makes it dereference the end position.", "quantifier": "for every list and every interleaving", "why_tests_cant": "every interleaving", "anchors": ["pyfastutil/src/ints/IntLinkedListIter.cpp", "pyfastutil/src/objects/ObjectLinkedListIter.cpp"]}
{"id": "C34", "title": "Linked list reverse iteration", "statement": "reversed(a) on an unmodified linked list of length n>=2 yields the elements n-1 .. 1 in reverse and then, instead of the first element, the last element again; for n=1 it is right; for n=0 creating it moves before the beginning (undefined).", "quantifier": "for every list", "why_tests_cant": "all lists", "anchors": ["pyfastutil/src/ints/IntLinkedListIter.cpp:IntLinkedListIter_create,IntLinkedListIter_next", "pyfastutil/src/objects/ObjectLinkedListIter.cpp"]}
{"id": "C35", "title": "Object array list reference counts stay balanced", "statement": "Over every history of construction, append, insert, extend and += from anything but the list itself, pop, remove, searches, item read and delete, slice read, slice assignment that does not grow the list from a list or list object, copy, repetition (*), reverse, clear, destruction and failed calls, each object's reference count equals the references held outside plus its occurrences in live lists; in particular no object is freed while still in a list and every reference is released when the list dies.", "quantifier": "for every history over any number of lists and objects", "why_tests_cant": "leaks and under-counts are invisible to value tests", "anchors": ["pyfastutil/src/objects/ObjectArrayList.cpp"]}
{"id": "C36", "title": "Object array list reference count defects", "statement": "Item assignment never releases the replaced object (its count stays one too high for ever); constructing from another ObjectArrayList takes no references (counts are one too low per element, so destroying both lists releases objects more often than acquired); resize that shrinks leaks each dropped element and resize that grows takes no reference to None for each new slot; growing slice assignment from a list under-counts each added element; a *= 0 leaks every element.", "quantifier": "for every list state and argument", "why_tests_cant": "reference counts under every state", "anchors": ["pyfastutil/src/objects/ObjectArrayList.cpp:ObjectArrayList_init,ObjectArrayList_setitem,ObjectArrayList_resize,ObjectArrayList_setitem_slice"]}
{"id": "C37", "title": "Object list search is by identity", "statement": "index, count and remove on object lists find an element only if it is the same object, so an equal but distinct object is not found (unlike Python); membership answers False for every non-integer key, even one stored in the list. Where no other element equals the argument, index, count and remove give Python's answers.", "quantifier": "for every list and object", "why_tests_cant": "all objects and equality relations", "anchors": ["pyfastutil/src/objects/ObjectArrayList.cpp:ObjectArrayList_index,ObjectArrayList_count,ObjectArrayList_remove,ObjectArrayList_contains", "pyfastutil/src/objects/ObjectLinkedList.cpp"]}
{"id": "C38", "title": "Object array list in-place repetition does not terminate", "statement": "a *= n on a non-empty ObjectArrayList with n>=2 never reaches its end: after any number of copied elements the loop still continues (until memory is exhausted); for n=1 it is the identity, for n<=0 it empties the list, for an empty list it does nothing, and where len*n modulo 2^64 exceeds 2^60-1 it raises RuntimeError and changes nothing.", "quantifier": "for every list and n, for every number of loop iterations", "why_tests_cant": "non-termination cannot be tested", "anchors": ["pyfastutil/src/objects/ObjectArrayList.cpp:ObjectArrayList_imul"]}
{"id": "C39", "title": "Object list ordering", "statement": "<, <=, >, >= of object lists compare lengths first and, for equal lengths, answer from the first pair of elements alone, so they disagree with Python's lexicographic order; == is Python's for every item comparison (including ones that raise), and != is for items whose != negates their ==. An operand that is not a sequence is unequal and answers False to the orderings; items are read only if the sizes are equal, and their errors are raised; the error of the operand's size is raised by the orderings but left set by == and !=.", "quantifier": "for every pair of lists and every element order", "why_tests_cant": "laws over all pairs", "anchors": ["pyfastutil/src/objects/ObjectArrayList.cpp:ObjectArrayList_lt", "pyfastutil/src/objects/ObjectLinkedList.cpp:ObjectLinkedList_lt"]}
{"id": "C40", "title": "Object linked list reference counts", "statement": "Over every history of construction, append, insert, extend, +=, pop without index, remove, searches, item read and delete, slice read, slice assignment without step, copy, repetition, reverse, clear, destruction and failed calls the reference counts stay balanced as for the array list. Item assignment leaks the old object, extend(self) leaks every element once, a *= 0 leaks every element, and construction from another non-empty ObjectLinkedList takes no references.", "quantifier": "for every history", "why_tests_cant": "reference counts under every history", "anchors": ["pyfastutil/src/objects/ObjectLinkedList.cpp"]}
{"id": "C41", "title": "Raw memory access round-trips", "statement": "For live, disjoint allocations: get(addr,n) after set(addr,bytes of length n) returns those bytes, memset fills exactly n bytes with the value modulo 256, memcpy copies exactly n bytes between ranges that do not overlap, call stores the low bytes of the result, malloc, calloc and aligned_alloc hand out fresh blocks (aligned, zeroed) or raise MemoryError, realloc keeps the common prefix, free removes exactly its block, and none of them changes any other allocation. Access outside live blocks, overlapping memcpy, double free and free by the wrong function on Windows are undefined; realloc(p,0) frees p and raises MemoryError; get(0,n) returns uninitialised bytes. An argument that does not convert raises its error before memory is touched; of several the first counts, for memcpy, memset and call the last.", "quantifier": "for every history of allocations and accesses, whatever the allocator answers", "why_tests_cant": "every history", "anchors": ["pyfastutil/src/unsafe/Unsafe.cpp"]}
{"id": "C42", "title": "as_object(get_address(x)) is x but steals a reference", "statement": "as_object(get_address(x)) returns the same object, but each call hands out a reference it never acquired: after k calls whose results are dropped, the object's count is k too low, and it is freed while still referenced as soon as k reaches the number of real owners.", "quantifier": "for every object, every count and every k", "why_tests_cant": "reference counts", "anchors": ["pyfastutil/src/unsafe/Unsafe.cpp:Unsafe_get_address,Unsafe_as_object"]}
{"id": "C43", "title": "JIT function table locking", "statement": "makeFunction/freeFunction serialise on one lock and release it on every success path, never race on the table, and the table holds exactly the addresses handed out and not yet taken back; freeFunction of such an address removes its entry and no other; freeFunction of a pointer that is not registered (or whose protection cannot be restored) returns with the lock still held, after which every later makeFunction or freeFunction by another thread blocks for ever and by the same thread locks a mutex it holds (undefined). The Fast variants do not lock: they race with the others, can lose an entry, and can leave one behind for an address never handed out. Outside Windows every call raises NotImplementedError.", "quantifier": "for every history and interleaving of calls by any number of threads", "why_tests_cant": "all interleavings; Windows only", "anchors": ["pyfastutil/src/unsafe/ASM.cpp:ASM_makeFunction,ASM_freeFunction"]}
{"id": "C44", "title": "Scheduled thread pool runs tasks", "statement": "Tasks begin in the order they were queued, each at most once and never two together; a task can run only while its submit call stands between releasing the mutex and destroying the task object, and otherwise the worker uses a destroyed object (possible with one submit and any number of workers); when submit has returned the future is settled, broken if the task had not finished; tasks still queued at shutdown are never run; a task that submits to its own pool locks a mutex its worker holds while everybody else waits; no wake-up is lost and the destructor's join can complete. All this holds with submits whose queue is refused memory in between: such a submit lets go of the mutex, changes nothing of the queue, the workers and other calls, breaks its future and its task never runs. There are no due times. Workers run while the constructor still makes threads, and the pool it returns is one of the states above; if the first thread cannot be had the exception leaves the constructor, if a later one cannot it never does (std::terminate, or the condition variable or mutex is destroyed under a worker); a pool of no workers runs nothing and every future it hands out is broken.", "quantifier": "for every number of workers and every interleaving of workers, submitting threads, spurious wake-ups, submits refused memory, the constructor and the destructor", "why_tests_cant": "all schedules", "anchors": ["pyfastutil/src/utils/thread/ScheduledThreadPool.cpp"]}
{"id": "C45", "title": "Vector literal setters place lanes", "statement": "setAVX512Vector*/setAVX2Vector* with the right number of ints and an accessible address aligned to the register write the last argument in lane 0, the one before in lane 1 and so on, and touch nothing beyond the 64/32 bytes. A lane holds its argument reduced to the lane width, except: from Python 3.12 the 16- and 8-bit setters store the absolute value, and the 32-bit setters store -1 for an argument outside 32 bits and return None with the error pending; before 3.12 the 32-bit setters keep the sign and the low 30 bits. A wrong count raises TypeError; a bad, null or misaligned address is undefined.", "quantifier": "for every argument list and both interpreter configurations", "why_tests_cant": "all arguments", "anchors": ["pyfastutil/src/unsafe/SIMD.cpp"]}
{"id": "C46", "title": "Buffer view describes the list", "statement": "The buffer exported by an array list has byte length, item size and shape consistent with the list length, and reading its items as signed little-endian integers gives exactly the contents.", "quantifier": "for every contents of the element type", "why_tests_cant": "all contents and both widths", "anchors": ["pyfastutil/src/ints/IntArrayList.cpp:IntArrayList_get_buffer"]}
{"id": "C47", "title": "sort(key=...) rewrites the integers it sorts", "statement": "sort(key=...) of an IntArrayList leaves, whatever the callbacks answer, a permutation of its elements each replaced by its round trip through a Python int. Before Python 3.12 that keeps the old contents exactly when every element is below 2^30 in absolute value; from 3.12 on every negative element except -2^31 is stored as -1 and OverflowError is left pending. BigIntArrayList always keeps its values.", "quantifier": "for every list of 32-bit (64-bit) elements, every key function and comparison, both Python layouts", "why_tests_cant": "the tests sort small non-negative numbers with a key on one interpreter version", "anchors": ["pyfastutil/src/ints/IntArrayList.cpp:IntArrayList_sort", "pyfastutil/src/ints/BigIntArrayList.cpp:BigIntArrayList_sort", "pyfastutil/src/utils/PythonUtils.h:PyFast_FromInt,PyFast_AsInt"]}
{"id": "C48", "title": "A key function that resizes the list being sorted", "statement": "If the key function (or a comparison) makes the vector of a non-empty array list reallocate, sort(key=...) writes to freed memory; if it changes the list inside the same buffer, the sorted old elements overwrite the first min(old, new) of the present elements. For IntLinkedList a list made shorter is walked past its end (undefined) and a longer one has only its first elements overwritten.", "quantifier": "for every list, every callback behaviour and every contents it leaves", "why_tests_cant": "needs a re-entrant key function; the damage is silent memory corruption", "anchors": ["pyfastutil/src/ints/IntArrayList.cpp:IntArrayList_sort", "pyfastutil/src/ints/IntLinkedList.cpp:IntLinkedList_sort"]}
{"id": "C49", "title": "reverse given as an integer", "statement": "sort(key=f, reverse=n) sorts descending for every non-zero int n, as Python does. sort(reverse=n) without a key function on the integer lists sorts descending for n=1 only: for any other n it does what reverse=0 does, so for n outside {0,1} a list with two different elements is not in the order Python gives.", "quantifier": "for every int n, every list (without key: on the lengths and CPUs where C20 holds)", "why_tests_cant": "the tests pass only True and False", "anchors": ["pyfastutil/src/ints/IntArrayList.cpp:IntArrayList_sort", "pyfastutil/src/ints/BigIntArrayList.cpp:BigIntArrayList_sort", "pyfastutil/src/ints/IntLinkedList.cpp:IntLinkedList_sort"]}
{"id": "C50", "title": "Object array list histories are Python list histories", "statement": "Over every history of the calls of C35 (without + and += of two lists of the class, slice assignment with a step or from a failing sequence, index bounds beyond machine integers, membership of a present non-int, and results beyond 2^60-1 elements) the results, errors and contents are those of Python lists whose objects equal only themselves. + of two ObjectArrayLists always raises MemoryError, and += with one leaves None in the variable.", "quantifier": "for every history over any number of lists and objects", "why_tests_cant": "unbounded histories and interactions between lists", "anchors": ["pyfastutil/src/objects/ObjectArrayList.cpp"]}
{"id": "C51", "title": "Object array list undefined entry points", "statement": "Slice deletion (step not 0) dereferences null, extend(self) and += self pass an overlapping range to insert, assigning a list to a step-1 slice of itself is undefined for every non-empty list, and assigning an object without length to s[i:j] removes item i-1 as well and returns None with the error pending (for i=0 it reads before the vector).", "quantifier": "for every list, slice and item", "why_tests_cant": "undefined behaviour and pending errors are invisible to value tests", "anchors": ["pyfastutil/src/objects/ObjectArrayList.cpp:ObjectArrayList_setitem_slice,ObjectArrayList_extend,ObjectArrayList_iadd"]}
{"id": "C52", "title": "Object linked list undefined and wrong entry points", "statement": "pop(i) with any valid index reads a freed node, slice deletion (step not 0) dereferences null. Slice assignment of m items to n places start, start+step, \u2026 : if m < n the surplus places are cut out as one run of n - m items from place m on, whatever the step; if m > n the surplus items are inserted before the stop; then item t is written at start + t*step. It is undefined exactly when a position of that run or of those writes is not an item of the list, and then nothing is checked. So it is Python's assignment when m = n, for every step; for a step other than 1 and m \u2260 n Python raises ValueError, here the call is undefined or returns with the list's length changed by m - n; with step 1 and stop < start the items appear before the stop as well, and the result is Python's only if the shifted first part happens to equal the old one. Counts stay balanced in every defined case.", "quantifier": "for every list, index, slice (any bounds and step) and assigned list or other linked list", "why_tests_cant": "undefined behaviour is invisible to value tests", "anchors": ["pyfastutil/src/objects/ObjectLinkedList.cpp:ObjectLinkedList_pop,ObjectLinkedList_setitem_slice"]}
{"id": "C53", "title": "Item comparisons that change the object list", "statement": "If an item comparison during == or != empties the list and more pairs remain, the next item is read outside the vector (array) or through a freed node (linked).", "quantifier": "for every list, operand and callback that empties the list at the first comparison", "why_tests_cant": "needs re-entrant comparisons; silent memory errors", "anchors": ["pyfastutil/src/objects/ObjectArrayList.cpp:ObjectArrayList_eq", "pyfastutil/src/objects/ObjectLinkedList.cpp:ObjectLinkedList_eq"]}
{"id": "C54", "title": "repr of object lists", "statement": "repr of both object lists is Python's: the items' texts in order between brackets, separated by a comma and a space, or the first error an item's repr raises.", "quantifier": "for every list and every item repr", "why_tests_cant": "all contents and error positions", "anchors": ["pyfastutil/src/objects/ObjectArrayList.cpp:ObjectArrayList_repr", "pyfastutil/src/objects/ObjectLinkedList.cpp:ObjectLinkedList_repr"]}
{"id": "C55", "title": "Object linked list histories are Python list histories", "statement": "Over every history of the calls of C40 (without + and += of two lists of the class, slice assignment with crossing bounds of something non-empty, of the list itself or from a failing iterator, index bounds beyond machine integers, and membership of a present non-int) the results, errors and contents are those of Python lists whose objects equal only themselves.", "quantifier": "for every history over any number of lists and objects", "why_tests_cant": "unbounded histories and interactions between lists", "anchors": ["pyfastutil/src/objects/ObjectLinkedList.cpp"]}
{"id": "C56", "title": "Object list iterators", "statement": "The iterators of the object lists yield what the integer list iterators yield (C16, C17, C33, C34), and add exactly one reference to each object they hand out.", "quantifier": "for every sequence of contents the list has at the iterator's calls", "why_tests_cant": "all interleavings of mutation and iteration; counts are invisible to value tests", "anchors": ["pyfastutil/src/objects/ObjectArrayListIter.cpp", "pyfastutil/src/objects/ObjectLinkedListIter.cpp"]}
{"id": "C57", "title": "Reference counts of immortal objects", "statement": "From Python 3.12 the object lists take references with Py_INCREF, which leaves an immortal object's count alone, and give them back with PyFast_DECREF, which lowers it. Over every history of takes and releases the count of an immortal object never rises above the immortal count and falls below it by at most the largest number of references held at once, provided that stays below 2^31; k references taken and then released lower it by exactly k, and with 2^31 or more the object becomes mortal. Before 3.12 the counts balance.", "quantifier": "for every history of takes and releases", "why_tests_cant": "the drift needs histories far longer than any test", "anchors": ["pyfastutil/src/objects/ObjectArrayList.cpp:ObjectArrayList_dealloc", "pyfastutil/src/utils/Utils.h"]}
{"id": "C58", "title": "Python-level vector copy and reverse", "statement": "memcpyX, memcpyXAligned and reverseX called with ints inside memory do what the routines of C24 and C25 do, for every element width, and touch nothing else. A wrong number of arguments raises TypeError; an argument that does not convert is never reported: the call is undefined, or with count 0 returns None with the error of the last such address pending.", "quantifier": "for every memory, address, count, CPU feature set and argument objects", "why_tests_cant": "all addresses and widths; pending errors are invisible to value tests", "anchors": ["pyfastutil/src/unsafe/SIMD.cpp:SIMD_memcpy,SIMD_memcpyAligned,SIMD_reverse"]}
{"id": "C59", "title": "AVX-512 bindings pass their arguments through", "statement": "Each implemented AVX-512 binding (x86, GCC or Clang) gives the intrinsic the values its arguments stand for, in order, writes exactly the result at the destination and returns None (with the last conversion error pending, if one failed); a wrong argument count raises TypeError and an unreadable register operand is undefined. Mask operands and results have the width of the intrinsic's name, every name is bound once, and the stub declares the same names and parameters. 25 bindings the stub declares as working always raise.", "quantifier": "for all 1383 bindings, all arguments, memories and whatever the intrinsic computes", "why_tests_cant": "1383 generated functions, all argument values, needs AVX-512 hardware", "anchors": ["pyfastutil/src/unsafe/SIMDLowAVX512.cpp", "pyfastutil/unsafe/SIMDLowAVX512.pyi"]}
{"id": "C60", "title": "AVX-512 floating parameters given as declared", "statement": "The stub declares the double and float parameters of the bindings as int. An int given for one is read as the float whose bits are the int's size word: all ints of one sign and digit count give the same result, and the value read is below 2^-1022 in magnitude or a NaN.", "quantifier": "for all bindings with such parameters, all ints below 2^49 digits, both object layouts", "why_tests_cant": "type confusion, visible only with AVX-512 hardware", "anchors": ["pyfastutil/src/unsafe/SIMDLowAVX512.cpp:SIMDLowAVX512__mm512_set1_pd", "pyfastutil/unsafe/SIMDLowAVX512.pyi"]}
{"id": "C61", "title": "AVX-512 loads and stores dereference their pointer twice", "statement": "The 11 plain 64-byte loads and 13 plain stores act at the address held at the pointer argument, not at the pointer argument; if that address is not usable the call is undefined, so on a zeroed buffer all of them are.", "quantifier": "for every memory and address", "why_tests_cant": "undefined behaviour, needs AVX-512 hardware", "anchors": ["pyfastutil/src/unsafe/SIMDLowAVX512.cpp:SIMDLowAVX512__mm512_load_pd,SIMDLowAVX512__mm512_store_pd"]}
{"id": "C62", "title": "The comparison selected before sorting", "statement": "The check CPython_sort makes on its keys before sorting (all of one type, Latin-1 strings, small ints, non-empty tuples) never reads outside an object, and the special comparison it selects answers for any two of the keys what Python's < answers, errors included; sorting with it sorts by Python's <. Before Python 3.12 the small-int comparison is never selected.", "quantifier": "for every list of keys (ints, floats, strings, nested tuples, other classes), every behaviour of other classes' comparisons, both object layouts", "why_tests_cant": "all key mixtures; a wrong selection gives silently wrong orders", "anchors": ["pyfastutil/src/utils/include/CPythonSort.c:CPython_sort"]}
{"id": "C63", "title": "Processor feature detection", "statement": "The CPU checks never execute a missing instruction or read an uninitialised register. The SSSE3, SSE4.1 and AVX2 constants are true exactly where these instructions can be executed (Apple builds never use AVX2; MSVC builds provided CPUID leaf 7 exists). The AVX-512 constant is true wherever AVX-512 is usable, but also where the operating system does not save the wide registers (no guarded AVX-512 block can then be executed) and where byte and word instructions are missing (reversing 1- and 2-byte elements cannot be executed); where both are there every guarded block can be executed.", "quantifier": "for every CPUID and XCR0 content, three toolchains, all 38 guarded blocks", "why_tests_cant": "needs hardware and operating systems of every kind; failure is a crash", "anchors": ["pyfastutil/src/utils/simd/SIMDHelper.cpp", "pyfastutil/src/utils/simd/BitonicSort.cpp", "pyfastutil/src/utils/include/qreverse.hpp", "pyfastutil/src/utils/simd/SIMDUtils.h"]}
{"id": "C64", "title": "The hash table behind the int map and the JIT table", "statement": "With any 64-bit hash function, every history of find, at, [], emplace, erase, clear, copy and size on the robin-hood table ends (no endless probe, no access outside the bucket or value arrays) and answers like a finite map; the values stored are the map's bindings, each once; == tells whether two tables hold the same bindings. This holds while the table has at most 2^24 - 2 entries: the distance has 24 bits and wraps after that. The portable 64x64 to 128-bit product of its hash equals the 128-bit one.", "quantifier": "for every history of operations, every hash function into 64 bits, all 64-bit factors", "why_tests_cant": "probe runs, wrap-around, growth and removal interact over unbounded histories", "anchors": ["pyfastutil/src/utils/include/UnorderedDense.h:do_find,do_try_emplace,emplace,do_erase,do_erase_key,increase_size,mum"]}
{"id": "C65", "title": "Text output and input of Unsafe", "statement": "Over every history stdout receives, in order, the UTF-8 encoding of each fputs text up to its first NUL (nothing but an error for text with surrogates), and all of it is delivered by fflush. fgets of text without NUL, with a size above the length of every line, gives the lines and then RuntimeError; ASCII text is read back in full for every size above 1. Otherwise text is lost: a character cut by the buffer end raises and its bytes are gone, what follows a NUL in a line is dropped, size 1 reads nothing and never ends. Only the low 32 bits of the size count. No history reads outside a buffer, and every buffer ever allocated leaks.", "quantifier": "for every history of calls, every text, size and stream contents, however the C library buffers", "why_tests_cant": "all texts and all cuts inside characters; leaks are invisible to value tests", "anchors": ["pyfastutil/src/unsafe/Unsafe.cpp:Unsafe_fputs,Unsafe_fflush,Unsafe_fgets"]}
{"id": "C66", "title": "User code that changes the integer array list during a call", "statement": "Arguments may be objects whose __index__, __len__, __getitem__ or __next__ call methods of the list the call works on. For append, insert, remove, count, item read and deletion, slice read and index with a stop, whatever that code does, the call is that code followed by the Python method on the list it left; extend and += always are the loop of appends. index without a stop uses the old size. pop, item assignment, slice assignment and the comparisons use positions computed before later user code: they are the Python method when that code leaves the size alone (slice assignment, comparison: the list), free of undefined behaviour when it never shortens the list (slice assignment also: keeps the buffer in place, or the compiler converts before it forms the position), and read or write outside the list otherwise. A sequence whose __len__ raises loses an element or touches memory before the buffer; a sort key function that invalidates pointers makes sort use freed memory.", "quantifier": "for all user code as a function of the list, all contents and arguments", "why_tests_cant": "needs adversarial callbacks at every conversion; stale positions often go unnoticed", "anchors": ["pyfastutil/src/ints/IntArrayList.cpp:IntArrayList_insert,IntArrayList_pop,IntArrayList_setitem,IntArrayList_setitem_slice,IntArrayList_eq,IntArrayList_extend,IntArrayList_sort", "pyfastutil/src/ints/BigIntArrayList.cpp"]}
{"id": "C67", "title": "Lifetime of the memory shown by buffer views", "statement": "Programs create, change, sort and drop integer array lists, export buffer views (memoryview) of them and read and write through the views. A view reads and writes the current elements of its list, and a shortened list's old cells, as long as the list lives and never needed more room than it has; only dropping the list or a call that needs more room ends this. From then on reading or writing an item through the view is a use of freed memory (the export takes no reference and does not block resizing), and nothing else in such a program is undefined. Every live buffer has exactly one live owner. The shape pointer of all views of a list is one field: a later export changes what a C consumer reads through an earlier view.", "quantifier": "for all histories of operations on any number of lists and views, all growth policies of the vector", "why_tests_cant": "whether a freed buffer is reused is up to the allocator; needs histories that interleave exports with growth", "anchors": ["pyfastutil/src/ints/IntArrayList.cpp:IntArrayList_get_buffer,IntArrayList_dealloc,IntArrayList_asBuffer", "pyfastutil/src/ints/BigIntArrayList.cpp"]}
{"id": "C68", "title": "User code that changes the integer linked list during a call", "statement": "As C66, for the linked list with its nodes and iterators. For append, insert, remove, count, item read and deletion, slice read and index with a stop, the call is the arguments' code followed by the Python method on the list it left, and the nodes stay well linked; extend and += are the loop of appends. index without a stop uses the old size. x[i] = v stores at the position checked before v was converted: undefined exactly if v's code shortened the list to it. pop of a valid position is always undefined (C29). Slice assignment and the comparisons other than != are free of undefined behaviour when the code removes no node and keeps the order of the nodes (append, insert, reverse and item assignment do; removal and sort do not); removing the node the iterator stands on is a use of freed memory, and sort can make the iterator run past the end. A failed conversion leaves -1 in the list, or makes a comparison answer as if the item were -1, with the error set. A sequence whose __len__ raises loses one element more, or the end of the list is passed.", "quantifier": "for all user code as a function of the list with its nodes, all contents and arguments", "why_tests_cant": "needs adversarial callbacks at every conversion; a dangling node often still holds its value", "anchors": ["pyfastutil/src/ints/IntLinkedList.cpp:IntLinkedList_insert,IntLinkedList_pop,IntLinkedList_setitem,IntLinkedList_setitem_slice,IntLinkedList_eq,IntLinkedList_lt,IntLinkedList_extend"]}
{"id": "C69", "title": "Running out of memory in the integer array lists", "statement": "Any request for memory may be refused and sizes are limited. With nothing refused and room for the result every call is Python's. Whatever is refused, every call of a history other than extend is Python's or raises RuntimeError or MemoryError and leaves the list alone (pop has removed its element, slice assignment may have stored a first part of the items), and the list stays in order; a read raises exactly when one of the objects of its result is refused; append, insert and resize raise exactly when the size exceeds the maximum or a needed request is refused. extend and += are Python's, or raise MemoryError for a refused iterator, or end the process: for a list or same-class argument exactly when the vector cannot grow, for any iterator whose length hint takes the size past the maximum, however much memory there is. repr ends the process when its string buffer is refused. x * n, x *= n and sort use a missing thread state (undefined) when their request fails, so [1] * 2**62 is undefined on every machine. Construction and from_range never do either.", "quantifier": "for every pattern of refused requests, growth policy, size limit, history, contents and argument", "why_tests_cant": "failing allocations cannot be provoked at every point by tests; what is lost is the process", "anchors": ["pyfastutil/src/ints/IntArrayList.cpp:IntArrayList_append,IntArrayList_extend,IntArrayList_setitem_slice,IntArrayList_mul,IntArrayList_imul,IntArrayList_sort,IntArrayList_repr,IntArrayList_init", "pyfastutil/src/ints/BigIntArrayList.cpp", "pyfastutil/src/utils/memory/AlignedAllocator.h"]}
{"id": "C70", "title": "Finalizers that call back into the object array list", "statement": "Releasing the last reference runs __del__, which may call methods of the list that releases it. With finalizers that leave the lists alone or only append within the buffer, del x[i], clear, slice assignment with step 1 and deallocation give Python's list (plus what was appended) and every reference keeps exactly one owner, except that clear forgets and never releases what was appended to it and that slice assignment from a list or same-class object takes too few references (C51). del x[i] releases first and erases afterwards: with any finalizer it removes whatever stands at i by then, and is undefined exactly if the finalizer is, freed the object itself, moved the buffer or left at most i elements; a finalizer that inserts in front leaves the freed object in the list, one that deletes its own element frees it twice. clear and slice assignment are undefined when the finalizer of an object they release moves the buffer or shortens the list below the range, and clear also when it reads a released element. remove never runs a finalizer.", "quantifier": "for all finalizers as functions of the lists and counts, all contents, arguments and reference counts", "why_tests_cant": "needs adversarial finalizers; freed objects often still look alive", "anchors": ["pyfastutil/src/objects/ObjectArrayList.cpp:ObjectArrayList_setitem,ObjectArrayList_setitem_slice,ObjectArrayList_clear,ObjectArrayList_remove,ObjectArrayList_dealloc", "pyfastutil/src/utils/PythonUtils.h:SAFE_DECREF,PyFast_DECREF"]}
{"id": "C71", "title": "Construction of the int-to-int map", "statement": "The first construction in a process: from nothing or an __iterable keyword alone it is empty; from another map or a dict of ints it holds the same bindings (a dict with objects that do not convert raises the last such error); from an iterator of pairs it holds dict(pairs) when no key repeats - for a repeated key tuples keep the first value, lists take the last - stops with the error of the first entry that is no pair or does not convert, and returns with the iterator's own error still set. A list or tuple that is an iterator behaves alike, except that a two-item list in it is read out of bounds. An entry that is not iterable, and every mapping that is not a dict and whose items can all be read, end in a null pointer dereference. Every later construction with accepted arguments, and so every copy(), reads a local variable of the first call (undefined). Other arguments raise TypeError.", "quantifier": "for all arguments, entries, keys and values, both integer layouts and evaluation orders, up to 2^24 - 2 entries", "why_tests_cant": "the class is not registered, and the dangling reference usually happens to read a zero", "anchors": ["pyfastutil/src/ints/IntIntHashMap.cpp:IntIntHashMap_init,IntIntHashMap_copy,convert", "pyfastutil/src/utils/include/UnorderedDense.h:emplace"]}
{"id": "C72", "title": "Comparison and repr of object lists while user code changes them", "statement": "The comparison methods, truth tests, finalizers and __repr__ of the items and the right operand's __len__ and __getitem__ run Python code that may change the list and drop references. If they keep the lengths (and nodes) and let nothing die, == and != with a list answer, raise and act exactly as Python's list comparison, which holds both items and re-reads the sizes before every pair; if they never shorten the list and let nothing die, no comparison is undefined. In general == and != are undefined exactly when the sizes agree and a pair is reached whose element (node) is gone once the right item was read, whose borrowed element is dead when looked at again - after a NotImplemented, or for the TypeError of an ordering - or, linked, whose node is gone when the iterator advances; orderings exactly when that holds of the first pair. A list that grew meanwhile still compares equal. repr gives Python's text if __repr__ keeps the length (nodes); it is undefined exactly when the array list is empty after an item other than the last was printed, or the linked list's current node is gone or the iterator passed the end (items inserted in front do that); a list cut to one item prints it twice, items appended by the last one are left out.", "quantifier": "for all user code as functions of the list and the rest of the state, all contents, all right operands, all six comparisons", "why_tests_cant": "needs methods that change the list in mid-comparison; freed memory often still looks alive", "anchors": ["pyfastutil/src/objects/ObjectArrayList.cpp:ObjectArrayList_eq,ObjectArrayList_ne,ObjectArrayList_lt,ObjectArrayList_compare,ObjectArrayList_repr", "pyfastutil/src/objects/ObjectLinkedList.cpp:ObjectLinkedList_eq,ObjectLinkedList_ne,ObjectLinkedList_lt,ObjectLinkedList_compare,ObjectLinkedList_repr"]}
{"id": "C73", "title": "Threads sharing an integer array list while a method has released the GIL", "statement": "sort without key, reverse and, for n > 0, x * n and x *= n release the interpreter lock while they read or write the list. For any number of threads calling any methods of one list: if no schedule can reach a data race, every schedule behaves as if the calls ran one after another, in an order that keeps each thread's own. There is no race if nobody calls these four, if everybody only reads (x * n and x *= 1 included), or if one thread reads, stores, sorts and reverses and the others only take len(). Otherwise the list is not protected: a call that released the lock races (undefined in C++) with every first call of another thread that touches an element it touches when one of the two writes, and, even on an empty list, with every call that changes the size; x *= n with n > 1 on a non-empty list races with every call that looks at the size; two reversals of a two-element list can lose an element. No thread waits for ever for the lock.", "quantifier": "for any number of threads, all calls, contents and schedules", "why_tests_cant": "races need schedules tests cannot force, and mostly go unnoticed", "anchors": ["pyfastutil/src/ints/IntArrayList.cpp:IntArrayList_sort,IntArrayList_reverse,IntArrayList_mul,IntArrayList_imul,IntArrayList_append,IntArrayList_getitem,IntArrayList_setitem", "pyfastutil/src/ints/BigIntArrayList.cpp"]}
{"id": "C74", "title": "Lists made, initialised once, again or never, and dropped", "statement": "Histories create objects of one of the five list classes with the class call or __new__ alone, call __init__ any number of times with any arguments, use and drop them. For the three array list classes every history, and for the two linked list classes every history that initialises an object before it appends to, clears, copies from or drops it, answers like Python's lists and has no undefined behaviour: __init__ replaces the contents, keeps the elements in front of a failing item, empties the object when initialised from itself, and on arguments that do not fit the signature (iterable, exceptSize; linked lists: iterable) empties it and ends in SystemError (linked: TypeError). Every heap block has one owner or was left behind by a second initialisation: all nodes of the old contents of a linked list, at most one buffer of an array list; without second initialisations nothing is left when the objects are gone. Any of the four uses of a linked list that was never initialised, dropping it included, follows a null pointer. An iterator over a linked list initialised again hands out the old elements, one for each new one, and then reads the end node. A size the memory refuses is RuntimeError.", "quantifier": "for every history of calls on any number of objects, every argument list and keywords, all five classes", "why_tests_cant": "subclasses that forget the base __init__, repeated __init__ and argument errors are rarely tried; leaks are invisible to value tests", "anchors": ["pyfastutil/src/ints/IntArrayList.cpp:parseArgs,IntArrayList_init,IntArrayList_dealloc", "pyfastutil/src/ints/BigIntArrayList.cpp:BigIntArrayList_init", "pyfastutil/src/ints/IntLinkedList.cpp:IntLinkedList_init,IntLinkedList_dealloc", "pyfastutil/src/objects/ObjectArrayList.cpp:ObjectArrayList_init,ObjectArrayList_dealloc", "pyfastutil/src/objects/ObjectLinkedList.cpp:ObjectLinkedList_init,ObjectLinkedList_dealloc"]}
{"id": "C75", "title": "Finalizers that call back into the object linked list", "statement": "As C70, for the linked list with its nodes. x[i] takes exactly the reference it returns. With finalizers that leave the lists alone or only append, del x[i], slice assignment with any step and deallocation leave the list of the same call without finalizers (plus what was appended) and every reference keeps exactly one owner; clear visits what was appended too, and if it ends, everything is released. Finalizers that keep the node of their own object, whatever else they do to the list, are harmless: del x[i] removes the node that stood at i before, and clear is defined and frees nothing that is still referred to. del x[i] with any finalizer is undefined exactly if the finalizer is, freed its object itself or removed that node. clear never returns when every finalizer appends an object with such a finalizer, forgets and never releases what is inserted in front, and is undefined when a finalizer removes its object's node or reads an element already released; slice assignment with step 1 is undefined when a finalizer of a replaced or dropped object removes its node. remove never runs a finalizer.", "quantifier": "for all finalizers as functions of the list with its nodes, the source and the counts; all contents, arguments and reference counts", "why_tests_cant": "needs adversarial finalizers; freed nodes often still look alive", "anchors": ["pyfastutil/src/objects/ObjectLinkedList.cpp:ObjectLinkedList_setitem,ObjectLinkedList_setitem_slice,ObjectLinkedList_clear,ObjectLinkedList_remove,ObjectLinkedList_dealloc", "pyfastutil/src/utils/PythonUtils.h:SAFE_DECREF,PyFast_DECREF"]}
{"id": "C76", "title": "References taken by calls of the integer lists", "statement": "An integer list holds machine integers, so a call may keep no reference beyond those its result owns. For IntArrayList and BigIntArrayList every call - construction, searches, updates, extend and +=, slices, +, comparisons, iteration - changes the reference counts by exactly what its result owns, and by nothing when it raises, whatever items, iterators and sequences fail on the way and whichever Python objects cannot be allocated; so a program that drops its results ends with the counts it began with and every object it made gone. Exceptions: each sort with a key that ends leaves one reference to None; a constructor whose vector cannot grow leaves the sequence, or iterator, iterable and item. != with a sequence whose item read fails, and a keyed sort that cannot allocate an int, dereference NULL. IntLinkedList is the same except that x[i], slices, to_list and + leave one extra reference to every int they hand out (+ also when it then raises): reading an item outside the small-int cache n times leaves n int objects alive for ever; a failing allocation there dereferences NULL, and one in slice assignment also loses the item. Nothing in use is ever released. What each call returns, raises and leaves in the list, whatever fails on the way, is what the operation is for: a failing call leaves the contents alone, except that construction keeps the items before the failure, extend and += of the array lists keep those before it (the linked list also a -1), slice assignment keeps the items before it and writes -1 for one that does not convert, and pop removes the element even when its int cannot be made.", "quantifier": "for all histories of calls, arguments, iterators and failures, reference counts, both small-int caches and immortal objects", "why_tests_cant": "leaks and counts are invisible to value tests; failures must be injected at every point", "anchors": ["pyfastutil/src/ints/IntArrayList.cpp:IntArrayList_init,IntArrayList_to_list,IntArrayList_extend,IntArrayList_iadd,IntArrayList_sort,IntArrayList_getitem_slice,IntArrayList_setitem_slice,IntArrayList_add,IntArrayList_eq", "pyfastutil/src/ints/BigIntArrayList.cpp", "pyfastutil/src/ints/IntLinkedList.cpp:IntLinkedList_to_list,IntLinkedList_getitem,IntLinkedList_getitem_slice,IntLinkedList_setitem_slice,IntLinkedList_extend", "pyfastutil/src/utils/include/CPythonSort.c:CPython_sort"]}
{"id": "C77", "title": "References and memory in the calls of the object lists", "statement": "Any growth of the list and any new Python object may be refused, and iterators, sequences, keys and comparisons may fail. Every call of either object list then returns, raises or (extend and += without memory only) ends the process, its contents as in Python or as they were, except: a failing constructor keeps what it has read; extend and += keep the items before an iterator's error; slice assignment keeps the items stored so far; a failing sort keeps some order. The list owns one reference to each element and the result its own, nothing else changes, except: references are left behind to the elements at a second construction, the old element of x[i] = o, what resize and x *= n (n <= 0) cut off, None after each sort of a linked list, the first item of an array list's extend when __length_hint__ raises, the sequence or iterator and items of a constructor whose growth is refused, one item of an array list's slice assignment that is refused; and no reference is taken for elements copied from a list of the class by a constructor, the None that resize adds, and what slice assignment inserts from a list (array). x *= n, n >= 2, of an array list that is not empty raises RuntimeError with all memory used up. pop(i) of a linked list is undefined, slice assignment to it with a step can be (C52). A program without these, with enough memory, ends with all counts as before once the list is gone.", "quantifier": "for all programs of calls, arguments, refusals of memory and of objects, failures and reference counts, both classes, immortal objects or not", "why_tests_cant": "leaks and missing references are invisible to value tests; failing allocations cannot be provoked at every point", "anchors": ["pyfastutil/src/objects/ObjectArrayList.cpp:ObjectArrayList_init,ObjectArrayList_extend,ObjectArrayList_iadd,ObjectArrayList_resize,ObjectArrayList_imul,ObjectArrayList_setitem,ObjectArrayList_setitem_slice,ObjectArrayList_sort,ObjectArrayList_append,ObjectArrayList_insert", "pyfastutil/src/objects/ObjectArrayListIter.cpp", "pyfastutil/src/objects/ObjectLinkedList.cpp:ObjectLinkedList_init,ObjectLinkedList_extend,ObjectLinkedList_pop,ObjectLinkedList_imul,ObjectLinkedList_setitem_slice,ObjectLinkedList_sort", "pyfastutil/src/objects/ObjectLinkedListIter.cpp"]}
{"id": "C78", "title": "Threads sharing a linked list or an object array list while reverse has released the GIL", "statement": "reverse of IntLinkedList, ObjectLinkedList and ObjectArrayList releases the interpreter lock while it walks the nodes (elements) and exchanges their values. For any number of threads calling len, item reads and stores, del x[i], append, insert, pop, in, to_list, clear and reverse of one linked list: if no schedule can reach a data race, every schedule behaves as if the calls ran one after another on a Python list, in an order that keeps each thread's own; a call alone touches no freed node. There is no race if nobody reverses, or if one thread reverses, reads and stores elements and the others only take len(). Otherwise nothing protects the list: reverse races (undefined in C++) with every first call of another thread that touches a value other than the middle one, and, on every list, with every call that adds or removes a node; with every del x[i], pop or clear of a non-empty list there is a schedule in which reverse goes on to use the freed node. For the object array list with len, del x[i], x[i] = v and reverse: without a race every object keeps one reference for each time it is in the list and never loses another; with one, reversing [a, b] during del x[0] can leave b in the list with no reference to it and a never released. No thread waits for ever.", "quantifier": "for any number of threads, all calls, contents, node addresses and schedules", "why_tests_cant": "races need schedules tests cannot force; freed nodes mostly still look alive", "anchors": ["pyfastutil/src/ints/IntLinkedList.cpp:IntLinkedList_reverse,IntLinkedList_append,IntLinkedList_insert,IntLinkedList_pop,IntLinkedList_setitem,IntLinkedList_clear", "pyfastutil/src/objects/ObjectLinkedList.cpp:ObjectLinkedList_reverse", "pyfastutil/src/objects/ObjectArrayList.cpp:ObjectArrayList_reverse,ObjectArrayList_setitem", "pyfastutil/src/utils/Utils.h"]}
{"id": "C79", "title": "Importing the package", "statement": "The extension module makes a module for each of the fourteen classes and adds it under the class's name; ints.py, objects.py and unsafe/__init__.py take the classes out. An import that is loaded has all fourteen, each in a module of its own that only the extension module refers to, and one new reference to each class; the three files then bind every class of the library under its name, and nothing else. It is loaded if and only if each of its 43 requests for memory is granted; the first refused raises MemoryError, any other SystemError. Such an attempt is not undone: the extension module stays behind with no owner, with the modules it was given, as does every class module it could not take (the exact counts and contents are given); a class that could not be put into its module leaves nothing. After any attempts, one with enough memory loads the module.", "quantifier": "for all patterns of refused requests, reference counts and earlier attempts", "why_tests_cant": "failing allocations during an import cannot be provoked at every point; what is left behind is invisible", "anchors": ["pyfastutil/src/PyFastUtil.cpp:PyInit___pyfastutil", "pyfastutil/src/ints/IntArrayList.cpp:PyInit_IntArrayList", "pyfastutil/src/unsafe/Unsafe.cpp:PyInit_Unsafe", "pyfastutil/ints.py", "pyfastutil/objects.py", "pyfastutil/unsafe/__init__.py"]}
{"id": "C80", "title": "IntLinkedList when memory for nodes is refused", "statement": "Each node is one request that may be refused. append and insert then raise RuntimeError and leave the list alone; copy, construction, from_range and x * n return the whole list or raise and give every node back; slice assignment keeps the nodes made before the refused one; x *= n keeps the doublings it completed, so the elements are there 2^r times; extend and += end the process. With memory they do what they do for a Python list (x *= n: 2^(n-1) copies). Over any history that constructs each list once, the allocated nodes are always exactly those of the lists, none is freed twice or used after, and none is left when the lists go away; calling __init__ on a list again loses its nodes.", "quantifier": "for all histories over any number of lists, all values, failing items and iterators, and all patterns of refused requests", "why_tests_cant": "failing allocations cannot be provoked at every point; leaked nodes are invisible to value tests", "anchors": ["pyfastutil/src/ints/IntLinkedList.cpp:IntLinkedList_init,IntLinkedList_dealloc,IntLinkedList_from_range,IntLinkedList_copy,IntLinkedList_append,IntLinkedList_extend,IntLinkedList_insert,IntLinkedList_setitem_slice,IntLinkedList_iadd,IntLinkedList_mul,IntLinkedList_imul,IntLinkedList_clear"]}
{"id": "C81", "title": "Page protections under generated code (ASM on Windows)", "statement": "ASM.run and runFast run exactly the bytes they are given, give the copy of unaligned bytes back on every path, and change nothing when memory or the permission is refused; afterwards every page the bytes lie on has the protection the first of these pages had, so all protections are restored iff those pages were alike. If the protection cannot be put back, OSError is raised and the pages stay writable and executable. In any sequence of makeFunction, freeFunction, their Fast forms, run, runFast and calls in which regions have pages that are alike and a function is freed only when no live function made later shares a page with it, every function runs the bytes it was made of until it is freed, and the pages that differ from how they were are exactly those of live functions. Otherwise this fails: of two functions on one page, freeing the older makes the newer crash, and freeing both leaves the heap page executable for ever.", "quantifier": "for all bytes, addresses, page protections, answers of the allocator and VirtualProtect, and sequences of calls", "why_tests_cant": "whether two functions share a page depends on the allocator; lost or left-over page permissions show only as crashes or as a weakened process", "anchors": ["pyfastutil/src/unsafe/ASM.cpp:ASM_run,ASM_runFast,ASM_makeFunction,ASM_makeFunctionFast,ASM_freeFunction,ASM_freeFunctionFast"]}
{"id": "C82", "title": "Call helpers for natively compiled code", "statement": "PyFast_CallNoArgs, PyFast_CallNoKwargs and PyFast_Call call the callable exactly once with the arguments given, and the only reference count that changes is the result's, when the callable is a class whose metaclass has a tp_vectorcall or has a vectorcall of its own and is no bound method, and for no arguments also when it only has tp_call. Otherwise: a call by tp_call releases one reference of each positional argument (keyword names and values are balanced), so an object with n references is dead after n calls; a bound method, a callable whose vectorcall pointer is null, an instance of a type with a tp_vectorcall, an object that is not callable, and a refused tuple or dict each crash instead of raising. PyFast_LoadGlobal returns the global or else the builtin, and leaves the frame and both dictionaries one reference too many per call.", "quantifier": "for all callables, arguments, results, reference counts and numbers of calls", "why_tests_cant": "nothing calls these helpers yet; lost references show only when the object is used after it died", "anchors": ["pyfastutil/src/utils/PythonUtils.h:PyFast_CallNoArgs,PyFast_CallNoKwargs,PyFast_Call,PyFast_TuplePack,PyFast_DictPackWithTuple,PyFast_LoadGlobal"]}
{"id": "C83", "title": "Object lists and the cycle collector", "statement": "The object lists and their iterators have no garbage collector support: the collector does not know them and cannot see what they refer to; of an instance of a Python subclass it sees only the attributes. A collection frees or empties nothing that a program can still reach, through object lists or not, and empties nothing that it does not free. In a heap without object lists it frees exactly what cannot be reached. In any heap what is left is the largest set of objects in which each is referred to from the set or from elsewhere and each one the collector knows is held for all it can tell: from elsewhere, by a reference it cannot see whoever has it, or by an object that is itself held. So chains of lists go by counting, but a cycle through an object list or iterator - a list that contains itself, directly, in a Python list or in its own iterator - is never freed by any number of collections, with everything it refers to.", "quantifier": "for all heaps (any objects, references and multiplicities), references from elsewhere and numbers of collections", "why_tests_cant": "a leak shows no wrong value; that nothing reachable is freed holds for heaps of every shape", "anchors": ["pyfastutil/src/objects/ObjectArrayList.cpp:initializeObjectArrayListType", "pyfastutil/src/objects/ObjectLinkedList.cpp:initializeObjectLinkedListType", "pyfastutil/src/objects/ObjectArrayListIter.cpp", "pyfastutil/src/objects/ObjectLinkedListIter.cpp"]}
{"id": "C84", "title": "References taken by the construction of an IntIntHashMap", "statement": "Whatever the arguments, errors and answers of user code, constructing an IntIntHashMap never releases an object that has no references, takes nobody's reference away and answers as C71 says. From nothing, another map, a dict or a mapping it leaves every reference count as it was, also when it raises or ends in the null pointer of C71. From a list or tuple that is an iterator it does so too unless an entry is no pair; then one reference to the sequence, to the entry's iterator and to what was read from it stay behind. From an iterator one reference to every entry it has read stays behind even if it succeeds, and the iterator as well when an entry is no pair. For up to 2^24 - 2 entries.", "quantifier": "for all arguments, entries, conversion errors, answers of user code and reference counts", "why_tests_cant": "leaked references show no wrong value; the class is not registered, so no test reaches it", "anchors": ["pyfastutil/src/ints/IntIntHashMap.cpp:IntIntHashMap_init,convert"]}
{"id": "C85", "title": "Int constants and iteration helpers for natively compiled code", "statement": "PyFast_FromDigits: before Python 3.12 exactly the texts int() reads (white space, sign, digits with single underscores between) of at most the interpreter's limit of digits give an int, the one they denote; all others raise ValueError. From 3.12 on the digits base 2^30 of an int, with its count and sign, give that int; any digits give an object of their value, which has the form of a Python int iff there are none or the top one is not zero, and a count beyond the array reads past it. So a constant written both ways is the same int in both configurations, except that before 3.12 one of more digits than the limit is refused. PyFast_GetIter gives the iterator PyObject_GetIter gives, for lists, tuples, dicts, sets and strings by their type's slot. PyFast_Next returns the item of the type's slot, leaves exactly the error that slot set and crashes iff there is no slot; it differs from PyIter_Next exactly when the slot ends with StopIteration set, which then stays set.", "quantifier": "for all texts, digits, counts, signs, digit limits, objects and answers of slots, both configurations", "why_tests_cant": "nothing calls these helpers yet; malformed ints and left-over errors show up far from their cause", "anchors": ["pyfastutil/src/utils/PythonUtils.h:PyFast_FromDigits,PyFast_GetIter,PyFast_Next"]}
{"id": "C86", "title": "Operations of Python on the classes, whose types are never made ready", "statement": "No source calls PyType_Ready, so a type has only the slots of its table until CPython makes it ready on an occasion of its own: a method call x.f(...), reversed(x), with, subclassing, C[...], an attribute of the class, hash of an object that is no list. Every operation of any program is nevertheless answered as if the types had been made ready at import, except reading, testing or changing an attribute of an instance (getattr, hasattr, m = x.f, isinstance with an abstract base class) before the first such occasion: then no attribute is there, so hasattr(x, 'append') is False, and True after x.append(1). On the five list classes every operation and method of a Python list, called as Python allows it, runs the class's function for it, and methods that stand for operators what the operator runs; methods of a fixed number of arguments given another number run nothing. Lists are unhashable; iterators are their own iterators and cannot be made directly; only the two integer array lists have buffers; only Unsafe, ASM and SIMD work in with. Every method of the tables runs its function, which reads no parameter that is not passed, except __rmul__: its function is never run, the operator's takes its place.", "quantifier": "for all programs of operations, all names and numbers of arguments, every class but SIMDLowAVX512, ready or not", "why_tests_cant": "what works depends on what ran before in the process; test suites call methods first and never see it", "anchors": ["pyfastutil/src/ints/IntArrayList.cpp:IntArrayList_methods,IntArrayList_asSequence,IntArrayList_asMapping,initializeIntArrayListType,PyInit_IntArrayList", "pyfastutil/src/ints/BigIntArrayList.cpp:initializeBigIntArrayListType", "pyfastutil/src/ints/IntLinkedList.cpp:initializeIntLinkedListType", "pyfastutil/src/objects/ObjectArrayList.cpp:initializeObjectArrayListType", "pyfastutil/src/objects/ObjectLinkedList.cpp:initializeObjectLinkedListType", "pyfastutil/src/objects/ObjectArrayListIter.cpp", "pyfastutil/src/objects/ObjectLinkedListIter.cpp", "pyfastutil/src/unsafe/Unsafe.cpp:Unsafe_methods,initializeUnsafeType,Unsafe_enter,Unsafe_exit", "pyfastutil/src/unsafe/ASM.cpp:ASM_methods,initializeASMType", "pyfastutil/src/unsafe/SIMD.cpp:SIMD_methods,REGISTER_SIMD_FUNCTION"]}
{"id": "C87", "title": "Lists of another class and instances of subclasses as operands", "statement": "An int list recognises an operand by its exact type: only then are C values copied. A list of another of the three int classes, or an instance of a Python subclass of the same class, is read through its iterator or its len and item functions, object by object. Construction, extend, += and x[i:j] = y with step 1 then add one element per element, in order: the integer PyLong_AsLong reads, reduced to the width of the list. An element arrives unchanged iff it is in the range of the list and is not a negative 32-bit element read on Python 3.12 or later (-2^31 excepted); on those -5 arrives as 5 in a 32-bit list and as -(2^32 - 5) in a BigIntArrayList, and 2^32 + 3 of a BigIntArrayList always as 3 in a 32-bit list. += answers None for the exact class and the list itself otherwise; x + y raises MemoryError or TypeError. An array list's comparison slots answer as Python lists do about the elements as read, a linked list's as C31 says; so two instances of a subclass that both hold -5 are not equal from 3.12 on, while an exact array list compared with an instance of its subclass is compared like a Python list, as Python asks the right operand. x.extend(x) for x of a subclass, and x.extend(iter(x)), never end unless the list is empty: after n rounds the list is n longer; a linked list of one element uses its iterator at the end of the list instead, which is undefined.", "quantifier": "for all contents of the three int classes, exact or subclass operands, slices of step 1, numbers of rounds, both configurations", "why_tests_cant": "tests pass exact classes and non-negative values; the sources call the classes final; a loop without end has no result to compare", "anchors": ["pyfastutil/src/ints/IntArrayList.cpp:IntArrayList_init,IntArrayList_extend,IntArrayList_iadd,IntArrayList_add,IntArrayList_setitem_slice,IntArrayList_eq,IntArrayList_lt", "pyfastutil/src/ints/BigIntArrayList.cpp:BigIntArrayList_init,BigIntArrayList_extend", "pyfastutil/src/ints/IntLinkedList.cpp:IntLinkedList_init,IntLinkedList_extend,IntLinkedList_iadd,IntLinkedList_add,IntLinkedList_setitem_slice,IntLinkedList_eq,IntLinkedList_lt"]}
{"id": "C88", "title": "Object lists of another class and instances of subclasses as operands", "statement": "An object list recognises an operand by its exact type. extend and += with any other list of the two object classes, exact or an instance of a Python subclass, add its objects in order and take one reference for each; += answers None for the exact class and the list itself otherwise. Construction does the same, except that from the exact class it takes no reference at all (C36, C40); from the other class or from an instance of a subclass the counts are right. x.extend(x) for x of a subclass, and x.extend(iter(x)), never end unless the list is empty: each round adds one element and one reference; a linked list of one element uses its iterator at the end of the list instead, which is undefined.", "quantifier": "for all contents of both object classes, exact or subclass operands, reference counts, numbers of rounds", "why_tests_cant": "tests never pass subclass instances; a wrong count shows when the object dies elsewhere", "anchors": ["pyfastutil/src/objects/ObjectArrayList.cpp:ObjectArrayList_init,ObjectArrayList_extend,ObjectArrayList_iadd", "pyfastutil/src/objects/ObjectLinkedList.cpp:ObjectLinkedList_init,ObjectLinkedList_extend,ObjectLinkedList_iadd", "pyfastutil/src/objects/ObjectArrayListIter.cpp", "pyfastutil/src/objects/ObjectLinkedListIter.cpp"]}
{"id": "C89", "title": "The hash table when memory is refused", "statement": "With any answers of the allocator the table behind the int map and the JIT table behaves as follows. While nothing is refused it is a finite map. A place in the vector of values refused throws and leaves the table as it was; emplace asks for that place even for a key that is there, [] only for a new key. Growth - behind 3, 6, 12, 25, ... entries, when 0.8 of the buckets are used - releases the buckets before it asks for twice as many: if these are refused the exception leaves a table that counts the new entry and has no buckets; every later lookup, removal, insertion and copy of it follows a null pointer, only size and clear do not. clear brings no buckets back: then lookups answer, insertions still follow the null pointer; a copy of the cleared table is a working empty table. A copy that is refused leaves the target without buckets. IntIntHashMap(dict), the first in a process, never follows the null pointer: it holds all entries or raises RuntimeError at the first that cannot be put in; but if the first buckets are refused the C++ exception leaves tp_init, as the map is made outside the try block.", "quantifier": "for all histories of find, at, [], emplace, erase, clear, copy and size, all answers of the allocator at each step, every 64-bit hash function, up to 2^24 - 2 entries; for all dicts of ints", "why_tests_cant": "allocators hardly ever refuse in tests, and the failure shows one operation later", "anchors": ["pyfastutil/src/utils/include/UnorderedDense.h:increase_size,deallocate_buckets,allocate_buckets_from_shift,do_place_element,emplace,copy_buckets,clear", "pyfastutil/src/ints/IntIntHashMap.cpp:IntIntHashMap_init"]}
{"id": "C90", "title": "Object lists given an int list", "statement": "An object list constructed from, extended by or += with a list of one of the three int classes, or an instance of a Python subclass of one, gets one int object for each element, in order, with one reference for its place, and no other count or object changes. The object is the cached one of a small integer, or a new one that is nowhere else; from Python 3.12 on a 32-bit list never uses the cache. It stands for the element, except for negative elements of 32-bit lists from 3.12 on, other than -2^31: -5 becomes -4294967291. If memory for an object is refused, MemoryError is raised: extend and += keep what was added before it, construction gives every reference back.", "quantifier": "for all contents of the three int classes and both object classes, reference counts, caches of small integers, answers of the allocator, both configurations", "why_tests_cant": "tests compare values of small lists; a lost reference or a refused object does not show", "anchors": ["pyfastutil/src/objects/ObjectArrayList.cpp:ObjectArrayList_init,ObjectArrayList_extend,ObjectArrayList_iadd", "pyfastutil/src/objects/ObjectLinkedList.cpp:ObjectLinkedList_init,ObjectLinkedList_extend,ObjectLinkedList_iadd", "pyfastutil/src/utils/PythonUtils.h:PyFast_FromInt", "pyfastutil/src/ints/IntArrayListIter.cpp:IntArrayListIter_next", "pyfastutil/src/ints/IntLinkedListIter.cpp:IntLinkedListIter_next"]}
{"id": "C91", "title": "Int lists given an object list", "statement": "An int list constructed from, extended by or += with one of the object lists reads its objects in order through their iterator and gives every reference back: no count changes. If all objects convert, one element per object arrives: its integer reduced to the width of the list. At the first object that does not convert, construction raises RuntimeError; extend and += of the array lists raise the error of the conversion and keep what came before. extend and += of IntLinkedList store -1 for it, and raise the error only if another object follows: if it is the last, the iterator's own StopIteration takes the place of the error, so the call succeeds and the list ends with -1.", "quantifier": "for all contents of the three int classes and both object classes, all objects and conversions, reference counts", "why_tests_cant": "tests pass lists of ints; an error that is lost leaves only a wrong last element", "anchors": ["pyfastutil/src/ints/IntArrayList.cpp:IntArrayList_init,IntArrayList_extend,IntArrayList_iadd", "pyfastutil/src/ints/IntLinkedList.cpp:IntLinkedList_init,IntLinkedList_extend,IntLinkedList_iadd", "pyfastutil/src/objects/ObjectArrayListIter.cpp", "pyfastutil/src/objects/ObjectLinkedListIter.cpp"]}
{"id": "C92", "title": "The JIT functions when the memory of their table is refused", "statement": "makeFunction, freeFunction and their Fast forms, in one thread on Windows, answer with any answers of the allocator as if functions were kept in a finite map; a free hands VirtualProtect the size and protection noted when that address was last made, or (0, 0) for an unknown one. A refused code block is MemoryError; but the methods are noexcept and catch nothing around the table, so the process ends when a new key finds no place in the vector of values, or the buckets must be doubled (behind 3, 6, 12, 25, ... entries) and are refused. That happens for no other reason, also in freeFunctionFast of an unknown address, which makes an entry. Because of that end the table is never used without buckets, unlike C89's. An unknown address freed the fast way keeps its entry if VirtualProtect refuses it, and then a debug build's assertion fails when a block gets that address while a release build goes on; if VirtualProtect grants it, a block that is none is released. freeFunction leaves the lock locked when it raises, and the next makeFunction or freeFunction of the thread locks it again, which is undefined.", "quantifier": "for all sequences of calls, addresses, sizes, answers of the allocators and of VirtualProtect at each call, every 64-bit hash function, debug and release builds, up to 2^24 - 3 entries", "why_tests_cant": "allocators hardly ever refuse in tests, the process then ends; the code is Windows only", "anchors": ["pyfastutil/src/unsafe/ASM.cpp:ASM_makeFunction,ASM_makeFunctionFast,ASM_freeFunction,ASM_freeFunctionFast", "pyfastutil/src/utils/include/UnorderedDense.h:increase_size,do_place_element,at,operator[],erase"]}
{"id": "C93", "title": "IntIntHashMap objects made, initialised once, again or never, and dropped", "statement": "In every history that makes IntIntHashMap objects, initialises them any number of times and drops them, with any steps of their tables and any answers of the allocator, no block is released twice or without having been allocated, also when an object was never initialised or its construction failed halfway. A construction answers RuntimeError iff a step is refused memory; if the first buckets are refused the exception leaves the function. Every allocated block belongs to exactly one object or was left behind by a second __init__, at most two each; without second initialisations nothing is left when the objects are gone. A second __init__ of an object whose first one succeeded always leaves a block behind.", "quantifier": "for all histories of __new__, __init__ and dealloc of any objects, all sequences of growth and copy steps of the tables, all answers of the allocator", "why_tests_cant": "leaked and doubly freed blocks show no wrong value; the class is not registered, so no test reaches it", "anchors": ["pyfastutil/src/ints/IntIntHashMap.cpp:IntIntHashMap_init,IntIntHashMap_dealloc", "pyfastutil/src/utils/include/UnorderedDense.h:~table,operator=,increase_size,deallocate_buckets,allocate_buckets_from_shift,copy_buckets"]}
