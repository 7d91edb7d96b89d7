(** The type tables of the registered classes (all but SIMDLowAVX512, whose
    methods are in Avx512Table), made by a script from the sources; paths under
    pyfastutil/src. Of the slots those are kept that say what an operation of
    Python reaches; a slot not listed is null. Python 3.9 or later. *)
From Coq Require Import List String.
Import ListNotations.
Local Open Scope list_scope.
Local Open Scope string_scope.

Inductive slot :=
| tp_new | tp_init | tp_iter | tp_iternext | tp_hash | tp_richcompare | tp_repr | tp_str | tp_getattro | tp_setattro
| sq_length | sq_concat | sq_repeat | sq_item | sq_ass_item | sq_contains | sq_inplace_concat | sq_inplace_repeat
| mp_length | mp_subscript | mp_ass_subscript | bf_getbuffer.
(** METH_NOARGS, METH_O, METH_FASTCALL, METH_VARARGS, METH_VARARGS|METH_KEYWORDS;
    METH_STATIC and METH_CLASS. *)
Inductive convention := NoArgs | One | Fast | VarArgs | VarKeywords.
Inductive binding := Bound | Static | OfClass.
(** The parameters of the C function: an object, an array of objects, a size. *)
Inductive param := PObject | PArray | PSize.
Record method := { m_name : string; m_binding : binding; m_conv : convention; m_fn : string; m_params : list param }.
Definition meth (n : string) (b : binding) (c : convention) (f : string) (ps : list param) : method :=
  {| m_name := n; m_binding := b; m_conv := c; m_fn := f; m_params := ps |}.

(** ints/IntArrayList.cpp:1173-1190, 1203-1246 *)
Definition IntArrayList_slots : list (slot * string) :=
  [(sq_length, "IntArrayList_len"); (sq_concat, "IntArrayList_add"); (sq_repeat, "IntArrayList_mul");
   (sq_item, "IntArrayList_getitem"); (sq_ass_item, "IntArrayList_setitem"); (sq_contains, "IntArrayList_contains");
   (sq_inplace_concat, "IntArrayList_iadd"); (sq_inplace_repeat, "IntArrayList_imul"); (mp_length, "IntArrayList_len");
   (mp_subscript, "IntArrayList_getitem_slice"); (mp_ass_subscript, "IntArrayList_setitem_slice"); (bf_getbuffer, "IntArrayList_get_buffer");
   (tp_iter, "IntArrayList_iter"); (tp_init, "IntArrayList_init"); (tp_new, "PyType_GenericNew");
   (tp_hash, "PyObject_HashNotImplemented"); (tp_richcompare, "IntArrayList_compare"); (tp_repr, "IntArrayList_repr");
   (tp_str, "IntArrayList_str")].
Definition IntArrayList_methods : list method :=
  [meth "from_range" Static VarArgs "IntArrayList_from_range" [PObject; PObject];
   meth "resize" Bound One "IntArrayList_resize" [PObject; PObject];
   meth "to_list" Bound NoArgs "IntArrayList_to_list" [PObject];
   meth "copy" Bound NoArgs "IntArrayList_copy" [PObject];
   meth "append" Bound One "IntArrayList_append" [PObject; PObject];
   meth "extend" Bound Fast "IntArrayList_extend" [PObject; PArray; PSize];
   meth "pop" Bound Fast "IntArrayList_pop" [PObject; PArray; PSize];
   meth "index" Bound VarArgs "IntArrayList_index" [PObject; PObject];
   meth "count" Bound One "IntArrayList_count" [PObject; PObject];
   meth "insert" Bound VarArgs "IntArrayList_insert" [PObject; PObject];
   meth "remove" Bound One "IntArrayList_remove" [PObject; PObject];
   meth "sort" Bound VarKeywords "IntArrayList_sort" [PObject; PObject; PObject];
   meth "reverse" Bound NoArgs "IntArrayList_reverse" [PObject];
   meth "clear" Bound NoArgs "IntArrayList_clear" [PObject];
   meth "__rmul__" Bound One "IntArrayList_rmul" [PObject; PObject];
   meth "__reversed__" Bound NoArgs "IntArrayList_reversed" [PObject];
   meth "__class_getitem__" OfClass One "IntArrayList_class_getitem" [PObject; PObject]].

(** ints/IntArrayListIter.cpp:89-100 *)
Definition IntArrayListIter_slots : list (slot * string) :=
  [(tp_iter, "IntArrayListIter_iter"); (tp_iternext, "IntArrayListIter_next")].
Definition IntArrayListIter_methods : list method :=
  [].

(** ints/BigIntArrayList.cpp:1175-1192, 1205-1248 *)
Definition BigIntArrayList_slots : list (slot * string) :=
  [(sq_length, "BigIntArrayList_len"); (sq_concat, "BigIntArrayList_add"); (sq_repeat, "BigIntArrayList_mul");
   (sq_item, "BigIntArrayList_getitem"); (sq_ass_item, "BigIntArrayList_setitem"); (sq_contains, "BigIntArrayList_contains");
   (sq_inplace_concat, "BigIntArrayList_iadd"); (sq_inplace_repeat, "BigIntArrayList_imul"); (mp_length, "BigIntArrayList_len");
   (mp_subscript, "BigIntArrayList_getitem_slice"); (mp_ass_subscript, "BigIntArrayList_setitem_slice"); (bf_getbuffer, "BigIntArrayList_get_buffer");
   (tp_iter, "BigIntArrayList_iter"); (tp_init, "BigIntArrayList_init"); (tp_new, "PyType_GenericNew");
   (tp_hash, "PyObject_HashNotImplemented"); (tp_richcompare, "BigIntArrayList_compare"); (tp_repr, "BigIntArrayList_repr");
   (tp_str, "BigIntArrayList_str")].
Definition BigIntArrayList_methods : list method :=
  [meth "from_range" Static VarArgs "BigIntArrayList_from_range" [PObject; PObject];
   meth "resize" Bound One "BigIntArrayList_resize" [PObject; PObject];
   meth "to_list" Bound NoArgs "BigIntArrayList_to_list" [PObject];
   meth "copy" Bound NoArgs "BigIntArrayList_copy" [PObject];
   meth "append" Bound One "BigIntArrayList_append" [PObject; PObject];
   meth "extend" Bound Fast "BigIntArrayList_extend" [PObject; PArray; PSize];
   meth "pop" Bound Fast "BigIntArrayList_pop" [PObject; PArray; PSize];
   meth "index" Bound VarArgs "BigIntArrayList_index" [PObject; PObject];
   meth "count" Bound One "BigIntArrayList_count" [PObject; PObject];
   meth "insert" Bound VarArgs "BigIntArrayList_insert" [PObject; PObject];
   meth "remove" Bound One "BigIntArrayList_remove" [PObject; PObject];
   meth "sort" Bound VarKeywords "BigIntArrayList_sort" [PObject; PObject; PObject];
   meth "reverse" Bound NoArgs "BigIntArrayList_reverse" [PObject];
   meth "clear" Bound NoArgs "BigIntArrayList_clear" [PObject];
   meth "__rmul__" Bound One "BigIntArrayList_rmul" [PObject; PObject];
   meth "__reversed__" Bound NoArgs "BigIntArrayList_reversed" [PObject];
   meth "__class_getitem__" OfClass One "BigIntArrayList_class_getitem" [PObject; PObject]].

(** ints/BigIntArrayListIter.cpp:89-100 *)
Definition BigIntArrayListIter_slots : list (slot * string) :=
  [(tp_iter, "BigIntArrayListIter_iter"); (tp_iternext, "BigIntArrayListIter_next")].
Definition BigIntArrayListIter_methods : list method :=
  [].

(** ints/IntLinkedList.cpp:1089-1105, 1118-1155 *)
Definition IntLinkedList_slots : list (slot * string) :=
  [(sq_length, "IntLinkedList_len"); (sq_concat, "IntLinkedList_add"); (sq_repeat, "IntLinkedList_mul");
   (sq_item, "IntLinkedList_getitem"); (sq_ass_item, "IntLinkedList_setitem"); (sq_contains, "IntLinkedList_contains");
   (sq_inplace_concat, "IntLinkedList_iadd"); (sq_inplace_repeat, "IntLinkedList_imul"); (mp_length, "IntLinkedList_len");
   (mp_subscript, "IntLinkedList_getitem_slice"); (mp_ass_subscript, "IntLinkedList_setitem_slice"); (tp_iter, "IntLinkedList_iter");
   (tp_init, "IntLinkedList_init"); (tp_new, "PyType_GenericNew"); (tp_hash, "PyObject_HashNotImplemented");
   (tp_richcompare, "IntLinkedList_compare"); (tp_repr, "IntLinkedList_repr"); (tp_str, "IntLinkedList_str")].
Definition IntLinkedList_methods : list method :=
  [meth "from_range" Static VarArgs "IntLinkedList_from_range" [PObject; PObject];
   meth "to_list" Bound NoArgs "IntLinkedList_to_list" [PObject];
   meth "copy" Bound NoArgs "IntLinkedList_copy" [PObject];
   meth "append" Bound One "IntLinkedList_append" [PObject; PObject];
   meth "extend" Bound Fast "IntLinkedList_extend" [PObject; PArray; PSize];
   meth "pop" Bound Fast "IntLinkedList_pop" [PObject; PArray; PSize];
   meth "index" Bound VarArgs "IntLinkedList_index" [PObject; PObject];
   meth "count" Bound One "IntLinkedList_count" [PObject; PObject];
   meth "insert" Bound VarArgs "IntLinkedList_insert" [PObject; PObject];
   meth "remove" Bound One "IntLinkedList_remove" [PObject; PObject];
   meth "sort" Bound VarKeywords "IntLinkedList_sort" [PObject; PObject; PObject];
   meth "reverse" Bound NoArgs "IntLinkedList_reverse" [PObject];
   meth "clear" Bound NoArgs "IntLinkedList_clear" [PObject];
   meth "__rmul__" Bound One "IntLinkedList_rmul" [PObject; PObject];
   meth "__reversed__" Bound NoArgs "IntLinkedList_reversed" [PObject];
   meth "__class_getitem__" OfClass One "IntLinkedList_class_getitem" [PObject; PObject]].

(** ints/IntLinkedListIter.cpp:112-123 *)
Definition IntLinkedListIter_slots : list (slot * string) :=
  [(tp_iter, "IntLinkedListIter_iter"); (tp_iternext, "IntLinkedListIter_next")].
Definition IntLinkedListIter_methods : list method :=
  [].

(** objects/ObjectArrayList.cpp:1140-1156, 1169-1206 *)
Definition ObjectArrayList_slots : list (slot * string) :=
  [(sq_length, "ObjectArrayList_len"); (sq_concat, "ObjectArrayList_add"); (sq_repeat, "ObjectArrayList_mul");
   (sq_item, "ObjectArrayList_getitem"); (sq_ass_item, "ObjectArrayList_setitem"); (sq_contains, "ObjectArrayList_contains");
   (sq_inplace_concat, "ObjectArrayList_iadd"); (sq_inplace_repeat, "ObjectArrayList_imul"); (mp_length, "ObjectArrayList_len");
   (mp_subscript, "ObjectArrayList_getitem_slice"); (mp_ass_subscript, "ObjectArrayList_setitem_slice"); (tp_iter, "ObjectArrayList_iter");
   (tp_init, "ObjectArrayList_init"); (tp_new, "PyType_GenericNew"); (tp_hash, "PyObject_HashNotImplemented");
   (tp_richcompare, "ObjectArrayList_compare"); (tp_repr, "ObjectArrayList_repr"); (tp_str, "ObjectArrayList_str")].
Definition ObjectArrayList_methods : list method :=
  [meth "resize" Bound One "ObjectArrayList_resize" [PObject; PObject];
   meth "to_list" Bound NoArgs "ObjectArrayList_to_list" [PObject];
   meth "copy" Bound NoArgs "ObjectArrayList_copy" [PObject];
   meth "append" Bound One "ObjectArrayList_append" [PObject; PObject];
   meth "extend" Bound Fast "ObjectArrayList_extend" [PObject; PArray; PSize];
   meth "pop" Bound Fast "ObjectArrayList_pop" [PObject; PArray; PSize];
   meth "index" Bound VarArgs "ObjectArrayList_index" [PObject; PObject];
   meth "count" Bound One "ObjectArrayList_count" [PObject; PObject];
   meth "insert" Bound VarArgs "ObjectArrayList_insert" [PObject; PObject];
   meth "remove" Bound One "ObjectArrayList_remove" [PObject; PObject];
   meth "sort" Bound VarKeywords "ObjectArrayList_sort" [PObject; PObject; PObject];
   meth "reverse" Bound NoArgs "ObjectArrayList_reverse" [PObject];
   meth "clear" Bound NoArgs "ObjectArrayList_clear" [PObject];
   meth "__rmul__" Bound One "ObjectArrayList_rmul" [PObject; PObject];
   meth "__reversed__" Bound NoArgs "ObjectArrayList_reversed" [PObject];
   meth "__class_getitem__" OfClass One "ObjectArrayList_class_getitem" [PObject; PObject]].

(** objects/ObjectArrayListIter.cpp:92-103 *)
Definition ObjectArrayListIter_slots : list (slot * string) :=
  [(tp_iter, "ObjectArrayListIter_iter"); (tp_iternext, "ObjectArrayListIter_next")].
Definition ObjectArrayListIter_methods : list method :=
  [].

(** objects/ObjectLinkedList.cpp:1051-1066, 1079-1116 *)
Definition ObjectLinkedList_slots : list (slot * string) :=
  [(sq_length, "ObjectLinkedList_len"); (sq_concat, "ObjectLinkedList_add"); (sq_repeat, "ObjectLinkedList_mul");
   (sq_item, "ObjectLinkedList_getitem"); (sq_ass_item, "ObjectLinkedList_setitem"); (sq_contains, "ObjectLinkedList_contains");
   (sq_inplace_concat, "ObjectLinkedList_iadd"); (sq_inplace_repeat, "ObjectLinkedList_imul"); (mp_length, "ObjectLinkedList_len");
   (mp_subscript, "ObjectLinkedList_getitem_slice"); (mp_ass_subscript, "ObjectLinkedList_setitem_slice"); (tp_iter, "ObjectLinkedList_iter");
   (tp_init, "ObjectLinkedList_init"); (tp_new, "PyType_GenericNew"); (tp_hash, "PyObject_HashNotImplemented");
   (tp_richcompare, "ObjectLinkedList_compare"); (tp_repr, "ObjectLinkedList_repr"); (tp_str, "ObjectLinkedList_str")].
Definition ObjectLinkedList_methods : list method :=
  [meth "to_list" Bound NoArgs "ObjectLinkedList_to_list" [PObject];
   meth "copy" Bound NoArgs "ObjectLinkedList_copy" [PObject];
   meth "append" Bound One "ObjectLinkedList_append" [PObject; PObject];
   meth "extend" Bound Fast "ObjectLinkedList_extend" [PObject; PArray; PSize];
   meth "pop" Bound Fast "ObjectLinkedList_pop" [PObject; PArray; PSize];
   meth "index" Bound VarArgs "ObjectLinkedList_index" [PObject; PObject];
   meth "count" Bound One "ObjectLinkedList_count" [PObject; PObject];
   meth "insert" Bound VarArgs "ObjectLinkedList_insert" [PObject; PObject];
   meth "remove" Bound One "ObjectLinkedList_remove" [PObject; PObject];
   meth "sort" Bound VarKeywords "ObjectLinkedList_sort" [PObject; PObject; PObject];
   meth "reverse" Bound NoArgs "ObjectLinkedList_reverse" [PObject];
   meth "clear" Bound NoArgs "ObjectLinkedList_clear" [PObject];
   meth "__rmul__" Bound One "ObjectLinkedList_rmul" [PObject; PObject];
   meth "__reversed__" Bound NoArgs "ObjectLinkedList_reversed" [PObject];
   meth "__class_getitem__" OfClass One "ObjectLinkedList_class_getitem" [PObject; PObject]].

(** objects/ObjectLinkedListIter.cpp:115-126 *)
Definition ObjectLinkedListIter_slots : list (slot * string) :=
  [(tp_iter, "ObjectLinkedListIter_iter"); (tp_iternext, "ObjectLinkedListIter_next")].
Definition ObjectLinkedListIter_methods : list method :=
  [].

(** unsafe/Unsafe.cpp:357-380, 385-396 *)
Definition Unsafe_slots : list (slot * string) :=
  [(tp_init, "Unsafe_init"); (tp_new, "PyType_GenericNew")].
Definition Unsafe_methods : list method :=
  [meth "__enter__" Bound NoArgs "Unsafe_enter" [PObject; PObject];
   meth "__exit__" Bound Fast "Unsafe_exit" [PObject; PArray; PSize];
   meth "malloc" Bound One "Unsafe_malloc" [PObject; PObject];
   meth "calloc" Bound VarArgs "Unsafe_calloc" [PObject; PObject];
   meth "realloc" Bound VarArgs "Unsafe_realloc" [PObject; PObject];
   meth "free" Bound One "Unsafe_free" [PObject; PObject];
   meth "aligned_malloc" Bound VarArgs "Unsafe_alignedMalloc" [PObject; PObject];
   meth "aligned_free" Bound One "Unsafe_alignedFree" [PObject; PObject];
   meth "get" Bound VarArgs "Unsafe_get" [PObject; PObject];
   meth "set" Bound VarArgs "Unsafe_set" [PObject; PObject];
   meth "callVoid" Bound Fast "Unsafe_callVoid" [PObject; PArray; PSize];
   meth "callInt" Bound Fast "Unsafe_callInt" [PObject; PArray; PSize];
   meth "callLongLong" Bound Fast "Unsafe_callLongLong" [PObject; PArray; PSize];
   meth "call" Bound Fast "Unsafe_call" [PObject; PArray; PSize];
   meth "get_address" Bound One "Unsafe_getAddress" [PObject; PObject];
   meth "as_object" Bound One "Unsafe_as_object" [PObject; PObject];
   meth "memcpy" Bound Fast "Unsafe_memcpy" [PObject; PArray; PSize];
   meth "memset" Bound Fast "Unsafe_memset" [PObject; PArray; PSize];
   meth "incref" Bound One "Unsafe_incref" [PObject; PObject];
   meth "decref" Bound One "Unsafe_decref" [PObject; PObject];
   meth "refcnt" Bound One "Unsafe_refcnt" [PObject; PObject];
   meth "fputs" Bound One "Unsafe_fputs" [PObject; PObject];
   meth "fflush" Bound NoArgs "Unsafe_fflush" [PObject];
   meth "fgets" Bound One "Unsafe_fgets" [PObject; PObject]].

(** unsafe/ASM.cpp:323-330, 334-345 *)
Definition ASM_slots : list (slot * string) :=
  [(tp_init, "ASM_init"); (tp_new, "PyType_GenericNew")].
Definition ASM_methods : list method :=
  [meth "__enter__" Bound NoArgs "ASM_enter" [PObject; PObject];
   meth "__exit__" Bound Fast "ASM_exit" [PObject; PArray; PSize];
   meth "run" Bound Fast "ASM_run" [PObject; PArray; PSize];
   meth "runFast" Bound Fast "ASM_runFast" [PObject; PArray; PSize];
   meth "makeFunction" Bound Fast "ASM_makeFunction" [PObject; PArray; PSize];
   meth "makeFunctionFast" Bound Fast "ASM_makeFunctionFast" [PObject; PArray; PSize];
   meth "freeFunction" Bound Fast "ASM_freeFunction" [PObject; PArray; PSize];
   meth "freeFunctionFast" Bound Fast "ASM_freeFunctionFast" [PObject; PArray; PSize]].

(** unsafe/SIMD.cpp:30-33, the macro REGISTER_SIMD_FUNCTION *)
Definition simd_rows (n : string) : list method :=
  [meth ("memcpy" ++ n) Bound Fast ("SIMD_memcpy" ++ n) [PObject; PArray; PSize];
   meth ("memcpy" ++ n ++ "Aligned") Bound Fast ("SIMD_memcpy" ++ n ++ "Aligned") [PObject; PArray; PSize];
   meth ("reverse" ++ n) Bound Fast ("SIMD_reverse" ++ n) [PObject; PArray; PSize]].
(** unsafe/SIMD.cpp:326-375, 380-391 *)
Definition SIMD_slots : list (slot * string) :=
  [(tp_init, "SIMD_init"); (tp_new, "PyType_GenericNew")].
Definition SIMD_methods : list method := (
  [meth "__enter__" Bound NoArgs "SIMD_enter" [PObject; PObject];
   meth "__exit__" Bound Fast "SIMD_exit" [PObject; PArray; PSize];
   meth "isSSE41Supported" Bound NoArgs "SIMD_isSSE41Supported" [PObject];
   meth "isAVX2Supported" Bound NoArgs "SIMD_isAVX2Supported" [PObject];
   meth "isAVX512Supported" Bound NoArgs "SIMD_isAVX512Supported" [PObject];
   meth "isSSSE3Supported" Bound NoArgs "SIMD_isSSSE3Supported" [PObject];
   meth "isArmNeonSupported" Bound NoArgs "SIMD_isArmNeonSupported" [PObject];
   meth "setAVX512Vector32" Bound Fast "SIMD_setAVX512Vector32" [PObject; PArray; PSize];
   meth "setAVX512Vector16" Bound Fast "SIMD_setAVX512Vector16" [PObject; PArray; PSize];
   meth "setAVX512Vector8" Bound Fast "SIMD_setAVX512Vector8" [PObject; PArray; PSize];
   meth "setAVX2Vector32" Bound Fast "SIMD_setAVX2Vector32" [PObject; PArray; PSize];
   meth "setAVX2Vector16" Bound Fast "SIMD_setAVX2Vector16" [PObject; PArray; PSize];
   meth "setAVX2Vector8" Bound Fast "SIMD_setAVX2Vector8" [PObject; PArray; PSize]] ++
  flat_map simd_rows
   ["Int"; "UnsignedInt"; "Long"; "UnsignedLong"; "LongLong"; "UnsignedLongLong"; "Short"; "UnsignedShort";
    "Float"; "Double"; "LongDouble"; "Char"; "UnsignedChar"; "WChar"; "Char16"; "Char32";
    "Bool"; "Int8"; "UInt8"; "Int16"; "UInt16"; "Int32"; "UInt32"; "Int64";
    "UInt64"; "VoidPtr"; "IntPtr"; "FloatPtr"; "PyObjectPtr"])%list.

Inductive class :=
| IntArrayList | IntArrayListIter | BigIntArrayList | BigIntArrayListIter | IntLinkedList | IntLinkedListIter | ObjectArrayList | ObjectArrayListIter | ObjectLinkedList | ObjectLinkedListIter | Unsafe | ASM | SIMD.
Definition class_name (c : class) : string :=
  match c with IntArrayList => "IntArrayList" | IntArrayListIter => "IntArrayListIter" | BigIntArrayList => "BigIntArrayList" | BigIntArrayListIter => "BigIntArrayListIter" | IntLinkedList => "IntLinkedList" | IntLinkedListIter => "IntLinkedListIter" | ObjectArrayList => "ObjectArrayList" | ObjectArrayListIter => "ObjectArrayListIter" | ObjectLinkedList => "ObjectLinkedList" | ObjectLinkedListIter => "ObjectLinkedListIter" | Unsafe => "Unsafe" | ASM => "ASM" | SIMD => "SIMD" end.
Definition slots (c : class) : list (slot * string) :=
  match c with IntArrayList => IntArrayList_slots | IntArrayListIter => IntArrayListIter_slots | BigIntArrayList => BigIntArrayList_slots | BigIntArrayListIter => BigIntArrayListIter_slots | IntLinkedList => IntLinkedList_slots | IntLinkedListIter => IntLinkedListIter_slots | ObjectArrayList => ObjectArrayList_slots | ObjectArrayListIter => ObjectArrayListIter_slots | ObjectLinkedList => ObjectLinkedList_slots | ObjectLinkedListIter => ObjectLinkedListIter_slots | Unsafe => Unsafe_slots | ASM => ASM_slots | SIMD => SIMD_slots end.
Definition methods (c : class) : list method :=
  match c with IntArrayList => IntArrayList_methods | IntArrayListIter => IntArrayListIter_methods | BigIntArrayList => BigIntArrayList_methods | BigIntArrayListIter => BigIntArrayListIter_methods | IntLinkedList => IntLinkedList_methods | IntLinkedListIter => IntLinkedListIter_methods | ObjectArrayList => ObjectArrayList_methods | ObjectArrayListIter => ObjectArrayListIter_methods | ObjectLinkedList => ObjectLinkedList_methods | ObjectLinkedListIter => ObjectLinkedListIter_methods | Unsafe => Unsafe_methods | ASM => ASM_methods | SIMD => SIMD_methods end.
