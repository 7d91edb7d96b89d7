(** What Python programs may expect of the classes: which of their functions an
    operation runs, and when a type is ready. *)
From Coq Require Import List Bool String.
From Verif Require Import TypeTable TypeModel.
Import ListNotations.
Local Open Scope list_scope.
Local Open Scope string_scope.

Definition is_list (c : class) : Prop := In c [IntArrayList; BigIntArrayList; IntLinkedList; ObjectArrayList; ObjectLinkedList].
Definition is_iterator (c : class) : Prop := In c [IntArrayListIter; BigIntArrayListIter; IntLinkedListIter; ObjectArrayListIter; ObjectLinkedListIter].
Definition is_manager (c : class) : Prop := In c [Unsafe; ASM; SIMD].
(** Reading, testing and changing attributes of an instance. *)
Definition attribute_access (o : op) : Prop :=
  match o with GetAttr _ | HasAttr _ | SetAttr _ | DelAttr _ | IsInstance => True | _ => False end.
(** The occasions on which a type becomes ready. *)
Definition makes_ready (c : class) (o : op) : Prop :=
  match o with
  | CallMethod _ _ _ | With | Reversed | Subclass | ClassItem | ClassAttr _ | Specialize => True
  | Hash => ~ is_list c
  | _ => False
  end.
(** What is answered before that. *)
Definition unready_answer (o : op) : option answer :=
  match o with
  | GetAttr _ | IsInstance => Some (Raises ErrAttribute)
  | HasAttr _ => Some (Says false)
  | SetAttr _ | DelAttr _ => Some (Raises ErrType)
  | _ => None
  end.
(** The function of a list class for each operation of a Python list. *)
Definition of_class (c : class) (f : string) : string := class_name c ++ "_" ++ f.
Definition list_operations : list (op * string) :=
  [(Len, "len"); (GetItem, "getitem_slice"); (SetItem, "setitem_slice"); (DelItem, "setitem_slice"); (Contains, "contains");
   (Add Index, "add"); (Add Plain, "add"); (IAdd Index, "iadd"); (IAdd Plain, "iadd"); (Mul Index, "mul"); (RMul Index, "mul"); (IMul Index, "imul");
   (Iter, "iter"); (Reversed, "reversed"); (Equal, "compare"); (Order, "compare"); (Repr, "repr"); (Str, "str"); (Truth, "len");
   (Construct, "init"); (ClassItem, "class_getitem")].
(** The methods of Python's list: fewest and most arguments, keywords, function. *)
Definition list_methods : list (string * (nat * nat * nat * string)) :=
  [("append", (1, 1, 0, "append")); ("clear", (0, 0, 0, "clear")); ("copy", (0, 0, 0, "copy")); ("count", (1, 1, 0, "count"));
   ("extend", (1, 1, 0, "extend")); ("index", (1, 3, 0, "index")); ("insert", (2, 2, 0, "insert")); ("pop", (0, 1, 0, "pop"));
   ("remove", (1, 1, 0, "remove")); ("reverse", (0, 0, 0, "reverse")); ("sort", (0, 0, 2, "sort")); ("__reversed__", (0, 0, 0, "reversed"));
   ("__class_getitem__", (1, 1, 0, "class_getitem"))]%nat.
(** Those whose number of arguments is checked before the function runs. *)
Definition checked_methods : list (string * nat) :=
  [("append", 1); ("count", 1); ("remove", 1); ("clear", 0); ("copy", 0); ("reverse", 0); ("to_list", 0)]%nat.
(** Operators and the methods that stand for them. *)
Definition dunders : list (string * nat * op) :=
  [("__len__", 0, Len); ("__getitem__", 1, GetItem); ("__setitem__", 2, SetItem); ("__delitem__", 1, DelItem); ("__contains__", 1, Contains);
   ("__add__", 1, Add Plain); ("__iadd__", 1, IAdd Plain); ("__mul__", 1, Mul Index); ("__rmul__", 1, RMul Index); ("__imul__", 1, IMul Index);
   ("__iter__", 0, Iter); ("__reversed__", 0, Reversed); ("__eq__", 1, Equal); ("__ne__", 1, Equal); ("__lt__", 1, Order); ("__le__", 1, Order);
   ("__gt__", 1, Order); ("__ge__", 1, Order); ("__repr__", 0, Repr); ("__str__", 0, Str)]%nat.
(** The attributes of an instance: methods, operators the table fills, object's. *)
Definition has_attribute (c : class) (n : string) : Prop :=
  In n (map m_name (methods c)) \/ In n object_names \/
  exists s k f, In (n, (s, k)) wrappers /\ In (s, f) (slots c).
(** An earlier step of the program made the type of [c] ready. *)
Definition readied (prog : list (class * op)) (k : nat) (c : class) : Prop :=
  exists j o, (j < k)%nat /\ nth_error prog j = Some (c, o) /\ makes_ready c o.
(** Had PyType_Ready been called at import. *)
Definition all_ready : state := fun _ => true.
