(** What the operations of Python reach on the registered classes.

    No source file calls PyType_Ready (PyInit_IntArrayList, ints/IntArrayList.cpp:
    1251-1267, and the PyInit functions of the other classes go from
    initialize...Type to PyModule_AddObject). So a type has the slots of its table
    only, until CPython makes it ready on some occasion; then the slots it lacks
    come from object and it gets a dictionary. Which occasions these are, and how
    an operation finds its slot, is CPython's Objects/abstract.c, object.c and
    typeobject.c (3.9 to 3.12), written down here and trusted. Operations are
    those on an instance of exactly this class, or on the class. The other
    operand's type is no subclass. *)
From Coq Require Import List Bool Arith String.
From Verif Require Import TypeTable.
Import ListNotations.
Local Open Scope list_scope.
Local Open Scope string_scope.

Definition slot_dec (a b : slot) : {a = b} + {a <> b}. Proof. decide equality. Defined.
Definition class_dec (a b : class) : {a = b} + {a <> b}. Proof. decide equality. Defined.

Inductive error := ErrType | ErrAttribute.
Inductive answer :=
| Enters (f : string)            (* the C function that is called *)
| Manages (enter exit : string)  (* those a with statement calls *)
| Inherited                      (* left to a function of object *)
| FromOperand                    (* answered by the other operand *)
| ByIdentity | DefaultText | ByAddress
| Got                            (* the attribute, or a decision made with it *)
| Says (b : bool)
| Made                           (* a subclass; nothing of the library runs *)
| Raises (e : error).

(** ** The type object *)
Definition state : Type := class -> bool.
Definition fresh : state := fun _ => false.
Definition ready (st : state) (c : class) : state := fun d => if class_dec d c then true else st d.
Fixpoint lookup (s : slot) (l : list (slot * string)) : option string :=
  match l with (s', f) :: r => if slot_dec s s' then Some f else lookup s r | [] => None end.
(** inherit_slots: from object; tp_hash and tp_richcompare only together, tp_new
    not at all (it stays null for a static type). *)
Definition inherited (c : class) (s : slot) : option string :=
  match s with
  | tp_getattro => Some "PyObject_GenericGetAttr"
  | tp_setattro => Some "PyObject_GenericSetAttr"
  | tp_repr => Some "object_repr"
  | tp_str => Some "object_str"
  | tp_init => Some "object_init"
  | tp_richcompare => match lookup tp_hash (slots c) with None => Some "object_richcompare" | Some _ => None end
  | tp_hash => match lookup tp_richcompare (slots c) with None => Some "_Py_HashPointer" | Some _ => None end
  | _ => None
  end.
Definition field (st : state) (c : class) (s : slot) : option string :=
  match lookup s (slots c) with Some f => Some f | None => if st c then inherited c s else None end.

(** slotdefs in CPython's order for the slots above: the name, its slot and the
    number of arguments of its wrapper ([None]: any, with keywords). *)
Definition wrappers : list (string * (slot * option nat)) :=
  [("__getattribute__", (tp_getattro, Some 1%nat)); ("__setattr__", (tp_setattro, Some 2%nat)); ("__delattr__", (tp_setattro, Some 1%nat));
   ("__repr__", (tp_repr, Some 0%nat)); ("__hash__", (tp_hash, Some 0%nat)); ("__str__", (tp_str, Some 0%nat));
   ("__lt__", (tp_richcompare, Some 1%nat)); ("__le__", (tp_richcompare, Some 1%nat)); ("__eq__", (tp_richcompare, Some 1%nat));
   ("__ne__", (tp_richcompare, Some 1%nat)); ("__gt__", (tp_richcompare, Some 1%nat)); ("__ge__", (tp_richcompare, Some 1%nat));
   ("__iter__", (tp_iter, Some 0%nat)); ("__next__", (tp_iternext, Some 0%nat)); ("__init__", (tp_init, None));
   ("__len__", (mp_length, Some 0%nat)); ("__getitem__", (mp_subscript, Some 1%nat)); ("__setitem__", (mp_ass_subscript, Some 2%nat));
   ("__delitem__", (mp_ass_subscript, Some 1%nat));
   ("__len__", (sq_length, Some 0%nat)); ("__add__", (sq_concat, Some 1%nat)); ("__mul__", (sq_repeat, Some 1%nat)); ("__rmul__", (sq_repeat, Some 1%nat));
   ("__getitem__", (sq_item, Some 1%nat)); ("__setitem__", (sq_ass_item, Some 2%nat)); ("__delitem__", (sq_ass_item, Some 1%nat));
   ("__contains__", (sq_contains, Some 1%nat)); ("__iadd__", (sq_inplace_concat, Some 1%nat)); ("__imul__", (sq_inplace_repeat, Some 1%nat))].
(** The attributes of object (and of type, for an attribute of the class). *)
Definition object_names : list string :=
  ["__class__"; "__doc__"; "__new__"; "__init__"; "__repr__"; "__str__"; "__hash__"; "__getattribute__"; "__setattr__"; "__delattr__";
   "__lt__"; "__le__"; "__eq__"; "__ne__"; "__gt__"; "__ge__"; "__reduce__"; "__reduce_ex__"; "__subclasshook__"; "__init_subclass__";
   "__format__"; "__sizeof__"; "__dir__"].
Definition type_names : list string :=
  ["__name__"; "__qualname__"; "__module__"; "__bases__"; "__base__"; "__mro__"; "__dict__"; "__call__"; "mro"; "__subclasses__";
   "__instancecheck__"; "__subclasscheck__"; "__flags__"; "__basicsize__"; "__itemsize__"; "__prepare__"; "__or__"; "__ror__";
   "__abstractmethods__"; "__dictoffset__"; "__weakrefoffset__"; "__text_signature__"].
Definition has (names : list string) (n : string) : bool := existsb (String.eqb n) names.
Inductive attr := Wrapper (f : string) (args : option nat) | Own (m : method) | OfObject.
(** type_ready_fill_dict: wrappers of the type's own slots come first; a method
    of the same name does not replace one (PyDict_SetDefault). *)
Definition find_attr (c : class) (n : string) : option attr :=
  match List.find (fun w => String.eqb n (fst w) && match lookup (fst (snd w)) (slots c) with Some _ => true | None => false end) wrappers with
  | Some (_, (s, k)) => match lookup s (slots c) with Some f => Some (Wrapper f k) | None => None end
  | None => match List.find (fun m => String.eqb n (m_name m)) (methods c) with
            | Some m => Some (Own m)
            | None => if has object_names n then Some OfObject else None
            end
  end.
(** cfunction_vectorcall_*: how many arguments a convention lets through. *)
Definition admits (k : convention) (nargs nkw : nat) : bool :=
  match k with
  | NoArgs => Nat.eqb nargs 0 && Nat.eqb nkw 0
  | One => Nat.eqb nargs 1 && Nat.eqb nkw 0
  | Fast | VarArgs => Nat.eqb nkw 0
  | VarKeywords => true
  end.
Definition call_attr (a : option attr) (nargs nkw : nat) : answer :=
  match a with
  | None => Raises ErrAttribute
  | Some OfObject => Inherited
  | Some (Own m) => if admits (m_conv m) nargs nkw then Enters (m_fn m) else Raises ErrType
  | Some (Wrapper f None) => Enters f
  | Some (Wrapper f (Some k)) =>
      if String.eqb f "PyObject_HashNotImplemented" then Raises ErrType     (* __hash__ is None *)
      else if Nat.eqb nargs k && Nat.eqb nkw 0 then Enters f else Raises ErrType
  end.

(** ** Operations *)
(** The other operand of + and *: its type answers by a number slot, or it is
    an index, or neither. *)
Inductive operand := Answers | Index | Plain.
Inductive op :=
| Len | GetItem | SetItem | DelItem | Contains
| Add (o : operand) | IAdd (o : operand) | Mul (o : operand) | RMul (o : operand) | IMul (o : operand)
| Iter | Next | Reversed | Equal | Order | Hash | Repr | Str | Truth | View | With
| CallMethod (n : string) (nargs nkw : nat)      (* x.n(...); an argument of __mul__, __rmul__, __imul__ is an index *)
| GetAttr (n : string) | HasAttr (n : string) | SetAttr (n : string) | DelAttr (n : string)   (* getattr(x, n), m = x.n, ... *)
| IsInstance                                     (* isinstance(x, A) for an abstract base class A *)
| Construct | Subclass | ClassItem | ClassAttr (n : string)
| Specialize.                                    (* 3.11+: the interpreter makes the type ready when it likes *)
Definition enters (f : option string) (otherwise : answer) : answer := match f with Some g => Enters g | None => otherwise end.
(** sequence_repeat *)
Definition repeats (f : option string) (o : operand) : answer :=
  match o with
  | Answers => FromOperand
  | Index => enters f (Raises ErrType)
  | Plain => Raises ErrType
  end.
Definition first (a b : option string) : option string := match a with Some _ => a | None => b end.
(** PyObject_Repr, PyObject_Str: object_repr writes what is written without a
    tp_repr, since no tp_name has a dot. *)
Definition repr (st : state) (c : class) : answer :=
  match field st c tp_repr with None => DefaultText | Some f => if String.eqb f "object_repr" then DefaultText else Enters f end.
Definition getattr (st : state) (c : class) (n : string) : answer :=
  match field st c tp_getattro with
  | None => Raises ErrAttribute                                    (* PyObject_GetAttr *)
  | Some _ => match find_attr c n with Some _ => Got | None => Raises ErrAttribute end
  end.
Definition setattr (st : state) (c : class) (n : string) : answer :=
  match field st c tp_setattro with
  | None => Raises ErrType                                         (* PyObject_SetAttr *)
  | Some _ => if String.eqb n "__class__" then Raises ErrType else Raises ErrAttribute
  end.
Definition hash (st : state) (c : class) : answer :=
  match field st c tp_hash with
  | Some f => if String.eqb f "PyObject_HashNotImplemented" then Raises ErrType else if String.eqb f "_Py_HashPointer" then ByAddress else Enters f
  | None => Raises ErrType
  end.
Definition perform (py311 : bool) (st : state) (c : class) (o : op) : answer * state :=
  let f := field st c in
  let now := ready st c in
  match o with
  | Len => (enters (first (f sq_length) (f mp_length)) (Raises ErrType), st)                  (* PyObject_Size *)
  | GetItem => (enters (first (f mp_subscript) (f sq_item)) (Raises ErrType), st)             (* PyObject_GetItem *)
  | SetItem | DelItem => (enters (first (f mp_ass_subscript) (f sq_ass_item)) (Raises ErrType), st)
  | Contains => (enters (first (f sq_contains) (f tp_iter)) (Raises ErrType), st)             (* PySequence_Contains *)
  | Add Answers | IAdd Answers => (FromOperand, st)                                           (* PyNumber_Add *)
  | Add _ => (enters (f sq_concat) (Raises ErrType), st)
  | IAdd _ => (enters (first (f sq_inplace_concat) (f sq_concat)) (Raises ErrType), st)
  | Mul n | RMul n => (repeats (f sq_repeat) n, st)                                           (* PyNumber_Multiply *)
  | IMul n => (repeats (first (f sq_inplace_repeat) (f sq_repeat)) n, st)
  | Iter => (enters (f tp_iter) (match f sq_item with Some _ => Inherited | None => Raises ErrType end), st)
  | Next => (enters (f tp_iternext) (Raises ErrType), st)
  | Reversed => (match find_attr c "__reversed__" with                                        (* _PyObject_LookupSpecial *)
                 | Some a => call_attr (Some a) 0 0
                 | None => match f sq_item with Some _ => Inherited | None => Raises ErrType end
                 end, now)
  | Equal | Order => (match f tp_richcompare with                                             (* do_richcompare *)
                      | Some g => if String.eqb g "object_richcompare" then match o with Order => Raises ErrType | _ => ByIdentity end else Enters g
                      | None => match o with Order => Raises ErrType | _ => ByIdentity end
                      end, st)
  | Hash => match f tp_hash with Some _ => (hash st c, st) | None => (hash now c, now) end     (* PyObject_Hash *)
  | Repr => (repr st c, st)
  | Str => (match f tp_str with None => repr st c | Some g => if String.eqb g "object_str" then repr st c else Enters g end, st)
  | Truth => (enters (first (f mp_length) (f sq_length)) (Says true), st)                     (* PyObject_IsTrue *)
  | View => (enters (f bf_getbuffer) (Raises ErrType), st)                                    (* PyObject_GetBuffer *)
  | With => (match find_attr c "__enter__", find_attr c "__exit__" with
             | Some (Own a), Some (Own b) => Manages (m_fn a) (m_fn b)
             | _, _ => Raises (if py311 then ErrType else ErrAttribute)
             end, now)
  | CallMethod n a k => (call_attr (find_attr c n) a k, now)                                  (* _PyObject_GetMethod *)
  | GetAttr n => (getattr st c n, st)
  | HasAttr n => (Says (match getattr st c n with Got => true | _ => false end), st)
  | SetAttr n | DelAttr n => (setattr st c n, st)
  | IsInstance => (getattr st c "__class__", st)                                              (* _abc__abc_instancecheck_impl *)
  | Construct => (match f tp_new with Some _ => enters (f tp_init) Made | None => Raises ErrType end, st)   (* type_call *)
  | Subclass => (Made, now)                                                                   (* best_base *)
  | ClassItem => (match find_attr c "__class_getitem__" with Some a => call_attr (Some a) 1 0 | None => Raises ErrType end, now)
  | ClassAttr n => (match find_attr c n with Some _ => Got | None => if has type_names n then Got else Raises ErrAttribute end, now)   (* type_getattro *)
  | Specialize => (Made, now)
  end.
Fixpoint run (py311 : bool) (st : state) (prog : list (class * op)) : list answer * state :=
  match prog with
  | [] => ([], st)
  | (c, o) :: r => let '(a, st1) := perform py311 st c o in let '(l, st2) := run py311 st1 r in (a :: l, st2)
  end.

(** What a convention passes: self (or the class, or null) and the arguments. *)
Definition passes (k : convention) : list param :=
  match k with
  | NoArgs | One | VarArgs => [PObject; PObject]
  | Fast => [PObject; PArray; PSize]
  | VarKeywords => [PObject; PObject; PObject]
  end.
