(** Model of the Python class as pybind11 and CPython see it: the methods in the order
    they are registered (bindings/python/python-bindings.cpp:82-344), pybind11's choice
    of an overload, CPython's choice of a method for an operator, and scripts whose
    variables hold objects of any type. Keyword arguments are in PyKeywords.v; subclasses of BigInteger
    are left out, log is in PyClassLog.v. *)
From Coq Require Import String Ascii.
From Verif Require Import Machine SpecText SpecPy BigInt BigIntBytes BigIntText PyBind WinCalc WinBigInt ApiMem PyRun.
Open Scope list_scope.
Open Scope string_scope.
Open Scope Z_scope.

(** Objects that are not BigIntegers. [NBuffer ok b]: a bytes object or anything else with
    the buffer protocol, [ok] if its format is "B" and it has one dimension. [NOther t k]: any
    other object, [t] its truth value if its type defines __bool__. *)
Inductive native :=
| NInt (v : Z) | NBool (t : bool) | NFloat (d : Z) | NText (s : string) | NBuffer (ok : bool) (b : py_buffer)
| NNone | NOther (t : option bool) (k : Z).
Inductive object := PBig (b : bigint) | PNative (n : native).
(** The result of an expression: an object or a pair. *)
Inductive result (A : Type) := One (x : A) | Two (x y : A).
Arguments One {A} x.
Arguments Two {A} x y.

Definition bytes_object (l : list Z) : native := NBuffer true (Buffer l 0 (List.length l) 1).

(** int(str) on a numeral: ValueError, which is what pybind11 makes of invalid_argument,
    if there are more digits than sys.get_int_max_str_digits() allows; 0 is no limit. *)
Definition int_of_str (lim : Z) (s : string) : outcome Z :=
  let t := match s with String "-"%char t => t | _ => s end in
  if (0 <? lim) && (lim <? Z.of_nat (String.length t)) then Throw InvalidArgument else Ret (signed_decimal s).

(** What pybind11 makes of the C++ result; __rdivmod__ calls int() itself: 197. *)
Definition to_object (lim : Z) (r : py_result) : outcome (result object) :=
  let n x := Ret (One (PNative x)) in
  match r with
  | RBig b => Ret (One (PBig b))
  | RInt v => n (NInt v) | RBool t => n (NBool t) | RText s => n (NText s) | RFloat d => n (NFloat d)
  | RBytes l => n (bytes_object l)
  | RBigs q r => Ret (Two (PBig q) (PBig r))
  | RTexts q r => q <- int_of_str lim q ;; r <- int_of_str lim r ;; Ret (Two (PNative (NInt q)) (PNative (NInt r)))
  end.

(** The signatures that occur: b a BigInteger&, i a py::int_&, f a bool with default
    false, o a py::object. *)
Inductive overload :=
| F0 (f : outcome py_result)
| Fi (f : bool -> Z -> outcome py_result)
| Fbuf (f : bool -> py_buffer -> outcome py_result)
| Fb (f : bigint -> outcome py_result)
| Fbb (f : bigint -> bigint -> outcome py_result)
| Fbi (f : bigint -> bool -> Z -> outcome py_result)
| Fbbb (f : bigint -> bigint -> bigint -> outcome py_result)
| Fbib (f : bigint -> bool -> Z -> bigint -> outcome py_result)
| Fbbi (f : bigint -> bigint -> bool -> Z -> outcome py_result)
| Fbff (f : bigint -> bool -> bool -> outcome py_result)
| Fbo (f : bigint -> outcome py_result).

(** 90-98 *)
Definition init_buffer (c : cfg) (ok : bool) (b : py_buffer) : outcome py_result :=
  if negb ok then Throw RuntimeError else big (py_init_buffer c b).

(** BigInteger::get_bit_length. *)
Definition bit_length (d : data_model) (c : cfg) (a : bigint) : outcome Z :=
  match d with LP64 => bi_bit_length c a | LLP64 => bi_bit_length_w c a end.

(** The .def lines: 87-344. big_int o is the body of BigInteger op int, int_big o that of the
    reflected method (PyRun.v). *)
Definition methods (d : data_model) (c : cfg) : list (string * overload) :=
  let bb o := Fbb (big_big d c o) in
  let bi o := Fbi (big_int d c o) in
  let ri o := Fbi (fun a z v => int_big d c o z v a) in
  let u o := Fb (unary d c o) in
  [("__init__", Fi (fun z v => big (py_init_int c z v))); ("__init__", Fbuf (init_buffer c));
   ("__lt__", bb OLt); ("__lt__", bi OLt); ("__le__", bb OLe); ("__le__", bi OLe);
   ("__eq__", bb OEq); ("__eq__", bi OEq); ("__hash__", u UHash);
   ("__gt__", bb OGt); ("__gt__", bi OGt); ("__ge__", bb OGe); ("__ge__", bi OGe);
   ("__add__", bb OAdd); ("__add__", bi OAdd); ("__radd__", ri OAdd);
   ("__sub__", bb OSub); ("__sub__", bi OSub); ("__rsub__", ri OSub);
   ("__mul__", bb OMul); ("__mul__", bi OMul); ("__rmul__", ri OMul);
   ("__mod__", bb OMod); ("__mod__", bi OMod); ("__rmod__", ri OMod);
   ("__divmod__", bb ODivMod); ("__divmod__", bi ODivMod); ("__rdivmod__", ri ODivMod);
   ("__pow__", bb OPow); ("__pow__", bi OPow); ("__rpow__", ri OPow);
   ("__pow__", Fbbb (fun a e m => big (raise_mod d c a e m)));
   ("__pow__", Fbib (fun a z v m => e <- of_py c z v ;; big (raise_mod d c a e m)));
   ("__pow__", Fbbi (fun a e z v => m <- of_py c z v ;; big (raise_mod d c a e m)));
   ("__truediv__", bb OTrueDiv); ("__truediv__", bi OTrueDiv); ("__rtruediv__", ri OTrueDiv);
   ("__floordiv__", bb OFloorDiv); ("__floordiv__", bi OFloorDiv); ("__rfloordiv__", ri OFloorDiv);
   ("__lshift__", bb OShl); ("__lshift__", bi OShl); ("__rlshift__", ri OShl);
   ("__rshift__", bb OShr); ("__rshift__", bi OShr); ("__rrshift__", ri OShr);
   ("__and__", bb OAnd); ("__and__", bi OAnd); ("__rand__", ri OAnd);
   ("__or__", bb OOr); ("__or__", bi OOr); ("__ror__", ri OOr);
   ("__xor__", bb OXor); ("__xor__", bi OXor); ("__rxor__", ri OXor);
   ("__neg__", u UNeg); ("__pos__", u UPos); ("__abs__", u UAbs); ("__invert__", u UInvert); ("__bytes__", u UBytes);
   ("to_array", Fbff (fun a f g => unary d c (UToArray f g) a));
   ("__int__", u UInt); ("__float__", u UFloat); ("__index__", u UIndex); ("__str__", u UStr);
   ("__deepcopy__", Fbo (unary d c UDeepcopy));
   ("zero", F0 (big (bi_zero c))); ("one", F0 (big (bi_one c))); ("minus_one", F0 (big (bi_minus_one c)));
   ("is_power_of_two", u UIsPowerOfTwo); ("is_even", u UIsEven);
   ("get_bit_Length", Fb (fun a => int_result (bit_length d c a))); ("sign", u USign)].

(** A py::int_ is an int or a bool. The flag: 0 is one object in CPython, and False is another. *)
Definition as_int (n : native) : option (bool * Z) :=
  match n with NInt v => Some (v =? 0, v) | NBool t => Some (false, Z.b2z t) | _ => None end.
(** A bool parameter: True and False; with conversion also None and what has __bool__,
    which BigInteger has not. *)
Definition as_flag (x : object) : option bool :=
  match x with
  | PNative (NBool t) => Some t
  | PNative (NInt v) => Some (negb (v =? 0))
  | PNative (NFloat d) => Some (negb ((d =? 0) || (d =? 2 ^ 63)))
  | PNative NNone => Some false
  | PNative (NOther t _) => t
  | _ => None
  end.

(** An overload applied to positional arguments; [None]: it does not accept them. Only
    Fbff, alone under its name, distinguishes the pass that converts arguments. *)
Definition accept (o : overload) (args : list object) : option (outcome py_result) :=
  match o, args with
  | F0 f, [] => Some f
  | Fi f, [PNative n] => option_map (fun '(z, v) => f z v) (as_int n)
  | Fbuf f, [PNative (NBuffer ok b)] => Some (f ok b)
  | Fb f, [PBig a] => Some (f a)
  | Fbb f, [PBig a; PBig b] => Some (f a b)
  | Fbi f, [PBig a; PNative n] => option_map (fun '(z, v) => f a z v) (as_int n)
  | Fbbb f, [PBig a; PBig b; PBig m] => Some (f a b m)
  | Fbib f, [PBig a; PNative n; PBig m] => option_map (fun '(z, v) => f a z v m) (as_int n)
  | Fbbi f, [PBig a; PBig b; PNative n] => option_map (fun '(z, v) => f a b z v) (as_int n)
  | Fbff f, [PBig a] => Some (f a false false)
  | Fbff f, [PBig a; x] => option_map (fun t => f a t false) (as_flag x)
  | Fbff f, [PBig a; x; y] => match as_flag x, as_flag y with Some t, Some t' => Some (f a t t') | _, _ => None end
  | Fbo f, [PBig a; _] => Some (f a)
  | _, _ => None
  end.

(** The overloads of a name, then the first one that accepts the arguments; [None]:
    pybind11 raises TypeError. (No method has py::is_operator, which would return
    NotImplemented.) *)
Definition overloads (d : data_model) (c : cfg) (name : string) : list overload :=
  map snd (filter (fun e => String.eqb name (fst e)) (methods d c)).
Definition first_of (l : list overload) (args : list object) : option (outcome py_result) :=
  fold_right (fun o r => match accept o args with Some x => Some x | None => r end) None l.
Definition has (d : data_model) (c : cfg) (name : string) : bool := match overloads d c name with [] => false | _ => true end.
Definition call (d : data_model) (c : cfg) (name : string) (args : list object) : option (outcome py_result) :=
  first_of (overloads d c name) args.

(** The method for an operator and the one for the exchanged operands. *)
Definition name_of (o : py_op) : string :=
  match o with
  | OAdd => "__add__" | OSub => "__sub__" | OMul => "__mul__" | OMod => "__mod__" | OTrueDiv => "__truediv__"
  | OFloorDiv => "__floordiv__" | ODivMod => "__divmod__" | OPow => "__pow__" | OShl => "__lshift__" | OShr => "__rshift__"
  | OAnd => "__and__" | OOr => "__or__" | OXor => "__xor__" | OLt => "__lt__" | OLe => "__le__" | OEq => "__eq__"
  | ONe => "__ne__" | OGt => "__gt__" | OGe => "__ge__"
  end.
Definition reflected (o : py_op) : string :=
  match o with
  | OAdd => "__radd__" | OSub => "__rsub__" | OMul => "__rmul__" | OMod => "__rmod__" | OTrueDiv => "__rtruediv__"
  | OFloorDiv => "__rfloordiv__" | ODivMod => "__rdivmod__" | OPow => "__rpow__" | OShl => "__rlshift__" | OShr => "__rrshift__"
  | OAnd => "__rand__" | OOr => "__ror__" | OXor => "__rxor__" | OLt => "__gt__" | OLe => "__ge__" | OEq => "__eq__"
  | ONe => "__ne__" | OGt => "__lt__" | OGe => "__le__"
  end.

(** object.__ne__: not __eq__, if the class defines no __ne__. *)
Definition negate (r : py_result) : py_result := match r with RBool t => RBool (negb t) | _ => r end.
Definition method (d : data_model) (c : cfg) (name : string) (x y : object) : option (outcome py_result) :=
  if has d c name then call d c name [x; y]
  else if String.eqb name "__ne__" && has d c "__eq__" then
    option_map (fun o => r <- o ;; Ret (negate r)) (call d c "__eq__" [x; y])
  else None.

(** x op y with a BigInteger among the operands (Objects/abstract.c binary_op1,
    Objects/object.c do_richcompare): the method of a BigInteger on the left; otherwise
    the type of x, which does not know BigInteger, returns NotImplemented and the
    reflected method of y is called. Formatting, str % x and bytes % x, is the exception:
    it is not modelled, and given the outcome NoFuel. *)
Definition formats (o : py_op) (n : native) : bool :=
  match o, n with OMod, (NText _ | NBuffer _ _) => true | _, _ => false end.
Definition binary (d : data_model) (c : cfg) (o : py_op) (x y : object) : option (outcome py_result) :=
  match x with
  | PBig _ => method d c (name_of o) x y
  | PNative n => if formats o n then Some NoFuel else method d c (reflected o) y x
  end.
(** pow(x, y, z) with a BigInteger among the operands: __rpow__ is not tried
    (Objects/typeobject.c slot_nb_power). *)
Definition power3 (d : data_model) (c : cfg) (x y z : object) : option (outcome py_result) :=
  match x with PBig _ => call d c "__pow__" [x; y; z] | PNative _ => None end.

Definition unary_name (u : py_unary) : string :=
  match u with
  | UNeg => "__neg__" | UPos => "__pos__" | UAbs => "__abs__" | UInvert => "__invert__" | UInt => "__int__" | UIndex => "__index__"
  | UFloat => "__float__" | UStr => "__str__" | UHash => "__hash__" | UBytes => "__bytes__" | UToArray _ _ => "to_array"
  | UDeepcopy => "__deepcopy__" | UIsPowerOfTwo => "is_power_of_two" | UIsEven => "is_even" | USign => "sign"
  end.

(** Expressions over variables. to_array takes up to two arguments. *)
Inductive expr :=
| XLiteral (n : native) | XNew (p : loc) | XZero | XOne | XMinusOne
| XUnary (u : py_unary) (p : loc)          (* not UToArray *)
| XToArray (p : loc) (args : list loc)
| XBitLength (p : loc)
| XTruth (p : loc)                         (* bool(p): no __bool__ and no __len__ means true *)
| XBinary (o : py_op) (p q : loc) | XPower3 (p q r : loc).

Definition env := loc -> object.
Definition natives (l : list object) : option (list native) :=
  fold_right (fun x r => match x, r with PNative n, Some t => Some (n :: t) | _, _ => None end) (Some []) l.

(** What an expression does without a BigInteger: any function of the objects. *)
Definition python := string -> list native -> option (outcome (result native)).
Definition own (py : python) (name : string) (l : list object) (otherwise : option (outcome (result object))) :
  option (outcome (result object)) :=
  match natives l with
  | Some l => option_map (fun o => r <- o ;; Ret (match r with One x => One (PNative x) | Two x y => Two (PNative x) (PNative y) end)) (py name l)
  | None => otherwise
  end.

Definition evaluate (d : data_model) (c : cfg) (lim : Z) (py : python) (m : env) (e : expr) : option (outcome (result object)) :=
  let wrap := option_map (fun o => r <- o ;; to_object lim r) in
  match e with
  | XLiteral n => Some (Ret (One (PNative n)))
  | XNew p => wrap (call d c "__init__" [m p])
  | XZero => wrap (call d c "zero" []) | XOne => wrap (call d c "one" []) | XMinusOne => wrap (call d c "minus_one" [])
  | XUnary u p =>
      let n := unary_name u in
      own py n [m p] (wrap (call d c n (m p :: match u with UDeepcopy => [PNative NNone] | _ => [] end)))
  | XToArray p l => own py "to_array" (m p :: map m l) (wrap (match m p with PBig _ => call d c "to_array" (m p :: map m l) | _ => None end))
  | XBitLength p => own py "get_bit_Length" [m p] (wrap (call d c "get_bit_Length" [m p]))
  | XTruth p => own py "bool" [m p] (Some (Ret (One (PNative (NBool true)))))
  | XBinary o p q => own py (name_of o) [m p; m q] (wrap (binary d c o (m p) (m q)))
  | XPower3 p q r => own py "pow" [m p; m q; m r] (wrap (power3 d c (m p) (m q) (m r)))
  end.

(** x = e or x, y = e. A pair is only kept by the second form. *)
Definition assign {A} (m : loc -> A) (x y : loc) (r : result A) : loc -> A :=
  let put m (p : loc) (v : A) := fun q => if Nat.eqb p q then v else m q in
  match r with One v => put m x v | Two v w => put (put m x v) y w end.

(** A script; exceptions are caught: [inr None] is a TypeError, or an AttributeError for a
    method of BigInteger called on another object. *)
Fixpoint run_script (d : data_model) (c : cfg) (lim : Z) (py : python) (l : list (loc * loc * expr)) (m : env) :
  option (list (result object + option exn) * env) :=
  match l with
  | [] => Some ([], m)
  | (x, y, e) :: l =>
      let continue t m := match run_script d c lim py l m with Some (tr, m') => Some (t :: tr, m') | None => None end in
      match evaluate d c lim py m e with
      | None => continue (inr None) m
      | Some (Ret r) => continue (inl r) (assign m x y r)
      | Some (Throw ex) => continue (inr (Some ex)) m
      | Some _ => None
      end
  end.

(** sum(l) on a list of BigIntegers: [acc] is 0 at first (Python/bltinmodule.c builtin_sum). *)
Fixpoint sum_from (d : data_model) (c : cfg) (lim : Z) (acc : object) (l : list bigint) : option (outcome object) :=
  match l with
  | [] => Some (Ret acc)
  | b :: l =>
      match option_map (fun o => r <- o ;; to_object lim r) (binary d c OAdd acc (PBig b)) with
      | Some (Ret (One x)) => sum_from d c lim x l
      | Some (Throw e) => Some (Throw e)
      | Some (Undef u) => Some (Undef u)
      | Some (Ret (Two _ _)) | Some AssertFail | Some NoFuel => Some NoFuel
      | None => None
      end
  end.
