(** Model of Python code that uses the extension module
    (bindings/python/python-bindings.cpp:82-344): expressions over variables that
    hold BigInteger objects, and sequences of assignments. Which method Python
    calls for an expression is CPython's operator protocol: a left operand of
    type int does not know BigInteger, so the reflected method runs; the class has
    no __ne__, so != is the negation of __eq__. int objects are literals, with the
    flag of PyBind.v. log, get_bit_Length and the version strings are left out. *)
From Coq Require Import String.
From Verif Require Import Machine SpecPy BigInt BigIntBytes BigIntText PyBind WinCalc WinBigInt ApiMem.
Open Scope Z_scope.

(** The wheels are built for both (setup.py). *)
Inductive data_model := LP64 | LLP64.

Definition plus (d : data_model) (c : cfg) (a b : bigint) : outcome bigint :=
  match d with LP64 => bi_add c a b | LLP64 => bi_add_w None c a b end.
Definition minus (d : data_model) (c : cfg) (a b : bigint) : outcome bigint :=
  match d with LP64 => bi_sub c a b | LLP64 => bi_sub_w None c a b end.
Definition times (d : data_model) (c : cfg) (a b : bigint) : outcome bigint :=
  match d with LP64 => bi_mul c a b | LLP64 => bi_mul_w None c a b end.
Definition invert (d : data_model) (c : cfg) (a : bigint) : outcome bigint :=
  match d with LP64 => bi_not c a | LLP64 => bi_not_w None c a end.
Definition raise (d : data_model) (c : cfg) (a : bigint) (e : Z) : outcome bigint :=
  match d with LP64 => bi_pow c a e | LLP64 => bi_pow_w None c a e end.
Definition raise_mod (d : data_model) (c : cfg) (a e m : bigint) : outcome bigint :=
  match d with LP64 => bi_mod_pow c a e m | LLP64 => bi_mod_pow_w None c a e m end.

Inductive py_result :=
| RBig (b : bigint)
| RInt (v : Z)
| RBool (t : bool)
| RBigs (q r : bigint)       (* a tuple *)
| RTexts (q r : string)      (* the two strings __rdivmod__ passes to int() *)
| RText (s : string)
| RFloat (d : Z)
| RBytes (l : list Z).

Inductive py_op := OAdd | OSub | OMul | OMod | OTrueDiv | OFloorDiv | ODivMod | OPow | OShl | OShr
                 | OAnd | OOr | OXor | OLt | OLe | OEq | ONe | OGt | OGe.
Inductive py_unary := UNeg | UPos | UAbs | UInvert | UInt | UIndex | UFloat | UStr | UHash | UBytes
                    | UToArray (u be : bool) | UDeepcopy | UIsPowerOfTwo | UIsEven | USign.

Definition big (o : outcome bigint) : outcome py_result := b <- o ;; Ret (RBig b).
Definition bool_of (o : outcome bool) : outcome py_result := b <- o ;; Ret (RBool b).
Definition int_result (o : outcome Z) : outcome py_result := v <- o ;; Ret (RInt v).

(** BigInteger op BigInteger: 99-101, 105-107, 111-113, 122-124, 128-130, 134-136,
    144-146, 154-156, 164-166, 182-186, 199-201, 222-224, 232-234, 242-244, 252-254,
    262-264, 274-276, 286-288. *)
Definition big_big (d : data_model) (c : cfg) (o : py_op) (a b : bigint) : outcome py_result :=
  match o with
  | OAdd => big (plus d c a b) | OSub => big (minus d c a b) | OMul => big (times d c a b)
  | OMod => big (bi_rem c a b) | OTrueDiv | OFloorDiv => big (bi_div c a b)
  | ODivMod => '(q, r) <- py_divmod c a b ;; Ret (RBigs q r)
  | OPow => e <- bi_to_int c b ;; big (raise d c a e)
  | OShl => big (py_lshift c a b) | OShr => big (py_rshift c a b)
  | OAnd => big (bi_and c a b) | OOr => big (bi_or c a b) | OXor => big (bi_xor c a b)
  | OLt => bool_of (bi_lt c a b) | OLe => bool_of (bi_le c a b) | OEq => bool_of (bi_eq c a b)
  | ONe => t <- bi_eq c a b ;; Ret (RBool (negb t))
  | OGt => bool_of (bi_gt c a b) | OGe => bool_of (bi_ge c a b)
  end.

(** BigInteger op int, the lines cited in PyBind.v. *)
Definition big_int (d : data_model) (c : cfg) (o : py_op) (a : bigint) (z : bool) (v : Z) : outcome py_result :=
  match o with
  | OAdd => b <- of_py c z v ;; big (plus d c b a)
  | OSub => b <- of_py c z v ;; big (minus d c a b)
  | OMul => b <- of_py c z v ;; big (times d c a b)
  | OMod => big (py_mod_int c z a v) | OTrueDiv => big (py_truediv_int c z a v)
  | OFloorDiv => big (py_floordiv_int c z a v)
  | ODivMod => '(q, r) <- py_divmod_int c z a v ;; Ret (RBigs q r)
  | OPow => match cast_int v with Ret e => big (raise d c a e) | _ => Throw OverflowError end
  | OShl => big (py_lshift_int c a v) | OShr => big (py_rshift_int c a v)
  | OAnd => big (py_and_int c z a v) | OOr => big (py_or_int c z a v) | OXor => big (py_xor_int c z a v)
  | OLt => bool_of (py_lt_int c z a v) | OLe => bool_of (py_le_int c z a v) | OEq => bool_of (py_eq_int c z a v)
  | ONe => t <- py_eq_int c z a v ;; Ret (RBool (negb t))
  | OGt => bool_of (py_gt_int c z a v) | OGe => bool_of (py_ge_int c z a v)
  end.

(** int op BigInteger: the reflected methods; v < a is a.__gt__(v), and so on. *)
Definition int_big (d : data_model) (c : cfg) (o : py_op) (z : bool) (v : Z) (a : bigint) : outcome py_result :=
  match o with
  | OAdd => b <- of_py c z v ;; r <- plus d c a b ;; int_result (to_py c r)
  | OSub => b <- of_py c z v ;; r <- minus d c b a ;; int_result (to_py c r)
  | OMul => b <- of_py c z v ;; r <- times d c b a ;; int_result (to_py c r)
  | OMod => int_result (py_rmod c z a v) | OTrueDiv => int_result (py_rtruediv c z a v)
  | OFloorDiv => int_result (py_rfloordiv c z a v)
  | ODivMod => '(q, r) <- py_rdivmod_str c z a v ;; Ret (RTexts q r)
  | OPow => b <- of_py c z v ;; e <- bi_to_int c a ;; r <- raise d c b e ;; int_result (to_py c r)
  | OShl => int_result (py_rlshift c z a v) | OShr => int_result (py_rrshift c z a v)
  | OAnd => int_result (py_rand c z a v) | OOr => int_result (py_ror c z a v) | OXor => int_result (py_rxor c z a v)
  | OLt => bool_of (py_gt_int c z a v) | OLe => bool_of (py_ge_int c z a v) | OEq => bool_of (py_eq_int c z a v)
  | ONe => t <- py_eq_int c z a v ;; Ret (RBool (negb t))
  | OGt => bool_of (py_lt_int c z a v) | OGe => bool_of (py_le_int c z a v)
  end.

(** One operand: 298-326, 330-331, 343; __str__ is to_string: 322. *)
Definition unary (d : data_model) (c : cfg) (u : py_unary) (a : bigint) : outcome py_result :=
  match u with
  | UNeg => big (bi_neg c a) | UPos => big (bi_pos c a) | UAbs => big (bi_abs c a) | UInvert => big (invert d c a)
  | UInt | UIndex => int_result (py_int c a)
  | UFloat => f <- py_float c a ;; Ret (RFloat f)
  | UStr => s <- bi_to_string c a ;; Ret (RText s)
  | UHash => int_result (py_hash c a)
  | UBytes => l <- py_bytes c a ;; Ret (RBytes l)
  | UToArray u be => l <- py_to_array c a u be ;; Ret (RBytes l)
  | UDeepcopy => Ret (RBig (py_deepcopy a))
  | UIsPowerOfTwo => bool_of (bi_is_power_of_two c a) | UIsEven => bool_of (bi_is_even c a)
  | USign => int_result (bi_sign c a)
  end.

(** Variables are numbered. *)
Inductive py_expr :=
| ENew (z : bool) (v : Z) | EBuffer (b : py_buffer) | EZero | EOne | EMinusOne
| EUnary (u : py_unary) (p : loc)
| EBin (o : py_op) (p q : loc) | EBinInt (o : py_op) (p : loc) (z : bool) (v : Z) | EIntBin (o : py_op) (z : bool) (v : Z) (p : loc)
| EPow3 (p q m : loc) | EPow3Exp (p : loc) (z : bool) (v : Z) (m : loc) | EPow3Mod (p q : loc) (z : bool) (v : Z).

Definition eval (d : data_model) (c : cfg) (m : mem) (e : py_expr) : outcome py_result :=
  match e with
  | ENew z v => big (py_init_int c z v)
  | EBuffer b => big (py_init_buffer c b)
  | EZero => big (bi_zero c) | EOne => big (bi_one c) | EMinusOne => big (bi_minus_one c)
  | EUnary u p => unary d c u (m p)
  | EBin o p q => big_big d c o (m p) (m q)
  | EBinInt o p z v => big_int d c o (m p) z v
  | EIntBin o z v p => int_big d c o z v (m p)
  | EPow3 p q r => big (raise_mod d c (m p) (m q) (m r))
  | EPow3Exp p z v r => e <- of_py c z v ;; big (raise_mod d c (m p) e (m r))
  | EPow3Mod p q z v => r <- of_py c z v ;; big (raise_mod d c (m p) (m q) r)
  end.

(** x = e; x, y = divmod(...). Results of other types are only observed. *)
Definition bind_result (m : mem) (x y : loc) (r : py_result) : mem :=
  match r with RBig b => put m x b | RBigs q r => put (put m x q) y r | _ => m end.

(** A script; exceptions are caught, [None] once something undefined happens or
    an assertion fails. *)
Fixpoint script (d : data_model) (c : cfg) (l : list (loc * loc * py_expr)) (m : mem) : option (list (py_result + exn) * mem) :=
  match l with
  | [] => Some ([], m)
  | (x, y, e) :: l =>
      match eval d c m e with
      | Ret r => match script d c l (bind_result m x y r) with Some (tr, m') => Some (inl r :: tr, m') | None => None end
      | Throw ex => match script d c l m with Some (tr, m') => Some (inr ex :: tr, m') | None => None end
      | _ => None
      end
  end.
