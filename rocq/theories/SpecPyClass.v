(** Specification vocabulary: the meaning of Python expressions and scripts whose
    variables hold BigIntegers, read as integers, and any other objects. *)
From Coq Require Import ZArith List String DecimalString.
From Verif Require Import Machine Spec SpecPos SpecApi SpecText SpecPy SpecRun SpecActual SpecGcd SpecPyRun BigInt ApiMem PyRun PyClass.
Import ListNotations.
Open Scope Z_scope.

(** An object with a BigInteger replaced by its value. *)
Inductive value := IsBig (z : Z) | IsNative (n : native).
Definition is_value (x : object) (v : value) : Prop :=
  match x, v with PBig b, IsBig z => represents b z | PNative n, IsNative n' => n = n' | _, _ => False end.
Definition are_values (r : result object) (v : result value) : Prop :=
  match r, v with One x, One v => is_value x v | Two x y, Two v w => is_value x v /\ is_value y w | _, _ => False end.
(** The same outcome; a returned object has the value. *)
Definition agrees (o : option (outcome (result object))) (v : option (outcome (result value))) : Prop :=
  match v with
  | None => o = None
  | Some (Ret v) => exists r, o = Some (Ret r) /\ are_values r v
  | Some (Throw e) => o = Some (Throw e) | Some (Undef u) => o = Some (Undef u)
  | Some AssertFail => o = Some AssertFail | Some NoFuel => o = Some NoFuel
  end.

(** The decimal notation, and the shortest two's complement or unsigned encoding. *)
Definition decimal_text (z : Z) : string := NilZero.string_of_int (Z.to_int z).
Definition byte_count (u : bool) (z : Z) : Z :=
  if u then Z.log2 z / 8 + 1 else (Z.log2 (if z <? 0 then - z - 1 else z) + 1) / 8 + 1.
Definition encoding (u be : bool) (z : Z) : list Z := le_order be (low_bytes (Z.to_nat (byte_count u z)) z).

(** bit_length: the width of [x] in two's complement without the sign bit, and what is
    returned where the code computes it in 64 or 32 bits. *)
Definition width (x : Z) : Z := if x =? 0 then 0 else if x =? -1 then 0 else Z.log2 (if x <? 0 then - x - 1 else x) + 1.
Definition bit_length_of (d : data_model) (c : cfg) (x : Z) : outcome Z :=
  match d with
  | LP64 => if strict c && (2 ^ 63 <=? Z.log2 (Z.abs x) + 1) then Undef SignedOverflow else Ret (width x mod 2 ^ 64)
  | LLP64 => if strict c && (2 ^ 26 <=? limbs_of x) then Undef SignedOverflow
             else Ret (((width x + 2 ^ 31) mod 2 ^ 32 - 2 ^ 31) mod 2 ^ 64)
  end.

(** Python's int(str) allows [lim] digits; 0: any number. *)
Definition too_long (lim z : Z) : bool := (0 <? lim) && (lim <? digits_of (Z.abs z)).
(** A bytes object of the given contents. *)
Definition bytes_holding (l : list Z) : native := NBuffer true (Buffer l 0 (List.length l) 1).
Definition object_of (lim : Z) (v : py_value) : outcome (result value) :=
  let n x := Ret (One (IsNative x)) in
  match v with
  | VBig z => Ret (One (IsBig z))
  | VInt z => n (NInt z) | VBool t => n (NBool t) | VText z => n (NText (decimal_text z)) | VFloat z => n (NFloat (dbl_of z))
  | VBytes u be z => n (bytes_holding (encoding u be z))
  | VBigs q r => Ret (Two (IsBig q) (IsBig r))
  | VTexts q r => if too_long lim q || too_long lim r then Throw InvalidArgument else Ret (Two (IsNative (NInt q)) (IsNative (NInt r)))
  end.

(** The integer an int or a bool is; nothing else counts as one. *)
Definition integer (n : native) : option Z := match n with NInt v => Some v | NBool t => Some (Z.b2z t) | _ => None end.
Definition with_integer {A} (n : native) (f : Z -> A) : option A := option_map f (integer n).
(** The truth value of an object passed for a bool. *)
Definition flag (x : value) : option bool :=
  match x with
  | IsNative (NBool t) => Some t | IsNative (NInt v) => Some (negb (v =? 0)) | IsNative NNone => Some false
  | IsNative (NFloat d) => Some (negb ((d =? 0) || (d =? 2 ^ 63))) | IsNative (NOther t _) => t
  | _ => None
  end.

(** str % x and bytes % x are left open. *)
Definition is_formatting (o : py_op) (n : native) : bool :=
  match n with NText _ | NBuffer _ _ => match o with OMod => true | _ => false end | _ => false end.

(** Operators: two BigIntegers, or a BigInteger and an integer; anything else is a
    TypeError, for == and != too. *)
Definition binary_value (d : data_model) (c : cfg) (o : py_op) (x y : value) : option (outcome py_value) :=
  match x, y with
  | IsBig x, IsBig y => Some (value_big_big d c o x y)
  | IsBig x, IsNative n => with_integer n (value_big_int d c o x)
  | IsNative n, IsBig y => if is_formatting o n then Some NoFuel else with_integer n (fun v => value_int_big d c o v y)
  | IsNative _, IsNative _ => None
  end.
(** pow with three arguments: at most one of the last two is an int. *)
Definition power3_value (d : data_model) (c : cfg) (x y z : value) : option (outcome py_value) :=
  let big o := v <- o ;; Ret (VBig v) in
  match x, y, z with
  | IsBig x, IsBig e, IsBig m => Some (big (power_mod_of d c x e m))
  | IsBig x, IsNative n, IsBig m => with_integer n (fun v => e <- py_operand c v ;; big (power_mod_of d c x e m))
  | IsBig x, IsBig e, IsNative n => with_integer n (fun v => m <- py_operand c v ;; big (power_mod_of d c x e m))
  | _, _, _ => None
  end.
Definition new_value (c : cfg) (x : value) : option (outcome py_value) :=
  let big o := v <- o ;; Ret (VBig v) in
  match x with
  | IsNative (NBuffer ok b) => Some (if ok then big (buffer_value c b) else Throw RuntimeError)
  | IsNative n => with_integer n (fun v => big (py_operand c v))
  | IsBig _ => None
  end.
Definition to_array_value (d : data_model) (c : cfg) (x : Z) (l : list value) : option (outcome py_value) :=
  match map flag l with
  | [] => Some (value_unary d c (UToArray false false) x)
  | [Some u] => Some (value_unary d c (UToArray u false) x)
  | [Some u; Some be] => Some (value_unary d c (UToArray u be) x)
  | _ => None
  end.

Definition store := loc -> value.
Definition values_of (l : list value) : option (list native) :=
  fold_right (fun x r => match x, r with IsNative n, Some t => Some (n :: t) | _, _ => None end) (Some []) l.
(** Without a BigInteger: Python's own meaning. *)
Definition plain (py : python) (name : string) (l : list value) (otherwise : option (outcome (result value))) :
  option (outcome (result value)) :=
  match values_of l with
  | Some l => option_map (fun o => r <- o ;; Ret (match r with One x => One (IsNative x) | Two x y => Two (IsNative x) (IsNative y) end)) (py name l)
  | None => otherwise
  end.

Definition meaning (d : data_model) (c : cfg) (lim : Z) (py : python) (s : store) (e : expr) : option (outcome (result value)) :=
  let wrap := option_map (fun o => r <- o ;; object_of lim r) in
  let on_big x f := match x with IsBig z => f z | IsNative _ => None end in
  match e with
  | XLiteral n => Some (Ret (One (IsNative n)))
  | XNew p => wrap (new_value c (s p))
  | XZero => Some (Ret (One (IsBig 0))) | XOne => Some (Ret (One (IsBig 1))) | XMinusOne => Some (Ret (One (IsBig (-1))))
  | XUnary u p => plain py (unary_name u) [s p] (on_big (s p) (fun x => wrap (Some (value_unary d c u x))))
  | XToArray p l => plain py "to_array" (s p :: map s l) (on_big (s p) (fun x => wrap (to_array_value d c x (map s l))))
  | XBitLength p => plain py "get_bit_Length" [s p] (on_big (s p) (fun x => wrap (Some (v <- bit_length_of d c x ;; Ret (VInt v)))))
  | XTruth p => plain py "bool" [s p] (Some (Ret (One (IsNative (NBool true)))))
  | XBinary o p q => plain py (name_of o) [s p; s q] (wrap (binary_value d c o (s p) (s q)))
  | XPower3 p q r => plain py "pow" [s p; s q; s r] (wrap (power3_value d c (s p) (s q) (s r)))
  end.

(** The variables after x = r, or x, y = r for a pair. *)
Definition after (s : store) (x y : loc) (r : result value) : store := fun q =>
  match r with One v => if Nat.eqb q x then v else s q
  | Two v w => if Nat.eqb q y then w else if Nat.eqb q x then v else s q end.

Fixpoint script_meaning (d : data_model) (c : cfg) (lim : Z) (py : python) (l : list (loc * loc * expr)) (s : store) :
  option (list (result value + option exn) * store) :=
  match l with
  | [] => Some ([], s)
  | (x, y, e) :: l =>
      let continue t s := match script_meaning d c lim py l s with Some (tr, s') => Some (t :: tr, s') | None => None end in
      match meaning d c lim py s e with
      | None => continue (inr None) s
      | Some (Ret r) => continue (inl r) (after s x y r)
      | Some (Throw ex) => continue (inr (Some ex)) s
      | Some _ => None
      end
  end.

(** The bytes of every buffer are bytes; XUnary is not used for to_array. *)
Definition bytes_ok (n : native) : Prop := match n with NBuffer _ b => digits 256 (SpecPy.mem b) | _ => True end.
Definition result_ok (r : result native) : Prop := match r with One x => bytes_ok x | Two x y => bytes_ok x /\ bytes_ok y end.
Definition python_ok (py : python) : Prop :=
  forall name l r, Forall bytes_ok l -> py name l = Some (Ret r) -> result_ok r.
Definition object_ok (x : object) : Prop := match x with PNative n => bytes_ok n | PBig _ => True end.
Definition expr_ok (e : expr) : Prop :=
  match e with XLiteral n => bytes_ok n | XUnary (UToArray _ _) _ => False | _ => True end.
Definition holds (m : env) (s : store) : Prop := forall p, is_value (m p) (s p) /\ object_ok (m p).
Definition agree (r : result object + option exn) (v : result value + option exn) : Prop :=
  match r, v with inl r, inl v => are_values r v | inr e, inr e' => e = e' | _, _ => False end.
