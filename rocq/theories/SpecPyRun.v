(** Specification vocabulary: what Python expressions over BigInteger objects
    evaluate to, as functions on integers, documented or not. *)
From Coq Require Import ZArith List String.
From Verif Require Import Machine Spec SpecPos SpecApi SpecText SpecDouble SpecFloat SpecGcd SpecPy SpecRun SpecActual SpecWin SpecWinRun ApiMem PyRun.
Import ListNotations.
Open Scope Z_scope.

(** [VText z] is the numeral of [z]; [VFloat z] the double that is [z]; [VBytes u be z]
    the shortest encoding. *)
Inductive py_value :=
| VBig (z : Z) | VInt (z : Z) | VBool (t : bool) | VBigs (q r : Z) | VTexts (q r : Z) | VText (z : Z)
| VFloat (z : Z) | VBytes (u be : bool) (z : Z).

Definition shows (r : py_result) (v : py_value) : Prop :=
  match v, r with
  | VBig z, RBig b => represents b z
  | VInt z, RInt v => v = z
  | VBool t, RBool t' => t' = t
  | VBigs x y, RBigs q r => represents q x /\ represents r y
  | VTexts x y, RTexts s t => numeral s x /\ numeral t y
  | VText z, RText s => numeral s z
  | VFloat z, RFloat d => dbl_exact d z /\ (z = 0 -> d = 0)
  | VBytes u be z, RBytes l =>
      digits 256 l /\ bytes_value u be l = z /\ l <> [] /\
      forall l', digits 256 l' -> bytes_value u be l' = z -> l' <> [] -> (List.length l <= List.length l')%nat
  | _, _ => False
  end.
Definition yields (o : outcome py_result) (v : outcome py_value) : Prop :=
  match v with
  | Ret v => exists r, o = Ret r /\ shows r v
  | Throw e => o = Throw e | Undef u => o = Undef u | AssertFail => o = AssertFail | NoFuel => o = NoFuel
  end.

(** An int operand made into a BigInteger. *)
Definition py_operand (c : cfg) (v : Z) : outcome Z :=
  if strict c && (- 2 ^ 31 <=? v) && (v <? 0) && negb (v =? - 2 ^ 24) then Undef ShiftNegative else Ret v.

(** A BigInteger, then an int, made into a C++ int. *)
Definition big_count (c : cfg) (n : Z) : outcome Z :=
  if (- 2 ^ 31 <=? n) && (n <? 2 ^ 31) then (if strict c && (n =? - 2 ^ 31) then Undef SignedOverflow else Ret n)
  else Throw OverflowError.
Definition int_count (e : exn) (n : Z) : outcome Z :=
  if (- 2 ^ 31 <=? n) && (n <? 2 ^ 31) then Ret n else Throw e.

(** The number of digits of [z >= 0]. *)
Fixpoint count_digits (n : nat) (z : Z) : Z :=
  match n with O => 1 | S n => if z <? 10 then 1 else 1 + count_digits n (z / 10) end.
Definition digits_of (z : Z) : Z := count_digits (Z.to_nat (Z.log2 z)) z.

(** to_string(). *)
Definition text (x : Z) : outcome Z :=
  if 214748364 <? limbs_of x then Throw OverflowError
  else if (x <=? - 2 ^ 31) && (digits_of (- x) mod 9 =? 0) then Undef OutOfBounds
  else Ret x.

(** get_hash_code(): the limbs are mixed in from the most significant one on. *)
Definition rotate7 (u : Z) : Z := (u * 2 ^ 7) mod 2 ^ 32 + u / 2 ^ 25.
Fixpoint limb_hash (n : nat) (x sign : Z) : Z :=
  match n with
  | O => sign
  | S n => int_of (Z.lxor (rotate7 (limb_hash n (x / 2 ^ 32) sign mod 2 ^ 32)) (x mod 2 ^ 32))
  end.
Definition hash_code (x : Z) : Z :=
  if Z.abs x <? 2 ^ 31 then x else limb_hash (Z.to_nat (limbs_of x)) (Z.abs x) (Z.sgn x).

Definition sum_of (d : data_model) (x y : Z) : outcome Z := match d with LP64 => Ret (x + y) | LLP64 => defined (win_sum x y) end.
Definition difference_of (d : data_model) (x y : Z) : outcome Z := match d with LP64 => Ret (x - y) | LLP64 => defined (win_difference x y) end.
Definition product_of (d : data_model) (x y : Z) : outcome Z := match d with LP64 => Ret (x * y) | LLP64 => defined (win_product x y) end.
Definition complement_of (d : data_model) (x : Z) : outcome Z := match d with LP64 => Ret (- x - 1) | LLP64 => defined (win_complement x) end.
Definition power_of (d : data_model) (x e : Z) : outcome Z :=
  if e <? 0 then Throw OutOfRange
  else if (1 <? e) && (1 <? Z.abs x) && (2 ^ 31 - 1 <=? limbs_of x * e + 1) then Throw OverflowError
  else match d with LP64 => Ret (x ^ e) | LLP64 => defined (win_power x e) end.
Definition power_mod_of (d : data_model) (c : cfg) (x e z : Z) : outcome Z :=
  match d with LP64 => power_mod (dbg c) x e z | LLP64 => win_power_mod (dbg c) x e z end.
Definition divided (f : Z -> Z -> Z) (x y : Z) : outcome Z := if y =? 0 then Throw DivideByZero else Ret (f x y).
(** The remainder of divmod: C07. *)
Definition divmod_rem (x y : Z) : Z :=
  let r := Z.rem x y in if (x <=? - 2 ^ 31) && (Z.abs y <? 2 ^ 31) && negb (r =? 0) then 2 ^ 32 + r else r.

(** The operator on integers; [y] is a count where one is needed. [k] makes the
    result: a BigInteger, or an int if the left operand was one. *)
Definition apply (d : data_model) (c : cfg) (o : py_op) (k : Z -> py_value) (x y : Z) : outcome py_value :=
  let num z := v <- z ;; Ret (k v) in
  match o with
  | OAdd => num (sum_of d x y) | OSub => num (difference_of d x y) | OMul => num (product_of d x y)
  | OMod => num (divided Z.rem x y) | OTrueDiv | OFloorDiv => num (divided Z.quot x y)
  | ODivMod => q <- divided Z.quot x y ;; Ret (VBigs q (divmod_rem x y))
  | OPow => num (power_of d x y) | OShl => num (shift_by c x y) | OShr => num (shift_by c x (- y))
  | OAnd => Ret (k (Z.land x y)) | OOr => Ret (k (Z.lor x y)) | OXor => Ret (k (Z.lxor x y))
  | OLt => Ret (VBool (x <? y)) | OLe => Ret (VBool (x <=? y)) | OEq => Ret (VBool (x =? y)) | ONe => Ret (VBool (negb (x =? y)))
  | OGt => Ret (VBool (y <? x)) | OGe => Ret (VBool (y <=? x))
  end.

Definition counts (o : py_op) : bool := match o with OPow | OShl | OShr => true | _ => false end.
Definition value_big_big (d : data_model) (c : cfg) (o : py_op) (x y : Z) : outcome py_value :=
  y <- (if counts o then big_count c y else Ret y) ;; apply d c o VBig x y.
Definition value_big_int (d : data_model) (c : cfg) (o : py_op) (x v : Z) : outcome py_value :=
  y <- match o with OPow => int_count OverflowError v | OShl | OShr => int_count CastError v | _ => py_operand c v end ;;
  apply d c o VBig x y.
Definition value_int_big (d : data_model) (c : cfg) (o : py_op) (v y : Z) : outcome py_value :=
  x <- py_operand c v ;;
  y <- (if counts o then big_count c y else Ret y) ;;
  match o with
  | ODivMod => q <- divided Z.quot x y ;; q <- text q ;; r <- text (divmod_rem x y) ;; Ret (VTexts q r)
  | _ => apply d c o VInt x y
  end.

Definition value_unary (d : data_model) (c : cfg) (u : py_unary) (x : Z) : outcome py_value :=
  match u with
  | UNeg => Ret (VBig (- x)) | UPos | UDeepcopy => Ret (VBig x) | UAbs => Ret (VBig (Z.abs x))
  | UInvert => z <- complement_of d x ;; Ret (VBig z)
  | UInt | UIndex => Ret (VInt x)
  | UFloat => if Z.abs x <? 2 ^ 1024 - 2 ^ 970 then Ret (VFloat (round_even 53 x)) else Throw OverflowError
  | UStr => z <- text x ;; Ret (VText z)
  | UHash => let h := Z.lxor (2166136261 * 16777619) (hash_code x) in Ret (VInt (if h =? -1 then -2 else h))
  | UBytes => Ret (VBytes false false x)
  | UToArray u be => if u && (x <? 0) then Throw RuntimeError else Ret (VBytes u be x)
  | UIsPowerOfTwo => Ret (VBool ((0 <? x) && (x =? 2 ^ Z.log2 x))) | UIsEven => Ret (VBool (Z.even x))
  | USign => Ret (VInt (Z.sgn x))
  end.

(** The bytes BigInteger(buffer) reads: they are taken to be contiguous. *)
Definition buffer_value (c : cfg) (b : py_buffer) : outcome Z :=
  let l := firstn (size b) (skipn (Z.to_nat (ptr b)) (SpecPy.mem b)) in
  if Nat.ltb 0 (size b) && ((ptr b <? 0) || (Z.of_nat (List.length (SpecPy.mem b)) <? ptr b + Z.of_nat (size b))) then Undef OutOfBounds
  else if strict c && (bytes_value false false l <? 0) && Nat.leb (size b) 4 then Undef ShiftNegative
  else Ret (bytes_value false false l).

Definition value_of (d : data_model) (c : cfg) (s : zstore) (e : py_expr) : outcome py_value :=
  let big z := v <- z ;; Ret (VBig v) in
  match e with
  | ENew z v => big (py_operand c v)
  | EBuffer b => big (buffer_value c b)
  | EZero => Ret (VBig 0) | EOne => Ret (VBig 1) | EMinusOne => Ret (VBig (-1))
  | EUnary u p => value_unary d c u (s p)
  | EBin o p q => value_big_big d c o (s p) (s q)
  | EBinInt o p z v => value_big_int d c o (s p) v
  | EIntBin o z v p => value_int_big d c o v (s p)
  | EPow3 p q m => big (power_mod_of d c (s p) (s q) (s m))
  | EPow3Exp p z v m => e <- py_operand c v ;; big (power_mod_of d c (s p) e (s m))
  | EPow3Mod p q z v => m <- py_operand c v ;; big (power_mod_of d c (s p) (s q) m)
  end.

Definition set_result (s : zstore) (x y : loc) (v : py_value) : zstore :=
  match v with VBig z => set s x z | VBigs q r => set (set s x q) y r | _ => s end.
Fixpoint script_values (d : data_model) (c : cfg) (l : list (loc * loc * py_expr)) (s : zstore) : option (list (py_value + exn) * zstore) :=
  match l with
  | [] => Some ([], s)
  | (x, y, e) :: l =>
      match value_of d c s e with
      | Ret v => match script_values d c l (set_result s x y v) with Some (tr, s') => Some (inl v :: tr, s') | None => None end
      | Throw ex => match script_values d c l s with Some (tr, s') => Some (inr ex :: tr, s') | None => None end
      | _ => None
      end
  end.

(** The flag of an int literal is right, the bytes of a buffer are bytes. *)
Definition py_typed (e : py_expr) : Prop :=
  match e with
  | ENew z v | EBinInt _ _ z v | EIntBin _ z v _ | EPow3Exp _ z v _ | EPow3Mod _ _ z v => z = true -> v = 0
  | EBuffer b => digits 256 (SpecPy.mem b)
  | _ => True
  end.
Definition shown (r : py_result + exn) (v : py_value + exn) : Prop :=
  match r, v with inl r, inl v => shows r v | inr e, inr e' => e = e' | _, _ => False end.
