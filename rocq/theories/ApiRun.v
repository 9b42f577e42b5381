(** Histories of public API calls on a store of BigInteger objects. A command
    is one call whose arguments are objects of the store or machine values; a
    returned object is copied into the object [r]. The calls that return no
    BigInteger (comparisons, predicates, casts, to_string, to_byte_array,
    get_hash_code, logarithms, ...) do not write to any object and are left
    out. So is BigInteger(int, uint_array), which copies its arguments. *)
From Coq Require Import String.
From Verif Require Import Machine BigInt BigIntText BigIntBytes BigIntDouble ApiMem.

Inductive cmd :=
(* constructors: BigInteger.h:22-38, in the order of the header *)
| NewDefault (r : loc)
| NewInt (r : loc) (v : Z)
| NewUint (r : loc) (v : Z)
| NewLong (r : loc) (v : Z)
| NewUlong (r : loc) (v : Z)
| NewDouble (r : loc) (pattern : Z)
| NewMag (r : loc) (limbs : list Z) (negative : bool)
| NewBytes (r : loc) (bytes : list Z) (isUnsigned isBigEndian : bool)
(* copy construction and assignment, generated by the compiler *)
| Copy (r p : loc)
(* zero(), one(), minus_one(): BigInteger.h:73-77 *)
| Zero (r : loc) | One (r : loc) | MinusOne (r : loc)
(* parse, try_parse: BigInteger.h:79-81 *)
| Parse (r : loc) (s : string)
| TryParse (result : loc) (s : string)
(* x op= y and r = x op y (also add, subtract, multiply, divide, remainder) *)
| Assign (o : assign) (this rhs : loc)
| Binary (o : assign) (r lhs rhs : loc)
(* shifts *)
| ShlAssign (this : loc) (shift : Z) | ShrAssign (this : loc) (shift : Z)
| Shl (r lhs : loc) (shift : Z) | Shr (r lhs : loc) (shift : Z)
(* ++, -- (both forms), unary operators, negate, abs *)
| Inc (this : loc) | Dec (this : loc)
| Neg (r p : loc) | Pos (r p : loc) | Not (r p : loc) | Abs (r p : loc)
(* r = div_rem(dividend, divisor, remainder) *)
| DivRem (r dividend divisor remainder : loc)
(* pow, mod_pow, greatest_common_divisor *)
| Pow (r p : loc) (exponent : Z)
| ModPow (r value exponent modulus : loc)
| Gcd (r p q : loc)
(* the public overloads that take limb arrays: BigInteger.h:99, 133, 144 *)
| GcdBits (r : loc) (leftBits rightBits : list Z)
| AddParts (r : loc) (lhs : list Z) (lhsSign : Z) (rhs : list Z) (rhsSign : Z)
| SubParts (r : loc) (lhs : list Z) (lhsSign : Z) (rhs : list Z) (rhsSign : Z).

(** The C++ types of the arguments. *)
Definition is_int (v : Z) : Prop := - 2 ^ 31 <= v < 2 ^ 31.
Definition is_words (l : list Z) : Prop := Forall (fun d => 0 <= d < 2 ^ 32) l.
Definition typed (k : cmd) : Prop :=
  match k with
  | NewInt _ v => is_int v
  | NewUint _ v => 0 <= v < 2 ^ 32
  | NewLong _ v => - 2 ^ 63 <= v < 2 ^ 63
  | NewUlong _ v | NewDouble _ v => 0 <= v < 2 ^ 64
  | NewMag _ l _ => is_words l
  | NewBytes _ l _ _ => Forall (fun d => 0 <= d < 256) l
  | ShlAssign _ s | ShrAssign _ s | Shl _ _ s | Shr _ _ s | Pow _ _ s => is_int s
  | GcdBits _ a b => is_words a /\ is_words b
  | AddParts _ a s b t | SubParts _ a s b t => is_words a /\ is_int s /\ is_words b /\ is_int t
  | _ => True
  end.

Definition into (r : loc) (o : outcome bigint) : act unit := let! z := lift o in store r z.

(** The value-level operators of ApiMem.assign. *)
Definition bin (o : assign) (c : cfg) (a b : bigint) : outcome bigint :=
  match o with
  | AddA => bi_add c a b | SubA => bi_sub c a b | MulA => bi_mul c a b
  | DivA => bi_div c a b | RemA => bi_rem c a b
  | AndA => bi_and c a b | OrA => bi_or c a b | XorA => bi_xor c a b
  end.

(** Run one call. [fuel] bounds the Lehmer loop of greatest_common_divisor. *)
Definition run_cmd (fuel : nat) (c : cfg) (k : cmd) : act unit :=
  match k with
  | NewDefault r => store r bi_default
  | NewInt r v => into r (bi_of_int32 c v)
  | NewUint r v => into r (bi_of_uint32 c v)
  | NewLong r v => into r (bi_of_int64 c v)
  | NewUlong r v => into r (bi_of_uint64 c v)
  | NewDouble r d => into r (bi_of_double c d)
  | NewMag r l neg => into r (bi_of_mag c l neg)
  | NewBytes r l u be => into r (bi_of_bytes c l u be)
  | Copy r p => let! x := load p in store r x
  | Zero r => into r (bi_zero c)
  | One r => into r (bi_one c)
  | MinusOne r => into r (bi_minus_one c)
  | Parse r s => into r (bi_parse c s)
  | TryParse r s =>
      let! old := load r in
      let! res := lift (bi_try_parse c s old) in
      store r (snd res)
  | Assign o p q => run_assign o c p q
  | Binary o r p q => let! x := load p in let! y := load q in into r (bin o c x y)
  | ShlAssign p s => mem_shl c p s
  | ShrAssign p s => mem_shr c p s
  | Shl r p s => let! x := load p in into r (bi_shl c x s)
  | Shr r p s => let! x := load p in into r (bi_shr c x s)
  | Inc p => do! mem_inc c p in lift (Ret tt)
  | Dec p => do! mem_dec c p in lift (Ret tt)
  | Neg r p => let! x := load p in into r (bi_neg c x)
  | Pos r p => let! x := load p in into r (bi_pos c x)
  | Not r p => let! x := load p in into r (bi_not c x)
  | Abs r p => let! x := load p in into r (bi_abs c x)
  | DivRem r p q s => let! z := mem_div_rem c p q s in store r z
  | Pow r p e => let! x := load p in into r (bi_pow c x e)
  | ModPow r p q s =>
      let! x := load p in let! y := load q in let! z := load s in into r (bi_mod_pow c x y z)
  | Gcd r p q => let! x := load p in let! y := load q in into r (bi_gcd fuel c x y)
  | GcdBits r a b => into r (bi_gcd_bits fuel c a b)
  | AddParts r a s b t => into r (bi_add_parts c a s b t)
  | SubParts r a s b t => into r (bi_sub_parts c a s b t)
  end.

(** The stores a program can get to: all objects default-constructed at first,
    then any calls; after a call that throws the program goes on with whatever
    store the call left. *)
Inductive reachable (c : cfg) : mem -> Prop :=
| Start : reachable c (fun _ => bi_default)
| Returned k fuel m m' :
    reachable c m -> typed k -> run_cmd fuel c k m = (Ret tt, m') -> reachable c m'
| Threw k fuel e m m' :
    reachable c m -> typed k -> run_cmd fuel c k m = (Throw e, m') -> reachable c m'.
