(** Specification vocabulary: what the tests' reference implementation computes
    on every operand, also on those for which an operator means nothing. *)
From Coq Require Import ZArith List String Bool.
From Verif Require Import Machine SpecPyClass SpecOracle.
Import ListNotations.
Open Scope string_scope.
Open Scope Z_scope.

(** The quotient of a division by 0: as many bits as the dividend has, all set. *)
Definition ref_quotient (x y : Z) : Z :=
  if y =? 0 then (if x <? 0 then -1 else 1) * (2 ^ (Z.log2 (Z.abs x) + 1) - 1) else Z.quot x y.

(** A negative exponent is read as an unsigned number of the same bytes. *)
Definition ref_exponent (e : Z) : Z := if e <? 0 then e + 256 ^ byte_count false e else e.
Definition ref_power (x e : Z) : outcome Z := if an_int e then Ret (x ^ ref_exponent e) else Throw OverflowError.

(** Shifts are by a number of bytes, an int, and of bits. -2^31 bytes become
    -(2^64 - 2^31). *)
Definition ref_shift (x s : Z) : outcome Z :=
  let bytes := Z.quot s 8 in
  if an_int bytes then Ret (Z.shiftl x (if bytes =? - 2 ^ 31 then s - 8 * (2 ^ 64 - 2 ^ 32) else s))
  else Throw OverflowError.

Definition ref_binary_table : list (string * (Z -> Z -> outcome Z)) :=
  [("bMin", fun x y => Ret (Z.min x y)); ("bMax", fun x y => Ret (Z.max x y));
   ("b>>", fun x y => ref_shift x (- y)); ("b<<", ref_shift);
   ("b^", fun x y => Ret (Z.lxor x y)); ("b|", fun x y => Ret (Z.lor x y)); ("b&", fun x y => Ret (Z.land x y));
   ("b%", fun x y => Ret (Z.rem x y)); ("b/", fun x y => Ret (ref_quotient x y)); ("b*", fun x y => Ret (x * y));
   ("b-", fun x y => Ret (x - y)); ("b+", fun x y => Ret (x + y));
   ("bGCD", fun x y => Ret (Z.gcd x y)); ("bPow", ref_power);
   ("bDivRem", fun x y => Ret (ref_quotient x y)); ("bRemainder", fun x y => Ret (Z.rem x y));
   ("bDivide", fun x y => Ret (ref_quotient x y));
   ("bMultiply", fun x y => Ret (x * y)); ("bSubtract", fun x y => Ret (x - y)); ("bAdd", fun x y => Ret (x + y))].
(** [Z.rem x 0] is [x]. *)
Definition ref_power_mod (x e z : Z) : Z := Z.rem (x ^ ref_exponent e) z.
