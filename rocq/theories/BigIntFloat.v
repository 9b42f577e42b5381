(** Model of operator float. A float is its 32-bit pattern. *)
From Verif Require Import Machine BigInt BigIntDouble.

(** Built-in conversion double -> float in the default rounding mode (IEEE 754: to
    nearest, ties to even; overflow to infinity; a NaN becomes quiet). *)
Definition double_to_float (d : Z) : Z :=
  let sign := Z.shiftr d 63 in
  let exp := Z.land (Z.shiftr d 52) 2047 in
  let frac := Z.land d DBL_FRAC_MASK in
  sign * 2 ^ 31 +
  (if exp =? 2047 then
     if frac =? 0 then 255 * 2 ^ 23 else 255 * 2 ^ 23 + Z.lor (2 ^ 22) (Z.shiftr frac 29)
   else
     let man := if exp =? 0 then frac else frac + DBL_HIDDEN in
     let e := Z.max 1 exp - 896 in
     let sh := if 1 <=? e then 29 else 30 - e in
     let q := man / 2 ^ sh in
     let r := man mod 2 ^ sh in
     let q := if (2 ^ (sh - 1) <? r) || ((r =? 2 ^ (sh - 1)) && Z.odd q) then q + 1 else q in
     Z.min (255 * 2 ^ 23) ((Z.max 1 e - 1) * 2 ^ 23 + q)).

(** BigInteger::operator float: BigInteger.cpp:1506-1508 *)
Definition bi_to_float (c : cfg) (b : bigint) : outcome Z :=
  d <- bi_to_double c b ;; Ret (double_to_float d).
