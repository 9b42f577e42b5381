(** Specification for integers of any size: what to_string does once the number
    of 32-bit limbs no longer fits in an [int]. *)
From Coq Require Import ZArith List String.
From Verif Require Import Machine Spec SpecGcd SpecActual SpecText SpecLimbs SpecIntAdd IntSizes.
Open Scope Z_scope.

(** The text of m or -m. Zero has no leading block to read, and there is no
    room for the sign before a number of digits that is a multiple of nine. *)
Definition printed (neg : bool) (m : Z) (o : outcome string) : Prop :=
  (m = 0 \/ (neg = true /\ exists k, decimal_width m (9 * k)) -> o = Undef OutOfBounds) /\
  (m <> 0 -> ~ (neg = true /\ exists k, decimal_width m (9 * k)) ->
   exists s, o = Ret s /\ numeral s (signed neg m)).

(** to_string of an integer stored in a limb array. There is room for [cuMax]
    blocks of nine digits. Counting down from the least int wraps to 2^31 limbs. *)
Definition text_any (c : cfg) (x : Z) (o : sized string) : Prop :=
  let r := int_limbs x in
  if 214748364 <? r then o = Sized (Throw OverflowError)
  else if strict c && (r <? -214748364) then o = Sized (Undef SignedOverflow)
  else
    let cuMax := Z.quot (int_of (10 * r)) 9 + 2 in
    if cuMax <? 0 then o = LengthError
    else
      let m := low x (if r =? - 2 ^ 31 then 2 ^ 31 else r) in
      exists t, o = Sized t /\
        (10 ^ (9 * cuMax) <= m -> t = Undef OutOfBounds) /\
        (m < 10 ^ (9 * cuMax) -> printed (x <? 0) m t).
