(** Specification for integers of any size: mod_pow by a modulus that does not
    fit in an int. *)
From Coq Require Import ZArith List.
From Verif Require Import Machine Spec BigInt IntSizes SpecGcd SpecActual SpecLimbs SpecIntPow.
Import ListNotations.
Open Scope Z_scope.

(** The buffers have twice as many limbs as the modulus, as an int. The remainder of a base whose size is
    negative as an int is the base itself, if no assertion is checked; if the size comes back
    positive, the base is cut to so many limbs, and then is like any number [y] that is longer than the modulus and has the same
    remainder. Below 32 limbs of the modulus the limbs of the exponent are counted in
    an int. Nothing is said of moduli of 2^29 limbs and more for which the buffer
    is long enough to hold the base, nor of moduli of 2^31 limbs and more if the base has as many. *)
Definition mod_pow_long_any (c : cfg) (x e z : Z) (o : sized bigint) : Prop :=
  let size := int_of (2 * limbs_of z) in
  let over := strict c && (limbs_of z <? 32) && (2 ^ 31 <? limbs_of e) in
  let e' := if limbs_of z <? 32 then exponent_used e else e in
  if e <? 0 then o = Sized (Throw OutOfRange)
  else if (int_limbs x <? 0) && (limbs_of z <? 2 ^ 31) then
    if dbg c then o = Sized AssertFail
    else if size <? 0 then o = LengthError
    else o = Sized (Undef OutOfBounds)
  else if limbs_of x <? 2 ^ 31 then
    if size <? 0 then o = LengthError
    else if (size <? limbs_of x) && (limbs_of x <=? limbs_of z) then o = Sized (Undef OutOfBounds)
    else limbs_of z < 2 ^ 29 ->
      if over then o = Sized (Undef SignedOverflow)
      else exists p, o = Sized p /\ denotes p (power_mod (dbg c) x e' z)
  else limbs_of z < 2 ^ 31 ->
    if dbg c && (int_limbs x <? limbs_of z) then o = Sized AssertFail
    else if size <? 0 then o = LengthError
    else limbs_of z < 2 ^ 29 ->
      if over then o = Sized (Undef SignedOverflow)
      else exists p, o = Sized p /\ forall y, Z.sgn y = Z.sgn x -> limbs_of z < limbs_of y < 2 ^ 31 ->
        Z.abs y mod Z.abs z = low x (int_limbs x) mod Z.abs z -> denotes p (power_mod (dbg c) y e' z).
