(** Specification for integers of any size: what powers are once the number of
    32-bit limbs no longer fits in an [int]. *)
From Coq Require Import ZArith List.
From Verif Require Import Machine Spec BigInt IntSizes SpecGcd SpecActual SpecLimbs SpecIntDiv.
Import ListNotations.
Open Scope Z_scope.

(** No std::length_error, but this number. *)
Definition gives (o : sized bigint) (z : Z) : Prop := exists p, o = Sized p /\ returns p z.

(** pow takes the limbs that the size, as an int, lets through. Where that is
    negative the bound on the length of the result overflows; if the overflow wraps
    the call still does not return: twice the size may come back positive, and then the bound is
    found for even exponents. *)
Definition pow_any (c : cfg) (x e : Z) (o : sized bigint) : Prop :=
  let n := int_limbs x in
  if e <? 0 then o = Sized (Throw OutOfRange)
  else if e <=? 1 then gives o (x ^ e)
  else if n <? 0 then
    if strict c then o = Sized (Undef SignedOverflow)
    else o = Sized (if (n <? - 2 ^ 30) && Z.even e && ((n + 2 ^ 31) * e + 1 <? 2 ^ 31 - 1)
                    then Undef OutOfBounds else Throw OverflowError)
  else if (1 <? Z.abs x) && (2 ^ 31 - 1 <=? n * e + 1) then o = Sized (Throw OverflowError)
  else gives o ((Z.sgn x * low x n) ^ e).

(** The base and the exponent as mod_pow meets them: the low limbs of a base that
    is stored in an array; the low 2^31 limbs of the exponent, and after them its top limb. *)
Definition base_used (x : Z) : Z := if Z.abs x <? 2 ^ 31 then Z.abs x else low x (seen x).
Definition exponent_used (e : Z) : Z :=
  let n := limbs_of e - 1 in
  let k := Z.min n (2 ^ 31) in
  low e k + 2 ^ (32 * k) * (e / 2 ^ (32 * n)).

(** mod_pow by [z], not 0, that fits in an int. A negative result comes out as an
    unsigned 32-bit number (C15). *)
Definition mod_pow_any (c : cfg) (x e z : Z) (o : outcome bigint) : Prop :=
  if e <? 0 then o = Throw OutOfRange
  else if strict c && (2 ^ 31 <? limbs_of e) then o = Undef SignedOverflow
  else
    let r := base_used x ^ exponent_used e mod Z.abs z in
    returns o (if (x <? 0) && Z.odd e then - r mod 2 ^ 32 else r).
