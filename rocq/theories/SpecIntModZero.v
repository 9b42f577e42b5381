(** Specification for integers of any size: mod_pow by 0. *)
From Coq Require Import ZArith.
From Verif Require Import Machine BigInt SpecLimbs SpecIntDiv.
Open Scope Z_scope.

(** The divisor is not looked at for bases that fit in an int, nor for those
    none of whose limbs are seen; the loop over the limbs of an exponent
    but the last divides without looking. *)
Definition zero_unseen (x : Z) : bool := (Z.abs x <? 2 ^ 31) || (seen x <=? 0).
Definition mod_zero_any (x e : Z) : outcome bigint :=
  if e <? 0 then Throw OutOfRange
  else if zero_unseen x && (2 ^ 32 <=? e) then Undef DivByZero
  else Throw DivideByZero.
