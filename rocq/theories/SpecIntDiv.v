(** Specification for integers of any size: what division does once the number
    of 32-bit limbs no longer fits in an [int]. *)
From Coq Require Import ZArith List.
From Verif Require Import Machine Spec SpecGcd SpecActual SpecLimbs SpecIntAdd.
Import ListNotations.
Open Scope Z_scope.

(** The low limbs of a dividend that are looked at when the divisor fits in an int. *)
Definition seen (x : Z) : Z := int_of (limbs_of x - 1) + 1.

(** Both numbers are stored in limb arrays, [y] in the shorter one: how the call
    ends if not with a result that [P] describes. A divisor whose size is INT_MIN as an
    int is read at its limb 2^31 - 1. *)
Definition by_long {A : Type} (c : cfg) (x y : Z) (o : outcome A) (P : Prop) : Prop :=
  let l := int_limbs x in
  let r := int_limbs y in
  if dbg c && ((l <? 1) || (r <? 1) || (l <? r)) then o = AssertFail
  else if r =? - 2 ^ 31 then
    o = Undef (if strict c then SignedOverflow
               else if low y (- r) <? 2 ^ (32 * (- r - 1)) then ShiftRange else OutOfBounds)
  else if r <? 1 then o = Undef OutOfBounds
  else if low y r <? 2 ^ (32 * (r - 1)) then o = Undef ShiftRange
  else P.

(** Quotient and remainder of the limbs that the sizes, as ints, let through;
    the other limbs of the dividend stay in the remainder. *)
Definition part_quotient (x y : Z) : Z :=
  if int_limbs x <? int_limbs y then 0 else low x (int_limbs x) / low y (int_limbs y).
Definition part_remainder (x y : Z) : Z :=
  if int_limbs x <? int_limbs y then Z.abs x
  else Z.abs x - low x (int_limbs x) + low x (int_limbs x) mod low y (int_limbs y).

Definition quotient_any (c : cfg) (x y : Z) (o : outcome bigint) : Prop :=
  if Z.abs x <? 2 ^ 31 then if y =? 0 then o = Throw DivideByZero else returns o (Z.quot x y)
  else if Z.abs y <? 2 ^ 31 then
    if (y =? 0) && (0 <? seen x) then o = Throw DivideByZero
    else held c (int_limbs x) (xorb (x <? 0) (y <? 0)) (low x (seen x) / Z.abs y) o
  else if limbs_of x <? limbs_of y then returns o 0
  else by_long c x y o
    (held c (int_of (limbs_of x - limbs_of y + 1)) (xorb (x <? 0) (y <? 0)) (part_quotient x y) o).

Definition remainder_any (c : cfg) (x y : Z) (o : outcome bigint) : Prop :=
  if Z.abs x <? 2 ^ 31 then if y =? 0 then o = Throw DivideByZero else returns o (Z.rem x y)
  else if Z.abs y <? 2 ^ 31 then
    if (y =? 0) && (0 <? seen x) then o = Throw DivideByZero
    else returns o (signed (x <? 0) (low x (seen x) mod Z.abs y))
  else if limbs_of x <? limbs_of y then returns o x
  else by_long c x y o (held c (int_limbs x) (x <? 0) (part_remainder x y) o).

(** div_rem, which returns the quotient and stores the remainder. The remainder
    by an int is negated as an unsigned 32-bit number (C07). *)
Definition div_rem_any (c : cfg) (x y : Z) (o : outcome (bigint * bigint)) : Prop :=
  if Z.abs x <? 2 ^ 31 then
    if y =? 0 then o = Throw DivideByZero
    else exists q r, o = Ret (q, r) /\ represents q (Z.quot x y) /\ represents r (Z.rem x y)
  else if Z.abs y <? 2 ^ 31 then
    if (y =? 0) && (0 <? seen x) then o = Throw DivideByZero
    else exists oq r, o = bind oq (fun q => Ret (q, r)) /\
      held c (int_limbs x) (xorb (x <? 0) (y <? 0)) (low x (seen x) / Z.abs y) oq /\
      represents r (signed (x <? 0) (low x (seen x) mod Z.abs y) mod 2 ^ 32)
  else if limbs_of x <? limbs_of y then exists q r, o = Ret (q, r) /\ represents q 0 /\ represents r x
  else by_long c x y o (exists oq or, o = bind or (fun r => bind oq (fun q => Ret (q, r))) /\
    held c (int_of (limbs_of x - limbs_of y + 1)) (xorb (x <? 0) (y <? 0)) (part_quotient x y) oq /\
    held c (int_limbs x) (x <? 0) (part_remainder x y) or).
