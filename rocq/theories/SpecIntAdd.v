(** Specification for integers of any size: what addition and subtraction do
    once the number of 32-bit limbs no longer fits in an [int]. *)
From Coq Require Import ZArith List.
From Verif Require Import Machine Spec SpecGcd SpecActual SpecLimbs.
Import ListNotations.
Open Scope Z_scope.

Definition signed (neg : bool) (m : Z) : Z := if neg then - m else m.

(** The number made of an array with the value [m], whose size is [r] as an int.
    A negative size has no limbs removed before the number is stored: zero is
    then stored as one of no limbs, which is 1 or -1, and a number below 2^31 in
    an array, which is no valid state. A positive size below the actual one
    has the rest of the array ignored if the number in it fits in an int. *)
Definition held (c : cfg) (r : Z) (neg : bool) (m : Z) (o : outcome bigint) : Prop :=
  if r <? 0 then
    if m =? 0 then returns o (signed neg 1)
    else if m <? 2 ^ 31 then o = if dbg c then AssertFail else Ret (Big (signed neg 1) [m])
    else returns o (signed neg m)
  else if low m r <? 2 ^ 31 then returns o (signed neg (low m r))
  else returns o (signed neg m).

(** [x] with |y| added to its magnitude; one of them has 2^31 or more. *)
Definition lengthened (c : cfg) (x y : Z) (o : outcome bigint) : Prop :=
  if (Z.abs x <? 2 ^ 31) || (Z.abs y <? 2 ^ 31)
  then held c (int_of (Z.max (limbs_of x) (limbs_of y) + 1)) (x <? 0) (Z.abs x + Z.abs y) o
  else
    let '(b, s) := if limbs_of x <? limbs_of y then (y, x) else (x, y) in
    let l := int_limbs b in
    let r := int_limbs s in
    if dbg c && ((l <? 0) || (r <? 0) || (l <? r)) then o = AssertFail
    else if dbg c && strict c && (l =? 2 ^ 31 - 1) then o = Undef SignedOverflow
    else held c (int_of (limbs_of b + 1)) (x <? 0) (low b (Z.max l r) + low s r) o.

(** The limb arrays of two integers as the code compares them: equally long ones
    from the limb whose index is the size less one, as an int. *)
Definition found_less (x y : Z) : bool :=
  if limbs_of x =? limbs_of y then
    let k := int_of (limbs_of x - 1) + 1 in low x k <? low y k
  else limbs_of x <? limbs_of y.

(** [x] with |y| taken from its magnitude; one of them has 2^31 or more. *)
Definition shortened (c : cfg) (x y : Z) (o : outcome bigint) : Prop :=
  if Z.abs x <? 2 ^ 31 then held c (int_limbs y) (0 <=? x) (Z.abs y - Z.abs x) o
  else if Z.abs y <? 2 ^ 31 then held c (int_limbs x) (x <? 0) (Z.abs x - Z.abs y) o
  else
    let '(b, s, neg) := if found_less x y then (y, x, 0 <=? x) else (x, y, x <? 0) in
    let l := int_limbs b in
    let r := int_limbs s in
    if dbg c && ((l <? 0) || (r <? 0) || (l <? r) || (low b l <? low s r)) then o = AssertFail
    else
      held c l neg ((low b (Z.max l r) - low s r) mod 2 ^ (32 * Z.max 0 (Z.max l r))) o.

Definition sum_any (c : cfg) (x y : Z) (o : outcome bigint) : Prop :=
  if (Z.abs x <? 2 ^ 31) && (Z.abs y <? 2 ^ 31) then returns o (x + y)
  else if Bool.eqb (x <? 0) (y <? 0) then lengthened c x y o else shortened c x y o.

Definition difference_any (c : cfg) (x y : Z) (o : outcome bigint) : Prop :=
  if (Z.abs x <? 2 ^ 31) && (Z.abs y <? 2 ^ 31) then returns o (x - y)
  else if Bool.eqb (x <? 0) (y <? 0) then shortened c x y o else lengthened c x y o.
