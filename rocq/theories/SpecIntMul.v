(** Specification for integers of any size: what multiplication does once the
    number of 32-bit limbs no longer fits in an [int]. *)
From Coq Require Import ZArith List.
From Verif Require Import Machine Spec SpecGcd SpecActual SpecLimbs SpecIntAdd.
Import ListNotations.
Open Scope Z_scope.

(** Both numbers have limb arrays, and the arrays are equal. Nothing is said of 2^30 limbs
    and more as an int in builds that wrap. *)
Definition square_any (c : cfg) (x : Z) (neg : bool) (o : outcome bigint) : Prop :=
  let l := int_limbs x in
  if dbg c && (l <? 0) then o = AssertFail
  else if l <? 2 ^ 30 then held c (int_of (2 * limbs_of x)) neg (low x l * low x l) o
  else strict c = true -> o = Undef SignedOverflow.

(** Both numbers have limb arrays, [s] the shorter or one as long. Nothing is said of
    recursive products whose size is past INT_MAX in builds that wrap, or whose left operand is
    the shorter one as an int, unless that is negative and further than the other from INT_MIN. *)
Definition long_product_any (c : cfg) (b s : Z) (neg : bool) (o : outcome bigint) : Prop :=
  let l := int_limbs b in
  let r := int_limbs s in
  let whole := held c (int_of (limbs_of b + limbs_of s)) neg (low b l * low s r) o in
  if dbg c && ((l <? 0) || (r <? 0) || (l <? r)) then o = AssertFail
  else if dbg c && strict c && (2 ^ 31 <=? l + r) then o = Undef SignedOverflow
  else if r <? 1 then whole
  else if r <? 32 then
    if l <? 0 then o = Undef OutOfBounds
    else if l + r <=? 2 ^ 31 then whole
    else o = Undef (if strict c then SignedOverflow else OutOfBounds)
  else
    (r <= l -> l + r < 2 ^ 31 -> whole) /\
    (r <= l -> 2 ^ 31 <= l + r -> strict c = true -> o = Undef SignedOverflow) /\
    (l < 0 -> - 2 ^ 31 <= l - r -> o = Undef OutOfBounds).

Definition product_any (c : cfg) (x y : Z) (o : outcome bigint) : Prop :=
  let neg := xorb (x <? 0) (y <? 0) in
  if (Z.abs x <? 2 ^ 31) && (Z.abs y <? 2 ^ 31) then returns o (x * y)
  else if (Z.abs x <? 2 ^ 31) || (Z.abs y <? 2 ^ 31)
  then held c (int_of (Z.max (limbs_of x) (limbs_of y) + 1)) neg (Z.abs x * Z.abs y) o
  else if Z.abs x =? Z.abs y then square_any c x neg o
  else if limbs_of x <? limbs_of y then long_product_any c y x neg o
  else long_product_any c x y neg o.
