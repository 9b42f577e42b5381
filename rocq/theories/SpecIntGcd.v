(** Specification for integers of any size: what the greatest common divisor is
    once the number of 32-bit limbs no longer fits in an [int]. *)
From Coq Require Import ZArith List.
From Verif Require Import Machine Spec BigInt IntSizes SpecGcd SpecActual SpecLimbs SpecIntAdd SpecIntDiv.
Import ListNotations.
Open Scope Z_scope.

(** A call returns, and does so without std::length_error. *)
Definition comes (o : sized bigint) (P : outcome bigint -> Prop) : Prop :=
  match o with Sized o => P o | LengthError => False end.

(** Both numbers are stored in limb arrays, [x] is the one found not to be the
    smaller. Nothing is said of 3 or more limbs of [y] when a size of 2^31 or more comes back positive. *)
Definition gcd_arrays (fuel : nat) (c : cfg) (x y : Z) (o : sized bigint) : Prop :=
  let l := int_limbs x in
  if limbs_of y =? 1 then comes o (fun o => returns o (Z.gcd (low x (seen x)) y))
  else if limbs_of y =? 2 then
    if dbg c && (l <? 2) then o = Sized AssertFail
    else comes o (fun o => returns o (Z.gcd (low x (if l <? 2 then 2 else l)) y))
  else if (l <? 0) || (int_limbs y <? 0) then o = LengthError
  else limbs_of x < 2 ^ 31 -> limbs_of y < 2 ^ 31 -> comes o (fun o => denotes o (actual_gcd fuel (dbg c) x y)).

Definition gcd_any (fuel : nat) (c : cfg) (x y : Z) (o : sized bigint) : Prop :=
  if (Z.abs x <? 2 ^ 31) && (Z.abs y <? 2 ^ 31) then comes o (fun o => returns o (Z.gcd x y))
  else if Z.abs x <? 2 ^ 31 then
    if x =? 0 then comes o (held c (int_limbs y) false (Z.abs y))
    else comes o (fun o => returns o (Z.gcd (low y (seen y)) x))
  else if Z.abs y <? 2 ^ 31 then
    if y =? 0 then comes o (held c (int_limbs x) false (Z.abs x))
    else comes o (fun o => returns o (Z.gcd (low x (seen x)) y))
  else if found_less x y then gcd_arrays fuel c y x o
  else gcd_arrays fuel c x y o.
