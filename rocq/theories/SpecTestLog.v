(** Specification vocabulary for the logarithms of the tests. *)
From Coq Require Import Bool ZArith Reals String.
From Flocq Require Import BinarySingleNaN.
Open Scope R_scope.

(** What is asked of the C library's log10: on positive finite arguments an error of at most
    one unit in the last place, which is at most 2^-52 relative. *)
Definition libm_log10 (log10f : binary_float 53 1024 -> binary_float 53 1024) : Prop :=
  forall x, is_finite x = true -> 0 < B2R x ->
    is_finite (log10f x) = true /\
    Rabs (B2R (log10f x) - ln (B2R x) / ln 10) <= / 2 ^ 52 * Rabs (ln (B2R x) / ln 10).

(** [z] is [L] rounded up. *)
Definition ceiling (L : R) (z : Z) : Prop := IZR z - 1 < L <= IZR z.

(** What the computed logarithms may be away from the exact one, [L]. *)
Definition margin (L : R) : R := L * (L + 64) / 2 ^ 52.

(** No integer is that close to [L]. *)
Definition clear (L : R) : Prop := forall k : Z, margin L < Rabs (L - IZR k).

(** What bLog stands for when the value is less than 2, the base less than 2 or the base
    too large for a double: -101 for NaN, -102 for minus infinity. *)
Definition ratio_special (x y : Z) : Z :=
  (if ((x <? 0) || (y <? 0) || (y =? 1))%bool then -101
   else if ((y =? 0) || (2 ^ 1024 <=? y))%bool then if x =? 1 then 0 else -101
   else if x =? 0 then -102
   else 0)%Z.

(** The unary logarithms. *)
Definition is_log (op : string) : Prop := op = "uLog"%string \/ op = "uLog10"%string.

(** The logarithm of a number below 2 that the reference implementation converts to int. *)
Definition first_log (x : Z) : binary_float 53 1024 :=
  if (x <? 0)%Z then B754_nan else if (x =? 0)%Z then B754_infinity true else B754_zero false.
