(** Specification of the helpers of NumericsHelpers.h, on integers. *)
From Coq Require Import ZArith.
From Verif Require Import SpecDouble.
Open Scope Z_scope.

(** Zeros in front of the first one in [w] bits. *)
Definition zeros_before (w u : Z) : Z := if u =? 0 then w else w - 1 - Z.log2 u.

(** The integer part of [m * 2^k]. *)
Definition scaled (m k : Z) : Z := if 0 <=? k then m * 2 ^ k else m / 2 ^ (- k).

(** [d] is +-m * 2^e rounded towards zero to a double; a zero keeps its sign and
    a number of 2^1024 or more gives an infinity. *)
Definition rounded_down (d : Z) (neg : bool) (m e : Z) : Prop :=
  if m =? 0 then d = (if neg then 2 ^ 63 else 0)
  else
    let top := Z.log2 m + e in
    if 1024 <=? top then d = (if neg then minus_infinity else plus_infinity)
    else
      dbl_pattern d /\ dbl_finite d /\ dbl_negative d = neg /\
      dbl_scale d = Z.max (-1074) (top - 52) /\ dbl_significand d = scaled m (e - dbl_scale d).
