(** Specification vocabulary: IEEE 754 binary32 bit patterns and rounding of
    integers to a number of significant bits. *)
From Coq Require Import ZArith.
Open Scope Z_scope.

Definition flt_pattern (f : Z) : Prop := 0 <= f < 2 ^ 32.

(** The three fields of a pattern. *)
Definition flt_negative (f : Z) : bool := 2 ^ 31 <=? f.
Definition flt_exp (f : Z) : Z := (f / 2 ^ 23) mod 2 ^ 8.
Definition flt_frac (f : Z) : Z := f mod 2 ^ 23.

Definition flt_plus_infinity : Z := 255 * 2 ^ 23.
Definition flt_minus_infinity : Z := 2 ^ 31 + 255 * 2 ^ 23.

(** A finite pattern denotes +- significand * 2^scale. *)
Definition flt_significand (f : Z) : Z := if flt_exp f =? 0 then flt_frac f else 2 ^ 23 + flt_frac f.
Definition flt_scale (f : Z) : Z := (if flt_exp f =? 0 then 1 else flt_exp f) - 150.

(** That number is the integer [z]. *)
Definition flt_exact (f z : Z) : Prop :=
  flt_pattern f /\ flt_exp f <> 255 /\
  (if flt_negative f then - flt_significand f else flt_significand f) * 2 ^ Z.max 0 (flt_scale f) =
    z * 2 ^ Z.max 0 (- flt_scale f).

(** [x] rounded to [p] significant bits: to nearest, ties to even. *)
Definition round_even (p x : Z) : Z :=
  let k := Z.max 0 (Z.log2 (Z.abs x) + 1 - p) in
  let q := Z.abs x / 2 ^ k in
  let r := Z.abs x mod 2 ^ k in
  Z.sgn x * ((if 2 * r <? 2 ^ k then q else if 2 ^ k <? 2 * r then q + 1 else q + q mod 2) * 2 ^ k).

(** [|x|] lies above the middle of two neighbouring floats, the lower of which is
    even, by less than the last place of a double. *)
Definition just_above_tie (x : Z) : Prop :=
  exists q k e, 2 ^ 23 <= q < 2 ^ 24 /\ q mod 2 = 0 /\ 29 < k /\ 0 < e < 2 ^ (k - 29) /\
    Z.abs x = q * 2 ^ k + 2 ^ (k - 1) + e.
