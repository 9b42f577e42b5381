(** Specification vocabulary: IEEE 754 binary64 bit patterns. *)
From Coq Require Import ZArith.
Open Scope Z_scope.

Definition dbl_pattern (d : Z) : Prop := 0 <= d < 2 ^ 64.

(** The three fields of a pattern. *)
Definition dbl_negative (d : Z) : bool := 2 ^ 63 <=? d.
Definition dbl_exp (d : Z) : Z := (d / 2 ^ 52) mod 2 ^ 11.
Definition dbl_frac (d : Z) : Z := d mod 2 ^ 52.

(** Neither NaN nor infinite. *)
Definition dbl_finite (d : Z) : Prop := dbl_exp d <> 2047.

Definition plus_infinity : Z := 2047 * 2 ^ 52.
Definition minus_infinity : Z := 2 ^ 63 + 2047 * 2 ^ 52.

(** A finite pattern denotes +- significand * 2^scale. *)
Definition dbl_significand (d : Z) : Z := if dbl_exp d =? 0 then dbl_frac d else 2 ^ 52 + dbl_frac d.
Definition dbl_scale (d : Z) : Z := (if dbl_exp d =? 0 then 1 else dbl_exp d) - 1075.
Definition dbl_signed (d z : Z) : Z := if dbl_negative d then - z else z.

(** That number truncated towards zero. *)
Definition dbl_trunc (d : Z) : Z :=
  dbl_signed d (if 0 <=? dbl_scale d then dbl_significand d * 2 ^ dbl_scale d
                else dbl_significand d / 2 ^ (- dbl_scale d)).

(** That number is the integer [z]. *)
Definition dbl_exact (d z : Z) : Prop :=
  dbl_pattern d /\ dbl_finite d /\
  dbl_signed d (dbl_significand d) * 2 ^ Z.max 0 (dbl_scale d) = z * 2 ^ Z.max 0 (- dbl_scale d).

(** [x] truncated towards zero to 53 significant bits. *)
Definition trunc53 (x : Z) : Z :=
  let k := Z.max 0 (Z.log2 (Z.abs x) - 52) in Z.quot x (2 ^ k) * 2 ^ k.

(** Usable as a base of logarithms: finite, not zero, not 1. *)
Definition dbl_regular_base (d : Z) : Prop :=
  dbl_pattern d /\ dbl_finite d /\ dbl_significand d <> 0 /\ d <> 1023 * 2 ^ 52.
