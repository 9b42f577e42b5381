(** Specification vocabulary: what the expressions of BigIntLog.v mean over the
    real numbers. *)
From Coq Require Import ZArith Reals.
From Verif Require Import SpecDouble BigIntLog.
Open Scope R_scope.

(** The real number a finite double denotes. *)
Definition dbl_real (d : Z) : R := IZR (dbl_signed d (dbl_significand d)) * powerRZ 2 (dbl_scale d).

(** The exact value of the expression, without any rounding. NaN and special
    doubles have none. *)
Inductive log_value : log_expr -> R -> Prop :=
| VRatio a base : log_value (LRatio a base) (ln (IZR a) / ln (dbl_real base))
| VShifted e v n base : log_value e v ->
    log_value (LShifted e n base) (v + IZR n / (ln (dbl_real base) / ln 2)).
