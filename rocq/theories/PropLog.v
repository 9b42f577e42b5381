(** Property theorems: log over the real numbers. Unlike the other files this
    one rests on axioms: those of the standard library's real numbers. *)
From Coq Require Import ZArith Reals Lra.
From Verif Require Import Machine Spec SpecApi SpecDouble BigInt SpecLog BigIntLog LogReal PowLaws Examples.
Open Scope R_scope.

(** C38. The expression log(v, base) evaluates is, without rounding, within
    2^-62 / |ln base| of the logarithm of v to that base. The rounding of the
    double operations and the accuracy of std::log are not modelled. *)
Theorem C38_log_real : forall c b x n base,
  represents b x -> (1 <= x)%Z -> limb_count x n -> (n <= 2 ^ 57)%Z ->
  dbl_pattern base -> dbl_finite base -> 0 < dbl_real base -> dbl_real base <> 1 ->
  exists e v, bi_log c b base = Ret e /\ log_value e v /\
    Rabs (v - ln (IZR x) / ln (dbl_real base)) <= / 2 ^ 62 / Rabs (ln (dbl_real base)).
Proof. exact log_real. Qed.
Print Assumptions C38_log_real.
(** log(v) is log(v, d) for the double d nearest to e, log10(v) for d = 10. *)
Theorem C38_log_bases :
  (exists d, dbl_pattern d /\ dbl_finite d /\ Rabs (dbl_real d - exp 1) <= / 2 ^ 52 /\ forall c v, bi_ln c v = bi_log c v d) /\
  (exists d, dbl_pattern d /\ dbl_finite d /\ dbl_real d = 10 /\ forall c v, bi_log10 c v = bi_log c v d).
Proof. exact log_bases. Qed.
Print Assumptions C38_log_bases.
(** 2^96 + 7 to the base 10. *)
Example C38_log_real_case :
  represents (Big 1 [7; 0; 0; 1]%Z) (2 ^ 96 + 7) /\ limb_count (2 ^ 96 + 7) 4 /\
  dbl_pattern DBL_TEN /\ dbl_finite DBL_TEN /\ 0 < dbl_real DBL_TEN /\ dbl_real DBL_TEN <> 1.
Proof.
  split; [repr|]. split; [apply limb_count_compute; vm_compute; reflexivity|].
  split; [split; [discriminate|reflexivity]|]. split; [discriminate|].
  rewrite ten_real. split; lra.
Qed.
