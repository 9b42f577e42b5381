(** Property theorems: log in binary64 arithmetic. Like those of PropLog.v they rest on the
    axioms of the standard library's real numbers. *)
From Coq Require Import ZArith Reals Lra.
From Verif Require Import Machine Spec SpecApi SpecDouble BigInt SpecLog BigIntLog LogReal SpecLogDouble BigIntLogDouble
  LogDoubleFacts PowLaws PyLog PyLogFacts Examples.
Open Scope R_scope.

(** C63. log(v, base) for every value and every double as base, with every operation rounded
    and std::log any function that is accurate to one ulp: it always returns; the special
    values are as listed by log_meaning; otherwise the relative error is at most 2^-48. *)
Theorem C63_log : forall logf c b x n base,
  libm_log logf -> represents b x -> limb_count x n -> (n <= 2 ^ 57)%Z -> dbl_pattern base ->
  exists r, bi_log_double logf c b base = Ret r /\ log_meaning x base r.
Proof. exact log_total. Qed.
Print Assumptions C63_log.
(** log(v) is the natural logarithm up to 2^-47, log10(v) the decimal one up to 2^-48. *)
Theorem C63_ln : forall logf c b x n,
  libm_log logf -> represents b x -> (1 <= x)%Z -> limb_count x n -> (n <= 2 ^ 57)%Z ->
  exists r, bi_ln_double logf c b = Ret r /\ is_finite r = true /\
    Rabs (B2R r - ln (IZR x)) <= / 2 ^ 47 * Rabs (ln (IZR x)).
Proof. exact ln_accurate. Qed.
Print Assumptions C63_ln.
Theorem C63_log10 : forall logf c b x n,
  libm_log logf -> represents b x -> (1 <= x)%Z -> limb_count x n -> (n <= 2 ^ 57)%Z ->
  exists r, bi_log10_double logf c b = Ret r /\ is_finite r = true /\
    Rabs (B2R r - ln (IZR x) / ln 10) <= / 2 ^ 48 * Rabs (ln (IZR x) / ln 10).
Proof. exact log10_accurate. Qed.
Print Assumptions C63_log10.
(** The Python functions on an int: the same, but for the ints BigInteger(int) is
    undefined on (C35). *)
Theorem C63_py_log : forall logf c z v n base,
  libm_log logf -> (z = true -> v = 0%Z) -> strict c = false \/ (0 <= v)%Z \/ (v < - 2 ^ 31)%Z ->
  limb_count v n -> (n <= 2 ^ 57)%Z -> dbl_pattern base ->
  exists r, py_log_int logf c z v base = Ret r /\ log_meaning v base r.
Proof. exact py_log_total. Qed.
Print Assumptions C63_py_log.
Theorem C63_py_log_strict : forall logf c v base,
  strict c = true -> (- 2 ^ 31 <= v < 0)%Z -> v <> (- 2 ^ 24)%Z -> py_log_int logf c false v base = Undef ShiftNegative.
Proof. exact py_log_strict. Qed.
Print Assumptions C63_py_log_strict.
Theorem C63_py_ln : forall logf c v n,
  libm_log logf -> (1 <= v)%Z -> limb_count v n -> (n <= 2 ^ 57)%Z ->
  exists r, py_ln_int logf c false v = Ret r /\ is_finite r = true /\
    Rabs (B2R r - ln (IZR v)) <= / 2 ^ 47 * Rabs (ln (IZR v)).
Proof. exact py_ln_accurate. Qed.
Print Assumptions C63_py_ln.
Theorem C63_py_log10 : forall logf c v n,
  libm_log logf -> (1 <= v)%Z -> limb_count v n -> (n <= 2 ^ 57)%Z ->
  exists r, py_log10_int logf c false v = Ret r /\ is_finite r = true /\
    Rabs (B2R r - ln (IZR v) / ln 10) <= / 2 ^ 48 * Rabs (ln (IZR v) / ln 10).
Proof. exact py_log10_accurate. Qed.
Print Assumptions C63_py_log10.
(** There is such a std::log: the correctly rounded one. And 2^96 + 7 to the base 10. *)
Example C63_case :
  libm_log round_log /\ represents (Big 1 [7; 0; 0; 1]%Z) (2 ^ 96 + 7) /\ limb_count (2 ^ 96 + 7) 4 /\
  dbl_pattern DBL_TEN /\ dbl_finite DBL_TEN /\ 0 < dbl_real DBL_TEN /\ dbl_real DBL_TEN <> 1.
Proof.
  split; [exact libm_log_exists|].
  split; [repr|]. split; [apply limb_count_compute; vm_compute; reflexivity|].
  split; [split; [discriminate|reflexivity]|]. split; [discriminate|].
  rewrite ten_real. split; lra.
Qed.
