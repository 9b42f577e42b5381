(** Property theorems: the public tests on doubles, and log on LLP64. *)
From Coq Require Import ZArith.
From Verif Require Import Machine Spec SpecApi SpecDouble BigInt BigIntDouble WinBigInt SpecLogDouble BigIntLogDouble
  LogDoubleFacts WinLog WinLogFacts PyRun PyClass SpecPyClass PyClassLog SpecPyLog PyClassLogFacts Examples.
Import List.ListNotations.
Open Scope Z_scope.

(** C68. double_IsFinite, double_IsNaN and double_IsInfinity decide the class of a double. *)
Theorem C68_is_finite : forall d, dbl_pattern d -> double_is_finite d = true <-> dbl_finite d.
Proof. exact is_finite_spec. Qed.
Print Assumptions C68_is_finite.
Theorem C68_is_nan : forall d, dbl_pattern d -> double_is_nan d = true <-> dbl_exp d = 2047 /\ dbl_frac d <> 0.
Proof. exact is_nan_spec. Qed.
Print Assumptions C68_is_nan.
Theorem C68_is_infinity : forall d, dbl_pattern d -> double_is_infinity d = true <-> d = plus_infinity \/ d = minus_infinity.
Proof. exact is_infinity_spec. Qed.
Print Assumptions C68_is_infinity.
(** Not on LLP64: each looks at bit 31 of the pattern only, so every infinity is called finite,
    some finite doubles NaN, and nothing infinite. *)
Theorem C68_win_refuted : forall d,
  double_is_finite_w d = (d mod 2 ^ 32 <? 2 ^ 31) /\ double_is_nan_w d = negb (d mod 2 ^ 32 <? 2 ^ 31) /\
  double_is_infinity_w d = false.
Proof. exact classes_win. Qed.
Print Assumptions C68_win_refuted.
(** 0.1 is finite and is called NaN there; infinity is called finite. *)
Example C68_case :
  dbl_pattern 4591870180066957722 /\ dbl_finite 4591870180066957722 /\ double_is_nan_w 4591870180066957722 = true /\
  dbl_pattern plus_infinity /\ double_is_finite_w plus_infinity = true.
Proof. repeat split; vm_compute; congruence. Qed.

(** log on LLP64. It asks double_IsInfinity about minus infinity only, where the quotient is NaN
    all the same: the double returned is that of the LP64 build (C63), for every std::log as there. *)
Theorem C68_win_log : forall logf c b base, libm_log logf -> dbl_pattern base ->
  bi_log_double_w logf c b base = bi_log_double logf c b base.
Proof. exact log_win. Qed.
Print Assumptions C68_win_log.
Theorem C68_win_log_meaning : forall logf c b x n base,
  libm_log logf -> represents b x -> limb_count x n -> n <= 2 ^ 57 -> dbl_pattern base ->
  exists r, bi_log_double_w logf c b base = Ret r /\ log_meaning x base r.
Proof. exact log_win_meaning. Qed.
Print Assumptions C68_win_log_meaning.
Theorem C68_win_ln : forall logf c b, libm_log logf ->
  bi_ln_double_w logf c b = bi_ln_double logf c b /\ bi_log10_double_w logf c b = bi_log10_double logf c b.
Proof. exact ln_win. Qed.
Print Assumptions C68_win_ln.
(** There is such a std::log, and minus infinity is a base the two readings treat differently on the way. *)
Example C68_log_case :
  libm_log round_log /\ dbl_pattern minus_infinity /\
  BigIntLog.log_wrapper 5 minus_infinity = BigIntLog.LNaN /\
  log_wrapper_w 5 minus_infinity = BigIntLog.LRatio 5 minus_infinity.
Proof.
  split; [exact libm_log_exists|]. split; [split; [discriminate|reflexivity]|]. split; reflexivity.
Qed.

(** C70. BigInteger.log(x, y) called from Python with objects of any type: x a BigInteger, an
    int or a bool; y a float or one of these, rounded to a double. Otherwise TypeError, which
    includes a y of 2^1024 - 2^970 or more. One argument means base e, and log10 base 10. *)
Theorem C70_py_log : forall d logf c x y v w,
  libm_log logf -> is_value x v -> is_value y w -> float_ok w ->
  match log_operand v, float_of w with
  | Some z, Some base =>
      operand_defined c v z -> forall n, limb_count z n -> n <= 2 ^ 57 ->
      exists r, log_call d logf c false [x; y] = Some (Ret r) /\ log_meaning z base r
  | _, _ => log_call d logf c false [x; y] = None
  end.
Proof. exact log_call_total. Qed.
Print Assumptions C70_py_log.
Theorem C70_py_log_one : forall d logf c x,
  log_call d logf c false [x] = log_call d logf c false [x; PNative (NFloat 4613303445314885481)] /\
  log_call d logf c true [x] = log_call d logf c false [x; PNative (NFloat 4621819117588971520)].
Proof. exact log_one. Qed.
Print Assumptions C70_py_log_one.
(** log(2^40, 2) with an int base, log(True, BigInteger(10)); None is no base. *)
Example C70_case :
  libm_log round_log /\ is_value (PBig (Big 1 [0; 256])) (IsBig (2 ^ 40)) /\ log_operand (IsBig (2 ^ 40)) = Some (2 ^ 40) /\
  float_of (IsNative (NInt 2)) = Some 4611686018427387904 /\ log_operand (IsNative (NBool true)) = Some 1 /\
  float_of (IsBig 10) = Some 4621819117588971520 /\ float_of (IsNative NNone) = None.
Proof.
  split; [exact libm_log_exists|]. split; [cbn; repr|]. repeat split; reflexivity.
Qed.
