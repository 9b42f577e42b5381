(** Model of the logarithms of the project's tests: the operators uLog, uLog10 and
    bLog of the two calculators (tests/MyBigInt.cpp, tests/stack_calc.cpp) and the
    checks of tests/log.cpp. Doubles and std::log as in BigIntLogDouble.v. *)
From Coq Require Import String.
From Verif Require Import Machine BigInt BigIntDouble BigIntLog BigIntLogDouble.

(** The bit pattern of a double. *)
Definition double_bits (d : double) : Z :=
  match d with
  | B754_zero s => if s then DBL_SIGN else 0
  | B754_infinity s => (if s then DBL_SIGN else 0) + DBL_EXP_MASK
  | B754_nan => DBL_EXP_MASK + 1
  | B754_finite s m e _ =>
      (if s then DBL_SIGN else 0) +
      (if Zpos m <? 2 ^ 52 then Zpos m else (e + 1075) * 2 ^ 52 + (Zpos m - 2 ^ 52))
  end.

(** std::ceil, std::floor, std::abs *)
Definition d_ceil (x : double) : double := @Bnearbyint 53 1024 prec53_lt mode_UP x.
Definition d_floor (x : double) : double := @Bnearbyint 53 1024 prec53_lt mode_DN x.
Definition d_abs (x : double) : double := Babs x.
Definition d_mul (x y : double) : double := @Bmult 53 1024 prec53 prec53_lt mode_NE x y.
Definition d_sub (x y : double) : double := @Bminus 53 1024 prec53 prec53_lt mode_NE x y.

(** static_cast<int>(double). [cast]: the conversion of a NaN, an infinity or a
    number whose integer part is not an int, which is undefined. *)
Definition double_to_int (cast : double -> outcome Z) (x : double) : outcome Z :=
  if is_finite x then
    let n := Btrunc x in
    if (INT_MIN <=? n) && (n <=? INT_MAX) then Ret n else cast x
  else cast x.

(** NumericsHelpers::csharp_log_wrapper: NumericsHelpers.h:134-152 *)
Definition csharp_log (logf : double -> double) (a newBase : double) : double :=
  if is_nan a then a
  else if is_nan newBase then newBase
  else if Beqb newBase (int_double 1) then B754_nan
  else if negb (Beqb a (int_double 1)) &&
          (Beqb newBase (int_double 0) || negb (is_finite newBase)) then B754_nan
  else d_div (logf a) (logf newBase).

Section Logs.
  (** [logf], [log10f]: std::log and std::log10 of double. *)
  Context (logf log10f : double -> double) (cast : double -> outcome Z) (c : cfg).

  (** MyBigIntImp::ApproximateBigInteger and round_up: MyBigInt.cpp:569-615. With no
      decimal places the factor of round_up is 1. *)
  Definition approximate (value : double) : outcome bigint :=
    match value with
    | B754_nan => bi_of_int32 c (-101)
    | B754_infinity true => bi_of_int32 c (-102)
    | B754_infinity false => bi_of_int32 c (-103)
    | _ =>
        result <- bi_of_double c (double_bits (d_ceil value)) ;;
        zero <- bi_zero c ;;
        other <- bi_ne c result zero ;;
        if other : bool then
          let value := if Bltb (int_double 0) value then value else Bopp value in
          size <- double_to_int cast (d_floor (log10f value)) ;;
          if 17 <? size then
            ten <- bi_of_int32 c 10 ;;
            e <- chk32 c (size - 17) ;;
            p <- bi_pow c ten e ;;
            r <- bi_rem c result p ;;
            bi_sub c result r
          else Ret result
        else Ret result
    end.

  (** StackCalc::DoUnaryOperatorSN, uLog10 and uLog: stack_calc.cpp:186-189 *)
  Definition sn_log1 (op : string) (num1 : bigint) : outcome bigint :=
    v <- (if (op =? "uLog10")%string then bi_log10_double logf c num1 else bi_ln_double logf c num1) ;;
    approximate v.

  (** StackCalc::DoBinaryOperatorSN, bLog: stack_calc.cpp:157-158 *)
  Definition sn_log2 (op : string) (num1 num2 : bigint) : outcome bigint :=
    base <- bi_to_double c num2 ;;
    v <- bi_log_double logf c num1 base ;;
    approximate v.

  (** The loop [num1 = num1 / b10]: MyBigInt.cpp:42-46, 60-64 *)
  Definition shrink (n : nat) (num1 : bigint) : outcome bigint :=
    b10 <- bi_of_int32 c 10 ;;
    for_up n 0 (fun _ num1 => bi_div c num1 b10) num1.

  (** The loop [result = result + step]: MyBigInt.cpp:51-54, 69-72 *)
  Fixpoint add_up (n : nat) (step result : double) : double :=
    match n with
    | O => result
    | S n => add_up n step (d_add result step)
    end.

  (** MyBigIntImp::DoUnaryOperatorMine, uLog10 and uLog: MyBigInt.cpp:38-75 *)
  Definition mine_log1 (op : string) (num1 : bigint) : outcome bigint :=
    l <- bi_log_double logf c num1 DBL_TEN ;;
    factor <- double_to_int cast l ;;
    let n := if 100 <? factor then Z.to_nat (factor - 100) else O in
    num1 <- shrink n num1 ;;
    d <- bi_to_double c num1 ;;
    let value := bits_double d in
    approximate
      (if (op =? "uLog10")%string then add_up n (int_double 1) (csharp_log logf value (int_double 10))
       else add_up n (logf (int_double 10)) (logf value)).

  (** MyBigIntImp::DoBinaryOperatorMine, bLog: MyBigInt.cpp:131-132 *)
  Definition mine_log2 (op : string) (num1 num2 : bigint) : outcome bigint :=
    d1 <- bi_to_double c num1 ;;
    d2 <- bi_to_double c num2 ;;
    approximate (csharp_log logf (bits_double d1) (bits_double d2)).
End Logs.

Definition DBL_TWO := 4611686018427387904.  (* 2.0 *)

(** ApproxEqual: log.cpp:54-71. [tolerance]: the value of 1 * std::pow(10, -15). *)
Definition approx_equal (tolerance value1 value2 : double) : bool :=
  match value1 with
  | B754_nan => is_nan value2
  | B754_infinity s => match value2 with B754_infinity s' => Bool.eqb s s' | _ => false end
  | _ =>
      if Beqb value2 (int_double 0) then Beqb value1 (int_double 0)
      else Bleb (d_abs (d_sub (d_div value1 value2) (int_double 1))) tolerance
  end.

(** LargeValueLogTests: log.cpp:88-105. [Ret true]: every check holds; a failed one
    ends the function. The products of an int and a double, and their sum, are
    rounded as the code does it. *)
Definition large_value_log_tests (logf : double -> double) (tolerance : double) (c : cfg)
    (startShift bigShiftLoopLimit smallShift smallShiftLoopLimit : Z) : outcome bool :=
  one <- bi_one c ;;
  init <- bi_shl c one startShift ;;
  for_up (Z.to_nat smallShiftLoopLimit) 0 (fun i ok =>
    if ok : bool then
      i1 <- chk32 c (Z.of_nat i + 1) ;;
      s <- chk32 c (i1 * smallShift) ;;
      temp <- bi_shl c init s ;;
      '(_, ok) <- for_up (Z.to_nat bigShiftLoopLimit) 0 (fun j '(temp, ok) =>
        if ok : bool then
          temp <- bi_shl c temp (INT_MAX / 10) ;;
          j1 <- chk32 c (Z.of_nat j + 1) ;;
          let expected := d_add (d_add (int_double startShift) (d_mul (int_double smallShift) (int_double i1)))
                                (d_mul (int_double (INT_MAX / 10)) (int_double j1)) in
          v <- bi_log_double logf c temp DBL_TWO ;;
          Ret (temp, approx_equal tolerance v expected)
        else Ret (temp, false)) (temp, true) ;;
      Ret ok
    else Ret false) true.
