(** Model of the stack calculator of the project's tests, tests/stack_calc.cpp,
    and of the loop around it. Every test that calls it compares the library with
    the reference implementation of tests/MyBigInt.cpp. *)
From Coq Require Import String Ascii.
From Verif Require Import Machine BigInt BigIntBytes BigIntText TestOracle.

(** StackCalc: stack_calc.h:17-22, 28-29. The top of a stack is the head of the
    list, the front of the queue likewise. *)
Record calc := Calc {
  snCalc : list bigint; myCalc : list bigint; operators : list string; snOut : bigint; myOut : bigint }.

(** StackCalc::StackCalc: stack_calc.cpp:4-15. The input is cut at every blank. *)
Fixpoint cut_blanks (input token : string) : list string :=
  match input with
  | EmptyString => [token]
  | String ch rest =>
      if Ascii.eqb ch " "%char then token :: cut_blanks rest ""%string
      else cut_blanks rest (token ++ String ch "")%string
  end.
Definition tokens (input : string) : list string := cut_blanks input ""%string.
Definition new_calc (c : cfg) (input : string) : outcome calc :=
  z <- bi_of_int32 c 0 ;;
  Ret (Calc [] [] (tokens input) z z).

(** MyBigIntImp::Print: MyBigInt.cpp:12-18 *)
Definition char_of (b : Z) : ascii := ascii_of_nat (Z.to_nat b).
Definition print_bytes (bytes : list Z) : string :=
  ("make " ++ fold_right (fun b s => String (char_of b) (String " " s)) ""%string bytes ++ "endmake ")%string.

(** top() followed by pop() of a std::stack, undefined on an empty one. *)
Definition pop_top (s : list bigint) : outcome (bigint * list bigint) :=
  match s with x :: s => Ret (x, s) | [] => Undef OutOfBounds end.
(** op[0]; that of an empty string is '\0'. *)
Definition char0 (op : string) : Z :=
  match op with String ch _ => Z.of_nat (nat_of_ascii ch) | EmptyString => 0 end.

(** StackCalc::DoConstruction: stack_calc.cpp:109-123. Returns the bytes and the
    remaining operators. *)
Fixpoint construction_bytes (ops : list string) (bytes : list Z) : outcome (list Z * list string) :=
  match ops with
  | [] => Undef OutOfBounds
  | op :: ops => if (op =? "endmake")%string then Ret (bytes, ops) else construction_bytes ops (bytes ++ [char0 op])%list
  end.
Definition do_construction (c : cfg) (ops : list string) : outcome (bigint * list string) :=
  '(bytes, ops) <- construction_bytes ops [] ;;
  b <- bi_of_bytes c bytes false false ;;
  Ret (b, ops).

(** StackCalc::DoUnaryOperatorSN: stack_calc.cpp:181-209. throw std::exception()
    is written Throw RuntimeError. *)
Definition sn_unary (c : cfg) (lg : string -> bigint -> outcome bigint) (num1 : bigint) (op : string) : outcome bigint :=
  if (op =? "uSign")%string then (s <- bi_sign c num1 ;; bi_of_int32 c s)
  else if (op =? "u~")%string then bi_not c num1
  else if (op =? "uLog10")%string then lg op num1
  else if (op =? "uLog")%string then lg op num1
  else if (op =? "uAbs")%string then bi_abs c num1
  else if (op =? "uNegate")%string then bi_neg c num1
  else if (op =? "u--")%string then bi_dec c num1
  else if (op =? "u++")%string then bi_inc c num1
  else if (op =? "u-")%string then bi_neg c num1
  else if (op =? "u+")%string then bi_pos c num1
  else if (op =? "uMultiply")%string then bi_mul c num1 num1
  else if (op =? "u*")%string then bi_mul c num1 num1
  else Throw RuntimeError.

(** StackCalc::DoBinaryOperatorSN: stack_calc.cpp:131-179. Returns the result and
    num3. std::min(a, b) is b < a ? b : a and std::max(a, b) is a < b ? b : a. *)
Definition sn_binary (fuel : nat) (c : cfg) (lg : string -> bigint -> bigint -> outcome bigint)
    (num1 num2 : bigint) (op : string) : outcome (bigint * bigint) :=
  num3 <- bi_zero c ;;
  if (op =? "bDivRem")%string then bi_div_rem c num1 num2
  else
    r <-
      (if (op =? "bMin")%string then less <- bi_lt c num2 num1 ;; Ret (if less : bool then num2 else num1)
       else if (op =? "bMax")%string then less <- bi_lt c num1 num2 ;; Ret (if less : bool then num2 else num1)
       else if (op =? "b>>")%string then n <- bi_to_int c num2 ;; bi_shr c num1 n
       else if (op =? "b<<")%string then n <- bi_to_int c num2 ;; bi_shl c num1 n
       else if (op =? "b^")%string then bi_xor c num1 num2
       else if (op =? "b|")%string then bi_or c num1 num2
       else if (op =? "b&")%string then bi_and c num1 num2
       else if (op =? "b%")%string then bi_rem c num1 num2
       else if (op =? "b/")%string then bi_div c num1 num2
       else if (op =? "b*")%string then bi_mul c num1 num2
       else if (op =? "b-")%string then bi_sub c num1 num2
       else if (op =? "b+")%string then bi_add c num1 num2
       else if (op =? "bLog")%string then lg op num1 num2
       else if (op =? "bGCD")%string then bi_gcd fuel c num1 num2
       else if (op =? "bPow")%string then arg2 <- bi_to_int c num2 ;; bi_pow c num1 arg2
       else if (op =? "bRemainder")%string then bi_rem c num1 num2
       else if (op =? "bDivide")%string then bi_div c num1 num2
       else if (op =? "bMultiply")%string then bi_mul c num1 num2
       else if (op =? "bSubtract")%string then bi_sub c num1 num2
       else if (op =? "bAdd")%string then bi_add c num1 num2
       else Throw RuntimeError) ;;
    Ret (r, num3).

(** StackCalc::DoTertanaryOperatorSN: stack_calc.cpp:211-217 *)
Definition sn_ternary (c : cfg) (num1 num2 num3 : bigint) (op : string) : outcome bigint :=
  if (op =? "tModPow")%string then bi_mod_pow c num1 num2 num3 else Throw RuntimeError.

(** op.rfind(ch, 0) == 0 *)
Definition begins (ch : ascii) (op : string) : bool :=
  match op with String a _ => Ascii.eqb a ch | EmptyString => false end.

Section Loop.
  (** [fuel] bounds the rounds of greatest_common_divisor; [lg1], [lg2]: the
      logarithms of the two calculators. *)
  Context (fuel : nat) (c : cfg) (sn_lg1 my_lg1 : string -> bigint -> outcome bigint)
          (sn_lg2 my_lg2 : string -> bigint -> bigint -> outcome bigint).

  (** if (checkValues): stack_calc.cpp:100-104 *)
  Definition check_values (diffs : outcome bool) (ops : list string) : outcome (list string) :=
    d <- diffs ;; Ret (if d : bool then ops ++ ["Corruption"%string] else ops)%list.

  (** StackCalc::DoNextOperation: stack_calc.cpp:17-107. [None]: it returned
      false. The comparisons of the operands that were not popped are those of 0
      with 0. *)
  Definition do_next (s : calc) : outcome (option calc) :=
    match operators s with
    | [] => Ret None
    | op :: ops =>
        if begins "u" op then
          '(sn1, sn) <- pop_top (snCalc s) ;;
          r <- sn_unary c sn_lg1 sn1 op ;;
          '(my1, my) <- pop_top (myCalc s) ;;
          m <- mine_unary c my_lg1 my1 op ;;
          ops <- check_values (bi_ne c sn1 my1) ops ;;
          Ret (Some (Calc (r :: sn) (m :: my) ops (snOut s) (myOut s)))
        else if begins "b" op then
          '(sn1, sn) <- pop_top (snCalc s) ;;
          '(sn2, sn) <- pop_top sn ;;
          '(r, so) <- sn_binary fuel c sn_lg2 sn1 sn2 op ;;
          '(my1, my) <- pop_top (myCalc s) ;;
          '(my2, my) <- pop_top my ;;
          '(m, mo) <- mine_binary c my_lg2 my1 my2 op ;;
          ops <- check_values (d <- bi_ne c sn1 my1 ;; if d : bool then Ret true else bi_ne c sn2 my2) ops ;;
          Ret (Some (Calc (r :: sn) (m :: my) ops so mo))
        else if begins "t" op then
          '(sn1, sn) <- pop_top (snCalc s) ;;
          '(sn2, sn) <- pop_top sn ;;
          '(sn3, sn) <- pop_top sn ;;
          r <- sn_ternary c sn1 sn2 sn3 op ;;
          '(my1, my) <- pop_top (myCalc s) ;;
          '(my2, my) <- pop_top my ;;
          '(my3, my) <- pop_top my ;;
          m <- mine_ternary c my1 my2 my3 op ;;
          ops <- check_values
            (d <- bi_ne c sn1 my1 ;; if d : bool then Ret true
             else d <- bi_ne c sn2 my2 ;; if d : bool then Ret true else bi_ne c sn3 my3) ops ;;
          Ret (Some (Calc (r :: sn) (m :: my) ops (snOut s) (myOut s)))
        else if (op =? "make")%string then
          '(b, ops) <- do_construction c ops ;;
          Ret (Some (Calc (b :: snCalc s) (b :: myCalc s) ops (snOut s) (myOut s)))
        else if (op =? "Corruption")%string then
          x <- bi_of_int32 c (-33) ;;
          y <- bi_of_int32 c (-555) ;;
          Ret (Some (Calc (x :: snCalc s) (y :: myCalc s) ops (snOut s) (myOut s)))
        else
          zero <- bi_of_int32 c 0 ;;
          '(ok, b) <- bi_try_parse c op zero ;;
          if ok : bool then Ret (Some (Calc (b :: snCalc s) (b :: myCalc s) ops (snOut s) (myOut s)))
          else Ret (Some (Calc (snCalc s) (myCalc s) ops (snOut s) (myOut s)))
    end.

  (** StackCalc::VerifyOutParameter: stack_calc.cpp:219-223 *)
  Definition verify_out (s : calc) : outcome calc :=
    _ <- (if dbg c then eq <- bi_eq c (snOut s) (myOut s) ;; (if eq : bool then Ret tt else AssertFail) else Ret tt) ;;
    z <- bi_of_int32 c 0 ;;
    Ret (Calc (snCalc s) (myCalc s) (operators s) z z).

  (** The loop of the tests: absolutevalue.cpp:7-12, divide.cpp:8-13 and the
      same in the others; with [outs], divrem.cpp:8-21. [Ret true]: it ended;
      [Ret false]: an ASSERT_EQ failed, which reports a failure and returns. The
      left argument of ASSERT_EQ is evaluated first. [n] bounds the rounds. *)
  Fixpoint verify_loop (n : nat) (outs : bool) (s : calc) : outcome bool :=
    match n with
    | O => NoFuel
    | S n =>
        next <- do_next s ;;
        match next with
        | None => Ret true
        | Some s =>
            '(sn, _) <- pop_top (snCalc s) ;;
            '(my, _) <- pop_top (myCalc s) ;;
            ts <- bi_to_string c sn ;;
            tm <- bi_to_string c my ;;
            if (ts =? tm)%string then
              s <- (if outs then verify_out s else Ret s) ;;
              verify_loop n outs s
            else Ret false
        end
    end.
  (** Every round takes an operator from the queue and puts at most one there,
      and none when it took "Corruption". *)
  Definition verify (outs : bool) (input : string) : outcome bool :=
    s <- new_calc c input ;;
    verify_loop (2 * List.length (operators s) + 1) outs s.

  (** The first two loops of VerifyIdentityString: pow.cpp:21-25, 28-32 and the
      same in the others. Each round takes two operators. *)
  Fixpoint run_loop (n : nat) (s : calc) : outcome calc :=
    match n with
    | O => NoFuel
    | S n =>
        next <- do_next s ;;
        match next with
        | None => Ret s
        | Some s => next <- do_next s ;; match next with None => run_loop n s | Some s => run_loop n s end
        end
    end.
  (** VerifyIdentityString: pow.cpp:18-34, and the same in divide.cpp, gcd.cpp,
      modpow.cpp, multiply.cpp, op_divide.cpp, op_multiply.cpp, remainder.cpp. *)
  Definition verify_identity (opstring1 opstring2 : string) : outcome bool :=
    sc1 <- new_calc c opstring1 ;;
    sc1 <- run_loop (2 * List.length (operators sc1) + 1) sc1 ;;
    sc2 <- new_calc c opstring2 ;;
    sc2 <- run_loop (2 * List.length (operators sc2) + 1) sc2 ;;
    '(top1, _) <- pop_top (snCalc sc1) ;;
    t1 <- bi_to_string c top1 ;;
    '(top2, _) <- pop_top (snCalc sc2) ;;
    t2 <- bi_to_string c top2 ;;
    Ret (t1 =? t2)%string.
  (** VerifyIdentityString of op_modulus.cpp:17-32, where the second calculator
      gets opstring1 as well. *)
  Definition verify_identity_mod (opstring1 opstring2 : string) : outcome bool :=
    sc1 <- new_calc c opstring1 ;;
    sc1 <- run_loop (2 * List.length (operators sc1) + 1) sc1 ;;
    sc2 <- new_calc c opstring1 ;;
    sc2 <- run_loop (2 * List.length (operators sc2) + 1) sc2 ;;
    '(top1, _) <- pop_top (snCalc sc1) ;;
    t1 <- bi_to_string c top1 ;;
    '(top2, _) <- pop_top (snCalc sc2) ;;
    t2 <- bi_to_string c top2 ;;
    Ret (t1 =? t2)%string.
End Loop.
