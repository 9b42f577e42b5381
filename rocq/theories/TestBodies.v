(** Model of the bodies of the project's randomised tests: which texts they pass to
    the calculators, with which random operands, and what they expect. *)
From Coq Require Import String.
From Verif Require Import Machine BigInt TestOracle TestCalc TestRandom TestNumbers.
Open Scope string_scope.
Open Scope list_scope.
Open Scope Z_scope.

(** The checks of a test one after the other. A failed check does not end the test, an
    exception does. [Ret true]: all checks passed. *)
Fixpoint all_pass (checks : list (outcome bool)) : outcome bool :=
  match checks with
  | [] => Ret true
  | p :: checks => a <- p ;; b <- all_pass checks ;; Ret (a && b)
  end.
(** for (int i = 0; i < s_samples; i++), s_samples being 10, around checks that do not
    change s_random. *)
Definition samples (checks : list (outcome bool)) : outcome bool := all_pass (repeat (all_pass checks) 10).

(** EXPECT_THROW(p, DivideByZero) and EXPECT_THROW(p, std::out_of_range). The messages that
    EXPECT_THROW_WITH_MESSAGE (utils.h:17-25) compares are not modelled. *)
Definition expect_divide_by_zero (p : outcome bool) : outcome bool :=
  match p with Ret _ => Ret false | Throw DivideByZero => Ret true | Throw _ => Ret false | o => o end.
Definition expect_out_of_range (p : outcome bool) : outcome bool :=
  match p with Ret _ => Ret false | Throw OutOfRange => Ret true | Throw _ => Ret false | o => o end.
(** try p catch (...) with a handler that prints: op_multiply.cpp:83-98 *)
Definition swallow (p : outcome bool) : outcome bool := match p with Throw _ => Ret true | o => o end.

(** std::to_string of the limits of int32_t and int64_t. *)
Definition int32_min : string := "-2147483648".
Definition int32_max : string := "2147483647".
Definition int64_min : string := "-9223372036854775808".
Definition int64_max : string := "9223372036854775807".

(** randBigInt.substr(0, randBigInt.size() - 1) *)
Definition but_last (s : string) : string := String.substring 0 (String.length s - 1) s.

Section Bodies.
  (** [draw] and [copied] as in TestRandom.v; [run]: the Verify...String function of
      the file; [ident]: its VerifyIdentityString. *)
  Context {E : Type} (draw : E -> Z -> Z -> Z * E) (copied : bool)
          (run : string -> outcome bool) (ident : string -> string -> outcome bool).

  (** GetRandomByteArray(random) of the files that use MyBigIntImp::GetRandomByteArray:
      op_and.cpp:21-24 and the same in others, with other bounds. *)
  Definition any_bytes (lo hi : Z) (e : E) : list Z :=
    let (size, e') := draw e lo hi in get_random_bytes draw (Z.to_nat size) (if copied then e else e').

  (** ** Unary operators: absolutevalue.cpp:22-88, op_not.cpp:33-101, op_increment.cpp:33-101,
      op_decrement.cpp:33-101, sign.cpp:49-117, log02.cpp:26-92, log10.cpp:26-92. [lo]: the smallest size, 1 in absolutevalue.cpp. *)
  Definition unary_test (lo : Z) (op : string) (s_random : E) : outcome bool :=
    all_pass
      ([samples [run (print_bytes (any_bytes lo 1024 s_random) ++ op)%string];
        samples [run (print_bytes (get_random_bytes draw 2 s_random) ++ op)%string]] ++
       map (fun t => run (t ++ op)%string)
         ["0 "; "-1 "; "1 ";
          int32_min ++ " "; int32_min ++ " -1 b+ "; int32_min ++ " 1 b+ ";
          int32_max ++ " "; int32_max ++ " -1 b+ "; int32_max ++ " 1 b+ ";
          int64_min ++ " "; int64_min ++ " -1 b+ "; int64_min ++ " 1 b+ ";
          int64_max ++ " "; int64_max ++ " -1 b+ "; int64_max ++ " 1 b+ "]%string).

  (** Print(a) + Print(b) + op *)
  Definition two (op : string) (a b : list Z) : outcome bool := run (print_bytes a ++ print_bytes b ++ op)%string.

  (** ** &, |, ^, min and max: op_and.cpp:46-143, op_or.cpp:32-138, op_xor.cpp:33-139,
      min.cpp:32-140, max.cpp:32-140. [hi]: the largest size; [small1]: the size of the first
      of two small operands, 5 in op_xor.cpp; [k]: the last constant. *)
  Definition binary_test (hi : Z) (small1 : nat) (k : list Z) (op : string) (s_random : E) : outcome bool :=
    let large := any_bytes 0 hi s_random in
    let small := get_random_bytes draw 2 s_random in
    let with_constant v := [samples [two op large v; two op v large]; samples [two op small v; two op v small]] in
    all_pass
      ([samples [two op large large];
        samples [two op (get_random_bytes draw small1 s_random) small];
        samples [two op large small; two op small large]] ++
       with_constant [0] ++ with_constant [255] ++ with_constant k).
  (** op_and.cpp:33-144: a literal case first *)
  Definition and_test (s_random : E) : outcome bool :=
    all_pass [two "b&" [8; 24; 67; 103; 87] [8; 24]; binary_test 1024 2 [0; 0; 0; 128; 0] "b&" s_random].

  (** ** Products *)

  (** multiply.cpp:43-61, RunMultiply_TwoLargeBigIntegers *)
  Definition multiply_two_large (s_random : E) : outcome bool :=
    let large := any_bytes 1 100 s_random in
    all_pass [samples [run (print_bytes large ++ "uMultiply")%string]; samples [two "bMultiply" large large]].
  (** multiply.cpp:63-75, RunMultiply_TwoSmallBigIntegers *)
  Definition multiply_two_small (s_random : E) : outcome bool :=
    let small := get_random_bytes draw 2 s_random in samples [two "bMultiply" small small].
  (** multiply.cpp:77-100, RunMultiply_OneLargeOneSmall. The handler throws again. *)
  Definition multiply_large_small (s_random : E) : outcome bool :=
    let large := any_bytes 1 100 s_random in
    let small := get_random_bytes draw 2 s_random in
    samples [two "bMultiply" large small; two "bMultiply" small large].
  (** multiply.cpp:102-118, RunMultiply_OneLargeOneZero *)
  Definition multiply_large_zero (s_random : E) : outcome bool :=
    let large := any_bytes 1 100 s_random in
    samples [two "bMultiply" large [0]; two "bMultiply" [0] large].
  (** multiply.cpp:120-136, RunMultiply_OneSmallOneZero *)
  Definition multiply_small_zero (s_random : E) : outcome bool :=
    let small := get_random_bytes draw 2 s_random in
    samples [two "bMultiply" small [0]; two "bMultiply" [0] small].
  (** multiply.cpp:139-157, RunMultiply_AxiomXX1; one().to_string() is "1". long has 64 bits. *)
  Definition multiply_axiom_one (s_random : E) : outcome bool :=
    let randBigInt := print_bytes (any_bytes 1 100 s_random) in
    all_pass [ident (int32_max ++ " " ++ "1" ++ " bMultiply")%string int32_max;
              ident (int64_max ++ " " ++ "1" ++ " bMultiply")%string int64_max;
              samples [ident (randBigInt ++ "1" ++ " bMultiply")%string (randBigInt ++ "u+")%string]].
  (** multiply.cpp:159-178, RunMultiply_AxiomXX0 *)
  Definition multiply_axiom_zero (s_random : E) : outcome bool :=
    let randBigInt := print_bytes (any_bytes 1 100 s_random) in
    all_pass [ident (int32_max ++ " " ++ "0" ++ " bMultiply")%string "0";
              ident (int64_max ++ " " ++ "0" ++ " bMultiply")%string "0";
              samples [ident (randBigInt ++ "0" ++ " bMultiply")%string "0"]].
  (** multiply.cpp:180-198, RunMultiply_Commutat *)
  Definition multiply_axiom_comm (s_random : E) : outcome bool :=
    let randBigInt1 := print_bytes (any_bytes 1 100 s_random) in
    let randBigInt2 := print_bytes (any_bytes 1 100 s_random) in
    all_pass [ident (int32_max ++ " " ++ int64_max ++ " bMultiply")%string (int64_max ++ " " ++ int32_max ++ " bMultiply")%string;
              samples [ident (randBigInt1 ++ randBigInt2 ++ "bMultiply")%string (randBigInt2 ++ randBigInt1 ++ "bMultiply")%string]].

  (** op_multiply.cpp:50-100, op_multiply_RunMultiplyPositive *)
  Definition op_multiply_positive (s_random : E) : outcome bool :=
    let large := any_bytes 0 100 s_random in
    let small := get_random_bytes draw 2 s_random in
    all_pass [samples [run (print_bytes large ++ "u*")%string];
              samples [two "b*" large large];
              samples [two "b*" small small];
              samples [swallow (all_pass [two "b*" large small; two "b*" small large])]].
  (** op_multiply.cpp:102-132, op_multiply_RunMultiplyPositiveWith0 *)
  Definition op_multiply_zero (s_random : E) : outcome bool :=
    let large := any_bytes 0 100 s_random in
    let small := get_random_bytes draw 2 s_random in
    all_pass [samples [two "b*" large [0]; two "b*" [0] large]; samples [two "b*" small [0]; two "b*" [0] small]].
  (** op_multiply.cpp:134-152, op_multiply_RunMultiplyAxiomXmult1 *)
  Definition op_multiply_axiom_one (s_random : E) : outcome bool :=
    let randBigInt := print_bytes (any_bytes 0 100 s_random) in
    all_pass [ident (int32_max ++ " " ++ "1" ++ " b*")%string int32_max;
              ident (int64_max ++ " " ++ "1" ++ " b*")%string int64_max;
              samples [ident (randBigInt ++ "1" ++ " b*")%string (randBigInt ++ "u+")%string]].
  (** op_multiply.cpp:154-172, op_multiply_RunMultiplyAxiomXmult0 *)
  Definition op_multiply_axiom_zero (s_random : E) : outcome bool :=
    let randBigInt := print_bytes (any_bytes 0 100 s_random) in
    all_pass [ident (int32_max ++ " " ++ "0" ++ " b*")%string "0";
              ident (int64_max ++ " " ++ "0" ++ " b*")%string "0";
              samples [ident (randBigInt ++ "0" ++ " b*")%string "0"]].

  (** ** The boundary tests: std::to_string(pow(2, 32)) has six decimals. multiply.cpp:200-208,
      op_multiply.cpp:174-182 and 184-192, divide.cpp:154-162, divrem.cpp:119-127,
      op_divide.cpp:134-148, remainder.cpp:114-122, op_modulus.cpp:108-116. *)
  Definition boundary_test (op : string) : outcome bool :=
    all_pass [run ("4294967296.000000" ++ " 2 " ++ op)%string; run ("8589934592.000000" ++ " 2 " ++ op)%string].

  (** ** Quotients and remainders. [large] and [small]: what GetRandomByteArray(s_random) and
      GetRandomByteArray(s_random, 2) return. *)
  Section Division.
    Context (op : string) (large small : list Z).
    (** divide.cpp:43-55, divrem.cpp:36-49, op_divide.cpp:59-64, remainder.cpp:58-63, op_modulus.cpp:57-61 *)
    Definition two_large : outcome bool := samples [two op large large].
    (** divide.cpp:57-69, divrem.cpp:51-64, op_divide.cpp:67-72, remainder.cpp:66-71, op_modulus.cpp:64-68 *)
    Definition two_small : outcome bool := samples [two op small small].
    (** divide.cpp:71-87, divrem.cpp:66-83, op_divide.cpp:75-84, remainder.cpp:74-83, op_modulus.cpp:71-79 *)
    Definition large_and_small : outcome bool := samples [two op large small; two op small large].
    (** divide.cpp:89-103, divrem.cpp:85-100, op_divide.cpp:95-102, remainder.cpp:94-101, op_modulus.cpp:90-96 *)
    Definition large_and_zero : outcome bool := samples [two op large [0]; expect_divide_by_zero (two op [0] large)].
    (** divide.cpp:105-119, divrem.cpp:102-117, op_divide.cpp:105-112, remainder.cpp:104-111, op_modulus.cpp:99-105 *)
    Definition small_and_zero : outcome bool := samples [two op small [0]; expect_divide_by_zero (two op [0] small)].
    (** The first test of op_divide.cpp (51-85), remainder.cpp (50-84) and op_modulus.cpp (49-80) *)
    Definition positive_test : outcome bool := all_pass [two_large; two_small; large_and_small].
    (** The second: op_divide.cpp:87-113, remainder.cpp:86-112, op_modulus.cpp:82-106 *)
    Definition negative_test : outcome bool := all_pass [large_and_zero; small_and_zero].
    (** divide.cpp:121-138, RunDivideOneOverOne, and op_divide.cpp:115-132 *)
    Definition over_one : outcome bool :=
      let randBigInt := print_bytes large in
      all_pass [ident ("1" ++ " " ++ int32_max ++ " " ++ op)%string int32_max;
                ident ("1" ++ " " ++ int64_max ++ " " ++ op)%string int64_max;
                samples [ident ("1" ++ " " ++ randBigInt ++ op)%string (but_last randBigInt)]].
    (** divide.cpp:140-152, RunDivideZeroOverBI; 0 % X, remainder.cpp:140-148 and op_modulus.cpp:171-179 *)
    Definition zero_over : outcome bool :=
      let randBigInt := print_bytes large in
      all_pass [ident (int32_max ++ " " ++ "0" ++ " " ++ op)%string "0";
                ident (int64_max ++ " " ++ "0" ++ " " ++ op)%string "0";
                samples [ident (randBigInt ++ "0" ++ " " ++ op)%string "0"]].
    (** X % 1, remainder.cpp:128-138 and op_modulus.cpp:160-169 *)
    Definition modulo_one : outcome bool :=
      let randBigInt := print_bytes large in
      all_pass [ident ("1" ++ " " ++ int32_max ++ " " ++ op)%string "0";
                ident ("1" ++ " " ++ int64_max ++ " " ++ op)%string "0";
                samples [ident ("1" ++ " " ++ randBigInt ++ op)%string "0"]].
    (** X % X, remainder.cpp:150-158 and op_modulus.cpp:118-133 *)
    Definition modulo_itself : outcome bool :=
      let randBigInt := print_bytes large in
      all_pass [ident (int32_max ++ " " ++ int32_max ++ " " ++ op)%string "0";
                ident (int64_max ++ " " ++ int64_max ++ " " ++ op)%string "0";
                samples [ident (randBigInt ++ randBigInt ++ op)%string "0"]].
    (** X % (X + Y), remainder.cpp:160-174 and op_modulus.cpp:143-157. [next32], [next64]: the
        numbers beside the two maxima, which remainder.cpp adds and op_modulus.cpp makes by
        writing the digit 1 behind. test[test.size() - 1] & 0x80 is read from the array. *)
    Definition modulo_more (next32 next64 : string) : outcome bool :=
      let randBigInt := print_bytes large in
      all_pass [ident (next32 ++ " " ++ int32_max ++ " " ++ op)%string int32_max;
                ident (next64 ++ " " ++ int64_max ++ " " ++ op)%string int64_max;
                samples
                  [t <- rdz large (Z.of_nat (List.length large) - 1) ;;
                   let modify := if negb (Z.land t 128 =? 0) then "-1" else "1" in
                   ident (randBigInt ++ modify ++ " bAdd " ++ randBigInt ++ op)%string (but_last randBigInt)]].
    (** remainder.cpp:124-175, RunRemainderAxioms *)
    Definition remainder_axioms : outcome bool :=
      all_pass [modulo_one; zero_over; modulo_itself; modulo_more "2147483648" "9223372036854775808"].
    (** op_modulus.cpp:135-180, op_modulus_RunRemainderAxiomXY *)
    Definition modulus_axioms : outcome bool :=
      all_pass [modulo_more (int32_max ++ "1") (int64_max ++ "1"); modulo_one; zero_over].
  End Division.
End Bodies.
