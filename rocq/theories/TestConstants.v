(** Model of the tests of the constants and of the predicates: tests/properties.cpp,
    tests/IsZero.cpp, tests/IsOne.cpp, tests/IsEven.cpp and tests/IsPowerOfTwo.cpp. *)
From Coq Require Import String.
From Verif Require Import Machine BigInt BigIntText BigIntBytes BigIntDouble TestOracle TestRandom TestNumbers TestBodies.

(** ASSERTs in the body of a test: the first that fails ends the test. *)
Fixpoint in_turn (checks : list (outcome bool)) : outcome bool :=
  match checks with
  | [] => Ret true
  | p :: checks => a <- p ;; if a : bool then in_turn checks else Ret false
  end.

(** ASSERT_EQ(a, b) on BigIntegers, and ASSERT_EQ(t, a.to_string()). In which order
    the two arguments are evaluated makes no difference. *)
Definition same_value (c : cfg) (a b : outcome bigint) : outcome bool :=
  x <- a ;; y <- b ;; bi_eq c x y.
Definition same_string (c : cfg) (t : string) (a : outcome bigint) : outcome bool :=
  x <- a ;; s <- bi_to_string c x ;; Ret (t =? s)%string.
(** An operator between two expressions. *)
Definition both (f : bigint -> bigint -> outcome bigint) (a b : outcome bigint) : outcome bigint :=
  x <- a ;; y <- b ;; f x y.

Section Properties.
  (** [draw], [copied]: as in TestRandom.v and TestBodies.v. *)
  Context {E : Type} (draw : E -> Z -> Z -> Z * E) (copied : bool) (c : cfg).

  (** RunZeroTests, the checks before the loop: properties.cpp:19-26. The doubles here
      and below are bit patterns. *)
  Definition zero_constants : outcome bool :=
    in_turn
      [same_string c "0" (bi_zero c);
       same_value c (bi_of_uint64 c 0) (bi_zero c);
       same_value c (bi_of_double c 0) (bi_zero c);
       same_value c (bi_of_bytes c [0; 0; 0; 0] false false) (bi_zero c);
       same_value c (both (bi_add c) (bi_one c) (bi_minus_one c)) (bi_zero c);
       same_value c (both (bi_sub c) (bi_one c) (bi_one c)) (bi_zero c);
       same_value c (both (bi_sub c) (bi_minus_one c) (bi_minus_one c)) (bi_zero c)].

  (** The body of its loop: properties.cpp:30-43. A missing DivideByZero does not end
      the test. *)
  Definition zero_sample (s_random : E) : outcome bool :=
    let tempByteArray := any_bytes draw copied 0 1024 s_random in
    bigInteger <- bi_of_bytes c tempByteArray false false ;;
    let x := Ret bigInteger in
    ok <- in_turn
      [same_value c (bi_zero c) (both (bi_mul c) (bi_zero c) x);
       same_value c x (both (bi_sub c) x (bi_zero c));
       same_value c (both (bi_mul c) (bi_minus_one c) x) (both (bi_sub c) (bi_zero c) x);
       same_value c x (both (bi_add c) x (bi_zero c));
       same_value c x (both (bi_add c) (bi_zero c) x)] ;;
    if ok : bool then
      thrown <- expect_divide_by_zero (q <- both (bi_div c) x (bi_zero c) ;; Ret true) ;;
      ok <- (if negb (ref_is_zero tempByteArray)
             then same_value c (bi_zero c) (both (bi_div c) (bi_zero c) x)
             else Ret true) ;;
      Ret (thrown && ok)
    else Ret false.

  (** TEST(properties, RunZeroTests): properties.cpp:12-45. s_random does not change
      in the loop. *)
  Definition zero_tests (s_random : E) : outcome bool := in_turn (zero_constants :: repeat (zero_sample s_random) 10).

  (** TEST(properties, RunOneTests): properties.cpp:47-72 *)
  Definition one_constants : outcome bool :=
    in_turn
      [same_string c "1" (bi_one c);
       same_value c (bi_of_int64 c 1) (bi_one c);
       same_value c (bi_of_double c 4607182418800017408) (bi_one c);
       same_value c (bi_of_bytes c [1; 0; 0; 0] false false) (bi_one c);
       same_value c (both (bi_sub c) (bi_zero c) (bi_minus_one c)) (bi_one c);
       same_value c (both (bi_div c) (bi_of_int32 c 671832) (bi_of_int32 c 671832)) (bi_one c)].
  Definition one_sample (s_random : E) : outcome bool :=
    bigInteger <- bi_of_bytes c (any_bytes draw copied 0 1024 s_random) false false ;;
    let x := Ret bigInteger in
    in_turn
      [same_value c x (both (bi_mul c) (bi_one c) x);
       same_value c x (both (bi_div c) x (bi_one c))].
  Definition one_tests (s_random : E) : outcome bool := in_turn (one_constants :: repeat (one_sample s_random) 10).

  (** TEST(properties, RunMinusOneTests): properties.cpp:74-97 *)
  Definition minus_one_constants : outcome bool :=
    in_turn
      [same_string c "-1" (bi_minus_one c);
       same_value c (bi_of_int64 c (-1)) (bi_minus_one c);
       same_value c (bi_of_double c 13830554455654793216) (bi_minus_one c);
       same_value c (bi_of_bytes c [255; 255; 255; 255] false false) (bi_minus_one c);
       same_value c (both (bi_sub c) (bi_zero c) (bi_one c)) (bi_minus_one c);
       same_value c (both (bi_div c) (bi_of_int32 c 671832) (bi_of_int32 c (-671832))) (bi_minus_one c)].
  Definition minus_one_sample (s_random : E) : outcome bool :=
    let tempByteArray := any_bytes draw copied 0 1024 s_random in
    bigInteger <- bi_of_bytes c tempByteArray false false ;;
    let x := Ret bigInteger in
    let negated := (y <- bi_of_bytes c tempByteArray false false ;; bi_neg c y) in
    in_turn
      [same_value c negated (both (bi_mul c) (bi_minus_one c) x);
       same_value c negated (both (bi_div c) x (bi_minus_one c))].
  Definition minus_one_tests (s_random : E) : outcome bool :=
    in_turn (minus_one_constants :: repeat (minus_one_sample s_random) 10).
End Properties.

(** VerifyIsZero, VerifyIsOne, VerifyIsEven and VerifyIsPowerOfTwo with the predicate
    [p]: IsZero.cpp:7-10, IsOne.cpp:7-10, IsEven.cpp:7-10, IsPowerOfTwo.cpp:10-12. *)
Definition verify_is (p : bigint -> outcome bool) (a : outcome bigint) (expectedAnswer : bool) : outcome bool :=
  b <- a ;; r <- p b ;; Ret (Bool.eqb expectedAnswer r).

(** TEST(is_zero, RunIsZeroTests): IsZero.cpp:12-41. The Random is not used. *)
Definition is_zero_test (c : cfg) : outcome bool :=
  let verify := verify_is (bi_is_zero c) in
  let int n := bi_of_int32 c n in
  all_pass
    [verify (bi_zero c) true;
     verify (bi_minus_one c) false;
     verify (bi_one c) false;
     verify (both (bi_mul c) (int 2147483647) (int (-1))) false;
     verify (int 2147483647) false;
     verify (both (bi_add c) (int 2147483647) (int 1)) false;
     verify (bi_of_uint32 c 4294967295) false;
     verify (both (bi_add c) (bi_of_uint32 c 4294967295) (int 1)) false].

(** TEST(is_one, IsOneTest): IsOne.cpp:12-41 *)
Definition is_one_test (c : cfg) : outcome bool :=
  let verify := verify_is (bi_is_one c) in
  let int n := bi_of_int32 c n in
  all_pass
    [verify (bi_zero c) false;
     verify (bi_minus_one c) false;
     verify (bi_one c) true;
     verify (both (bi_mul c) (int 2147483647) (int (-1))) false;
     verify (int 2147483647) false;
     verify (both (bi_add c) (int 2147483647) (int 1)) false;
     verify (bi_of_uint32 c 4294967295) false;
     verify (both (bi_add c) (bi_of_uint32 c 4294967295) (int 1)) false].

(** TEST(is_even, RunIsEvenTests): IsEven.cpp:12-78. The checks on constants before,
    between and after the loops over random numbers; a short becomes an int. *)
Definition is_even_test {E : Type} (engine : E -> Z * E) (seeded : Z -> E) (fuel : nat) (seed_first : bool) (c : cfg)
    (random : E) : outcome bool :=
  let verify := verify_is (bi_is_even c) in
  let int n := bi_of_int32 c n in
  let long_max := bi_of_int64 c 9223372036854775807 in
  let short_max := bi_of_int32 c 32767 in
  ok1 <- all_pass
    [verify (both (bi_add c) long_max (int 1)) true;
     verify (both (bi_add c) long_max (int 2)) false] ;;
  s <- even_samples engine seeded 5 fuel seed_first c (check_twice c) random ;;
  let (ok2, random) := s : bool * E in
  s <- even_samples engine seeded 5 fuel seed_first c (check_twice_less_one c) random ;;
  let (ok3, random) := s : bool * E in
  ok4 <- all_pass
    [verify (both (bi_sub c) short_max (bi_one c)) true;
     verify (both (bi_sub c) short_max (int 2)) false;
     verify (both (bi_mul c) (both (bi_add c) long_max (bi_one c)) (int (-1))) true;
     verify (both (bi_mul c) (both (bi_add c) long_max (int 2)) (int (-1))) false] ;;
  s <- even_samples engine seeded 5 fuel seed_first c (check_minus_twice c) random ;;
  let (ok5, random) := s : bool * E in
  ok6 <- all_pass
    [verify (both (bi_mul c) (both (bi_sub c) short_max (bi_one c)) (int (-1))) true;
     verify (both (bi_mul c) (both (bi_sub c) short_max (int 2)) (int (-1))) false;
     verify (bi_zero c) true;
     verify (bi_one c) false;
     verify (bi_minus_one c) false] ;;
  Ret (ok1 && ok2 && ok3 && ok4 && ok5 && ok6).

(** TEST(is_poweroftwo, RunIsPowerOfTwoTests): IsPowerOfTwo.cpp:70-118. The random
    arrays are made before the checks on constants; the order would matter only if
    one of the constants threw. *)
Definition is_power_of_two_test {E : Type} (draw : E -> Z -> Z -> Z * E) (cast : Z -> outcome Z) (c : cfg) (random : E)
    : outcome bool :=
  let verify := verify_is (bi_is_power_of_two c) in
  let int n := bi_of_int32 c n in
  all_pass
    [verify (both (bi_add c) (int 2147483647) (int 1)) true;
     verify (both (bi_add c) (int 2147483647) (int 2)) false;
     verify (both (bi_add c) (int 32767) (int 1)) true;
     verify (both (bi_sub c) (int 2147483647) (int 2)) false;
     verify (bi_zero c) false;
     verify (bi_one c) true;
     verify (bi_minus_one c) false;
     power_of_two_samples draw cast c random].
