(** Model of further operands of the project's tests: tests/IsPowerOfTwo.cpp,
    tests/utils.cpp, tests/IsEven.cpp and the signed byte arrays of the shift,
    power and logarithm tests. *)
From Coq Require Import String.
From Verif Require Import Machine BigInt BigIntText BigIntBytes TestOracle.

Section Draws.
  (** [draw e lo hi]: Random::Next(lo, hi) as in TestRandom.v. *)
  Context {E : Type} (draw : E -> Z -> Z -> Z * E).

  (** The loop that fills an array with static_cast<byte>(random.Next(0, 256)):
      IsPowerOfTwo.cpp:46-48, log.cpp:20-22 and others. *)
  Fixpoint fill_bytes (size : nat) (e : E) : list Z * E :=
    match size with
    | O => ([], e)
    | S size =>
        let (v, e) := draw e 0 256 in
        let (l, e) := fill_bytes size e in
        (u8 v :: l, e)
    end.

  (** GetRandomPosByteArray: log.cpp:16-27 and the same in modpow.cpp, op_leftshift.cpp,
      op_rightshift.cpp, pow.cpp. The Random is a copy. *)
  Definition positive_bytes (size : nat) (e : E) : outcome (list Z) :=
    let value := fst (fill_bytes size e) in
    t <- rdz value (Z.of_nat (length value) - 1) ;;
    wrz value (Z.of_nat (length value) - 1) (Z.land t 127).

  (** GetRandomNegByteArray: log.cpp:29-40 and the same in the other files *)
  Definition negative_bytes (size : nat) (e : E) : outcome (list Z) :=
    let value := fst (fill_bytes size e) in
    t <- rdz value (Z.of_nat (length value) - 1) ;;
    wrz value (Z.of_nat (length value) - 1) (Z.lor t 128).

  (** GetRandomByteArray: IsPowerOfTwo.cpp:35-50. The arrays declared in the two
      branches ([inner]) hide the first one and are gone at the end of the branch. *)
  Definition shadowed_bytes (isSmall : bool) (e : E) : list Z :=
    let value := @nil Z in
    let e :=
      if isSmall then
        let (byteValue, e) := draw e 0 32 in let inner := repeat 0 (Z.to_nat byteValue) in e
      else
        let (byteValue, e) := draw e 32 128 in let inner := repeat 0 (Z.to_nat byteValue) in e in
    fst (fill_bytes (length value) e).

  (** static_cast<byte>(pow(2, exactOnePosition)): IsPowerOfTwo.cpp:65. The powers are
      exact. [cast]: the conversion of a double that no byte holds, which is
      undefined. *)
  Definition byte_of_double (cast : Z -> outcome Z) (d : Z) : outcome Z :=
    if (0 <=? d) && (d <=? 255) then Ret d else cast d.

  (** GetPowerOfTwoByteArray: IsPowerOfTwo.cpp:52-68 *)
  Definition power_of_two_bytes (cast : Z -> outcome Z) (e : E) : outcome (list Z) :=
    let value := repeat 0 32 in
    let (onePosition, e) := draw e 0 32 in
    let (exactOnePosition, e) := draw e 0 8 in
    let exactOnePosition := if onePosition =? 31 then fst (draw e 0 7) else exactOnePosition in
    b <- byte_of_double cast (2 ^ exactOnePosition) ;;
    wrz value onePosition b.
End Draws.

(** CheckExpected: IsPowerOfTwo.cpp:14-33 *)
Definition check_expected (value : list Z) : outcome bool :=
  let size := (8 * length value)%nat in
  valueOne <- for_up size 0 (fun i valueOne =>
    one <- bits_get value size i ;;
    Ret (if one : bool then valueOne + 1 else valueOne)) 0 ;;
  if 1 =? valueOne then
    top <- bits_get value size (size - 1) ;;
    Ret (negb top)
  else Ret false.

(** VerifyIsPowerOfTwo: IsPowerOfTwo.cpp:10-12. [Ret true]: the check holds. *)
Definition verify_power_of_two (c : cfg) (b : bigint) (expectedAnswer : bool) : outcome bool :=
  p <- bi_is_power_of_two c b ;; Ret (Bool.eqb expectedAnswer p).

(** The random cases of RunIsPowerOfTwoTests: IsPowerOfTwo.cpp:71-81, 109-116. A
    failed check returns from VerifyIsPowerOfTwo only. *)
Definition power_of_two_samples {E : Type} (draw : E -> Z -> Z -> Z * E) (cast : Z -> outcome Z) (c : cfg) (random : E)
    : outcome bool :=
  let byteArray1 := shadowed_bytes draw true random in
  let byteArray2 := shadowed_bytes draw false random in
  byteArray3 <- power_of_two_bytes draw cast random ;;
  small <- bi_of_bytes c byteArray1 false false ;;
  large <- bi_of_bytes c byteArray2 false false ;;
  power <- bi_of_bytes c byteArray3 false false ;;
  e1 <- check_expected byteArray1 ;;
  ok1 <- verify_power_of_two c small e1 ;;
  e2 <- check_expected byteArray2 ;;
  ok2 <- verify_power_of_two c large e2 ;;
  ok3 <- verify_power_of_two c power true ;;
  Ret (ok1 && ok2 && ok3).

Section Numbers.
  (** [engine]: one call of the std::mt19937, a number below 2^32; [seeded n]: a
      new engine with seed [n]. *)
  Context {E : Type} (engine : E -> Z * E) (seeded : Z -> E).

  (** Random::Next(): Random.h:8. The conversion to int wraps; abs overflows on -2^31. *)
  Definition next_int (c : cfg) (e : E) : outcome (Z * E) :=
    let (u, e) := engine e in
    v <- chk32 c (Z.abs (s32 u)) ;;
    Ret (v, e).

  (** The loop of BuildRandomNumber: utils.cpp:16-19. size() is compared with
      numDigits converted to size_t. [fuel] bounds the rounds. *)
  Fixpoint digits_loop (fuel : nat) (c : cfg) (numDigits : Z) (randNum : string) (e : E) : outcome (string * E) :=
    if Z.of_nat (String.length randNum) <? u64 numDigits then
      match fuel with
      | O => NoFuel
      | S fuel =>
          n <- next_int c e ;;
          let (v, e) := n : Z * E in
          digits_loop fuel c numDigits (randNum ++ std_to_string v)%string e
      end
    else Ret (randNum, e).

  (** BuildRandomNumber: utils.cpp:6-27. The int operators % and + are those of the
      other models: a divisor 0 is undefined, numDigits + 1 cannot overflow unless
      maxdigits is -2^31. *)
  Definition build_random_number (fuel : nat) (c : cfg) (maxdigits seed : Z) : outcome string :=
    let random := seeded seed in
    n <- next_int c random ;;
    let (v, random) := n : Z * E in
    if maxdigits =? 0 then Undef DivByZero
    else
      numDigits <- chk32 c (Z.rem v maxdigits + 1) ;;
      r <- digits_loop fuel c numDigits ""%string random ;;
      let (randNum, random) := r : string * E in
      n <- next_int c random ;;
      let (v, random) := n : Z * E in
      let cut := String.substring 0 (Z.to_nat (Z.min (u64 numDigits) (Z.of_nat (String.length randNum)))) randNum in
      Ret (if Z.rem v 2 =? 0 then ("-" ++ cut)%string else cut).

  (** One number of RunIsEvenTests: BuildRandomNumber(random.Next() % 400 + 1,
      random.Next()), IsEven.cpp:34, 41, 62. Which argument is evaluated first is
      unspecified: [seed_first]. *)
  Definition even_test_number (fuel : nat) (seed_first : bool) (c : cfg) (random : E) : outcome (string * E) :=
    n1 <- next_int c random ;;
    let (v1, random) := n1 : Z * E in
    n2 <- next_int c random ;;
    let (v2, random) := n2 : Z * E in
    let (m, seed) := if seed_first then (v2, v1) else (v1, v2) in
    s <- build_random_number fuel c (Z.rem m 400 + 1) seed ;;
    Ret (s, random).

  (** The loops of RunIsEvenTests over random numbers: IsEven.cpp:33-36, 40-43, 61-64.
      [check]: what is done with each number. *)
  Fixpoint even_samples (reps : nat) (fuel : nat) (seed_first : bool) (c : cfg) (check : bigint -> outcome bool)
      (random : E) : outcome (bool * E) :=
    match reps with
    | O => Ret (true, random)
    | S reps =>
        n <- even_test_number fuel seed_first c random ;;
        let (s, random) := n : string * E in
        b <- bi_parse c s ;;
        ok <- check b ;;
        rest <- even_samples reps fuel seed_first c check random ;;
        let (oks, random) := rest : bool * E in
        Ret (ok && oks, random)
    end.
End Numbers.

(** VerifyIsEven: IsEven.cpp:7-10 *)
Definition verify_even (c : cfg) (b : bigint) (expectedAnswer : bool) : outcome bool :=
  p <- bi_is_even c b ;; Ret (Bool.eqb expectedAnswer p).

(** What is done with the numbers: IsEven.cpp:35, 42 and 63. *)
Definition check_twice (c : cfg) (b : bigint) : outcome bool :=
  two <- bi_of_int32 c 2 ;; p <- bi_mul c b two ;; verify_even c p true.
Definition check_twice_less_one (c : cfg) (b : bigint) : outcome bool :=
  two <- bi_of_int32 c 2 ;; p <- bi_mul c b two ;; one <- bi_one c ;; d <- bi_sub c p one ;; verify_even c d false.
Definition check_minus_twice (c : cfg) (b : bigint) : outcome bool :=
  two <- bi_of_int32 c (-2) ;; p <- bi_mul c b two ;; verify_even c p true.
