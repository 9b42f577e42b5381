(** Model of the test of log(value, base): TEST(log_tests, log), tests/log.cpp:107-215. *)
From Coq Require Import String.
From Verif Require Import Machine BigInt BigIntBytes BigIntDouble BigIntLogDouble TestOracle TestCalc TestRandom TestNumbers TestBodies TestLog.
Open Scope string_scope.
Open Scope Z_scope.

(** ** Steps of a test

    The state of a test: whether every check held so far, and the engine of s_random.
    [None]: an ASSERT in the body itself has failed and ended the test. *)
Definition step (E : Type) : Type := bool * E -> outcome (option (bool * E)).

(** An ASSERT in a function that the test calls: it returns from that function only. *)
Definition checked {E : Type} (p : E -> outcome bool) : step E :=
  fun s => ok <- p (snd s) ;; Ret (Some (fst s && ok, snd s)).
(** An ASSERT in the body of the test. [p] may draw from s_random. *)
Definition asserted {E : Type} (p : E -> outcome (bool * E)) : step E :=
  fun s => r <- p (snd s) ;; let (ok, e) := r : bool * E in Ret (if ok : bool then Some (fst s, e) else None).
(** One step after the other, and for (int i = 0; i < n; i++). *)
Definition then_do {E : Type} (a b : step E) : step E :=
  fun s => r <- a s ;; match r with Some s => b s | None => Ret None end.
Fixpoint repeated {E : Type} (n : nat) (a : step E) : step E :=
  match n with
  | O => fun s => Ret (Some s)
  | S n => then_do a (repeated n a)
  end.
Fixpoint one_by_one {E : Type} (l : list (step E)) : step E :=
  match l with
  | [] => fun s => Ret (Some s)
  | a :: l => then_do a (one_by_one l)
  end.
(** How the test ends: [Ret true], passed. *)
Definition result {E : Type} (a : step E) (e : E) : outcome bool :=
  r <- a (true, e) ;; Ret (match r with Some (ok, _) => ok | None => false end).

Section LogTest.
  (** [draw]: Random::Next(lo, hi) as in TestRandom.v; [engine]: as in TestNumbers.v.
      [copied]: whether an argument s_random is copied before the other arguments of
      the call are evaluated, which is unspecified. [run]: VerifyLogString,
      log.cpp:9-14. [logf], [tolerance]: as in TestLog.v. *)
  Context {E : Type} (draw : E -> Z -> Z -> Z * E) (engine : E -> Z * E) (copied : bool)
          (run : string -> outcome bool) (logf : double -> double) (tolerance : double) (c : cfg).

  (** Random::NextDouble: Random.h:11, Random.cpp:19-21. 1.0 / INT_MAX is a double
      division. *)
  Definition next_double (e : E) : outcome (double * E) :=
    n <- next_int engine c e ;;
    let (v, e) := n : Z * E in
    Ret (d_mul (int_double v) (d_div (int_double 1) (int_double INT_MAX)), e).

  (** BigInteger::log(value, base) of a double [base], and of the bytes [l]. *)
  Definition log_base (value : bigint) (base : double) : outcome double := bi_log_double logf c value (double_bits base).
  Definition log_bytes (l : list Z) (base : double) : outcome double :=
    value <- bi_of_bytes c l false false ;; log_base value base.

  (** GetRandomPosByteArray(s_random, s_random.Next(1, 100)) *)
  Definition positive_any (e : E) : outcome (list Z * E) :=
    let (size, e') := draw e 1 100 in
    l <- positive_bytes draw (Z.to_nat size) (if copied then e else e') ;;
    Ret (l, e').

  (** log.cpp:116 *)
  Definition one_to_infinity : step E :=
    asserted (fun e =>
      one <- bi_of_int32 c 1 ;;
      v <- log_base one (B754_infinity false) ;;
      Ret (Beqb (int_double 0) v, e)).

  (** log.cpp:122-125 *)
  Definition zero_value_sample : step E :=
    checked (fun e => l <- positive_bytes draw 10 e ;; run (print_bytes l ++ "0 bLog")).
  Definition zero_value : step E := repeated 10 zero_value_sample.

  (** log.cpp:128-130 *)
  Definition zero_small_sample : step E :=
    asserted (fun e =>
      r <- next_double e ;;
      let (d, e) := r : double * E in
      zero <- bi_of_int32 c 0 ;;
      v <- log_base zero d ;;
      Ret (Beqb (B754_infinity false) v, e)).
  Definition zero_small_base : step E := repeated 10 zero_small_sample.

  (** The loop [while (bi == b1)]: log.cpp:136-138. The engine is copied in each
      round. [fuel] bounds the rounds. *)
  Fixpoint other_than_one (fuel : nat) (bi b1 : bigint) (e : E) : outcome bigint :=
    same <- bi_eq c bi b1 ;;
    if same : bool then
      match fuel with
      | O => NoFuel
      | S fuel =>
          l <- positive_bytes draw 8 e ;;
          bi <- bi_of_bytes c l false false ;;
          other_than_one fuel bi b1 e
      end
    else Ret bi.
  (** log.cpp:133-140 *)
  Definition base_zero_sample (fuel : nat) : step E :=
    asserted (fun e =>
      b1 <- bi_of_int32 c 1 ;;
      bi <- bi_of_int32 c 1 ;;
      bi <- other_than_one fuel bi b1 e ;;
      v <- log_base bi (int_double 0) ;;
      Ret (is_nan v, e)).
  Definition base_zero (fuel : nat) : step E := repeated 10 (base_zero_sample fuel).

  (** log.cpp:143-146 *)
  Definition base_one_sample : step E :=
    checked (fun e => run ("1 " ++ print_bytes (any_bytes draw copied 0 100 e) ++ "bLog")).
  Definition base_one : step E := repeated 10 base_one_sample.

  (** log.cpp:149-151 *)
  Definition base_nan_sample : step E :=
    asserted (fun e =>
      v <- log_bytes (get_random_bytes draw 10 e) B754_nan ;;
      Ret (double_is_nan (double_bits v), e)).
  Definition base_nan : step E := repeated 10 base_nan_sample.

  (** log.cpp:154-156 *)
  Definition base_infinite_sample : step E :=
    asserted (fun e =>
      v <- log_bytes (get_random_bytes draw 10 e) (B754_infinity false) ;;
      Ret (is_nan v, e)).
  Definition base_infinite : step E := repeated 10 base_infinite_sample.

  (** log.cpp:162-168. In line 167 s_random is both copied and drawn from. *)
  Definition base_negative_sample : step E :=
    then_do
      (checked (fun e =>
         let tempByteArray1 := get_random_bytes draw 10 e in
         tempByteArray2 <- negative_bytes draw 1 e ;;
         run (print_bytes tempByteArray2 ++ print_bytes tempByteArray1 ++ "bLog")))
      (asserted (fun e =>
         r <- next_double e ;;
         let (d, e') := r : double * E in
         v <- log_bytes (get_random_bytes draw 10 (if copied then e else e')) (Bopp d) ;;
         Ret (is_nan v, e'))).
  Definition base_negative : step E := repeated 10 base_negative_sample.

  (** log.cpp:171-175 *)
  Definition value_negative_sample : step E :=
    checked (fun e =>
      tempByteArray1 <- negative_bytes draw 10 e ;;
      tempByteArray2 <- positive_bytes draw 1 e ;;
      run (print_bytes tempByteArray2 ++ print_bytes tempByteArray1 ++ "bLog")).
  Definition value_negative : step E := repeated 10 value_negative_sample.

  (** std::min(d, 0.5) *)
  Definition at_most_half (d : double) : double :=
    let half := d_div (int_double 1) (int_double 2) in if Bltb half d then half else d.

  (** What lines 180-182 and 187-189 do with the bytes of temp. *)
  Definition compare_logs (l : list Z) (e : E) : outcome (bool * E) :=
    temp <- bi_of_bytes c l false false ;;
    r <- next_double e ;;
    let (d, e) := r : double * E in
    let newbase := at_most_half d in
    v <- log_base temp newbase ;;
    t <- bi_to_double c temp ;;
    Ret (approx_equal tolerance v (csharp_log logf (bits_double t) newbase), e).
  (** log.cpp:178-183 *)
  Definition small_small_sample : step E :=
    asserted (fun e => l <- positive_bytes draw 10 e ;; compare_logs l e).
  Definition small_small_base : step E := repeated 10 small_small_sample.
  (** log.cpp:186-190 *)
  Definition large_small_sample : step E :=
    asserted (fun e =>
      r <- positive_any e ;;
      let (l, e) := r : list Z * E in
      compare_logs l e).
  Definition large_small_base : step E := repeated 10 large_small_sample.

  (** log.cpp:193-197 *)
  Definition two_small_sample : step E :=
    checked (fun e =>
      tempByteArray1 <- positive_bytes draw 2 e ;;
      tempByteArray2 <- positive_bytes draw 3 e ;;
      run (print_bytes tempByteArray1 ++ print_bytes tempByteArray2 ++ "bLog")).
  Definition two_small : step E := repeated 10 two_small_sample.

  (** The checks of lines 203 and 210, whose arrays have been drawn from s_random. *)
  Definition drawn_check (p : E -> outcome (string * E)) : step E :=
    fun s => r <- p (snd s) ;; let (t, e) := r : string * E in ok <- run t ;; Ret (Some (fst s && ok, e)).
  (** log.cpp:200-204 *)
  Definition small_and_large_sample : step E :=
    drawn_check (fun e =>
      tempByteArray1 <- positive_bytes draw 1 e ;;
      r <- positive_any e ;;
      let (tempByteArray2, e) := r : list Z * E in
      Ret (print_bytes tempByteArray1 ++ print_bytes tempByteArray2 ++ "bLog", e)).
  Definition small_and_large : step E := repeated 10 small_and_large_sample.
  (** log.cpp:207-211 *)
  Definition two_large_sample : step E :=
    drawn_check (fun e =>
      r <- positive_any e ;;
      let (tempByteArray1, e) := r : list Z * E in
      r <- positive_any e ;;
      let (tempByteArray2, e) := r : list Z * E in
      Ret (print_bytes tempByteArray1 ++ print_bytes tempByteArray2 ++ "bLog", e)).
  Definition two_large : step E := repeated 10 two_large_sample.

  (** TEST(log_tests, log): log.cpp:107-215 *)
  Definition log_test (fuel : nat) (s_random : E) : outcome bool :=
    result
      (one_by_one
        [one_to_infinity;
         checked (fun _ => run "0 1 bLog");
         zero_value;
         zero_small_base;
         base_zero fuel;
         base_one;
         base_nan;
         base_infinite;
         checked (fun _ => run "1 0 bLog");
         base_negative;
         value_negative;
         small_small_base;
         large_small_base;
         two_small;
         small_and_large;
         two_large;
         checked (fun _ => large_value_log_tests logf tolerance c 128 1 0 1)])
      s_random.
End LogTest.
