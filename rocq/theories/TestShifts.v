(** Model of the bodies of further randomised tests: shifts, powers, greatest common
    divisors and modular powers. *)
From Coq Require Import String.
From Verif Require Import Machine BigInt BigIntBytes TestOracle TestCalc TestRandom TestNumbers TestBodies.
Open Scope string_scope.
Open Scope list_scope.
Open Scope Z_scope.

(** EXPECT_THROW(p, std::overflow_error) *)
Definition expect_overflow (p : outcome bool) : outcome bool :=
  match p with Ret _ => Ret false | Throw OverflowError => Ret true | Throw _ => Ret false | o => o end.

(** to_byte_array<int>: utils.h:6-14. >> on a negative int is arithmetic. *)
Definition int_bytes (value : Z) : list Z :=
  map (fun i => Z.land (Z.shiftr value (8 * i)) 255) [0; 1; 2; 3].

Section Shifts.
  (** As in TestBodies.v. *)
  Context {E : Type} (draw : E -> Z -> Z -> Z * E) (copied : bool) (run : string -> outcome bool).

  (** A loop whose body draws from s_random itself. *)
  Fixpoint sampling (samples : nat) (body : E -> outcome (bool * E)) (s_random : E) : outcome (bool * E) :=
    match samples with
    | O => Ret (true, s_random)
    | S samples =>
        '(ok, s_random) <- body s_random ;;
        '(rest, s_random) <- sampling samples body s_random ;;
        Ret (ok && rest, s_random)
    end.
  (** The loops of a test one after the other, ten samples each. *)
  Fixpoint loops (bodies : list (E -> outcome (bool * E))) (s_random : E) : outcome (bool * E) :=
    match bodies with
    | [] => Ret (true, s_random)
    | body :: bodies =>
        '(ok, s_random) <- sampling 10 body s_random ;;
        '(rest, s_random) <- loops bodies s_random ;;
        Ret (ok && rest, s_random)
    end.

  (** One sample: [first] is shifted by [second]. *)
  Definition shift_sample (op : string) (first : E -> outcome (list Z)) (second : E -> outcome (list Z * E)) (s_random : E)
      : outcome (bool * E) :=
    tempByteArray1 <- first s_random ;;
    '(tempByteArray2, s_random) <- second s_random ;;
    ok <- two run op tempByteArray2 tempByteArray1 ;;
    Ret (ok, s_random).

  (** The second operands: a copy of s_random is drawn from, s_random itself is, or nothing is drawn. *)
  Definition from_copy (get : E -> outcome (list Z)) (s_random : E) : outcome (list Z * E) :=
    a <- get s_random ;; Ret (a, s_random).
  Definition drawn_byte (lo hi : Z) (s_random : E) : outcome (list Z * E) :=
    let (v, s_random) := draw s_random lo hi in Ret ([u8 v], s_random).
  Definition drawn_int (lo hi : Z) (s_random : E) : outcome (list Z * E) :=
    let (v, s_random) := draw s_random lo hi in Ret (int_bytes v, s_random).
  Definition fixed_byte (b : Z) (s_random : E) : outcome (list Z * E) := Ret ([b], s_random).

  (** The loops over operands from [first]: op_leftshift.cpp:75-128 and 130-183,
      op_rightshift.cpp:65-118 and 120-173 *)
  Definition shift_loops (op : string) (first : E -> outcome (list Z)) : list (E -> outcome (bool * E)) :=
    [shift_sample op first (from_copy (positive_bytes draw 2));
     shift_sample op first (drawn_byte 1 32);
     shift_sample op first (fixed_byte 32);
     shift_sample op first (from_copy (negative_bytes draw 2));
     shift_sample op first (drawn_byte (-31) 0);
     shift_sample op first (fixed_byte 224);
     shift_sample op first (fixed_byte 0)].
  (** All loops: op_leftshift.cpp:75-202, op_rightshift.cpp:65-193. [lo], [hi]: the bounds of
      the last two loops; -8 * tempByteArray1.size() is computed in size_t and is -800 as an int. *)
  Definition all_shift_loops (op : string) (lo hi : Z) : list (E -> outcome (bool * E)) :=
    (shift_loops op (fun e => Ret (any_bytes draw copied 0 1024 e)) ++
     shift_loops op (fun e => Ret (get_random_bytes draw 2 e)) ++
     [shift_sample op (positive_bytes draw 100) (drawn_int lo hi); shift_sample op (negative_bytes draw 100) (drawn_int lo hi)])%list.

  (** TEST(operator_tests, shift_left): op_leftshift.cpp:63-204 *)
  Definition shift_left_test (s_random : E) : outcome bool :=
    first <- two run "b<<" [2] [204; 91; 0; 245; 53; 86; 160; 202] ;;
    '(rest, _) <- loops (all_shift_loops "b<<" (-1000) (-800)) s_random ;;
    Ret (first && rest).
  (** TEST(operator_tests, shift_right): op_rightshift.cpp:58-194 *)
  Definition shift_right_test (s_random : E) : outcome bool :=
    '(ok, _) <- loops (all_shift_loops "b>>" 800 1000) s_random ;; Ret ok.
End Shifts.

Section Powers.
  Context {E : Type} (draw : E -> Z -> Z -> Z * E) (copied : bool)
          (run : string -> outcome bool) (ident : string -> string -> outcome bool).

  (** TEST(pow_tests, debug): pow.cpp:79-83 *)
  Definition pow_debug : outcome bool := two run "bPow" [8] [8; 24; 67; 103; 87; 79; 48; 10].
  (** TEST(pow_tests, RunPowPositive): pow.cpp:85-130 *)
  Definition pow_positive (s_random : E) : outcome bool :=
    all_pass
      [run ("1" ++ " " ++ "0" ++ " bPow")%string;
       run ("0" ++ " " ++ "0" ++ " bPow")%string;
       samples [e <- positive_bytes draw 1 s_random ;; two run "bPow" e (get_random_bytes draw 2 s_random)];
       samples [e <- positive_bytes draw 1 s_random ;; two run "bPow" e (any_bytes draw copied 0 10 s_random)];
       samples [two run "bPow" [0] (any_bytes draw copied 0 10 s_random)];
       samples [a <- positive_bytes draw 2 s_random ;; two run "bPow" a [0];
                a <- positive_bytes draw 2 s_random ;; two run "bPow" [0] a]].
  (** TEST(pow_tests, RunPowAxiomXPow1): pow.cpp:132-147 *)
  Definition pow_one (s_random : E) : outcome bool :=
    let randBigInt := print_bytes (any_bytes draw copied 0 10 s_random) in
    all_pass [ident ("1" ++ " " ++ int32_max ++ " bPow")%string int32_max;
              ident ("1" ++ " " ++ int64_max ++ " bPow")%string int64_max;
              samples [ident ("1" ++ " " ++ randBigInt ++ "bPow")%string (but_last randBigInt)]].
  (** TEST(pow_tests, RunPowAxiomXPow0): pow.cpp:149-165 *)
  Definition pow_zero (s_random : E) : outcome bool :=
    let randBigInt := print_bytes (any_bytes draw copied 0 10 s_random) in
    all_pass [ident ("0" ++ " " ++ int32_max ++ " bPow")%string "1";
              ident ("0" ++ " " ++ int64_max ++ " bPow")%string "1";
              samples [ident ("0" ++ " " ++ randBigInt ++ "bPow")%string "1"]].
  (** [b] "0", TEST(pow_tests, RunPowAxiom0PowX): pow.cpp:168-181; "1", RunPowAxiom1PowX: pow.cpp:183-196 *)
  Definition pow_of (b : string) (s_random : E) : outcome bool :=
    all_pass [ident (int32_max ++ " " ++ b ++ " bPow")%string b;
              samples [a <- positive_bytes draw 4 s_random ;; ident (print_bytes a ++ b ++ " bPow")%string b]].
  (** TEST(pow_tests, RunPowBoundary): pow.cpp:198-206 *)
  Definition pow_boundary : outcome bool :=
    all_pass [run ("2 " ++ "4294967296.000000" ++ " bPow")%string; run ("2 " ++ "8589934592.000000" ++ " bPow")%string].
  (** TEST(pow_tests, RunPowNegative): pow.cpp:208-230 *)
  Definition pow_negative (s_random : E) : outcome bool :=
    all_pass
      [expect_out_of_range (run ("-1" ++ " " ++ "1" ++ " bPow")%string);
       expect_out_of_range (run ("-1" ++ " " ++ "0" ++ " bPow")%string);
       samples [a <- negative_bytes draw 2 s_random ;; expect_out_of_range (two run "bPow" a (get_random_bytes draw 2 s_random))]].
End Powers.
(** TEST(pow_tests, RunOverflow): pow.cpp:231-236 *)
Definition pow_overflow (c : cfg) : outcome bool :=
  bytes <- wrz (repeat 0 1000) 999 1 ;;
  b <- bi_of_bytes c bytes false false ;;
  expect_overflow (_ <- bi_pow c b INT_MAX ;; Ret true).

(** ** Greatest common divisors. [large], [small]: what GetRandomByteArray(s_random) and
    GetRandomByteArray(s_random, 2) return. *)
Section Divisors.
  Context (run : string -> outcome bool) (ident : string -> string -> outcome bool) (large small : list Z).
  (** TEST(gcd, RunGCDTests): gcd.cpp:43-114 *)
  Definition gcd_test : outcome bool :=
    all_pass
      [samples [two run "bGCD" large large];
       samples [two run "bGCD" small small];
       samples [two run "bGCD" large small; two run "bGCD" small large];
       samples [two run "bGCD" large [0]; two run "bGCD" [0] large];
       samples [two run "bGCD" small [0]; two run "bGCD" [0] small];
       ident (int64_max ++ " " ++ int32_max ++ " bGCD " ++ "32767" ++ " bGCD")%string
             (int32_max ++ " " ++ "32767" ++ " bGCD " ++ int64_max ++ " bGCD")%string;
       ident (print_bytes large ++ print_bytes large ++ print_bytes large ++ "bGCD bGCD")%string
             (print_bytes large ++ print_bytes large ++ print_bytes large ++ "bGCD bGCD")%string].
End Divisors.

(** ** Modular powers. [large], [small] as before; [pos1], [pos2], [neg2]: the arrays of one and two
    bytes from GetRandomPosByteArray and GetRandomNegByteArray; [pos]: that of any size. *)
Section ModularPowers.
  Context (run : string -> outcome bool) (ident : string -> string -> outcome bool) (large small pos1 pos2 neg2 pos : list Z).
  (** Print(z) + Print(e) + Print(x) + "tModPow" *)
  Definition three (z e x : list Z) : string := (print_bytes z ++ print_bytes e ++ print_bytes x ++ "tModPow")%string.
  (** TEST(modpow, mod_powValidSmallNumbers): modpow.cpp:83-98 *)
  Definition modpow_valid_small : outcome bool := all_pass [run "1 0 1 tModPow"; run "1 1 1 tModPow"].
  (** TEST(modpow, mod_powNegative): modpow.cpp:100-150. std::to_string of small ints. *)
  Definition modpow_negative : outcome bool :=
    all_pass
      (flat_map (fun i => map (fun j => expect_divide_by_zero (run ("0" ++ " " ++ j ++ " " ++ i ++ " tModPow")%string)) ["0"; "1"; "2"]%string)
         ["-2"; "-1"; "0"; "1"; "2"]%string ++
       flat_map (fun i => flat_map (fun j => map (fun k =>
           expect_out_of_range (run (k ++ " " ++ j ++ " " ++ i ++ " tModPow")%string)) ["-2"; "-1"; "1"; "2"]%string) ["-2"; "-1"]%string)
         ["-2"; "-1"; "0"; "1"; "2"]%string ++
       [samples [expect_out_of_range (run (three large neg2 large))];
        samples [expect_divide_by_zero (run ("0" ++ " " ++ print_bytes pos1 ++ print_bytes large ++ "tModPow")%string)]]).
  (** TEST(modpow, mod_pow3SmallInt): modpow.cpp:152-168 *)
  Definition modpow_small : outcome bool := samples [run (three small pos2 small)].
  (** TEST(modpow, mod_pow1Large2SmallInt): modpow.cpp:170-196 *)
  Definition modpow_one_large : outcome bool :=
    samples [run (three small pos small); run (three small pos2 large); run (three large pos1 small)].
  (** TEST(modpow, mod_pow2Large1SmallInt): modpow.cpp:198-214 *)
  Definition modpow_two_large : outcome bool := samples [run (three small pos large)].
  (** TEST(modpow, mod_pow0Power): modpow.cpp:285-311 *)
  Definition modpow_zero_power : outcome bool :=
    let at_zero z x := run (print_bytes z ++ "0" ++ " " ++ print_bytes x ++ "tModPow")%string in
    samples [at_zero small small; at_zero large small; at_zero small large; at_zero large large].
  (** TEST(modpow, mod_pow0Base): modpow.cpp:313-339 *)
  Definition modpow_zero_base : outcome bool :=
    let of_zero z e := run (print_bytes z ++ print_bytes e ++ "0" ++ " tModPow")%string in
    samples [of_zero small pos2; of_zero large pos2; of_zero small pos; of_zero large pos].
  (** TEST(modpow, mod_powAxiom): modpow.cpp:341-360 *)
  Definition modpow_axiom : outcome bool :=
    samples [ident (three large pos1 small)
                   (print_bytes large ++ print_bytes pos1 ++ print_bytes small ++ "bPow" ++ " bRemainder")%string].
  (** TEST(modpow, mod_powBoundary): modpow.cpp:362-370 *)
  Definition modpow_boundary : outcome bool :=
    all_pass [run ("34359738368.000000" ++ " " ++ "4294967296.000000" ++ " 2 tModPow")%string;
              run ("34359738368.000000" ++ " " ++ "8589934592.000000" ++ " 2 tModPow")%string].
End ModularPowers.
