(** Property theorems: how the project's tests of shifts, powers, greatest common divisors and
    modular powers end, whatever numbers they draw. *)
From Coq Require Import String.
From Verif Require Import Machine Spec SpecPyRun SpecOracle SpecBodies SpecShifts.
From Verif Require Import BigInt TestOracle TestCalc TestRandom TestNumbers TestBodies TestShifts RandomFacts BodyFacts BodyAxioms
  TestShiftFacts TestPowFacts TestModFacts Examples.
Open Scope string_scope.
Open Scope list_scope.
Open Scope Z_scope.

(** C89. The shift tests end as their last loop does, the one over negative numbers of 100 bytes. *)
Theorem C89_shift_tests : forall fuel c s1 m1 s2 m2, strict c = false ->
  forall {E : Type} (draw : E -> Z -> Z -> Z * E) (copied : bool), in_bounds draw -> forall e,
    let run := verify fuel c s1 m1 s2 m2 false in
    shift_left_test draw copied run e = negative_loop draw c 1 (-1000) (-800) 10 (engine_then draw (-1000) (-800) e) /\
    shift_right_test draw copied run e = negative_loop draw c (-1) 800 1000 10 (engine_then draw 800 1000 e).
Proof. exact (@shift_tests_exact). Qed.
Print Assumptions C89_shift_tests.

(** When no byte drawn is a blank, a sample of that loop passes if the number can be written. *)
Theorem C89_shift_sample : forall {E : Type} (draw : E -> Z -> Z -> Z * E) c e l n, strict c = false ->
  negative_bytes draw 100 e = Ret l -> ~ In 32 l ->
  (-1000 <= n <= -800 -> shift_ends c (operand l) (operand (int_bytes n)) = if_written (operand l)) /\
  (800 <= n <= 1000 -> shift_ends c (operand l) (- operand (int_bytes n)) = if_written (operand l)).
Proof. exact (@shift_without_blanks). Qed.
Print Assumptions C89_shift_sample.

(** With every byte 127 the tests pass; with bytes 0, 1, 2 ... a number cannot be written; with
    seventeen blanks in it a number is shifted to 0 and not to -1, and the tests fail. *)
Example C89_shift_case :
  in_bounds (scripted (fun _ => 127) 832) /\
  shift_right_test (scripted (fun _ => 127) 832) false (running false) 0 = Ret true /\
  shift_right_test (scripted (fun e => e - 40) 832) false (running false) 0 = Undef OutOfBounds.
Proof.
  split; [apply scripted_in_bounds|].
  split; (etransitivity; [exact (proj2 (C89_shift_tests 100 release_wrap no_log1 no_log1 no_log2 no_log2 eq_refl _ false (scripted_in_bounds _ _) 0))|]); vm_compute; reflexivity.
Qed.
Example C89_shift_fails :
  negative_bytes (scripted seventeen_blanks 896) 100 40 = Ret ([1] ++ repeat 0 81 ++ repeat 32 17 ++ [255]) /\
  operand ([1] ++ repeat 0 81 ++ repeat 32 17 ++ [255]) = 1 - 2 ^ 928 /\
  shift_right_test (scripted seventeen_blanks 896) false (running false) 0 = Ret false /\
  shift_left_test (scripted seventeen_blanks (-896)) false (running false) 0 = Ret false.
Proof.
  split; [vm_compute; reflexivity|]. split; [vm_compute; reflexivity|].
  split; [etransitivity; [exact (proj2 (C89_shift_tests 100 release_wrap no_log1 no_log1 no_log2 no_log2 eq_refl _ false (scripted_in_bounds _ _) 0))|]
         |etransitivity; [exact (proj1 (C89_shift_tests 100 release_wrap no_log1 no_log1 no_log2 no_log2 eq_refl _ false (scripted_in_bounds _ _) 0))|]]; vm_compute; reflexivity.
Qed.

(** A byte 32 stands for the number 0, so the loops over "32 bit shifts" shift by 0. *)
Example C89_no_shift : operand [32] = 0 /\ operand (int_bytes 800) = 196608 /\ operand (int_bytes 801) = 801.
Proof. split; [|split]; vm_compute; reflexivity. Qed.

(** These tests of powers pass with every generator. *)
Theorem C89_power_tests : forall fuel c s1 m1 s2 m2, strict c = false ->
  forall {E : Type} (draw : E -> Z -> Z -> Z * E) (copied : bool), in_bounds draw -> forall e,
    let run := verify fuel c s1 m1 s2 m2 false in let ident := verify_identity fuel c s1 m1 s2 m2 in
    (pow_debug run = Ret true /\ pow_positive draw copied run e = Ret true) /\
    (pow_one draw copied ident e = Ret true /\ pow_zero draw copied ident e = Ret true) /\
    pow_boundary run = Ret true /\ pow_negative draw run e = Ret true /\ pow_overflow c = Ret true.
Proof. exact (@power_tests_pass). Qed.
Print Assumptions C89_power_tests.

Example C89_power_case :
  pow_positive counting false (running false) 5 = Ret true /\ pow_negative counting (running false) 5 = Ret true.
Proof. split; vm_compute; reflexivity. Qed.

(** 0^X = 0 and 1^X = 1 are tested with an exponent that is drawn: the test fails when it reads as 0
    and throws when blanks have made it longer than an int. *)
Theorem C89_powers_of : forall fuel c s1 m1 s2 m2, strict c = false ->
  forall {E : Type} (draw : E -> Z -> Z -> Z * E), forall e, exists a,
    positive_bytes draw 4 e = Ret a /\
    pow_of draw (verify_identity fuel c s1 m1 s2 m2) "0" e = zero_to (operand a) /\
    pow_of draw (verify_identity fuel c s1 m1 s2 m2) "1" e = one_to (operand a).
Proof. exact (@pow_of_exact). Qed.
Print Assumptions C89_powers_of.

Example C89_powers_of_case :
  let ident := verify_identity 100 release_wrap no_log1 no_log1 no_log2 no_log2 in
  pow_of (scripted (fun _ => 32) 0) ident "0" 0 = Ret false /\ pow_of (scripted (fun _ => 32) 0) ident "1" 0 = Ret true /\
  pow_of (scripted (fun e => 32 + e) 0) ident "1" 0 = Throw OverflowError /\
  pow_of (scripted (fun e => e) 0) ident "0" 0 = Ret true.
Proof. split; [|split; [|split]]; vm_compute; reflexivity. Qed.

(** C90. The test of greatest common divisors passes with every generator, one round of the loop
    being enough: no number is ever compared with another one of more than 64 bits. *)
Theorem C90_gcd_test : forall {E : Type} (draw : E -> Z -> Z -> Z * E) (copied : bool), in_bounds draw ->
  forall fuel c s1 m1 s2 m2 e, strict c = false ->
    gcd_test (verify (S fuel) c s1 m1 s2 m2 false) (verify_identity (S fuel) c s1 m1 s2 m2)
      (any_bytes draw copied 1 100 e) (get_random_bytes draw 2 e) = Ret true.
Proof. exact (@gcd_passes). Qed.
Print Assumptions C90_gcd_test.

Example C90_gcd_case :
  any_bytes (scripted (fun e => 13 + e) 0) false 1 100 0 = [14; 15; 16; 17; 18; 19; 20; 21; 22; 23; 24; 25; 26] /\
  gcd_test (running false) (verify_identity 100 release_wrap no_log1 no_log1 no_log2 no_log2)
    (any_bytes (scripted (fun e => 13 + e) 0) false 1 100 0) (get_random_bytes (scripted (fun e => 13 + e) 0) 2 0) = Ret true.
Proof. split; vm_compute; reflexivity. Qed.

(** The tests of modular powers: each ends as its modular powers do. *)
Theorem C90_modpow_tests : forall {E : Type} (draw : E -> Z -> Z -> Z * E) (copied : bool), in_bounds draw ->
  forall fuel c s1 m1 s2 m2 e n e' pos1 pos2 neg2 pos, strict c = false -> (0 < n <= 100)%nat ->
    positive_bytes draw 1 e = Ret pos1 -> positive_bytes draw 2 e = Ret pos2 -> negative_bytes draw 2 e = Ret neg2 ->
    positive_bytes draw n e' = Ret pos ->
    let run := verify fuel c s1 m1 s2 m2 false in
    let large := any_bytes draw copied 1 100 e in let small := get_random_bytes draw 2 e in
    let ends x e z := modpow_ends (dbg c) (operand x) (operand e) (operand z) in
    modpow_valid_small run = Ret true /\ modpow_boundary run = Ret true /\
    modpow_negative run large pos1 neg2 = Ret true /\
    modpow_small run small pos2 = by_zero (operand small) /\
    modpow_one_large run large small pos1 pos2 pos = all_pass [ends small pos small; ends large pos2 small; ends small pos1 large] /\
    modpow_two_large run large small pos = ends large pos small /\
    modpow_zero_power run large small = all_pass [by_zero (operand small); by_zero (operand large)] /\
    modpow_zero_base run large small pos2 pos =
      all_pass (map (fun '(e, z) => modpow_ends (dbg c) 0 (operand e) (operand z)) [(pos2, small); (pos2, large); (pos, small); (pos, large)]) /\
    modpow_axiom (verify_identity fuel c s1 m1 s2 m2) large small pos1 = ends small pos1 large.
Proof. exact (@modpow_drawn). Qed.
Print Assumptions C90_modpow_tests.

(** A modulus below 2^992 passes; a modulus that reads as 0 throws, or is undefined. *)
Theorem C90_modpow_ends : forall debug x e z, 0 <= x -> 0 <= e ->
  (0 < z < 2 ^ 992 -> modpow_ends debug x e z = Ret true) /\
  modpow_ends debug x e 0 = (if (x <? 2 ^ 31) && (2 ^ 32 <=? e) then Undef DivByZero else Throw DivideByZero).
Proof. exact modpow_ends_family. Qed.
Print Assumptions C90_modpow_ends.

(** A modulus of 100 bytes, 39 of them blanks, is larger than that: the test fails. Two blanks for the
    modulus and a long exponent: the test is undefined. *)
Example C90_modpow_case :
  let z := repeat 1 60 ++ repeat 32 39 ++ [1] in
  let ends x e z := modpow_ends false (operand x) (operand e) (operand z) in
  ends [127; 127] [127] z = Ret false /\
  ends [127; 127] [1; 2; 3; 4; 5] [32; 32] = Undef DivByZero /\
  ends [127; 127] [1] [32; 32] = Throw DivideByZero /\
  ends [127; 127] [127] (repeat 1 60) = Ret true.
Proof. split; [|split; [|split]]; vm_compute; reflexivity. Qed.
