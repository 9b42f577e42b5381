(** Property theorems: the random operands of the tests of is_power_of_two, is_even, the shifts and powers. *)
From Coq Require Import String.
From Verif Require Import Machine Spec SpecPos SpecText SpecOracle SpecNumbers.
From Verif Require Import BigInt BigIntBytes TestNumbers NumberFacts RandomFacts Examples.
Open Scope string_scope.
Open Scope list_scope.
Open Scope Z_scope.

(** C82. CheckExpected decides whether the array encodes a power of two. *)
Theorem C82_expected : forall l, digits 256 l -> check_expected l = Ret (is_power (complement 256 l)).
Proof. exact check_expected_exact. Qed.
Print Assumptions C82_expected.
Theorem C82_is_power : forall z, is_power z = true <-> exists k, 0 <= k /\ z = 2 ^ k.
Proof. exact is_power_iff. Qed.
Print Assumptions C82_is_power.
(** 2^20, 3, -2^23 and nothing. *)
Example C82_expected_case :
  check_expected [0; 0; 16] = Ret true /\ check_expected [3; 0] = Ret false /\
  check_expected [0; 0; 128] = Ret false /\ complement 256 [0; 0; 128] = - 2 ^ 23 /\ check_expected [] = Ret false.
Proof. repeat split; vm_compute; reflexivity. Qed.

(** The random arrays are empty: the two random cases are both about the integer 0. *)
Theorem C82_random_refuted : forall (E : Type) (draw : E -> Z -> Z -> Z * E) isSmall e, shadowed_bytes draw isSmall e = [].
Proof. exact @shadowed_empty. Qed.
Print Assumptions C82_random_refuted.
Example C82_random_case :
  shadowed_bytes counting false 100 = [] /\ fst (counting 100 32 128) = 35 /\
  bi_of_bytes debug_strict [] false false = Ret (Big 0 []).
Proof. repeat split; vm_compute; reflexivity. Qed.

(** The third case is about a power of two, and all three pass, unless a bound of the distribution is hit. *)
Theorem C82_power_partial : forall (E : Type) (draw : E -> Z -> Z -> Z * E) cast c e,
  in_bounds draw -> drawn_byte draw e <= 31 -> drawn_bit draw e <= 7 ->
  ~ (drawn_byte draw e = 31 /\ drawn_bit draw e = 7) ->
  power_of_two_bytes draw cast e = Ret (upd (repeat 0 32) (Z.to_nat (drawn_byte draw e)) (2 ^ drawn_bit draw e)) /\
  complement 256 (upd (repeat 0 32) (Z.to_nat (drawn_byte draw e)) (2 ^ drawn_bit draw e)) =
    2 ^ (8 * drawn_byte draw e + drawn_bit draw e) /\
  power_of_two_samples draw cast c e = Ret true.
Proof. exact @samples_pass. Qed.
Print Assumptions C82_power_partial.
Example C82_power_case :
  in_bounds counting /\ drawn_byte counting 5 = 5 /\ drawn_bit counting 5 = 6 /\
  power_of_two_samples counting (fun _ => Undef OutOfBounds) debug_strict 5 = Ret true.
Proof. split; [exact counting_in_bounds|]. repeat split; vm_compute; reflexivity. Qed.

(** The distributions include their upper bounds. Byte 32 is past the end of the array, bit 7 of byte 31 makes the
    integer negative, and 2^8 does not fit in a byte. *)
Theorem C82_power_refuted : forall (E : Type) (draw : E -> Z -> Z -> Z * E) cast c e, in_bounds draw ->
  (drawn_bit draw e <= 7 -> drawn_byte draw e = 32 -> power_of_two_samples draw cast c e = Undef OutOfBounds) /\
  (drawn_byte draw e = 31 -> drawn_bit draw e = 7 -> power_of_two_samples draw cast c e = Ret false) /\
  (drawn_bit draw e = 8 -> drawn_byte draw e <= 31 -> cast 256 = Ret 0 -> power_of_two_samples draw cast c e = Ret false) /\
  (drawn_bit draw e = 8 -> forall u, cast 256 = Undef u -> power_of_two_samples draw cast c e = Undef u).
Proof. exact @samples_fail. Qed.
Print Assumptions C82_power_refuted.
Example C82_refuted_case :
  drawn_byte counting 32 = 32 /\ drawn_bit counting 32 = 6 /\
  drawn_byte counting 229 = 31 /\ drawn_bit counting 229 = 7 /\
  drawn_byte counting 7 = 7 /\ drawn_bit counting 7 = 8 /\
  power_of_two_samples counting (fun _ => Ret 0) debug_strict 32 = Undef OutOfBounds /\
  power_of_two_samples counting (fun _ => Ret 0) debug_strict 229 = Ret false /\
  power_of_two_samples counting (fun _ => Ret 0) debug_strict 7 = Ret false.
Proof. repeat split; vm_compute; reflexivity. Qed.

(** How the random cases end, whatever is drawn. *)
Theorem C82_samples_exact : forall (E : Type) (draw : E -> Z -> Z -> Z * E) cast c e,
  in_bounds draw -> (forall b, cast 256 = Ret b -> 0 <= b < 256) ->
  power_of_two_samples draw cast c e = power_verdict cast (drawn_byte draw e) (drawn_bit draw e).
Proof. exact @samples_exact. Qed.
Print Assumptions C82_samples_exact.
Example C82_samples_case :
  power_verdict (fun _ => Ret 0) 31 6 = Ret true /\ one_byte 31 64 = 2 ^ 254 /\ one_byte 31 128 = - 2 ^ 255.
Proof. repeat split; vm_compute; reflexivity. Qed.

(** C83. BuildRandomNumber returns a numeral of at most maxdigits digits, if the engine never yields 2^31. *)
Theorem C83_numeral_partial : forall (E : Type) (engine : E -> Z * E) (seeded : Z -> E) fuel c maxdigits seed,
  engine_ok engine -> no_min engine -> 1 <= maxdigits < 2 ^ 31 -> maxdigits <= Z.of_nat fuel ->
  exists s, build_random_number engine seeded fuel c maxdigits seed = Ret s /\ random_numeral maxdigits s.
Proof. exact @number_ok. Qed.
Print Assumptions C83_numeral_partial.
Example C83_numeral_case :
  engine_ok odd_engine /\ no_min odd_engine /\
  build_random_number odd_engine (fun n => n) 50 debug_strict 50 11 = Ret "149244369516390190111490".
Proof. destruct odd_engine_ok as (A & B). split; [exact A|]. split; [exact B|]. vm_compute; reflexivity. Qed.

(** If it does at once, the behaviour is undefined; with a wrapping abs, the loop goes on until the
    text has nearly 2^64 characters. [fuel] counts its rounds. *)
Theorem C83_min_refuted : forall (E : Type) (engine : E -> Z * E) (seeded : Z -> E) fuel c maxdigits seed,
  fst (engine (seeded seed)) = 2 ^ 31 -> 0 < maxdigits ->
  (strict c = true -> build_random_number engine seeded fuel c maxdigits seed = Undef SignedOverflow) /\
  (strict c = false -> 1 < 2 ^ 31 mod maxdigits -> 11 * Z.of_nat fuel < 2 ^ 63 ->
   build_random_number engine seeded fuel c maxdigits seed = NoFuel).
Proof. exact @number_min. Qed.
Print Assumptions C83_min_refuted.
(** When a later number is 2^31, the text has a minus sign in the middle. *)
Example C83_min_case :
  fst (counter (2 ^ 31)) = 2 ^ 31 /\ 2 ^ 31 mod 400 = 48 /\
  build_random_number counter (fun n => n) 60 release_wrap 400 (2 ^ 31) = NoFuel /\
  build_random_number counter (fun n => n) 60 release_wrap 400 (2 ^ 31 - 2) = Ret "-2147483647-214748364821474836472147483646214748".
Proof. repeat split; vm_compute; reflexivity. Qed.

(** The random tests of is_even pass, whichever argument of BuildRandomNumber is evaluated first. *)
Theorem C83_even_tests : forall (E : Type) (engine : E -> Z * E) (seeded : Z -> E) reps fuel seed_first c e,
  engine_ok engine -> no_min engine -> 400 <= Z.of_nat fuel ->
  (exists e', even_samples engine seeded reps fuel seed_first c (check_twice c) e = Ret (true, e')) /\
  (exists e', even_samples engine seeded reps fuel seed_first c (check_twice_less_one c) e = Ret (true, e')) /\
  (exists e', even_samples engine seeded reps fuel seed_first c (check_minus_twice c) e = Ret (true, e')).
Proof. exact @even_samples_pass. Qed.
Print Assumptions C83_even_tests.
Example C83_even_case :
  exists e', even_samples odd_engine (fun n => n) 2 400 true debug_strict (check_twice_less_one debug_strict) 5 = Ret (true, e').
Proof. eexists. vm_compute; reflexivity. Qed.

(** The signed random arrays of the shift, power and logarithm tests encode integers of the sign they are named after. *)
Theorem C83_signed_bytes : forall (E : Type) (draw : E -> Z -> Z -> Z * E) n e,
  (n = O -> positive_bytes draw n e = Undef OutOfBounds /\ negative_bytes draw n e = Undef OutOfBounds) /\
  (n <> O ->
     (exists l, positive_bytes draw n e = Ret l /\ length l = n /\ digits 256 l /\ 0 <= complement 256 l) /\
     (exists l, negative_bytes draw n e = Ret l /\ length l = n /\ digits 256 l /\ complement 256 l < 0)).
Proof. exact @signed_bytes. Qed.
Print Assumptions C83_signed_bytes.
Example C83_signed_case :
  positive_bytes counting 3 253 = Ret [253; 254; 127] /\ negative_bytes counting 3 254 = Ret [254; 255; 128].
Proof. repeat split; vm_compute; reflexivity. Qed.
