(** Property theorems: the tests of the constants and of the predicates. *)
From Coq Require Import String.
From Verif Require Import Machine SpecOracle SpecNumbers BigInt TestOracle TestRandom TestNumbers TestBodies TestConstants RandomFacts NumberFacts
  TestConstantFacts EvenEnds Examples.

(** C91. The tests of properties.cpp pass with every generator that stays within its
    bounds. The exception: where shifting a negative number is undefined,
    RunMinusOneTests is, because it makes -1 from four bytes (C22). *)
Theorem C91_property_tests : forall (c : cfg) {E : Type} (draw : E -> Z -> Z -> Z * E) (copied : bool), in_bounds draw ->
  forall e,
    zero_tests draw copied c e = Ret true /\ one_tests draw copied c e = Ret true /\
    minus_one_tests draw copied c e = (if strict c then Undef ShiftNegative else Ret true).
Proof. exact @property_tests. Qed.
Print Assumptions C91_property_tests.

(** Without bytes, so that the division of zero is skipped, and with five. *)
Example C91_property_case :
  in_bounds counting /\
  any_bytes counting false 0 1024 1025 = [] /\ zero_tests counting false debug_strict 1025 = Ret true /\
  any_bytes counting false 0 1024 5 = [6; 7; 8; 9; 10] /\ zero_tests counting false debug_strict 5 = Ret true /\
  one_tests counting false debug_strict 5 = Ret true /\
  minus_one_tests counting false debug_strict 5 = Undef ShiftNegative /\
  minus_one_tests counting false release_wrap 5 = Ret true.
Proof. split; [exact counting_in_bounds|]. repeat split; vm_compute; reflexivity. Qed.

(** The tests of is_zero and is_one pass in every configuration. *)
Theorem C91_predicate_tests : forall c, is_zero_test c = Ret true /\ is_one_test c = Ret true.
Proof. exact predicate_tests. Qed.
Print Assumptions C91_predicate_tests.

(** The test of is_even never fails and never throws. With an engine that never yields 2^31
    it passes; otherwise it may also overflow or, with a wrapping abs, draw digits without
    end: [fuel] counts the rounds of that loop (C83). *)
Theorem C91_even_test : forall (E : Type) (engine : E -> Z * E) (seeded : Z -> E) fuel seed_first c e, 400 <= Z.of_nat fuel ->
  is_even_test engine seeded fuel seed_first c e = Ret true \/
  is_even_test engine seeded fuel seed_first c e = (if strict c then Undef SignedOverflow else NoFuel).
Proof. exact even_test_ends. Qed.
Print Assumptions C91_even_test.

Theorem C91_even_test_passes : forall (E : Type) (engine : E -> Z * E) (seeded : Z -> E) fuel seed_first c e,
  engine_ok engine -> no_min engine -> 400 <= Z.of_nat fuel ->
  is_even_test engine seeded fuel seed_first c e = Ret true.
Proof. exact even_test_passes. Qed.
Print Assumptions C91_even_test_passes.
(** Generators that never yield 2^31, and one that yields it first. *)
Example C91_even_case :
  engine_ok odd_engine /\ no_min odd_engine /\
  is_even_test odd_engine (fun n => n) 400 true debug_strict 5 = Ret true /\
  is_even_test counter (fun n => n) 400 true debug_strict (2 ^ 31) = Undef SignedOverflow /\
  is_even_test counter (fun n => n) 400 true release_wrap (2 ^ 31) = NoFuel.
Proof. destruct odd_engine_ok as (A & B). split; [exact A|]. split; [exact B|]. split; [|split]; vm_compute; reflexivity. Qed.

(** How the test of is_power_of_two ends, whatever is drawn: [power_verdict] as in C82. *)
Theorem C91_power_of_two_test : forall (E : Type) (draw : E -> Z -> Z -> Z * E) cast c e,
  in_bounds draw -> (forall b, cast 256 = Ret b -> 0 <= b < 256) ->
  is_power_of_two_test draw cast c e = power_verdict cast (drawn_byte draw e) (drawn_bit draw e).
Proof. exact power_of_two_test_exact. Qed.
Print Assumptions C91_power_of_two_test.
Example C91_power_of_two_case :
  is_power_of_two_test counting (fun _ => Ret 0) debug_strict 5 = Ret true /\
  is_power_of_two_test counting (fun _ => Ret 0) debug_strict 229 = Ret false /\
  is_power_of_two_test counting (fun _ => Ret 0) debug_strict 32 = Undef OutOfBounds.
Proof. repeat split; vm_compute; reflexivity. Qed.
