(** Property theorems: how the project's randomised tests end, whatever numbers they draw. *)
From Coq Require Import String.
From Verif Require Import Machine Spec SpecPyRun SpecOracle SpecBodies.
From Verif Require Import BigInt TestOracle TestCalc TestRandom TestNumbers TestBodies RandomFacts BodyFacts BodyAxioms Examples.
Open Scope string_scope.
Open Scope list_scope.
Open Scope Z_scope.

(** C88. The tests of abs, sign, ++ and -- pass with every generator. *)
Theorem C88_unary_tests : forall fuel c s1 m1 s2 m2, strict c = false ->
  forall {E : Type} (draw : E -> Z -> Z -> Z * E) (copied : bool), in_bounds draw ->
  forall lo op e, 0 <= lo <= 1024 -> In op ["uAbs"; "uSign"; "u++"; "u--"]%string ->
    unary_test draw copied (verify fuel c s1 m1 s2 m2 false) lo op e = Ret true.
Proof. exact unary_passes. Qed.
Print Assumptions C88_unary_tests.

Example C88_unary_case :
  in_bounds counting /\ any_bytes counting false 0 1024 5 = [6; 7; 8; 9; 10] /\
  unary_test counting false (running false) 0 "u++" 5 = Ret true.
Proof. split; [exact counting_in_bounds|]. split; vm_compute; reflexivity. Qed.

(** The test of operator~ is undefined when the number drawn cannot be written after the operator. *)
Theorem C88_not_test : forall fuel c s1 m1 s2 m2, strict c = false ->
  forall {E : Type} (draw : E -> Z -> Z -> Z * E) (copied : bool), in_bounds draw -> forall e,
    unary_test draw copied (verify fuel c s1 m1 s2 m2 false) 0 "u~" e =
    if_written (- operand (any_bytes draw copied 0 1024 e) - 1).
Proof. exact not_exact. Qed.
Print Assumptions C88_not_test.

(** 0404040404040404 hexadecimal has 18 decimal digits. *)
Example C88_not_case :
  in_bounds fours /\ any_bytes fours false 0 1024 0 = [4; 4; 4; 4; 4; 4; 4; 4] /\
  operand [4; 4; 4; 4; 4; 4; 4; 4] = 289360691352306692 /\
  if_written (-289360691352306692 - 1) = Undef OutOfBounds /\
  unary_test fours false (running false) 0 "u~" 0 = Undef OutOfBounds /\
  unary_test counting false (running false) 0 "u~" 5 = Ret true.
Proof. split; [exact fours_in_bounds|]. do 4 (split; [vm_compute; reflexivity|]). vm_compute. reflexivity. Qed.

(** The tests of &, |, min and max pass with every generator. *)
Theorem C88_binary_tests : forall fuel c s1 m1 s2 m2, strict c = false ->
  forall {E : Type} (draw : E -> Z -> Z -> Z * E) (copied : bool), in_bounds draw ->
  forall hi small1 k kv op e, 0 <= hi <= 1024 -> (small1 <= 1024)%nat -> In (k, kv) constants -> In op ["b&"; "b|"; "bMin"; "bMax"]%string ->
    binary_test draw copied (verify fuel c s1 m1 s2 m2 false) hi small1 k op e = Ret true.
Proof. exact binary_passes. Qed.
Print Assumptions C88_binary_tests.
Theorem C88_and_test : forall fuel c s1 m1 s2 m2, strict c = false ->
  forall {E : Type} (draw : E -> Z -> Z -> Z * E) (copied : bool), in_bounds draw -> forall e,
    and_test draw copied (verify fuel c s1 m1 s2 m2 false) e = Ret true.
Proof. exact and_passes. Qed.
Print Assumptions C88_and_test.
Example C88_binary_case :
  In ([0; 0; 0; 128; 0], 2 ^ 31) constants /\
  binary_test counting false (running false) 1024 2 [0; 0; 0; 128; 0] "bMin" 5 = Ret true /\
  and_test counting false (running false) 5 = Ret true.
Proof. split; [cbn; auto|]. split; vm_compute; reflexivity. Qed.

(** The test of operator^ combines the number drawn with -1, which is operator~ again. *)
Theorem C88_xor_test : forall fuel c s1 m1 s2 m2, strict c = false ->
  forall {E : Type} (draw : E -> Z -> Z -> Z * E) (copied : bool), in_bounds draw -> forall e,
    binary_test draw copied (verify fuel c s1 m1 s2 m2 false) 1024 5 [0; 0; 0; 128; 0] "b^" e =
    if_written (- operand (any_bytes draw copied 0 1024 e) - 1).
Proof. exact xor_exact. Qed.
Print Assumptions C88_xor_test.
Example C88_xor_case :
  binary_test fours false (running false) 1024 5 [0; 0; 0; 128; 0] "b^" 0 = Undef OutOfBounds /\
  binary_test counting false (running false) 1024 5 [0; 0; 0; 128; 0] "b^" 5 = Ret true.
Proof. split; vm_compute; reflexivity. Qed.

(** The tests of the product pass with every generator, and so do those of its laws. *)
Theorem C88_products : forall fuel c s1 m1 s2 m2, strict c = false ->
  forall {E : Type} (draw : E -> Z -> Z -> Z * E) (copied : bool), in_bounds draw -> forall e,
    let run := verify fuel c s1 m1 s2 m2 false in
    multiply_two_large draw copied run e = Ret true /\ multiply_two_small draw run e = Ret true /\
    multiply_large_small draw copied run e = Ret true /\ multiply_large_zero draw copied run e = Ret true /\
    multiply_small_zero draw run e = Ret true /\
    op_multiply_positive draw copied run e = Ret true /\ op_multiply_zero draw copied run e = Ret true.
Proof. exact products_pass. Qed.
Print Assumptions C88_products.
Theorem C88_product_laws : forall fuel c s1 m1 s2 m2, strict c = false ->
  forall {E : Type} (draw : E -> Z -> Z -> Z * E) (copied : bool), in_bounds draw -> forall e,
    let ident := verify_identity fuel c s1 m1 s2 m2 in
    multiply_axiom_one draw copied ident e = Ret true /\ multiply_axiom_zero draw copied ident e = Ret true /\
    multiply_axiom_comm draw copied ident e = Ret true /\
    op_multiply_axiom_one draw copied ident e = Ret true /\ op_multiply_axiom_zero draw copied ident e = Ret true.
Proof. exact product_axioms. Qed.
Print Assumptions C88_product_laws.
Example C88_products_case :
  multiply_two_large counting false (running false) 5 = Ret true /\
  multiply_axiom_comm counting false (verify_identity 100 release_wrap no_log1 no_log1 no_log2 no_log2) 5 = Ret true.
Proof. split; vm_compute; reflexivity. Qed.

(** The division tests agree unless a number they divide by was drawn as zero. It can be: the numbers
    are drawn so that not all bytes are zero, but a byte 32, a blank, is taken for zeros when the operand is read. *)
Theorem C88_division : forall fuel c s1 m1 s2 m2, strict c = false ->
  forall op outs large small, In (op, outs) dividing -> random_array large -> random_array small ->
    let run := verify fuel c s1 m1 s2 m2 outs in
    let both := _ <- by_zero (operand large) ;; by_zero (operand small) in
    two_large run op large = by_zero (operand large) /\
    two_small run op small = by_zero (operand small) /\
    large_and_small run op large small = both /\
    large_and_zero run op large = by_zero (operand large) /\
    small_and_zero run op small = by_zero (operand small) /\
    positive_test run op large small = both /\ negative_test run op large small = both.
Proof. exact division_exact. Qed.
Print Assumptions C88_division.
Example C88_division_case :
  random_array [1; 2; 3; 4; 5] /\ random_array [32; 0] /\ operand [32; 0] = 0 /\
  two_large (running false) "bDivide" [1; 2; 3; 4; 5] = Ret true /\
  two_small (running true) "bDivRem" [32; 0] = Throw DivideByZero /\
  large_and_small (running false) "b%" [1; 2; 3; 4; 5] [32; 0] = Throw DivideByZero.
Proof.
  split; [now apply random_array_compute|]. split; [now apply random_array_compute|]. do 3 (split; [vm_compute; reflexivity|]). vm_compute. reflexivity.
Qed.

(** The tests of the laws of the quotient and the remainder end likewise. *)
Theorem C88_quotient_laws : forall fuel c s1 m1 s2 m2, strict c = false ->
  forall op large, random_array large ->
    let ident := verify_identity fuel c s1 m1 s2 m2 in
    (In op ["bDivide"; "b/"]%string -> over_one ident op large = Ret true) /\
    zero_over ident "bDivide" large = by_zero (operand large).
Proof. exact quotient_axioms_exact. Qed.
Print Assumptions C88_quotient_laws.
Theorem C88_remainder_laws : forall fuel c s1 m1 s2 m2, strict c = false ->
  forall large, random_array large -> large <> [] ->
    remainder_axioms (verify_identity fuel c s1 m1 s2 m2) "bRemainder" large = by_zero (operand large) /\
    modulo_itself (verify_identity_mod fuel c s1 m1 s2 m2) "b%" large = by_zero (operand large) /\
    modulus_axioms (verify_identity_mod fuel c s1 m1 s2 m2) "b%" large = by_zero (operand large).
Proof. exact remainder_laws_exact. Qed.
Print Assumptions C88_remainder_laws.
Example C88_laws_case :
  let ident := verify_identity 100 release_wrap no_log1 no_log1 no_log2 no_log2 in
  over_one ident "b/" [1; 2; 3; 4; 5] = Ret true /\ zero_over ident "bDivide" [32; 0] = Throw DivideByZero /\
  remainder_axioms ident "bRemainder" [1; 2; 3; 4; 5] = Ret true /\
  modulus_axioms (verify_identity_mod 100 release_wrap no_log1 no_log1 no_log2 no_log2) "b%" [32; 0] = Throw DivideByZero.
Proof. cbv zeta. do 3 (split; [vm_compute; reflexivity|]). vm_compute. reflexivity. Qed.

(** The boundary tests draw nothing and pass. *)
Theorem C88_boundary : forall fuel c s1 m1 s2 m2, strict c = false ->
  forall op outs, In (op, outs) (dividing ++ [("bMultiply", false); ("b*", false)]) ->
    boundary_test (verify fuel c s1 m1 s2 m2 outs) op = Ret true.
Proof. exact boundary_passes. Qed.
Print Assumptions C88_boundary.
Example C88_boundary_case : boundary_test (running true) "bDivRem" = Ret true.
Proof. vm_compute. reflexivity. Qed.
