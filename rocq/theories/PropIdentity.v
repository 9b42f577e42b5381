(** Property theorems: the identity tests, and the reference implementation on every operand. *)
From Coq Require Import String.
From Verif Require Import Machine Spec SpecPos SpecText SpecActual SpecPyRun SpecOracle SpecReference SpecIdentity.
From Verif Require Import BigInt TestOracle TestCalc OracleTotal IdentityFacts Examples.
Open Scope string_scope.
Open Scope list_scope.
Open Scope Z_scope.

(** C81. An identity test runs two texts through the calculators and passes exactly if the library
    computes the same number for both. What it compares is given by [ends_with]. *)
Theorem C81_identity : forall fuel c sl1 ml1 sl2 ml2 in1 in2, strict c = false ->
  (forall op, In op (tokens in1) \/ In op (tokens in2) -> ~ takes_log op) ->
  verify_identity fuel c sl1 ml1 sl2 ml2 in1 in2 =
    (v <- ends_with fuel c (tokens in1) None [] [] false ;; w <- ends_with fuel c (tokens in2) None [] [] false ;; compared v w).
Proof. exact identity_exact. Qed.
Print Assumptions C81_identity.
(** 2^32 + 5 modulo 7 both ways, and two numbers that are not equal. *)
Example C81_identity_case :
  ends_with 100 release_wrap (tokens "7 4294967301 b%") None [] [] false = Ret (Some 2) /\
  verify_identity 100 release_wrap (fun _ _ => NoFuel) (fun _ _ => NoFuel) (fun _ _ _ => NoFuel) (fun _ _ _ => NoFuel)
    "7 4294967301 b%" "2" = Ret true /\
  verify_identity 100 release_wrap (fun _ _ => NoFuel) (fun _ _ => NoFuel) (fun _ _ _ => NoFuel) (fun _ _ _ => NoFuel)
    "7 4294967301 b%" "3" = Ret false.
Proof. repeat split; vm_compute; reflexivity. Qed.

(** The reference implementation's results have no say in it: a calculation ends with what the library
    computes, or with -33, or with an exception of the reference implementation. *)
Theorem C81_library_alone : forall fuel c ops, let o := ends_with fuel c ops None [] [] false in
  o = Ret (Some (-33)) \/ o = Throw OverflowError \/ o = library_ends fuel c ops None [].
Proof. exact library_alone. Qed.
Print Assumptions C81_library_alone.
(** (-3)^3 modulo 5 is wrong in the library (C15). The test passes: the wrong result is the last one. *)
Example C81_library_alone_case :
  library_ends 100 release_wrap (tokens "5 3 -3 tModPow") None [] = Ret (Some 4294967294) /\
  Z.rem ((-3) ^ 3) 5 = -2 /\
  verify_identity 100 release_wrap (fun _ _ => NoFuel) (fun _ _ => NoFuel) (fun _ _ _ => NoFuel) (fun _ _ _ => NoFuel)
    "5 3 -3 tModPow" "4294967294" = Ret true /\
  ends_with 100 release_wrap (tokens "5 3 -3 tModPow 1 b+") None [] [] false = Ret (Some (-33)).
Proof. repeat split; vm_compute; reflexivity. Qed.
(** The exception: 2 is raised to 0 by the library and to -2^32 by the reference implementation. *)
Example C81_exception_case :
  library_ends 100 release_wrap (tokens "4294967294 5 3 -3 tModPow b- 2 bPow") None [] = Ret (Some 1) /\
  ends_with 100 release_wrap (tokens "4294967294 5 3 -3 tModPow b- 2 bPow") None [] [] false = Throw OverflowError /\
  verify_identity 100 release_wrap (fun _ _ => NoFuel) (fun _ _ => NoFuel) (fun _ _ _ => NoFuel) (fun _ _ _ => NoFuel)
    "4294967294 5 3 -3 tModPow b- 2 bPow" "1" = Throw OverflowError.
Proof. repeat split; vm_compute; reflexivity. Qed.

(** When the calculators took different operands in both texts, the test passes whatever the results are. *)
Theorem C81_both_differ_refuted : forall fuel c sl1 ml1 sl2 ml2 in1 in2, strict c = false ->
  (forall op, In op (tokens in1) \/ In op (tokens in2) -> ~ takes_log op) ->
  ends_with fuel c (tokens in1) None [] [] false = Ret (Some (-33)) ->
  ends_with fuel c (tokens in2) None [] [] false = Ret (Some (-33)) ->
  verify_identity fuel c sl1 ml1 sl2 ml2 in1 in2 = Ret true.
Proof. exact both_differ. Qed.
Print Assumptions C81_both_differ_refuted.
Example C81_both_differ_case :
  ends_with 100 release_wrap (tokens "5 3 -3 tModPow 1 b+") None [] [] false = Ret (Some (-33)) /\
  ends_with 100 release_wrap (tokens "5 3 -3 tModPow 2 b+") None [] [] false = Ret (Some (-33)) /\
  library_ends 100 release_wrap (tokens "5 3 -3 tModPow 1 b+") None [] = Ret (Some 4294967295) /\
  library_ends 100 release_wrap (tokens "5 3 -3 tModPow 2 b+") None [] = Ret (Some 4294967296) /\
  verify_identity 100 release_wrap (fun _ _ => NoFuel) (fun _ _ => NoFuel) (fun _ _ _ => NoFuel) (fun _ _ _ => NoFuel)
    "5 3 -3 tModPow 1 b+" "5 3 -3 tModPow 2 b+" = Ret true.
Proof. repeat split; vm_compute; reflexivity. Qed.

(** The tests of the operator % never fail: they run the first text twice. *)
Theorem C81_modulus_refuted : forall fuel c sl1 ml1 sl2 ml2 in1 in2, strict c = false ->
  (forall op, In op (tokens in1) -> ~ takes_log op) ->
  verify_identity_mod fuel c sl1 ml1 sl2 ml2 in1 in2 <> Ret false /\
  verify_identity_mod fuel c sl1 ml1 sl2 ml2 in1 in2 = (v <- ends_with fuel c (tokens in1) None [] [] false ;; compared v v).
Proof. exact identity_mod_exact. Qed.
Print Assumptions C81_modulus_refuted.
Example C81_modulus_case :
  verify_identity_mod 100 release_wrap (fun _ _ => NoFuel) (fun _ _ => NoFuel) (fun _ _ _ => NoFuel) (fun _ _ _ => NoFuel)
    "7 4294967301 b%" "3" = Ret true.
Proof. vm_compute; reflexivity. Qed.

(** C73 without conditions on the operands: division by 0, negative exponents and shifts of any size. *)
Theorem C73_every_operand : forall c lg a b x y op f, strict c = false -> represents a x -> represents b y ->
  In (op, f) ref_binary_table ->
  match f x y with
  | Ret v => exists r s, mine_binary c lg a b op = Ret (r, s) /\ represents r v /\ represents s (second_result op x y)
  | o => mine_binary c lg a b op = Throw OverflowError /\ o = Throw OverflowError
  end.
Proof. exact binary_every_operand. Qed.
Print Assumptions C73_every_operand.
(** -5 divided by 0, 3 to the power -1 and a shift by 2^34. *)
Example C73_every_operand_case :
  mine_binary release_wrap (fun _ _ _ => NoFuel) (Big (-5) []) (Big 0 []) "b/" = Ret (Big (-7) [], Big 0 []) /\
  ref_quotient (-5) 0 = -7 /\
  mine_binary release_wrap (fun _ _ _ => NoFuel) (Big 1 []) (Big (-1) []) "bPow" = Ret (Big 1 [], Big 0 []) /\
  ref_exponent (-1) = 255 /\
  mine_binary release_wrap (fun _ _ _ => NoFuel) (Big 1 []) (Big 1 [0; 4]) "b<<" = Throw OverflowError /\
  ref_shift 1 (2 ^ 34) = Throw OverflowError.
Proof. repeat split; vm_compute; reflexivity. Qed.

(** These are the meanings of the operators, where they have one. *)
Theorem C73_table : forall op f ok g x y, In (op, (f, ok)) binary_table -> In (op, g) ref_binary_table -> ok y = true ->
  g x y = Ret (f x y).
Proof. exact ref_table_meaning. Qed.
Print Assumptions C73_table.

Theorem C73_every_modulus : forall c a b m x e z, strict c = false -> represents a x -> represents b e -> represents m z ->
  returns (mine_ternary c a b m "tModPow") (ref_power_mod x e z).
Proof. exact mine_ternary_total. Qed.
Print Assumptions C73_every_modulus.
(** 2^(-1) is read as 2^255; modulo 0 nothing is taken off. *)
Example C73_every_modulus_case :
  mine_ternary release_wrap (Big 2 []) (Big (-1) []) (Big 7 []) "tModPow" = Ret (Big 1 []) /\ ref_power_mod 2 (-1) 7 = 1 /\
  mine_ternary release_wrap (Big 2 []) (Big 40 []) (Big 0 []) "tModPow" = Ret (Big 1 [0; 256]).
Proof. repeat split; vm_compute; reflexivity. Qed.
