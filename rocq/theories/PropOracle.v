(** Property theorems: the reference implementation and the stack calculator of the tests. *)
From Coq Require Import String.
From Verif Require Import Machine Spec SpecPos SpecText SpecGcd SpecActual SpecPyRun SpecOracle.
From Verif Require Import BigInt BigIntBytes BigIntText TestOracle TestCalc TestRandom CalcFacts RandomFacts Examples.
Open Scope string_scope.
Open Scope list_scope.
Open Scope Z_scope.

(** C73. The functions on byte strings of the tests' reference implementation are exact. *)
Theorem C73_bytes : forall l1 l2 l3 x y z, encodes l1 x -> encodes l2 y -> encodes l3 z ->
  encoded (ref_add l1 l2) (x + y) /\ encoded (ref_negate l1) (- x) /\ encoded (ref_multiply l1 l2) (x * y) /\
  encoded (ref_max l1 l2) (Z.max x y) /\ encoded (ref_gcd l1 l2) (Z.gcd x y) /\
  encoded (ref_not l1) (Z.lnot x) /\ encoded (ref_and l1 l2) (Z.land x y) /\
  encoded (ref_or l1 l2) (Z.lor x y) /\ encoded (ref_xor l1 l2) (Z.lxor x y) /\
  encoded (ref_trim l1) x /\ encoded (ref_shift_grow l1) (2 * x) /\ encoded (ref_shift_right l1) (x / 2) /\
  (y <> 0 -> encoded (ref_divide l1 l2) (Z.quot x y) /\ encoded (ref_remainder l1 l2) (Z.rem x y)) /\
  (0 <= y -> encoded (ref_pow l1 l2) (x ^ y)) /\
  (0 <= y -> z <> 0 -> encoded (ref_mod_pow l1 l2 l3) (Z.rem (x ^ y) z)).
Proof. exact bytes_exact. Qed.
Print Assumptions C73_bytes.
(** -30000 and 7: the product, the quotient and the remainder. *)
Example C73_bytes_case :
  encodes [208; 138] (-30000) /\ encodes [7] 7 /\
  ref_multiply [208; 138] [7] = Ret [176; 203; 252; 255] /\ complement 256 [176; 203; 252; 255] = -210000 /\
  ref_divide [208; 138] [7] = Ret [67; 239] /\ complement 256 [67; 239] = -4285 /\
  ref_remainder [208; 138] [7] = Ret [251; 255].
Proof. split; [encoding|]. split; [encoding|]. repeat split; vm_compute; reflexivity. Qed.

Theorem C73_shift : forall c l1 l2 x s, strict c = false -> encodes l1 x -> encodes l2 s -> Z.abs s < 2 ^ 34 ->
  encoded (ref_shift_left c l1 l2) (Z.shiftl x s).
Proof. exact bytes_shift. Qed.
Print Assumptions C73_shift.
Example C73_shift_case :
  ref_shift_left release_wrap [208; 138] [245] = Ret [241] /\ complement 256 [245] = -11 /\ Z.shiftl (-30000) (-11) = -15.
Proof. repeat split; vm_compute; reflexivity. Qed.

(** Its operators on BigInteger objects. *)
Theorem C73_unary : forall c lg a x op f, strict c = false -> represents a x -> In (op, f) unary_table ->
  returns (mine_unary c lg a op) (f x).
Proof. exact mine_unary_exact. Qed.
Print Assumptions C73_unary.
Example C73_unary_case :
  represents (Big (-1) [0; 1]) (- 2 ^ 32) /\
  mine_unary release_wrap (fun _ _ => NoFuel) (Big (-1) [0; 1]) "u~" = Ret (Big 1 [4294967295]).
Proof. split; [repr|vm_compute; reflexivity]. Qed.

Theorem C73_binary : forall c lg a b x y op f ok, strict c = false -> represents a x -> represents b y ->
  In (op, (f, ok)) binary_table -> ok y = true ->
  exists r s, mine_binary c lg a b op = Ret (r, s) /\ represents r (f x y) /\ represents s (second_result op x y).
Proof. exact mine_binary_exact. Qed.
Print Assumptions C73_binary.
(** -(2^32 + 5) divided by 7: the remainder, which the library gets wrong (C07), is right here. *)
Example C73_binary_case :
  represents (Big (-1) [5; 1]) (- (2 ^ 32 + 5)) /\ represents (Big 7 []) 7 /\
  mine_binary release_wrap (fun _ _ _ => NoFuel) (Big (-1) [5; 1]) (Big 7 []) "bDivRem" =
    Ret (Big (-613566757) [], Big (-2) []).
Proof. split; [repr|]. split; [repr|]. vm_compute; reflexivity. Qed.

Theorem C73_binary_rejects : forall c lg a b x y op, represents a x -> represents b y ->
  ~ In op (map fst binary_table) -> ~ takes_log op -> mine_binary c lg a b op = Throw InvalidArgument.
Proof. exact OracleFacts3.mine_binary_other. Qed.
Print Assumptions C73_binary_rejects.

Theorem C73_ternary : forall c a b m x e z, strict c = false -> represents a x -> represents b e -> represents m z ->
  0 <= e -> z <> 0 -> returns (mine_ternary c a b m "tModPow") (Z.rem (x ^ e) z).
Proof. exact mine_ternary_exact. Qed.
Print Assumptions C73_ternary.
(** (-3)^3 modulo 5, which the library gets wrong (C15). *)
Example C73_ternary_case :
  mine_ternary release_wrap (Big (-3) []) (Big 3 []) (Big 5 []) "tModPow" = Ret (Big (-2) []).
Proof. vm_compute; reflexivity. Qed.

(** Its unary operators do not reject an unknown name: every other name squares, while the library's side throws. *)
Theorem C73_unknown_refuted : forall c lg a x op, strict c = false -> represents a x ->
  ~ In op (map fst unary_table) -> ~ takes_log op ->
  returns (mine_unary c lg a op) (x * x) /\ sn_unary c lg a op = Throw RuntimeError.
Proof. exact mine_unary_unknown. Qed.
Print Assumptions C73_unknown_refuted.
Example C73_unknown_case :
  mine_unary release_wrap (fun _ _ => NoFuel) (Big 12 []) "uCube" = Ret (Big 144 []) /\
  ~ In "uCube" (map fst unary_table) /\ ~ takes_log "uCube".
Proof.
  split; [vm_compute; reflexivity|]. split; [cbn; intuition discriminate|]. intros [H|[H|H]]; discriminate.
Qed.

(** C74. How a text is cut into tokens, and what a byte string printed by the
    tests is read back as. *)
Theorem C74_tokens : forall input toks, pieces input toks <-> toks = tokens input.
Proof. exact tokens_pieces. Qed.
Print Assumptions C74_tokens.
Example C74_tokens_case : pieces "make 1  endmake " ["make"; "1"; ""; "endmake"; ""].
Proof. apply C74_tokens. reflexivity. Qed.
Theorem C74_notation : forall c bytes rest, strict c = false -> digits 256 bytes ->
  exists toks, tokens (print_bytes bytes ++ rest) = "make" :: toks /\
  exists b, do_construction c toks = Ret (b, tokens rest) /\ represents b (operand bytes).
Proof. exact printed_value. Qed.
Print Assumptions C74_notation.

(** That is the value that was printed exactly when no byte is a blank. *)
Theorem C74_blanks_refuted : forall bytes, digits 256 bytes -> (operand bytes = complement 256 bytes <-> ~ In 32 bytes).
Proof. exact blanks_lost_value. Qed.
Print Assumptions C74_blanks_refuted.
(** 0x0120 = 288 is read as 0x010000, and 0x20 as 0. *)
Example C74_notation_case :
  complement 256 [32; 1] = 288 /\ operand [32; 1] = 65536 /\ operand [32] = 0 /\ operand [31; 1] = 287 /\
  do_construction release_wrap (tl (tokens (print_bytes [32; 1] ++ "bAdd"))) = Ret (Big 65536 [], ["bAdd"]).
Proof. repeat split; vm_compute; reflexivity. Qed.

(** C75. How every test ends that runs the two calculators on a text without logarithms. *)
Theorem C75_verdict : forall fuel c sl1 ml1 sl2 ml2 outs input, strict c = false ->
  (forall op, In op (tokens input) -> ~ takes_log op) ->
  verify fuel c sl1 ml1 sl2 ml2 outs input = verdict fuel c outs (tokens input) None [].
Proof. exact verify_exact. Qed.
Print Assumptions C75_verdict.

(** Only these operators can make one fail. *)
Theorem C75_fails_only_by : forall fuel c outs ops making st,
  verdict fuel c outs ops making st = Ret false -> exists op, In op ops /\ In op blamed.
Proof. exact fails_only_by. Qed.
Print Assumptions C75_fails_only_by.
(** Reducing a negative power fails (C15), and shifting -(2^64 - 1) right by 32 (C12). *)
Example C75_verdict_case :
  verify 100 release_wrap (fun _ _ => NoFuel) (fun _ _ => NoFuel) (fun _ _ _ => NoFuel) (fun _ _ _ => NoFuel) false
    "5 3 -3 tModPow" = Ret false /\
  verdict 100 release_wrap false ["5"; "3"; "-3"; "tModPow"] None [] = Ret false /\
  verdict 100 release_wrap false ["32"; "-18446744073709551615"; "b>>"] None [] = Ret false /\
  verdict 100 release_wrap false ["5"; "3"; "3"; "tModPow"; "7"; "b*"; "uAbs"] None [] = Ret true.
Proof. repeat split; vm_compute; reflexivity. Qed.

(** A test of div_rem notices a wrong remainder in a debug build only, where it aborts. *)
Theorem C75_div_rem_refuted : forall fuel c s1 m1 s2 m2 l1 l2 x y, strict c = false -> digits 256 l1 -> digits 256 l2 ->
  operand l2 = x -> operand l1 = y -> text x = Ret x -> text y = Ret y -> y <> 0 -> text (Z.quot x y) = Ret (Z.quot x y) ->
  verify fuel c s1 m1 s2 m2 true (print_bytes l1 ++ print_bytes l2 ++ "bDivRem") =
  if dbg c && negb (divmod_rem x y =? Z.rem x y) then AssertFail else Ret true.
Proof. exact divrem_any. Qed.
Print Assumptions C75_div_rem_refuted.
(** -(2^32 + 5) and 7. *)
Example C75_div_rem_case :
  operand [251; 255; 255; 255; 254; 255] = - (2 ^ 32 + 5) /\ operand [7] = 7 /\
  text (- (2 ^ 32 + 5)) = Ret (- (2 ^ 32 + 5)) /\
  divmod_rem (- (2 ^ 32 + 5)) 7 = 4294967294 /\ Z.rem (- (2 ^ 32 + 5)) 7 = -2 /\
  verify 100 release_wrap (fun _ _ => NoFuel) (fun _ _ => NoFuel) (fun _ _ _ => NoFuel) (fun _ _ _ => NoFuel) true
    (print_bytes [7] ++ print_bytes [251; 255; 255; 255; 254; 255] ++ "bDivRem") = Ret true /\
  verify 100 (Cfg true false) (fun _ _ => NoFuel) (fun _ _ => NoFuel) (fun _ _ _ => NoFuel) (fun _ _ _ => NoFuel) true
    (print_bytes [7] ++ print_bytes [251; 255; 255; 255; 254; 255] ++ "bDivRem") = AssertFail.
Proof. repeat split; vm_compute; reflexivity. Qed.

(** C76. The random operands: the generator is passed by value, so all samples of a test are one and the same, with
    both operands equal. *)
Theorem C76_same_operands_refuted : forall (E : Type) samples (get : E -> outcome (list Z)) run op e l, get e = Ret l ->
  two_operand_samples (S samples) get run op e = (ok <- run (print_bytes l ++ print_bytes l ++ op)%string ;; Ret ok).
Proof. exact @same_samples. Qed.
Print Assumptions C76_same_operands_refuted.

(** The bytes are at most 127, so no operand is negative. *)
Theorem C76_never_negative_refuted : forall (E : Type) (draw : E -> Z -> Z -> Z * E) copied tries lo hi e l,
  in_bounds draw -> lo <= hi -> any_size_bytes draw copied tries lo hi e = Ret l -> low7 l /\ 0 <= operand l.
Proof. exact @random_operand. Qed.
Print Assumptions C76_never_negative_refuted.

(** Such an operand is 0, although arrays of zeros are drawn again, when all bytes are zeros and blanks. *)
Theorem C76_zero_operand : forall l, low7 l -> (operand l = 0 <-> Forall (fun b => b = 0 \/ b = 32) l).
Proof. exact operand_zero. Qed.
Print Assumptions C76_zero_operand.

(** So a test of div_rem with random operands never notices the wrong remainder of C07, in a debug build or not. *)
Theorem C76_div_rem : forall fuel c s1 m1 s2 m2 l1 l2, strict c = false -> low7 l1 -> low7 l2 ->
  Z.of_nat (List.length l1) <= 2 ^ 28 -> Z.of_nat (List.length l2) <= 2 ^ 28 ->
  verify fuel c s1 m1 s2 m2 true (print_bytes l1 ++ print_bytes l2 ++ "bDivRem") =
  if operand l1 =? 0 then Throw DivideByZero else Ret true.
Proof. exact divrem_random. Qed.
Print Assumptions C76_div_rem.
Theorem C76_div_rem_samples : forall (E : Type) (draw : E -> Z -> Z -> Z * E) samples copied tries fuel c s1 m1 s2 m2 lo hi e l,
  strict c = false -> in_bounds draw -> lo <= hi <= 2 ^ 28 -> any_size_bytes draw copied tries lo hi e = Ret l ->
  two_operand_samples (S samples) (any_size_bytes draw copied tries lo hi) (verify fuel c s1 m1 s2 m2 true) "bDivRem" e =
  if operand l =? 0 then Throw DivideByZero else Ret true.
Proof. exact @divrem_samples. Qed.
Print Assumptions C76_div_rem_samples.
(** A generator that counts: the array is the same in every sample. *)
Example C76_div_rem_samples_case :
  any_size_bytes counting false 10 1 5 7 = Ret [8; 9; 10] /\ any_size_bytes counting true 10 1 5 7 = Ret [7; 8; 9] /\
  operand [8; 9; 10] = 657672 /\
  two_operand_samples 2 (any_size_bytes counting false 10 1 5)
    (verify 100 release_wrap (fun _ _ => NoFuel) (fun _ _ => NoFuel) (fun _ _ _ => NoFuel) (fun _ _ _ => NoFuel) true) "bDivRem" 7 = Ret true.
Proof. repeat split; vm_compute; reflexivity. Qed.
Example C76_counting_in_bounds : in_bounds counting.
Proof. exact counting_in_bounds. Qed.
