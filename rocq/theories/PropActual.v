(** Property theorems: what every call does, right or wrong. *)
From Coq Require Import String.
From Verif Require Import Machine Spec SpecApi SpecGcd SpecReduce BigInt ApiMem ApiRun SpecMem SpecRun SpecModPow SpecActual.
From Verif Require Import ActualFacts ActualLaws AssertCase PowLaws Examples.

(** C12, C11. Every shift of every value by every int; [shift_by] is a left shift
    when its count is positive, [right_shift] otherwise. *)
Theorem C12_shr_every_case_refuted : forall c a x n,
  represents a x -> is_int n -> denotes (bi_shr c a n) (shift_by c x (- n)).
Proof. exact shr_exact. Qed.
Print Assumptions C12_shr_every_case_refuted.
Theorem C11_shl_every_case : forall c a x n,
  represents a x -> is_int n -> denotes (bi_shl c a n) (shift_by c x n).
Proof. exact shl_exact. Qed.
Print Assumptions C11_shl_every_case.
(** -(2^64 - 1) >> 32; -(2^64 + 1) >> 33 and << -33; a value of 2^26 limbs. *)
Example C12_every_case :
  represents (Big (-1) [4294967295; 4294967295]) (- (2 ^ 64 - 1)) /\
  shift_by debug_strict (- (2 ^ 64 - 1)) (- (32)) = Ret 0 /\
  bi_shr debug_strict (Big (-1) [4294967295; 4294967295]) 32 = Ret (Big 0 []) /\
  shift_by debug_strict (- (2 ^ 64 + 1)) (- (33)) = Ret (- 2147483649) /\
  bi_shl debug_strict (Big (-1) [1; 0; 1]) (-33) = Ret (Big (-1) [2147483649]) /\
  int_of (32 * 2 ^ 26) = - 2 ^ 31.
Proof. split; [repr|]. repeat split; vm_compute; reflexivity. Qed.

(** C17. mod_pow for every base, exponent and modulus; [leaky_mod_pow] is the
    case of a modulus of 32 limbs or more. It is right when that function is. *)
Theorem C17_mod_pow_every_case_refuted : forall c a b m x e z,
  represents a x -> represents b e -> represents m z ->
  denotes (bi_mod_pow c a b m) (power_mod (dbg c) x e z).
Proof. exact mod_pow_exact. Qed.
Print Assumptions C17_mod_pow_every_case_refuted.
Theorem C17_mod_pow_right_iff : forall c a b m x e z,
  represents a x -> represents b e -> represents m z ->
  (returns (bi_mod_pow c a b m) (Z.rem (x ^ e) z) <-> power_mod (dbg c) x e z = Ret (Z.rem (x ^ e) z)).
Proof. exact mod_pow_right_iff. Qed.
Print Assumptions C17_mod_pow_right_iff.
(** C50. The calls that fail an assertion. *)
Theorem C50_assert_iff : forall c a b m x e z,
  represents a x -> represents b e -> represents m z ->
  (bi_mod_pow c a b m = AssertFail <-> power_mod (dbg c) x e z = AssertFail).
Proof. exact mod_pow_assert_iff. Qed.
Print Assumptions C50_assert_iff.
(** (2^1024 - 5)^5 modulo 2^1024 - 3 is 2^1024 - 35, but the result exceeds the
    modulus; then an assertion that fails, in a debug build only. *)
Example C17_every_case :
  represents (Big 1 (4294967291 :: repeat 4294967295 31)) (2 ^ 1024 - 5) /\
  represents (Big 1 (4294967293 :: repeat 4294967295 31)) (2 ^ 1024 - 3) /\
  Z.rem ((2 ^ 1024 - 5) ^ 5) (2 ^ 1024 - 3) = 2 ^ 1024 - 35 /\
  match power_mod true (2 ^ 1024 - 5) 5 (2 ^ 1024 - 3) with Ret r => 2 ^ 1024 - 3 <=? r | _ => false end = true /\
  power_mod true (2 ^ 2048 - 2 ^ 1536 + 1) 7 (2 ^ 2048 - 1) = AssertFail.
Proof. split; [repr|]. split; [repr|]. split; [|split; [|exact assert_power]]; vm_compute; reflexivity. Qed.

(** C54. A call with arguments of the right C++ types on objects that stand for
    the integers [s] does what [actual] says: it stores those results and
    touches nothing else, or throws that exception and leaves the store as it
    was, or is undefined, or fails an assertion, or (gcd) is not done within
    [fuel] rounds. *)
Theorem C54_call_exact : forall fuel c s k m,
  typed k -> stands_for m s -> agrees (run_cmd fuel c k m) m (actual fuel c s k).
Proof. exact agrees_cmd. Qed.
Print Assumptions C54_call_exact.
Theorem C54_program_exact : forall fuel c l s m,
  Forall typed l -> stands_for m s ->
  match actual_calls fuel c s l with
  | Some (tr, s') => exists m', run_calls fuel c l m = Some (tr, m') /\ stands_for m' s'
  | None => run_calls fuel c l m = None
  end.
Proof. exact calls_exact. Qed.
Print Assumptions C54_program_exact.
(** x = parse("-18446744073709551615"); x >>= 32 is wrongly 0; y = 7; z = x - y;
    u = pow(y, -1) throws; z = mod_pow(z, y, y + 2) is wrongly 2^32 - 7; then
    div_rem(y, y, y) divides by zero. *)
Definition C54_program : list cmd :=
  [Parse 0%nat "-18446744073709551615"; ShrAssign 0%nat 32; NewInt 1%nat 7; Binary SubA 2%nat 0%nat 1%nat;
   Pow 3%nat 1%nat (-1); NewInt 4%nat 9; ModPow 2%nat 2%nat 1%nat 4%nat].
Example C54_case :
  Forall typed C54_program /\
  option_map (fun p => (fst p, map (snd p) [0; 1; 2; 3; 4]%nat)) (actual_calls 9 debug_strict (fun _ => 0) C54_program) =
    Some ([None; None; None; None; Some OutOfRange; None; None], [0; 7; 2 ^ 32 - 7; 0; 9]) /\
  option_map (fun p => map (snd p) [0; 1; 2; 3; 4]%nat) (run_calls 9 debug_strict C54_program (fun _ => bi_default)) =
    Some [Big 0 []; Big 7 []; Big 1 [4294967289]; Big 0 []; Big 9 []] /\
  actual_calls 9 debug_strict (fun _ => 7) [DivRem 0%nat 1%nat 2%nat 2%nat] = None.
Proof.
  split; [|repeat split; vm_compute; reflexivity].
  repeat constructor; vm_compute; discriminate.
Qed.

(** C55. The undefined calls are those [undefined_call] lists. *)
Theorem C55_undefined_calls : forall fuel c s k m,
  typed k -> stands_for m s ->
  ((exists u, fst (run_cmd fuel c k m) = Undef u) <-> undefined_call fuel c s k).
Proof. exact undefined_exactly. Qed.
Print Assumptions C55_undefined_calls.
(** BigInteger(INT64_MIN); BigInteger(byte_array{0xff}); div_rem(7, y = 7, y);
    gcd(2^96 + 1, 6 * 2^64 + 3); the gcd of [7; 1; 2] and [5; 0]. *)
Example C55_case :
  undefined_call 9 debug_strict (fun _ => 7) (NewLong 0%nat (- 2 ^ 63)) /\
  fst (run_cmd 9 debug_strict (NewLong 0%nat (- 2 ^ 63)) (fun _ => Big 7 [])) = Undef SignedOverflow /\
  undefined_call 9 debug_strict (fun _ => 7) (NewBytes 0%nat [255] false false) /\
  fst (run_cmd 9 debug_strict (NewBytes 0%nat [255] false false) (fun _ => Big 7 [])) = Undef ShiftNegative /\
  undefined_call 9 release_wrap (fun _ => 7) (DivRem 0%nat 1%nat 2%nat 2%nat) /\
  fst (run_cmd 9 release_wrap (DivRem 0%nat 1%nat 2%nat 2%nat) (fun _ => Big 7 [])) = Undef DivByZero /\
  undefined_call 9 release_wrap (fun r => match r with O => 2 ^ 96 + 1 | _ => 6 * 2 ^ 64 + 3 end) (Gcd 2%nat 0%nat 1%nat) /\
  fst (run_cmd 9 release_wrap (Gcd 2%nat 0%nat 1%nat)
    (fun r => match r with O => Big 1 [1; 0; 0; 1] | _ => Big 1 [3; 0; 6] end)) = Undef OutOfBounds /\
  undefined_call 9 debug_strict (fun _ => 7) (GcdBits 0%nat [7; 1; 2] [5; 0]) /\
  fst (run_cmd 9 debug_strict (GcdBits 0%nat [7; 1; 2] [5; 0]) (fun _ => Big 7 [])) = Undef ShiftRange.
Proof.
  split; [split; reflexivity|]. split; [vm_compute; reflexivity|].
  split; [split; [reflexivity|split; [reflexivity|repeat constructor]]|]. split; [vm_compute; reflexivity|].
  split; [split; [reflexivity|]; split; [discriminate|]; split; [split; reflexivity|reflexivity]|].
  split; [vm_compute; reflexivity|]. split.
  - split; [reflexivity|]. exists 1%nat, 3, (2 ^ 96), (6 * 2 ^ 64 + 3), 0.
    split; [repeat constructor|]. split; [split; [reflexivity|discriminate]|]. vm_compute. reflexivity.
  - split; [vm_compute; reflexivity|]. split; [|vm_compute; reflexivity].
    left. split; [reflexivity|]. split; [reflexivity|]. intros _. vm_compute. reflexivity.
Qed.

(** C56. add and subtract on limb arrays with signs, for all arrays; then on
    the parts of two objects. *)
Theorem C56_add_parts : forall c l s l' s',
  is_words l -> is_words l' -> is_int s -> is_int s' ->
  denotes (bi_add_parts c l s l' s') (raw_sum c l s l' s').
Proof. exact add_parts_exact. Qed.
Print Assumptions C56_add_parts.
Theorem C56_sub_parts : forall c l s l' s',
  is_words l -> is_words l' -> is_int s -> is_int s' ->
  denotes (bi_sub_parts c l s l' s') (raw_diff c l s l' s').
Proof. exact sub_parts_exact. Qed.
Print Assumptions C56_sub_parts.
Theorem C56_add_parts_of_objects : forall c a b x y,
  represents a x -> represents b y ->
  returns (bi_add_parts c (bits_of a) (sign_of a) (bits_of b) (sign_of b))
    (if (Z.abs x <? 2 ^ 31) && (Z.abs y <? 2 ^ 31) then x + y
     else if x <? 0 then - (Z.abs x + Z.abs y) else Z.abs x + Z.abs y).
Proof. exact add_parts_of. Qed.
Print Assumptions C56_add_parts_of_objects.
Theorem C56_sub_parts_of_objects : forall c a b x y,
  represents a x -> represents b y ->
  returns (bi_sub_parts c (bits_of a) (sign_of a) (bits_of b) (sign_of b))
    (if (Z.abs x <? 2 ^ 31) && (Z.abs y <? 2 ^ 31) then x - y
     else if x <? 0 then - (Z.abs x - Z.abs y) else Z.abs x - Z.abs y).
Proof. exact sub_parts_of. Qed.
Print Assumptions C56_sub_parts_of_objects.
(** -(2^32 + 5) and 7, parts with leading zeros, an array shorter than a sign. *)
Example C56_case :
  bi_add_parts debug_strict [5; 1] (-1) [] 7 = Ret (Big (-1) [12; 1]) /\
  raw_sum debug_strict [5; 1] (-1) [] 7 = Ret (- (2 ^ 32 + 12)) /\
  bi_sub_parts debug_strict [] 7 [5; 1] (-1) = Ret (Big (-1) [4294967294]) /\
  raw_diff debug_strict [] 7 [5; 1] (-1) = Ret (7 - (2 ^ 32 + 5)) /\
  bi_sub_parts release_wrap [3; 0] 1 [5] 1 = Ret (Big 1 [4294967294; 4294967295]) /\
  raw_diff release_wrap [3; 0] 1 [5] 1 = Ret (2 ^ 64 - 2) /\
  bi_sub_parts debug_strict [3; 0] 1 [5] 1 = AssertFail /\
  raw_diff debug_strict [3; 0] 1 [5] 1 = AssertFail /\
  represents (Big (-1) [5; 1]) (- (2 ^ 32 + 5)).
Proof. repeat match goal with |- _ /\ _ => split; [vm_compute; reflexivity|] end. repr. Qed.
