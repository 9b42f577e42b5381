(** Property theorems: what every call and every program does in the LLP64
    (Windows) reading. *)
From Coq Require Import String.
From Verif Require Import Machine Spec SpecApi SpecGcd BigInt ApiMem ApiRun SpecMem SpecRun SpecActual SpecWin SpecWinRun.
From Verif Require Import WinCalc WinBigInt WinRun WinGcdExact WinRunFacts Examples.

(** C64. A call with arguments of the right C++ types on objects that stand for
    the integers [s] does what [actual_win] says. *)
Theorem C64_win_call_exact : forall fuel c s k m,
  typed k -> stands_for m s -> agrees (run_cmd_w None fuel c k m) m (actual_win fuel c s k).
Proof. exact agrees_cmd_w. Qed.
Print Assumptions C64_win_call_exact.
Theorem C64_win_program_exact : forall fuel c l s m,
  Forall typed l -> stands_for m s ->
  match actual_calls_win fuel c s l with
  | Some (tr, s') => exists m', run_calls_w None fuel c l m = Some (tr, m') /\ stands_for m' s'
  | None => run_calls_w None fuel c l m = None
  end.
Proof. exact calls_w_exact. Qed.
Print Assumptions C64_win_program_exact.
(** Every object stays in canonical form, also after a wrong result. *)
Theorem C64_win_reachable_canonical : forall c m p, reachable_w None c m -> canonical (m p).
Proof. exact reachable_w_canonical. Qed.
Print Assumptions C64_win_reachable_canonical.
(** x++ and x-- return the updated object: C31. *)
Theorem C64_win_post_inc : forall c a x, represents a x ->
  match win_sum x 1 with
  | Some v => exists r, bi_post_inc_w None c a = Ret (r, r) /\ represents r v
  | None => bi_post_inc_w None c a = Undef ShiftRange
  end.
Proof. exact post_inc_w_exact. Qed.
Print Assumptions C64_win_post_inc.
Theorem C64_win_post_dec : forall c a x, represents a x ->
  match win_difference x 1 with
  | Some v => exists r, bi_post_dec_w None c a = Ret (r, r) /\ represents r v
  | None => bi_post_dec_w None c a = Undef ShiftRange
  end.
Proof. exact post_dec_w_exact. Qed.
Print Assumptions C64_win_post_dec.
Example C64_post_case :
  bi_post_inc_w None debug_strict (Big 1 [4294967295; 4294967295]) = Ret (Big 0 [], Big 0 []) /\ win_sum (2 ^ 64 - 1) 1 = Some 0 /\
  bi_post_dec_w None debug_strict (Big 1 [0; 1]) = Undef ShiftRange /\ win_difference (2 ^ 32) 1 = None.
Proof. repeat split; vm_compute; reflexivity. Qed.
(** x = parse("18446744073709551616") is wrongly 0; y = parse("4294967295");
    z = y + 7; y *= z; u = pow(z, -1) throws; ++y; then z - y is undefined. *)
Definition C64_program : list cmd :=
  [Parse 0%nat "18446744073709551616"; Parse 1%nat "4294967295"; NewInt 3%nat 7; Binary AddA 2%nat 1%nat 3%nat;
   Assign MulA 3%nat 2%nat; Pow 4%nat 2%nat (-1); Inc 3%nat].
Example C64_case :
  Forall typed C64_program /\
  option_map (fun p => (fst p, map (snd p) [0; 1; 2; 3; 4]%nat)) (actual_calls_win 9 debug_strict (fun _ => 0) C64_program) =
    Some ([None; None; None; None; None; Some OutOfRange; None], [0; 2 ^ 32 - 1; 2 ^ 32 + 6; 7 * (2 ^ 32 + 6) + 1; 0]) /\
  option_map (fun p => map (snd p) [0; 1; 2; 3; 4]%nat) (run_calls_w None 9 debug_strict C64_program (fun _ => bi_default)) =
    Some [Big 0 []; Big 1 [4294967295]; Big 1 [6; 1]; Big 1 [43; 7]; Big 0 []] /\
  actual_calls_win 9 debug_strict (fun _ => 0) (C64_program ++ [Binary SubA 0%nat 3%nat 2%nat]) = None.
Proof.
  split; [|repeat split; vm_compute; reflexivity].
  repeat constructor; vm_compute; discriminate.
Qed.

(** C65. greatest_common_divisor for every operand and every limb array, add
    and subtract on limb arrays with signs, and mod_pow. *)
Theorem C65_win_gcd_every_case : forall c a b x y fuel,
  represents a x -> represents b y -> denotes (bi_gcd_w None fuel c a b) (win_gcd fuel (dbg c) x y).
Proof. exact gcd_w_every. Qed.
Print Assumptions C65_win_gcd_every_case.
Theorem C65_win_gcd_bits : forall fuel c l l',
  is_words l -> is_words l' -> denotes (bi_gcd_bits_w None fuel c l l') (win_raw_gcd fuel c l l').
Proof. exact gcd_bits_w_exact. Qed.
Print Assumptions C65_win_gcd_bits.
Theorem C65_win_add_parts : forall c l s l' s',
  is_words l -> is_words l' -> is_int s -> is_int s' ->
  denotes (bi_add_parts_w None c l s l' s') (win_raw_sum c l s l' s').
Proof. exact (add_parts_w_exact None). Qed.
Print Assumptions C65_win_add_parts.
Theorem C65_win_sub_parts : forall c l s l' s',
  is_words l -> is_words l' -> is_int s -> is_int s' ->
  denotes (bi_sub_parts_w None c l s l' s') (win_raw_diff c l s l' s').
Proof. exact sub_parts_w_exact. Qed.
Print Assumptions C65_win_sub_parts.
Theorem C65_win_mod_pow_every_case : forall c a b m x e z,
  represents a x -> represents b e -> represents m z ->
  denotes (bi_mod_pow_w None c a b m) (win_power_mod (dbg c) x e z).
Proof. exact mod_pow_w_every. Qed.
Print Assumptions C65_win_mod_pow_every_case.
(** gcd(2^200 + 2^66, 2^70) takes two of Euclid's steps; the first step for
    2^128 + 5 and 2^127 + 9 is not Euclid's. Then arrays. *)
Example C65_case :
  represents (Big 1 [0; 0; 4; 0; 0; 0; 256]) (2 ^ 200 + 2 ^ 66) /\ represents (Big 1 [0; 0; 64]) (2 ^ 70) /\
  win_gcd 9 true (2 ^ 200 + 2 ^ 66) (2 ^ 70) = Ret (2 ^ 66) /\
  bi_gcd_w None 9 debug_strict (Big 1 [0; 0; 4; 0; 0; 0; 256]) (Big 1 [0; 0; 64]) = Ret (Big 1 [0; 0; 4]) /\
  win_gcd 9 true (2 ^ 128 + 5) (2 ^ 127 + 9) = Undef ShiftRange /\
  bi_gcd_w None 9 debug_strict (Big 1 [5; 0; 0; 0; 1]) (Big 1 [9; 0; 0; 2147483648]) = Undef ShiftRange /\
  bi_gcd_bits_w None 9 debug_strict [7; 1; 2] [5; 0] = Undef ShiftRange /\
  win_raw_gcd 9 debug_strict [7; 1; 2] [5; 0] = Undef ShiftRange /\
  bi_add_parts_w None debug_strict [4294967295; 4294967295] 1 [] 1 = Ret (Big 0 []) /\
  win_raw_sum debug_strict [4294967295; 4294967295] 1 [] 1 = Ret 0 /\
  bi_sub_parts_w None debug_strict [3] 1 [] 5 = AssertFail /\
  win_raw_diff debug_strict [3] 1 [] 5 = AssertFail /\
  bi_sub_parts_w None release_wrap [3] 1 [] 5 = Undef ShiftRange /\
  win_raw_diff release_wrap [3] 1 [] 5 = Undef ShiftRange /\
  win_power_mod true 7 5 (2 ^ 33) = Ret 16807 /\
  bi_mod_pow_w None debug_strict (Big 7 []) (Big 5 []) (Big 1 [0; 2]) = Ret (Big 16807 []).
Proof. split; [repr|]. split; [repr|]. repeat split; vm_compute; reflexivity. Qed.
