(** Property theorems: whether and when greatest_common_divisor ends. [c] is the
    build configuration; [NoFuel] means that the rounds allowed are used up. *)
From Verif Require Import Machine Spec SpecApi SpecGcd SpecGcdEnds BigInt SpecActual ApiRun SpecRun WinBigInt GcdEnds Examples.

(** C77. The full claim,
      represents a x -> represents b y -> rounds_for x y <= Z.of_nat n -> bi_gcd n c a b <> NoFuel,
    is false. What holds: after [rounds_for x y] rounds, twice the bits of the
    operands, the loop has ended or it never will; and it never will exactly on
    the operands from which it comes to a pair that one round leaves unchanged
    or that two rounds exchange and exchange back. *)
Theorem C77_gcd_ends_refuted : forall c a b x y n,
  represents a x -> represents b y -> rounds_for x y <= Z.of_nat n ->
  (bi_gcd n c a b = NoFuel <-> gcd_for_ever (dbg c) x y).
Proof. exact gcd_ends. Qed.
Print Assumptions C77_gcd_ends_refuted.
Theorem C77_gcd_for_ever_refuted : forall c a b x y,
  represents a x -> represents b y ->
  ((forall fuel, bi_gcd fuel c a b = NoFuel) <-> gcd_for_ever (dbg c) x y).
Proof. exact gcd_never. Qed.
Print Assumptions C77_gcd_for_ever_refuted.
(** More rounds than that change nothing, on integers and on limb arrays. *)
Theorem C77_gcd_settled : forall c a b x y n fuel,
  represents a x -> represents b y -> rounds_for x y <= Z.of_nat n -> (n <= fuel)%nat ->
  bi_gcd fuel c a b = bi_gcd n c a b.
Proof. exact gcd_settled. Qed.
Print Assumptions C77_gcd_settled.
Theorem C77_gcd_bits_settled : forall c l l' n fuel,
  is_words l -> is_words l' -> rounds_for (number l) (number l') <= Z.of_nat n -> (n <= fuel)%nat ->
  bi_gcd_bits fuel c l l' = bi_gcd_bits n c l l'.
Proof. exact gcd_bits_settled. Qed.
Print Assumptions C77_gcd_bits_settled.
(** So every program of library calls has an outcome that no further rounds change. *)
Theorem C77_program_settled : forall c l m s,
  Forall typed l -> stands_for m s ->
  exists n, forall fuel, (n <= fuel)%nat -> run_calls fuel c l m = run_calls n c l m.
Proof. exact calls_settled. Qed.
Print Assumptions C77_program_settled.
(** Where long has 32 bits the loop always ends, though often undefined (C60). *)
Theorem C77_win_gcd_ends : forall c a b x y n,
  represents a x -> represents b y -> rounds_for x y <= Z.of_nat n -> bi_gcd_w None n c a b <> NoFuel.
Proof. exact win_gcd_ends. Qed.
Print Assumptions C77_win_gcd_ends.
(** The first pair is left unchanged by every round, the second exchanged by
    every round; the third is one of Euclid's steps away from a pair that stays.
    The fourth is exchanged once and then stays, unless an assertion stops it
    first. The last ends. *)
Example C77_case :
  represents (Big 1 [161372511; 2395040737; 1]) 28733365711873661279 /\
  represents (Big 1 [3161268639; 2018028479; 1]) 27114110396572443039 /\
  gcd_for_ever false 28733365711873661279 27114110396572443039 /\
  gcd_for_ever true 28733365711873661279 27114110396572443039 /\
  bi_gcd 300 release_wrap (Big 1 [161372511; 2395040737; 1]) (Big 1 [3161268639; 2018028479; 1]) = NoFuel /\
  rounds_for 28733365711873661279 27114110396572443039 = 260 /\
  gcd_for_ever false 38985854485545333204 26480848147793402196 /\
  gcd_for_ever false 67372849775923521095570698799 74663547561772448321 /\
  gcd_for_ever false 26316393427165783834 21440540043241820541 /\
  actual_gcd 300 true 26316393427165783834 21440540043241820541 = AssertFail /\
  actual_gcd 300 false (2 ^ 96 + 1) (12 * 2 ^ 64 + 3) = Ret 3.
Proof.
  split; [repr|]. split; [repr|].
  split; [apply unchanged; vm_compute; [discriminate|reflexivity]|].
  split; [apply unchanged; vm_compute; [discriminate|reflexivity]|].
  split; [vm_compute; reflexivity|]. split; [vm_compute; reflexivity|].
  split; [apply exchanged; vm_compute; (discriminate || reflexivity)|].
  split.
  { eapply later; [vm_compute; discriminate|vm_compute; reflexivity|].
    apply unchanged; vm_compute; (discriminate || reflexivity). }
  split.
  { eapply later; [vm_compute; discriminate|vm_compute; reflexivity|].
    apply unchanged; vm_compute; (discriminate || reflexivity). }
  split; vm_compute; reflexivity.
Qed.
