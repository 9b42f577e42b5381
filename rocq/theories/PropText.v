(** Property theorems: decimal text. [c] is the build configuration. *)
From Coq Require Import String.
From Verif Require Import Machine Spec SpecApi SpecText BigInt BigIntText TextFacts PowLaws Examples.
Open Scope Z_scope.

(** C19. to_string(). The full claim,
      represents b x -> limb_count x n -> n <= INT_MAX / 10 ->
      exists s, bi_to_string c b = Ret s /\ numeral s x,
    is false. Proved: it holds unless [sign_hits x]; then the sign is written one
    place before the buffer. [numeral] determines the string. *)
Theorem C19_to_string_partial : forall c b x n,
  represents b x -> limb_count x n -> n <= 214748364 -> ~ sign_hits x ->
  exists s, bi_to_string c b = Ret s /\ numeral s x.
Proof. exact to_string_ok. Qed.
Print Assumptions C19_to_string_partial.
Theorem C19_to_string_refuted : forall c b x n,
  represents b x -> limb_count x n -> n <= 214748364 -> sign_hits x ->
  bi_to_string c b = Undef OutOfBounds.
Proof. exact to_string_oob. Qed.
Print Assumptions C19_to_string_refuted.
Theorem C19_to_string_too_large : forall c b x n,
  represents b x -> limb_count x n -> 214748364 < n -> bi_to_string c b = Throw OverflowError.
Proof. exact to_string_too_large. Qed.
Print Assumptions C19_to_string_too_large.
Theorem C19_numeral_unique : forall s t z, numeral s z -> numeral t z -> s = t.
Proof. exact numeral_unique. Qed.
Print Assumptions C19_numeral_unique.
Example C19_case :
  represents (Big (-1) [0; 0; 1]) (- 2 ^ 64) /\ limb_count (- 2 ^ 64) 3 /\ ~ sign_hits (- 2 ^ 64) /\
  bi_to_string debug_strict (Big (-1) [0; 0; 1]) = Ret "-18446744073709551616"%string /\
  represents (Big (-1) [1569325056; 23283064]) (- 10 ^ 17) /\ limb_count (- 10 ^ 17) 2 /\ sign_hits (- 10 ^ 17) /\
  bi_to_string debug_strict (Big (-1) [1569325056; 23283064]) = Undef OutOfBounds.
Proof.
  split; [repr|]. split; [apply limb_count_compute; vm_compute; reflexivity|].
  split; [apply (sign_hits_not _ 20); [apply width_compute|]; vm_compute; [reflexivity|discriminate]|].
  split; [vm_compute; reflexivity|]. split; [repr|].
  split; [apply limb_count_compute; vm_compute; reflexivity|].
  split; [|vm_compute; reflexivity].
  split; [vm_compute; discriminate|exists 2; apply width_compute; vm_compute; reflexivity].
Qed.

(** C20. parse(s), for every string; then parse(x.to_string()) wherever
    to_string() is defined (C19). *)
Theorem C20_parse_exact : forall c s, returns (bi_parse c s) (signed_decimal s).
Proof. exact parse_returns. Qed.
Print Assumptions C20_parse_exact.
Theorem C20_round_trip_partial : forall c b x n,
  represents b x -> limb_count x n -> n <= 214748364 -> ~ sign_hits x ->
  exists s, bi_to_string c b = Ret s /\ returns (bi_parse c s) x.
Proof. exact parse_to_string. Qed.
Print Assumptions C20_round_trip_partial.
Example C20_case :
  signed_decimal "-18446744073709551616 apples" = - 2 ^ 64 /\
  bi_parse debug_strict "-18446744073709551616 apples" = Ret (Big (-1) [0; 0; 1]) /\
  signed_decimal "+-5" = 0 /\ bi_parse debug_strict "+-5" = Ret (Big 0 []).
Proof. repeat split; vm_compute; reflexivity. Qed.

(** C21. try_parse(s, r). The full claim, "true exactly when [well_formed s]", is
    false: it is true for every string. *)
Theorem C21_try_parse_partial : forall c s old,
  well_formed s -> exists r, bi_try_parse c s old = Ret (true, r) /\ represents r (signed_decimal s).
Proof. exact try_parse_well_formed. Qed.
Print Assumptions C21_try_parse_partial.
Theorem C21_try_parse_refuted : forall c s old,
  ~ well_formed s -> exists r, bi_try_parse c s old = Ret (true, r) /\ represents r (signed_decimal s).
Proof. exact try_parse_malformed. Qed.
Print Assumptions C21_try_parse_refuted.
Example C21_case :
  well_formed "+12" /\ bi_try_parse debug_strict "+12" (Big 7 []) = Ret (true, Big 12 []) /\
  ~ well_formed "abc" /\ bi_try_parse debug_strict "abc" (Big 7 []) = Ret (true, Big 0 []).
Proof.
  split; [exists "12"%string; split; [discriminate|split; [reflexivity|auto]]|].
  split; [vm_compute; reflexivity|]. split; [|vm_compute; reflexivity].
  intros (t & _ & H & [<-|[E|E]]); discriminate.
Qed.
