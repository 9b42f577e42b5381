(** Property theorems: shifts. [c] is the build configuration. *)
From Verif Require Import Machine Spec SpecApi BigInt ShiftFacts Examples.

(** C11. a << s and a <<= s. *)
Theorem C11_shl_exact : forall c a x s,
  represents a x -> 0 <= s <= INT_MAX -> returns (bi_shl c a s) (x * 2 ^ s).
Proof. exact bi_shl_exact. Qed.
Print Assumptions C11_shl_exact.
Theorem C11_shl_negative_count : forall c a s,
  INT_MIN < s < 0 -> bi_shl c a s = bi_shr c a (- s).
Proof. exact bi_shl_negative. Qed.
Print Assumptions C11_shl_negative_count.
(** a << INT_MIN: a right shift by 2^31. Missing: negative values of 2^26 limbs
    and more, where the code overflows an int (see [C12_shr_wide_refuted]). *)
Theorem C11_shl_int_min_partial : forall c a x,
  represents a x -> (x < 0 -> fits_limbs x (2 ^ 26 - 1)) ->
  returns (bi_shl c a INT_MIN) (x / 2 ^ (2 ^ 31)).
Proof. exact bi_shl_min. Qed.
Print Assumptions C11_shl_int_min_partial.
Example C11_shl_case :
  represents (Big (-1) [4026531841]) (- 4026531841) /\
  bi_shl debug_strict (Big (-1) [4026531841]) 36 = Ret (Big (-1) [0; 16; 15]) /\
  bi_shl debug_strict (Big (-1) [4026531841]) (-4) = Ret (Big (-251658241) []).
Proof. split; [repr|]. split; vm_compute; reflexivity. Qed.

(** C12. a >> s and a >>= s. The full claim,
      represents a x -> 0 <= s <= INT_MAX -> returns (bi_shr c a s) (x / 2 ^ s),
    is false. It holds outside [shr_bad] for values below 2^26 limbs; inside
    [shr_bad] the code returns 0, and for longer negative values it overflows. *)
Theorem C12_shr_floor_partial : forall c a x s,
  represents a x -> 0 <= s <= INT_MAX -> (x < 0 -> fits_limbs x (2 ^ 26 - 1)) ->
  ~ shr_bad x s -> returns (bi_shr c a s) (x / 2 ^ s).
Proof. exact bi_shr_floor. Qed.
Print Assumptions C12_shr_floor_partial.
Theorem C12_shr_negative_count : forall c a x s,
  represents a x -> INT_MIN <= s <= 0 -> returns (bi_shr c a s) (x * 2 ^ (- s)).
Proof. exact bi_shr_negative. Qed.
Print Assumptions C12_shr_negative_count.
Theorem C12_shr_refuted : forall c a x s,
  represents a x -> s <= INT_MAX -> fits_limbs x (2 ^ 26 - 1) -> shr_bad x s ->
  returns (bi_shr c a s) 0 /\ x / 2 ^ s < 0.
Proof. exact bi_shr_wrong. Qed.
Print Assumptions C12_shr_refuted.
Theorem C12_shr_wide_refuted :
  exists a x, represents a x /\ x < 0 /\ forall c, ~ returns (bi_shr c a 1) (x / 2 ^ 1).
Proof. exact bi_shr_wide_wrong. Qed.
Print Assumptions C12_shr_wide_refuted.
Example C12_shr_case :
  represents (Big (-1) [1; 0; 1]) (- (2 ^ 64 + 1)) /\
  bi_shr debug_strict (Big (-1) [1; 0; 1]) 33 = Ret (Big (-1) [2147483649]) /\
  (- (2 ^ 64 + 1)) / 2 ^ 33 = - 2147483649.
Proof. split; [repr|]. split; [vm_compute; reflexivity|]. vm_compute; reflexivity. Qed.
(** -(2^64 - 1) >> 32 is -2^32, the code says 0. *)
Example C12_shr_refuted_case :
  represents (Big (-1) [4294967295; 4294967295]) (- (2 ^ 64 - 1)) /\
  shr_bad (- (2 ^ 64 - 1)) 32 /\
  bi_shr debug_strict (Big (-1) [4294967295; 4294967295]) 32 = Ret (Big 0 []).
Proof.
  split; [repr|]. split; [|vm_compute; reflexivity].
  exists 1, 2. vm_compute. repeat split; discriminate || reflexivity.
Qed.
