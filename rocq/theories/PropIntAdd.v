(** Property theorems: sums and differences of numbers of 2^31 limbs and more. *)
From Verif Require Import Machine Spec SpecGcd SpecActual SpecLimbs SpecIntAdd BigInt IntAdd IntAddFacts IntAddLaws Examples.

(** C98. x + y and x - y are exact for integers of any size. True below 2^31 limbs, and if one of the
    two is an int; the limb counts are passed as [int], so not for two numbers of 2^31 limbs or more.
    What every call does: *)
Theorem C98_sum : forall c a b x y,
  represents a x -> represents b y -> sum_any c x y (bi_add_i c a b).
Proof. exact sum_any_holds. Qed.
Print Assumptions C98_sum.
Theorem C98_difference : forall c a b x y,
  represents a x -> represents b y -> difference_any c x y (bi_sub_i c a b).
Proof. exact difference_any_holds. Qed.
Print Assumptions C98_difference.
Example C98_case :
  represents (Big (-1) [4294967295; 4294967295]) (1 - 2 ^ 64) /\ represents (Big (-1) [0; 0; 7]) (- 7 * 2 ^ 64) /\
  bi_add_i debug_strict (Big (-1) [4294967295; 4294967295]) (Big (-1) [0; 0; 7]) = Ret (Big (-1) [4294967295; 4294967295; 7]) /\
  bi_sub_i debug_strict (Big (-1) [4294967295; 4294967295]) (Big (-1) [0; 0; 7]) = Ret (Big 1 [1; 0; 6]) /\
  bi_sub_i debug_strict (Big (-1) [0; 0; 7]) (Big (-1) [0; 0; 7]) = Ret (Big 0 []).
Proof. split; [repr|]. split; [repr|]. repeat split; vm_compute; reflexivity. Qed.

(** The claim holds below 2^31 limbs; 2^31 - 1 of them overflow an int in an assertion. *)
Theorem C98_partial : forall c a b x y,
  represents a x -> represents b y -> limbs_of x < 2 ^ 31 -> limbs_of y < 2 ^ 31 ->
  (dbg c = false \/ strict c = false \/ limbs_of x < 2 ^ 31 - 1 /\ limbs_of y < 2 ^ 31 - 1) ->
  returns (bi_add_i c a b) (x + y) /\ returns (bi_sub_i c a b) (x - y).
Proof. exact add_sub_i_fits. Qed.
Print Assumptions C98_partial.

(** An int is added to and taken from a longer number exactly, and the other way round. *)
Theorem C98_short : forall c a b x y,
  represents a x -> represents b y -> limbs_of x < 2 ^ 32 - 1 -> Z.abs y < 2 ^ 31 ->
  returns (bi_add_i c a b) (x + y) /\ returns (bi_add_i c b a) (x + y) /\
  returns (bi_sub_i c a b) (x - y) /\ returns (bi_sub_i c b a) (y - x).
Proof. exact add_sub_i_short. Qed.
Print Assumptions C98_short.

(** Two longer numbers: with assertions no sum or difference is returned, without them every one is
    1 or -1, x - x among them. *)
Theorem C98_refuted : forall c a b x y,
  represents a x -> represents b y ->
  2 ^ 31 <= limbs_of x < 2 ^ 32 - 1 -> 2 ^ 31 <= limbs_of y < 2 ^ 32 - 1 ->
  (dbg c = true -> bi_add_i c a b = AssertFail /\ bi_sub_i c a b = AssertFail) /\
  (dbg c = false ->
   (Z.sgn x = Z.sgn y -> returns (bi_add_i c a b) (Z.sgn x)) /\
   (Z.sgn x <> Z.sgn y -> returns (bi_sub_i c a b) (Z.sgn x)) /\
   (limbs_of x < limbs_of y ->
    (Z.sgn x = Z.sgn y -> returns (bi_sub_i c a b) (- Z.sgn x)) /\
    (Z.sgn x <> Z.sgn y -> returns (bi_add_i c a b) (- Z.sgn x))) /\
   (limbs_of y < limbs_of x \/ limbs_of x = limbs_of y /\ 2 ^ 31 < limbs_of x ->
    (Z.sgn x = Z.sgn y -> returns (bi_sub_i c a b) (Z.sgn x)) /\
    (Z.sgn x <> Z.sgn y -> returns (bi_add_i c a b) (Z.sgn x)))).
Proof. exact add_sub_i_wide. Qed.
Print Assumptions C98_refuted.
Example C98_refuted_case : forall k, k = 2 ^ 31 -> exists a,
  represents a (2 ^ (32 * k) + 5) /\ 2 ^ 31 < limbs_of (2 ^ (32 * k) + 5) < 2 ^ 32 - 1 /\
  (forall c, dbg c = false -> returns (bi_add_i c a a) 1 /\ returns (bi_sub_i c a a) 1) /\
  (forall c, dbg c = true -> bi_add_i c a a = AssertFail /\ bi_sub_i c a a = AssertFail) /\
  (forall c b, represents b 7 -> returns (bi_sub_i c a b) (2 ^ (32 * k) - 2)).
Proof. exact add_wide_case. Qed.
