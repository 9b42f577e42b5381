(** Specification vocabulary that mentions API calls. *)
From Verif Require Import Machine Spec BigInt.

(** [o1] and [o2] both return and == on the results is true. *)
Definition same (c : cfg) (o1 o2 : outcome bigint) : Prop :=
  exists r1 r2, o1 = Ret r1 /\ o2 = Ret r2 /\ bi_eq c r1 r2 = Ret true.

(** Field-by-field identity of objects is Coq equality of [bigint]. *)

(** [lo <= x < hi], as a test. *)
Definition in_range (lo hi x : Z) : bool := (lo <=? x) && (x <? hi).

(** [n] is the least width such that -2^n <= x < 2^n. *)
Definition least_width (x n : Z) : Prop :=
  0 <= n /\ - 2 ^ n <= x < 2 ^ n /\ forall m, 0 <= m -> - 2 ^ m <= x < 2 ^ m -> n <= m.

(** [|x|] needs at most [n] limbs. *)
Definition fits_limbs (x n : Z) : Prop := Z.abs x < 2 ^ (32 * n).

(** [n] is the number of limbs of [|x|], at least one. *)
Definition limb_count (x n : Z) : Prop :=
  1 <= n /\ fits_limbs x n /\ forall m, 1 <= m -> fits_limbs x m -> n <= m.

(** The shift by [s] of [x], where [s < 0] means a right shift (floor). *)
Definition shifted (x s : Z) : Z := if s <? 0 then x / 2 ^ (- s) else x * 2 ^ s.

(** The right shift of a negative number goes wrong when the limbs that remain
    after dropping whole limbs are all ones in the magnitude. *)
Definition shr_bad (x sh : Z) : Prop :=
  exists k n, 0 < k < n /\ sh = 32 * k /\ 2 ^ (32 * n) - 2 ^ (32 * k) < - x < 2 ^ (32 * n).

(** The call behaves in the same way, returning or throwing, in every build
    configuration: no undefined behaviour and no failing assert. *)
Definition well_defined {A} (call : cfg -> outcome A) : Prop :=
  (exists r, forall c, call c = Ret r) \/ (exists e, forall c, call c = Throw e).

(** Some build configuration gives the call undefined behaviour. *)
Definition undefined_in_some_build {A} (call : cfg -> outcome A) : Prop :=
  exists c u, call c = Undef u.
