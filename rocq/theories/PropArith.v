(** Property theorems: addition, subtraction, multiplication, division,
    comparison, predicates, laws. [c] is the build configuration. *)
From Verif Require Import Machine Spec SpecApi BigInt SpecFacts BigIntFacts CompareFacts ArithLaws Examples.

(** C02. a + b, a += b, add(a, b); ++a. *)
Theorem C02_add_exact : forall c a b x y,
  represents a x -> represents b y ->
  returns (bi_add c a b) (x + y) /\ returns (bi_inc c a) (x + 1).
Proof. exact add_family. Qed.
Print Assumptions C02_add_exact.
Example C02_add_exact_case :
  represents (Big 1 [4294967295; 4294967295]) (2 ^ 64 - 1) /\ represents (Big 1 []) 1 /\
  bi_add debug_strict (Big 1 [4294967295; 4294967295]) (Big 1 []) = Ret (Big 1 [0; 0; 1]).
Proof. split; [repr|]. split; [repr|vm_compute; reflexivity]. Qed.

(** C03. a - b, a -= b, subtract(a, b); --a; -a, negate(a); +a; abs(a). *)
Theorem C03_sub_neg_abs_exact : forall c a b x y,
  represents a x -> represents b y ->
  returns (bi_sub c a b) (x - y) /\ returns (bi_dec c a) (x - 1) /\ returns (bi_neg c a) (- x) /\
  returns (bi_pos c a) x /\ returns (bi_abs c a) (Z.abs x).
Proof. exact add_sub_family. Qed.
Print Assumptions C03_sub_neg_abs_exact.
Example C03_sub_neg_abs_exact_case :
  represents (Big 1 [0; 0; 1]) (2 ^ 64) /\ represents (Big (-1) [2147483648]) (- 2 ^ 31) /\
  bi_sub debug_strict (Big 1 [0; 0; 1]) (Big 1 []) = Ret (Big 1 [4294967295; 4294967295]) /\
  bi_neg debug_strict (Big (-1) [2147483648]) = Ret (Big 1 [2147483648]).
Proof. split; [repr|]. split; [repr|]. split; vm_compute; reflexivity. Qed.

(** C04. a * b, a *= b, multiply(a, b). *)
Theorem C04_mul_exact : forall c a b x y,
  represents a x -> represents b y -> returns (bi_mul c a b) (x * y).
Proof. exact mul_returns. Qed.
Print Assumptions C04_mul_exact.
Example C04_mul_exact_case :
  represents (Big (-1) [0; 3]) (- 3 * 2 ^ 32) /\ represents (Big 1 [0; 0; 5]) (5 * 2 ^ 64) /\
  bi_mul debug_strict (Big (-1) [0; 3]) (Big 1 [0; 0; 5]) = Ret (Big (-1) [0; 0; 0; 15]).
Proof. split; [repr|]. split; [repr|vm_compute; reflexivity]. Qed.

(** C05. a / b, a /= b, divide(a, b): the quotient truncated towards zero. The
    second theorem says what that means without [Z.quot]. *)
Theorem C05_div_truncates : forall c a b x y,
  represents a x -> represents b y -> y <> 0 -> returns (bi_div c a b) (Z.quot x y).
Proof. exact div_returns. Qed.
Print Assumptions C05_div_truncates.
Theorem C05_div_elementary : forall c a b x y,
  represents a x -> represents b y -> y <> 0 ->
  exists q, returns (bi_div c a b) q /\ Z.abs (x - q * y) < Z.abs y /\ Z.abs (q * y) <= Z.abs x.
Proof. exact trunc_div. Qed.
Print Assumptions C05_div_elementary.
Example C05_div_case :
  represents (Big (-1) [7; 0; 1]) (- (2 ^ 64 + 7)) /\ represents (Big 1 [0; 1]) (2 ^ 32) /\
  bi_div debug_strict (Big (-1) [7; 0; 1]) (Big 1 [0; 1]) = Ret (Big (-1) [0; 1]).
Proof. split; [repr|]. split; [repr|vm_compute; reflexivity]. Qed.

(** C06. a % b, a %= b, remainder(a, b). *)
Theorem C06_rem_exact : forall c a b x y,
  represents a x -> represents b y -> y <> 0 -> returns (bi_rem c a b) (Z.rem x y).
Proof. exact rem_returns. Qed.
Print Assumptions C06_rem_exact.
Theorem C06_rem_elementary : forall c a b x y,
  represents a x -> represents b y -> y <> 0 ->
  exists q r, returns (bi_div c a b) q /\ returns (bi_rem c a b) r /\
    x = q * y + r /\ Z.abs r < Z.abs y /\ (r <> 0 -> Z.sgn r = Z.sgn x).
Proof. exact rem_family. Qed.
Print Assumptions C06_rem_elementary.
Example C06_rem_case :
  represents (Big (-1) [7; 0; 1]) (- (2 ^ 64 + 7)) /\ represents (Big 1 [0; 1]) (2 ^ 32) /\
  bi_rem debug_strict (Big (-1) [7; 0; 1]) (Big 1 [0; 1]) = Ret (Big (-7) []).
Proof. split; [repr|]. split; [repr|vm_compute; reflexivity]. Qed.

(** C07. div_rem(a, b, r). Full property: for y <> 0 the call returns the
    truncated quotient and stores the remainder. It fails exactly when x is below the
    int range, y inside it and the remainder is not zero: the stored remainder
    is then too large by 2^32. *)
Theorem C07_div_rem_partial : forall c a b x y,
  represents a x -> represents b y -> y <> 0 ->
  ~ (x <= - 2 ^ 31 /\ - 2 ^ 31 < y < 2 ^ 31 /\ Z.rem x y <> 0) ->
  exists q r, bi_div_rem c a b = Ret (q, r) /\ represents q (Z.quot x y) /\ represents r (Z.rem x y).
Proof. exact div_rem_call. Qed.
Print Assumptions C07_div_rem_partial.
Theorem C07_div_rem_refuted : forall c a b x y,
  represents a x -> represents b y -> y <> 0 ->
  x <= - 2 ^ 31 -> - 2 ^ 31 < y < 2 ^ 31 -> Z.rem x y <> 0 ->
  exists q r, bi_div_rem c a b = Ret (q, r) /\ represents q (Z.quot x y) /\
              represents r (2 ^ 32 + Z.rem x y) /\ ~ represents r (Z.rem x y).
Proof. exact div_rem_bad_call. Qed.
Print Assumptions C07_div_rem_refuted.
Example C07_case :
  represents (Big (-1) [1; 1]) (- (2 ^ 32 + 1)) /\ represents (Big 10 []) 10 /\
  Z.rem (- (2 ^ 32 + 1)) 10 = -7 /\
  bi_div_rem release_wrap (Big (-1) [1; 1]) (Big 10 []) = Ret (Big (-429496729) [], Big 1 [4294967289]).
Proof. split; [repr|]. split; [repr|]. split; vm_compute; reflexivity. Qed.

(** C08 for /, % and div_rem (mod_pow: PropPow.v). *)
Theorem C08_div_by_zero : forall c a b x,
  represents a x -> represents b 0 ->
  bi_div c a b = Throw DivideByZero /\ bi_rem c a b = Throw DivideByZero /\
  bi_div_rem c a b = Throw DivideByZero.
Proof. exact div_zero_calls. Qed.
Print Assumptions C08_div_by_zero.
Example C08_case :
  represents (Big (-1) [7; 0; 1]) (- (2 ^ 64 + 7)) /\ represents (Big 0 []) 0.
Proof. split; repr. Qed.

(** C09. compare_to, <, <=, >, >=, max, min. Totality and transitivity are
    those of the integer order. *)
Theorem C09_compare_to : forall c a b x y,
  represents a x -> represents b y ->
  exists r, bi_compare c a b = Ret r /\ (r < 0 <-> x < y) /\ (r = 0 <-> x = y) /\ (r > 0 <-> x > y).
Proof. exact compare_call. Qed.
Print Assumptions C09_compare_to.
Theorem C09_order_operators : forall c a b x y,
  represents a x -> represents b y ->
  bi_lt c a b = Ret (x <? y) /\ bi_le c a b = Ret (x <=? y) /\
  bi_gt c a b = Ret (y <? x) /\ bi_ge c a b = Ret (y <=? x) /\
  returns (bi_max c a b) (Z.max x y) /\ returns (bi_min c a b) (Z.min x y).
Proof. exact order_calls. Qed.
Print Assumptions C09_order_operators.
Example C09_case :
  represents (Big (-1) [5; 1; 9]) (- (5 + 2 ^ 32 + 9 * 2 ^ 64)) /\
  represents (Big (-1) [6; 0; 9]) (- (6 + 9 * 2 ^ 64)) /\
  bi_lt debug_strict (Big (-1) [5; 1; 9]) (Big (-1) [6; 0; 9]) = Ret true.
Proof. split; [repr|]. split; [repr|vm_compute; reflexivity]. Qed.

(** C10. ==, !=, equals, get_hash_code. *)
Theorem C10_equality : forall c a b x y,
  represents a x -> represents b y ->
  bi_eq c a b = Ret (x =? y) /\ bi_ne c a b = Ret (negb (x =? y)).
Proof. exact equal_calls. Qed.
Print Assumptions C10_equality.
Theorem C10_hash : forall c a b x,
  represents a x -> represents b x ->
  exists h, bi_hash c a = Ret h /\ bi_hash c b = Ret h /\ - 2 ^ 31 <= h < 2 ^ 31.
Proof. exact hash_call. Qed.
Print Assumptions C10_hash.
Example C10_case :
  represents (Big (-1) [5; 1; 9]) (- (5 + 2 ^ 32 + 9 * 2 ^ 64)) /\
  bi_eq debug_strict (Big (-1) [5; 1; 9]) (Big 1 [5; 1; 9]) = Ret false /\
  bi_hash debug_strict (Big (-1) [5; 1; 9]) = Ret (-147590).
Proof. split; [repr|]. split; vm_compute; reflexivity. Qed.

(** C31. x++ and x--: the object is updated, but the value of the expression is
    the new value of x, never the old one. *)
Theorem C31_post_inc_refuted : forall c a x,
  represents a x ->
  exists result target, bi_post_inc c a = Ret (result, target) /\
    represents target (x + 1) /\ represents result (x + 1) /\ ~ represents result x.
Proof. exact post_inc_call. Qed.
Print Assumptions C31_post_inc_refuted.
Theorem C31_post_dec_refuted : forall c a x,
  represents a x ->
  exists result target, bi_post_dec c a = Ret (result, target) /\
    represents target (x - 1) /\ represents result (x - 1) /\ ~ represents result x.
Proof. exact post_dec_call. Qed.
Print Assumptions C31_post_dec_refuted.
Example C31_case : bi_post_inc debug_strict (Big 5 []) = Ret (Big 6 [], Big 6 []).
Proof. vm_compute; reflexivity. Qed.

(** C34. Laws as == between results of API calls. *)
Theorem C34_ring_laws : forall c a b d x y z,
  represents a x -> represents b y -> represents d z ->
  same c (bi_add c a b) (bi_add c b a) /\
  same c (bi_mul c a b) (bi_mul c b a) /\
  same c (r <- bi_add c a b ;; bi_add c r d) (r <- bi_add c b d ;; bi_add c a r) /\
  same c (r <- bi_mul c a b ;; bi_mul c r d) (r <- bi_mul c b d ;; bi_mul c a r) /\
  same c (r <- bi_add c b d ;; bi_mul c a r)
         (p <- bi_mul c a b ;; q <- bi_mul c a d ;; bi_add c p q) /\
  same c (n <- bi_neg c a ;; bi_add c a n) (Ret s_bnZeroInt) /\
  same c (bi_sub c a b) (n <- bi_neg c b ;; bi_add c a n) /\
  same c (n <- bi_neg c a ;; bi_neg c n) (Ret a).
Proof. exact ring_laws. Qed.
Print Assumptions C34_ring_laws.
Theorem C34_euclid_law : forall c a b x y,
  represents a x -> represents b y -> y <> 0 ->
  same c (q <- bi_div c a b ;; p <- bi_mul c q b ;; r <- bi_rem c a b ;; bi_add c p r) (Ret a).
Proof. exact euclid_law. Qed.
Print Assumptions C34_euclid_law.
Example C34_case :
  represents (Big (-1) [7; 0; 1]) (- (2 ^ 64 + 7)) /\ represents (Big 1 [3; 2]) (2 * 2 ^ 32 + 3) /\
  represents (Big 12 []) 12.
Proof. split; [repr|]. split; repr. Qed.
