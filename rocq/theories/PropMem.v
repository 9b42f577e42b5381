(** Property theorems: aliasing and exceptions, over a store of objects. *)
From Verif Require Import Machine Spec ApiMem SpecMem MemFacts Examples.

(** C33. x op= x behaves as x op= y for a copy y of x: the same outcome and the
    same store afterwards. For arbitrary field contents, canonical or not. *)
Theorem C33_self_assign : forall o c x y m,
  m y = m x ->
  fst (run_assign o c x x m) = fst (run_assign o c x y m) /\
  (forall p, snd (run_assign o c x x m) p = snd (run_assign o c x y m) p).
Proof. exact run_assign_alias. Qed.
Print Assumptions C33_self_assign.
(** p op= q stores the exact result in p and touches nothing else, whether or
    not p and q are the same object. *)
Theorem C33_assign_exact : forall o c m p q x y,
  represents (m p) x -> represents (m q) y -> (divides o -> y <> 0) ->
  exists m' r, run_assign o c p q m = (Ret tt, m') /\ represents r (meaning o x y) /\ only_changes m m' p r.
Proof. exact run_assign_exact. Qed.
Print Assumptions C33_assign_exact.
Definition C33_store : mem := fun p => if Nat.eqb p 0 then Big (-1) [5; 7; 9] else Big 3 [].
Example C33_assign_case :
  represents (C33_store 0%nat) (- (5 + 7 * 2 ^ 32 + 9 * 2 ^ 64)) /\
  snd (run_assign SubA debug_strict 0%nat 0%nat C33_store) 0%nat = Big 0 [] /\
  snd (run_assign DivA debug_strict 0%nat 0%nat C33_store) 0%nat = Big 1 [] /\
  snd (run_assign AddA debug_strict 0%nat 0%nat C33_store) 0%nat = Big (-1) [10; 14; 18].
Proof. split; [repr|]. repeat split; vm_compute; reflexivity. Qed.

(** div_rem(d, v, r). The full claim - quotient and remainder do not depend on
    whether r is d or v - is false. When r is another object the call is that on
    values ([stored_rem] is C07's remainder): *)
Theorem C33_div_rem_no_alias : forall c m d v r x y,
  represents (m d) x -> represents (m v) y -> y <> 0 -> r <> d -> r <> v ->
  exists m' q rem, mem_div_rem c d v r m = (Ret q, m') /\ represents q (Z.quot x y) /\
    represents rem (stored_rem x y) /\ only_changes m m' r rem.
Proof. exact mem_div_rem_distinct. Qed.
Print Assumptions C33_div_rem_no_alias.
(** Any aliasing is harmless for non-negative operands that are not both small.
    Missing: the other cases, which the theorems after it settle. *)
Theorem C33_div_rem_alias_partial : forall c m d v r x y,
  represents (m d) x -> represents (m v) y -> 0 <= x -> 0 < y -> ~ both_small x y ->
  exists m' q rem, mem_div_rem c d v r m = (Ret q, m') /\ represents q (Z.quot x y) /\
    represents rem (Z.rem x y) /\ only_changes m m' r rem.
Proof. exact mem_div_rem_nonneg. Qed.
Print Assumptions C33_div_rem_alias_partial.
(** The exact behaviour under any aliasing. [reread p r old new] is what p reads
    once r has been overwritten. Both operands small: *)
Theorem C33_div_rem_alias_small : forall c m d v r x y,
  represents (m d) x -> represents (m v) y -> y <> 0 -> both_small x y ->
  exists rem, represents rem (Z.rem x y) /\
    let x' := reread d r x (Z.rem x y) in let y' := reread v r y (Z.rem x y) in
    (y' = 0 -> mem_div_rem c d v r m = (Undef DivByZero, put m r rem)) /\
    (y' <> 0 -> exists q, mem_div_rem c d v r m = (Ret q, put m r rem) /\ represents q (Z.quot x' y')).
Proof. exact mem_div_rem_small. Qed.
Print Assumptions C33_div_rem_alias_small.
(** Otherwise: *)
Theorem C33_div_rem_alias_large : forall c m d v r x y,
  represents (m d) x -> represents (m v) y -> y <> 0 -> ~ both_small x y ->
  exists rem q, represents rem (stored_rem x y) /\
    mem_div_rem c d v r m = (Ret q, put m r rem) /\
    represents q (late_sign x y (reread d r x (stored_rem x y)) (reread v r y (stored_rem x y))).
Proof. exact mem_div_rem_big. Qed.
Print Assumptions C33_div_rem_alias_large.
(** Hence three ways in which div_rem is not alias-safe. *)
Theorem C33_div_rem_dividend_refuted : forall c m d v x y,
  represents (m d) x -> represents (m v) y -> y <> 0 -> both_small x y -> d <> v ->
  exists m' q, mem_div_rem c d v d m = (Ret q, m') /\ represents q 0 /\
    (Z.abs y <= Z.abs x -> ~ represents q (Z.quot x y)).
Proof. exact mem_div_rem_over_dividend. Qed.
Print Assumptions C33_div_rem_dividend_refuted.
Theorem C33_div_rem_divisor_refuted : forall c m d v x y,
  represents (m d) x -> represents (m v) y -> y <> 0 -> both_small x y -> Z.rem x y = 0 ->
  exists m', mem_div_rem c d v v m = (Undef DivByZero, m').
Proof. exact mem_div_rem_over_divisor. Qed.
Print Assumptions C33_div_rem_divisor_refuted.
Theorem C33_div_rem_sign_refuted : forall c m d v x y,
  represents (m d) x -> represents (m v) y -> x < 0 -> 0 < y -> ~ both_small x y -> Z.rem x y = 0 -> d <> v ->
  exists m' q, mem_div_rem c d v d m = (Ret q, m') /\ represents q (- Z.quot x y) /\ ~ represents q (Z.quot x y).
Proof. exact mem_div_rem_wrong_sign. Qed.
Print Assumptions C33_div_rem_sign_refuted.
Definition C33_small_store : mem := fun p => if Nat.eqb p 0 then Big 17 [] else Big 5 [].
Definition C33_large_store : mem := fun p => if Nat.eqb p 0 then Big (-1) [0; 0; 6] else Big 1 [0; 2].
Example C33_div_rem_case :
  represents (C33_small_store 0%nat) 17 /\ represents (C33_small_store 1%nat) 5 /\
  fst (mem_div_rem debug_strict 0%nat 1%nat 2%nat C33_small_store) = Ret (Big 3 []) /\
  fst (mem_div_rem debug_strict 0%nat 1%nat 0%nat C33_small_store) = Ret (Big 0 []) /\
  fst (mem_div_rem debug_strict 0%nat 0%nat 0%nat C33_small_store) = Undef DivByZero /\
  represents (C33_large_store 0%nat) (- 6 * 2 ^ 64) /\ represents (C33_large_store 1%nat) (2 * 2 ^ 32) /\
  fst (mem_div_rem debug_strict 0%nat 1%nat 2%nat C33_large_store) = Ret (Big (-1) [0; 3]) /\
  fst (mem_div_rem debug_strict 0%nat 1%nat 0%nat C33_large_store) = Ret (Big 1 [0; 3]).
Proof.
  split; [repr|]. split; [repr|]. split; [vm_compute; reflexivity|]. split; [vm_compute; reflexivity|].
  split; [vm_compute; reflexivity|]. split; [repr|]. split; [repr|]. split; vm_compute; reflexivity.
Qed.

(** C39. If p op= q throws, every object, p included, is what it was; and that
    happens exactly for division by zero. *)
Theorem C39_throw_unchanged : forall o c p q m e m',
  run_assign o c p q m = (Throw e, m') -> m' = m.
Proof. exact run_assign_throw. Qed.
Print Assumptions C39_throw_unchanged.
Theorem C39_throws_iff : forall o c m p q x y,
  represents (m p) x -> represents (m q) y ->
  ((exists e m', run_assign o c p q m = (Throw e, m')) <-> divides o /\ y = 0).
Proof. exact run_assign_throws_iff. Qed.
Print Assumptions C39_throws_iff.
Theorem C39_div_rem_unchanged : forall c m d v r e m' x y,
  represents (m d) x -> represents (m v) y ->
  mem_div_rem c d v r m = (Throw e, m') -> e = DivideByZero /\ y = 0 /\ m' = m.
Proof. exact mem_div_rem_unchanged. Qed.
Print Assumptions C39_div_rem_unchanged.
Definition C39_store : mem := fun p => if Nat.eqb p 0 then Big (-1) [5; 7; 9] else Big 0 [].
Example C39_case :
  represents (C39_store 1%nat) 0 /\
  fst (run_assign DivA debug_strict 0%nat 1%nat C39_store) = Throw DivideByZero /\
  snd (run_assign DivA debug_strict 0%nat 1%nat C39_store) 0%nat = Big (-1) [5; 7; 9] /\
  fst (mem_div_rem debug_strict 0%nat 1%nat 0%nat C39_store) = Throw DivideByZero.
Proof. split; [repr|]. repeat split; vm_compute; reflexivity. Qed.
