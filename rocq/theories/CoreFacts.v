(** Lemmas quoted by PropCore.v: absence of undefined behaviour in the
    arithmetic core, and the bound on guess corrections in long division. *)
From Verif Require Import Facts Spec AddSubFacts SpecFacts BigIntFacts SpecApi BigInt CalcDivRem DivCoreFacts.
From Verif Require Import CompareFacts ArithLaws PowFacts PowLaws ShiftFacts WordFacts.

Ltac Zify.zify_post_hook ::= idtac.

(** ** Configuration independence *)

Lemma wd_returns (call : cfg -> outcome bigint) z :
  (forall c, returns (call c) z) -> well_defined call.
Proof.
  intros H. left. destruct (H (Cfg true true)) as (r & _ & R). exists r. intros c.
  destruct (H c) as (r' & -> & R'). now rewrite (represents_unique _ _ _ R' R).
Qed.

Lemma wd_ret {A} (call : cfg -> outcome A) r : (forall c, call c = Ret r) -> well_defined call.
Proof. intros H. left. now exists r. Qed.

Lemma wd_throw {A} (call : cfg -> outcome A) e : (forall c, call c = Throw e) -> well_defined call.
Proof. intros H. right. now exists e. Qed.

Lemma canonical_repr a : canonical a -> represents a (value a).
Proof. intros H. split; [exact H|reflexivity]. Qed.

Lemma ring_ops_defined a b :
  canonical a -> canonical b ->
  well_defined (fun c => bi_add c a b) /\ well_defined (fun c => bi_sub c a b) /\
  well_defined (fun c => bi_mul c a b) /\ well_defined (fun c => bi_neg c a) /\
  well_defined (fun c => bi_inc c a) /\ well_defined (fun c => bi_dec c a) /\
  well_defined (fun c => bi_abs c a).
Proof.
  intros Ha Hb. apply canonical_repr in Ha, Hb. set (x := value a) in *. set (y := value b) in *.
  pose proof (fun c => add_family c a b x y Ha Hb) as F1.
  pose proof (fun c => add_sub_family c a b x y Ha Hb) as F2.
  split; [eapply wd_returns; intros c; apply (F1 c)|].
  split; [eapply wd_returns; intros c; apply (F2 c)|].
  split; [eapply wd_returns; intros c; apply (mul_returns c a b x y Ha Hb)|].
  split; [eapply wd_returns; intros c; apply (F2 c)|].
  split; [eapply wd_returns; intros c; apply (F1 c)|].
  split; [eapply wd_returns; intros c; apply (F2 c)|].
  eapply wd_returns; intros c; apply (F2 c).
Qed.

Lemma div_ops_defined a b :
  canonical a -> canonical b ->
  well_defined (fun c => bi_div c a b) /\ well_defined (fun c => bi_rem c a b).
Proof.
  intros Ha Hb. apply canonical_repr in Ha, Hb. set (x := value a) in *. set (y := value b) in *.
  destruct (Z.eq_dec y 0) as [E|E].
  - rewrite E in Hb. pose proof (fun c => div_zero_calls c a b x Ha Hb) as F.
    split; eapply wd_throw; intros c; apply (F c).
  - split; eapply wd_returns; intros c.
    + apply (div_returns c a b x y Ha Hb E).
    + apply (rem_returns c a b x y Ha Hb E).
Qed.

Lemma chk32_strict c v r : chk32 (Cfg true true) v = Ret r -> chk32 c v = Ret r.
Proof.
  unfold chk32. cbn [strict andb]. destruct (Z.leb_spec INT_MIN v); cbn [andb]; [|discriminate].
  destruct (Z.leb_spec v INT_MAX); [|discriminate]. intros E; exact E.
Qed.

Lemma compare_wd a b : canonical a -> canonical b -> well_defined (fun c => bi_compare c a b).
Proof.
  intros Ha Hb. apply canonical_repr in Ha, Hb.
  left. destruct (compare_call (Cfg true true) a b _ _ Ha Hb) as (r & E & _).
  exists r. intros c. revert E. unfold bi_compare.
  rewrite !(assert_valid_ok _ a _ Ha), !(assert_valid_ok _ b _ Hb). cbn [bind].
  repeat match goal with
         | |- context [if ?b then _ else _] => destruct b
         | |- _ -> chk32 _ _ = _ => apply chk32_strict
         | |- context [bind ?m _] => destruct m; cbn [bind]; try discriminate
         end; auto.
Qed.

Lemma compare_ops_defined a b :
  canonical a -> canonical b ->
  well_defined (fun c => bi_compare c a b) /\ well_defined (fun c => bi_eq c a b) /\
  well_defined (fun c => bi_ne c a b) /\ well_defined (fun c => bi_lt c a b) /\
  well_defined (fun c => bi_le c a b) /\ well_defined (fun c => bi_gt c a b) /\
  well_defined (fun c => bi_ge c a b) /\ well_defined (fun c => bi_max c a b) /\
  well_defined (fun c => bi_min c a b).
Proof.
  intros Ha Hb. split; [now apply compare_wd|]. apply canonical_repr in Ha, Hb.
  pose proof (fun c => equal_calls c a b _ _ Ha Hb) as F1.
  pose proof (fun c => order_calls c a b _ _ Ha Hb) as F2.
  split; [eapply wd_ret; intros c; apply (F1 c)|].
  split; [eapply wd_ret; intros c; apply (F1 c)|].
  split; [eapply wd_ret; intros c; apply (F2 c)|].
  split; [eapply wd_ret; intros c; apply (F2 c)|].
  split; [eapply wd_ret; intros c; apply (F2 c)|].
  split; [eapply wd_ret; intros c; apply (F2 c)|].
  split; eapply wd_returns; intros c; apply (F2 c).
Qed.

Lemma bit_ops_defined a b :
  canonical a -> canonical b ->
  well_defined (fun c => bi_and c a b) /\ well_defined (fun c => bi_or c a b) /\
  well_defined (fun c => bi_xor c a b) /\ well_defined (fun c => bi_not c a).
Proof.
  intros Ha Hb. apply canonical_repr in Ha, Hb.
  pose proof (fun c => bitwise_family c a b _ _ Ha Hb) as F.
  split; [eapply wd_returns; intros c; apply (F c)|].
  split; [eapply wd_returns; intros c; apply (F c)|].
  split; eapply wd_returns; intros c; apply (F c).
Qed.

Lemma pow_defined a e :
  canonical a -> - 2 ^ 31 <= e < 2 ^ 31 -> well_defined (fun c => bi_pow c a e).
Proof.
  intros Ha He. apply canonical_repr in Ha. set (x := value a) in *.
  change (2 ^ 31) with 2147483648 in *.
  destruct (Z.lt_ge_cases e 0) as [Hn|Hn].
  { eapply wd_throw. intros c. apply (pow_negative c a x e Ha).
    change (2 ^ 31) with 2147483648. lia. }
  assert (exists n, limb_count x n) as (n & Ln).
  { exists (Z.max 1 (Z.of_nat (length (bits_of a)))). split; [lia|]. split.
    - exact (length_fits a x Ha).
    - intros m Hm Fm. pose proof (repr_length a x m Ha ltac:(lia) Fm). lia. }
  destruct (Z.le_gt_cases (Z.abs x) 1) as [A|A].
  { eapply wd_returns. intros c. apply (pow_exact c a x e n Ha Ln); [|now left].
    change (2 ^ 31) with 2147483648. lia. }
  destruct (Z.le_gt_cases e 1) as [B|B].
  { eapply wd_returns. intros c. apply (pow_exact c a x e n Ha Ln); [|now right; left].
    change (2 ^ 31) with 2147483648. lia. }
  destruct (Z.lt_ge_cases (n * e + 1) (2 ^ 31 - 1)) as [C|C].
  { eapply wd_returns. intros c. apply (pow_exact c a x e n Ha Ln); [|now right; right].
    change (2 ^ 31) with 2147483648. lia. }
  eapply wd_throw. intros c. apply (pow_overflow c a x e n Ha Ln); [|exact A|exact C].
  change (2 ^ 31) with 2147483648. lia.
Qed.

(** ** Shifts *)

Lemma shr_bad_dec a x s : represents a x -> shr_bad x s \/ ~ shr_bad x s.
Proof.
  intros Ha. set (n := Z.max 1 (Z.of_nat (length (bits_of a)))).
  set (k := s / 32).
  assert (shr_bad x s -> 0 < k < n /\ s = 32 * k /\ 2 ^ (32 * n) - 2 ^ (32 * k) < - x < 2 ^ (32 * n)) as H.
  { intros (k' & n' & Hk & E & F).
    assert (k' = k) as ->.
    { unfold k. rewrite E, Z.mul_comm, Z.div_mul by lia. reflexivity. }
    assert (n' = n) as ->; [|auto].
    pose proof (Z.pow_lt_mono_r 2 (32 * k) (32 * n')) as P.
    pose proof (pow2_pos (32 * k) ltac:(lia)) as P0.
    assert (fits_limbs x n') as F1 by (unfold fits_limbs; lia).
    pose proof (repr_length a x n' Ha ltac:(lia) F1) as L1.
    assert (n <= n') as L2 by (unfold n; lia).
    destruct (Z.le_gt_cases n' n) as [L|L]; [lia|exfalso].
    pose proof (length_fits a x Ha) as F2. fold n in F2. unfold fits_limbs in F2.
    assert (2 ^ (32 * n) <= 2 ^ (32 * (n' - 1))) as M1 by (apply Z.pow_le_mono_r; lia).
    assert (2 ^ (32 * k) <= 2 ^ (32 * (n' - 1))) as M2 by (apply Z.pow_le_mono_r; lia).
    assert (2 ^ (32 * n') = 2 ^ 32 * 2 ^ (32 * (n' - 1))) as M3.
    { rewrite <- Z.pow_add_r by lia. f_equal. lia. }
    rewrite M3 in F. change (2 ^ 32) with 4294967296 in F. lia. }
  destruct (Z.eq_dec s (32 * k)) as [E|E]; [|right; intros B; apply H in B; lia].
  destruct (Z_lt_dec 0 k) as [E1|E1]; [|right; intros B; apply H in B; lia].
  destruct (Z_lt_dec k n) as [E2|E2]; [|right; intros B; apply H in B; lia].
  destruct (Z_lt_dec (2 ^ (32 * n) - 2 ^ (32 * k)) (- x)) as [E3|E3]; [|right; intros B; apply H in B; lia].
  destruct (Z_lt_dec (- x) (2 ^ (32 * n))) as [E4|E4]; [|right; intros B; apply H in B; lia].
  left. exists k, n. auto.
Qed.

Lemma shr_wd a x s :
  represents a x -> 0 <= s <= INT_MAX -> (x < 0 -> fits_limbs x (2 ^ 26 - 1)) ->
  well_defined (fun c => bi_shr c a s).
Proof.
  intros Ha Hs Hf. destruct (shr_bad_dec a x s Ha) as [B|B].
  - assert (x < 0) as Hx.
    { destruct B as (k & n & Hk & _ & F). pose proof (Z.pow_lt_mono_r 2 (32 * k) (32 * n)). lia. }
    eapply wd_returns. intros c. apply (bi_shr_wrong c a x s Ha ltac:(lia) (Hf Hx) B).
  - eapply wd_returns. intros c. exact (bi_shr_floor c a x s Ha Hs Hf B).
Qed.

Lemma shift_ops_defined a s :
  canonical a -> - 2 ^ 31 <= s < 2 ^ 31 ->
  (0 <= s -> well_defined (fun c => bi_shl c a s)) /\ (s <= 0 -> well_defined (fun c => bi_shr c a s)).
Proof.
  intros Ha Hs. apply canonical_repr in Ha. change (2 ^ 31) with 2147483648 in Hs. split; intros H.
  - eapply wd_returns. intros c. apply (bi_shl_exact c a _ s Ha). num; lia.
  - eapply wd_returns. intros c. apply (bi_shr_negative c a _ s Ha). num; lia.
Qed.

Lemma shift_right_defined a s :
  canonical a -> - 2 ^ 31 <= s < 2 ^ 31 -> 0 <= value a \/ Z.of_nat (length (bits_of a)) < 2 ^ 26 ->
  well_defined (fun c => bi_shl c a s) /\ well_defined (fun c => bi_shr c a s).
Proof.
  intros Hc Hs Hf. pose proof (canonical_repr a Hc) as Ha. set (x := value a) in *.
  assert (x < 0 -> fits_limbs x (2 ^ 26 - 1)) as Hf'.
  { intros Hx. destruct Hf as [Hf|Hf]; [lia|]. pose proof (length_fits a x Ha) as F. unfold fits_limbs in *.
    eapply Z.lt_le_trans; [exact F|]. apply Z.pow_le_mono_r; [lia|]. change (2 ^ 26) with 67108864 in *. lia. }
  destruct (shift_ops_defined a s Hc Hs) as (S1 & S2). change (2 ^ 31) with 2147483648 in Hs.
  split.
  - destruct (Z.le_gt_cases 0 s) as [H|H]; [now apply S1|].
    destruct (Z.eq_dec s (- 2147483648)) as [->|N].
    + eapply wd_returns. intros c. apply (bi_shl_min c a x Ha Hf').
    + destruct (shr_wd a x (- s) Ha ltac:(num; lia) Hf') as [(r & R)|(e & R)];
        [left; exists r|right; exists e]; intros c; rewrite bi_shl_negative by (num; lia); apply R.
  - destruct (Z.le_gt_cases s 0) as [H|H]; [now apply S2|]. apply (shr_wd a x s Ha ltac:(num; lia) Hf').
Qed.

Lemma shift_right_undefined :
  exists a, canonical a /\ undefined_in_some_build (fun c => bi_shr c a 1) /\
            undefined_in_some_build (fun c => bi_shl c a (-1)).
Proof.
  destruct (wide_witness (Z.to_nat (2 ^ 26))) as (x & Hr & Hx).
  { apply Nat2Z.inj_le. rewrite Z2Nat.id by discriminate. discriminate. }
  exists (Big (-1) (repeat 1 (Z.to_nat (2 ^ 26)))). change (2 ^ 32) with 4294967296 in Hx.
  split; [apply Hr|].
  assert (bi_shr (Cfg true true) (Big (-1) (repeat 1 (Z.to_nat (2 ^ 26)))) 1 = Undef SignedOverflow) as E.
  { apply (bi_shr_wide (Cfg true true) _ x 1 Hr); [lia| |num; lia].
    cbn [bits_of]. rewrite repeat_length, Z2Nat.id by discriminate. split; [discriminate|reflexivity]. }
  split; exists (Cfg true true), SignedOverflow.
  - exact E.
  - rewrite bi_shl_negative by (num; lia). exact E.
Qed.

(** ** Long division: more fuel for the guess loop changes nothing *)

(** [o'] is [o] unless [o] ran out of fuel. *)
Definition refines {A} (o o' : outcome A) : Prop := o = NoFuel \/ o' = o.

Lemma refines_refl {A} (o : outcome A) : refines o o.
Proof. now right. Qed.

Lemma refines_bind {A B} (o o' : outcome A) (k k' : A -> outcome B) :
  refines o o' -> (forall a, refines (k a) (k' a)) -> refines (bind o k) (bind o' k').
Proof.
  intros [->| ->] Hk; [now left|]. destruct o; cbn [bind]; try (now right). apply Hk.
Qed.

Lemma guess_loop_refines f f' c digit vh vl dh dl :
  (f <= f')%nat -> refines (guess_loop f c digit vh vl dh dl) (guess_loop f' c digit vh vl dh dl).
Proof.
  revert f' digit. induction f as [|f IH]; intros [|f'] digit H; try lia; cbn [guess_loop].
  - apply refines_refl.
  - apply refines_bind; [apply refines_refl|]. intros [|]; [now left|apply refines_refl].
  - apply refines_bind; [apply refines_refl|]. intros [|]; [apply IH; lia|apply refines_refl].
Qed.

Lemma divide_step_refines f f' c rhs sh bs dh dl n st :
  (f <= f')%nat -> refines (divide_step f c rhs sh bs dh dl n st) (divide_step f' c rhs sh bs dh dl n st).
Proof.
  intros H. unfold divide_step. destruct st as (lhs & bits). cbv zeta.
  apply refines_bind; [apply refines_refl|]. intros t.
  apply refines_bind; [apply refines_refl|]. intros v1.
  apply refines_bind; [apply refines_refl|]. intros v2.
  apply refines_bind; [apply refines_refl|]. intros (vh & vl).
  destruct (dh =? 0); [apply refines_refl|].
  apply refines_bind; [apply refines_refl|]. intros d.
  apply refines_bind; [now apply guess_loop_refines|]. intros d'. apply refines_refl.
Qed.

Lemma for_down_refines {S} n (b b' : nat -> S -> outcome S) s :
  (forall i s, refines (b i s) (b' i s)) -> refines (for_down n b s) (for_down n b' s).
Proof.
  intros H. revert s. induction n as [|n IH]; intros s; cbn [for_down]; [apply refines_refl|].
  apply refines_bind; [apply H|exact IH].
Qed.

Lemma calc_div_core_refines f f' c lhs rhs bits :
  (f <= f')%nat -> refines (calc_div_core_fuel f c lhs rhs bits) (calc_div_core_fuel f' c lhs rhs bits).
Proof.
  intros H. unfold calc_div_core_fuel.
  do 6 (apply refines_bind; [apply refines_refl|]; intros ?). cbv zeta.
  apply refines_bind; [apply refines_refl|]. intros (dh & dl).
  apply for_down_refines. intros i s. now apply divide_step_refines.
Qed.

(** Two decrements per digit and the single add-back compute the quotient and
    remainder, whatever the budget. *)
Lemma core_two_decrements fuel c lhs rhs bits :
  (2 <= fuel)%nat ->
  Forall (fun d => 0 <= d < 2 ^ 32) lhs -> Forall (fun d => 0 <= d < 2 ^ 32) rhs -> last rhs 0 <> 0 ->
  (length rhs <= length lhs)%nat -> length bits = (length lhs - length rhs + 1)%nat ->
  exists rem quo,
    calc_div_core_fuel fuel c lhs rhs bits = Ret (rem, quo) /\
    calc_div_core_fuel 2 c lhs rhs bits = Ret (rem, quo) /\
    magnitude quo = magnitude lhs / magnitude rhs /\ magnitude rem = magnitude lhs mod magnitude rhs.
Proof.
  intros Hf Hl Hr Ht Hlen Hb.
  assert (rhs <> []) as Hne by (intros ->; now apply Ht).
  rewrite last_nth in Ht.
  destruct (wp_inv _ _ (calc_div_core_fuel_spec 2 c lhs rhs bits ltac:(lia) Hl Hr Hne Ht Hlen (or_intror Hb)))
    as ((l' & b') & E & _ & _ & V & Q).
  assert (bits <> []) as Hbn by (intros ->; cbn [length] in Hb; lia).
  destruct (Q Hbn) as (_ & _ & Q3).
  exists l', b'. rewrite !magnitude_val. split; [|auto].
  destruct (calc_div_core_refines 2 fuel c lhs rhs bits Hf) as [N|N]; congruence.
Qed.

(** The same when only the remainder is wanted (no quotient array). *)
Lemma core_two_decrements_rem fuel c lhs rhs :
  (2 <= fuel)%nat ->
  Forall (fun d => 0 <= d < 2 ^ 32) lhs -> Forall (fun d => 0 <= d < 2 ^ 32) rhs -> last rhs 0 <> 0 ->
  (length rhs <= length lhs)%nat ->
  exists rem quo,
    calc_div_core_fuel fuel c lhs rhs [] = Ret (rem, quo) /\
    calc_div_core_fuel 2 c lhs rhs [] = Ret (rem, quo) /\
    magnitude rem = magnitude lhs mod magnitude rhs.
Proof.
  intros Hf Hl Hr Ht Hlen.
  assert (rhs <> []) as Hne by (intros ->; now apply Ht).
  rewrite last_nth in Ht.
  destruct (wp_inv _ _ (calc_div_core_fuel_spec 2 c lhs rhs [] ltac:(lia) Hl Hr Hne Ht Hlen (or_introl eq_refl)))
    as ((l' & b') & E & _ & _ & V & _).
  exists l', b'. rewrite !magnitude_val. split; [|auto].
  destruct (calc_div_core_refines 2 fuel c lhs rhs [] Hf) as [N|N]; congruence.
Qed.
