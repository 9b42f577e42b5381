(** GcdInv.cpp and BigInteger::greatest_common_divisor. *)
From Coq Require Import Znumtheory.
From Verif Require Import Facts Spec AddSubFacts SquMulFacts DivRemFacts DivCoreFacts SpecFacts BigIntFacts SpecApi SpecGcd ConvFacts.
From Verif Require Import CompareFacts CalcAddSub CalcSquMul CalcDivRem CalcPowMod CalcGcd BigInt ConvLaws ShiftFacts PowFacts ModPowFacts ModPowApi ReducerFacts.

Ltac Zify.zify_post_hook ::= idtac.

(** ** Word-sized operands *)

Lemma gcd_swap l r : r <> 0 -> Z.gcd r (l mod r) = Z.gcd l r.
Proof. intros H. rewrite Z.gcd_comm, Z.gcd_mod by exact H. apply Z.gcd_comm. Qed.

Lemma mod_half a b : 0 < b <= a -> 2 * (a mod b) < a.
Proof.
  intros H. pose proof (Z.div_mod a b ltac:(lia)) as D. pose proof (Z.mod_pos_bound a b ltac:(lia)) as M.
  assert (1 <= a / b) by (apply Z.div_le_lower_bound; lia).
  assert (b * 1 <= b * (a / b)) by (apply Z.mul_le_mono_nonneg_l; lia). lia.
Qed.

Lemma gcd32_loop_spec k : forall fuel l r, (2 * k <= fuel)%nat -> 0 <= l -> 0 <= r < 2 ^ Z.of_nat k ->
  gcd32_loop fuel l r = Ret (Z.gcd l r).
Proof.
  induction k as [|k IH]; intros fuel l r Hf Hl Hr.
  - assert (r = 0) as -> by (change (2 ^ Z.of_nat 0) with 1 in Hr; lia).
    rewrite Z.gcd_0_r, Z.abs_eq by lia. destruct fuel; reflexivity.
  - destruct fuel as [|[|fuel]]; [lia|lia|]. cbn [gcd32_loop]. unfold umod.
    destruct (Z.eqb_spec r 0) as [->|R]; [rewrite Z.gcd_0_r, Z.abs_eq by lia; reflexivity|]. cbn [bind].
    pose proof (Z.mod_pos_bound l r ltac:(lia)) as M1.
    rewrite <- (gcd_swap l r R). set (r1 := l mod r) in *. clearbody r1.
    destruct (Z.eqb_spec r1 0) as [->|R1]; [rewrite Z.gcd_0_r, Z.abs_eq by lia; reflexivity|]. cbn [bind].
    pose proof (mod_half r r1 ltac:(lia)) as M2. pose proof (Z.mod_pos_bound r r1 ltac:(lia)) as M3.
    rewrite Nat2Z.inj_succ, Z.pow_succ_r in Hr by lia.
    rewrite IH; [now rewrite gcd_swap|lia|lia|lia].
Qed.

Lemma calc_gcd32_spec l r : 0 <= l -> 0 <= r < W32 -> calc_gcd32 l r = Ret (Z.gcd l r).
Proof.
  intros Hl Hr. apply (gcd32_loop_spec 32); [unfold euclid_fuel; lia|exact Hl|]. change (2 ^ Z.of_nat 32) with W32. exact Hr.
Qed.

Lemma gcd64_loop_spec k : forall fuel l r, (2 * k <= fuel)%nat -> 0 <= l -> 0 <= r < 2 ^ Z.of_nat k ->
  wp (gcd64_loop fuel l r) (fun st => 0 <= fst st /\ 0 <= snd st <= UINT_MAX /\ Z.gcd (fst st) (snd st) = Z.gcd l r).
Proof.
  induction k as [|k IH]; intros fuel l r Hf Hl Hr.
  - assert (r = 0) as -> by (change (2 ^ Z.of_nat 0) with 1 in Hr; lia).
    destruct fuel; cbn [gcd64_loop]; change (UINT_MAX <? 0) with false; cbn beta iota; wstep; cbn [fst snd]; unfold UINT_MAX; lia.
  - destruct fuel as [|[|fuel]]; [lia|lia|]. cbn [gcd64_loop].
    destruct (Z.ltb_spec UINT_MAX r) as [R|R]; [|wstep; cbn [fst snd]; lia].
    assert (r <> 0) as R0 by (unfold UINT_MAX in R; lia).
    unfold umod at 1. rewrite (proj2 (Z.eqb_neq r 0) R0). cbn [bind].
    pose proof (Z.mod_pos_bound l r ltac:(unfold UINT_MAX in R; lia)) as M1.
    rewrite <- (gcd_swap l r R0). set (r1 := l mod r) in *. clearbody r1.
    destruct (Z.ltb_spec UINT_MAX r1) as [R1|R1]; [|wstep; cbn [fst snd]; lia].
    assert (0 < r1) as R2 by (unfold UINT_MAX in R1; lia).
    unfold umod at 1. rewrite (proj2 (Z.eqb_neq r1 0)) by lia. cbn [bind].
    pose proof (mod_half r r1 ltac:(lia)) as M2. pose proof (Z.mod_pos_bound r r1 ltac:(lia)) as M3.
    rewrite Nat2Z.inj_succ, Z.pow_succ_r in Hr by lia.
    eapply wp_mono; [apply IH; lia|]. intros st (A & B & C). rewrite gcd_swap in C by lia. auto.
Qed.

Lemma calc_gcd64_spec l r : 0 <= l -> 0 <= r < W64 -> wp (calc_gcd64 l r) (fun g => g = Z.gcd l r).
Proof.
  intros Hl Hr. unfold calc_gcd64. wstep. eapply wp_mono; [apply (gcd64_loop_spec 64); auto; unfold euclid_fuel; lia|].
  intros (a, b) (A & B & C). cbn [fst snd] in A, B, C. rewrite <- C. unfold UINT_MAX in B.
  destruct (Z.eqb_spec b 0) as [->|N]; cbn [negb].
  - wstep. now rewrite Z.gcd_0_r, Z.abs_eq by lia.
  - wstep. apply umod_ok; [lia|]. pose proof (Z.mod_pos_bound a b ltac:(lia)).
    rewrite !u32_small by (num; lia). rewrite calc_gcd32_spec by (num; lia). cbn [wp]. now apply gcd_swap.
Qed.

(** ** The guessing loop *)

Definition coef (s : lehmer) : Prop :=
  0 <= la s <= INT_MAX /\ 0 <= lb s <= INT_MAX /\ 0 <= lc s <= INT_MAX /\ 0 <= ld s <= INT_MAX /\
  0 <= lx s < W64 /\ 0 <= ly s < W64.

Lemma small_mul q v : 0 <= q <= UINT_MAX -> 0 <= v <= INT_MAX -> 0 <= q * v < 2 ^ 63 - INT_MAX.
Proof.
  intros Hq Hv. unfold UINT_MAX in Hq. num.
  assert (0 <= q * v) by (apply Z.mul_nonneg_nonneg; lia).
  assert (q * v <= 4294967295 * 2147483647) by (apply Z.mul_le_mono_nonneg; lia). lia.
Qed.

Lemma u64_comb q u v : 0 <= q <= UINT_MAX -> 0 <= u <= INT_MAX -> 0 <= v <= INT_MAX ->
  u64 (u + u64 (q * v)) = u + q * v /\ u <= u + q * v.
Proof.
  intros Hq Hu Hv. pose proof (small_mul q v Hq Hv) as B. rewrite (u64_small (q * v)) by (num; lia).
  rewrite u64_small by (num; lia). lia.
Qed.

Lemma u64_rem x y : 0 <= x < W64 -> 0 < y -> u64 (x - u64 (x / y * y)) = x mod y.
Proof.
  intros Hx Hy. pose proof (Z.div_mod x y ltac:(lia)) as D. pose proof (Z.mod_pos_bound x y Hy) as M.
  assert (0 <= x / y * y) by (apply Z.mul_nonneg_nonneg; [apply Z.div_pos; lia|lia]).
  rewrite (u64_small (x / y * y)) by lia. rewrite u64_small by lia. lia.
Qed.

(** The odd iteration is accepted. *)
Definition odd_ok (s : lehmer) : Prop :=
  ly s <> 0 /\ lx s / ly s <= UINT_MAX /\ la s + lx s / ly s * lc s <= INT_MAX /\
  lb s + lx s / ly s * ld s <= INT_MAX /\ lb s + lx s / ly s * ld s <= lx s mod ly s /\
  u64 (lx s mod ly s + (la s + lx s / ly s * lc s)) <= u64 (ly s - lc s).

Lemma guess_spec fuel : forall s, coef s -> ly s < 2 ^ Z.of_nat fuel ->
  wp (lehmer_guess fuel s) (fun s' => coef s' /\ lb s <= lb s' /\
    (odd_ok s -> lb s + lx s / ly s * ld s <= lb s') /\ (~ odd_ok s -> s' = s)).
Proof.
  induction fuel as [|fuel IH]; intros s Hs Hy; cbn [lehmer_guess].
  - pose proof Hs as (_ & _ & _ & _ & _ & Y). change (2 ^ Z.of_nat 0) with 1 in Hy.
    assert (ly s = 0) as E by lia. rewrite E. change (0 =? 0) with true. cbn beta iota. wstep.
    split; [exact Hs|]. split; [lia|]. split; [|reflexivity]. intros (K & _). contradiction.
  - pose proof Hs as (A & B & C & D & X & Y).
    destruct (Z.eqb_spec (ly s) 0) as [E|E].
    { wstep. split; [exact Hs|]. split; [lia|]. split; [|reflexivity]. intros (K & _). contradiction. }
    unfold udiv at 1. rewrite (proj2 (Z.eqb_neq _ _) E). cbn [bind].
    destruct (Z.ltb_spec UINT_MAX (lx s / ly s)) as [Q|Q].
    { wstep. split; [exact Hs|]. split; [lia|]. split; [|reflexivity]. intros (_ & K & _). lia. }
    assert (0 <= lx s / ly s) as Q0 by (apply Z.div_pos; lia).
    cbv zeta. rewrite u64_rem by lia.
    destruct (u64_comb (lx s / ly s) (la s) (lc s)) as (-> & G1); [lia|lia|lia|].
    destruct (u64_comb (lx s / ly s) (lb s) (ld s)) as (-> & G2); [lia|lia|lia|].
    destruct (Z.ltb_spec INT_MAX (la s + lx s / ly s * lc s)) as [R1|R1]; cbn [orb].
    { wstep. split; [exact Hs|]. split; [lia|]. split; [|reflexivity]. intros (_ & _ & K & _). lia. }
    destruct (Z.ltb_spec INT_MAX (lb s + lx s / ly s * ld s)) as [R2|R2]; cbn [orb].
    { wstep. split; [exact Hs|]. split; [lia|]. split; [|reflexivity]. intros (_ & _ & _ & K & _). lia. }
    destruct (Z.ltb_spec (lx s mod ly s) (lb s + lx s / ly s * ld s)) as [R3|R3]; cbn [orb].
    { wstep. split; [exact Hs|]. split; [lia|]. split; [|reflexivity]. intros (_ & _ & _ & _ & K & _). lia. }
    destruct (Z.ltb_spec (u64 (ly s - lc s)) (u64 (lx s mod ly s + (la s + lx s / ly s * lc s)))) as [R4|R4].
    { wstep. split; [exact Hs|]. split; [lia|]. split; [|reflexivity]. intros (_ & _ & _ & _ & _ & K). lia. }
    assert (odd_ok s) as OK by (repeat split; assumption).
    pose proof (Z.mod_pos_bound (lx s) (ly s) ltac:(lia)) as M1.
    set (r := la s + lx s / ly s * lc s) in *. set (s' := lb s + lx s / ly s * ld s) in *.
    set (t := lx s mod ly s) in *. clearbody r s' t.
    rewrite !u32_small by (num; lia). cbn [lx ly la lb lc ld liter].
    set (s1 := Leh r s' (lc s) (ld s) t (ly s) (liter s + 1)) in *.
    assert (coef s1) as H1 by (unfold coef, s1; cbn [lx ly la lb lc ld liter]; repeat split; lia).
    assert (forall s2, coef s2 /\ lb s1 <= lb s2 -> coef s2 /\ lb s <= lb s2 /\
      (odd_ok s -> s' <= lb s2) /\ (~ odd_ok s -> s2 = s)) as FIN.
    { unfold s1. cbn [lb]. intros s2 (F1 & F2). split; [exact F1|]. split; [lia|]. split; [auto|]. intros N; contradiction. }
    destruct (Z.eqb_spec t s') as [T|T]; [wstep; apply FIN; split; [exact H1|lia]|].
    unfold udiv at 1. rewrite (proj2 (Z.eqb_neq t 0)) by lia. cbn [bind].
    destruct (Z.ltb_spec UINT_MAX (ly s / t)) as [Q'|Q'].
    { wstep. apply FIN. split; [exact H1|lia]. }
    assert (0 <= ly s / t) as Q0' by (apply Z.div_pos; lia).
    rewrite u64_rem by lia.
    destruct (u64_comb (ly s / t) (ld s) s') as (-> & G3); [lia|lia|lia|].
    destruct (u64_comb (ly s / t) (lc s) r) as (-> & G4); [lia|lia|lia|].
    destruct (Z.ltb_spec INT_MAX (ld s + ly s / t * s')) as [R5|R5]; cbn [orb].
    { wstep. apply FIN. split; [exact H1|lia]. }
    destruct (Z.ltb_spec INT_MAX (lc s + ly s / t * r)) as [R6|R6]; cbn [orb].
    { wstep. apply FIN. split; [exact H1|lia]. }
    match goal with |- wp (if ?b then _ else _) _ => destruct b end.
    { wstep. apply FIN. split; [exact H1|lia]. }
    pose proof (mod_half (ly s) t ltac:(lia)) as MH. pose proof (Z.mod_pos_bound (ly s) t ltac:(lia)) as M2.
    rewrite !u32_small by (num; lia).
    set (s2 := Leh r s' (lc s + ly s / t * r) (ld s + ly s / t * s') t (ly s mod t) (liter s + 1 + 1)).
    assert (coef s2) as H2 by (unfold coef, s2; cbn [lx ly la lb lc ld liter]; repeat split; lia).
    match goal with |- wp (if ?b then _ else _) _ => destruct b end.
    { wstep. apply FIN. split; [exact H2|unfold s1, s2; cbn [lb]; lia]. }
    eapply wp_mono; [apply IH; [exact H2|]|].
    + unfold s2. cbn [ly]. rewrite Nat2Z.inj_succ, Z.pow_succ_r in Hy by lia. lia.
    + intros s3 (F1 & F2 & _). apply FIN. split; [exact F1|]. unfold s1, s2 in *. cbn [lb] in *. lia.
Qed.

Lemma guess_first X Y : 0 <= Y <= X -> X < 2 ^ 63 ->
  wp (lehmer_guess euclid_fuel (Leh 1 0 0 1 X Y 0)) (fun s => coef s /\
    (0 < Y -> X / Y < 2 ^ 31 -> X / Y <= X mod Y -> lb s <> 0) /\
    (~ (0 < Y /\ X / Y < 2 ^ 31 /\ X / Y <= X mod Y) -> lb s = 0)).
Proof.
  intros HY HX. set (s := Leh 1 0 0 1 X Y 0).
  assert (coef s) as Hs by (unfold coef, s; cbn [lx ly la lb lc ld]; num; lia).
  eapply wp_mono; [apply guess_spec; [exact Hs|]|].
  { unfold s. cbn [ly]. assert (2 ^ 63 <= 2 ^ Z.of_nat euclid_fuel) by (apply Z.pow_le_mono_r; unfold euclid_fuel; lia). lia. }
  intros s' (C & L & F1 & F2). split; [exact C|]. unfold odd_ok, s in F1, F2. cbn [lx ly la lb lc ld] in F1, F2.
  split.
  - intros Y0 Q M.
    assert (1 <= X / Y) as Q1 by (apply Z.div_le_lower_bound; lia).
    pose proof (Z.mod_pos_bound X Y Y0) as MB.
    assert (0 + X / Y * 1 <= lb s'); [|lia]. apply F1. unfold UINT_MAX; num.
    split; [lia|]. split; [lia|]. split; [lia|]. split; [lia|]. split; [lia|].
    rewrite !u64_small by (num; lia). lia.
  - intros N. rewrite F2; [reflexivity|]. intros (K1 & _ & _ & K3 & K4 & _). apply N. num; lia.
Qed.

(** ** extract_digits *)

Lemma top63 h m l z : limb h -> limb m -> limb l -> 0 <= z < 32 -> h * 2 ^ z < W32 ->
  Z.shiftr (Z.lor (Z.lor (u64 (Z.shiftl h (32 + z))) (u64 (Z.shiftl m z))) (Z.shiftr l (32 - z))) 1 =
    (h * (W32 * W32) + m * W32 + l) / 2 ^ (33 - z).
Proof.
  intros Hh Hm Hl Hz Hb. unfold limb in *.
  pose proof (Z.pow_pos_nonneg 2 z ltac:(lia) ltac:(lia)) as PZ.
  assert (2 ^ z <= 2 ^ 31) as PZ2 by (apply Z.pow_le_mono_r; lia).
  rewrite !Z.shiftl_mul_pow2, !Z.shiftr_div_pow2 by lia.
  rewrite (Z.pow_add_r 2 32 z) by lia. change (2 ^ 32) with W32.
  assert (0 <= h * 2 ^ z) as H0 by (apply Z.mul_nonneg_nonneg; lia).
  assert (0 <= m * 2 ^ z < W32 * 2 ^ z) as M0.
  { split; [apply Z.mul_nonneg_nonneg; lia|apply Z.mul_lt_mono_pos_r; lia]. }
  assert (h * (W32 * 2 ^ z) = W32 * (h * 2 ^ z)) as E1 by ring.
  rewrite (u64_small (h * (W32 * 2 ^ z))) by (rewrite E1; num; lia).
  rewrite (u64_small (m * 2 ^ z)) by (num; lia).
  assert (2 ^ (32 - z) * 2 ^ z = W32) as EW.
  { rewrite <- Z.pow_add_r by lia. replace (32 - z + z) with 32 by lia. reflexivity. }
  pose proof (Z.pow_pos_nonneg 2 (32 - z) ltac:(lia) ltac:(lia)) as PZ3.
  assert (0 <= l / 2 ^ (32 - z) < 2 ^ z) as L0.
  { split; [apply Z.div_pos; lia|]. apply Z.div_lt_upper_bound; [lia|]. rewrite EW. lia. }
  assert (W32 * 2 ^ z = 2 ^ (32 + z)) as EP by (rewrite Z.pow_add_r by lia; reflexivity).
  rewrite EP. rewrite lor_add by lia.
  replace (h * 2 ^ (32 + z) + m * 2 ^ z) with ((h * W32 + m) * 2 ^ z) by (rewrite <- EP; ring).
  rewrite lor_add by lia.
  assert ((h * W32 + m) * 2 ^ z + l / 2 ^ (32 - z) = (h * (W32 * W32) + m * W32 + l) / 2 ^ (32 - z)) as ->.
  { rewrite <- Z.div_add_l by lia. f_equal.
    transitivity ((h * W32 + m) * (2 ^ (32 - z) * 2 ^ z) + l); [ring|]. rewrite EW. ring. }
  rewrite Z.div_div by lia. f_equal. change (2 ^ 1) with 2. replace (33 - z) with (Z.succ (32 - z)) by lia.
  rewrite Z.pow_succ_r by lia. ring.
Qed.

Lemma three l n : vl l (n + 3) = vl l n + (nth (n + 2) l 0 * (W32 * W32) + nth (n + 1) l 0 * W32 + nth n l 0) * Bp n.
Proof.
  replace (n + 3)%nat with (S (S (S n))) by lia. rewrite !vl_S.
  replace (n + 2)%nat with (S (S n)) by lia. replace (n + 1)%nat with (S n) by lia. rewrite !Bp_S. ring.
Qed.

Lemma isbuf_vl size b v n : isbuf size b v -> (bb_len b <= n)%nat -> vl (bb_bits b) n = v.
Proof.
  intros [S L V N H Lo] Hn. destruct (Nat.le_gt_cases (length (bb_bits b)) n) as [K|K].
  - rewrite vl_ge by exact K. exact V.
  - pose proof (Bp_le _ _ Hn). destruct (upper_zero (bb_bits b) n L ltac:(lia) ltac:(lia)) as (_ & E). lia.
Qed.

Lemma isbuf_high size b v i : isbuf size b v -> (bb_len b <= i)%nat -> nth i (bb_bits b) 0 = 0.
Proof.
  intros Hb Hi. destruct (isbuf_prefix _ _ _ Hb) as (_ & L & _ & Z). pose proof Hb as [S _ _ N _ _].
  rewrite <- (firstn_skipn (bb_len b) (bb_bits b)), app_nth2 by lia. rewrite Z. apply nth_repeat.
Qed.

Lemma isbuf_limb size b v i : isbuf size b v -> limb (nth i (bb_bits b) 0).
Proof. intros [_ L _ _ _ _]. now apply limbs_nth. Qed.

Lemma isbuf_top size b v : isbuf size b v -> (1 <= bb_len b)%nat -> 0 < nth (bb_len b - 1) (bb_bits b) 0.
Proof.
  intros Hb H. pose proof (isbuf_limb _ _ _ (bb_len b - 1) Hb) as L. pose proof Hb as [S _ _ N Hi Lo].
  specialize (Lo ltac:(lia)). pose proof (isbuf_vl _ _ _ _ Hb (Nat.le_refl _)) as E.
  replace (bb_len b) with (Datatypes.S (bb_len b - 1)) in E at 1 by lia. rewrite vl_S in E.
  pose proof (vl_bound (bb_bits b) (bb_len b - 1) ltac:(apply Hb)) as B.
  unfold limb in L. destruct (Z.eq_dec (nth (bb_len b - 1) (bb_bits b) 0) 0) as [K|K]; [rewrite K in E; lia|lia].
Qed.

(** The digits read from [y] are those at the positions of [x]'s three leading limbs. *)
Lemma read_y sx sy xb yb x y :
  isbuf sx xb x -> isbuf sy yb y -> (3 <= bb_len yb <= bb_len xb)%nat ->
  (if Z.of_nat (bb_len xb) - Z.of_nat (bb_len yb) =? 0 then
       yh <- rdz (bb_bits yb) (Z.of_nat (bb_len yb) - 1) ;; ym <- rdz (bb_bits yb) (Z.of_nat (bb_len yb) - 2) ;;
       yl <- rdz (bb_bits yb) (Z.of_nat (bb_len yb) - 3) ;; Ret (yh, ym, yl)
     else if Z.of_nat (bb_len xb) - Z.of_nat (bb_len yb) =? 1 then
       ym <- rdz (bb_bits yb) (Z.of_nat (bb_len yb) - 1) ;; yl <- rdz (bb_bits yb) (Z.of_nat (bb_len yb) - 2) ;; Ret (0, ym, yl)
     else if Z.of_nat (bb_len xb) - Z.of_nat (bb_len yb) =? 2 then
       yl <- rdz (bb_bits yb) (Z.of_nat (bb_len yb) - 1) ;; Ret (0, 0, yl)
     else Ret (0, 0, 0)) =
  Ret (nth (bb_len xb - 1) (bb_bits yb) 0, nth (bb_len xb - 2) (bb_bits yb) 0, nth (bb_len xb - 3) (bb_bits yb) 0).
Proof.
  intros Hx Hy HL. pose proof Hy as [S _ _ N _ _].
  assert (forall k, (k < bb_len yb)%nat ->
    rdz (bb_bits yb) (Z.of_nat (bb_len yb) - Z.of_nat (bb_len yb - k)) = Ret (nth k (bb_bits yb) 0)) as R.
  { intros k Hk. unfold rdz. destruct (Z.ltb_spec (Z.of_nat (bb_len yb) - Z.of_nat (bb_len yb - k)) 0); [lia|].
    replace (Z.to_nat (Z.of_nat (bb_len yb) - Z.of_nat (bb_len yb - k))) with k by lia.
    unfold rd. now rewrite (nth_error_nth' _ 0) by lia. }
  pose proof (R (bb_len yb - 1)%nat ltac:(lia)) as R1. replace (Z.of_nat (bb_len yb - (bb_len yb - 1))) with 1 in R1 by lia.
  pose proof (R (bb_len yb - 2)%nat ltac:(lia)) as R2. replace (Z.of_nat (bb_len yb - (bb_len yb - 2))) with 2 in R2 by lia.
  pose proof (R (bb_len yb - 3)%nat ltac:(lia)) as R3. replace (Z.of_nat (bb_len yb - (bb_len yb - 3))) with 3 in R3 by lia.
  rewrite R1, R2, R3. cbn [bind]. clear R R1 R2 R3.
  repeat match goal with |- context [?a =? ?b] => destruct (Z.eqb_spec a b) end.
  - replace (bb_len xb) with (bb_len yb) by lia. reflexivity.
  - rewrite (isbuf_high _ _ _ (bb_len xb - 1) Hy) by lia.
    replace (bb_len xb - 2)%nat with (bb_len yb - 1)%nat by lia. replace (bb_len xb - 3)%nat with (bb_len yb - 2)%nat by lia. reflexivity.
  - rewrite (isbuf_high _ _ _ (bb_len xb - 1) Hy), (isbuf_high _ _ _ (bb_len xb - 2) Hy) by lia.
    replace (bb_len xb - 3)%nat with (bb_len yb - 1)%nat by lia. reflexivity.
  - rewrite (isbuf_high _ _ _ (bb_len xb - 1) Hy), (isbuf_high _ _ _ (bb_len xb - 2) Hy), (isbuf_high _ _ _ (bb_len xb - 3) Hy) by lia.
    reflexivity.
Qed.

(** In either order of the values: the assertion may fail, nothing else can. *)
Lemma extract_total c sx sy xb yb x y :
  isbuf sx xb x -> isbuf sy yb y -> (3 <= bb_len yb <= bb_len xb)%nat ->
  exists X Y, 0 <= X < 2 ^ 63 /\ 0 <= Y < 2 ^ 63 /\
    extract_digits c xb yb = (massert c (Y <=? X) ;;; Ret (X, Y)) /\
    (y <= x -> exists k, 0 <= k /\ 2 ^ 62 <= X /\ X = x / 2 ^ k /\ Y = y / 2 ^ k).
Proof.
  intros Hx Hy HL. pose proof Hx as [S _ _ N B Lo]. pose proof Hy as [Sy _ _ Ny By _].
  unfold extract_digits.
  rewrite (read_y sx sy xb yb x y Hx Hy HL).
  assert (forall k, (k < bb_len xb)%nat ->
    rdz (bb_bits xb) (Z.of_nat (bb_len xb) - Z.of_nat (bb_len xb - k)) = Ret (nth k (bb_bits xb) 0)) as R.
  { intros k Hk. unfold rdz. destruct (Z.ltb_spec (Z.of_nat (bb_len xb) - Z.of_nat (bb_len xb - k)) 0); [lia|].
    replace (Z.to_nat (Z.of_nat (bb_len xb) - Z.of_nat (bb_len xb - k))) with k by lia.
    unfold rd. now rewrite (nth_error_nth' _ 0) by lia. }
  pose proof (R (bb_len xb - 1)%nat ltac:(lia)) as R1. replace (Z.of_nat (bb_len xb - (bb_len xb - 1))) with 1 in R1 by lia.
  pose proof (R (bb_len xb - 2)%nat ltac:(lia)) as R2. replace (Z.of_nat (bb_len xb - (bb_len xb - 2))) with 2 in R2 by lia.
  pose proof (R (bb_len xb - 3)%nat ltac:(lia)) as R3. replace (Z.of_nat (bb_len xb - (bb_len xb - 3))) with 3 in R3 by lia.
  rewrite R1, R2, R3. clear R R1 R2 R3.
  assert (forall b k, b = true -> massert c b ;;; k = k :> outcome (Z * Z)) as MA.
  { intros b k ->. unfold massert. now destruct (dbg c). }
  rewrite !MA by (apply Z.leb_le; lia). cbn [bind].
  pose proof (isbuf_top _ _ _ Hx ltac:(lia)) as TX.
  pose proof (isbuf_limb _ _ _ (bb_len xb - 1) Hx) as Lh. pose proof (isbuf_limb _ _ _ (bb_len xb - 2) Hx) as Lm.
  pose proof (isbuf_limb _ _ _ (bb_len xb - 3) Hx) as Ll. pose proof (isbuf_limb _ _ _ (bb_len xb - 1) Hy) as Mh.
  pose proof (isbuf_limb _ _ _ (bb_len xb - 2) Hy) as Mm. pose proof (isbuf_limb _ _ _ (bb_len xb - 3) Hy) as Ml.
  pose proof (isbuf_vl _ _ _ _ Hx (Nat.le_refl _)) as EX. pose proof (isbuf_vl _ _ _ (bb_len xb) Hy ltac:(lia)) as EY.
  replace (bb_len xb) with (bb_len xb - 3 + 3)%nat in EX, EY at 1 by lia. rewrite three in EX, EY.
  replace (bb_len xb - 3 + 2)%nat with (bb_len xb - 1)%nat in EX, EY by lia.
  replace (bb_len xb - 3 + 1)%nat with (bb_len xb - 2)%nat in EX, EY by lia.
  pose proof (vl_bound (bb_bits xb) (bb_len xb - 3) ltac:(apply Hx)) as BX.
  pose proof (vl_bound (bb_bits yb) (bb_len xb - 3) ltac:(apply Hy)) as BY.
  set (h := nth (bb_len xb - 1) (bb_bits xb) 0) in *. set (m := nth (bb_len xb - 2) (bb_bits xb) 0) in *.
  set (l := nth (bb_len xb - 3) (bb_bits xb) 0) in *. set (h' := nth (bb_len xb - 1) (bb_bits yb) 0) in *.
  set (m' := nth (bb_len xb - 2) (bb_bits yb) 0) in *. set (l' := nth (bb_len xb - 3) (bb_bits yb) 0) in *.
  set (P := Bp (bb_len xb - 3)) in *.
  assert (0 < P) as PP by apply Bp_pos.
  rewrite (u32_small h) by exact Lh.
  destruct (leading_zeros_spec h) as (Z1 & Z2); [unfold limb in Lh; lia|]. set (z := leading_zeros h) in *.
  assert (EP : P = 2 ^ (32 * Z.of_nat (bb_len xb - 3))) by apply Bp_pow2.
  clearbody h m l h' m' l' z P.
  assert (forall v k, 0 <= k < 64 -> shl64 v k = Ret (u64 (Z.shiftl v k))) as SL.
  { intros v k Hk. unfold shl64. rewrite (proj2 (Z.leb_le _ _)), (proj2 (Z.ltb_lt _ _)) by lia. reflexivity. }
  assert (forall v k, 0 <= k < 64 -> shr64 v k = Ret (Z.shiftr v k)) as SR.
  { intros v k Hk. unfold shr64. rewrite (proj2 (Z.leb_le _ _)), (proj2 (Z.ltb_lt _ _)) by lia. reflexivity. }
  rewrite !SL, !SR by lia. cbn [bind]. cbv zeta. clear SL SR MA.
  assert (forall a b d, limb d -> 0 <= Z.shiftr (Z.lor (Z.lor (u64 a) (u64 b)) (Z.shiftr d (32 - z))) 1 < 2 ^ 63) as RG.
  { intros a b d Hd. pose proof (u64_range a) as U1. pose proof (u64_range b) as U2.
    assert (0 <= Z.shiftr d (32 - z) < W64) as U3.
    { rewrite Z.shiftr_div_pow2 by lia. pose proof (Z.pow_pos_nonneg 2 (32 - z) ltac:(lia) ltac:(lia)).
      unfold limb in Hd. split; [apply Z.div_pos; lia|]. apply Z.div_lt_upper_bound; [lia|].
      assert (1 * W64 <= 2 ^ (32 - z) * W64) by (apply Z.mul_le_mono_nonneg_r; num; lia). num; lia. }
    assert (forall u v, 0 <= u < W64 -> 0 <= v < W64 -> 0 <= Z.lor u v < W64) as LO.
    { intros u v Hu Hv. split; [apply Z.lor_nonneg; lia|]. change W64 with (2 ^ 64) in *.
      destruct (Z.eq_dec (Z.lor u v) 0) as [->|NZ]; [lia|].
      apply Z.log2_lt_pow2; [pose proof (proj2 (Z.lor_nonneg u v)); lia|]. rewrite Z.log2_lor by lia.
      apply Z.max_lub_lt.
      - destruct (Z.eq_dec u 0) as [->|]; [reflexivity|apply Z.log2_lt_pow2; lia].
      - destruct (Z.eq_dec v 0) as [->|]; [reflexivity|apply Z.log2_lt_pow2; lia]. }
    pose proof (LO _ _ (LO _ _ U1 U2) U3) as U4. rewrite (Z.shiftr_div_pow2 _ 1) by lia. change (2 ^ 1) with 2.
    split; [apply Z.div_pos; lia|]. apply Z.div_lt_upper_bound; num; lia. }
  eexists _, _. split; [|split; [|split; [reflexivity|]]]; [apply RG, Ll|apply RG, Ml|]. clear RG.
  intros Hyx. exists (32 * Z.of_nat (bb_len xb - 3) + (33 - z)).
  split; [lia|].
  assert (h' * (W32 * W32) + m' * W32 + l' <= h * (W32 * W32) + m * W32 + l) as T.
  { set (tx := h * (W32 * W32) + m * W32 + l) in *. set (ty := h' * (W32 * W32) + m' * W32 + l') in *.
    destruct (Z.le_gt_cases ty tx) as [|G]; [assumption|exfalso].
    assert ((tx + 1) * P <= ty * P) by (apply Z.mul_le_mono_nonneg_r; lia). lia. }
  assert (h' <= h) as Hh. { unfold limb in *. num. lia. }
  rewrite top63 by (auto; lia).
  pose proof (Z.pow_pos_nonneg 2 z ltac:(lia) ltac:(lia)) as PZ.
  assert (h' * 2 ^ z <= h * 2 ^ z) as HM by (apply Z.mul_le_mono_nonneg_r; lia).
  rewrite top63 by (auto; lia).
  rewrite Z.pow_add_r by lia. rewrite <- EP.
  pose proof (Z.pow_pos_nonneg 2 (33 - z) ltac:(lia) ltac:(lia)) as PQ.
  rewrite <- !Z.div_div by lia.
  assert (forall t v, 0 <= v < P -> (v + t * P) / P = t) as DV.
  { intros t v Hv. rewrite Z.div_add by lia. rewrite Z.div_small by lia. lia. }
  rewrite <- EX, <- EY. rewrite !DV by assumption. split; [|split; reflexivity].
  apply Z.div_le_lower_bound; [lia|].
  assert (2 ^ (33 - z) * 2 ^ 62 * 2 ^ z = 2 ^ 95) as E95.
  { rewrite <- !Z.pow_add_r by lia. f_equal. lia. }
  assert ((2 ^ (33 - z) * 2 ^ 62) * 2 ^ z <= (h * (W32 * W32)) * 2 ^ z) as G.
  { rewrite E95. replace (h * (W32 * W32) * 2 ^ z) with (h * 2 ^ z * (W32 * W32)) by ring.
    assert (2147483648 * (W32 * W32) <= h * 2 ^ z * (W32 * W32)) by (apply Z.mul_le_mono_nonneg_r; [num; lia|lia]).
    change (2 ^ 95) with (2147483648 * (W32 * W32)). lia. }
  apply Z.mul_le_mono_pos_r in G; [|exact PZ]. unfold limb in *. num. lia.
Qed.

(** ** lehmer_core *)

Lemma carry_bound P c d xi yi k : 0 <= c <= INT_MAX -> 0 <= d <= INT_MAX -> limb xi -> limb yi -> - 2 ^ 31 <= k <= 2 ^ 31 ->
  P = c * xi - d * yi + k ->
  LONG_MIN <= c * xi <= LONG_MAX /\ LONG_MIN <= d * yi <= LONG_MAX /\ LONG_MIN <= c * xi - d * yi <= LONG_MAX /\
  LONG_MIN <= P <= LONG_MAX /\ - 2 ^ 31 <= Z.shiftr P 32 <= 2 ^ 31.
Proof.
  intros Hc Hd Hx Hy Hk ->. unfold limb in *. num.
  assert (0 <= c * xi) by (apply Z.mul_nonneg_nonneg; lia). assert (0 <= d * yi) by (apply Z.mul_nonneg_nonneg; lia).
  assert (c * xi <= 2147483647 * 4294967295) by (apply Z.mul_le_mono_nonneg; lia).
  assert (d * yi <= 2147483647 * 4294967295) by (apply Z.mul_le_mono_nonneg; lia).
  split; [lia|]. split; [lia|]. split; [lia|]. split; [lia|].
  rewrite Z.shiftr_div_pow2 by lia. change (2 ^ 32) with 4294967296.
  split; [apply Z.div_le_lower_bound; lia|]. apply Z.lt_succ_r. apply Z.div_lt_upper_bound; lia.
Qed.

Lemma core_loop c a b cc d xs ys n :
  0 <= a <= INT_MAX -> 0 <= b <= INT_MAX -> 0 <= cc <= INT_MAX -> 0 <= d <= INT_MAX ->
  limbs xs -> limbs ys -> (n <= length xs)%nat -> (n <= length ys)%nat ->
  wp (for_up n 0 (fun i st =>
    let '(x, y, xCarry, yCarry) := st in
    xi <- rd x i ;; yi <- rd y i ;;
    p1 <- chk64 c (a * xi) ;; p2 <- chk64 c (b * yi) ;;
    d1 <- chk64 c (p1 - p2) ;; xDigit <- chk64 c (d1 + xCarry) ;;
    p3 <- chk64 c (d * yi) ;; p4 <- chk64 c (cc * xi) ;;
    d2 <- chk64 c (p3 - p4) ;; yDigit <- chk64 c (d2 + yCarry) ;;
    x <- wr x i (u32 xDigit) ;;
    y <- wr y i (u32 yDigit) ;;
    Ret (x, y, Z.shiftr xDigit 32, Z.shiftr yDigit 32)) (xs, ys, 0, 0)) (fun _ => True).
Proof.
  intros Ha Hb Hc Hd Hx Hy Nx Ny.
  eapply wp_for_up with (I := fun i st => let '(x, y, k1, k2) := st in
    limbs x /\ limbs y /\ length x = length xs /\ length y = length ys /\ - 2 ^ 31 <= k1 <= 2 ^ 31 /\ - 2 ^ 31 <= k2 <= 2 ^ 31).
  - repeat split; auto; discriminate.
  - intros i (((x, y), k1), k2) Hi (L1 & L2 & E1 & E2 & K1 & K2).
    wstep. wstep; [lia|]. wstep. wstep; [lia|].
    pose proof (limbs_nth x i L1) as Lx. pose proof (limbs_nth y i L2) as Ly.
    set (xi := nth i x 0) in *. set (yi := nth i y 0) in *.
    destruct (carry_bound _ a b xi yi k1 Ha Hb Lx Ly K1 eq_refl) as (B1 & B2 & B3 & B4 & B5).
    destruct (carry_bound _ d cc yi xi k2 Hd Hc Ly Lx K2 eq_refl) as (C1 & C2 & C3 & C4 & C5).
    wstep. wstep; [exact B1|]. wstep. wstep; [exact B2|]. wstep. wstep; [exact B3|]. wstep. wstep; [exact B4|].
    wstep. wstep; [exact C1|]. wstep. wstep; [exact C2|]. wstep. wstep; [exact C3|]. wstep. wstep; [exact C4|].
    wstep. wstep; [lia|]. wstep. wstep; [lia|]. wstep.
    rewrite !length_upd. pose proof (u32_limb (a * xi - b * yi + k1)). pose proof (u32_limb (d * yi - cc * xi + k2)).
    repeat split; auto using limbs_upd; lia.
  - auto.
Qed.

(** With equal lengths nothing changes. *)
Lemma refresh_same size b v : isbuf size b v -> buf_refresh b (bb_len b) = Ret b.
Proof.
  intros Hb. pose proof Hb as [S L V N H Lo]. unfold buf_refresh. rewrite Nat.ltb_irrefl. cbn [bind].
  destruct b as [bits n]. cbn [bb_bits bb_len] in *.
  destruct n as [|n]; [reflexivity|]. cbn [actual_length].
  pose proof (isbuf_top _ _ _ Hb ltac:(cbn; lia)) as T. cbn [bb_bits bb_len] in T. rewrite Nat.sub_succ, Nat.sub_0_r in T.
  unfold rd. rewrite (nth_error_nth' _ 0) by lia. cbn [bind].
  rewrite (proj2 (Z.eqb_neq _ _)) by lia. reflexivity.
Qed.

Lemma core_same c sx sy xb yb x y s :
  isbuf sx xb x -> isbuf sy yb y -> bb_len xb = bb_len yb -> (1 <= bb_len yb)%nat -> coef s ->
  lehmer_core c xb yb (la s) (lb s) (lc s) (ld s) = Ret (xb, yb).
Proof.
  intros Hx Hy HL H1 (A & B & C & D & _). pose proof Hx as [S L _ N _ _]. pose proof Hy as [Sy Ly _ Ny _ _].
  unfold lehmer_core.
  assert (forall b k, b = true -> massert c b ;;; k = k :> outcome (bitsbuf * bitsbuf)) as MA.
  { intros b k ->. unfold massert. now destruct (dbg c). }
  rewrite !MA; [|apply andb_true_intro; split; apply Z.leb_le; lia|apply andb_true_intro; split; apply Z.leb_le; lia
    |apply Nat.leb_le; lia|apply Nat.leb_le; lia|apply Nat.leb_le; lia].
  pose proof (core_loop c _ _ _ _ (bb_bits xb) (bb_bits yb) (bb_len yb) A B C D L Ly ltac:(lia) ltac:(lia)) as W.
  apply wp_inv in W. destruct W as (r & -> & _). cbn [bind].
  rewrite <- HL at 1. rewrite (refresh_same _ _ _ Hx), (refresh_same _ _ _ Hy). reflexivity.
Qed.

(** ** Euclid's step *)

Lemma reduce_buf_spec c sx sy xb yb x y :
  isbuf sx xb x -> isbuf sy yb y -> 0 < y -> (bb_len yb <= sx)%nat ->
  wp (buf_reduce_buf c xb yb) (fun b => isbuf sx b (x mod y) /\ (bb_len b <= bb_len yb)%nat).
Proof.
  intros Hx Hy Y Hsz. unfold buf_reduce_buf.
  destruct (isbuf_prefix _ _ _ Hx) as (X1 & X2 & X3 & X4). destruct (isbuf_prefix _ _ _ Hy) as (Y1 & Y2 & Y3 & Y4).
  pose proof Hx as [S L V N B Lo]. pose proof Hy as [S' L' V' N' B' Lo'].
  destruct (Nat.leb_spec (bb_len yb) (bb_len xb)) as [H|H].
  - wstep. wstep; [lia|]. wstep. wstep; [lia|]. cbn [skipn]. wstep.
    assert (1 <= bb_len yb)%nat as Y0.
    { destruct (bb_len yb); [|lia]. rewrite Bp_0 in B'. lia. }
    pose proof (isbuf_top _ _ _ Hy Y0) as TY.
    assert (top_nz (firstn (bb_len yb) (bb_bits yb))) as TN by (apply top_nz_firstn; [lia|]; lia).
    set (p := firstn (bb_len xb) (bb_bits xb)) in *. set (m := firstn (bb_len yb) (bb_bits yb)) in *.
    assert (m <> []) as Mne by (intros E; rewrite E in Y2; cbn in Y2; lia).
    eapply wp_mono; [apply (calc_div_core_spec c p m []); auto; lia|].
    intros (q, b') (Q1 & Q2 & Q3 & _). wstep. wstep; [rewrite Q1, X2; lia|]. cbn [firstn app Nat.add].
    rewrite Q1, X2, X4. rewrite X3, Y3 in Q3.
    pose proof (Z.mod_pos_bound x y Y) as MB.
    assert (length (q ++ zeros (sx - bb_len xb)) = sx) as LL by (rewrite app_length, length_zeros; lia).
    wstep. eapply wp_mono; [apply make_isbuf|].
    + apply limbs_app. split; [exact Q2|apply limbs_zeros].
    + rewrite LL. exact Hsz.
    + rewrite pad_val. lia.
    + intros k (K1 & K2). wstep. rewrite LL, pad_val, Q3 in K1. split; [exact K1|exact K2].
  - wstep. specialize (Lo' ltac:(lia)). pose proof (Bp_le (bb_len xb) (bb_len yb - 1) ltac:(lia)). rewrite Z.mod_small by lia.
    split; [exact Hx|lia].
Qed.

(** ** One round *)

Lemma taken_iff x y k : 0 <= k -> 2 ^ 62 <= x / 2 ^ k < 2 ^ 63 ->
  lehmer_step x y <->
  (0 < y / 2 ^ k /\ (x / 2 ^ k) / (y / 2 ^ k) < 2 ^ 31 /\ (x / 2 ^ k) / (y / 2 ^ k) <= (x / 2 ^ k) mod (y / 2 ^ k)).
Proof.
  intros Hk HX. split.
  - intros (j & Hj & HJ & R). replace k with j; [exact R|].
    assert (forall i j, 0 <= i -> i < j -> 2 ^ 62 <= x / 2 ^ j -> x / 2 ^ i < 2 ^ 63 -> False) as U.
    { intros i i' Hi Hlt H1 H2.
      assert (x / 2 ^ i' = x / 2 ^ i / 2 ^ (i' - i)) as E.
      { rewrite Z.div_div by (try apply Z.pow_pos_nonneg; try apply Z.pow_nonzero; lia). f_equal. rewrite <- Z.pow_add_r by lia. f_equal. lia. }
      rewrite E in H1. assert (2 ^ 1 <= 2 ^ (i' - i)) as G by (apply Z.pow_le_mono_r; lia). change (2 ^ 1) with 2 in G.
      assert (0 < 2 ^ 62) as P62 by reflexivity.
      assert (x / 2 ^ i / 2 ^ (i' - i) < 2 ^ 62); [|lia].
      apply Z.div_lt_upper_bound; [lia|].
      assert (2 * 2 ^ 62 <= 2 ^ (i' - i) * 2 ^ 62) by (apply Z.mul_le_mono_nonneg_r; lia). lia. }
    destruct (Z.lt_trichotomy j k) as [G|[G|G]]; [exfalso|exact G|exfalso].
    + apply (U j k); lia.
    + apply (U k j); lia.
  - intros R. exists k. auto.
Qed.

Lemma round_euclid c sx sy xb yb x y :
  isbuf sx xb x -> isbuf sy yb y -> (3 <= bb_len yb <= bb_len xb)%nat -> (bb_len yb <= sx)%nat -> y <= x -> ~ lehmer_step x y ->
  wp (lehmer_round c xb yb) (fun st => fst st = yb /\ isbuf sx (snd st) (x mod y) /\ (bb_len (snd st) <= bb_len yb)%nat).
Proof.
  intros Hx Hy HL Hs Hyx Hn. unfold lehmer_round.
  assert (0 < y) as Y0.
  { pose proof Hy as [_ _ _ _ _ Lo]. specialize (Lo ltac:(lia)). pose proof (Bp_pos (bb_len yb - 1)). lia. }
  destruct (extract_total c sx sy xb yb x y Hx Hy HL) as (X & Y & BX & BY & -> & K).
  destruct (K Hyx) as (k & Hk & X62 & EX & EY). clear K.
  assert (Y <= X) as YX by (rewrite EX, EY; apply Z.div_le_mono; [apply Z.pow_pos_nonneg; lia|exact Hyx]).
  wstep. wstep. wstep; [apply Z.leb_le; exact YX|]. wstep. wstep.
  eapply wp_mono; [apply guess_first; lia|]. intros s (C & _ & F).
  rewrite F.
  2:{ intros R. apply Hn. apply (taken_iff x y k Hk); [lia|]. rewrite <- EX, <- EY. tauto. }
  change (0 =? 0) with true. cbn beta iota. wstep.
  eapply wp_mono; [eapply reduce_buf_spec; eauto|]. intros b (B1 & B2). wstep. cbn [fst snd]. auto.
Qed.

(** A Lehmer step on operands of the same length leaves them as they are, up to order. *)
Lemma round_stuck c sx sy xb yb x y :
  isbuf sx xb x -> isbuf sy yb y -> bb_len yb = bb_len xb -> (3 <= bb_len yb)%nat -> y <= x -> lehmer_step x y ->
  lehmer_round c xb yb = Ret (xb, yb) \/ lehmer_round c xb yb = Ret (yb, xb).
Proof.
  intros Hx Hy HL H3 Hyx Hn. unfold lehmer_round.
  destruct (extract_total c sx sy xb yb x y Hx Hy ltac:(lia)) as (X & Y & BX & BY & -> & K).
  destruct (K Hyx) as (k & Hk & X62 & EX & EY). clear K.
  assert (Y <= X) as YX by (rewrite EX, EY; apply Z.div_le_mono; [apply Z.pow_pos_nonneg; lia|exact Hyx]).
  assert (forall b j, b = true -> massert c b ;;; j = j :> outcome (Z * Z)) as MA.
  { intros b j ->. unfold massert. now destruct (dbg c). }
  rewrite MA by (apply Z.leb_le; exact YX). cbn [bind].
  pose proof (guess_first X Y ltac:(lia) ltac:(lia)) as G. apply wp_inv in G. destruct G as (s & -> & C & F & _). cbn [bind].
  apply (taken_iff x y k Hk ltac:(lia)) in Hn. rewrite <- EX, <- EY in Hn.
  rewrite (proj2 (Z.eqb_neq (lb s) 0)) by (apply F; tauto).
  rewrite (core_same c sx sy xb yb x y s) by (auto; lia). cbn [bind].
  destruct (Z.rem (liter s) 2 =? 1); auto.
Qed.

(** The same buffers in the wrong order: back to the right order, or unchanged. *)
Lemma round_swapped c sx sy xb yb x y :
  isbuf sx xb x -> isbuf sy yb y -> bb_len yb = bb_len xb -> (3 <= bb_len yb)%nat -> y < x ->
  lehmer_round c yb xb = Ret (xb, yb) \/ lehmer_round c yb xb = Ret (yb, xb) \/
  (exists yb', lehmer_round c yb xb = Ret (xb, yb') /\ isbuf sy yb' y /\ bb_len yb' = bb_len xb) \/
  (dbg c = true /\ lehmer_round c yb xb = AssertFail).
Proof.
  intros Hx Hy HL H3 Hyx. unfold lehmer_round.
  destruct (extract_total c sy sx yb xb y x Hy Hx ltac:(lia)) as (X & Y & BX & BY & -> & _).
  destruct (Bool.bool_dec (dbg c && negb (Y <=? X)) true) as [D|D].
  { apply andb_prop in D. destruct D as (D1 & D2). right. right. right. split; [exact D1|].
    unfold massert. rewrite D1. destruct (Y <=? X); [discriminate|reflexivity]. }
  assert (massert c (Y <=? X) = Ret tt) as ->.
  { unfold massert. destruct (dbg c); [|reflexivity]. destruct (Y <=? X); [reflexivity|]. now contradiction D. }
  cbn [bind].
  assert (coef (Leh 1 0 0 1 X Y 0)) as C0 by (unfold coef; cbn [lx ly la lb lc ld]; num; lia).
  assert (Y < 2 ^ Z.of_nat euclid_fuel) as FU.
  { assert (2 ^ 63 <= 2 ^ Z.of_nat euclid_fuel) by (apply Z.pow_le_mono_r; unfold euclid_fuel; lia). lia. }
  pose proof (guess_spec euclid_fuel _ C0 FU) as G. apply wp_inv in G. destruct G as (s & -> & C & _). cbn [bind].
  destruct (lb s =? 0).
  - pose proof (reduce_buf_spec c sy sx yb xb y x Hy Hx) as R.
    assert (0 < x) as X0 by (pose proof Hy as [_ _ _ _ B _]; lia).
    assert (bb_len xb <= sy)%nat as SZ by (pose proof Hy as [_ _ _ N _ _]; lia).
    specialize (R X0 SZ). apply wp_inv in R. destruct R as (b & -> & B1 & B2). cbn [bind].
    right. right. left. exists b. split; [reflexivity|].
    assert (y mod x = y) as E by (apply Z.mod_small; pose proof Hy as [_ _ _ _ B _]; lia). rewrite E in B1. split; [exact B1|].
    pose proof Hy as [_ _ _ _ _ Lo]. specialize (Lo ltac:(lia)).
    pose proof B1 as [_ _ _ _ Hi _].
    destruct (Nat.eq_dec (bb_len b) (bb_len xb)) as [|N]; [assumption|exfalso].
    pose proof (Bp_le (bb_len b) (bb_len yb - 1) ltac:(lia)). lia.
  - rewrite (core_same c sy sx yb xb y x s) by (auto; lia). cbn [bind].
    destruct (Z.rem (liter s) 2 =? 1); auto.
Qed.

(** ** The loop *)

Definition no_result {A} (c : cfg) (o : outcome A) : Prop := o = NoFuel \/ (dbg c = true /\ o = AssertFail).

Lemma no_result_bind {A B} c (o : outcome A) (k : A -> outcome B) : no_result c o -> no_result c (bind o k).
Proof. intros [->|(D & ->)]; [left|right]; auto. Qed.

Lemma loop_stuck_both c x y fuel : forall sx sy xb yb,
  isbuf sx xb x -> isbuf sy yb y -> bb_len yb = bb_len xb -> (3 <= bb_len yb)%nat -> y < x -> lehmer_step x y ->
  no_result c (lehmer_loop fuel c xb yb) /\ no_result c (lehmer_loop fuel c yb xb).
Proof.
  induction fuel as [|fuel IH]; intros sx sy xb yb Hx Hy HL H3 Hyx Hs; cbn [lehmer_loop];
    rewrite !(proj2 (Nat.ltb_lt 2 _)) by lia.
  - split; left; reflexivity.
  - destruct (IH sx sy xb yb Hx Hy HL H3 Hyx Hs) as (I1 & I2). split.
    + destruct (round_stuck c sx sy xb yb x y Hx Hy HL H3 ltac:(lia) Hs) as [->| ->]; cbn [bind]; assumption.
    + destruct (round_swapped c sx sy xb yb x y Hx Hy HL H3 Hyx) as [->|[->|[(yb' & -> & A & B)|(D & ->)]]]; cbn [bind].
      * exact I1.
      * exact I2.
      * apply (IH sx sy xb yb'); auto; lia.
      * right. auto.
Qed.

Lemma step_lt x y : 0 <= y <= x -> lehmer_step x y -> y < x.
Proof.
  intros H (k & K & X & Y & Q & M). destruct (Z.eq_dec x y) as [->|]; [|lia]. exfalso.
  rewrite Z.div_same, Z.mod_same in M by lia. lia.
Qed.

Lemma isbuf_three s b v : isbuf s b v -> 2 ^ 64 <= v -> (3 <= bb_len b)%nat.
Proof.
  intros Hb Hv. pose proof Hb as [_ _ _ _ B _]. destruct (Nat.le_gt_cases 3 (bb_len b)) as [|K]; [assumption|exfalso].
  pose proof (Bp_le (bb_len b) 2 ltac:(lia)) as G. change (Bp 2) with (2 ^ 64) in G. lia.
Qed.

Lemma isbuf_len_le s s' b b' u v : isbuf s b u -> isbuf s' b' v -> v <= u -> (bb_len b' <= bb_len b)%nat.
Proof. intros Hb Hb' Huv. apply (isbuf_len _ _ _ _ Hb'). pose proof Hb as [_ _ _ _ B _]. lia. Qed.

Lemma loop_stuck c x y : lehmer_stuck x y -> forall fuel sx sy xb yb,
  isbuf sx xb x -> isbuf sy yb y -> y <= x -> no_result c (lehmer_loop fuel c xb yb).
Proof.
  induction 1 as [x y n H64 Cx Cy Hs|x y H64 Hs _ IH]; intros fuel sx sy xb yb Hx Hy Hyx;
    pose proof (isbuf_three _ _ _ Hy H64) as Ly; pose proof (isbuf_len_le _ _ _ _ _ _ Hx Hy Hyx) as Lxy.
  - assert (bb_len yb = bb_len xb) as E.
    { destruct (Nat.eq_dec (bb_len yb) (bb_len xb)) as [|N]; [assumption|exfalso].
      destruct Cx as (_ & Fx & _). destruct Cy as (N1 & _ & Cy).
      pose proof Hx as [_ _ _ _ _ Lo]. specialize (Lo ltac:(lia)).
      pose proof Hy as [_ _ _ _ Bhi _]. rewrite Bp_pow2 in Bhi.
      specialize (Cy (Z.of_nat (bb_len yb)) ltac:(lia)). unfold fits_limbs in *.
      rewrite Z.abs_eq in Cy by lia. specialize (Cy ltac:(lia)). rewrite Z.abs_eq in Fx by lia.
      pose proof (Bp_le (bb_len yb) (bb_len xb - 1) ltac:(lia)) as G. rewrite Bp_pow2 in G.
      assert (2 ^ (32 * n) <= 2 ^ (32 * Z.of_nat (bb_len yb))) as G3 by (apply Z.pow_le_mono_r; lia). lia. }
    apply (loop_stuck_both c x y fuel sx sy xb yb); auto. apply step_lt; [lia|exact Hs].
  - destruct fuel as [|fuel]; cbn [lehmer_loop]; rewrite (proj2 (Nat.ltb_lt 2 _)) by lia; [left; reflexivity|].
    pose proof (round_euclid c sx sy xb yb x y Hx Hy ltac:(lia) ltac:(pose proof Hx as [_ _ _ N _ _]; lia) Hyx Hs) as R.
    apply wp_inv in R. destruct R as ((l', r') & -> & E & B & _). cbn [fst snd] in E, B. subst l'. cbn [bind].
    apply (IH fuel sy sx yb r' Hy B). pose proof (Z.mod_pos_bound x y ltac:(lia)). lia.
Qed.

Lemma loop_run c x y : euclid_run x y -> 0 <= y <= x -> exists N, forall fuel sx sy xb yb, (N <= fuel)%nat ->
  isbuf sx xb x -> isbuf sy yb y -> (2 <= sx)%nat -> (2 <= sy)%nat ->
  wp (lehmer_loop fuel c xb yb) (fun st => exists sx' sy' x' y', isbuf sx' (fst st) x' /\ isbuf sy' (snd st) y' /\
    0 <= y' <= x' /\ y' < 2 ^ 64 /\ Z.gcd x' y' = Z.gcd x y /\ (2 <= sx')%nat /\ (2 <= sy')%nat).
Proof.
  induction 1 as [x y H64|x y H64 Hs _ IH]; intros Hyx.
  - exists O. intros fuel sx sy xb yb _ Hx Hy S1 S2.
    assert (bb_len yb <= 2)%nat as L2 by (apply (isbuf_len _ _ _ _ Hy); change (Bp 2) with (2 ^ 64); lia).
    destruct fuel; cbn [lehmer_loop]; rewrite (proj2 (Nat.ltb_ge 2 _)) by lia; wstep; cbn [fst snd];
      exists sx, sy, x, y; tauto.
  - pose proof (Z.mod_pos_bound x y ltac:(lia)) as MB. destruct (IH ltac:(lia)) as (N & HN). exists (S N).
    intros fuel sx sy xb yb HF Hx Hy S1 S2. destruct fuel as [|fuel]; [lia|].
    pose proof (isbuf_three _ _ _ Hy H64) as Ly. pose proof (isbuf_len_le _ _ _ _ _ _ Hx Hy ltac:(lia)) as Lxy.
    cbn [lehmer_loop]; rewrite (proj2 (Nat.ltb_lt 2 _)) by lia.
    wstep. eapply wp_mono; [apply (round_euclid c sx sy xb yb x y Hx Hy); [lia|pose proof Hx as [_ _ _ K _ _]; lia|lia|exact Hs]|].
    intros (l', r') (E & B & _). cbn [fst snd] in E, B. subst l'.
    eapply wp_mono; [apply (HN fuel sy sx yb r'); auto; lia|].
    intros st (sx' & sy' & x' & y' & A1 & A2 & A3 & A4 & A5 & A6 & A7). exists sx', sy', x', y'.
    rewrite gcd_swap in A5 by lia. tauto.
Qed.

Lemma low64 size b v : isbuf size b v -> v < 2 ^ 64 -> (2 <= size)%nat ->
  Z.lor (u64 (Z.shiftl (nth 1 (bb_bits b) 0) 32)) (nth 0 (bb_bits b) 0) = v.
Proof.
  intros Hb Hv Hs. pose proof (isbuf_limb _ _ _ 0 Hb) as L0. pose proof (isbuf_limb _ _ _ 1 Hb) as L1.
  change 32 with kcbitUint. rewrite lor_two by assumption.
  assert (bb_len b <= 2)%nat as L2 by (apply (isbuf_len _ _ _ _ Hb); change (Bp 2) with (2 ^ 64); lia).
  pose proof (isbuf_vl _ _ _ 2 Hb L2) as E. rewrite !vl_S in E. change (vl (bb_bits b) 0) with 0 in E.
  change (Bp 1) with W32 in E. change (Bp 0) with 1 in E. lia.
Qed.

Lemma overwrite_spec size b v g : isbuf size b v -> v < 2 ^ 64 -> (2 <= size)%nat -> 0 <= g < W64 ->
  wp (buf_overwrite b g) (fun r => limbs (bb_bits r) /\ val (bb_bits r) = g).
Proof.
  intros Hb Hv Hs Hg. unfold buf_overwrite. pose proof Hb as [S L V N _ _].
  assert (bb_len b <= 2)%nat as L2 by (apply (isbuf_len _ _ _ _ Hb); change (Bp 2) with (2 ^ 64); lia).
  rewrite (proj2 (Nat.ltb_ge 2 _)) by lia. wstep. wstep. wstep. wstep; [lia|]. wstep. wstep; [rewrite length_upd; lia|].
  wstep. cbn [bb_bits]. pose proof (u32_limb g) as U0. pose proof (u32_limb (Z.shiftr g 32)) as U1.
  split; [apply limbs_upd; [apply limbs_upd|]; assumption|].
  rewrite val_upd by (rewrite length_upd; lia). rewrite nth_upd_other by lia.
  rewrite val_upd by lia. rewrite V.
  pose proof (isbuf_vl _ _ _ 2 Hb L2) as E. rewrite !vl_S in E. change (vl (bb_bits b) 0) with 0 in E.
  change (Bp 1) with W32 in *. change (Bp 0) with 1 in *.
  pose proof (split32 g) as Sg.
  assert (u32 (Z.shiftr g 32) = Z.shiftr g 32) as ->.
  { apply u32_small. rewrite Z.shiftr_div_pow2 by lia. change (2 ^ 32) with W32.
    split; [apply Z.div_pos; num; lia|]. apply Z.div_lt_upper_bound; num; lia. }
  lia.
Qed.

Lemma calc_gcd_spec c lv rv x y :
  limbs lv -> limbs rv -> lv <> [] -> rv <> [] -> top_nz lv -> top_nz rv -> val lv = x -> val rv = y ->
  y <= x -> 2 ^ 64 <= y ->
  (euclid_run x y -> exists N, forall fuel, (N <= fuel)%nat ->
     wp (calc_gcd fuel c lv rv) (fun l => limbs l /\ val l = Z.gcd x y)) /\
  (lehmer_stuck x y -> forall fuel, no_result c (calc_gcd fuel c lv rv)).
Proof.
  intros Ll Lr Nl Nr Tl Tr Vl Vr Hyx H64.
  assert (3 <= length rv)%nat as L3.
  { destruct (Nat.le_gt_cases 3 (length rv)) as [|K]; [assumption|exfalso]. pose proof (val_bound rv Lr) as B.
    pose proof (Bp_le (length rv) 2 ltac:(lia)) as G. change (Bp 2) with (2 ^ 64) in G. lia. }
  assert (length rv <= length lv)%nat as LL.
  { destruct (Nat.le_gt_cases (length rv) (length lv)) as [|K]; [assumption|exfalso]. pose proof (val_bound lv Ll) as B.
    pose proof (top_nz_bound rv Lr Nr Tr) as TB. pose proof (Bp_le (length lv) (length rv - 1) ltac:(lia)). lia. }
  assert (exists xb yb, isbuf (length lv) xb x /\ isbuf (length rv) yb y /\ forall fuel,
    calc_gcd fuel c lv rv =
      ('(lbuf, rbuf) <- lehmer_loop fuel c xb yb ;;
       '(lbuf, _) <- (if Nat.ltb 0 (bb_len rbuf) then
          lbuf <- buf_reduce_buf c lbuf rbuf ;;
          x1 <- rd (bb_bits rbuf) 1 ;; x0 <- rd (bb_bits rbuf) 0 ;;
          y1 <- rd (bb_bits lbuf) 1 ;; y0 <- rd (bb_bits lbuf) 0 ;;
          let x := Z.lor (u64 (Z.shiftl x1 32)) x0 in
          let y := Z.lor (u64 (Z.shiftl y1 32)) y0 in
          g <- calc_gcd64 x y ;;
          lbuf <- buf_overwrite lbuf g ;;
          rbuf <- buf_overwrite rbuf 0 ;;
          Ret (lbuf, rbuf)
        else Ret (lbuf, rbuf)) ;; Ret (bb_bits lbuf))) as (xb & yb & Hx & Hy & E).
  { pose proof (buf_of_v_spec (length lv) lv Ll ltac:(apply val_bound, Ll)) as W. apply wp_inv in W. destruct W as (xb & E1 & Hx).
    pose proof (buf_of_v_spec (length rv) rv Lr ltac:(apply val_bound, Lr)) as W. apply wp_inv in W. destruct W as (yb & E2 & Hy).
    exists xb, yb. rewrite Vl in Hx. rewrite Vr in Hy. split; [exact Hx|]. split; [exact Hy|]. intros fuel.
    unfold calc_gcd, calc_gcd_buf. rewrite E1, E2. rewrite calc_compare_spec by auto. rewrite Vl, Vr.
    assert (0 <=? cmpz x y = true) as CM.
    { unfold cmpz. destruct (Z.compare_spec x y); [reflexivity|lia|reflexivity]. }
    pose proof (isbuf_three _ _ _ Hy H64). pose proof (isbuf_len_le _ _ _ _ _ _ Hx Hy Hyx).
    unfold massert. cbn [bind].
    repeat rewrite (proj2 (Nat.leb_le _ _)) by lia.
    destruct (dbg c); cbn [bind]; rewrite ?CM; cbn [bind]; repeat rewrite (proj2 (Nat.leb_le _ _)) by lia; cbn [bind];
    destruct (lehmer_loop fuel c xb yb) as [(l', r')| | | |]; reflexivity. }
  split.
  - intros HR. destruct (loop_run c x y HR ltac:(lia)) as (N & HN). exists N. intros fuel HF. rewrite E. clear E.
    wstep. eapply wp_mono; [apply (HN fuel _ _ xb yb HF Hx Hy); lia|].
    intros (lb, rb) (sx & sy & x' & y' & A1 & A2 & A3 & A4 & A5 & A6 & A7). cbn [fst snd] in A1, A2. rewrite <- A5.
    destruct (Nat.ltb_spec 0 (bb_len rb)) as [G|G].
    + assert (0 < y') as Y0.
      { pose proof A2 as [_ _ _ _ _ Lo]. specialize (Lo ltac:(lia)). pose proof (Bp_pos (bb_len rb - 1)). lia. }
      assert (bb_len rb <= 2)%nat as L2 by (apply (isbuf_len _ _ _ _ A2); change (Bp 2) with (2 ^ 64); lia).
      wstep. wstep. eapply wp_mono; [apply (reduce_buf_spec c sx sy lb rb x' y' A1 A2 Y0); lia|].
      intros lb' (B1 & B2). pose proof (Z.mod_pos_bound x' y' Y0) as MB.
      pose proof A2 as [S2 _ _ _ _ _]. pose proof B1 as [S1 _ _ _ _ _].
      wstep. wstep; [lia|]. wstep. wstep; [lia|]. wstep. wstep; [lia|]. wstep. wstep; [lia|]. cbv zeta.
      rewrite (low64 _ _ _ A2), (low64 _ _ _ B1) by (assumption || lia).
      wstep. eapply wp_mono; [apply calc_gcd64_spec; num; lia|]. intros g ->. rewrite gcd_swap by lia.
      assert (0 <= Z.gcd x' y' < W64) as GB.
      { pose proof (Z.gcd_nonneg x' y'). split; [assumption|].
        pose proof (Z.divide_pos_le _ _ Y0 (Z.gcd_divide_r x' y')). change W64 with (2 ^ 64). lia. }
      wstep. eapply wp_mono; [apply (overwrite_spec _ _ _ _ B1); auto; lia|]. intros r1 (C1 & C2).
      wstep. eapply wp_mono; [apply (overwrite_spec _ _ _ 0 A2); auto; num; lia|]. intros r2 _.
      wstep. wstep. auto.
    + wstep. wstep. wstep.
      assert (y' = 0) as ->.
      { pose proof A2 as [_ _ _ _ B _]. assert (bb_len rb = O) as Z0 by lia. rewrite Z0, Bp_0 in B. lia. }
      rewrite Z.gcd_0_r, Z.abs_eq by lia. destruct A1. auto.
  - intros HS fuel. rewrite E. apply no_result_bind. eapply loop_stuck; eauto.
Qed.

(** ** The public function *)

Lemma gcd_bits_small fuel c lv rv :
  limbs lv -> limbs rv -> lv <> [] -> rv <> [] -> top_nz lv -> top_nz rv ->
  val rv <= val lv -> val rv < 2 ^ 64 -> wp (bi_gcd_bits fuel c lv rv) (fun r => represents r (Z.gcd (val lv) (val rv))).
Proof.
  intros Ll Lr Nl Nr Tl Tr Hle H64. unfold bi_gcd_bits.
  rewrite calc_compare_spec by auto.
  assert (0 <=? cmpz (val lv) (val rv) = true) as CM.
  { unfold cmpz. destruct (Z.compare_spec (val lv) (val rv)); [reflexivity|lia|reflexivity]. }
  assert (massert c (0 <=? cmpz (val lv) (val rv)) = Ret tt) as MA by (unfold massert; rewrite CM; now destruct (dbg c)).
  wstep. eapply wp_mono with (P := fun _ => True).
  { destruct (dbg c); cbn [bind]; [rewrite MA|]; exact I. }
  intros _ _.
  assert (length rv <= 2)%nat as L2.
  { destruct (Nat.le_gt_cases (length rv) 2) as [|K]; [assumption|exfalso]. pose proof (top_nz_bound rv Lr Nr Tr) as TB.
    pose proof (Bp_le 2 (length rv - 1) ltac:(lia)) as G. change (Bp 2) with (2 ^ 64) in G. lia. }
  assert (0 < val rv) as Pr.
  { pose proof (top_nz_bound rv Lr Nr Tr) as TB. pose proof (Bp_pos (length rv - 1)). lia. }
  assert (length rv <= length lv)%nat as LL.
  { destruct (Nat.le_gt_cases (length rv) (length lv)) as [|K]; [assumption|exfalso]. pose proof (val_bound lv Ll) as B.
    pose proof (top_nz_bound rv Lr Nr Tr) as TB. pose proof (Bp_le (length lv) (length rv - 1) ltac:(lia)). lia. }
  assert (0 <= Z.gcd (val lv) (val rv) <= val rv) as GB.
  { pose proof (Z.gcd_nonneg (val lv) (val rv)). pose proof (Z.divide_pos_le _ _ Pr (Z.gcd_divide_r (val lv) (val rv))). lia. }
  destruct rv as [|r0 [|r1 [|]]]; [congruence| | |cbn [length] in L2; lia].
  - cbn [length Nat.eqb]. change (rd [r0] 0) with (Ret r0). cbn [bind].
    inversion Lr as [|u v Hu Hv]; subst u v. change (val [r0]) with (r0 + W32 * 0) in *. rewrite Z.mul_0_r, Z.add_0_r in *.
    wstep. eapply wp_mono; [apply calc_rem_u_spec; auto; lia|]. cbn beta. intros t ->.
    pose proof (Z.mod_pos_bound (val lv) r0 Pr) as MB. unfold limb in Hu.
    rewrite calc_gcd32_spec by lia. cbn [bind]. rewrite gcd_swap by lia. apply bi_of_uint32_spec. unfold UINT_MAX. num; lia.
  - cbn [length Nat.eqb]. wstep. eapply wp_mono; [apply calc_rem_spec; auto|]. intros t (T1 & T2 & T3).
    change (rd [r0; r1] 0) with (Ret r0). change (rd [r0; r1] 1) with (Ret r1). cbn [bind].
    cbn [length] in LL. wstep. wstep; [lia|]. wstep. wstep; [lia|].
    inversion Lr as [|u v Hu Hv]; subst u v. inversion Hv as [|u v Hu' _]; subst u v.
    change 32 with kcbitUint. rewrite !lor_two by (auto using limbs_nth).
    pose proof (Z.mod_pos_bound (val lv) (val [r0; r1]) Pr) as MB.
    assert (nth 0 t 0 + W32 * nth 1 t 0 = val lv mod val [r0; r1]) as ET.
    { rewrite <- T3. change (2 ^ 64) with (Bp 2) in H64.
      destruct (upper_zero t 2 T2 ltac:(lia) ltac:(lia)) as (_ & E). rewrite !vl_S in E.
      change (vl t 0) with 0 in E. change (Bp 1) with W32 in E. change (Bp 0) with 1 in E. lia. }
    assert (r0 + W32 * r1 = val [r0; r1]) as ER by (cbn [val]; ring).
    rewrite ET, ER. wstep. eapply wp_mono; [apply calc_gcd64_spec; change W64 with (2 ^ 64); lia|].
    cbn beta. intros g ->. rewrite gcd_swap by lia. apply bi_of_uint64_spec. change W64 with (2 ^ 64). lia.
Qed.

Lemma gcd_bits_large c lv rv :
  limbs lv -> limbs rv -> lv <> [] -> rv <> [] -> top_nz lv -> top_nz rv ->
  val rv <= val lv -> 2 ^ 64 <= val rv ->
  (euclid_run (val lv) (val rv) -> exists N, forall fuel, (N <= fuel)%nat ->
     wp (bi_gcd_bits fuel c lv rv) (fun r => represents r (Z.gcd (val lv) (val rv)))) /\
  (lehmer_stuck (val lv) (val rv) -> forall fuel, no_result c (bi_gcd_bits fuel c lv rv)).
Proof.
  intros Ll Lr Nl Nr Tl Tr Hle H64.
  assert (forall fuel, bi_gcd_bits fuel c lv rv = (bits <- calc_gcd fuel c lv rv ;; bi_of_mag c bits false)) as E.
  { intros fuel. unfold bi_gcd_bits.
    assert (3 <= length rv)%nat as L3.
    { destruct (Nat.le_gt_cases 3 (length rv)) as [|K]; [assumption|exfalso]. pose proof (val_bound rv Lr) as B.
      pose proof (Bp_le (length rv) 2 ltac:(lia)) as G. change (Bp 2) with (2 ^ 64) in G. lia. }
    rewrite !(proj2 (Nat.eqb_neq _ _)) by lia.
    replace ((length rv =? 2)%nat) with false by (symmetry; apply Nat.eqb_neq; lia).
    rewrite calc_compare_spec by auto.
    assert (0 <=? cmpz (val lv) (val rv) = true) as CM.
    { unfold cmpz. destruct (Z.compare_spec (val lv) (val rv)); [reflexivity|lia|reflexivity]. }
    unfold massert. destruct (dbg c); cbn [bind]; rewrite ?CM; reflexivity. }
  destruct (calc_gcd_spec c lv rv _ _ Ll Lr Nl Nr Tl Tr eq_refl eq_refl Hle H64) as (A & B). split.
  - intros HR. destruct (A HR) as (N & HN). exists N. intros fuel HF. rewrite E. wstep.
    eapply wp_mono; [apply HN, HF|]. intros l (L1 & L2). apply mag_result; assumption.
  - intros HS fuel. rewrite E. apply no_result_bind. auto.
Qed.

Lemma gcd_abs2 x y : Z.gcd (Z.abs x) (Z.abs y) = Z.gcd x y.
Proof. now rewrite Z.gcd_abs_l, Z.gcd_abs_r. Qed.

Lemma gcd_small c a b x y fuel :
  represents a x -> represents b y -> Z.min (Z.abs x) (Z.abs y) < 2 ^ 64 ->
  returns (bi_gcd fuel c a b) (Z.gcd x y).
Proof.
  intros Ha Hb Hm. apply returns_wp. unfold bi_gcd.
  rewrite (assert_valid_ok c a x Ha), (assert_valid_ok c b y Hb). cbn [bind].
  destruct (val_parts a x Ha) as [(A1 & A2 & A3)|(A1 & A2 & A3 & A4 & A5)];
  destruct (val_parts b y Hb) as [(B1 & B2 & B3)|(B1 & B2 & B3 & B4 & B5)].
  - rewrite A1, B1, A2, B2. cbn [is_nil andb]. wstep. apply wp_abs32; [exact A3|]. wstep. apply wp_abs32; [exact B3|].
    rewrite calc_gcd32_spec by (num; lia). cbn [bind]. rewrite gcd_abs2.
    apply bi_of_uint32_spec. pose proof (Z.gcd_nonneg x y). split; [assumption|].
    destruct (Z.eq_dec x 0) as [->|X0]; [rewrite Z.gcd_0_l; unfold UINT_MAX; num; lia|].
    pose proof (Z.divide_pos_le (Z.gcd x y) (Z.abs x) ltac:(lia)) as D. rewrite Z.divide_abs_r in D.
    specialize (D (Z.gcd_divide_l x y)). unfold UINT_MAX; num; lia.
  - rewrite A1, A2, (is_nil_ne _ B1). cbn [is_nil andb].
    destruct (Z.eqb_spec x 0) as [->|X0]; cbn [negb].
    + rewrite Z.gcd_0_l. apply mag_result; assumption.
    + wstep. apply wp_abs32; [exact A3|]. unfold calc_gcd_u. wstep. wstep. wstep; [destruct (bits_of b); [congruence|reflexivity]|].
      wstep. wstep; [rewrite (proj2 (Z.eqb_neq _ _)) by lia; reflexivity|].
      wstep. eapply wp_mono; [apply calc_rem_u_spec; auto; num; lia|]. cbn beta. intros t ->. rewrite B4.
      pose proof (Z.mod_pos_bound (Z.abs y) (Z.abs x) ltac:(lia)) as MB.
      rewrite calc_gcd32_spec by (num; lia). cbn [wp]. rewrite gcd_swap by lia. rewrite gcd_abs2, Z.gcd_comm.
      apply bi_of_uint32_spec. pose proof (Z.gcd_nonneg x y). split; [assumption|].
      pose proof (Z.divide_pos_le (Z.gcd x y) (Z.abs x) ltac:(lia)) as D. rewrite Z.divide_abs_r in D.
      specialize (D (Z.gcd_divide_l x y)). unfold UINT_MAX; num; lia.
  - rewrite B1, B2, (is_nil_ne _ A1). cbn [is_nil andb].
    destruct (Z.eqb_spec y 0) as [->|X0]; cbn [negb].
    + rewrite Z.gcd_0_r. apply mag_result; assumption.
    + wstep. apply wp_abs32; [exact B3|]. unfold calc_gcd_u. wstep. wstep. wstep; [destruct (bits_of a); [congruence|reflexivity]|].
      wstep. wstep; [rewrite (proj2 (Z.eqb_neq _ _)) by lia; reflexivity|].
      wstep. eapply wp_mono; [apply calc_rem_u_spec; auto; num; lia|]. cbn beta. intros t ->. rewrite A4.
      pose proof (Z.mod_pos_bound (Z.abs x) (Z.abs y) ltac:(lia)) as MB.
      rewrite calc_gcd32_spec by (num; lia). cbn [wp]. rewrite gcd_swap by lia. rewrite gcd_abs2.
      apply bi_of_uint32_spec. pose proof (Z.gcd_nonneg x y). split; [assumption|].
      pose proof (Z.divide_pos_le (Z.gcd x y) (Z.abs y) ltac:(lia)) as D. rewrite Z.divide_abs_r in D.
      specialize (D (Z.gcd_divide_r x y)). unfold UINT_MAX; num; lia.
  - rewrite (is_nil_ne _ A1), (is_nil_ne _ B1). cbn [andb].
    rewrite calc_compare_spec by auto. cbn [bind]. rewrite <- gcd_abs2, <- A4, <- B4. rewrite <- A4, <- B4 in Hm.
    unfold cmpz. destruct (Z.compare_spec (val (bits_of a)) (val (bits_of b))) as [E|E|E]; cbn beta iota.
    + change (0 <? 0) with false. cbn beta iota. apply gcd_bits_small; auto; lia.
    + change (-1 <? 0) with true. cbn beta iota. rewrite Z.gcd_comm. apply gcd_bits_small; auto; lia.
    + change (1 <? 0) with false. cbn beta iota. apply gcd_bits_small; auto; lia.
Qed.

Lemma gcd_large c a b x y :
  represents a x -> represents b y ->
  let X := Z.max (Z.abs x) (Z.abs y) in let Y := Z.min (Z.abs x) (Z.abs y) in
  2 ^ 64 <= Y ->
  (euclid_run X Y -> exists N, forall fuel, (N <= fuel)%nat -> returns (bi_gcd fuel c a b) (Z.gcd x y)) /\
  (lehmer_stuck X Y -> forall fuel, no_result c (bi_gcd fuel c a b)).
Proof.
  intros Ha Hb X Y HY.
  destruct (val_parts a x Ha) as [(A1 & A2 & A3)|(A1 & A2 & A3 & A4 & A5)]; [num; lia|].
  destruct (val_parts b y Hb) as [(B1 & B2 & B3)|(B1 & B2 & B3 & B4 & B5)]; [num; lia|].
  rewrite <- gcd_abs2. unfold X, Y in *. clear X Y. rewrite <- A4, <- B4 in *.
  assert (exists lv rv, limbs lv /\ limbs rv /\ lv <> [] /\ rv <> [] /\ top_nz lv /\ top_nz rv /\
    val lv = Z.max (val (bits_of a)) (val (bits_of b)) /\ val rv = Z.min (val (bits_of a)) (val (bits_of b)) /\
    forall fuel, bi_gcd fuel c a b = bi_gcd_bits fuel c lv rv) as (lv & rv & L1 & L2 & L3 & L4 & L5 & L6 & L7 & L8 & E).
  { destruct (Z.lt_ge_cases (val (bits_of a)) (val (bits_of b))) as [G|G].
    - exists (bits_of b), (bits_of a). do 6 (split; [assumption|]). split; [lia|]. split; [lia|].
      intros fuel. unfold bi_gcd. rewrite (assert_valid_ok c a x Ha), (assert_valid_ok c b y Hb). cbn [bind].
      rewrite (is_nil_ne _ A1), (is_nil_ne _ B1). cbn [andb]. rewrite calc_compare_spec by auto. cbn [bind].
      unfold cmpz. rewrite (proj2 (Z.compare_lt_iff _ _) G). reflexivity.
    - exists (bits_of a), (bits_of b). do 6 (split; [assumption|]). split; [lia|]. split; [lia|].
      intros fuel. unfold bi_gcd. rewrite (assert_valid_ok c a x Ha), (assert_valid_ok c b y Hb). cbn [bind].
      rewrite (is_nil_ne _ A1), (is_nil_ne _ B1). cbn [andb]. rewrite calc_compare_spec by auto. cbn [bind].
      unfold cmpz. destruct (Z.compare_spec (val (bits_of a)) (val (bits_of b))); [reflexivity|lia|reflexivity]. }
  rewrite <- L7, <- L8 in *.
  destruct (gcd_bits_large c lv rv L1 L2 L3 L4 L5 L6 ltac:(lia) HY) as (G1 & G2). split.
  - intros HR. destruct (G1 HR) as (N & HN). exists N. intros fuel HF. apply returns_wp. rewrite E.
    replace (Z.gcd (val (bits_of a)) (val (bits_of b))) with (Z.gcd (val lv) (val rv)); [now apply HN|].
    rewrite L7, L8. destruct (Z.le_gt_cases (val (bits_of a)) (val (bits_of b))).
    + rewrite Z.max_r, Z.min_l by lia. apply Z.gcd_comm.
    + rewrite Z.max_l, Z.min_r by lia. reflexivity.
  - intros HS fuel. rewrite E. auto.
Qed.

Lemma gcd_run c a b x y :
  represents a x -> represents b y ->
  euclid_run (Z.max (Z.abs x) (Z.abs y)) (Z.min (Z.abs x) (Z.abs y)) ->
  exists N, forall fuel, (N <= fuel)%nat -> returns (bi_gcd fuel c a b) (Z.gcd x y).
Proof.
  intros Ha Hb HR. destruct (Z.lt_ge_cases (Z.min (Z.abs x) (Z.abs y)) (2 ^ 64)) as [H|H].
  - exists O. intros fuel _. now apply gcd_small.
  - now apply (gcd_large c a b x y Ha Hb H).
Qed.

Lemma gcd_stuck c a b x y fuel :
  represents a x -> represents b y ->
  lehmer_stuck (Z.max (Z.abs x) (Z.abs y)) (Z.min (Z.abs x) (Z.abs y)) ->
  bi_gcd fuel c a b = NoFuel \/ (dbg c = true /\ bi_gcd fuel c a b = AssertFail).
Proof.
  intros Ha Hb HS. assert (2 ^ 64 <= Z.min (Z.abs x) (Z.abs y)) as H by (now inversion HS).
  now apply (gcd_large c a b x y Ha Hb H).
Qed.

(** Divisibility keeps the run Euclidean. *)
Lemma divides_no_step x y : 0 < y -> (y | x) -> 0 < x -> ~ lehmer_step x y.
Proof.
  intros Hy (q & ->) Hx (k & Hk & HX & HY & _ & M).
  pose proof (Z.pow_pos_nonneg 2 k ltac:(lia) Hk) as PK. set (K := 2 ^ k) in *. clearbody K.
  assert (1 <= q) as Hq. { destruct (Z.le_gt_cases 1 q); [assumption|]. assert (q * y <= 0 * y) by (apply Z.mul_le_mono_nonneg_r; lia). lia. }
  pose proof (Z.div_mod y K ltac:(lia)) as Dy. pose proof (Z.mod_pos_bound y K PK) as My.
  set (Y := y / K) in *. set (ry := y mod K) in *.
  assert (q * y / K = q * Y + q * ry / K) as EX.
  { replace (q * y) with (q * ry + (q * Y) * K) by (rewrite Dy; ring). rewrite Z.div_add by lia. lia. }
  assert (0 <= q * ry / K < q) as BQ.
  { assert (0 <= q * ry) by (apply Z.mul_nonneg_nonneg; lia). split; [apply Z.div_pos; lia|].
    apply Z.div_lt_upper_bound; [lia|]. assert (q * ry < q * K) by (apply Z.mul_lt_mono_pos_l; lia). lia. }
  rewrite EX in M. set (e := q * ry / K) in *. clearbody e Y ry.
  rewrite Z.div_add_l in M by lia. replace (q * Y + e) with (e + q * Y) in M by ring. rewrite Z.mod_add in M by lia.
  assert (0 <= e / Y) by (apply Z.div_pos; lia). pose proof (Z.mod_le e Y ltac:(lia) ltac:(lia)). lia.
Qed.

Lemma gcd_divides c a b x y :
  represents a x -> represents b y -> y <> 0 -> (y | x) ->
  exists N, forall fuel, (N <= fuel)%nat -> returns (bi_gcd fuel c a b) (Z.abs y) /\ returns (bi_gcd fuel c b a) (Z.abs y).
Proof.
  intros Ha Hb Hy HD.
  assert (Z.gcd (Z.abs y) (Z.abs x) = Z.abs y) as EG.
  { apply Z.divide_gcd_iff; [lia|]. now rewrite Z.divide_abs_l, Z.divide_abs_r. }
  rewrite gcd_abs2 in EG.
  assert (euclid_run (Z.max (Z.abs x) (Z.abs y)) (Z.min (Z.abs x) (Z.abs y))) as R.
  { destruct (Z.eq_dec x 0) as [->|Hx]; [apply run_small; lia|].
    assert (Z.abs y <= Z.abs x) as L by (apply Z.divide_pos_le; [lia|]; now rewrite Z.divide_abs_l, Z.divide_abs_r).
    rewrite Z.max_l, Z.min_r by lia.
    destruct (Z.lt_ge_cases (Z.abs y) (2 ^ 64)) as [S|S]; [now apply run_small|].
    apply run_step; [exact S| |].
    - apply divides_no_step; [lia| |lia]. now rewrite Z.divide_abs_l, Z.divide_abs_r.
    - apply run_small. assert (Z.abs x mod Z.abs y = 0) as ->; [|lia].
      apply Z.mod_divide; [lia|]. now rewrite Z.divide_abs_l, Z.divide_abs_r. }
  destruct (gcd_run c a b x y Ha Hb R) as (N1 & H1).
  rewrite Z.max_comm, Z.min_comm in R. destruct (gcd_run c b a y x Hb Ha R) as (N2 & H2).
  exists (Nat.max N1 N2). intros fuel HF. specialize (H1 fuel ltac:(lia)). specialize (H2 fuel ltac:(lia)).
  rewrite Z.gcd_comm in H1. rewrite EG in H1, H2. auto.
Qed.
