(** greatest_common_divisor on all operands: the model follows [gcd_rounds]
    round by round. *)
From Verif Require Import Facts Spec AddSubFacts SquMulFacts DivRemFacts DivCoreFacts SpecFacts BigIntFacts SpecApi ConvFacts.
From Verif Require Import CompareFacts CalcAddSub CalcDivRem CalcPowMod CalcGcd BigInt ShiftFacts WordFacts PowFacts ModPowFacts ModPowApi ConvLaws ReducerFacts SpecGcd GcdFacts GcdRegions.
From Verif Require Import PosFacts RunExact SpecActual.
Ltac Zify.zify_post_hook ::= idtac.

(** ** The guessing loop *)

Definition inner (s : lehmer) : Prop :=
  coef s /\ lc s <= ly s /\ lb s <= lx s /\ 1 <= la s /\ 1 <= ld s /\ lx s < 2 ^ 63 /\ ly s < 2 ^ 63 /\ Z.even (liter s) = true.

Lemma guess_S fuel n u e f v g h : guess (S fuel) n u e f v g h =
  (if (v =? 0) || (2 ^ 31 <=? e + u / v * g) || (2 ^ 31 <=? f + u / v * h) || (u mod v <? f + u / v * h)
      || (v - g <? u mod v + (e + u / v * g)) then (n, if Z.even n then f else g)
   else if u mod v =? f + u / v * h then (n + 1, if Z.even n then f + u / v * h else g)
   else guess fuel (n + 1) v h g (u mod v) (f + u / v * h) (e + u / v * g)).
Proof. reflexivity. Qed.

Lemma guess_exact fuel : forall s, inner s -> ly s < 2 ^ Z.of_nat fuel ->
  exists s', lehmer_guess fuel s = Ret s' /\ coef s' /\
    guess (2 * fuel) (liter s) (lx s) (la s) (lb s) (ly s) (lc s) (ld s) = (liter s', lb s') /\ liter s <= liter s'.
Proof.
  induction fuel as [|fuel IH]; intros s Hs Hy; pose proof Hs as (HC & HCY & HBX & HA & HD & HX63 & HY63 & HE);
    pose proof HC as (A & B & C & D & X & Y); cbn [lehmer_guess].
  - change (2 ^ Z.of_nat 0) with 1 in Hy. assert (ly s = 0) as E by lia. rewrite E. change (0 =? 0) with true. cbn beta iota.
    exists s. split; [reflexivity|]. split; [exact HC|]. change (2 * 0)%nat with O. cbn [guess]. rewrite HE. split; [reflexivity|lia].
  - replace (2 * S fuel)%nat with (S (S (2 * fuel))) by lia.
    destruct (Z.eqb_spec (ly s) 0) as [E|E].
    { exists s. split; [reflexivity|]. split; [exact HC|]. rewrite guess_S. rewrite (proj2 (Z.eqb_eq _ _) E). cbn [orb].
      rewrite HE. split; [reflexivity|lia]. }
    rewrite guess_S. rewrite (proj2 (Z.eqb_neq _ _) E). cbn [orb].
    unfold udiv at 1. rewrite (proj2 (Z.eqb_neq _ _) E). cbn [bind].
    assert (0 <= lx s / ly s) as Q0 by (apply Z.div_pos; lia).
    pose proof (Z.mod_pos_bound (lx s) (ly s) ltac:(lia)) as M1.
    assert (lx s / ly s * 1 <= lx s / ly s * ld s) as QD by (apply Z.mul_le_mono_nonneg_l; lia).
    destruct (Z.ltb_spec UINT_MAX (lx s / ly s)) as [Q|Q].
    { exists s. split; [reflexivity|]. split; [exact HC|].
      rewrite (proj2 (Z.leb_le (2 ^ 31) (lb s + lx s / ly s * ld s))) by (unfold UINT_MAX in Q; lia).
      rewrite Bool.orb_true_r. cbn [orb]. rewrite HE. split; [reflexivity|lia]. }
    cbv zeta. rewrite u64_rem by lia.
    destruct (u64_comb (lx s / ly s) (la s) (lc s)) as (-> & G1); [lia|lia|lia|].
    destruct (u64_comb (lx s / ly s) (lb s) (ld s)) as (-> & G2); [lia|lia|lia|].
    set (r := la s + lx s / ly s * lc s) in *. set (s' := lb s + lx s / ly s * ld s) in *.
    set (t := lx s mod ly s) in *.
    assert ((INT_MAX <? r) = (2 ^ 31 <=? r)) as -> by (num; destruct (Z.ltb_spec 2147483647 r), (Z.leb_spec (2 ^ 31) r); auto; lia).
    assert ((INT_MAX <? s') = (2 ^ 31 <=? s')) as -> by (num; destruct (Z.ltb_spec 2147483647 s'), (Z.leb_spec (2 ^ 31) s'); auto; lia).
    destruct (Z.leb_spec (2 ^ 31) r) as [R1|R1]; cbn [orb].
    { exists s. split; [reflexivity|]. split; [exact HC|]. rewrite HE. split; [reflexivity|lia]. }
    destruct (Z.leb_spec (2 ^ 31) s') as [R2|R2]; cbn [orb].
    { exists s. split; [reflexivity|]. split; [exact HC|]. rewrite HE. split; [reflexivity|lia]. }
    rewrite (u64_small (ly s - lc s)), (u64_small (t + r)) by (num; lia).
    destruct (Z.ltb_spec t s') as [R3|R3]; cbn [orb].
    { exists s. split; [reflexivity|]. split; [exact HC|]. rewrite HE. split; [reflexivity|lia]. }
    destruct (Z.ltb_spec (ly s - lc s) (t + r)) as [R4|R4].
    { exists s. split; [reflexivity|]. split; [exact HC|]. rewrite HE. split; [reflexivity|lia]. }
    clearbody r s' t.
    rewrite !u32_small by (num; lia). cbn [lx ly la lb lc ld liter].
    set (s1 := Leh r s' (lc s) (ld s) t (ly s) (liter s + 1)) in *.
    assert (coef s1) as H1 by (unfold coef, s1; cbn [lx ly la lb lc ld liter]; num; repeat split; lia).
    assert (Z.even (liter s + 1) = false) as HE1 by (rewrite Z.even_add, HE; reflexivity).
    destruct (Z.eqb_spec t s') as [T|T].
    { exists s1. split; [reflexivity|]. split; [exact H1|]. rewrite HE. unfold s1. cbn [liter lb]. split; [reflexivity|lia]. }
    rewrite guess_S, HE1.
    unfold udiv at 1. rewrite (proj2 (Z.eqb_neq t 0)) by lia. cbn [bind orb].
    assert (0 <= ly s / t) as Q0' by (apply Z.div_pos; lia).
    assert (ly s / t * 1 <= ly s / t * r) as QD' by (apply Z.mul_le_mono_nonneg_l; lia).
    destruct (Z.ltb_spec UINT_MAX (ly s / t)) as [Q'|Q'].
    { exists s1. split; [reflexivity|]. split; [exact H1|].
      rewrite (proj2 (Z.leb_le (2 ^ 31) (lc s + ly s / t * r))) by (unfold UINT_MAX in Q'; lia).
      rewrite Bool.orb_true_r. cbn [orb]. unfold s1. cbn [liter lb]. split; [reflexivity|lia]. }
    rewrite u64_rem by lia.
    destruct (u64_comb (ly s / t) (ld s) s') as (-> & G3); [lia|num;lia|num;lia|].
    destruct (u64_comb (ly s / t) (lc s) r) as (-> & G4); [lia|lia|num;lia|].
    pose proof (mod_half (ly s) t ltac:(lia)) as MH. pose proof (Z.mod_pos_bound (ly s) t ltac:(lia)) as M2.
    set (r2 := ld s + ly s / t * s') in *. set (s2' := lc s + ly s / t * r) in *. set (t2 := ly s mod t) in *.
    assert ((INT_MAX <? r2) = (2 ^ 31 <=? r2)) as -> by (num; destruct (Z.ltb_spec 2147483647 r2), (Z.leb_spec (2 ^ 31) r2); auto; lia).
    assert ((INT_MAX <? s2') = (2 ^ 31 <=? s2')) as -> by (num; destruct (Z.ltb_spec 2147483647 s2'), (Z.leb_spec (2 ^ 31) s2'); auto; lia).
    assert (liter s1 = liter s + 1) as EL by reflexivity. assert (lb s1 = s') as EB by reflexivity.
    destruct (Z.leb_spec (2 ^ 31) r2) as [R5|R5]; cbn [orb].
    { exists s1. rewrite EL, EB. split; [reflexivity|]. split; [exact H1|]. split; [reflexivity|lia]. }
    destruct (Z.leb_spec (2 ^ 31) s2') as [R6|R6]; cbn [orb].
    { exists s1. rewrite EL, EB. split; [reflexivity|]. split; [exact H1|]. split; [reflexivity|lia]. }
    rewrite (u64_small (t - s')), (u64_small (t2 + r2)) by (num; lia).
    destruct (Z.ltb_spec t2 s2') as [R7|R7]; cbn [orb].
    { exists s1. rewrite EL, EB. split; [reflexivity|]. split; [exact H1|]. split; [reflexivity|lia]. }
    destruct (Z.ltb_spec (t - s') (t2 + r2)) as [R8|R8].
    { exists s1. rewrite EL, EB. split; [reflexivity|]. split; [exact H1|]. split; [reflexivity|lia]. }
    rewrite !u32_small by (num; lia). clearbody r2 s2' t2.
    set (s2 := Leh r s' s2' r2 t t2 (liter s + 1 + 1)).
    assert (coef s2) as H2 by (unfold coef, s2; cbn [lx ly la lb lc ld liter]; num; repeat split; lia).
    destruct (Z.eqb_spec t2 s2') as [T2|T2].
    { exists s2. split; [reflexivity|]. split; [exact H2|]. unfold s2. cbn [liter lb]. split; [reflexivity|lia]. }
    destruct (IH s2) as (s3 & I1 & I2 & I3 & I4).
    + unfold inner. split; [exact H2|]. unfold s2. cbn [lx ly la lb lc ld liter].
      repeat split; try lia. rewrite Z.even_add, HE1. reflexivity.
    + unfold s2. cbn [ly]. rewrite Nat2Z.inj_succ, Z.pow_succ_r in Hy by lia. lia.
    + exists s3. split; [exact I1|]. split; [exact I2|]. unfold s2 in I3, I4. cbn [lx ly la lb lc ld liter] in I3, I4.
      split; [exact I3|lia].
Qed.

(** ** Lengths *)

Lemma buf_limbs size b v : isbuf size b v -> 0 < v -> limbs_of v = Z.of_nat (bb_len b) /\ (1 <= bb_len b)%nat.
Proof.
  intros [S L V N H Lo] Hv. unfold limbs_of. rewrite Z.abs_eq by lia.
  assert (bb_len b <> O) as N0 by (intros E; rewrite E, Bp_0 in H; lia). specialize (Lo N0).
  rewrite Bp_pow2 in Lo, H. split; [|lia].
  assert (32 * Z.of_nat (bb_len b - 1) <= Z.log2 v) as L1 by (apply Z.log2_le_pow2; lia).
  assert (Z.log2 v < 32 * Z.of_nat (bb_len b)) as L2 by (apply Z.log2_lt_pow2; lia).
  assert (Z.log2 v / 32 = Z.of_nat (bb_len b) - 1); [|lia].
  symmetry. apply (Z.div_unique _ _ _ (Z.log2 v - 32 * (Z.of_nat (bb_len b) - 1))); [left; lia|lia].
Qed.

Lemma buf_short size b v : isbuf size b v -> (v < 2 ^ 64 <-> (bb_len b <= 2)%nat).
Proof.
  intros Hb. split.
  - intros H. apply (isbuf_len _ _ _ _ Hb). exact H.
  - intros H. pose proof Hb as [_ _ _ _ B _]. pose proof (Bp_le _ _ H) as G. change (Bp 2) with (2 ^ 64) in G. lia.
Qed.

(** ** extract_digits *)

Lemma top63_wrap h m l z : limb h -> limb m -> limb l -> 0 <= z < 32 ->
  Z.shiftr (Z.lor (Z.lor (u64 (Z.shiftl h (32 + z))) (u64 (Z.shiftl m z))) (Z.shiftr l (32 - z))) 1 =
    ((h * (W32 * W32) + m * W32 + l) / 2 ^ (33 - z)) mod 2 ^ 63.
Proof.
  intros Hh Hm Hl Hz.
  pose proof (Z.pow_pos_nonneg 2 z ltac:(lia) ltac:(lia)) as PZ.
  pose proof (Z.pow_pos_nonneg 2 (32 - z) ltac:(lia) ltac:(lia)) as PQ.
  pose proof (Z.pow_pos_nonneg 2 (33 - z) ltac:(lia) ltac:(lia)) as PR.
  assert (2 ^ (32 - z) * 2 ^ z = W32) as EW.
  { rewrite <- Z.pow_add_r by lia. replace (32 - z + z) with 32 by lia. reflexivity. }
  assert (2 ^ 63 * 2 ^ (33 - z) = 2 ^ (32 - z) * (W32 * W32)) as EV.
  { change (W32 * W32) with (2 ^ 64). rewrite <- !Z.pow_add_r by lia. f_equal. lia. }
  pose proof (Z.div_mod h (2 ^ (32 - z)) ltac:(lia)) as DH. pose proof (Z.mod_pos_bound h (2 ^ (32 - z)) PQ) as MH.
  unfold limb in Hh. assert (0 <= h / 2 ^ (32 - z)) as H1 by (apply Z.div_pos; lia).
  set (h1 := h / 2 ^ (32 - z)) in *. set (h0 := h mod 2 ^ (32 - z)) in *. clearbody h1 h0.
  assert (h0 * 2 ^ z < W32) as HB by (rewrite <- EW; apply Z.mul_lt_mono_pos_r; lia).
  assert (limb h0) as L0.
  { unfold limb. split; [lia|]. assert (h0 * 1 <= h0 * 2 ^ z) by (apply Z.mul_le_mono_nonneg_l; lia). lia. }
  assert (u64 (Z.shiftl h (32 + z)) = u64 (Z.shiftl h0 (32 + z))) as ->.
  { unfold u64. rewrite !Z.shiftl_mul_pow2 by lia.
    replace (h * 2 ^ (32 + z)) with (h0 * 2 ^ (32 + z) + h1 * W64).
    - apply Z_mod_plus_full.
    - rewrite DH, (Z.pow_add_r 2 32 z) by lia. change W64 with (2 ^ 32 * W32). rewrite <- EW. ring. }
  rewrite (top63 h0 m l z L0 Hm Hl Hz HB).
  replace (h * (W32 * W32) + m * W32 + l) with (h0 * (W32 * W32) + m * W32 + l + (h1 * 2 ^ 63) * 2 ^ (33 - z)).
  2:{ rewrite DH. transitivity (h0 * (W32 * W32) + m * W32 + l + h1 * (2 ^ 63 * 2 ^ (33 - z))); [ring|]. rewrite EV. ring. }
  rewrite Z.div_add by lia. rewrite Z_mod_plus_full. symmetry. apply Z.mod_small. unfold limb in *.
  split; [apply Z.div_pos; [num; lia|lia]|]. apply Z.div_lt_upper_bound; [lia|].
  assert ((h0 + 1) * (W32 * W32) <= 2 ^ (32 - z) * (W32 * W32)) by (apply Z.mul_le_mono_nonneg_r; num; lia).
  rewrite (Z.mul_comm _ (2 ^ 63)), EV. num; lia.
Qed.

Lemma massert_pick {A} c b (k : outcome A) : (massert c b ;;; k) = if dbg c && negb b then AssertFail else k.
Proof. unfold massert. destruct (dbg c), b; reflexivity. Qed.

Lemma extract_exact c sx sy xb yb x y :
  isbuf sx xb x -> isbuf sy yb y -> 2 ^ 64 <= y ->
  extract_digits c xb yb =
    if x <? 2 ^ 64 then (if dbg c then AssertFail else Undef OutOfBounds)
    else if dbg c && ((limbs_of x <? limbs_of y) || (fst (leading x y) <? snd (leading x y))) then AssertFail
    else Ret (leading x y).
Proof.
  intros Hx Hy H64. pose proof Hx as [S _ _ N B Lo]. pose proof Hy as [Sy _ _ Ny By _].
  assert (3 <= bb_len yb)%nat as L3 by (eapply isbuf_three; eauto).
  destruct (Z.ltb_spec x (2 ^ 64)) as [X64|X64].
  { apply (buf_short _ _ _ Hx) in X64. destruct (bb_len xb) as [|n] eqn:E.
    - unfold extract_digits. rewrite !massert_pick, E. unfold rdz at 1. destruct (dbg c); reflexivity.
    - rewrite <- E in *. apply extract_short; lia. }
  assert (3 <= bb_len xb)%nat as M3 by (eapply isbuf_three; eauto).
  destruct (buf_limbs _ _ _ Hx ltac:(lia)) as (EN & _). destruct (buf_limbs _ _ _ Hy ltac:(lia)) as (EM & _).
  unfold extract_digits. cbv zeta. rewrite !massert_pick.
  rewrite (proj2 (Z.leb_le 3 _)), (proj2 (Z.leb_le 3 _)) by lia. cbn [negb]. rewrite !Bool.andb_false_r.
  assert (forall k, (k < bb_len xb)%nat ->
    rdz (bb_bits xb) (Z.of_nat (bb_len xb) - Z.of_nat (bb_len xb - k)) = Ret (nth k (bb_bits xb) 0)) as R.
  { intros k Hk. unfold rdz. destruct (Z.ltb_spec (Z.of_nat (bb_len xb) - Z.of_nat (bb_len xb - k)) 0); [lia|].
    replace (Z.to_nat (Z.of_nat (bb_len xb) - Z.of_nat (bb_len xb - k))) with k by lia.
    unfold rd. now rewrite (nth_error_nth' _ 0) by lia. }
  pose proof (R (bb_len xb - 1)%nat ltac:(lia)) as R1. replace (Z.of_nat (bb_len xb - (bb_len xb - 1))) with 1 in R1 by lia.
  pose proof (R (bb_len xb - 2)%nat ltac:(lia)) as R2. replace (Z.of_nat (bb_len xb - (bb_len xb - 2))) with 2 in R2 by lia.
  pose proof (R (bb_len xb - 3)%nat ltac:(lia)) as R3. replace (Z.of_nat (bb_len xb - (bb_len xb - 3))) with 3 in R3 by lia.
  rewrite R1, R2, R3. clear R R1 R2 R3. cbn [bind].
  pose proof (isbuf_top _ _ _ Hx ltac:(lia)) as TX.
  pose proof (isbuf_limb _ _ _ (bb_len xb - 1) Hx) as Lh. pose proof (isbuf_limb _ _ _ (bb_len xb - 2) Hx) as Lm.
  pose proof (isbuf_limb _ _ _ (bb_len xb - 3) Hx) as Ll.
  pose proof (isbuf_vl _ _ _ _ Hx (Nat.le_refl _)) as EX.
  replace (bb_len xb) with (bb_len xb - 3 + 3)%nat in EX at 1 by lia. rewrite three in EX.
  replace (bb_len xb - 3 + 2)%nat with (bb_len xb - 1)%nat in EX by lia.
  replace (bb_len xb - 3 + 1)%nat with (bb_len xb - 2)%nat in EX by lia.
  pose proof (vl_bound (bb_bits xb) (bb_len xb - 3) ltac:(apply Hx)) as BX.
  set (h := nth (bb_len xb - 1) (bb_bits xb) 0) in *. set (m := nth (bb_len xb - 2) (bb_bits xb) 0) in *.
  set (l := nth (bb_len xb - 3) (bb_bits xb) 0) in *.
  set (P := Bp (bb_len xb - 3)) in *.
  assert (0 < P) as PP by apply Bp_pos.
  assert (EP : P = 2 ^ (32 * Z.of_nat (bb_len xb - 3))) by apply Bp_pow2.
  rewrite (u32_small h) by exact Lh.
  destruct (leading_zeros_spec h) as (Z1 & Z2); [unfold limb in Lh; lia|]. set (z := leading_zeros h) in *.
  clearbody h m l z.
  assert (forall v k, 0 <= k < 64 -> shl64 v k = Ret (u64 (Z.shiftl v k))) as SL.
  { intros v k Hk. unfold shl64. rewrite (proj2 (Z.leb_le _ _)), (proj2 (Z.ltb_lt _ _)) by lia. reflexivity. }
  assert (forall v k, 0 <= k < 64 -> shr64 v k = Ret (Z.shiftr v k)) as SR.
  { intros v k Hk. unfold shr64. rewrite (proj2 (Z.leb_le _ _)), (proj2 (Z.ltb_lt _ _)) by lia. reflexivity. }
  assert (forall t v, 0 <= v < P -> (v + t * P) / P = t) as DV.
  { intros t v Hv. rewrite Z.div_add by lia. rewrite Z.div_small by lia. lia. }
  pose proof (Z.pow_pos_nonneg 2 z ltac:(lia) ltac:(lia)) as PZ.
  pose proof (Z.pow_pos_nonneg 2 (33 - z) ltac:(lia) ltac:(lia)) as PQ.
  assert (forall v, v / 2 ^ (32 * Z.of_nat (bb_len xb - 3) + (33 - z)) = v / P / 2 ^ (33 - z)) as DD.
  { intros v. rewrite Z.pow_add_r by lia. rewrite <- EP. now rewrite Z.div_div by lia. }
  assert (2 ^ 62 <= x / P / 2 ^ (33 - z) < 2 ^ 63) as XB.
  { rewrite <- EX, DV by exact BX. split.
    - apply Z.div_le_lower_bound; [lia|].
      assert (2 ^ (33 - z) * 2 ^ 62 * 2 ^ z = 2 ^ 95) as E95 by (rewrite <- !Z.pow_add_r by lia; f_equal; lia).
      assert ((2 ^ (33 - z) * 2 ^ 62) * 2 ^ z <= (h * (W32 * W32)) * 2 ^ z) as G.
      { rewrite E95. replace (h * (W32 * W32) * 2 ^ z) with (h * 2 ^ z * (W32 * W32)) by ring.
        assert (2147483648 * (W32 * W32) <= h * 2 ^ z * (W32 * W32)) by (apply Z.mul_le_mono_nonneg_r; [num; lia|lia]).
        change (2 ^ 95) with (2147483648 * (W32 * W32)). lia. }
      apply Z.mul_le_mono_pos_r in G; [|exact PZ]. unfold limb in *. num. lia.
    - rewrite <- (top63 h m l z) by (auto; lia).
      rewrite top63_wrap by (auto; lia). apply Z.mod_pos_bound. reflexivity. }
  assert (Z.log2 x - 62 = 32 * Z.of_nat (bb_len xb - 3) + (33 - z)) as EK.
  { assert (Z.log2 x = 62 + (32 * Z.of_nat (bb_len xb - 3) + (33 - z))) as EL; [|lia].
    set (k := 32 * Z.of_nat (bb_len xb - 3) + (33 - z)) in *. assert (0 <= k) as K0 by (unfold k; lia).
    rewrite <- DD in XB. clearbody k. pose proof (Z.pow_pos_nonneg 2 k ltac:(lia) K0) as PK.
    pose proof (Z.div_mod x (2 ^ k) ltac:(lia)) as Dx. pose proof (Z.mod_pos_bound x (2 ^ k) PK) as Mx.
    apply Z.log2_unique; [lia|]. rewrite Z.pow_add_r by lia. replace (Z.succ (62 + k)) with (63 + k) by lia.
    rewrite Z.pow_add_r by lia. set (q := x / 2 ^ k) in *. clearbody q.
    assert (2 ^ 62 * 2 ^ k <= q * 2 ^ k) by (apply Z.mul_le_mono_nonneg_r; lia).
    assert ((q + 1) * 2 ^ k <= 2 ^ 63 * 2 ^ k) by (apply Z.mul_le_mono_nonneg_r; lia). lia. }
  destruct (Nat.le_gt_cases (bb_len yb) (bb_len xb)) as [HL|HL].
  - rewrite (proj2 (Z.leb_le _ _)) by lia. cbn [negb]. rewrite Bool.andb_false_r. cbv iota.
    rewrite (read_y sx sy xb yb x y Hx Hy) by lia. cbn [bind].
    rewrite !SL, !SR by lia. cbn [bind].
    pose proof (isbuf_limb _ _ _ (bb_len xb - 1) Hy) as Mh.
    pose proof (isbuf_limb _ _ _ (bb_len xb - 2) Hy) as Mm. pose proof (isbuf_limb _ _ _ (bb_len xb - 3) Hy) as Ml.
    pose proof (isbuf_vl _ _ _ (bb_len xb) Hy ltac:(lia)) as EY.
    replace (bb_len xb) with (bb_len xb - 3 + 3)%nat in EY at 1 by lia. rewrite three in EY.
    replace (bb_len xb - 3 + 2)%nat with (bb_len xb - 1)%nat in EY by lia.
    replace (bb_len xb - 3 + 1)%nat with (bb_len xb - 2)%nat in EY by lia.
    pose proof (vl_bound (bb_bits yb) (bb_len xb - 3) ltac:(apply Hy)) as BY.
    rewrite (top63 h m l z) by (auto; lia). rewrite top63_wrap by (auto; lia).
    assert (leading x y = ((h * (W32 * W32) + m * W32 + l) / 2 ^ (33 - z),
      ((nth (bb_len xb - 1) (bb_bits yb) 0 * (W32 * W32) + nth (bb_len xb - 2) (bb_bits yb) 0 * W32 +
        nth (bb_len xb - 3) (bb_bits yb) 0) / 2 ^ (33 - z)) mod 2 ^ 63)) as EL.
    { unfold leading. rewrite EK, !DD. rewrite (proj2 (Z.ltb_ge _ _)) by lia.
      f_equal; [rewrite <- EX, DV by exact BX; reflexivity|]. rewrite <- EY. fold P. rewrite DV by exact BY. reflexivity. }
    rewrite <- EX in EL at 1. rewrite EX in EL. rewrite (proj2 (Z.ltb_ge (limbs_of x) _)) by lia.
    match type of EL with _ = (?a, ?b) => set (X := a) in *; set (Y := b) in * end.
    rewrite massert_pick. rewrite EL. cbn [fst snd orb]. rewrite Z.leb_antisym, Bool.negb_involutive. reflexivity.
  - rewrite (proj2 (Z.leb_gt _ _)) by lia. rewrite (proj2 (Z.ltb_lt (limbs_of x) _)) by lia. cbn [negb orb].
    rewrite Bool.andb_true_r. destruct (dbg c) eqn:D; [reflexivity|]. cbv iota.
    rewrite (proj2 (Z.eqb_neq _ 0)), (proj2 (Z.eqb_neq _ 1)), (proj2 (Z.eqb_neq _ 2)) by lia. cbn [bind].
    rewrite !SL, !SR by lia. cbn [bind]. rewrite massert_pick, D. cbn [andb].
    rewrite (top63 h m l z) by (auto; lia). rewrite top63_wrap by (auto; unfold limb; num; lia).
    unfold leading. rewrite EK, !DD. rewrite (proj2 (Z.ltb_lt _ _)) by lia.
    rewrite <- EX at 1. rewrite DV by exact BX. rewrite !Z.mul_0_l, !Z.add_0_l, (Z.div_0_l (2 ^ (33 - z))) by lia. reflexivity.
Qed.

(** ** Buffers with cut-off limbs above their length *)

Definition dbuf (b : bitsbuf) (v j : Z) : Prop := exists p t,
  bb_bits b = p ++ t /\ isbuf (length p) (Buf p (bb_len b)) v /\ limbs t /\ (2 <= length p)%nat /\ j = Bp (length p) * val t.

Lemma rd_app l t i : (i < length l)%nat -> rd (l ++ t) i = rd l i.
Proof. intros H. unfold rd. now rewrite nth_error_app1. Qed.
Lemma rdz_app l t i : i < Z.of_nat (length l) -> rdz (l ++ t) i = rdz l i.
Proof. intros H. unfold rdz. destruct (Z.ltb_spec i 0); [reflexivity|]. apply rd_app. lia. Qed.
Lemma actual_length_app l t n : (n <= length l)%nat -> actual_length (l ++ t) n = actual_length l n.
Proof.
  induction n as [|n IH]; intros H; [reflexivity|]. cbn [actual_length]. rewrite rd_app by lia.
  destruct (rd l n) as [v| | | |]; cbn [bind]; try reflexivity. destruct (v =? 0); [apply IH; lia|reflexivity].
Qed.
Lemma slice_app l t n : (n <= length l)%nat -> slice (l ++ t) 0 n = slice l 0 n.
Proof.
  intros H. unfold slice. cbn [skipn Nat.add]. rewrite firstn_app. replace (n - length l)%nat with O by lia. cbn [firstn].
  rewrite app_nil_r, app_length. rewrite !(proj2 (Nat.leb_le _ _)) by lia. reflexivity.
Qed.

Lemma extract_dirty c p t n q u m : (n <= length p)%nat -> (m <= length q)%nat ->
  extract_digits c (Buf (p ++ t) n) (Buf (q ++ u) m) = extract_digits c (Buf p n) (Buf q m).
Proof.
  intros Hn Hm. unfold extract_digits. cbn [bb_bits bb_len].
  rewrite !(rdz_app p t), !(rdz_app q u) by lia. reflexivity.
Qed.

Lemma reduce_dirty c p t n q u m P : (n <= length p)%nat -> (m <= length q)%nat ->
  wp (buf_reduce_buf c (Buf p n) (Buf q m)) P ->
  wp (buf_reduce_buf c (Buf (p ++ t) n) (Buf (q ++ u) m)) (fun b => exists p', bb_bits b = p' ++ t /\ P (Buf p' (bb_len b))).
Proof.
  intros Hn Hm. unfold buf_reduce_buf. cbn [bb_bits bb_len]. destruct (Nat.leb_spec m n) as [H|H].
  - rewrite !slice_app by assumption. destruct (slice p 0 n) as [b| | | |]; cbn [bind]; try (intros []; fail).
    destruct (slice q 0 m) as [b2| | | |]; cbn [bind]; try (intros []; fail).
    destruct (calc_div_core c b b2 []) as [(b', b'')| | | |]; cbn [bind]; try (intros []; fail).
    unfold splice. cbn [Nat.add firstn app].
    destruct (Nat.leb_spec (length b') (length p)) as [G|G]; cbn [bind]; [|intros []].
    rewrite app_length. rewrite (proj2 (Nat.leb_le _ _)) by lia. cbn [bind].
    rewrite skipn_app. replace (length b' - length p)%nat with O by lia. cbn [skipn]. rewrite app_assoc.
    assert (length (b' ++ skipn (length b') p) = length p) as LL by (rewrite app_length, skipn_length; lia).
    rewrite (actual_length_app (b' ++ skipn (length b') p)) by lia.
    destruct (actual_length (b' ++ skipn (length b') p) m) as [k| | | |]; cbn [bind]; try (intros []; fail).
    cbn [wp]. intros HP. exists (b' ++ skipn (length b') p). cbn [bb_bits bb_len]. auto.
  - cbn [wp bb_bits bb_len]. intros HP. exists p. auto.
Qed.

(** ** Refresh *)

Lemma refresh_dirty b v j : dbuf b v j -> (1 <= bb_len b)%nat -> buf_refresh b (bb_len b) = Ret b.
Proof.
  intros (p & t & E & Hb & _) H1. unfold buf_refresh. rewrite Nat.ltb_irrefl. cbn [bind].
  pose proof Hb as [_ _ _ N _ _]. cbn [bb_bits bb_len] in N. rewrite E, actual_length_app by lia.
  pose proof (refresh_same _ _ _ Hb) as R. unfold buf_refresh in R. cbn [bb_bits bb_len] in R. rewrite Nat.ltb_irrefl in R. cbn [bind] in R.
  destruct (actual_length p (bb_len b)) as [k| | | |]; cbn [bind] in R |- *; try discriminate R.
  injection R as K. rewrite K, <- E. now destruct b.
Qed.

Lemma firstn_val_mod p n : limbs p -> (n <= length p)%nat -> val (firstn n p) = val p mod Bp n.
Proof.
  intros L H. pose proof (val_split p n H) as E.
  apply (Z.mod_unique _ _ (val (skipn n p))); [left; now apply vl_bound|]. unfold vl in E. lia.
Qed.

Lemma refresh_cut b v j n : dbuf b v j -> bb_len b = S n -> (3 <= n)%nat ->
  exists b', buf_refresh b n = Ret b' /\
    dbuf b' (clobbered v (Z.of_nat n)) (j + (v - v mod 2 ^ (32 * Z.of_nat n))).
Proof.
  intros (p & t & E & Hb & Lt & L2 & Ej) EL N3. pose proof Hb as [_ L V N _ _]. cbn [bb_bits bb_len] in L, V, N.
  unfold buf_refresh. rewrite EL. rewrite (proj2 (Nat.ltb_lt _ _)) by lia. replace (S n - n)%nat with 1%nat by lia.
  unfold fill. rewrite E, app_length. rewrite (proj2 (Nat.leb_le _ _)) by lia. cbn [bind repeat app].
  destruct p as [|p0 p]; [cbn in L2; lia|]. cbn [app skipn].
  set (w := u32 (Z.of_nat n)).
  set (p' := w :: firstn (n - 1) p). set (t' := skipn (n - 1) p ++ t).
  cbn [length] in N.
  assert (w :: p ++ t = p' ++ t') as ->.
  { unfold p', t'. cbn [app]. f_equal. rewrite app_assoc, firstn_skipn. reflexivity. }
  assert (length p' = n) as LP by (unfold p'; cbn [length]; rewrite firstn_length; lia).
  inversion L as [|a b0 L0 Lp]; subst a b0.
  assert (limbs p') as L' by (constructor; [apply u32_limb|apply limbs_firstn, Lp]).
  assert (limbs t') as LT' by (apply limbs_app; split; [apply limbs_skipn, Lp|exact Lt]).
  rewrite actual_length_app by lia.
  pose proof (make_isbuf p' n L' ltac:(lia) ltac:(rewrite <- LP; apply val_bound, L')) as W. apply wp_inv in W.
  destruct W as (k & -> & K & _). cbn [bind]. eexists. split; [reflexivity|].
  exists p', t'. cbn [bb_bits bb_len]. split; [reflexivity|].
  assert (n = S (n - 1)) as EN by lia.
  pose proof (firstn_val_mod (p0 :: p) n L ltac:(cbn [length]; lia)) as FM. rewrite V in FM.
  rewrite EN in FM at 1. cbn [firstn val] in FM.
  pose proof (firstn_val_mod (p0 :: p) 1 L ltac:(cbn [length]; lia)) as FM1. rewrite V in FM1. cbn [firstn val] in FM1. change (Bp 1) with (2 ^ 32) in FM1.
  assert (val p' = clobbered v (Z.of_nat n)) as VP.
  { unfold p', clobbered. cbn [val]. rewrite <- Bp_pow2, <- FM, <- FM1. unfold w, u32. change (2 ^ 32) with W32. lia. }
  rewrite <- VP. split; [exact K|]. split; [exact LT'|]. split; [lia|].
  rewrite LP. unfold t'. rewrite val_app, skipn_length.
  pose proof (val_split p (n - 1) ltac:(lia)) as VS. unfold vl in VS.
  rewrite Ej. cbn [length]. rewrite <- Bp_pow2, <- FM.
  assert (Bp n = W32 * Bp (n - 1)) as EB by (rewrite EN at 1; apply Bp_S).
  assert (Bp (S (length p)) = Bp n * Bp (length p - (n - 1))) as EB2.
  { rewrite <- Bp_add. f_equal. lia. }
  rewrite EB2. cbn [val] in V. rewrite <- V, VS, EB. ring.
Qed.

Lemma core_dirty c xb yb s n m : limbs (bb_bits xb) -> limbs (bb_bits yb) -> bb_len xb = n -> bb_len yb = m ->
  (1 <= m <= n)%nat -> (n <= length (bb_bits xb))%nat -> (m <= length (bb_bits yb))%nat -> coef s ->
  lehmer_core c xb yb (la s) (lb s) (lc s) (ld s) =
    (x <- buf_refresh xb m ;; y <- buf_refresh yb m ;; Ret (x, y)).
Proof.
  intros Lx Ly EN EM HL Nx Ny (A & B & C & D & _). unfold lehmer_core.
  rewrite !massert_pick. rewrite EN, EM.
  rewrite !(proj2 (Nat.leb_le _ _)) by lia. rewrite !(proj2 (Z.leb_le _ _)) by lia. cbn [andb negb]. rewrite !Bool.andb_false_r.
  pose proof (core_loop c _ _ _ _ (bb_bits xb) (bb_bits yb) m A B C D Lx Ly ltac:(lia) ltac:(lia)) as W.
  apply wp_inv in W. destruct W as (r & -> & _). reflexivity.
Qed.

(** ** One round *)

Lemma leading_range x y : 2 ^ 64 <= x -> 2 ^ 62 <= fst (leading x y) < 2 ^ 63 /\ 0 <= snd (leading x y) < 2 ^ 63.
Proof.
  intros H. unfold leading. cbn [fst snd]. pose proof (Z.log2_spec x ltac:(lia)) as L.
  pose proof (Z.log2_le_mono _ _ H) as M. rewrite Z.log2_pow2 in M by lia.
  pose proof (Z.pow_pos_nonneg 2 (Z.log2 x - 62) ltac:(lia) ltac:(lia)) as P. split; [split|].
  - apply Z.div_le_lower_bound; [lia|]. rewrite <- Z.pow_add_r by lia. replace (Z.log2 x - 62 + 62) with (Z.log2 x) by lia. lia.
  - apply Z.div_lt_upper_bound; [lia|]. rewrite <- Z.pow_add_r by lia. replace (Z.log2 x - 62 + 63) with (Z.succ (Z.log2 x)) by lia. lia.
  - destruct (limbs_of x <? limbs_of y); [lia|]. apply Z.mod_pos_bound. reflexivity.
Qed.

Lemma dbuf_facts b v j : dbuf b v j ->
  limbs (bb_bits b) /\ (bb_len b <= length (bb_bits b))%nat /\ 0 <= v < Bp (bb_len b) /\
  (bb_len b <> O -> Bp (bb_len b - 1) <= v) /\ (2 <= length (bb_bits b))%nat /\ val (bb_bits b) = v + j.
Proof.
  intros (p & t & E & [_ L V N B Lo] & Lt & L2 & Ej). cbn [bb_bits bb_len] in *. rewrite E, app_length, val_app.
  split; [apply limbs_app; auto|]. split; [lia|]. split; [exact B|]. split; [exact Lo|]. split; [lia|]. lia.
Qed.

Lemma dbuf_limbs b v j : dbuf b v j -> 0 < v -> limbs_of v = Z.of_nat (bb_len b) /\ (1 <= bb_len b)%nat.
Proof. intros (p & t & E & Hb & _) H. exact (buf_limbs _ _ _ Hb H). Qed.
Lemma dbuf_short b v j : dbuf b v j -> (v < 2 ^ 64 <-> (bb_len b <= 2)%nat).
Proof. intros (p & t & E & Hb & _). exact (buf_short _ _ _ Hb). Qed.

Lemma dbuf_reduce c xb yb x i y j : dbuf xb x i -> dbuf yb y j -> 0 < y ->
  wp (buf_reduce_buf c xb yb) (fun b => dbuf b (x mod y) i).
Proof.
  intros (p & t & E & Hx & Lt & L2 & Ei) (q & u & F & Hy & Lu & M2 & Ej) Y0.
  destruct xb as [bx n]. destruct yb as [by' m]. cbn [bb_bits bb_len] in *. subst bx by'.
  pose proof Hx as [_ _ _ Nx Bx _]. pose proof Hy as [_ _ _ Ny _ Ly]. cbn [bb_bits bb_len] in Nx, Ny, Bx, Ly.
  destruct (Nat.le_gt_cases m (length p)) as [G|G].
  - eapply wp_mono; [eapply (reduce_dirty c p t n q u m); [exact Nx|exact Ny|]; apply (reduce_buf_spec c _ _ _ _ x y Hx Hy Y0); exact G|].
    intros b (p' & EB & (B & _)). pose proof B as [SB _ _ _ _ _]. cbn [bb_bits] in SB.
    exists p', t. rewrite SB. auto.
  - unfold buf_reduce_buf. cbn [bb_bits bb_len]. destruct (Nat.leb_spec m n) as [K|K]; [lia|]. cbn [wp].
    specialize (Ly ltac:(lia)). pose proof (Bp_le n (m - 1) ltac:(lia)). rewrite Z.mod_small by lia.
    exists p, t. auto.
Qed.

Definition follows {A B} (o : outcome A) (z : outcome B) (R : A -> B -> Prop) : Prop :=
  match z with
  | Ret b => exists a, o = Ret a /\ R a b
  | Throw e => o = Throw e
  | Undef u => o = Undef u
  | AssertFail => o = AssertFail
  | NoFuel => o = NoFuel
  end.

Definition pair_ok (st : bitsbuf * bitsbuf) (v : Z * Z * Z * Z) : Prop :=
  let '(x, i, y, j) := v in dbuf (fst st) x i /\ dbuf (snd st) y j.

Lemma round_exact c xb yb x i y j : dbuf xb x i -> dbuf yb y j -> 2 ^ 64 <= y ->
  follows (lehmer_round c xb yb) (gcd_round (dbg c) x i y j) pair_ok.
Proof.
  intros Dx Dy H64. pose proof Dx as (p & t & E & Hx & Lt & L2 & Ei). pose proof Dy as (q & u & F & Hy & Lu & M2 & Ej).
  assert (extract_digits c xb yb = extract_digits c (Buf p (bb_len xb)) (Buf q (bb_len yb))) as EE.
  { pose proof Hx as [_ _ _ Nx _ _]. pose proof Hy as [_ _ _ Ny _ _]. cbn [bb_bits bb_len] in Nx, Ny.
    rewrite <- (extract_dirty c p t (bb_len xb) q u (bb_len yb) Nx Ny). destruct xb as [b1 n1], yb as [b2 n2]. cbn [bb_bits bb_len] in *. now subst. }
  unfold lehmer_round, gcd_round. rewrite EE, (extract_exact c _ _ _ _ x y Hx Hy H64).
  destruct (Z.ltb_spec x (2 ^ 64)) as [X64|X64]; [destruct (dbg c); reflexivity|].
  destruct (dbg c && ((limbs_of x <? limbs_of y) || (fst (leading x y) <? snd (leading x y)))) eqn:ED; [reflexivity|].
  cbn [bind]. clear EE E F Hx Hy Lt Lu L2 M2 Ei Ej p t q u.
  pose proof (leading_range x y X64) as (RX & RY). unfold cofactor. destruct (leading x y) as [X Y] eqn:EL. cbn [fst snd] in *.
  destruct (guess_exact euclid_fuel (Leh 1 0 0 1 X Y 0)) as (s & -> & C & EG & GE0).
  { unfold inner, coef. cbn [lx ly la lb lc ld liter]. num. repeat split; lia. }
  { cbn [ly]. assert (2 ^ 63 <= 2 ^ Z.of_nat euclid_fuel) by (apply Z.pow_le_mono_r; unfold euclid_fuel; lia). lia. }
  cbn [lx ly la lb lc ld liter] in EG, GE0. change (2 * euclid_fuel)%nat with 400%nat in EG. rewrite EG. cbn [bind].
  destruct (dbuf_limbs _ _ _ Dx ltac:(lia)) as (ELx & Lx1). destruct (dbuf_limbs _ _ _ Dy ltac:(lia)) as (ELy & Ly1).
  destruct (Z.eqb_spec (lb s) 0) as [B0|B0].
  { pose proof (dbuf_reduce c xb yb x i y j Dx Dy ltac:(lia)) as W. apply wp_inv in W. destruct W as (b & -> & Db). cbn [bind follows].
    eexists. split; [reflexivity|]. split; assumption. }
  assert (bb_len xb = bb_len yb \/ bb_len xb = S (bb_len yb)) as LC.
  { destruct (Nat.lt_trichotomy (bb_len xb) (bb_len yb)) as [G|[G|G]]; [exfalso|auto|right].
    - unfold leading in EL. rewrite (proj2 (Z.ltb_lt _ _)) in EL by lia. injection EL as _ EY. subst Y.
      rewrite guess_S in EG. change (0 =? 0) with true in EG. cbn [orb] in EG. injection EG as _ EB. congruence.
    - destruct (dbuf_facts _ _ _ Dx) as (_ & _ & BX & LoX & _). destruct (dbuf_facts _ _ _ Dy) as (_ & _ & BY & LoY & _).
      specialize (LoX ltac:(lia)). specialize (LoY ltac:(lia)).
      assert (y <= x) as Hyx by (pose proof (Bp_le (bb_len yb) (bb_len xb - 1) ltac:(lia)); lia).
      assert (0 <= Z.log2 x - 62) as K0.
      { pose proof (Z.log2_le_mono _ _ X64) as M. rewrite Z.log2_pow2 in M by lia. lia. }
      pose proof (Z.pow_pos_nonneg 2 (Z.log2 x - 62) ltac:(lia) K0) as PK.
      assert (y / 2 ^ (Z.log2 x - 62) <= x / 2 ^ (Z.log2 x - 62)) as DL by (apply Z.div_le_mono; lia).
      assert (0 <= y / 2 ^ (Z.log2 x - 62)) as DP by (apply Z.div_pos; lia).
      unfold leading in EL. rewrite (proj2 (Z.ltb_ge _ _)) in EL by lia. injection EL as EX EY.
      rewrite Z.mod_small in EY by lia.
      assert (lehmer_step x y) as HS.
      { pose proof (guess_first X Y ltac:(lia) ltac:(lia)) as W.
        destruct (guess_exact euclid_fuel (Leh 1 0 0 1 X Y 0)) as (s2 & E2 & _ & EG2 & _).
        { unfold inner, coef. cbn [lx ly la lb lc ld liter]. num. repeat split; lia. }
        { cbn [ly]. assert (2 ^ 63 <= 2 ^ Z.of_nat euclid_fuel) by (apply Z.pow_le_mono_r; unfold euclid_fuel; lia). lia. }
        cbn [lx ly la lb lc ld liter] in EG2. change (2 * euclid_fuel)%nat with 400%nat in EG2. rewrite EG in EG2. injection EG2 as _ EB.
        rewrite E2 in W. cbn [wp] in W. destruct W as (_ & _ & W).
        destruct (Z.lt_ge_cases 0 Y) as [Q1|Q1]; [|exfalso; apply B0; rewrite EB; apply W; lia].
        destruct (Z.lt_ge_cases (X / Y) (2 ^ 31)) as [Q2|Q2]; [|exfalso; apply B0; rewrite EB; apply W; lia].
        destruct (Z.le_gt_cases (X / Y) (X mod Y)) as [Q3|Q3]; [|exfalso; apply B0; rewrite EB; apply W; lia].
        exists (Z.log2 x - 62). rewrite EX, EY. repeat split; lia. }
      pose proof (step_ratio x y ltac:(lia) HS) as R.
      destruct (Nat.eq_dec (bb_len xb) (S (bb_len yb))) as [|NE]; [assumption|exfalso].
      pose proof (Bp_le (S (bb_len yb)) (bb_len xb - 1) ltac:(lia)) as G2. rewrite Bp_S in G2. change W32 with (2 ^ 32) in G2. lia. }
  destruct (dbuf_facts _ _ _ Dx) as (LX & NX & BX & _). destruct (dbuf_facts _ _ _ Dy) as (LY & NY & BY & _).
  assert (3 <= bb_len yb)%nat as Y3.
  { destruct (Nat.le_gt_cases 3 (bb_len yb)) as [|G]; [assumption|exfalso].
    assert (bb_len yb <= 2)%nat as G2 by lia. apply (dbuf_short _ _ _ Dy) in G2. lia. }
  rewrite (core_dirty c xb yb s _ _ LX LY eq_refl eq_refl) by (auto; lia).
  rewrite (refresh_dirty yb y j Dy Ly1).
  assert (Z.rem (liter s) 2 =? 1 = Z.odd (liter s)) as ER.
  { rewrite Z.rem_mod_nonneg, Zmod_odd by lia. destruct (Z.odd (liter s)); reflexivity. }
  destruct LC as [LC|LC].
  - rewrite <- LC at 1. rewrite (refresh_dirty xb x i Dx Lx1). cbn [bind]. rewrite ELx, ELy, LC, Z.eqb_refl, ER.
    rewrite <- Bp_pow2, <- LC, (Z.mod_small x) by exact BX. rewrite Z.sub_diag, Z.add_0_r.
    destruct (Z.odd (liter s)); cbn [follows]; (eexists; split; [reflexivity|]; split; assumption).
  - destruct (refresh_cut xb x i (bb_len yb) Dx LC Y3) as (b' & -> & Db). cbn [bind]. rewrite ER, ELx, ELy, LC.
    rewrite (proj2 (Z.eqb_neq _ _)) by lia.
    destruct (Z.odd (liter s)); cbn [follows]; (eexists; split; [reflexivity|]; split; assumption).
Qed.

(** ** The loop and what follows it *)

Definition gcd_tail (c : cfg) (lbuf rbuf : bitsbuf) : outcome (list Z) :=
  '(lbuf, _) <- (if Nat.ltb 0 (bb_len rbuf) then
     lbuf <- buf_reduce_buf c lbuf rbuf ;;
     x1 <- rd (bb_bits rbuf) 1 ;; x0 <- rd (bb_bits rbuf) 0 ;;
     y1 <- rd (bb_bits lbuf) 1 ;; y0 <- rd (bb_bits lbuf) 0 ;;
     let x := Z.lor (u64 (Z.shiftl x1 32)) x0 in
     let y := Z.lor (u64 (Z.shiftl y1 32)) y0 in
     g <- calc_gcd64 x y ;;
     lbuf <- buf_overwrite lbuf g ;;
     rbuf <- buf_overwrite rbuf 0 ;;
     Ret (lbuf, rbuf)
   else Ret (lbuf, rbuf)) ;; Ret (bb_bits lbuf).

Lemma dbuf_low b v j : dbuf b v j -> v < 2 ^ 64 ->
  Z.lor (u64 (Z.shiftl (nth 1 (bb_bits b) 0) 32)) (nth 0 (bb_bits b) 0) = v.
Proof.
  intros (p & t & E & Hb & _ & L2 & _) Hv. rewrite E, !app_nth1 by lia.
  exact (low64 _ _ _ Hb Hv L2).
Qed.

Lemma dbuf_overwrite b v j g : dbuf b v j -> v < 2 ^ 64 -> 0 <= g < W64 ->
  wp (buf_overwrite b g) (fun r => limbs (bb_bits r) /\ val (bb_bits r) = g + j).
Proof.
  intros Db Hv Hg. destruct (dbuf_facts _ _ _ Db) as (L & N & _ & _ & L2 & V).
  pose proof Db as (p & t & E & Hb & _ & P2 & _). pose proof (proj1 (dbuf_short _ _ _ Db) Hv) as LS.
  unfold buf_overwrite. rewrite (proj2 (Nat.ltb_ge 2 _)) by lia. wstep. wstep. wstep. wstep; [lia|]. wstep.
  wstep; [rewrite length_upd; lia|]. wstep. cbn [bb_bits].
  pose proof (u32_limb g) as U0. pose proof (u32_limb (Z.shiftr g 32)) as U1.
  split; [apply limbs_upd; [apply limbs_upd|]; assumption|].
  rewrite val_upd by (rewrite length_upd; lia). rewrite nth_upd_other by lia.
  rewrite val_upd by lia. rewrite V.
  pose proof (isbuf_vl _ _ _ 2 Hb LS) as E2. cbn [bb_bits] in E2. rewrite !vl_S in E2. change (vl p 0) with 0 in E2.
  rewrite E, !app_nth1 by lia.
  change (Bp 1) with W32 in *. change (Bp 0) with 1 in *.
  pose proof (split32 g) as Sg.
  assert (u32 (Z.shiftr g 32) = Z.shiftr g 32) as ->.
  { apply u32_small. rewrite Z.shiftr_div_pow2 by lia. change (2 ^ 32) with W32.
    split; [apply Z.div_pos; num; lia|]. apply Z.div_lt_upper_bound; num; lia. }
  lia.
Qed.

Lemma tail_exact c lb rb x i y j : dbuf lb x i -> dbuf rb y j -> y < 2 ^ 64 ->
  wp (gcd_tail c lb rb) (fun l => limbs l /\ val l = Z.gcd x y + i).
Proof.
  intros Dx Dy Hy. unfold gcd_tail. destruct (dbuf_facts _ _ _ Dx) as (LX & _ & BX & _ & X2 & VX).
  destruct (dbuf_facts _ _ _ Dy) as (LY & _ & BY & LoY & Y2 & _).
  destruct (Nat.ltb_spec 0 (bb_len rb)) as [G|G].
  - assert (0 < y) as Y0 by (specialize (LoY ltac:(lia)); pose proof (Bp_pos (bb_len rb - 1)); lia).
    wstep. wstep. eapply wp_mono; [apply (dbuf_reduce c lb rb x i y j Dx Dy Y0)|].
    intros lb' Dl. pose proof (Z.mod_pos_bound x y Y0) as MB. destruct (dbuf_facts _ _ _ Dl) as (_ & _ & _ & _ & L2 & _).
    wstep. wstep; [lia|]. wstep. wstep; [lia|]. wstep. wstep; [lia|]. wstep. wstep; [lia|]. cbv zeta.
    rewrite (dbuf_low _ _ _ Dy), (dbuf_low _ _ _ Dl) by lia.
    wstep. eapply wp_mono; [apply calc_gcd64_spec; num; lia|]. intros g ->. rewrite gcd_swap by lia.
    assert (0 <= Z.gcd x y < W64) as GB.
    { pose proof (Z.gcd_nonneg x y). split; [assumption|].
      pose proof (Z.divide_pos_le _ _ Y0 (Z.gcd_divide_r x y)). change W64 with (2 ^ 64). lia. }
    wstep. eapply wp_mono; [apply (dbuf_overwrite _ _ _ _ Dl); auto; lia|]. intros r1 (C1 & C2).
    wstep. eapply wp_mono; [apply (dbuf_overwrite _ _ _ 0 Dy); auto; num; lia|]. intros r2 _.
    wstep. wstep. auto.
  - wstep. wstep. wstep. assert (bb_len rb = O) as Z0 by lia. rewrite Z0, Bp_0 in BY. assert (y = 0) as -> by lia.
    rewrite Z.gcd_0_r, Z.abs_eq by lia. auto.
Qed.

Lemma loop_exact c fuel : forall xb yb x i y j, dbuf xb x i -> dbuf yb y j ->
  follows ('(l, r) <- lehmer_loop fuel c xb yb ;; gcd_tail c l r) (gcd_rounds fuel (dbg c) x i y j)
    (fun l v => limbs l /\ val l = v).
Proof.
  induction fuel as [|fuel IH]; intros xb yb x i y j Dx Dy; cbn [lehmer_loop gcd_rounds];
    (destruct (Z.ltb_spec y (2 ^ 64)) as [H|H];
     [rewrite (proj2 (Nat.ltb_ge 2 _)) by (now apply (dbuf_short _ _ _ Dy)); cbn [bind follows];
      pose proof (tail_exact c xb yb x i y j Dx Dy H) as W; apply wp_inv in W; exact W|]);
    (assert (2 < bb_len yb)%nat as L by (destruct (Nat.lt_ge_cases 2 (bb_len yb)) as [|G]; [assumption|exfalso]; apply (dbuf_short _ _ _ Dy) in G; lia);
     rewrite (proj2 (Nat.ltb_lt 2 _) L)).
  - reflexivity.
  - pose proof (round_exact c xb yb x i y j Dx Dy H) as R.
    destruct (gcd_round (dbg c) x i y j) as [(((x', i'), y'), j')| | | |]; cbn [follows bind] in R |- *.
    + destruct R as ((l, r) & -> & D1 & D2). cbn [bind]. apply IH; assumption.
    + now rewrite R.
    + now rewrite R.
    + now rewrite R.
    + now rewrite R.
Qed.

Lemma isbuf_dbuf size b v : isbuf size b v -> (2 <= size)%nat -> dbuf b v 0.
Proof.
  intros Hb H. pose proof Hb as [E _ _ _ _ _]. exists (bb_bits b), []. rewrite app_nil_r, E. destruct b as [b1 n1]. cbn [bb_bits bb_len val] in *.
  split; [reflexivity|]. split; [exact Hb|]. split; [constructor|]. split; [exact H|]. cbn. lia.
Qed.

(** ** Limb arrays *)

Lemma compare_assert c a b : limbs a -> limbs b ->
  (if dbg c then cmp <- calc_compare c a b ;; massert c (0 <=? cmp) else Ret tt) =
  if dbg c && (is_nil a || is_nil b || raw_less a b) then AssertFail else Ret tt.
Proof.
  intros La Lb. destruct (dbg c) eqn:D; [|reflexivity]. cbn [andb].
  unfold calc_compare, massert. rewrite D. destruct a as [|a0 a']; [reflexivity|]. destruct b as [|b0 b']; [reflexivity|].
  set (a := a0 :: a') in *. set (b := b0 :: b') in *.
  change (is_nil a) with false. change (is_nil b) with false. cbn [negb orb bind]. unfold raw_less, number. rewrite <- !val_positional.
  destruct (Nat.ltb_spec (length a) (length b)) as [H1|H1]; [reflexivity|]. cbn [orb].
  destruct (Nat.ltb_spec (length b) (length a)) as [H2|H2].
  { rewrite (proj2 (Nat.eqb_neq _ _)) by lia. reflexivity. }
  rewrite (proj2 (Nat.eqb_eq (length a) (length b))) by lia. cbn [andb].
  rewrite compare_loop_spec by (auto; lia). rewrite vl_all, (vl_ge b) by lia. cbn [bind]. unfold cmpz.
  destruct (Z.compare_spec (val a) (val b)) as [E|E|E]; cbn [Z.leb].
  - rewrite (proj2 (Z.ltb_ge (val a) (val b))) by lia. reflexivity.
  - rewrite (proj2 (Z.ltb_lt (val a) (val b))) by lia. reflexivity.
  - rewrite (proj2 (Z.ltb_ge (val a) (val b))) by lia. reflexivity.
Qed.

Lemma not_less a b : raw_less a b = false -> (length b <= length a)%nat.
Proof. unfold raw_less. intros H. apply Bool.orb_false_elim in H as [H _]. now apply Nat.ltb_ge in H. Qed.

Lemma asserts_exact sx sy xb yb x y : isbuf sx xb x -> isbuf sy yb y ->
  negb (Nat.leb 2 (bb_len xb)) || negb (Nat.leb 2 (bb_len yb)) || negb (Nat.leb (bb_len yb) (bb_len xb)) =
  (y <? 2 ^ 32) || (limbs_of x <? limbs_of y).
Proof.
  intros Hx Hy. pose proof Hx as [_ _ _ _ Bx _]. pose proof Hy as [_ _ _ _ By Ly].
  destruct (Nat.leb_spec 2 (bb_len yb)) as [A|A]; cbn [negb].
  - specialize (Ly ltac:(lia)). pose proof (Bp_le 1 (bb_len yb - 1) ltac:(lia)) as G. change (Bp 1) with (2 ^ 32) in G.
    rewrite (proj2 (Z.ltb_ge y (2 ^ 32))) by lia. rewrite Bool.orb_false_r. cbn [orb].
    change (2 ^ 32) with 4294967296 in G.
    destruct (buf_limbs _ _ _ Hy ltac:(lia)) as (-> & _).
    destruct (Z.eq_dec x 0) as [->|X0].
    + assert (bb_len xb = O) as E.
      { pose proof Hx as [_ _ _ _ _ Lx]. destruct (bb_len xb) eqn:E; [reflexivity|]. specialize (Lx ltac:(lia)).
        pose proof (Bp_pos (S n - 1)). lia. }
      rewrite E. change (limbs_of 0) with 1. symmetry. apply Z.ltb_lt. lia.
    + destruct (buf_limbs _ _ _ Hx ltac:(lia)) as (-> & _).
      destruct (Nat.leb_spec 2 (bb_len xb)), (Nat.leb_spec (bb_len yb) (bb_len xb)),
        (Z.ltb_spec (Z.of_nat (bb_len xb)) (Z.of_nat (bb_len yb))); cbn [negb orb]; try reflexivity; lia.
  - rewrite Bool.orb_true_r. cbn [orb]. rewrite (proj2 (Z.ltb_lt y (2 ^ 32))); [reflexivity|].
    pose proof (Bp_le (bb_len yb) 1 ltac:(lia)) as G. change (Bp 1) with (2 ^ 32) in G. lia.
Qed.

(** A first operand of at most one limb. *)
Lemma loop_short c fuel xb yb sx sy x y : (sx < 2)%nat -> (2 <= sy)%nat -> isbuf sx xb x -> isbuf sy yb y -> dbg c = false ->
  follows ('(l, r) <- lehmer_loop fuel c xb yb ;; gcd_tail c l r)
    (if (0 <? y) && (y <? 2 ^ 64) then Undef OutOfBounds else gcd_rounds fuel (dbg c) x 0 y 0)
    (fun l v => limbs l /\ val l = v).
Proof.
  intros S1 S2 Hx Hy D. rewrite D. pose proof Hx as [SX LX VX NX BX _]. pose proof Hy as [SY _ _ _ BY LoY].
  assert (x < 2 ^ 64) as X64. { apply (buf_short _ _ _ Hx). lia. }
  destruct (Z.ltb_spec y (2 ^ 64)) as [H|H].
  - assert (lehmer_loop fuel c xb yb = Ret (xb, yb)) as ->.
    { destruct fuel; cbn [lehmer_loop]; rewrite (proj2 (Nat.ltb_ge 2 _)) by (now apply (buf_short _ _ _ Hy)); reflexivity. }
    cbn [bind]. unfold gcd_tail.
    destruct (Z.ltb_spec 0 y) as [P|P]; cbn [andb].
    + assert (1 <= bb_len yb)%nat as P1 by apply (buf_limbs _ _ _ Hy P). rewrite (proj2 (Nat.ltb_lt 0 _)) by lia.
      cbn [follows].
      assert (exists lb, buf_reduce_buf c xb yb = Ret lb /\ length (bb_bits lb) = sx) as (lb & -> & E).
      { destruct (Nat.le_gt_cases (bb_len yb) sx) as [G|G].
        - pose proof (reduce_buf_spec c sx sy xb yb x y Hx Hy P G) as W. apply wp_inv in W. destruct W as (lb & E & [E' _ _ _ _ _] & _). eauto.
        - unfold buf_reduce_buf. rewrite (proj2 (Nat.leb_gt _ _)) by lia. eauto. }
      cbn [bind].
      rewrite !rd_ok by lia. cbn [bind].
      unfold rd. rewrite (proj2 (nth_error_None (bb_bits lb) 1)) by lia. reflexivity.
    + assert (y = 0) as -> by lia. assert (bb_len yb = O) as Z0.
      { destruct (bb_len yb) as [|k] eqn:E; [reflexivity|]. specialize (LoY ltac:(lia)). pose proof (Bp_pos (S k - 1)). lia. }
      rewrite Z0. change (Nat.ltb 0 0) with false. cbn [bind].
      assert (gcd_rounds fuel false x 0 0 0 = Ret x) as ->.
      { destruct fuel; cbn [gcd_rounds]; change (0 <? 2 ^ 64) with true; cbn beta iota; rewrite Z.gcd_0_r; f_equal; lia. }
      cbn [follows]. eauto.
  - rewrite Bool.andb_false_r.
    assert (2 < bb_len yb)%nat as L by (destruct (Nat.lt_ge_cases 2 (bb_len yb)) as [|G]; [assumption|exfalso]; apply (buf_short _ _ _ Hy) in G; lia).
    destruct fuel; cbn [lehmer_loop gcd_rounds]; rewrite (proj2 (Nat.ltb_lt 2 _) L), (proj2 (Z.ltb_ge _ _) H); [reflexivity|].
    unfold gcd_round. rewrite (proj2 (Z.ltb_lt _ _) X64). cbn [bind follows].
    unfold lehmer_round, extract_digits. cbv zeta. rewrite !massert_pick, D. cbn [andb].
    destruct (bb_len xb) as [|[|k]] eqn:E; [reflexivity| |lia].
    assert (rdz (bb_bits xb) (Z.of_nat 1 - 1) = Ret (nth 0 (bb_bits xb) 0)) as -> by (apply (rd_ok _ 0); lia).
    reflexivity.
Qed.

Lemma calc_gcd_exact fuel c lv rv : limbs lv -> limbs rv -> dbg c && raw_less lv rv = false -> (3 <= length rv)%nat ->
  follows (calc_gcd fuel c lv rv)
    (if dbg c && ((val rv <? 2 ^ 32) || (limbs_of (val lv) <? limbs_of (val rv))) then AssertFail
     else if Nat.ltb (length lv) 2 && (0 <? val rv) && (val rv <? 2 ^ 64) then Undef OutOfBounds
     else gcd_rounds fuel (dbg c) (val lv) 0 (val rv) 0)
    (fun l v => limbs l /\ val l = v).
Proof.
  intros Ll Lr RL L3. unfold calc_gcd, calc_gcd_buf. rewrite !massert_pick, compare_assert by assumption.
  assert (dbg c && negb (Nat.leb 2 (length lv)) = false /\ dbg c && (is_nil lv || is_nil rv || raw_less lv rv) = false) as (K1 & K2).
  { destruct (dbg c) eqn:D; [|auto]. cbn [andb] in *. apply not_less in RL as LL. rewrite RL.
    rewrite (proj2 (Nat.leb_le 2 (length lv))) by lia. destruct lv; [cbn in LL; lia|]. destruct rv; [cbn in L3; lia|]. auto. }
  rewrite K1, K2. rewrite (proj2 (Nat.leb_le 2 (length rv))) by lia. rewrite Bool.andb_false_r. cbn [bind].
  pose proof (buf_of_v_spec (length lv) lv Ll ltac:(apply val_bound, Ll)) as W. apply wp_inv in W. destruct W as (xb & E1 & Hx).
  pose proof (buf_of_v_spec (length rv) rv Lr ltac:(apply val_bound, Lr)) as W. apply wp_inv in W. destruct W as (yb & E2 & Hy).
  rewrite E1, E2. cbn [bind]. rewrite !massert_pick. rewrite <- (asserts_exact _ _ _ _ _ _ Hx Hy).
  destruct (dbg c && negb (Nat.leb 2 (bb_len xb))) eqn:A1.
  { apply andb_prop in A1 as [-> ->]. reflexivity. }
  destruct (dbg c && negb (Nat.leb 2 (bb_len yb))) eqn:A2.
  { apply andb_prop in A2 as [-> ->]. rewrite Bool.orb_true_r. reflexivity. }
  destruct (dbg c && negb (Nat.leb (bb_len yb) (bb_len xb))) eqn:A3.
  { apply andb_prop in A3 as [-> ->]. rewrite Bool.orb_true_r. reflexivity. }
  assert (dbg c && (negb (Nat.leb 2 (bb_len xb)) || negb (Nat.leb 2 (bb_len yb)) || negb (Nat.leb (bb_len yb) (bb_len xb))) = false) as ->.
  { destruct (dbg c); [|reflexivity]. cbn [andb] in *. now rewrite A1, A2, A3. }
  assert (forall R, follows ('(l, r) <- lehmer_loop fuel c xb yb ;; gcd_tail c l r) R (fun l v => limbs l /\ val l = v) ->
    follows ('(lbuf, _) <- ('(lbuf, rbuf) <- lehmer_loop fuel c xb yb ;;
      if Nat.ltb 0 (bb_len rbuf) then
        lbuf <- buf_reduce_buf c lbuf rbuf ;;
        x1 <- rd (bb_bits rbuf) 1 ;; x0 <- rd (bb_bits rbuf) 0 ;;
        y1 <- rd (bb_bits lbuf) 1 ;; y0 <- rd (bb_bits lbuf) 0 ;;
        let x := Z.lor (u64 (Z.shiftl x1 32)) x0 in
        let y := Z.lor (u64 (Z.shiftl y1 32)) y0 in
        g <- calc_gcd64 x y ;;
        lbuf <- buf_overwrite lbuf g ;;
        rbuf <- buf_overwrite rbuf 0 ;;
        Ret (lbuf, rbuf)
      else Ret (lbuf, rbuf)) ;; Ret (bb_bits lbuf)) R (fun l v => limbs l /\ val l = v)) as K.
  { intros R. destruct (lehmer_loop fuel c xb yb) as [(l', r')| | | |]; exact (fun H => H). }
  apply K. clear K.
  destruct (Nat.ltb_spec (length lv) 2) as [G|G]; cbn [andb].
  - assert (dbg c = false) as D by (destruct (dbg c); [rewrite (proj2 (Nat.leb_gt 2 (length lv)) G) in K1; discriminate|reflexivity]).
    apply (loop_short c fuel xb yb (length lv) (length rv)); auto; lia.
  - apply loop_exact; eapply isbuf_dbuf; eauto; lia.
Qed.

(** ** The public functions *)

Lemma follows_mag c o z : follows o z (fun l v => limbs l /\ val l = v) ->
  denotes (bits <- o ;; bi_of_mag c bits false) z.
Proof.
  destruct z as [v|e|u| |]; cbn [follows denotes]; try (intros ->; reflexivity).
  intros (l & -> & L & V). cbn [bind]. apply returns_wp. now apply mag_result.
Qed.

Lemma rem_zero_top c lv r0 r1 : limb r0 -> r1 = 0 -> dbg c = true -> (2 <= length lv)%nat ->
  calc_rem c lv [r0; r1] = Undef ShiftRange.
Proof.
  intros _ -> D L. unfold calc_rem, calc_div_core, calc_div_core_fuel, massert. rewrite D.
  destruct lv as [|a [|b l]]; [cbn in L; lia|cbn in L; lia|]. change (is_nil (@nil Z)) with true. rewrite Bool.orb_true_r. reflexivity.
Qed.

Lemma gcd_bits_exact fuel c lv rv : limbs lv -> limbs rv -> denotes (bi_gcd_bits fuel c lv rv) (raw_gcd fuel c lv rv).
Proof.
  intros Ll Lr. unfold bi_gcd_bits, raw_gcd. cbv zeta. rewrite compare_assert by assumption.
  destruct (dbg c && raw_less lv rv) eqn:RL.
  { apply andb_prop in RL as [-> ->]. rewrite Bool.orb_true_r. reflexivity. }
  unfold number. rewrite <- !val_positional.
  destruct rv as [|r0 [|r1 [|r2 rv]]].
  - destruct (dbg c) eqn:D; [cbn [andb is_nil]; rewrite Bool.orb_true_r; reflexivity|].
    cbn [andb bind length Nat.eqb].
    apply follows_mag. cbn [follows].
    pose proof (buf_of_v_spec (length lv) lv Ll ltac:(apply val_bound, Ll)) as W. apply wp_inv in W. destruct W as (xb & E1 & Hx).
    exists (bb_bits xb). destruct Hx as [_ LX VX _ _ _]. split; [|auto].
    unfold calc_gcd, calc_gcd_buf. rewrite !massert_pick, D. cbn [andb bind]. rewrite E1. cbn [bind].
    change (buf_of_v (length (@nil Z)) []) with (Ret (Buf [] 0)). cbn [bind]. rewrite !massert_pick, D. cbn [andb].
    destruct fuel; reflexivity.
  - cbn [length Nat.eqb]. inversion Lr as [|u v Hu _]; subst u v.
    change (val [r0]) with (r0 + W32 * 0). rewrite Z.mul_0_r, Z.add_0_r.
    change (rd [r0] 0) with (Ret r0).
    destruct lv as [|d lv].
    + destruct (dbg c) eqn:D; [cbn in RL; discriminate|]. cbn [andb bind]. unfold calc_rem_u, massert. rewrite D.
      cbn [is_nil length for_down bind]. change (u32 0) with 0. unfold limb in Hu.
      rewrite calc_gcd32_spec by lia. cbn [bind denotes]. rewrite Z.gcd_0_r, Z.abs_eq by lia.
      apply returns_wp, bi_of_uint32_spec. unfold UINT_MAX. num; lia.
    + assert (dbg c && (is_nil (d :: lv) || is_nil [r0] || raw_less (d :: lv) [r0]) = false) as ->.
      { cbn [is_nil orb]. exact RL. }
      set (l := d :: lv) in *. assert (l <> []) as Nl by discriminate. cbn [bind].
      destruct (Z.eqb_spec r0 0) as [->|N0].
      * cbn [denotes]. assert (calc_rem_u c l 0 = Throw DivideByZero) as ->.
        { unfold calc_rem_u. rewrite massert_pick. cbn [is_nil negb andb l]. rewrite Bool.andb_false_r.
          change (length l) with (S (length lv)). cbn [for_down]. rewrite (rd_ok l (length lv)) by (cbn [length l]; lia). reflexivity. }
        reflexivity.
      * unfold limb in Hu. cbn [denotes]. apply returns_wp. wstep. eapply wp_mono; [apply calc_rem_u_spec; auto; lia|]. cbn beta. intros t ->.
        assert (0 < r0) as Pr by lia. pose proof (Z.mod_pos_bound (val l) r0 Pr) as MB.
        rewrite calc_gcd32_spec by lia. cbn [bind]. rewrite gcd_swap by lia. apply bi_of_uint32_spec.
        pose proof (Z.gcd_nonneg (val l) r0). pose proof (Z.divide_pos_le _ _ Pr (Z.gcd_divide_r (val l) r0)). unfold UINT_MAX. num; lia.
  - cbn [length Nat.eqb].
    assert (dbg c && (is_nil lv || is_nil [r0; r1] || raw_less lv [r0; r1]) = false /\ (dbg c = true -> (2 <= length lv)%nat)) as (K1 & K2).
    { destruct (dbg c) eqn:D; [|split; [reflexivity|discriminate]]. cbn [andb] in *. pose proof (not_less _ _ RL) as LL. cbn [length] in LL.
      rewrite RL. destruct lv; [cbn in LL; lia|]. cbn [is_nil orb]. auto. }
    rewrite K1. cbn [bind]. inversion Lr as [|u v Hu Hv]; subst u v. inversion Hv as [|u v Hu' _]; subst u v.
    destruct (Z.eqb_spec r1 0) as [->|N1].
    { cbn [denotes]. assert (calc_rem c lv [r0; 0] = Undef ShiftRange) as ->; [|reflexivity].
      destruct (dbg c) eqn:D; [apply rem_zero_top; auto|].
      unfold calc_rem, calc_div_core, calc_div_core_fuel, massert. rewrite D. reflexivity. }
    assert (top_nz [r0; r1]) as Tr by exact N1.
    destruct (Nat.ltb_spec (length lv) 2) as [G|G].
    { cbn [denotes]. destruct (dbg c) eqn:D; [specialize (K2 eq_refl); lia|].
      assert (calc_rem c lv [r0; r1] = Ret lv) as ->.
      { unfold calc_rem, calc_div_core, calc_div_core_fuel. rewrite !massert_pick, D. cbn [andb length].
        change (rdz [r0; r1] (Z.of_nat 2 - 1)) with (Ret r1). change (rd [r0; r1] (2 - 2)) with (Ret r0). change (Nat.ltb 1 2) with true. change (Nat.ltb 2 2) with false. cbn [bind].
        assert (exists p, (if 0 <? leading_zeros r1 then
             h1 <- shl32 r1 (leading_zeros r1) ;; h2 <- shr32 r0 (32 - leading_zeros r1) ;;
             l1 <- shl32 r0 (leading_zeros r1) ;; l2 <- shr32 0 (32 - leading_zeros r1) ;;
             Ret (Z.lor h1 h2, Z.lor l1 l2) else Ret (r1, r0)) = Ret p) as ((p & q) & ->).
        { destruct (Z.ltb_spec 0 (leading_zeros r1)) as [P|P]; [|eauto].
          assert (0 <= leading_zeros r1 < 32) as LZ by (apply leading_zeros_spec; unfold limb in *; lia).
          unfold shl32, shr32.
          rewrite !(proj2 (Z.leb_le _ _)) by lia. rewrite !(proj2 (Z.ltb_lt _ _)) by lia. cbn [andb bind]. eauto. }
        cbn [bind]. replace (length lv + 1 - 2)%nat with O by lia. reflexivity. }
      cbn [bind]. change (rd [r0; r1] 1) with (Ret r1). change (rd [r0; r1] 0) with (Ret r0). cbn [bind].
      unfold rd. rewrite (proj2 (nth_error_None lv 1)) by lia. reflexivity. }
    cbn [denotes]. apply returns_wp. set (rv := [r0; r1]) in *.
    assert (rv <> []) as Nr by discriminate.
    wstep. eapply wp_mono; [apply calc_rem_spec; auto|]. intros t (T1 & T2 & T3).
    change (rd rv 0) with (Ret r0). change (rd rv 1) with (Ret r1). cbn [bind].
    wstep. wstep; [lia|]. wstep. wstep; [lia|].
    change 32 with kcbitUint. rewrite !lor_two by (auto using limbs_nth).
    pose proof (top_nz_bound rv Lr Nr Tr) as TB. pose proof (val_bound rv Lr) as VB. change (Bp (length rv - 1)) with W32 in TB. change (Bp (length rv)) with (2 ^ 64) in VB.
    assert (0 < val rv) as Pr by (num; lia).
    pose proof (Z.mod_pos_bound (val lv) (val rv) Pr) as MB.
    assert (nth 0 t 0 + W32 * nth 1 t 0 = val lv mod val rv) as ET.
    { rewrite <- T3. change (2 ^ 64) with (Bp 2) in VB.
      destruct (upper_zero t 2 T2 ltac:(lia) ltac:(lia)) as (_ & E). rewrite !vl_S in E.
      change (vl t 0) with 0 in E. change (Bp 1) with W32 in E. change (Bp 0) with 1 in E. lia. }
    assert (r0 + W32 * r1 = val rv) as ER by (unfold rv; cbn [val]; ring).
    rewrite ET, ER. wstep. eapply wp_mono; [apply calc_gcd64_spec; change W64 with (2 ^ 64); lia|].
    cbn beta. intros g ->. rewrite gcd_swap by lia. apply bi_of_uint64_spec. change W64 with (2 ^ 64).
    pose proof (Z.gcd_nonneg (val lv) (val rv)). pose proof (Z.divide_pos_le _ _ Pr (Z.gcd_divide_r (val lv) (val rv))). lia.
  - set (l' := r0 :: r1 :: r2 :: rv) in *. assert (3 <= length l')%nat as L3 by (cbn [length l']; lia).
    replace (Nat.eqb (length l') 1) with false by reflexivity. replace (Nat.eqb (length l') 2) with false by reflexivity.
    assert (dbg c && (is_nil lv || is_nil l' || raw_less lv l') = false) as ->.
    { destruct (dbg c) eqn:D; [|reflexivity]. cbn [andb] in *. pose proof (not_less _ _ RL) as LL. rewrite RL.
      destruct lv; [cbn [length] in LL; lia|]. reflexivity. }
    cbn [bind]. apply follows_mag. now apply calc_gcd_exact.
Qed.

Theorem gcd_exact c a b x y fuel : represents a x -> represents b y ->
  denotes (bi_gcd fuel c a b) (actual_gcd fuel (dbg c) x y).
Proof.
  intros Ha Hb. unfold actual_gcd.
  destruct (Z.lt_ge_cases (Z.min (Z.abs x) (Z.abs y)) (2 ^ 64)) as [H|H].
  { assert (gcd_rounds fuel (dbg c) (Z.max (Z.abs x) (Z.abs y)) 0 (Z.min (Z.abs x) (Z.abs y)) 0 = Ret (Z.gcd x y)) as ->.
    { destruct fuel; cbn [gcd_rounds]; rewrite (proj2 (Z.ltb_lt _ _) H), Z.add_0_r; f_equal; rewrite <- (gcd_abs2 x y);
        (destruct (Z.le_gt_cases (Z.abs x) (Z.abs y)); [rewrite Z.max_r, Z.min_l, Z.gcd_comm by lia|rewrite Z.max_l, Z.min_r by lia]; reflexivity). }
    now apply gcd_small. }
  destruct (val_parts a x Ha) as [(A1 & A2 & A3)|(A1 & A2 & A3 & A4 & A5)]; [num; lia|].
  destruct (val_parts b y Hb) as [(B1 & B2 & B3)|(B1 & B2 & B3 & B4 & B5)]; [num; lia|].
  rewrite <- A4, <- B4 in *.
  assert (forall l l', limbs l -> limbs l' -> l <> [] -> l' <> [] -> top_nz l -> top_nz l' -> val l' <= val l -> 2 ^ 64 <= val l' ->
    denotes (bi_gcd_bits fuel c l l') (gcd_rounds fuel (dbg c) (val l) 0 (val l') 0)) as K.
  { intros l l' L1 L2 N1 N2 T1 T2 V V64.
    assert (3 <= length l')%nat as L3.
    { destruct (Nat.le_gt_cases 3 (length l')) as [|G]; [assumption|exfalso]. pose proof (val_bound l' L2) as B.
      pose proof (Bp_le (length l') 2 ltac:(lia)) as G'. change (Bp 2) with (2 ^ 64) in G'. lia. }
    pose proof (gcd_bits_exact fuel c l l' L1 L2) as D. unfold raw_gcd in D. cbv zeta in D.
    unfold raw_less, number in D. rewrite <- !val_positional in D.
    assert (length l' <= length l)%nat as LL.
    { destruct (Nat.le_gt_cases (length l') (length l)) as [|G]; [assumption|exfalso]. pose proof (val_bound l L1) as B.
      pose proof (top_nz_bound l' L2 N2 T2) as TB. pose proof (Bp_le (length l) (length l' - 1) ltac:(lia)). lia. }
    rewrite (proj2 (Nat.ltb_ge (length l) (length l'))), (proj2 (Z.ltb_ge (val l) (val l'))) in D by lia.
    rewrite !Bool.andb_false_r in D. cbn [orb] in D.
    rewrite (proj2 (Nat.ltb_ge (length l) 2)) in D by lia. cbn [andb] in D.
    rewrite (proj2 (Z.ltb_ge (val l') (2 ^ 32))) in D by (change (2 ^ 64) with 18446744073709551616 in V64; change (2 ^ 32) with 4294967296; lia).
    assert (limbs_of (val l) <? limbs_of (val l') = false) as E.
    { apply Z.ltb_ge. unfold limbs_of. rewrite !Z.abs_eq by lia. apply Z.add_le_mono_r, Z.div_le_mono; [lia|]. now apply Z.log2_le_mono. }
    rewrite E in D. cbn [orb] in D. rewrite Bool.andb_false_r in D.
    destruct l' as [|r0 [|r1 [|r2 rv]]]; try (cbn [length] in L3; lia). exact D. }
  unfold bi_gcd. rewrite (assert_valid_ok c a x Ha), (assert_valid_ok c b y Hb). cbn [bind].
  rewrite (is_nil_ne _ A1), (is_nil_ne _ B1). cbn [andb]. rewrite calc_compare_spec by auto. cbn [bind]. unfold cmpz.
  destruct (Z.compare_spec (val (bits_of a)) (val (bits_of b))) as [E|E|E].
  - change (0 <? 0) with false. cbn beta iota. rewrite Z.max_l, Z.min_r in * by lia. apply K; auto; lia.
  - change (-1 <? 0) with true. cbn beta iota. rewrite Z.max_r, Z.min_l in * by lia. apply K; auto; lia.
  - change (1 <? 0) with false. cbn beta iota. rewrite Z.max_l, Z.min_r in * by lia. apply K; auto; lia.
Qed.

(** ** More rounds *)

Lemma rounds_more debug fuel : forall x i y j n, gcd_rounds fuel debug x i y j <> NoFuel -> (fuel <= n)%nat ->
  gcd_rounds n debug x i y j = gcd_rounds fuel debug x i y j.
Proof.
  induction fuel as [|fuel IH]; intros x i y j n H L.
  - destruct n; cbn [gcd_rounds] in *; destruct (y <? 2 ^ 64); try reflexivity; now destruct H.
  - destruct n as [|n]; [lia|]. cbn [gcd_rounds] in *. destruct (y <? 2 ^ 64); [reflexivity|].
    destruct (gcd_round debug x i y j) as [(((x', i'), y'), j')| | | |]; cbn [bind] in *; try reflexivity. apply IH; [exact H|lia].
Qed.

Lemma gcd_more debug fuel n x y : actual_gcd fuel debug x y <> NoFuel -> (fuel <= n)%nat ->
  actual_gcd n debug x y = actual_gcd fuel debug x y.
Proof. apply rounds_more. Qed.

Lemma round_release x i y j : gcd_round false x i y j = Undef OutOfBounds /\ x < 2 ^ 64 \/
  2 ^ 64 <= x /\ exists r, gcd_round false x i y j = Ret r.
Proof.
  unfold gcd_round. cbn [andb]. destruct (Z.ltb_spec x (2 ^ 64)); [auto|right]. split; [assumption|].
  destruct (cofactor x y) as (n & b). destruct (b =? 0); eauto.
Qed.
Lemma round_debug x i y j : gcd_round true x i y j = AssertFail \/ exists r, gcd_round true x i y j = Ret r.
Proof.
  unfold gcd_round. destruct (x <? 2 ^ 64); [auto|]. destruct (true && _); [auto|]. destruct (cofactor x y) as (n & b). destruct (b =? 0); eauto.
Qed.

Lemma rounds_undef debug fuel : forall x i y j, (exists u, gcd_rounds fuel debug x i y j = Undef u) <->
  debug = false /\ exists n x' i' y' j', (n < fuel)%nat /\ x' < 2 ^ 64 <= y' /\ gcd_after n x i y j = Some (x', i', y', j').
Proof.
  induction fuel as [|fuel IH]; intros x i y j; cbn [gcd_rounds]; destruct (Z.ltb_spec y (2 ^ 64)) as [H|H].
  1-3: split; [intros (u & E); discriminate|]; intros (_ & n & x' & i' & y' & j' & L & R & E); try lia.
  { exfalso. destruct n; cbn [gcd_after] in E; [injection E; intros; subst; lia|]. rewrite (proj2 (Z.ltb_lt _ _) H) in E. discriminate. }
  destruct debug.
  { split; [|intros (E & _); discriminate]. intros (u & E). destruct (round_debug x i y j) as [E'|((((x', i'), y'), j') & E')]; rewrite E' in E; cbn [bind] in E; [discriminate|].
    destruct (proj1 (IH x' i' y' j')) as (K & _); [eauto|discriminate]. }
  destruct (round_release x i y j) as [(E' & R)|(R & (((x', i'), y'), j') & E')]; rewrite E'; cbn [bind].
  - split; [intros _|eauto]. split; [reflexivity|]. exists O, x, i, y, j. cbn [gcd_after]. repeat split; auto; lia.
  - rewrite IH. split; intros (_ & n & x1 & i1 & y1 & j1 & L & A & E); (split; [reflexivity|]).
    + exists (S n), x1, i1, y1, j1. cbn [gcd_after]. rewrite (proj2 (Z.ltb_ge _ _) H), E'. repeat split; auto; lia.
    + destruct n; cbn [gcd_after] in E; [injection E; intros; subst; lia|]. rewrite (proj2 (Z.ltb_ge _ _) H), E' in E.
      exists n, x1, i1, y1, j1. repeat split; auto; lia.
Qed.
