(** Correctness of the BigInteger arithmetic and comparison operators. *)
From Verif Require Import Facts Spec AddSubFacts SquMulFacts DivRemFacts DivCoreFacts SpecFacts.
From Verif Require Import CalcAddSub CalcSquMul CalcDivRem BigInt.

Ltac Zify.zify_post_hook ::= idtac.

(** The signed value of a limb array with a given sign field. *)
Definition parts (l : list Z) (s z : Z) : Prop := repr_view (Big s l) z.

Lemma repr_parts b z : represents b z -> parts (bits_of b) (sign_of b) z.
Proof. intros H. unfold parts. destruct b. cbn. now apply represents_view. Qed.

Lemma parts_neg l s z : parts l s z -> parts l (- s) (- z).
Proof.
  unfold parts. intros H.
  inversion H as [z' Hz E1 E2|s' l' Hs Hne Hl Ht Hv E1 E2]; subst.
  - constructor. num; lia.
  - replace (- (s * val l)) with (- s * val l) by ring. constructor; auto. lia.
Qed.

Lemma parts_sign l s z : parts l s z -> INT_MIN < s <= INT_MAX /\ (s <? 0) = (z <? 0).
Proof.
  intros H. inversion H as [z' Hz E1 E2|s' l' Hs Hne Hl Ht Hv E1 E2]; subst.
  - auto.
  - split; [destruct Hs; subst; num; lia|].
    destruct Hs; subst.
    + rewrite !(proj2 (Z.ltb_ge _ _)) by lia. reflexivity.
    + rewrite !(proj2 (Z.ltb_lt _ _)) by lia. reflexivity.
Qed.

Lemma mag_result c l neg z :
  limbs l -> (if neg : bool then - val l else val l) = z ->
  wp (bi_of_mag c l neg) (fun r => represents r z).
Proof. intros H <-. now apply bi_of_mag_spec. Qed.

Ltac inv_parts H :=
  let z := fresh "z" in let Hz := fresh "Hz" in
  let s' := fresh "s" in let l' := fresh "l" in
  let Hs := fresh "Hs" in let Hne := fresh "Hne" in let Hl := fresh "Hl" in
  let Ht := fresh "Ht" in let Hv := fresh "Hv" in
  let E1 := fresh "E" in let E2 := fresh "E" in
  unfold parts in H; inversion H as [z Hz E1 E2|s' l' Hs Hne Hl Ht Hv E1 E2]; clear H; subst.

Lemma is_nil_ne (l : list Z) : l <> [] -> is_nil l = false.
Proof. destruct l; [congruence|reflexivity]. Qed.

Ltac nils :=
  repeat match goal with H : ?l <> [] |- context [is_nil ?l] => rewrite (is_nil_ne l H) end;
  cbn [is_nil andb].

Ltac signs :=
  repeat match goal with H : ?s = 1 \/ ?s = -1 |- _ => destruct H; [subst s|subst s] end.

Lemma abs_limb z : INT_MIN < z <= INT_MAX -> limb (Z.abs z).
Proof. intros. unfold limb. num; lia. Qed.

Lemma abs_small_lt z l : INT_MIN < z <= INT_MAX -> 2147483648 <= val l -> Z.abs z <= val l.
Proof. num; lia. Qed.

Lemma bi_add_parts_spec c l s x l' s' y :
  parts l s x -> parts l' s' y -> (y <> 0 -> (x <? 0) = (y <? 0)) ->
  wp (bi_add_parts c l s l' s') (fun r => represents r (x + y)).
Proof.
  intros Hx Hy Hs. unfold bi_add_parts.
  pose proof (parts_sign _ _ _ Hx) as (Hsr & Hsx). pose proof (parts_sign _ _ _ Hy) as (Hsr' & Hsy).
  assert (y = 0 \/ y <> 0 /\ (x <? 0) = (y <? 0)) as Hs'
    by (destruct (Z.eq_dec y 0); auto).
  clear Hs; rename Hs' into Hs.
  inv_parts Hx; inv_parts Hy; nils.
  - wstep. eapply wp_chk64; [num; lia|]. apply bi_of_int64_spec. num; lia.
  - wstep. eapply wp_abs32; [num; lia|]. wstep.
    eapply wp_mono; [apply calc_add_u_spec; auto using abs_limb|].
    intros r (A & B & C). apply mag_result; auto. rewrite C.
    destruct Hs as [Hs|(_ & Hs)]; [signs; lia|].
    destruct (Z.ltb_spec x 0) as [H1|H1]; symmetry in Hs.
    + apply Z.ltb_lt in Hs. signs; lia.
    + apply Z.ltb_ge in Hs. signs; lia.
  - wstep. eapply wp_abs32; [num; lia|]. wstep.
    eapply wp_mono; [apply calc_add_u_spec; auto using abs_limb|].
    intros r (A & B & C). apply mag_result; auto. rewrite C, Hsx.
    destruct Hs as [Hs|(_ & Hs)].
    { subst y. signs.
      - rewrite (proj2 (Z.ltb_ge _ _)) by lia. lia.
      - rewrite (proj2 (Z.ltb_lt _ _)) by lia. lia. }
    rewrite Hs. destruct (Z.ltb_spec y 0) as [H1|H1].
    + apply Z.ltb_lt in Hs. signs; lia.
    + apply Z.ltb_ge in Hs. signs; lia.
  - assert (s = s') as <-.
    { destruct Hs as [Hs|(_ & Hs)]; [signs; lia|].
      rewrite <- Hsx, <- Hsy in Hs.
      signs; try reflexivity; exfalso; cbn in Hs; congruence. }
    clear Hs Hsx Hsy.
    destruct (Nat.ltb_spec (length l) (length l')); wstep.
    all: eapply wp_mono; [apply calc_add_spec; auto; lia|].
    all: intros r (A & B & C); apply mag_result; auto; rewrite C.
    all: signs; cbn [Z.ltb Z.compare]; lia.
Qed.

Lemma bi_sub_parts_spec c l s x l' s' y :
  parts l s x -> parts l' s' y -> (y <> 0 -> (x <? 0) = (y <? 0)) ->
  wp (bi_sub_parts c l s l' s') (fun r => represents r (x - y)).
Proof.
  intros Hx Hy Hs. unfold bi_sub_parts.
  pose proof (parts_sign _ _ _ Hx) as (Hsr & Hsx). pose proof (parts_sign _ _ _ Hy) as (Hsr' & Hsy).
  assert (y = 0 \/ y <> 0 /\ (x <? 0) = (y <? 0)) as Hs'
    by (destruct (Z.eq_dec y 0); auto).
  clear Hs; rename Hs' into Hs.
  inv_parts Hx; inv_parts Hy; nils.
  - wstep. eapply wp_chk64; [num; lia|]. apply bi_of_int64_spec. num; lia.
  - wstep. eapply wp_abs32; [num; lia|]. wstep.
    eapply wp_mono; [apply calc_sub_u_spec; auto using abs_limb, abs_small_lt|].
    intros r (A & B & C). apply mag_result; auto. rewrite C.
    destruct Hs as [Hs|(_ & Hs)]; [signs; lia|].
    destruct (Z.ltb_spec x 0) as [H1|H1]; symmetry in Hs.
    + apply Z.ltb_lt in Hs. rewrite (proj2 (Z.leb_gt _ _)) by lia. signs; lia.
    + apply Z.ltb_ge in Hs. rewrite (proj2 (Z.leb_le _ _)) by lia. signs; lia.
  - wstep. eapply wp_abs32; [num; lia|]. wstep.
    eapply wp_mono; [apply calc_sub_u_spec; auto using abs_limb, abs_small_lt|].
    intros r (A & B & C). apply mag_result; auto. rewrite C, Hsx.
    destruct Hs as [Hs|(_ & Hs)].
    { subst y. signs.
      - rewrite (proj2 (Z.ltb_ge _ _)) by lia. lia.
      - rewrite (proj2 (Z.ltb_lt _ _)) by lia. lia. }
    rewrite Hs. destruct (Z.ltb_spec y 0) as [H1|H1].
    + apply Z.ltb_lt in Hs. signs; lia.
    + apply Z.ltb_ge in Hs. signs; lia.
  - assert (s = s') as <-.
    { destruct Hs as [Hs|(_ & Hs)]; [signs; lia|].
      rewrite <- Hsx, <- Hsy in Hs.
      signs; try reflexivity; exfalso; cbn in Hs; congruence. }
    clear Hs Hsx Hsy.
    wstep. rewrite calc_compare_spec by auto. wstep. unfold cmpz.
    destruct (Z.compare_spec (val l) (val l')) as [E|E|E]; cbn [Z.ltb Z.compare]; wstep.
    all: eapply wp_mono; [apply calc_sub_spec; auto; try lia|].
    all: try (destruct (Nat.le_gt_cases (length l') (length l)) as [F|F]; [exact F|];
              pose proof (length_lt_val l l' ltac:(assumption) ltac:(assumption) ltac:(assumption)
                            ltac:(assumption) F); lia).
    all: try (destruct (Nat.le_gt_cases (length l) (length l')) as [F|F]; [exact F|];
              pose proof (length_lt_val l' l ltac:(assumption) ltac:(assumption) ltac:(assumption)
                            ltac:(assumption) F); lia).
    all: intros r (A & B & C); apply mag_result; auto; rewrite C.
    all: signs; cbn [Z.ltb Z.leb Z.compare]; lia.
Qed.

Lemma ltb_opp_false x y : xorb (x <? 0) (y <? 0) = true -> (x <? 0) = (- y <? 0) \/ y = 0.
Proof.
  destruct (Z.ltb_spec x 0), (Z.ltb_spec y 0), (Z.ltb_spec (-y) 0); cbn; intros; try discriminate; auto; try lia.
Qed.

Theorem bi_add_spec c a b x y :
  represents a x -> represents b y -> wp (bi_add c a b) (fun r => represents r (x + y)).
Proof.
  intros Ha Hb. unfold bi_add. wstep. eapply wp_valid; eauto. wstep. eapply wp_valid; eauto.
  apply repr_parts in Ha. apply repr_parts in Hb.
  destruct (parts_sign _ _ _ Ha) as (R1 & S1). destruct (parts_sign _ _ _ Hb) as (R2 & S2).
  rewrite S1, S2. destruct (xorb (x <? 0) (y <? 0)) eqn:E.
  - wstep. eapply wp_chk32; [num; lia|].
    replace (-1 * sign_of b) with (- sign_of b) by ring.
    replace (x + y) with (x - - y) by ring.
    apply bi_sub_parts_spec; auto using parts_neg. intros Hy.
    destruct (ltb_opp_false _ _ E); [assumption|lia].
  - apply bi_add_parts_spec; auto. intros _.
    destruct (x <? 0), (y <? 0); cbn in E; congruence.
Qed.

Theorem bi_sub_spec c a b x y :
  represents a x -> represents b y -> wp (bi_sub c a b) (fun r => represents r (x - y)).
Proof.
  intros Ha Hb. unfold bi_sub. wstep. eapply wp_valid; eauto. wstep. eapply wp_valid; eauto.
  apply repr_parts in Ha. apply repr_parts in Hb.
  destruct (parts_sign _ _ _ Ha) as (R1 & S1). destruct (parts_sign _ _ _ Hb) as (R2 & S2).
  rewrite S1, S2. destruct (xorb (x <? 0) (y <? 0)) eqn:E.
  - wstep. eapply wp_chk32; [num; lia|].
    replace (-1 * sign_of b) with (- sign_of b) by ring.
    replace (x - y) with (x + - y) by ring.
    apply bi_add_parts_spec; auto using parts_neg. intros Hy.
    destruct (ltb_opp_false _ _ E); [assumption|lia].
  - apply bi_sub_parts_spec; auto. intros _.
    destruct (x <? 0), (y <? 0); cbn in E; congruence.
Qed.

(** ** Multiplication *)

Lemma vec_eqb_spec a b : vec_eqb a b = true <-> a = b.
Proof.
  revert b; induction a as [|x a IH]; intros [|y b]; cbn; split; try congruence; auto.
  - rewrite Bool.andb_true_iff, Z.eqb_eq, IH. intros (-> & ->). reflexivity.
  - rewrite Bool.andb_true_iff, Z.eqb_eq, IH. intros H; inversion H; auto.
Qed.

Lemma sgn_ltb x : (x <? 0) = (Z.sgn x <? 0).
Proof. destruct x; reflexivity. Qed.

Lemma mul_sign a b x y :
  x = (if a : bool then - Z.abs x else Z.abs x) -> y = (if b : bool then - Z.abs y else Z.abs y) ->
  (if xorb a b then - (Z.abs x * Z.abs y) else Z.abs x * Z.abs y) = x * y.
Proof. destruct a, b; cbn; intros -> ->; rewrite ?Z.abs_opp, ?Z.abs_involutive; ring. Qed.

Lemma abs_ltb x : x = (if x <? 0 then - Z.abs x else Z.abs x).
Proof. destruct (Z.ltb_spec x 0); lia. Qed.

Lemma parts_abs l s z : parts l s z -> l <> [] -> val l = Z.abs z.
Proof. intros H Hn. inv_parts H; [congruence|]. signs; lia. Qed.

Theorem bi_mul_spec c a b x y :
  represents a x -> represents b y -> wp (bi_mul c a b) (fun r => represents r (x * y)).
Proof.
  intros Ha Hb. unfold bi_mul. wstep. eapply wp_valid; eauto. wstep. eapply wp_valid; eauto.
  apply repr_parts in Ha. apply repr_parts in Hb.
  destruct (parts_sign _ _ _ Ha) as (R1 & S1). destruct (parts_sign _ _ _ Hb) as (R2 & S2).
  destruct a as [s l], b as [s' l']. cbn [sign_of bits_of] in *. rewrite S1, S2.
  assert (forall m, limbs m -> val m = Z.abs x * Z.abs y ->
    wp (bi_of_mag c m (xorb (x <? 0) (y <? 0))) (fun r => represents r (x * y))) as Hfin.
  { intros m Hm Hv. apply mag_result; auto. rewrite Hv. apply mul_sign; apply abs_ltb. }
  pose proof (parts_abs _ _ _ Ha) as Va. pose proof (parts_abs _ _ _ Hb) as Vb.
  inv_parts Ha; inv_parts Hb; nils.
  - assert (- (2147483647 * 2147483647) <= x * y <= 2147483647 * 2147483647).
    { num. nia. }
    wstep. apply wp_chk64; [num; lia|]. apply bi_of_int64_spec. num; lia.
  - wstep. apply wp_abs32; [num; lia|]. wstep.
    eapply wp_mono; [apply calc_mul_u_spec; auto using abs_limb|].
    intros r (A & B & C). apply Hfin; auto. rewrite C, <- Vb by assumption. ring.
  - wstep. apply wp_abs32; [num; lia|]. wstep.
    eapply wp_mono; [apply calc_mul_u_spec; auto using abs_limb|].
    intros r (A & B & C). apply Hfin; auto. rewrite C, <- Va by assumption. ring.
  - destruct (vec_eqb l l') eqn:E.
    + apply vec_eqb_spec in E. subst l'. wstep.
      eapply wp_mono; [apply calc_square_spec; auto|].
      intros r (A & B & C). apply Hfin; auto. rewrite C.
      rewrite <- Va, <- Vb by assumption. ring.
    + destruct (Nat.ltb_spec (length l) (length l')); wstep.
      all: eapply wp_mono; [apply calc_mul_spec; auto; lia|].
      all: intros r (A & B & C); apply Hfin; auto; rewrite C.
      all: rewrite <- Va, <- Vb by assumption; ring.
Qed.

(** ** Division *)

Lemma quot_small x y : Z.abs x < Z.abs y -> Z.quot x y = 0.
Proof. intros H. apply Z.quot_small_iff; lia. Qed.

Lemma rem_small x y : Z.abs x < Z.abs y -> Z.rem x y = x.
Proof. intros H. apply Z.rem_small_iff; lia. Qed.

Lemma quot_abs x y :
  y <> 0 ->
  (if xorb (x <? 0) (y <? 0) then - (Z.abs x / Z.abs y) else Z.abs x / Z.abs y) = Z.quot x y.
Proof.
  intros Hy. rewrite <- Z.quot_div_nonneg by lia.
  destruct (Z.ltb_spec x 0), (Z.ltb_spec y 0); cbn [xorb];
    rewrite ?(Z.abs_neq x), ?(Z.abs_neq y), ?(Z.abs_eq x), ?(Z.abs_eq y) by lia;
    rewrite ?Z.quot_opp_l, ?Z.quot_opp_r by lia; rewrite ?Z.opp_involutive; reflexivity.
Qed.

Lemma rem_abs x y :
  y <> 0 -> (if x <? 0 then - (Z.abs x mod Z.abs y) else Z.abs x mod Z.abs y) = Z.rem x y.
Proof.
  intros Hy. rewrite <- Z.rem_mod_nonneg by lia. rewrite Z.rem_abs_r by lia.
  destruct (Z.ltb_spec x 0); [rewrite (Z.abs_neq x)|rewrite (Z.abs_eq x)]; try lia.
  rewrite Z.rem_opp_l by lia. apply Z.opp_involutive.
Qed.

Lemma quot_range x y : INT_MIN < x <= INT_MAX -> y <> 0 -> INT_MIN < Z.quot x y <= INT_MAX.
Proof.
  intros Hx Hy. rewrite <- quot_abs by assumption.
  assert (0 <= Z.abs x / Z.abs y <= Z.abs x).
  { split; [apply Z.div_pos; lia|]. apply Z.div_le_upper_bound; [lia|].
    replace (Z.abs x) with (1 * Z.abs x) at 1 by ring.
    apply Z.mul_le_mono_nonneg_r; lia. }
  destruct (xorb _ _); num; lia.
Qed.

Lemma rem_range x y : INT_MIN < x <= INT_MAX -> y <> 0 -> INT_MIN < Z.rem x y <= INT_MAX.
Proof.
  intros Hx Hy. rewrite <- rem_abs by assumption.
  assert (0 <= Z.abs x mod Z.abs y <= Z.abs x).
  { split; [apply Z.mod_pos_bound; lia|]. apply Z.mod_le; lia. }
  destruct (x <? 0); num; lia.
Qed.

Lemma int_mod_spec c x y (Q : Z -> Prop) :
  INT_MIN < x <= INT_MAX -> y <> 0 -> Q (Z.rem x y) -> wp (int_mod c x y) Q.
Proof.
  intros Hx Hy HQ. unfold int_mod. rewrite (proj2 (Z.eqb_neq _ _) Hy).
  wstep. wstep; [|wstep; exact HQ]. pose proof (quot_range x y Hx Hy). lia.
Qed.

Lemma int_div_spec c x y (Q : Z -> Prop) :
  INT_MIN < x <= INT_MAX -> y <> 0 -> Q (Z.quot x y) -> wp (int_div c x y) Q.
Proof.
  intros Hx Hy HQ. unfold int_div. rewrite (proj2 (Z.eqb_neq _ _) Hy).
  wstep; [|exact HQ]. pose proof (quot_range x y Hx Hy). lia.
Qed.

Lemma abs_rem_limb x y : INT_MIN < y <= INT_MAX -> y <> 0 -> 0 <= Z.abs x mod Z.abs y < 2147483648.
Proof. intros. pose proof (Z.mod_pos_bound (Z.abs x) (Z.abs y)). num; lia. Qed.

Theorem bi_rem_spec c a b x y :
  represents a x -> represents b y -> y <> 0 ->
  wp (bi_rem c a b) (fun r => represents r (Z.rem x y)).
Proof.
  intros Ha Hb Hy. unfold bi_rem. wstep. eapply wp_valid; eauto. wstep. eapply wp_valid; eauto.
  pose proof Ha as Ha0.
  apply repr_parts in Ha. apply repr_parts in Hb.
  destruct (parts_sign _ _ _ Ha) as (R1 & S1). destruct (parts_sign _ _ _ Hb) as (R2 & S2).
  destruct a as [s l], b as [s' l']. cbn [sign_of bits_of] in *.
  pose proof (parts_abs _ _ _ Ha) as Va. pose proof (parts_abs _ _ _ Hb) as Vb.
  inv_parts Ha; inv_parts Hb; nils;
    try set (x := s * val l) in *; try set (y := s' * val l') in *.
  - rewrite (proj2 (Z.eqb_neq _ _) Hy). wstep. apply int_mod_spec; auto.
    apply bi_of_int32_spec. pose proof (rem_range x y ltac:(auto) Hy). lia.
  - wstep. rewrite rem_small; auto. rewrite <- Vb by assumption. num; lia.
  - wstep. apply wp_abs32; [num; lia|]. wstep.
    eapply wp_mono; [apply calc_rem_u_spec; auto; try (num; lia)|].
    intros r ->. rewrite Va by assumption.
    pose proof (abs_rem_limb x y ltac:(auto) Hy).
    rewrite S1, <- rem_abs by assumption.
    destruct (x <? 0).
    + replace (- (Z.abs x mod Z.abs y)) with (-1 * (Z.abs x mod Z.abs y)) by ring.
      apply bi_of_int64_spec. num; lia.
    + apply bi_of_int64_spec. num; lia.
  - destruct (Nat.ltb_spec (length l) (length l')) as [F|F].
    + wstep. rewrite rem_small; auto. rewrite <- Va, <- Vb by assumption.
      apply length_lt_val; auto.
    + wstep. eapply wp_mono; [apply calc_rem_spec; auto|].
      intros r (A & B & C). apply mag_result; auto.
      rewrite C, S1, Va, Vb by assumption. apply rem_abs. assumption.
Qed.

Theorem bi_div_spec c a b x y :
  represents a x -> represents b y -> y <> 0 ->
  wp (bi_div c a b) (fun r => represents r (Z.quot x y)).
Proof.
  intros Ha Hb Hy. unfold bi_div. wstep. eapply wp_valid; eauto. wstep. eapply wp_valid; eauto.
  apply repr_parts in Ha. apply repr_parts in Hb.
  destruct (parts_sign _ _ _ Ha) as (R1 & S1). destruct (parts_sign _ _ _ Hb) as (R2 & S2).
  destruct a as [s l], b as [s' l']. cbn [sign_of bits_of] in *.
  pose proof (parts_abs _ _ _ Ha) as Va. pose proof (parts_abs _ _ _ Hb) as Vb.
  rewrite S1, S2.
  inv_parts Ha; inv_parts Hb; nils;
    try set (x := s * val l) in *; try set (y := s' * val l') in *.
  - rewrite (proj2 (Z.eqb_neq _ _) Hy). wstep. apply int_div_spec; auto.
    apply bi_of_int64_spec. pose proof (quot_range x y ltac:(auto) Hy). num; lia.
  - wstep. rewrite quot_small; auto using repr_zero. rewrite <- Vb by assumption. num; lia.
  - wstep. apply wp_abs32; [num; lia|]. wstep.
    eapply wp_mono; [apply calc_div_u_spec; auto; try (num; lia)|].
    intros r (A & B & C). apply mag_result; auto. rewrite C, Va by assumption.
    apply quot_abs. assumption.
  - destruct (Nat.ltb_spec (length l) (length l')) as [F|F].
    + wstep. rewrite quot_small; auto using repr_zero. rewrite <- Va, <- Vb by assumption.
      apply length_lt_val; auto.
    + wstep. eapply wp_mono; [apply calc_div_spec; auto|].
      intros r (A & B & C). apply mag_result; auto.
      rewrite C, Va, Vb by assumption. apply quot_abs. assumption.
Qed.

(** Division by zero. *)
Lemma represents_zero b : represents b 0 -> b = Big 0 [].
Proof. intros H. exact (represents_unique _ _ 0 H repr_zero). Qed.

Lemma bind_ret_tt {B} (m : outcome unit) (k : unit -> outcome B) : m = Ret tt -> bind m k = k tt.
Proof. intros ->. reflexivity. Qed.

Theorem bi_div_zero c a b x : represents a x -> represents b 0 -> bi_div c a b = Throw DivideByZero.
Proof.
  intros Ha Hb. unfold bi_div.
  rewrite (assert_valid_ok _ _ _ Ha), (assert_valid_ok _ _ _ Hb). cbn [bind].
  apply represents_zero in Hb. subst b. cbn [sign_of bits_of is_nil].
  apply represents_view in Ha. destruct Ha as [z Hz|s l Hs Hne Hl Ht Hv]; cbn [sign_of bits_of]; nils.
  - reflexivity.
  - rewrite abs32_ok by (num; lia). cbn [bind]. change (Z.abs 0) with 0. now rewrite calc_div_u_zero.
Qed.

Theorem bi_rem_zero c a b x : represents a x -> represents b 0 -> bi_rem c a b = Throw DivideByZero.
Proof.
  intros Ha Hb. unfold bi_rem.
  rewrite (assert_valid_ok _ _ _ Ha), (assert_valid_ok _ _ _ Hb). cbn [bind].
  apply represents_zero in Hb. subst b. cbn [sign_of bits_of is_nil].
  apply represents_view in Ha. destruct Ha as [z Hz|s l Hs Hne Hl Ht Hv]; cbn [sign_of bits_of]; nils.
  - reflexivity.
  - rewrite abs32_ok by (num; lia). cbn [bind]. change (Z.abs 0) with 0. now rewrite calc_rem_u_zero.
Qed.

Theorem bi_div_rem_zero c a b x :
  represents a x -> represents b 0 -> bi_div_rem c a b = Throw DivideByZero.
Proof.
  intros Ha Hb. unfold bi_div_rem.
  rewrite (assert_valid_ok _ _ _ Ha), (assert_valid_ok _ _ _ Hb). cbn [bind].
  apply represents_zero in Hb. subst b. cbn [sign_of bits_of is_nil].
  apply represents_view in Ha. destruct Ha as [z Hz|s l Hs Hne Hl Ht Hv]; cbn [sign_of bits_of]; nils.
  - reflexivity.
  - rewrite abs32_ok by (num; lia). cbn [bind]. change (Z.abs 0) with 0. now rewrite calc_divrem_u_zero.
Qed.

(** div_rem is right except for its remainder in one situation: negative
    dividend outside the int range, divisor inside it, remainder not zero. Then
    the remainder is reported modulo 2^32. *)
Definition div_rem_bad (x y : Z) : Prop :=
  x <= INT_MIN /\ INT_MIN < y <= INT_MAX /\ Z.rem x y <> 0.

Theorem bi_div_rem_spec c a b x y :
  represents a x -> represents b y -> y <> 0 ->
  wp (bi_div_rem c a b) (fun qr =>
    represents (fst qr) (Z.quot x y) /\
    (~ div_rem_bad x y -> represents (snd qr) (Z.rem x y)) /\
    (div_rem_bad x y -> represents (snd qr) (2 ^ 32 + Z.rem x y))).
Proof.
  intros Ha Hb Hy. unfold bi_div_rem, div_rem_bad. change (2 ^ 32) with W32.
  wstep. eapply wp_valid; eauto. wstep. eapply wp_valid; eauto.
  pose proof Ha as Ha0.
  apply repr_parts in Ha. apply repr_parts in Hb.
  destruct (parts_sign _ _ _ Ha) as (R1 & S1). destruct (parts_sign _ _ _ Hb) as (R2 & S2).
  destruct a as [s l], b as [s' l']. cbn [sign_of bits_of] in *.
  pose proof (parts_abs _ _ _ Ha) as Va. pose proof (parts_abs _ _ _ Hb) as Vb.
  rewrite S1, S2.
  inv_parts Ha; inv_parts Hb; nils;
    try set (x := s * val l) in *; try set (y := s' * val l') in *.
  - rewrite (proj2 (Z.eqb_neq _ _) Hy). wstep. apply int_mod_spec; auto. wstep.
    eapply wp_mono; [apply bi_of_int32_spec; pose proof (rem_range x y ltac:(auto) Hy); lia|].
    intros r Hr. wstep. apply int_div_spec; auto. wstep.
    eapply wp_mono; [apply bi_of_int32_spec; pose proof (quot_range x y ltac:(auto) Hy); lia|].
    intros q Hq. wstep. cbn [fst snd]. split; [auto|split; [auto|intros; exfalso; num; lia]].
  - wstep. eapply wp_mono; [apply bi_of_int32_spec; num; lia|]. intros z Hz'. wstep. cbn [fst snd].
    assert (Z.abs x < Z.abs y) by (rewrite <- Vb by assumption; num; lia).
    rewrite quot_small, rem_small by assumption. split; [auto|split; [auto|intros; exfalso; num; lia]].
  - wstep. apply wp_abs32; [num; lia|]. wstep.
    eapply wp_mono; [apply calc_divrem_u_spec; auto; try (num; lia)|].
    intros (q & r) (A & B & D & C).
    rewrite Va in C by assumption.
    assert (val q = Z.abs x / Z.abs y /\ r = Z.abs x mod Z.abs y) as (Hq & Hr).
    { assert (val q = Z.abs x / Z.abs y) as E by (apply (Z.div_unique_pos _ _ _ r); lia).
      split; [exact E|]. apply (Z.mod_unique_pos _ _ (val q)); lia. }
    pose proof (rem_abs x y Hy) as HR. rewrite <- Hr in HR.
    assert (0 <= r < 2147483648) as Hrb by (num; lia).
    wstep. eapply wp_mono.
    { apply bi_of_uint32_spec. destruct (x <? 0).
      - pose proof (u32_range (-1 * r)). unfold UINT_MAX. num; lia.
      - unfold UINT_MAX. num; lia. }
    intros rr Hrr. wstep.
    eapply wp_mono; [apply mag_result; [exact B|rewrite Hq; apply quot_abs; exact Hy]|].
    intros qq Hqq. wstep. cbn [fst snd]. split; [exact Hqq|].
    assert (2147483648 <= Z.abs x) as Habs by (rewrite <- Va by assumption; assumption).
    destruct (Z.ltb_spec x 0) as [Hx|Hx].
    + split; intros Hbad.
      * assert (r = 0) as -> by (destruct (Z.eq_dec r 0); [assumption|exfalso; apply Hbad; num; lia]).
        rewrite <- HR. exact Hrr.
      * replace (W32 + Z.rem x y) with (u32 (-1 * r)); [exact Hrr|].
        unfold u32. rewrite <- HR. symmetry. apply (Z.mod_unique_pos _ _ (-1)); num; lia.
    + split; intros Hbad.
      * rewrite <- HR. exact Hrr.
      * exfalso. num; lia.
  - assert (~ (INT_MIN < y <= INT_MAX)) as Hnb by (subst y; signs; num; lia).
    destruct (Nat.ltb_spec (length l) (length l')) as [F|F].
    + wstep. eapply wp_mono; [apply bi_of_int32_spec; num; lia|]. intros z Hz'. wstep. cbn [fst snd].
      assert (Z.abs x < Z.abs y)
        by (rewrite <- Va, <- Vb by assumption; apply length_lt_val; auto).
      rewrite quot_small, rem_small by assumption. split; [auto|split; [auto|intros; exfalso; tauto]].
    + wstep. eapply wp_mono; [apply calc_divrem_spec; auto|].
      intros (q & r) (A & B & C & D & E & G). wstep.
      eapply wp_mono; [apply mag_result; [|rewrite G, Va, Vb by assumption; apply rem_abs; assumption]; auto|].
      intros rr Hrr. wstep.
      eapply wp_mono; [apply mag_result; [|rewrite E, Va, Vb by assumption; apply quot_abs; assumption]; auto|].
      intros qq Hqq. wstep. cbn [fst snd]. split; [auto|split; [auto|intros; exfalso; tauto]].
Qed.
