(** Lemmas quoted by PropRun.v: every object of a reachable store is canonical. *)
From Verif Require Import Facts Spec AddSubFacts SpecFacts BigIntFacts SpecApi BigInt BigIntText BigIntBytes BigIntDouble.
From Verif Require Import CalcAddSub CalcSquMul CalcDivRem CalcPowMod CalcGcd LimbFacts ArithLaws ApiMem SpecMem MemFacts ApiRun SpecPos SpecDouble.
From Verif Require TextFacts WordFacts ShiftFacts ConvFacts ConvLaws BytesFacts ToBytesFacts DoubleFacts.

Ltac Zify.zify_post_hook ::= idtac.

Lemma canonical_represents b : canonical b -> represents b (value b).
Proof. intros H. split; auto. Qed.

Lemma words_limbs l : is_words l -> limbs l.
Proof. intros H. exact H. Qed.

Lemma canonical_limbs b : canonical b -> limbs (bits_of b).
Proof.
  intros H. apply canonical_represents in H. apply represents_view in H. destruct b as [s l].
  inversion H; subst; cbn [bits_of]; [constructor|assumption].
Qed.
Lemma canonical_sign b : canonical b -> is_int (sign_of b).
Proof.
  intros H. apply canonical_represents in H. apply represents_view in H. destruct b as [s l]. unfold is_int.
  inversion H; subst; cbn [sign_of]; num; lia.
Qed.

(** ** Constructors *)

Definition is_long (v : Z) : Prop := - 2 ^ 63 <= v < 2 ^ 63.

Lemma pc_mag c l neg : limbs l -> pc (bi_of_mag c l neg) canonical.
Proof. intros H. eapply pc_mono; [apply pc_wp, bi_of_mag_spec, H|]. intros a (Ha & _). exact Ha. Qed.
Lemma pc_int32 c v : is_int v -> pc (bi_of_int32 c v) canonical.
Proof. intros H. destruct (ConvLaws.ctor_family c v) as (A & _). eapply pc_returns, A, H. Qed.
Lemma pc_uint32 c v : limb v -> pc (bi_of_uint32 c v) canonical.
Proof. intros H. destruct (ConvLaws.ctor_family c v) as (_ & A & _). eapply pc_returns, A. exact H. Qed.
Lemma pc_int64 c v : is_long v -> pc (bi_of_int64 c v) canonical.
Proof.
  intros H. destruct (ConvLaws.ctor_family c v) as (_ & _ & A & _). destruct (strict c) eqn:Ec.
  - destruct (Z.eq_dec v (- 2 ^ 63)) as [->|E].
    + rewrite ConvLaws.ctor_strict by assumption. apply pc_undef.
    + eapply pc_returns, A; auto.
  - eapply pc_returns, A; auto.
Qed.
Lemma pc_uint64 c v : dlimb v -> pc (bi_of_uint64 c v) canonical.
Proof. intros H. destruct (ConvLaws.ctor_family c v) as (_ & _ & _ & A). eapply pc_returns, A. exact H. Qed.
Lemma pc_double c d : dbl_pattern d -> pc (bi_of_double c d) canonical.
Proof.
  intros H. destruct (Z.eq_dec (dbl_exp d) 2047) as [F|F].
  - rewrite DoubleFacts.of_double_infinite; [apply pc_throw|assumption|]. intros N. now apply N.
  - eapply pc_returns, DoubleFacts.of_double_finite; assumption.
Qed.
Lemma pc_bytes c l u be : digits 256 l -> pc (bi_of_bytes c l u be) canonical.
Proof.
  intros H. destruct (strict c) eqn:Ec; [|eapply pc_returns, ToBytesFacts.of_bytes_returns; auto].
  destruct (Z.lt_ge_cases (bytes_value u be l) 0) as [Hn|Hn]; [|eapply pc_returns, ToBytesFacts.of_bytes_returns; auto].
  destruct (Nat.le_gt_cases (length l) 4) as [Hl|Hl]; [|eapply pc_returns, ToBytesFacts.of_bytes_returns; auto].
  rewrite BytesFacts.of_bytes_strict by auto. apply pc_undef.
Qed.

(** ** Machine arithmetic *)

Lemma s32_int x : is_int (s32 x).
Proof.
  unfold s32, u32, is_int. pose proof (Z.mod_pos_bound x W32 eq_refl). cbv zeta.
  destruct (Z.ltb_spec (x mod W32) 2147483648); num; lia.
Qed.
Lemma s64_long x : is_long (s64 x).
Proof.
  unfold s64, u64, is_long. pose proof (Z.mod_pos_bound x W64 eq_refl). cbv zeta.
  destruct (Z.ltb_spec (x mod W64) 9223372036854775808); num; lia.
Qed.
Lemma pc_chk32 c x : pc (chk32 c x) is_int.
Proof.
  unfold chk32. destruct (_ && _) eqn:E.
  - apply pc_ret. apply andb_prop in E as [E1 E2]. apply Z.leb_le in E1, E2. unfold is_int. num. lia.
  - destruct (strict c); [apply pc_undef|apply pc_ret, s32_int].
Qed.
Lemma pc_chk64 c x : pc (chk64 c x) is_long.
Proof.
  unfold chk64. destruct (_ && _) eqn:E.
  - apply pc_ret. apply andb_prop in E as [E1 E2]. apply Z.leb_le in E1, E2. unfold is_long. num. lia.
  - destruct (strict c); [apply pc_undef|apply pc_ret, s64_long].
Qed.
Lemma pc_abs32 c x : pc (abs32 c x) limb.
Proof. unfold abs32. eapply pc_bind; [apply pc_true|]. intros. apply pc_ret, u32_limb. Qed.

(** ** Operators *)

Lemma pc_bin o c a b : canonical a -> canonical b -> pc (bin o c a b) canonical.
Proof.
  intros Ha Hb. apply canonical_represents in Ha, Hb.
  change (bin o c a b) with (pure_assign o c a b).
  destruct (Z.eq_dec (value b) 0) as [E|E].
  - rewrite E in Hb. destruct (div_zero_calls c a b _ Ha Hb) as (D & R & _).
    destruct o; cbn [pure_assign]; try (rewrite ?D, ?R; apply pc_throw);
      (eapply pc_returns; first
        [ apply (pure_assign_exact AddA); eauto; intros [?|?]; discriminate
        | apply (pure_assign_exact SubA); eauto; intros [?|?]; discriminate
        | apply (pure_assign_exact MulA); eauto; intros [?|?]; discriminate
        | apply (pure_assign_exact AndA); eauto; intros [?|?]; discriminate
        | apply (pure_assign_exact OrA); eauto; intros [?|?]; discriminate
        | apply (pure_assign_exact XorA); eauto; intros [?|?]; discriminate ]).
  - eapply pc_returns, pure_assign_exact; eauto.
Qed.

Lemma pc_twos_carry n i d : limbs d -> pc (twos_carry n i d) (fun p => limbs (fst p)).
Proof.
  revert i d; induction n as [|n IH]; intros i d Hd; cbn [twos_carry].
  - lim.
  - eapply pc_bind; [apply pc_true|]. intros p _. destruct (p =? 0); [|lim].
    eapply pc_bind; [apply pc_true|]. intros x _. eapply pc_bind; [apply pc_wr; [assumption|apply u32_limb]|].
    intros d' Hd'. now apply IH.
Qed.
Lemma pc_twos d : limbs d -> pc (make_twos_complement d) limbs.
Proof.
  intros Hd. unfold make_twos_complement. destruct (is_nil d); [now apply pc_ret|].
  eapply pc_bind; [apply pc_true|]. intros x _. eapply pc_bind; [apply pc_wr; [assumption|apply u32_limb]|].
  intros d' Hd'. eapply pc_bind; [now apply pc_twos_carry|]. intros (d2, i) H2. cbn [fst] in H2.
  apply pc_for_up; [assumption|]. intros j y Hy. eapply pc_bind; [apply pc_true|]. intros z _.
  apply pc_wr; [assumption|apply u32_limb].
Qed.
Lemma pc_parts c b : canonical b -> pc (bi_parts c b) (fun p => limbs (fst p)).
Proof.
  intros Hb. unfold bi_parts. eapply (pc_bind _ _ limbs).
  - destruct (is_nil _); [|apply pc_ret; now apply canonical_limbs].
    destruct (_ <? 0); [|apply pc_ret; repeat constructor; apply u32_limb].
    eapply pc_bind; [apply pc_true|]. intros n _. apply pc_ret. repeat constructor; apply u32_limb.
  - intros xd H. now apply pc_ret.
Qed.
Lemma limb_lor a b : limb a -> limb b -> limb (Z.lor a b).
Proof.
  unfold limb, W32. intros (A1 & A2) (B1 & B2). split; [now apply Z.lor_nonneg|].
  change 4294967296 with (2 ^ 32) in *. destruct (Z.eq_dec (Z.lor a b) 0) as [->|E]; [reflexivity|].
  assert (0 <= Z.lor a b) by now apply Z.lor_nonneg.
  apply Z.log2_lt_pow2; [lia|]. rewrite Z.log2_lor by assumption.
  assert (forall x, 0 <= x -> x < 2 ^ 32 -> Z.log2 x < 32) as H32.
  { intros x X1 X2. destruct (Z.eq_dec x 0) as [->|]; [reflexivity|]. apply Z.log2_lt_pow2; lia. }
  apply Z.max_lub_lt; now apply H32.
Qed.
Lemma pc_shl32 x k : pc (shl32 x k) limb.
Proof. unfold shl32. destruct (_ && _); [apply pc_ret, u32_limb|apply pc_undef]. Qed.
Lemma pc_shr32 x k : limb x -> pc (shr32 x k) limb.
Proof.
  intros (H1 & H2). unfold shr32. destruct (_ && _) eqn:E; [|apply pc_undef]. apply pc_ret.
  apply andb_prop in E as [E1 E2]. apply Z.leb_le in E1. apply Z.ltb_lt in E2.
  rewrite Z.shiftr_div_pow2 by assumption. split; [apply Z.div_pos; [assumption|apply Z.pow_pos_nonneg; lia]|].
  apply Z.le_lt_trans with x; [|assumption]. apply Z.div_le_upper_bound; [apply Z.pow_pos_nonneg; lia|].
  assert (1 <= 2 ^ k) by (change 1 with (2 ^ 0); apply Z.pow_le_mono_r; lia).
  assert (1 * x <= 2 ^ k * x) by (apply Z.mul_le_mono_nonneg_r; lia). lia.
Qed.

Lemma pc_shr_pos c b s : canonical b -> pc (bi_shr_pos c b s) canonical.
Proof.
  intros Hb. unfold bi_shr_pos. cbv zeta. eapply pc_bind; [now apply pc_parts|]. intros (xd, negx) Hx.
  cbn [fst] in Hx. eapply pc_bind; [apply pc_true|]. intros [] _.
  { apply pc_ret. vm_compute. auto. }
  eapply (pc_bind _ _ limbs).
  { destruct negx; [now apply pc_twos|now apply pc_ret]. }
  intros xd2 Hx2. eapply (pc_bind _ _ limbs).
  { destruct (_ =? 0).
    - apply pc_for_down; [apply limbs_zeros|]. intros k zd Hz. eapply pc_bind; [now apply pc_rd|]. intros x Hx1.
      now apply pc_wr.
    - eapply (pc_bind _ _ (fun p => limbs (fst p))); [|intros (zd, cr) H; now apply pc_ret].
      eapply pc_mono; [apply (pc_for_down _ _ _ (fun p => limbs (fst p) /\ limb (snd p)))|].
      + split; [apply limbs_zeros|apply limb_const; reflexivity].
      + intros k (zd, cr) (Hz & Hcr). cbn [fst snd] in *.
        eapply pc_bind; [now apply pc_rd|]. intros rot Hrot. eapply pc_bind; [now apply pc_shr32|]. intros lo Hlo.
        eapply (pc_bind _ _ limbs).
        { destruct (_ && _).
          - eapply pc_bind; [apply pc_shl32|]. intros m Hm. apply pc_wr; [assumption|now apply limb_lor].
          - apply pc_wr; [assumption|now apply limb_lor]. }
        intros zd' Hz'. eapply pc_bind; [apply pc_shl32|]. intros cr' Hc'. apply pc_ret. now split.
      + intros p (H & _). exact H. }
  intros zd Hz. eapply (pc_bind _ _ limbs).
  { destruct negx; [now apply pc_twos|now apply pc_ret]. }
  intros zd' Hz'. now apply pc_mag.
Qed.
Lemma pc_shl_pos c b s : canonical b -> 0 < s <= INT_MAX -> pc (bi_shl_pos c b s) canonical.
Proof.
  intros Hb Hs. apply canonical_represents in Hb. pose proof (ShiftFacts.bi_shl_exact c b _ s Hb ltac:(lia)) as H.
  unfold bi_shl in H. destruct (Z.eqb_spec s 0); [lia|]. destruct (Z.eqb_spec s INT_MIN); [num; lia|].
  destruct (Z.ltb_spec s 0); [lia|]. eapply pc_returns, H.
Qed.
Lemma pc_shl c b s : canonical b -> is_int s -> pc (bi_shl c b s) canonical.
Proof.
  intros Hb Hs. unfold is_int in Hs. unfold bi_shl. destruct (Z.eqb_spec s 0); [now apply pc_ret|].
  destruct (Z.eqb_spec s INT_MIN).
  { eapply pc_bind; [now apply pc_shr_pos|]. intros. now apply pc_shr_pos. }
  destruct (Z.ltb_spec s 0); [now apply pc_shr_pos|]. apply pc_shl_pos; [assumption|num; lia].
Qed.
Lemma pc_shr c b s : canonical b -> is_int s -> pc (bi_shr c b s) canonical.
Proof.
  intros Hb Hs. unfold is_int in Hs. unfold bi_shr. destruct (Z.eqb_spec s 0); [now apply pc_ret|].
  destruct (Z.eqb_spec s INT_MIN).
  { eapply pc_bind; [apply pc_shl_pos; [assumption|num; lia]|]. intros. apply pc_shl_pos; [assumption|num; lia]. }
  destruct (Z.ltb_spec s 0); [|now apply pc_shr_pos]. apply pc_shl_pos; [assumption|num; lia].
Qed.

Lemma pc_unary c b : canonical b ->
  pc (bi_neg c b) canonical /\ pc (bi_pos c b) canonical /\ pc (bi_not c b) canonical /\ pc (bi_abs c b) canonical /\
  pc (bi_inc c b) canonical /\ pc (bi_dec c b) canonical.
Proof.
  intros Hb. apply canonical_represents in Hb. destruct (add_sub_family c b b _ _ Hb Hb) as (_ & A2 & A3 & A4 & A5).
  destruct (add_family c b b _ _ Hb Hb) as (_ & A6).
  destruct (WordFacts.bitwise_family c b b _ _ Hb Hb) as (_ & _ & _ & A7).
  repeat split; eapply pc_returns; eassumption.
Qed.
Lemma pc_pow c b e : canonical b -> pc (bi_pow c b e) canonical.
Proof.
  intros Hb. assert (canonical s_bnOneInt) by (vm_compute; auto).
  unfold bi_pow. destruct (e <? 0); [apply pc_throw|]. eapply pc_bind; [apply pc_true|]. intros _ _.
  destruct (e =? 0); [now apply pc_ret|]. destruct (e =? 1); [now apply pc_ret|]. cbv zeta.
  destruct (_ && _); [now apply pc_ret|]. destruct (_ && _); [apply pc_ret; now destruct (negb _)|].
  destruct (_ && _); [now apply pc_ret|]. eapply pc_bind; [apply pc_true|]. intros e' _.
  eapply (pc_bind _ _ limbs); [|intros; now apply pc_mag].
  assert (forall v n, limbs (bb_bits v) -> pc (pow_core c n v) limbs) as Hcore.
  { intros v n Hv. unfold pow_core. cbv zeta. eapply pc_bind; [apply pc_buf_u, limb_const; reflexivity|]. intros t Ht.
    eapply pc_bind; [apply pc_buf_u, limb_const; reflexivity|]. intros r Hr.
    eapply pc_bind; [now apply pc_pow_core_loop|]. intros r' Hr'. now apply pc_ret. }
  destruct (is_nil _).
  - eapply pc_bind; [apply pc_abs32|]. intros v Hv. unfold calc_pow_u.
    eapply pc_bind; [apply pc_true|]. intros size _. eapply pc_bind; [now apply pc_buf_u|]. intros buf Hbuf. now apply Hcore.
  - unfold calc_pow_v. eapply pc_bind; [apply pc_true|]. intros size _.
    eapply pc_bind; [apply pc_buf_v; now apply canonical_limbs|]. intros buf Hbuf. now apply Hcore.
Qed.

Lemma pc_mod_pow c x y z : canonical x -> canonical y -> canonical z -> pc (bi_mod_pow c x y z) canonical.
Proof.
  intros Hx Hy Hz. apply canonical_limbs in Hx, Hy, Hz. unfold bi_mod_pow.
  destruct (_ <? 0); [apply pc_throw|].
  do 3 (eapply pc_bind; [apply pc_true|]; intros _ _). cbv zeta.
  destruct (is_nil (bits_of z)).
  - eapply pc_bind; [apply pc_true|]. intros m _. eapply (pc_bind _ _ limb).
    { destruct (is_nil (bits_of x)); [eapply pc_bind; [apply pc_true|]; intros v _|];
        (destruct (is_nil (bits_of y)); [eapply pc_bind; [apply pc_true|]; intros e _|]).
      - apply pc_powmod_u_loop.
      - apply pc_powmod_v_core.
      - unfold calc_powmod_vuu. eapply pc_bind; [apply pc_true|]. intros. apply pc_powmod_u_loop.
      - unfold calc_powmod_vvu. eapply pc_bind; [apply pc_true|]. intros. apply pc_powmod_v_core. }
    intros r Hr. eapply pc_bind; [apply pc_true|]. intros even _. apply pc_uint32.
    destruct (negb even); [apply u32_limb|assumption].
  - eapply (pc_bind _ _ limbs).
    { destruct (is_nil (bits_of x)); [eapply pc_bind; [apply pc_abs32|]; intros v Hv|];
        (destruct (is_nil (bits_of y)); [eapply pc_bind; [apply pc_true|]; intros e _|]).
      - now apply pc_powmod_uuv.
      - now apply pc_powmod_uvv.
      - now apply pc_powmod_vuv.
      - now apply pc_powmod_vvv. }
    intros r Hr. eapply pc_bind; [apply pc_true|]. intros even _. now apply pc_mag.
Qed.

Lemma make64 a b : limb a -> limb b -> dlimb (Z.lor (u64 (Z.shiftl a 32)) b).
Proof.
  intros Ha Hb. change 32 with kcbitUint. rewrite ConvFacts.lor_two by assumption. unfold limb, dlimb, W32, W64 in *. lia.
Qed.
Lemma pc_gcd_bits fuel c a b : limbs a -> limbs b -> pc (bi_gcd_bits fuel c a b) canonical.
Proof.
  intros Ha Hb. unfold bi_gcd_bits. eapply pc_bind; [apply pc_true|]. intros _ _.
  destruct (Nat.eqb _ _).
  { eapply pc_bind; [now apply pc_rd|]. intros r0 Hr. eapply pc_bind; [apply pc_rem_u|]. intros t Ht.
    eapply pc_bind; [now apply pc_gcd32|]. intros g Hg. now apply pc_uint32. }
  destruct (Nat.eqb _ _).
  { eapply pc_bind; [now apply pc_rem|]. intros t Ht.
    eapply pc_bind; [now apply pc_rd|]. intros r1 Hr1. eapply pc_bind; [now apply pc_rd|]. intros r0 Hr0.
    eapply pc_bind; [now apply pc_rd|]. intros t1 Ht1. eapply pc_bind; [now apply pc_rd|]. intros t0 Ht0.
    eapply pc_bind; [apply pc_gcd64; now apply make64|]. intros g Hg. now apply pc_uint64. }
  eapply pc_bind; [now apply pc_gcd|]. intros r Hr. now apply pc_mag.
Qed.
Lemma pc_bi_gcd fuel c a b : canonical a -> canonical b -> pc (bi_gcd fuel c a b) canonical.
Proof.
  intros Ha Hb. apply canonical_limbs in Ha, Hb. unfold bi_gcd. do 2 (eapply pc_bind; [apply pc_true|]; intros _ _). cbv zeta.
  destruct (is_nil (bits_of a)), (is_nil (bits_of b)); cbn [andb].
  - eapply pc_bind; [apply pc_abs32|]. intros x Hx. eapply pc_bind; [apply pc_abs32|]. intros y Hy.
    eapply pc_bind; [now apply pc_gcd32|]. intros. now apply pc_uint32.
  - destruct (negb _); [|now apply pc_mag]. eapply pc_bind; [apply pc_abs32|]. intros x Hx.
    eapply (pc_bind _ _ limb); [|intros; now apply pc_uint32]. unfold calc_gcd_u.
    do 2 (eapply pc_bind; [apply pc_true|]; intros _ _). eapply pc_bind; [apply pc_rem_u|]. intros t Ht. now apply pc_gcd32.
  - destruct (negb _); [|now apply pc_mag]. eapply pc_bind; [apply pc_abs32|]. intros x Hx.
    eapply (pc_bind _ _ limb); [|intros; now apply pc_uint32]. unfold calc_gcd_u.
    do 2 (eapply pc_bind; [apply pc_true|]; intros _ _). eapply pc_bind; [apply pc_rem_u|]. intros t Ht. now apply pc_gcd32.
  - eapply pc_bind; [apply pc_true|]. intros cmp _. destruct (cmp <? 0); now apply pc_gcd_bits.
Qed.

Lemma pc_add_parts c a s b t : pc (bi_add_parts c a s b t) canonical.
Proof.
  unfold bi_add_parts. cbv zeta. destruct (_ && _).
  { eapply pc_bind; [apply pc_chk64|]. intros. now apply pc_int64. }
  destruct (is_nil a).
  { eapply pc_bind; [apply pc_true|]. intros x _. eapply pc_bind; [apply pc_add_u|]. intros. now apply pc_mag. }
  destruct (is_nil b).
  { eapply pc_bind; [apply pc_true|]. intros x _. eapply pc_bind; [apply pc_add_u|]. intros. now apply pc_mag. }
  destruct (Nat.ltb _ _); (eapply pc_bind; [apply pc_add|]); intros; now apply pc_mag.
Qed.
Lemma pc_sub_parts c a s b t : pc (bi_sub_parts c a s b t) canonical.
Proof.
  unfold bi_sub_parts. cbv zeta. destruct (_ && _).
  { eapply pc_bind; [apply pc_chk64|]. intros. now apply pc_int64. }
  destruct (is_nil a).
  { eapply pc_bind; [apply pc_true|]. intros x _. eapply pc_bind; [apply pc_sub_u|]. intros. now apply pc_mag. }
  destruct (is_nil b).
  { eapply pc_bind; [apply pc_true|]. intros x _. eapply pc_bind; [apply pc_sub_u|]. intros. now apply pc_mag. }
  eapply pc_bind; [apply pc_true|]. intros cmp _.
  destruct (cmp <? 0); (eapply pc_bind; [apply pc_sub|]); intros; now apply pc_mag.
Qed.

(** ** Actions *)

Definition all_canonical (m : mem) : Prop := forall p, canonical (m p).

(** From a store of canonical objects the action leaves one, however it ends,
    and what it returns satisfies [Q]. *)
Definition safe {A} (a : act A) (Q : A -> Prop) : Prop :=
  forall m, all_canonical m -> all_canonical (snd (a m)) /\ pc (fst (a m)) Q.

Lemma safe_lift {A} (o : outcome A) Q : pc o Q -> safe (lift o) Q.
Proof. intros H m Hm. now split. Qed.
Lemma safe_seq {A B} (a : act A) (k : A -> act B) (P : A -> Prop) (Q : B -> Prop) :
  safe a P -> (forall x, P x -> safe (k x) Q) -> safe (seq a k) Q.
Proof.
  intros Ha Hk m Hm. destruct (Ha m Hm) as (H1 & H2). unfold seq. destruct (a m) as [[x| | | |] m'] eqn:E; cbn [fst snd] in *.
  - apply (Hk x); [now apply H2|assumption].
  - split; [assumption|discriminate].
  - split; [assumption|discriminate].
  - split; [assumption|discriminate].
  - split; [assumption|discriminate].
Qed.
Lemma safe_load p : safe (load p) canonical.
Proof. intros m Hm. split; [exact Hm|]. apply pc_ret, Hm. Qed.
Lemma safe_sgn p : safe (sgn p) is_int.
Proof. intros m Hm. split; [exact Hm|]. apply pc_ret, canonical_sign, Hm. Qed.
Lemma safe_limbs p : safe (limbs_at p) limbs.
Proof. intros m Hm. split; [exact Hm|]. apply pc_ret, canonical_limbs, Hm. Qed.
Lemma safe_valid c p : safe (valid c p) (fun _ => True).
Proof. intros m Hm. split; [exact Hm|]. apply pc_true. Qed.
Lemma safe_store p b : canonical b -> safe (store p b) (fun _ => True).
Proof.
  intros Hb m Hm. split; [|apply pc_true]. intros q. cbn [store snd put]. unfold put.
  destruct (Nat.eqb q p); [assumption|apply Hm].
Qed.
Lemma safe_into r o : pc o canonical -> safe (into r o) (fun _ => True).
Proof. intros H. unfold into. eapply safe_seq; [apply safe_lift; eassumption|]. intros. now apply safe_store. Qed.

Lemma safe_assign o c p q : safe (run_assign o c p q) (fun _ => True).
Proof.
  intros m Hm. split; [|apply pc_true]. pose proof (run_assign_pure o c p q m) as H.
  pose proof (pc_bin o c (m p) (m q) (Hm p) (Hm q)) as Hpc. change (bin o) with (pure_assign o) in Hpc.
  destruct (pure_assign o c (m p) (m q)) as [z| | | |]; cbn [commits] in H.
  - destruct H as (_ & H). intros x. rewrite H. destruct (Nat.eqb x p); [now apply Hpc|apply Hm].
  - rewrite H. exact Hm.
  - rewrite H. exact Hm.
  - rewrite H. exact Hm.
  - rewrite H. exact Hm.
Qed.
Lemma safe_shl c p s : is_int s -> safe (mem_shl c p s) (fun _ => True).
Proof.
  intros Hs. unfold mem_shl. destruct (s =? 0); [apply safe_lift, pc_true|].
  eapply safe_seq; [apply safe_load|]. intros b Hb. eapply safe_seq; [apply safe_lift; now apply pc_shl|].
  intros. now apply safe_store.
Qed.
Lemma safe_shr c p s : is_int s -> safe (mem_shr c p s) (fun _ => True).
Proof.
  intros Hs. unfold mem_shr. destruct (s =? 0); [apply safe_lift, pc_true|].
  destruct (_ && _) eqn:E.
  - apply safe_shl. apply andb_prop in E as [E1 E2]. apply Z.ltb_lt in E1. destruct (Z.eqb_spec s INT_MIN); [discriminate|].
    unfold is_int in *. num. lia.
  - eapply safe_seq; [apply safe_load|]. intros b Hb. eapply safe_seq; [apply safe_lift; now apply pc_shr|].
    intros. now apply safe_store.
Qed.
Lemma safe_inc c p : safe (mem_inc c p) (fun _ => True).
Proof.
  unfold mem_inc. eapply safe_seq; [apply safe_lift, pc_int32; unfold is_int; lia|]. intros o Ho.
  eapply safe_seq; [apply safe_load|]. intros b Hb.
  eapply safe_seq; [apply safe_lift; now apply (pc_bin AddA)|]. intros z Hz.
  eapply safe_seq; [now apply safe_store|]. intros _ _. apply safe_lift, pc_true.
Qed.
Lemma safe_dec c p : safe (mem_dec c p) (fun _ => True).
Proof.
  unfold mem_dec. eapply safe_seq; [apply safe_lift, pc_int32; unfold is_int; lia|]. intros o Ho.
  eapply safe_seq; [apply safe_load|]. intros b Hb.
  eapply safe_seq; [apply safe_lift; now apply (pc_bin SubA)|]. intros z Hz.
  eapply safe_seq; [now apply safe_store|]. intros _ _. apply safe_lift, pc_true.
Qed.
Lemma pc_int_div c a b : pc (int_div c a b) is_int.
Proof. unfold int_div. destruct (b =? 0); [apply pc_undef|apply pc_chk32]. Qed.
Lemma pc_int_mod c a b : is_int a -> is_int b -> pc (int_mod c a b) is_int.
Proof.
  intros Ha Hb. unfold int_mod. destruct (Z.eqb_spec b 0) as [E|E]; [apply pc_undef|].
  eapply pc_bind; [apply pc_true|]. intros _ _. apply pc_ret. pose proof (Z.rem_bound_abs a b E). unfold is_int in *. lia.
Qed.
Lemma safe_div_rem c p q r : safe (mem_div_rem c p q r) canonical.
Proof.
  unfold mem_div_rem.
  eapply safe_seq; [apply safe_valid|]. intros _ _. eapply safe_seq; [apply safe_valid|]. intros _ _.
  eapply safe_seq; [apply safe_limbs|]. intros db Hdb. cbv zeta. eapply safe_seq; [apply safe_limbs|]. intros vb Hvb.
  destruct (is_nil db && is_nil vb).
  { eapply safe_seq; [apply safe_sgn|]. intros vs Hvs. destruct (vs =? 0); [apply safe_lift, pc_throw|].
    eapply safe_seq; [apply safe_sgn|]. intros ds Hds. eapply safe_seq; [apply safe_sgn|]. intros vs' Hvs'.
    eapply safe_seq; [apply safe_lift; now apply pc_int_mod|]. intros x Hx.
    eapply safe_seq; [apply safe_lift; now apply pc_int32|]. intros x' Hx'.
    eapply safe_seq; [now apply safe_store|]. intros _ _.
    eapply safe_seq; [apply safe_sgn|]. intros. eapply safe_seq; [apply safe_sgn|]. intros.
    eapply safe_seq; [apply safe_lift, pc_int_div|]. intros. apply safe_lift. now apply pc_int32. }
  destruct (is_nil db).
  { eapply safe_seq; [apply safe_load|]. intros d Hd. eapply safe_seq; [now apply safe_store|]. intros _ _.
    apply safe_lift, pc_int32. unfold is_int; lia. }
  destruct (is_nil vb).
  { eapply safe_seq; [apply safe_limbs|]. intros rb Hrb. eapply safe_seq; [apply safe_sgn|]. intros vs Hvs.
    eapply safe_seq; [apply safe_lift, pc_abs32|]. intros a Ha.
    eapply safe_seq; [apply safe_lift, pc_divrem_u|]. intros (bits, rest) (H1 & H2). cbn [fst snd] in *.
    eapply safe_seq; [apply safe_sgn|]. intros ds Hds.
    eapply safe_seq; [apply safe_lift, pc_uint32; destruct (ds <? 0); [apply u32_limb|assumption]|]. intros x Hx.
    eapply safe_seq; [now apply safe_store|]. intros _ _.
    eapply safe_seq; [apply safe_sgn|]. intros. eapply safe_seq; [apply safe_sgn|]. intros.
    apply safe_lift. now apply pc_mag. }
  eapply safe_seq; [apply safe_limbs|]. intros db' Hdb'. eapply safe_seq; [apply safe_limbs|]. intros vb' Hvb'.
  destruct (Nat.ltb _ _).
  { eapply safe_seq; [apply safe_load|]. intros d Hd. eapply safe_seq; [now apply safe_store|]. intros _ _.
    apply safe_lift, pc_int32. unfold is_int; lia. }
  eapply safe_seq; [apply safe_limbs|]. intros lb Hlb. eapply safe_seq; [apply safe_limbs|]. intros rb Hrb.
  eapply safe_seq; [apply safe_lift; now apply pc_divrem|]. intros (bits, rest) (H1 & H2). cbn [fst snd] in *.
  eapply safe_seq; [apply safe_sgn|]. intros ds Hds.
  eapply safe_seq; [apply safe_lift; now apply pc_mag|]. intros x Hx.
  eapply safe_seq; [now apply safe_store|]. intros _ _.
  eapply safe_seq; [apply safe_sgn|]. intros. eapply safe_seq; [apply safe_sgn|]. intros.
  apply safe_lift. now apply pc_mag.
Qed.

Lemma safe_cmd fuel c k : typed k -> safe (run_cmd fuel c k) (fun _ => True).
Proof.
  destruct k; cbn [typed run_cmd]; intros T.
  - apply safe_store. vm_compute. auto.
  - apply safe_into. now apply pc_int32.
  - apply safe_into. now apply pc_uint32.
  - apply safe_into. now apply pc_int64.
  - apply safe_into. now apply pc_uint64.
  - apply safe_into. now apply pc_double.
  - apply safe_into. now apply pc_mag.
  - apply safe_into. now apply pc_bytes.
  - eapply safe_seq; [apply safe_load|]. intros. now apply safe_store.
  - apply safe_into, pc_int32. unfold is_int; lia.
  - apply safe_into, pc_int32. unfold is_int; lia.
  - apply safe_into, pc_int32. unfold is_int; lia.
  - apply safe_into. eapply pc_returns, TextFacts.parse_returns.
  - eapply safe_seq; [apply safe_load|]. intros old Hold.
    eapply (safe_seq _ _ (fun p => canonical (snd p))); [|intros; now apply safe_store]. apply safe_lift.
    unfold bi_try_parse. destruct (TextFacts.parse_returns c s) as (b & -> & Hb & _). now apply pc_ret.
  - apply safe_assign.
  - eapply safe_seq; [apply safe_load|]. intros x Hx. eapply safe_seq; [apply safe_load|]. intros y Hy.
    apply safe_into. now apply pc_bin.
  - now apply safe_shl.
  - now apply safe_shr.
  - eapply safe_seq; [apply safe_load|]. intros. apply safe_into. now apply pc_shl.
  - eapply safe_seq; [apply safe_load|]. intros. apply safe_into. now apply pc_shr.
  - eapply safe_seq; [apply safe_inc|]. intros. apply safe_lift, pc_true.
  - eapply safe_seq; [apply safe_dec|]. intros. apply safe_lift, pc_true.
  - eapply safe_seq; [apply safe_load|]. intros. apply safe_into. now apply pc_unary.
  - eapply safe_seq; [apply safe_load|]. intros. apply safe_into. now apply pc_unary.
  - eapply safe_seq; [apply safe_load|]. intros. apply safe_into. now apply pc_unary.
  - eapply safe_seq; [apply safe_load|]. intros. apply safe_into. now apply pc_unary.
  - eapply safe_seq; [apply safe_div_rem|]. intros. now apply safe_store.
  - eapply safe_seq; [apply safe_load|]. intros. apply safe_into. now apply pc_pow.
  - eapply safe_seq; [apply safe_load|]. intros. eapply safe_seq; [apply safe_load|]. intros.
    eapply safe_seq; [apply safe_load|]. intros. apply safe_into. now apply pc_mod_pow.
  - eapply safe_seq; [apply safe_load|]. intros. eapply safe_seq; [apply safe_load|]. intros.
    apply safe_into. now apply pc_bi_gcd.
  - apply safe_into. destruct T. now apply pc_gcd_bits.
  - apply safe_into, pc_add_parts.
  - apply safe_into, pc_sub_parts.
Qed.

Theorem reachable_canonical c m p : reachable c m -> canonical (m p).
Proof.
  intros H. revert p. change (all_canonical m). induction H as [|k fuel m m' _ IH T E|k fuel e m m' _ IH T E].
  - intros p. vm_compute. auto.
  - destruct (safe_cmd fuel c k T m IH) as (H & _). now rewrite E in H.
  - destruct (safe_cmd fuel c k T m IH) as (H & _). now rewrite E in H.
Qed.

Theorem reachable_identical c m p q :
  reachable c m -> (value (m p) = value (m q) <-> m p = m q).
Proof.
  intros H. split; [|congruence]. intros E.
  apply (represents_unique _ _ (value (m p))); (split; [now apply (reachable_canonical c)|congruence]).
Qed.

Theorem reachable_valid c m p : reachable c m -> assert_valid c (m p) = Ret tt.
Proof.
  intros H. apply (reachable_canonical c m p), canonical_represents in H. exact (assert_valid_ok c _ _ H).
Qed.
