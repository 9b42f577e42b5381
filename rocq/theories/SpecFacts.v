(** Basic facts on canonical objects and the constructors that build them. *)
From Verif Require Import Facts Spec AddSubFacts BigInt.

Ltac Zify.zify_post_hook ::= idtac.

Lemma magnitude_val l : magnitude l = val l.
Proof. induction l as [|x l IH]; cbn [magnitude val]; [reflexivity|]. rewrite IH. reflexivity. Qed.

Lemma last_nth (l : list Z) : last l 0 = nth (length l - 1) l 0.
Proof.
  induction l as [|x l IH]; [reflexivity|].
  destruct l as [|y l]; [reflexivity|].
  change (last (x :: y :: l) 0) with (last (y :: l) 0). rewrite IH.
  cbn [length]. replace (S (S (length l)) - 1)%nat with (S (S (length l) - 1)) by lia.
  reflexivity.
Qed.

(** Both shapes of a canonical object. *)
Inductive repr_view : bigint -> Z -> Prop :=
| view_small z : INT_MIN < z <= INT_MAX -> repr_view (Big z []) z
| view_big s l : s = 1 \/ s = -1 -> l <> [] -> limbs l -> top_nz l -> 2147483648 <= val l ->
    repr_view (Big s l) (s * val l).

Lemma represents_view b z : represents b z <-> repr_view b z.
Proof.
  split.
  - intros (Hc & Hv). destruct b as [s l]. unfold canonical, value in *. cbn [sign_of bits_of] in *.
    destruct l as [|x l].
    + subst z. constructor. change (2 ^ 31) with 2147483648 in Hc.
      unfold INT_MIN, INT_MAX. lia.
    + destruct Hc as (H1 & H2 & H3 & H4). rewrite magnitude_val in *. subst z.
      constructor; auto; [discriminate|]. unfold top_nz. now rewrite <- last_nth.
  - intros H. destruct H as [z Hz|s l Hs Hne Hl Ht Hv]; split; unfold canonical, value; cbn [sign_of bits_of].
    + change (2 ^ 31) with 2147483648. unfold INT_MIN, INT_MAX in *. lia.
    + reflexivity.
    + destruct l as [|x l]; [congruence|]. rewrite magnitude_val, last_nth.
      repeat split; assumption.
    + destruct l as [|x l]; [congruence|]. now rewrite magnitude_val.
Qed.

Lemma top_nz_cons_nil x : top_nz [x] <-> x <> 0.
Proof. reflexivity. Qed.

Lemma last_eqb l : top_nz l -> (last l 0 =? 0) = false.
Proof. intros H. rewrite last_nth. apply Z.eqb_neq. exact H. Qed.

Lemma assert_valid_ok c b z : represents b z -> assert_valid c b = Ret tt.
Proof.
  intros H. apply represents_view in H. unfold assert_valid, massert.
  destruct (dbg c); [|reflexivity].
  destruct H as [z Hz|s l Hs Hne Hl Ht Hv]; cbn [bits_of sign_of].
  - now rewrite (proj2 (Z.ltb_lt _ _) (proj1 Hz)).
  - destruct l as [|x l]; [congruence|].
    assert ((s =? 1) || (s =? -1) = true) as -> by (destruct Hs; subst; reflexivity).
    rewrite last_eqb by assumption. cbn [bind negb].
    assert (Nat.ltb 1 (length (x :: l)) || (kuMaskHighBit <=? x) = true) as ->; [|reflexivity].
    destruct l as [|y l]; [|reflexivity]. cbn [val] in Hv. unfold kuMaskHighBit.
    apply Z.leb_le. num. lia.
Qed.

Lemma checked_ok c b z : represents b z -> checked c b = Ret b.
Proof. intros H. unfold checked. now rewrite (assert_valid_ok _ _ _ H). Qed.

Lemma wp_checked c b z : represents b z -> wp (checked c b) (fun r => represents r z).
Proof. intros H. rewrite (checked_ok _ _ _ H). exact H. Qed.

Lemma wp_valid c b z (Q : unit -> Prop) : represents b z -> Q tt -> wp (assert_valid c b) Q.
Proof. intros H HQ. rewrite (assert_valid_ok _ _ _ H). exact HQ. Qed.

Lemma returns_wp o z : returns o z <-> wp o (fun r => represents r z).
Proof.
  split.
  - intros (r & -> & H). exact H.
  - intros H. apply wp_inv in H. exact H.
Qed.

(** Small objects. *)
Lemma repr_small z : INT_MIN < z <= INT_MAX -> represents (Big z []) z.
Proof. intros. apply represents_view. now constructor. Qed.

Lemma repr_big s l z :
  s = 1 \/ s = -1 -> l <> [] -> limbs l -> top_nz l -> 2147483648 <= val l ->
  s * val l = z -> represents (Big s l) z.
Proof. intros. subst z. apply represents_view. now constructor. Qed.

Lemma repr_zero : represents s_bnZeroInt 0.
Proof. apply repr_small. num; lia. Qed.
Lemma repr_one : represents s_bnOneInt 1.
Proof. apply repr_small. num; lia. Qed.
Lemma repr_minus_one : represents s_bnMinusOneInt (-1).
Proof. apply repr_small. num; lia. Qed.

Lemma repr_minint : represents s_bnMinInt INT_MIN.
Proof.
  apply repr_big; auto; try discriminate.
  - repeat constructor; unfold limb, kuMaskHighBit; num; lia.
Qed.

(** One- and two-limb objects. *)
Lemma repr_limb1 s x : s = 1 \/ s = -1 -> 2147483648 <= x < W32 -> represents (Big s [x]) (s * x).
Proof.
  intros. apply repr_big; auto; try discriminate.
  - repeat constructor; unfold limb; num; lia.
  - unfold top_nz. cbn [length nth Nat.sub]. lia.
  - cbn [val]. lia.
  - cbn [val]. lia.
Qed.

Lemma repr_limb2 s x y :
  s = 1 \/ s = -1 -> limb x -> limb y -> y <> 0 ->
  represents (Big s [x; y]) (s * (x + W32 * y)).
Proof.
  intros. apply repr_big; auto; try discriminate.
  - repeat constructor; unfold limb in *; num; lia.
  - cbn [val]. num. lia.
  - cbn [val]. num. lia.
Qed.

(** ** Constructors from machine integers *)

Lemma bi_of_int32_spec c v :
  INT_MIN <= v <= INT_MAX -> wp (bi_of_int32 c v) (fun r => represents r v).
Proof.
  intros Hv. unfold bi_of_int32. destruct (Z.eqb_spec v INT_MIN) as [->|H].
  - apply wp_checked, repr_minint.
  - apply wp_checked, repr_small. num; lia.
Qed.

Lemma bi_of_uint32_spec c v :
  0 <= v <= UINT_MAX -> wp (bi_of_uint32 c v) (fun r => represents r v).
Proof.
  intros Hv. unfold bi_of_uint32, UINT_MAX in *. destruct (Z.leb_spec v INT_MAX).
  - apply wp_checked, repr_small. num; lia.
  - apply wp_checked. replace v with (1 * v) at 2 by ring. apply repr_limb1; auto. num; lia.
Qed.

Lemma bi_of_int64_spec c v :
  LONG_MIN < v <= LONG_MAX -> wp (bi_of_int64 c v) (fun r => represents r v).
Proof.
  intros Hv. unfold bi_of_int64.
  destruct (Z.ltb_spec INT_MIN v) as [H1|H1]; [destruct (Z.leb_spec v INT_MAX) as [H2|H2]|]; cbn [andb].
  { apply wp_checked, repr_small. num; lia. }
  all: destruct (Z.eqb_spec v INT_MIN) as [E|E]; [subst v; apply wp_checked, repr_minint|].
  all: destruct (Z.ltb_spec v 0) as [H0|H0].
  all: repeat wstep; try (num; lia).
  all: match goal with
       | |- wp (if ?x <=? _ then checked _ (Big ?s _) else _) _ =>
           assert (exists y, x = y /\ 2147483648 <= y < W64 /\ v = s * y) as (y & -> & Hy & ->)
             by (eexists; split; [apply u64_small; num; lia|num; lia])
       end.
  all: destruct (Z.leb_spec y UINT_MAX) as [H3|H3]; unfold UINT_MAX in *; apply wp_checked.
  all: try (rewrite u32_small by (num; lia); apply repr_limb1; auto; num; lia).
  all: assert (0 < Z.shiftr y 32 < W32) as Hs
         by (assert (1 <= Z.shiftr y 32 < W32) by (apply shiftr32_range; num; lia); lia).
  all: unfold kcbitUint; rewrite (u32_small (Z.shiftr y 32)) by lia.
  all: pose proof (split32 y) as Hsp.
  all: match goal with |- represents (Big ?s ?l) _ => rewrite Hsp at 3 end.
  all: apply repr_limb2; auto; try apply u32_limb; unfold limb; lia.
Qed.

(** In the wrapping semantics LONG_MIN is fine too. *)
Lemma bi_of_int64_min c :
  strict c = false -> wp (bi_of_int64 c LONG_MIN) (fun r => represents r LONG_MIN).
Proof.
  intros H. unfold bi_of_int64, chk64. rewrite H.
  cbn -[represents checked]. apply wp_checked.
  apply (repr_limb2 (-1) 0 2147483648); auto; unfold limb; num; lia.
Qed.

Lemma bi_of_int64_min_strict c :
  strict c = true -> bi_of_int64 c LONG_MIN = Undef SignedOverflow.
Proof. intros H. unfold bi_of_int64, chk64. rewrite H. reflexivity. Qed.

Lemma bi_of_uint64_spec c v :
  0 <= v < W64 -> wp (bi_of_uint64 c v) (fun r => represents r v).
Proof.
  intros Hv. unfold bi_of_uint64.
  destruct (Z.leb_spec v INT_MAX) as [H1|H1].
  { apply wp_checked, repr_small. num; lia. }
  destruct (Z.leb_spec v UINT_MAX) as [H2|H2]; unfold UINT_MAX in *; apply wp_checked.
  - rewrite u32_small by (num; lia). replace v with (1 * v) at 2 by ring.
    apply repr_limb1; auto. num; lia.
  - assert (0 < Z.shiftr v 32 < W32) as Hs
         by (assert (1 <= Z.shiftr v 32 < W32) by (apply shiftr32_range; num; lia); lia).
    unfold kcbitUint; rewrite (u32_small (Z.shiftr v 32)) by lia.
    pose proof (split32 v) as Hsp.
    replace v with (1 * (u32 v + W32 * Z.shiftr v 32)) at 3 by lia.
    apply repr_limb2; auto; try apply u32_limb; unfold limb; lia.
Qed.

(** ** The magnitude constructor *)

(** [trim_len] finds the length without leading zeros. *)
Lemma trim_len_spec l n :
  (n <= length l)%nat ->
  wp (trim_len l n) (fun k => (k <= n)%nat /\ vl l k = vl l n /\
                              (k = O \/ nth (k - 1) l 0 <> 0)).
Proof.
  induction n as [|n IH]; intros Hn; cbn [trim_len].
  - wstep. auto.
  - wstep. wstep; [lia|]. destruct (Z.eqb_spec (nth n l 0) 0) as [E|E].
    + eapply wp_mono; [apply IH; lia|]. intros k (A & B & C). repeat split; auto.
      rewrite B, vl_S, E. ring.
    + wstep. repeat split; auto. right. now replace (S n - 1)%nat with n by lia.
Qed.

Lemma pop_zeros_spec n bits :
  length bits = n -> limbs bits ->
  exists k, pop_zeros n bits = firstn k bits /\ (k <= n)%nat /\ vl bits k = val bits /\
            (k = O \/ nth (k - 1) bits 0 <> 0).
Proof.
  revert bits. induction n as [|n IH]; intros bits Hlen Hl; cbn [pop_zeros].
  - exists O. destruct bits; [|discriminate]. repeat split; auto.
  - destruct (Z.eqb_spec (nth n bits 0) 0) as [E|E].
    + destruct (IH (firstn n bits)) as (k & A & B & C & D).
      * rewrite firstn_length. lia.
      * apply limbs_firstn; auto.
      * exists k. repeat split; auto.
        -- rewrite A. rewrite firstn_firstn. f_equal. lia.
        -- rewrite <- (vl_ge bits (S n)) by lia. rewrite vl_S, E, Z.mul_0_l, Z.add_0_r.
           unfold vl in *. rewrite firstn_firstn in C. rewrite Nat.min_l in C by lia. exact C.
        -- destruct D as [D|D]; [auto|]. destruct k as [|k]; [auto|].
           right. replace (S k - 1)%nat with k in * by lia.
           intros F. apply D. rewrite <- (firstn_skipn n bits) in F.
           rewrite app_nth1 in F; [exact F|]. rewrite firstn_length. lia.
    + exists (S n). repeat split; auto.
      * rewrite firstn_all2 by lia. reflexivity.
      * apply vl_ge. lia.
      * right. now replace (S n - 1)%nat with n by lia.
Qed.

(** Length and low limb of a value. *)
Lemma trimmed_facts l k :
  limbs l -> (k <= length l)%nat -> vl l k = val l -> (k = O \/ nth (k - 1) l 0 <> 0) ->
  (k = O -> val l = 0) /\
  (k = 1%nat -> val l = nth 0 l 0 /\ val l <> 0) /\
  ((2 <= k)%nat -> W32 <= val l).
Proof.
  intros Hl Hk Hv Hnz. split; [|split].
  - intros ->. rewrite <- Hv. reflexivity.
  - intros ->. rewrite <- Hv, vl_S, vl_0, Bp_0. destruct Hnz as [|Hnz]; [lia|].
    cbn [Nat.sub] in Hnz. lia.
  - intros H2. destruct Hnz as [|Hnz]; [lia|].
    rewrite <- Hv. replace k with (S (k - 1)) by lia. rewrite vl_S.
    pose proof (vl_bound l (k - 1) Hl). pose proof (limbs_nth _ (k - 1) Hl) as Hn.
    pose proof (Bp_le 1 (k - 1) ltac:(lia)) as HB. rewrite Bp_1 in HB.
    unfold limb in Hn.
    assert (1 * Bp (k - 1) <= nth (k - 1) l 0 * Bp (k - 1)).
    { apply Z.mul_le_mono_nonneg_r; lia. }
    lia.
Qed.

Lemma s32_pos x : 0 <= x < 2147483648 -> s32 x = x.
Proof. intros. apply s32_small. unfold INT_MIN, INT_MAX. lia. Qed.

Lemma top_nz_firstn l k : (1 <= k <= length l)%nat -> nth (k - 1) l 0 <> 0 -> top_nz (firstn k l).
Proof.
  intros Hk H. unfold top_nz. rewrite firstn_length, Nat.min_l by lia.
  rewrite <- (firstn_skipn k l) in H. rewrite app_nth1 in H; [exact H|].
  rewrite firstn_length. lia.
Qed.

Lemma bi_of_mag_spec c l neg :
  limbs l ->
  wp (bi_of_mag c l neg) (fun r => represents r (if neg : bool then - val l else val l)).
Proof.
  intros Hl. unfold bi_of_mag. wstep.
  eapply wp_mono; [apply trim_len_spec; lia|]. intros k (Hk & Hv & Hnz).
  rewrite vl_all in Hv.
  destruct (trimmed_facts l k Hl Hk Hv Hnz) as (F0 & F1 & F2).
  pose proof (limbs_nth _ 0 Hl) as H0.
  assert (forall z, l <> [] -> (1 <= k)%nat -> 2147483648 <= val l ->
    z = (if neg then - val l else val l) ->
    represents (Big (if neg then -1 else 1) (pop_zeros (length l) l)) z) as Hbig.
  { intros z Hne Hk1 Hge ->.
    destruct (pop_zeros_spec (length l) l eq_refl Hl) as (j & P1 & P2 & P3 & P4).
    assert (1 <= j)%nat as Hj.
    { destruct j; [|lia]. rewrite vl_0 in P3. lia. }
    assert (val (pop_zeros (length l) l) = val l) as Hpv by (rewrite P1; exact P3).
    apply repr_big.
    - destruct neg; auto.
    - rewrite P1. intros E. apply (f_equal (@length Z)) in E. rewrite firstn_length in E. simpl in E. lia.
    - rewrite P1. apply limbs_firstn; auto.
    - rewrite P1. apply top_nz_firstn; [lia|]. destruct P4; [lia|assumption].
    - rewrite Hpv. assumption.
    - rewrite Hpv. destruct neg; ring. }
  wstep. eapply wp_mono with (P := fun v0 => k = 1%nat -> v0 = val l).
  { destruct (Nat.eqb_spec k 1) as [E|E]; [|wstep; lia].
    wstep; [lia|]. intros _. symmetry. apply F1; assumption. }
  intros v0 Hv0.
  destruct (Nat.eqb_spec k 0) as [E0|E0].
  { cbv zeta. cbn [sign_of bits_of s_bnZeroInt length pop_zeros]. apply wp_checked.
    rewrite (F0 E0). destruct neg; apply repr_zero. }
  assert (l <> []) as Hne by (intros ->; simpl in *; lia).
  destruct (Nat.eqb_spec k 1) as [E1|E1]; cbn [andb].
  - destruct (F1 E1) as (Hl0 & Hn0). rewrite (Hv0 E1).
    destruct (Z.ltb_spec (val l) kuMaskHighBit) as [Hlt|Hge]; cbv zeta.
    + unfold kuMaskHighBit in *.
      rewrite s32_pos by (num; lia).
      destruct (Z.eqb_spec (if neg then - val l else val l) INT_MIN) as [E|E].
      * exfalso. destruct neg; num; lia.
      * cbn [sign_of bits_of length pop_zeros]. apply wp_checked. apply repr_small.
        destruct neg; num; lia.
    + cbn [sign_of bits_of]. apply wp_checked. apply Hbig; auto; try lia.
  - cbv zeta. cbn [sign_of bits_of]. apply wp_checked. apply Hbig; auto; try lia.
    assert (W32 <= val l) by (apply F2; lia). num. lia.
Qed.

(** ** Uniqueness of the canonical form *)

Lemma val_inj_len a b : limbs a -> limbs b -> length a = length b -> val a = val b -> a = b.
Proof.
  revert b; induction a as [|x a IH]; intros [|y b] Ha Hb Hlen Hv; try discriminate; auto.
  cbn [val length] in *. inversion Ha; inversion Hb; subst.
  assert (x = y /\ val a = val b) as (-> & E) by (num; lia).
  f_equal. apply IH; auto.
Qed.

Lemma val_inj a b :
  a <> [] -> b <> [] -> limbs a -> limbs b -> top_nz a -> top_nz b -> val a = val b -> a = b.
Proof.
  intros Hna Hnb Ha Hb Hta Htb Hv.
  destruct (Nat.lt_trichotomy (length a) (length b)) as [H|[H|H]].
  - pose proof (length_lt_val a b Ha Hb Hnb Htb H). lia.
  - apply val_inj_len; auto.
  - pose proof (length_lt_val b a Hb Ha Hna Hta H). lia.
Qed.

Lemma represents_unique a b z : represents a z -> represents b z -> a = b.
Proof.
  rewrite !represents_view. intros Ha Hb.
  destruct Ha as [z Hz|s l Hs Hne Hl Ht Hv].
  - inversion Hb as [z' Hz' E1 E2|s' l' Hs' Hne' Hl' Ht' Hv' E1 E2]; [reflexivity|].
    exfalso. destruct Hs'; subst; num; lia.
  - inversion Hb as [z' Hz' E1 E2|s' l' Hs' Hne' Hl' Ht' Hv' E1 E2].
    + exfalso. destruct Hs; subst; num; lia.
    + assert (s = s' /\ val l = val l') as (-> & E).
      { destruct Hs, Hs'; subst; lia. }
      f_equal. apply val_inj; auto.
Qed.

Lemma represents_fun a x y : represents a x -> represents a y -> x = y.
Proof. intros (_ & H1) (_ & H2). congruence. Qed.
