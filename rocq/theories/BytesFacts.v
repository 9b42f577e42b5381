(** The byte-array constructor. *)
From Verif Require Import Facts Spec SpecPos PosFacts AddSubFacts SquMulFacts DivCoreFacts SpecFacts BigIntFacts CompareFacts ConvFacts SpecApi ShiftFacts WordFacts BigInt BigIntBytes.

Ltac Zify.zify_post_hook ::= idtac.

Lemma B8_ok : 2 <= 256. Proof. discriminate. Qed.
Lemma B8_even : 256 mod 2 = 0. Proof. reflexivity. Qed.

Notation p8 := (bp 256).

(** Byte [j] of the infinite two's complement expansion of [A]. *)
Definition byte_of (A : Z) (j : nat) : Z := (A / p8 j) mod 256.

Lemma byte_range A j : 0 <= byte_of A j < 256.
Proof. apply Z.mod_pos_bound. lia. Qed.

Lemma p8_pos n : 0 < p8 n.
Proof. apply bp_pos. lia. Qed.

(** One Horner step. *)
Lemma horner A j : A / p8 j = 256 * (A / p8 (S j)) + byte_of A j.
Proof.
  unfold byte_of. rewrite bp_S by lia. rewrite (Z.mul_comm 256 (p8 j)).
  rewrite <- Z.div_div by (pose proof (p8_pos j); lia). apply Z.div_mod. lia.
Qed.

Lemma p8_4 n : p8 (4 * n) = Bp n.
Proof.
  induction n as [|n IH]; [reflexivity|]. replace (4 * S n)%nat with (S (S (S (S (4 * n))))) by lia.
  rewrite !bp_S, IH, Bp_S by lia. num. ring.
Qed.

Lemma lor_byte x v : 0 <= v < 256 -> Z.lor (x * 256) v = x * 256 + v.
Proof. intros H. apply (lor_add x v 8); [lia|exact H]. Qed.

Lemma shl8_lor x v : 0 <= v < 256 -> Z.lor (u32 (Z.shiftl x 8)) v = (x * 256 + v) mod W32.
Proof.
  intros Hv. rewrite Z.shiftl_mul_pow2 by lia. change (2 ^ 8) with 256. unfold u32.
  replace ((x * 256) mod W32) with ((x mod 16777216) * 256).
  2:{ change W32 with (16777216 * 256). rewrite Z.mul_mod_distr_r by lia. reflexivity. }
  rewrite lor_byte by exact Hv. pose proof (Z.mod_pos_bound x 16777216 ltac:(lia)) as M.
  pose proof (Z.div_mod x 16777216 ltac:(lia)) as D.
  apply (Z.mod_unique_pos _ _ (x / 16777216)); [num; lia|].
  set (q := x / 16777216) in *. set (r := x mod 16777216) in *. clearbody q r. num. lia.
Qed.

(** ** s32 *)

Lemma s32_mod x : exists k, s32 x = x + k * W32.
Proof.
  unfold s32, u32. pose proof (Z.div_mod x W32 ltac:(num; lia)) as D.
  set (q := x / W32) in *. set (r := x mod W32) in *. clearbody q r. cbv zeta.
  destruct (r <? 2147483648); [exists (- q)|exists (- q - 1)]; lia.
Qed.

Lemma s32_eq x y k : y = x + k * W32 -> s32 y = s32 x.
Proof. intros ->. unfold s32, u32. rewrite Z.mod_add by (num; lia). reflexivity. Qed.

Lemma s32_small x : INT_MIN <= x <= INT_MAX -> s32 x = x.
Proof.
  intros H. destruct (s32_mod x) as (k & E). pose proof (s32_range x). rewrite E in *.
  num. lia.
Qed.

Lemma s32_shl8 x v : 0 <= v < 256 -> Z.lor (s32 (Z.shiftl (s32 x) 8)) v = s32 (256 * x + v).
Proof.
  intros Hv. rewrite Z.shiftl_mul_pow2 by lia. change (2 ^ 8) with 256.
  destruct (s32_mod x) as (k & ->).
  rewrite (s32_eq (x * 256) ((x + k * W32) * 256) (k * 256)) by ring.
  destruct (s32_mod (x * 256)) as (k2 & E2). pose proof (s32_range (x * 256)) as R. rewrite E2 in *.
  replace (x * 256 + k2 * W32) with ((x + k2 * 16777216) * 256) in * by (num; ring).
  rewrite lor_byte by exact Hv.
  rewrite <- (s32_eq (256 * x + v) ((x + k2 * 16777216) * 256 + v) k2) by (num; ring).
  symmetry. apply s32_small. num. set (t := x + k2 * 16777216) in *. clearbody t. lia.
Qed.

(** ** Step one: sign and trimming *)

Lemma trim_len_zeros l n :
  (n <= length l)%nat ->
  wp (trim_len l n) (fun k => (k <= n)%nat /\ (forall i, (k <= i < n)%nat -> nth i l 0 = 0) /\
                              (k = O \/ nth (k - 1) l 0 <> 0)).
Proof.
  induction n as [|n IH]; intros Hn; cbn [trim_len].
  - wstep. split; [lia|]. split; [lia|auto].
  - wstep. wstep; [lia|]. destruct (Z.eqb_spec (nth n l 0) 0) as [E|E].
    + eapply wp_mono; [apply IH; lia|]. intros k (A & B & C). split; [lia|]. split; [|exact C].
      intros i Hi. destruct (Nat.eq_dec i n) as [->|]; [exact E|apply B; lia].
    + wstep. split; [lia|]. split; [lia|]. right. now replace (S n - 1)%nat with n by lia.
Qed.

Lemma be_skip_spec l n off :
  (off + n = length l)%nat ->
  wp (be_skip l n off) (fun k => (off <= k <= length l)%nat /\
    (forall i, (off <= i < k)%nat -> nth i l 0 = 0) /\ (k = length l \/ nth k l 0 <> 0)).
Proof.
  revert off. induction n as [|n IH]; intros off Hn; cbn [be_skip].
  - wstep. split; [lia|]. split; [lia|left; lia].
  - wstep. wstep; [lia|]. destruct (Z.eqb_spec (nth off l 0) 0) as [E|E].
    + eapply wp_mono; [apply IH; lia|]. intros k (A & B & C). split; [lia|]. split; [|exact C].
      intros i Hi. destruct (Nat.eq_dec i off) as [->|]; [exact E|apply B; lia].
    + wstep. split; [lia|]. split; [lia|auto].
Qed.

Lemma pos_zeros b l : 2 <= b -> (forall i, nth i l 0 = 0) -> positional b l = 0.
Proof.
  intros Hb. induction l as [|d l IH]; intros H; cbn [positional]; [reflexivity|].
  rewrite IH; [rewrite (H O : d = 0); ring|]. intros i. exact (H (S i)).
Qed.

Lemma nth_skipn_add (l : list Z) k i : nth i (skipn k l) 0 = nth (i + k) l 0.
Proof.
  revert l. induction k as [|k IH]; intros l; [now rewrite Nat.add_0_r|].
  destruct l as [|x l]; [now destruct i|]. cbn [skipn]. rewrite IH.
  replace (i + S k)%nat with (S (i + k)) by lia. reflexivity.
Qed.

Lemma pos_above b l k : 2 <= b -> digits b l -> (k <= length l)%nat ->
  (forall i, (k <= i < length l)%nat -> nth i l 0 = 0) -> 0 <= positional b l < bp b k.
Proof.
  intros Hb Hl Hk H. rewrite <- (firstn_skipn k l), pos_app by exact Hb.
  rewrite (pos_zeros b (skipn k l) Hb).
  - rewrite Z.mul_0_r, Z.add_0_r.
    assert (digits b (firstn k l)) as Hf.
    { rewrite <- (firstn_skipn k l) in Hl. apply digits_app in Hl. tauto. }
    pose proof (pos_bound b Hb (firstn k l) Hf) as P. now rewrite firstn_length, Nat.min_l in P by lia.
  - intros i. rewrite nth_skipn_add. destruct (Nat.lt_ge_cases (i + k) (length l)) as [L|L].
    + apply H. lia.
    + apply nth_overflow. exact L.
Qed.

Definition bytes (l : list Z) : Prop := digits 256 l.

Lemma bytes_nth l i : bytes l -> 0 <= nth i l 0 < 256.
Proof.
  intros H. destruct (Nat.lt_ge_cases i (length l)) as [L|L].
  - apply (Forall_nth (fun d => 0 <= d < 256)); assumption.
  - rewrite nth_overflow by exact L. lia.
Qed.

Definition idx (be : bool) (n j : nat) : nat := if be then (n - 1 - j)%nat else j.

Lemma le_nth be l j : (j < length l)%nat -> nth j (le_order be l) 0 = nth (idx be (length l) j) l 0.
Proof.
  intros H. destruct be; [|reflexivity]. cbn [le_order idx]. rewrite rev_nth by exact H. f_equal. lia.
Qed.

Lemma le_length be l : length (le_order be l) = length l.
Proof. destruct be; [apply rev_length|reflexivity]. Qed.

Lemma le_bytes be l : bytes l -> bytes (le_order be l).
Proof. destruct be; [apply Forall_rev|auto]. Qed.

(** What the rest of the constructor needs to know about the trimmed array. *)
Record trimmed (be : bool) (v : list Z) (n : nat) (neg : bool) (A : Z) : Prop := {
  t_len : (if be then n = length v else n <= length v)%nat;
  t_bytes : bytes v;
  t_get : forall j, (j < n)%nat -> nth (idx be n j) v 0 = byte_of A j;
  t_top : A / p8 n = if neg then -1 else 0;
  t_low : if neg then (n <> 0)%nat /\ - p8 n <= 2 * A else (n <> 0)%nat -> p8 (n - 1) <= A
}.

Definition first_step (value : list Z) (isUnsigned isBigEndian : bool) : outcome (list Z * nat * bool) :=
  let byteCount := length value in
  if Nat.ltb 0 byteCount then
    msb <- (if isBigEndian then rd value 0 else rd value (byteCount - 1)) ;;
    let isNegative := negb (Z.land msb 128 =? 0) && negb isUnsigned in
    if msb =? 0 then
      if isBigEndian then
        offset <- be_skip value (byteCount - 1) 1 ;;
        let value := skipn offset value in
        Ret (value, length value, isNegative)
      else
        n <- trim_len value (byteCount - 1) ;;
        Ret (value, n, isNegative)
    else Ret (value, byteCount, isNegative)
  else Ret (value, byteCount, false).

Lemma land128 x : 0 <= x < 256 -> negb (Z.land x 128 =? 0) = (128 <=? x).
Proof.
  intros H.
  assert (Z.testbit x 7 = (128 <=? x)) as E.
  { destruct (Z.leb_spec 128 x).
    - apply Z.testbit_true; [lia|]. replace (x / 2 ^ 7) with 1; [reflexivity|].
      apply (Z.div_unique_pos _ _ _ (x - 128)); lia.
    - apply Z.testbit_false; [lia|]. rewrite Z.div_small; [reflexivity|lia]. }
  rewrite <- E. change 128 with (2 ^ 7). clear E.
  destruct (Z.eqb_spec (Z.land x (2 ^ 7)) 0) as [Z0|Z0]; cbn [negb].
  - assert (Z.testbit (Z.land x (2 ^ 7)) 7 = false) as F by (rewrite Z0; apply Z.bits_0).
    rewrite Z.land_spec, Z.pow2_bits_true, Bool.andb_true_r in F by lia. now rewrite F.
  - destruct (Z.testbit x 7) eqn:T; [reflexivity|]. exfalso. apply Z0. apply Z.bits_inj'. intros i Hi.
    rewrite Z.land_spec, Z.pow2_bits_eqb, Z.bits_0 by lia.
    destruct (Z.eqb_spec 7 i) as [<-|]; [now rewrite T|apply Bool.andb_false_r].
Qed.

Lemma byte_pos l j : bytes l -> nth j l 0 = byte_of (positional 256 l) j.
Proof. intros H. now apply pos_nth. Qed.

Lemma trimmed_zero be l n :
  bytes l -> (n <= length l)%nat ->
  (forall i, (n <= i < length l)%nat -> nth i (le_order be l) 0 = 0) ->
  (n = O \/ nth (n - 1) (le_order be l) 0 <> 0) ->
  positional 256 (le_order be l) / p8 n = 0 /\
  ((n <> 0)%nat -> p8 (n - 1) <= positional 256 (le_order be l)).
Proof.
  intros Hl Hn Hz Ht. pose proof (le_bytes be l Hl) as Hb.
  pose proof (pos_above 256 (le_order be l) n B8_ok Hb) as P. rewrite le_length in P.
  specialize (P Hn Hz). split; [apply Z.div_small, P|].
  intros Hn0. destruct Ht as [Ht|Ht]; [lia|]. rewrite byte_pos in Ht by exact Hb. unfold byte_of in Ht.
  destruct (Z.le_gt_cases (p8 (n - 1)) (positional 256 (le_order be l))) as [G|G]; [exact G|exfalso].
  apply Ht. rewrite Z.div_small by lia. reflexivity.
Qed.

Lemma first_step_spec value u be :
  bytes value ->
  wp (first_step value u be) (fun r => let '(v, n, neg) := r in
    trimmed be v n neg (bytes_value u be value)).
Proof.
  intros Hv. unfold first_step. destruct (Nat.ltb_spec 0 (length value)) as [H0|H0].
  2:{ wstep. destruct value; [|cbn [length] in H0; lia].
      replace (bytes_value u be []) with 0 by (destruct u, be; reflexivity).
      split; [destruct be; cbn [length]; lia|exact Hv|cbn [length]; lia|reflexivity|cbn [length]; lia]. }
  set (le := le_order be value). pose proof (le_bytes be value Hv) as Hle.
  pose proof (le_length be value) as Ll. fold le in Hle, Ll.
  set (N := length value) in *.
  assert (wp (if be then rd value 0 else rd value (N - 1)) (fun m => m = last le 0)) as Hm.
  { rewrite last_nth, Ll. unfold le. rewrite le_nth by lia. fold N.
    destruct be; cbn [idx]; (wstep; [fold N; lia|]); [|reflexivity].
    now replace (N - 1 - (N - 1))%nat with O by lia. }
  wstep. eapply wp_mono; [exact Hm|]. cbn beta. intros m ->. clear Hm.
  set (m := last le 0) in *.
  assert (0 <= m < 256) as Hm by (unfold m; rewrite last_nth; now apply bytes_nth).
  rewrite (land128 m Hm).
  assert (complement 256 le < 0 <-> 256 <= 2 * m) as Hs by (now apply complement_sign).
  pose proof (complement_range 256 B8_ok B8_even le Hle) as Hr. rewrite Ll in Hr.
  unfold cfits in Hr.
  destruct (Z.eqb_spec m 0) as [Em|Em].
  - (* leading zero byte *)
    replace ((128 <=? m) && negb u) with false by (rewrite Em; reflexivity).
    assert (bytes_value u be value = positional 256 le) as EV.
    { unfold bytes_value. fold le. destruct u; [reflexivity|]. unfold complement. fold m. rewrite Em.
      change (256 <=? 2 * 0) with false. ring. }
    assert (nth (N - 1) le 0 = 0) as Etop by (rewrite <- Ll, <- last_nth; exact Em).
    rewrite EV. destruct be.
    + wstep. eapply wp_mono; [apply be_skip_spec; fold N; lia|]. intros k (K1 & K2 & K3). wstep.
      fold N in K1, K3.
      assert (length (skipn k value) = N - k)%nat as Lk by (rewrite skipn_length; reflexivity).
      rewrite Lk.
      assert (forall i, (i < N)%nat -> nth i le 0 = nth (N - 1 - i) value 0) as Hrev.
      { intros i Hi. unfold le. rewrite le_nth by exact Hi. reflexivity. }
      destruct (trimmed_zero true value (N - k) Hv) as (T1 & T2).
      * fold N. lia.
      * fold N. intros i Hi. fold le. rewrite Hrev by lia.
        destruct (Nat.eq_dec i (N - 1)) as [->|Hne].
        { rewrite <- Hrev by lia. exact Etop. }
        apply K2. lia.
      * destruct K3 as [K3|K3]; [left; lia|]. right. fold le. rewrite Hrev by lia.
        destruct (Nat.eq_dec k N) as [->|]; [|now replace (N - 1 - (N - k - 1))%nat with k by lia].
        exfalso. apply K3. apply nth_overflow. lia.
      * fold le in T1, T2. split.
        -- symmetry. exact Lk.
        -- unfold bytes, digits. rewrite <- (firstn_skipn k value) in Hv. apply digits_app in Hv. tauto.
        -- intros j Hj. cbn [idx]. rewrite nth_skipn_add, <- byte_pos by exact Hle. rewrite Hrev by lia.
           f_equal. lia.
        -- exact T1.
        -- exact T2.
    + wstep. eapply wp_mono; [apply trim_len_zeros; fold N; lia|]. intros k (K1 & K2 & K3). wstep.
      destruct (trimmed_zero false value k Hv) as (T1 & T2); [fold N; lia| |exact K3|].
      { fold N. intros i Hi. destruct (Nat.eq_dec i (N - 1)) as [->|]; [exact Etop|]. apply K2. lia. }
      split; [fold N; lia|exact Hv| |exact T1|exact T2].
      intros j Hj. cbn [idx]. now apply byte_pos.
  - (* top byte not zero *)
    wstep. destruct ((128 <=? m) && negb u) eqn:En.
    + apply Bool.andb_true_iff in En. destruct En as [E1 E2]. apply Z.leb_le in E1.
      destruct u; [discriminate|]. cbn [bytes_value]. unfold bytes_value. fold le.
      split; [destruct be; reflexivity|exact Hv| | |].
      * intros j Hj. fold N in Hj. unfold N. rewrite <- (le_nth be value j Hj). fold le N.
        pose proof (complement_ext 256 B8_ok B8_even le j Hle) as E. unfold ext in E. rewrite Ll in E.
        destruct (Nat.ltb_spec j N); [exact E|lia].
      * fold N. symmetry. apply (Z.div_unique_pos _ _ _ (complement 256 le + p8 N)); lia.
      * fold N. split; [lia|]. lia.
    + assert (bytes_value u be value = positional 256 le) as EV.
      { unfold bytes_value. fold le. destruct u; [reflexivity|]. unfold complement. fold m.
        rewrite Bool.andb_true_r in En. apply Z.leb_gt in En.
        destruct (Z.leb_spec 256 (2 * m)); [lia|]. ring. }
      rewrite EV. fold N. destruct (trimmed_zero be value N Hv) as (T1 & T2); [fold N; lia|fold N; lia| |].
      { right. fold le. rewrite <- Ll, <- last_nth. exact Em. }
      fold le in T1, T2.
      split; [destruct be; reflexivity|exact Hv| |exact T1|exact T2].
      intros j Hj. unfold N. rewrite <- (le_nth be value j Hj). fold le N. now apply byte_pos.
Qed.

(** ** At most four bytes *)

Lemma trimmed_range be v n neg A : trimmed be v n neg A ->
  if neg then (n <> 0)%nat /\ - p8 n <= 2 * A /\ A < 0 else 0 <= A < p8 n.
Proof.
  intros [_ _ _ T L]. pose proof (p8_pos n) as P. pose proof (Z.div_mod A (p8 n) ltac:(lia)) as D.
  pose proof (Z.mod_pos_bound A (p8 n) P) as M. rewrite T in D. destruct neg; lia.
Qed.

Lemma trimmed_rd be v n neg A j (Q : Z -> Prop) : trimmed be v n neg A -> (j < n)%nat ->
  Q (byte_of A j) -> wp (rd v (idx be n j)) Q.
Proof.
  intros [L _ G _ _] Hj HQ. rewrite <- (G j Hj) in HQ. wstep; [|exact HQ].
  destruct be; cbn [idx]; lia.
Qed.

Lemma p8_1 : p8 1 = 256. Proof. reflexivity. Qed.

Lemma shl8_ok c x : strict c = false \/ 0 <= x -> shl8_int c x = Ret (s32 (Z.shiftl x 8)).
Proof.
  intros H. unfold shl8_int. destruct (Z.ltb_spec x 0), (strict c); cbn [andb]; try reflexivity.
  destruct H; [discriminate|lia].
Qed.

Lemma small_step c be v n neg A j (Q : Z -> Prop) :
  trimmed be v n neg A -> (n <= 4)%nat -> strict c = false \/ neg = false -> (j < n)%nat ->
  Q (s32 (A / p8 j)) ->
  wp (s <- shl8_int c (s32 (A / p8 (S j))) ;; v <- rd v (idx be n j) ;; Ret (Z.lor s v)) Q.
Proof.
  intros T Hn Hc Hj HQ. rewrite shl8_ok.
  - cbn [bind]. wstep. apply (trimmed_rd _ _ _ _ _ _ _ T Hj). wstep.
    rewrite s32_shl8 by apply byte_range. now rewrite <- horner.
  - destruct Hc as [Hc|Hc]; [now left|right]. subst neg. pose proof (trimmed_range _ _ _ _ _ T) as R.
    cbn beta iota in R. pose proof (bp_le 256 B8_ok n 4 Hn) as L. change (p8 4) with 4294967296 in L.
    pose proof (bp_le 256 B8_ok 1 (S j) ltac:(lia)) as L2. rewrite p8_1 in L2.
    assert (0 <= A / p8 (S j) < 16777216) as B.
    { split; [apply Z.div_pos; lia|]. apply Z.div_lt_upper_bound; lia. }
    rewrite s32_small by (num; lia). lia.
Qed.

Definition small_case (c : cfg) (value : list Z) (byteCount : nat) (isNegative isBigEndian : bool) : outcome bigint :=
    let sign := if isNegative : bool then -1 else 0 in
    sign <-
      (if isBigEndian then
         for_up byteCount 0 (fun i sign =>
           s <- shl8_int c sign ;; v <- rd value i ;; Ret (Z.lor s v)) sign
       else
         for_down byteCount (fun i sign =>
           s <- shl8_int c sign ;; v <- rd value i ;; Ret (Z.lor s v)) sign) ;;
    let this := if (sign <? 0) && negb isNegative then Big 1 [u32 sign] else Big sign [] in
    let this := if sign_of this =? INT_MIN then s_bnMinInt else this in
    checked c this.

Lemma small_case_spec c be v n neg A :
  trimmed be v n neg A -> (n <= 4)%nat -> strict c = false \/ neg = false ->
  wp (small_case c v n neg be) (fun r => represents r A).
Proof.
  intros T Hn Hc. unfold small_case.
  assert ((if neg then -1 else 0) = s32 (A / p8 n)) as E0.
  { rewrite (t_top _ _ _ _ _ T). now destruct neg. }
  rewrite E0. wstep.
  eapply wp_mono with (P := fun s => s = s32 A).
  { destruct be.
    - eapply wp_for_up with (I := fun i s => s = s32 (A / p8 (n - i))).
      + now rewrite Nat.sub_0_r.
      + intros i s Hi ->. replace (n - i)%nat with (S (n - S i)) by lia.
        pose proof (small_step c true v n neg A (n - S i) (fun s => s = s32 (A / p8 (n - S i))) T Hn Hc
          ltac:(lia) eq_refl) as P.
        replace (idx true n (n - S i)) with i in P by (cbn [idx]; lia). exact P.
      + intros s ->. replace (n - (0 + n))%nat with O by lia. now rewrite bp_0, Z.div_1_r.
    - eapply wp_for_down with (I := fun i s => s = s32 (A / p8 i)).
      + reflexivity.
      + intros i s Hi ->. apply (small_step c false v n neg A i (fun s => s = s32 (A / p8 i)) T Hn Hc Hi eq_refl).
      + intros s ->. now rewrite bp_0, Z.div_1_r. }
  cbn beta. intros s ->. pose proof (trimmed_range _ _ _ _ _ T) as R.
  pose proof (bp_le 256 B8_ok n 4 Hn) as L. change (p8 4) with 4294967296 in L.
  apply wp_checked. destruct neg; cbn [negb]; cbn beta iota in R.
  - rewrite Bool.andb_false_r. rewrite s32_small by (num; lia). cbn [sign_of].
    destruct (Z.eqb_spec A INT_MIN) as [->|E]; [exact repr_minint|]. apply repr_small. num; lia.
  - rewrite Bool.andb_true_r. unfold s32. rewrite (u32_small A) by (num; lia). cbv zeta.
    destruct (Z.ltb_spec A 2147483648) as [G|G].
    + destruct (Z.ltb_spec A 0); [lia|]. cbn [sign_of]. destruct (Z.eqb_spec A INT_MIN); [num; lia|].
      apply repr_small. num; lia.
    + destruct (Z.ltb_spec (A - W32) 0); [|num; lia]. cbn [sign_of]. change (1 =? INT_MIN) with false.
      cbn beta iota. replace (u32 (A - W32)) with A.
      * replace A with (1 * A) at 2 by ring. apply repr_limb1; auto; num; lia.
      * unfold u32. apply (Z.mod_unique_pos _ _ (-1)); num; lia.
Qed.

(** ** More than four bytes *)

Lemma mod_horner q v t : 0 <= v < 256 -> (256 * q + v) mod p8 (S t) = 256 * (q mod p8 t) + v.
Proof.
  intros Hv. symmetry. pose proof (p8_pos t) as P. pose proof (Z.div_mod q (p8 t) ltac:(lia)) as D.
  pose proof (Z.mod_pos_bound q (p8 t) P) as M. rewrite bp_S by lia.
  apply (Z.mod_unique_pos _ _ (q / p8 t)); [lia|].
  set (a := q / p8 t) in *. set (r := q mod p8 t) in *. clearbody a r. lia.
Qed.

(** [st k w]: the array has [k] finished words, word [k] is [w], the rest is 0. *)
Definition words_at (A : Z) (dw k : nat) (w : Z) (val : list Z) : Prop :=
  length val = dw /\ limbs val /\ (forall i, (i < k)%nat -> nth i val 0 = (A / Bp i) mod W32) /\
  nth k val 0 = w /\ (forall i, (k < i)%nat -> nth i val 0 = 0).

Lemma words_at_upd A dw k w w' val : (k < dw)%nat -> limb w' ->
  words_at A dw k w val -> words_at A dw k w' (upd val k w').
Proof.
  intros Hk Hw (H1 & H2 & H3 & H4 & H5). split; [now rewrite length_upd|]. split; [now apply limbs_upd|].
  split; [|split].
  - intros i Hi. rewrite nth_upd_other by lia. now apply H3.
  - apply nth_upd_same. lia.
  - intros i Hi. rewrite nth_upd_other by lia. now apply H5.
Qed.

Lemma words_at_next A dw k val : words_at A dw k ((A / Bp k) mod W32) val -> words_at A dw (S k) 0 val.
Proof.
  intros (H1 & H2 & H3 & H4 & H5). split; [exact H1|]. split; [exact H2|]. split; [|split].
  - intros i Hi. destruct (Nat.eq_dec i k) as [->|]; [exact H4|]. apply H3. lia.
  - apply H5. lia.
  - intros i Hi. apply H5. lia.
Qed.

Lemma word_write A dw k val v t j :
  (k < dw)%nat -> (t < 4)%nat -> (j + t = 4 * k + 3)%nat ->
  words_at A dw k ((A / p8 (S j)) mod p8 t) val -> v = byte_of A j ->
  wp (x <- rd val k ;; wr val k (Z.lor (u32 (Z.shiftl x 8)) v))
     (words_at A dw k ((A / p8 j) mod p8 (S t))).
Proof.
  intros Hk Ht Hj H ->. pose proof H as (H1 & H2 & H3 & H4 & H5).
  wstep. wstep; [lia|]. wstep; [lia|]. rewrite H4, shl8_lor by apply byte_range.
  assert (((A / p8 (S j)) mod p8 t * 256 + byte_of A j) mod W32 = (A / p8 j) mod p8 (S t)) as E.
  { rewrite (horner A j), mod_horner by apply byte_range.
    pose proof (byte_range A j). pose proof (Z.mod_pos_bound (A / p8 (S j)) (p8 t) (p8_pos t)).
    pose proof (bp_le 256 B8_ok t 3 ltac:(lia)) as L. change (p8 3) with 16777216 in L.
    set (q := (A / p8 (S j)) mod p8 t) in *. set (y := byte_of A j) in *. clearbody q y.
    rewrite Z.mod_small by (num; lia). ring. }
  rewrite E. eapply words_at_upd; [exact Hk| |exact H].
  pose proof (Z.mod_pos_bound (A / p8 j) (p8 (S t)) (p8_pos _)).
  pose proof (bp_le 256 B8_ok (S t) 4 ltac:(lia)) as L. change (p8 4) with 4294967296 in L. num; lia.
Qed.

Definition word_loop (value val : list Z) (k : nat) (cb : Z) (f : Z -> Z) : outcome (list Z * Z) :=
  for_up 4 0 (fun _ st =>
    let '(val, curByte) := st in
    v <- rdz value curByte ;;
    x <- rd val k ;;
    val <- wr val k (Z.lor (u32 (Z.shiftl x 8)) v) ;;
    Ret (val, f curByte)) (val, cb).

(** position (as int) of byte [j] *)
Definition zidx (be : bool) (n : nat) (j : Z) : Z := if be then Z.of_nat n - 1 - j else j.

Lemma trimmed_rdz be v n neg A j z (Q : Z -> Prop) : trimmed be v n neg A -> (j < n)%nat ->
  z = zidx be n (Z.of_nat j) -> Q (byte_of A j) -> wp (rdz v z) Q.
Proof.
  intros T Hj -> HQ. pose proof T as [L _ G _ _]. rewrite <- (G j Hj) in HQ. wstep.
  - destruct be; cbn [zidx]; lia.
  - replace (Z.to_nat (zidx be n (Z.of_nat j))) with (idx be n j); [exact HQ|].
    destruct be; cbn [zidx idx]; lia.
Qed.

Lemma word_loop_spec be v n neg A dw val k (f : Z -> Z) :
  trimmed be v n neg A -> (k < dw)%nat -> (4 * k + 3 < n)%nat ->
  (forall j, f (zidx be n j) = zidx be n (j - 1)) ->
  words_at A dw k 0 val ->
  wp (word_loop v val k (zidx be n (4 * Z.of_nat k + 3)) f)
     (fun st => snd st = zidx be n (4 * Z.of_nat k - 1) /\ words_at A dw (S k) 0 (fst st)).
Proof.
  intros T Hk Hn Hf H. unfold word_loop.
  eapply wp_for_up with (I := fun t st =>
    snd st = zidx be n (4 * Z.of_nat k + 3 - Z.of_nat t) /\
    words_at A dw k ((A / p8 (4 * k + 4 - t)) mod p8 t) (fst st)).
  - cbn [fst snd]. split; [f_equal; lia|]. change (p8 0) with 1. now rewrite Z.mod_1_r.
  - intros t (val' & cb) Ht (E & W). cbn [fst snd] in *. subst cb.
    wstep. apply (trimmed_rdz be v n neg A (4 * k + 3 - t)); [exact T|lia|f_equal; lia|].
    replace (4 * k + 4 - t)%nat with (S (4 * k + 3 - t)) in W by lia.
    pose proof (word_write A dw k val' _ t (4 * k + 3 - t) Hk ltac:(lia) ltac:(lia) W eq_refl) as WW.
    destruct (wp_inv _ _ WW) as (val2 & E2 & W2).
    assert (forall g : list Z -> outcome (list Z * Z),
      (x <- rd val' k ;; val0 <- wr val' k (Z.lor (u32 (Z.shiftl x 8)) (byte_of A (4 * k + 3 - t))) ;; g val0) =
      (y <- (x <- rd val' k ;; wr val' k (Z.lor (u32 (Z.shiftl x 8)) (byte_of A (4 * k + 3 - t)))) ;; g y)) as Eg.
    { intros g. destruct (rd val' k); reflexivity. }
    rewrite Eg, E2. cbn [bind]. wstep. cbn [fst snd]. rewrite Hf.
    split; [f_equal; lia|]. now replace (4 * k + 4 - S t)%nat with (4 * k + 3 - t)%nat by lia.
  - intros (val' & cb) (E & W). cbn [fst snd] in *. split; [rewrite E; f_equal; lia|].
    apply words_at_next. replace (4 * k + 4 - (0 + 4))%nat with (4 * k)%nat in W by lia.
    rewrite p8_4 in W. exact W.
Qed.

Definition full_words (value : list Z) (byteCount dwordCount full : nat) (isBigEndian : bool)
    : outcome (list Z * Z) :=
  if isBigEndian then
    for_up full 0 (fun curDword st =>
      let '(val, curByte) := st in
      '(val, curByte) <-
        for_up 4 0 (fun _ st =>
          let '(val, curByte) := st in
          v <- rdz value curByte ;;
          x <- rd val curDword ;;
          val <- wr val curDword (Z.lor (u32 (Z.shiftl x 8)) v) ;;
          Ret (val, curByte + 1)) (val, curByte) ;;
      Ret (val, curByte - 8)) (zeros dwordCount, Z.of_nat byteCount - 4)
  else
    for_up full 0 (fun curDword st =>
      let '(val, curByte) := st in
      '(val, curByte) <-
        for_up 4 0 (fun _ st =>
          let '(val, curByte) := st in
          v <- rdz value curByte ;;
          x <- rd val curDword ;;
          val <- wr val curDword (Z.lor (u32 (Z.shiftl x 8)) v) ;;
          Ret (val, curByte - 1)) (val, curByte) ;;
      Ret (val, curByte + 8)) (zeros dwordCount, 3).

Lemma nth_zeros_any n i : nth i (zeros n) 0 = 0.
Proof. unfold zeros. revert i. induction n; intros [|i]; cbn [repeat nth]; auto. Qed.

Lemma full_words_spec be v n neg A dw full :
  trimmed be v n neg A -> (full <= dw)%nat -> (4 * full <= n)%nat ->
  wp (full_words v n dw full be) (fun st => words_at A dw full 0 (fst st)).
Proof.
  intros T Hd Hn. unfold full_words.
  assert (words_at A dw 0 0 (zeros dw)) as W0.
  { split; [apply length_zeros|]. split; [apply limbs_zeros|]. split; [lia|].
    split; [apply nth_zeros_any|]. intros i _. apply nth_zeros_any. }
  destruct be.
  - eapply wp_for_up with (I := fun k st => snd st = zidx true n (4 * Z.of_nat k + 3) /\ words_at A dw k 0 (fst st)).
    + cbn [fst snd zidx]. split; [lia|exact W0].
    + intros k (val & cb) Hk (E & W). cbn [fst snd] in *. subst cb. wstep.
      eapply wp_mono; [apply (word_loop_spec true v n neg A dw val k (fun z => z + 1) T ltac:(lia) ltac:(lia)); [|exact W]|].
      { intros j. cbn [zidx]. ring. }
      intros (val' & cb) (E & W'). cbn [fst snd] in *. subst cb. wstep. cbn [fst snd zidx].
      split; [lia|exact W'].
    + intros st (_ & W). exact W.
  - eapply wp_for_up with (I := fun k st => snd st = zidx false n (4 * Z.of_nat k + 3) /\ words_at A dw k 0 (fst st)).
    + cbn [fst snd zidx]. split; [lia|exact W0].
    + intros k (val & cb) Hk (E & W). cbn [fst snd] in *. subst cb. wstep.
      eapply wp_mono; [apply (word_loop_spec false v n neg A dw val k (fun z => z - 1) T ltac:(lia) ltac:(lia)); [|exact W]|].
      { intros j. cbn [zidx]. ring. }
      intros (val' & cb) (E & W'). cbn [fst snd] in *. subst cb. wstep. cbn [fst snd zidx].
      split; [lia|exact W'].
    + intros st (_ & W). exact W.
Qed.

(** The last, incomplete word. *)
Lemma top_step A dw k val v j (Q : list Z -> Prop) :
  (k < dw)%nat -> words_at A dw k ((A / p8 (S j)) mod W32) val -> v = byte_of A j ->
  (forall val', words_at A dw k ((A / p8 j) mod W32) val' -> Q val') ->
  wp (x <- rd val k ;; wr val k (Z.lor (u32 (Z.shiftl x 8)) v)) Q.
Proof.
  intros Hk H -> HQ. pose proof H as (H1 & H2 & H3 & H4 & H5).
  wstep. wstep; [lia|]. wstep; [lia|]. rewrite H4, shl8_lor by apply byte_range. apply HQ.
  replace (((A / p8 (S j)) mod W32 * 256 + byte_of A j) mod W32) with ((A / p8 j) mod W32).
  - eapply words_at_upd; [exact Hk| |exact H]. apply Z.mod_pos_bound. num; lia.
  - rewrite (horner A j), (Z.mul_comm 256). rewrite <- Zplus_mod_idemp_l, <- (Zplus_mod_idemp_l (_ * 256)).
    f_equal. f_equal. rewrite Zmult_mod_idemp_l. reflexivity.
Qed.

Definition top_word (value val : list Z) (byteCount u full : nat) (isBigEndian : bool) : outcome (list Z) :=
  if isBigEndian then
    for_up u 0 (fun curByte val =>
      v <- rd value curByte ;;
      x <- rd val full ;;
      wr val full (Z.lor (u32 (Z.shiftl x 8)) v)) val
  else
    for_down u (fun k val =>
      v <- rd value (byteCount - u + k) ;;
      x <- rd val full ;;
      wr val full (Z.lor (u32 (Z.shiftl x 8)) v)) val.

Lemma top_word_spec be v n neg A dw full u val :
  trimmed be v n neg A -> (full < dw)%nat -> (4 * full + u = n)%nat ->
  words_at A dw full ((A / p8 n) mod W32) val ->
  wp (top_word v val n u full be) (words_at A dw (S full) 0).
Proof.
  intros T Hd Hn W. unfold top_word. destruct be.
  - eapply wp_for_up with (I := fun i val => words_at A dw full ((A / p8 (n - i)) mod W32) val).
    + now rewrite Nat.sub_0_r.
    + intros i val' Hi W'. wstep. replace i with (idx true n (n - S i)) at 1 by (cbn [idx]; lia).
      apply (trimmed_rd true v n neg A); [exact T|lia|].
      replace (idx true n (n - S i)) with i in * by (cbn [idx]; lia).
      replace (n - i)%nat with (S (n - S i)) in W' by lia.
      eapply top_step; [exact Hd|exact W'|reflexivity|]. auto.
    + intros val' W'. apply words_at_next. replace (n - (0 + u))%nat with (4 * full)%nat in W' by lia.
      now rewrite p8_4 in W'.
  - eapply wp_for_down with (I := fun i val => words_at A dw full ((A / p8 (n - u + i)) mod W32) val).
    + now replace (n - u + u)%nat with n by lia.
    + intros i val' Hi W'. wstep. change (n - u + i)%nat with (idx false n (n - u + i)) at 1.
      apply (trimmed_rd false v n neg A); [exact T|lia|].
      replace (n - u + S i)%nat with (S (n - u + i)) in W' by lia.
      eapply top_step; [exact Hd|exact W'|reflexivity|]. auto.
    + intros val' W'. apply words_at_next. replace (n - u + 0)%nat with (4 * full)%nat in W' by lia.
      now rewrite p8_4 in W'.
Qed.

Definition finish_big (c : cfg) (val : list Z) (isNegative : bool) : outcome bigint :=
  if isNegative then
    val <- make_twos_complement val ;;
    len <- trim_len val (length val) ;;
    v0 <- (if Nat.eqb len 1 then rd val 0 else Ret 0) ;;
    if Nat.eqb len 1 && (v0 =? 1) then Ret s_bnMinusOneInt
    else if Nat.eqb len 1 && (v0 =? kuMaskHighBit) then Ret s_bnMinInt
    else if Nat.eqb len 1 && (0 <? s32 v0) then checked c (Big (-1 * s32 v0) [])
    else if negb (Nat.eqb len (length val)) then checked c (Big (-1) (firstn len val))
    else checked c (Big (-1) val)
  else checked c (Big 1 val).

Lemma words_val A dw l : words_at A dw dw 0 l -> length l = dw /\ limbs l /\ val l = A mod Bp dw.
Proof.
  intros (H1 & H2 & H3 & _). split; [exact H1|]. split; [exact H2|].
  rewrite <- pos_val, (pos_digits W32 W32_ok l A); [now rewrite H1|].
  intros i Hi. apply H3. lia.
Qed.

Lemma finish_big_spec c dw l (neg : bool) A :
  words_at A dw dw 0 l -> (2 <= dw)%nat ->
  (if neg then - Bp dw < A < 0 else Bp (dw - 1) <= A < Bp dw) ->
  wp (finish_big c l neg) (fun r => represents r A).
Proof.
  intros W Hd HA. destruct (words_val _ _ _ W) as (L & Hl & Hv). unfold finish_big.
  pose proof (Bp_pos (dw - 1)) as PB.
  destruct neg.
  2:{ apply wp_checked. rewrite Z.mod_small in Hv by lia. apply repr_big; auto.
      - intros E. rewrite E in L. cbn [length] in L. lia.
      - unfold top_nz. intros E. rewrite L in E.
        pose proof (vl_bound l (dw - 1) Hl) as Vb.
        assert (val l = vl l (dw - 1) + nth (dw - 1) l 0 * Bp (dw - 1)) as V.
        { rewrite <- (vl_all l), L. replace dw with (S (dw - 1)) at 1 by lia. rewrite vl_S by lia. ring. }
        rewrite E in V. lia.
      - pose proof (Bp_le 1 (dw - 1) ltac:(lia)) as B. rewrite Bp_S, Bp_0 in B. num; lia.
      - lia. }
  assert (val l = A + Bp dw) as Hv2.
  { rewrite Hv. symmetry. apply (Z.mod_unique_pos _ _ (-1)); lia. }
  clear Hv. wstep. eapply wp_mono; [apply make_twos_complement_spec; auto|]. intros m (M1 & M2 & M3).
  rewrite (proj2 (Z.eqb_neq (val l) 0)) in M3 by lia. rewrite L in M3, M1.
  assert (val m = - A) as Vm by lia. clear M3.
  wstep. eapply wp_mono; [apply trim_len_spec; lia|]. intros j (J1 & J2 & J3).
  assert (j <> 0)%nat as J0.
  { intros ->. rewrite vl_all in J2. unfold vl in J2. cbn [firstn val] in J2. lia. }
  destruct J3 as [J3|J3]; [lia|].
  destruct (top_firstn m j M2 ltac:(lia) J2 J3) as (U1 & U2 & U3 & U4 & U5).
  pose proof (limbs_nth m 0 M2) as H0.
  assert (represents (Big (-1) (firstn j m)) A ->
    wp (if negb (Nat.eqb j (length m)) then checked c (Big (-1) (firstn j m)) else checked c (Big (-1) m))
      (fun r => represents r A)) as Hend.
  { intros R. destruct (Nat.eqb_spec j (length m)) as [E|E]; cbn [negb]; apply wp_checked; [|exact R].
    subst j. now rewrite firstn_all in R. }
  destruct (Nat.eqb_spec j 1) as [E1|E1]; cbn [andb].
  - wstep. wstep; [lia|]. subst j. set (v := nth 0 m 0) in *.
    assert (val m = v) as Ev.
    { rewrite <- U4. unfold v. destruct m as [|x0 m0]; [cbn [length] in J1; lia|]. cbn [firstn val nth]. ring. }
    assert (firstn 1 m = [v]) as Ef.
    { unfold v. destruct m as [|x0 m0]; [cbn [length] in J1; lia|]. reflexivity. }
    cbn [Nat.sub] in J3. fold v in J3. unfold limb in H0.
    assert (A = - v) as -> by lia.
    destruct (Z.eqb_spec v 1) as [->|]; [wstep; apply repr_minus_one|].
    destruct (Z.eqb_spec v kuMaskHighBit) as [->|N]; [wstep; exact repr_minint|].
    assert (s32 v = if v <? 2147483648 then v else v - W32) as Es.
    { unfold s32. rewrite u32_small by exact H0. reflexivity. }
    rewrite Es. destruct (Z.ltb_spec v 2147483648) as [G|G].
    + destruct (Z.ltb_spec 0 v); [|lia]. apply wp_checked. replace (- v) with (-1 * v) by ring.
      apply repr_small. num; lia.
    + destruct (Z.ltb_spec 0 (v - W32)); [num; lia|]. apply Hend. rewrite Ef.
      replace (- v) with (-1 * v) by ring. apply repr_limb1; auto; num; lia.
  - wstep. wstep. apply Hend. apply repr_big; auto; [|rewrite U4; lia].
    pose proof (top_nz_bound _ U2 U3 U1) as TB. rewrite U5 in TB.
    pose proof (Bp_le 1 (j - 1) ltac:(lia)) as TB2. rewrite Bp_S, Bp_0 in TB2. num; lia.
Qed.

Lemma of_bytes_unfold c value u be :
  bi_of_bytes c value u be =
  (r <- first_step value u be ;;
   let '(value, byteCount, isNegative) := r in
   if Nat.eqb byteCount 0 then checked c (Big 0 [])
   else if Nat.leb byteCount 4 then small_case c value byteCount isNegative be
   else
     let unalignedBytes := Nat.modulo byteCount 4 in
     let dwordCount := (Nat.div byteCount 4 + (if Nat.eqb unalignedBytes 0 then 0 else 1))%nat in
     let full := (dwordCount - (if Nat.eqb unalignedBytes 0 then 0 else 1))%nat in
     st <- full_words value byteCount dwordCount full be ;;
     let '(val, _) := st in
     val <-
       (if Nat.eqb unalignedBytes 0 then Ret val
        else
          val <- (if isNegative : bool then wr val (dwordCount - 1) UINT_MAX else Ret val) ;;
          top_word value val byteCount unalignedBytes full be) ;;
     finish_big c val isNegative).
Proof. reflexivity. Qed.

Theorem of_bytes_spec c value u be :
  bytes value ->
  strict c = false \/ 0 <= bytes_value u be value \/ (4 < length value)%nat ->
  wp (bi_of_bytes c value u be) (fun r => represents r (bytes_value u be value)).
Proof.
  intros Hv Hc. rewrite of_bytes_unfold. wstep.
  assert (wp (first_step value u be) (fun r => let '(v, n, neg) := r in
    trimmed be v n neg (bytes_value u be value) /\ (neg = true -> n = length value))) as FS.
  { pose proof (first_step_spec value u be Hv) as F.
    destruct (first_step value u be) as [((v & n) & neg)| | | |] eqn:E; try contradiction F.
    cbn [wp] in *. split; [exact F|]. intros ->.
    unfold first_step in E. destruct (Nat.ltb 0 (length value)); [|congruence].
    destruct (if be then rd value 0 else rd value (length value - 1)) as [m| | | |]; try discriminate E.
    cbn [bind] in E. destruct (m =? 0) eqn:Em; [|congruence]. apply Z.eqb_eq in Em. rewrite Em in E.
    destruct be.
    - destruct (be_skip _ _ _); discriminate E.
    - destruct (trim_len _ _); discriminate E. }
  eapply wp_mono; [exact FS|]. clear FS. set (A := bytes_value u be value) in *.
  intros ((v & n) & neg) (T & Hlen). pose proof (trimmed_range _ _ _ _ _ T) as R.
  destruct (Nat.eqb_spec n 0) as [N0|N0].
  { apply wp_checked. subst n. destruct neg; [lia|]. change (p8 0) with 1 in R.
    replace A with 0 by lia. apply repr_zero. }
  destruct (Nat.leb_spec n 4) as [N4|N4].
  { apply small_case_spec; [exact T|exact N4|]. destruct neg; [|now right].
    destruct Hc as [Hc|[Hc|Hc]]; [now left|lia|]. specialize (Hlen eq_refl). lia. }
  cbv zeta. set (un := Nat.modulo n 4). set (q := Nat.div n 4).
  assert (n = 4 * q + un)%nat as En by (apply Nat.div_mod; lia).
  assert (un < 4)%nat as Hun by (apply Nat.mod_upper_bound; lia).
  set (dw := (q + (if Nat.eqb un 0 then 0 else 1))%nat).
  assert (dw - (if Nat.eqb un 0 then 0 else 1) = q)%nat as Efull by (unfold dw; lia).
  rewrite Efull. wstep.
  eapply wp_mono; [apply (full_words_spec be v n neg A dw q T); [unfold dw; lia|lia]|].
  intros (l & cb) W. cbn [fst] in W.
  assert (p8 n <= Bp dw) as Hle.
  { rewrite <- p8_4. apply bp_le; [lia|]. unfold dw. destruct (Nat.eqb_spec un 0); lia. }
  assert (2 <= dw)%nat as Hdw.
  { unfold dw. destruct (Nat.eqb_spec un 0); lia. }
  assert (if neg then - Bp dw < A < 0 else Bp (dw - 1) <= A < Bp dw) as HA.
  { destruct neg; [lia|]. split; [|lia]. pose proof (t_low _ _ _ _ _ T N0) as L. rewrite <- p8_4.
    pose proof (bp_le 256 B8_ok (4 * (dw - 1)) (n - 1)) as B.
    assert (4 * (dw - 1) <= n - 1)%nat by (unfold dw; destruct (Nat.eqb_spec un 0); lia). lia. }
  assert (dw = q + (if Nat.eqb un 0 then 0 else 1))%nat as Edw by reflexivity.
  clearbody dw un q. clear Efull.
  wstep. destruct (Nat.eqb_spec un 0) as [U0|U0].
  { wstep. apply (finish_big_spec c dw); auto. rewrite Nat.add_0_r in Edw. rewrite Edw in *. exact W. }
  replace (q + 1)%nat with (S q) in Edw by lia. subst dw.
  wstep. eapply wp_mono with (P := words_at A (S q) q ((A / p8 n) mod W32)).
  { rewrite (t_top _ _ _ _ _ T). destruct neg.
    - replace (S q - 1)%nat with q by lia. change (-1 mod W32) with UINT_MAX. pose proof W as (L & _). wstep; [lia|].
      eapply words_at_upd; [lia| |exact W]. unfold UINT_MAX; num; lia.
    - wstep. exact W. }
  intros l2 W2. eapply wp_mono; [apply (top_word_spec be v n neg A (S q) q un l2 T); [lia|lia|exact W2]|].
  intros l3 W3. apply (finish_big_spec c (S q)); auto.
Qed.

(** Under strict semantics a negative value in at most four bytes is undefined:
    the int accumulator is shifted left while negative. *)
Theorem of_bytes_strict c value u be :
  bytes value -> strict c = true -> bytes_value u be value < 0 -> (length value <= 4)%nat ->
  bi_of_bytes c value u be = Undef ShiftNegative.
Proof.
  intros Hv Hs HA Hlen. rewrite of_bytes_unfold.
  destruct (wp_inv _ _ (first_step_spec value u be Hv)) as (((v & n) & neg) & E & T). rewrite E. cbn [bind].
  pose proof (trimmed_range _ _ _ _ _ T) as R. destruct neg; [|lia]. destruct R as (N0 & _ & _).
  assert (n <= length value)%nat as Hn.
  { unfold first_step in E. destruct (Nat.ltb 0 (length value)); [|congruence].
    destruct (if be then rd value 0 else rd value (length value - 1)) as [m| | | |]; try discriminate E.
    cbn [bind] in E. destruct (m =? 0) eqn:Em.
    - apply Z.eqb_eq in Em. rewrite Em in E. destruct be.
      + destruct (be_skip _ _ _); discriminate E.
      + destruct (trim_len _ _); discriminate E.
    - injection E as _ <-. lia. }
  destruct (Nat.eqb_spec n 0); [lia|]. destruct (Nat.leb_spec n 4); [|lia].
  unfold small_case. destruct n as [|n]; [lia|]. cbn [for_up for_down].
  assert (shl8_int c (-1) = Undef ShiftNegative) as -> by (unfold shl8_int; rewrite Hs; reflexivity).
  destruct be; reflexivity.
Qed.
