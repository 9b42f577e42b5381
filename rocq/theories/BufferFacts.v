(** Proofs about BitsBuffer and the named functions. *)
From Coq Require Import Lia.
From Verif Require Import Machine Facts Spec SpecFacts SpecPos PosFacts SpecActual ActualFacts BigInt BigIntFacts CalcPowMod PowFacts ModPowFacts GcdFacts
  BufCalls SpecBuffer RunExact ConvFacts ArithLaws OracleFacts3.
Ltac Zify.zify_post_hook ::= idtac.

Lemma number_val l : number l = val l.
Proof. unfold number. now rewrite <- val_positional. Qed.

Lemma zeros_forall n : Forall (fun d => d = 0) (zeros n).
Proof. unfold zeros. induction n; constructor; auto. Qed.
Lemma forall_zeros l : Forall (fun d => d = 0) l -> l = zeros (length l).
Proof. induction 1 as [|x l -> _ IH]; [reflexivity|]. unfold zeros in *. cbn [length repeat]. now f_equal. Qed.

Lemma isbuf_holds size b v : isbuf size b v <-> holds size b v.
Proof.
  split.
  - intros Hb. pose proof Hb as [S L V N H Lo]. destruct (isbuf_prefix _ _ _ Hb) as (_ & _ & E & Z).
    repeat split; auto.
    + now rewrite number_val.
    + intros K. pose proof (isbuf_top _ _ _ Hb ltac:(lia)). lia.
    + rewrite Z. apply zeros_forall.
  - intros (S & L & N & E & T & Z). rewrite number_val in E. pose proof (forall_zeros _ Z) as ZZ.
    assert (val (bb_bits b) = v) as V.
    { rewrite <- (firstn_skipn (bb_len b) (bb_bits b)), val_app, ZZ, val_zeros. lia. }
    assert (limbs (bb_bits b)) as LL by exact L.
    split; auto.
    + rewrite <- E. pose proof (val_bound _ (limbs_firstn (bb_len b) _ LL)) as B. rewrite firstn_length, Nat.min_l in B by lia. exact B.
    + intros K. specialize (T K). rewrite <- E. change (val (firstn (bb_len b) (bb_bits b))) with (vl (bb_bits b) (bb_len b)).
      replace (bb_len b) with (Datatypes.S (bb_len b - 1)) at 2 by lia. rewrite vl_S.
      pose proof (vl_bound (bb_bits b) (bb_len b - 1) LL) as VB. pose proof (limbs_nth (bb_bits b) (bb_len b - 1) LL) as NB. unfold limb in NB.
      pose proof (Bp_pos (bb_len b - 1)) as P.
      assert (1 * Bp (bb_len b - 1) <= nth (bb_len b - 1) (bb_bits b) 0 * Bp (bb_len b - 1)) by (apply Z.mul_le_mono_nonneg_r; lia). lia.
Qed.

Theorem new_value size v : 0 <= v < 2 ^ 32 ->
  match size with
  | O => buf_of_u size v = Undef OutOfBounds
  | S _ => exists b, buf_of_u size v = Ret b /\ holds size b v
  end.
Proof.
  intros V. destruct size as [|s]; [reflexivity|].
  destruct (wp_inv _ _ (buf_of_u_spec (S s) v V ltac:(lia))) as (b & E & H & _). exists b. split; [exact E|]. now apply isbuf_holds.
Qed.

Theorem new_words size l : Forall (fun d => 0 <= d < 2 ^ 32) l -> number l < 2 ^ (32 * Z.of_nat size) ->
  exists b, buf_of_v size l = Ret b /\ holds size b (number l).
Proof.
  intros L V. rewrite number_val in *. rewrite <- Bp_pow2 in V.
  destruct (wp_inv _ _ (buf_of_v_spec size l L V)) as (b & E & H). exists b. split; [exact E|]. now apply isbuf_holds.
Qed.

Theorem multiply_self c size this value temp x y :
  holds size this x -> holds size value y -> blank size temp -> (bb_len this + bb_len value <= size)%nat ->
  exists this' temp', buf_mul_self c this value temp = Ret (this', temp') /\ holds size this' (x * y) /\ blank size temp'.
Proof.
  intros X Y T N. apply isbuf_holds in X, Y. destruct (wp_inv _ _ (buf_mul_self_spec c size this value temp x y X Y T N)) as ([a b] & E & H & Z & _).
  exists a, b. split; [exact E|]. split; [now apply isbuf_holds|exact Z].
Qed.

Theorem square_self c size this temp x :
  holds size this x -> blank size temp -> (bb_len this + bb_len this <= size)%nat ->
  exists this' temp', buf_square_self c this temp = Ret (this', temp') /\ holds size this' (x * x) /\ blank size temp'.
Proof.
  intros X T N. apply isbuf_holds in X. destruct (wp_inv _ _ (buf_square_self_spec c size this temp x X T N)) as ([a b] & E & H & Z & _).
  exists a, b. split; [exact E|]. split; [now apply isbuf_holds|exact Z].
Qed.

Theorem reduce_words c size this x m :
  holds size this x -> Forall (fun d => 0 <= d < 2 ^ 32) m -> m <> [] -> nth (length m - 1) m 0 <> 0 -> (length m <= size)%nat ->
  exists b, buf_reduce c this m = Ret b /\ holds size b (x mod number m).
Proof.
  intros X M N T S. apply isbuf_holds in X. rewrite number_val.
  destruct (wp_inv _ _ (buf_reduce_spec c size this m x X M N T S)) as (b & E & H & _).
  exists b. split; [exact E|]. now apply isbuf_holds.
Qed.

Theorem reduce_buffer c sx sy this modulus x y :
  holds sx this x -> holds sy modulus y -> 0 < y -> (bb_len modulus <= sx)%nat ->
  exists b, buf_reduce_buf c this modulus = Ret b /\ holds sx b (x mod y).
Proof.
  intros X Y P S. apply isbuf_holds in X, Y.
  destruct (wp_inv _ _ (reduce_buf_spec c sx sy this modulus x y X Y P S)) as (b & E & H & _).
  exists b. split; [exact E|]. now apply isbuf_holds.
Qed.

(** A word that is not 0 behind the length. *)
Lemma stale size b v i : holds size b v -> (bb_len b <= i)%nat -> nth i (bb_bits b) 0 = 0.
Proof.
  intros (_ & _ & _ & _ & _ & Z) I. rewrite <- (firstn_skipn (bb_len b) (bb_bits b)), app_nth2; rewrite firstn_length; [|lia].
  rewrite (forall_zeros _ Z). unfold zeros. apply nth_repeat.
Qed.

Lemma nth_after (p l : list Z) k i : length p = k -> (k <= i)%nat -> nth i (p ++ skipn k l) 0 = nth i l 0.
Proof. intros P I. rewrite app_nth2 by lia. rewrite P, nth_skipn. f_equal. lia. Qed.

Lemma zeros_from (l : list Z) j : (forall i, (j <= i)%nat -> nth i l 0 = 0) -> skipn j l = zeros (length l - j).
Proof.
  intros H. apply nth_ext with (d := 0) (d' := 0); [now rewrite skipn_length, length_zeros|].
  intros n _. rewrite nth_skipn, H by lia. unfold zeros. symmetry. apply nth_repeat.
Qed.

Theorem overwrite64 size b v g : holds size b v -> 0 <= g < 2 ^ 64 ->
  if Nat.ltb size 2 then buf_overwrite b g = Undef OutOfBounds
  else exists r, buf_overwrite b g = Ret r /\ bb_bits r = overwritten64 (bb_len b) (bb_bits b) g /\
    (holds size r g <-> (bb_len b <= 2)%nat).
Proof.
  intros Hb Hg. pose proof Hb as (S & L & N & E & T & Z). destruct b as [bits k]. cbn [bb_bits bb_len] in *.
  assert (0 <= g / 2 ^ 32 < 2 ^ 32) as HI.
  { split; [apply Z.div_pos; lia|]. apply Z.div_lt_upper_bound; [lia|]. change (2 ^ 32 * 2 ^ 32) with (2 ^ 64). lia. }
  unfold buf_overwrite. cbn [bb_bits bb_len]. rewrite Z.shiftr_div_pow2 by lia.
  unfold u32. rewrite (Z.mod_small (g / 2 ^ 32)) by exact HI.
  destruct (Nat.ltb_spec size 2) as [G|G].
  - rewrite (proj2 (Nat.ltb_ge 2 k)) by lia. cbn [bind].
    destruct bits as [|d [|d' bits]]; cbn [length] in S; try lia; reflexivity.
  - assert (exists bits', (if Nat.ltb 2 k then fill bits (k - 2) 2 else Ret bits) = Ret bits' /\ exists x y,
        bits' = x :: y :: repeat 2 (k - 4) ++ skipn (Nat.max 2 (k - 2)) bits) as (bits' & -> & x & y & ->).
    { destruct bits as [|d [|d' bits]]; cbn [length] in S; try lia. destruct (Nat.ltb_spec 2 k) as [K|K].
      - unfold fill. rewrite (proj2 (Nat.leb_le _ _)) by (cbn [length]; lia). eexists. split; [reflexivity|].
        destruct (k - 2)%nat as [|[|j]] eqn:J; [lia| |].
        + exists 2, d'. replace (k - 4)%nat with O by lia. reflexivity.
        + exists 2, 2. replace (k - 4)%nat with j by lia. reflexivity.
      - eexists. split; [reflexivity|]. exists d, d'. replace (k - 4)%nat with O by lia. replace (Nat.max 2 (k - 2)) with 2%nat by lia. reflexivity. }
    cbn [bind]. cbv zeta. unfold wr. cbn [length Nat.ltb Nat.leb upd bind].
    eexists. split; [reflexivity|]. split; [reflexivity|]. cbn [bb_bits]. split.
    + intros H. destruct (Nat.le_gt_cases k 2) as [K|K]; [exact K|exfalso]. specialize (T ltac:(lia)). apply T.
      assert (nth (k - 1) (g mod 2 ^ 32 :: g / 2 ^ 32 :: repeat 2 (k - 4) ++ skipn (Nat.max 2 (k - 2)) bits) 0 = nth (k - 1) bits 0) as <-.
      { replace (k - 1)%nat with (Datatypes.S (Datatypes.S (k - 3))) at 1 by lia. cbn [nth].
        rewrite app_nth2 by (rewrite repeat_length; lia). rewrite repeat_length.
        rewrite <- (firstn_skipn (Nat.max 2 (k - 2)) bits) at 2. rewrite app_nth2 by (rewrite firstn_length; lia).
        rewrite firstn_length. f_equal. lia. }
      apply (stale _ _ _ _ H). cbn [bb_len]. destruct (_ =? 0); [destruct (_ =? 0)|]; cbn [negb]; lia.
    + intros K. apply isbuf_holds. replace (k - 4)%nat with O by lia. replace (Nat.max 2 (k - 2)) with 2%nat by lia. cbn [repeat app].
      assert (limbs (skipn 2 bits)) as L2 by (apply limbs_skipn; exact L).
      assert (skipn 2 bits = zeros (size - 2)) as Z2.
      { rewrite <- S. apply zeros_from. intros i I. apply (stale _ _ _ _ Hb). cbn [bb_len]. lia. }
      rewrite Z2. pose proof (Z.mod_pos_bound g (2 ^ 32) ltac:(lia)) as LO. pose proof (Z.div_mod g (2 ^ 32) ltac:(lia)) as DM.
      change W32 with (2 ^ 32). change (2 ^ 64) with 18446744073709551616 in *. change (2 ^ 32) with 4294967296 in *.
      assert (val (g mod 4294967296 :: g / 4294967296 :: zeros (size - 2)) = g) as V.
      { cbn [val]. rewrite val_zeros. change W32 with 4294967296. lia. }
      split; cbn [bb_bits bb_len].
      * cbn [length]. rewrite length_zeros. lia.
      * constructor; [exact LO|]. constructor; [exact HI|]. apply limbs_zeros.
      * exact V.
      * destruct (_ =? 0); [destruct (_ =? 0)|]; cbn [negb]; lia.
      * destruct (Z.eqb_spec (g / 4294967296) 0) as [H0|H0]; [destruct (Z.eqb_spec (g mod 4294967296) 0) as [H1|H1]|]; cbn [negb];
          [change (Bp 0) with 1|change (Bp 1) with 4294967296|change (Bp 2) with 18446744073709551616]; lia.
      * destruct (Z.eqb_spec (g / 4294967296) 0) as [H0|H0]; [destruct (Z.eqb_spec (g mod 4294967296) 0) as [H1|H1]|]; cbn [negb]; intros Q; try congruence; cbn [Nat.sub];
          [change (Bp 0) with 1|change (Bp 1) with 4294967296]; lia.
Qed.

Theorem overwrite32 size b v g : holds size b v -> 0 <= g < 2 ^ 32 ->
  if Nat.ltb size 1 then buf_overwrite_u b g = Undef OutOfBounds
  else exists r, buf_overwrite_u b g = Ret r /\ bb_bits r = overwritten32 (bb_len b) (bb_bits b) g /\
    (holds size r g <-> (bb_len b <= 1)%nat).
Proof.
  intros Hb Hg. pose proof Hb as (S & L & N & E & T & Z). destruct b as [bits k]. cbn [bb_bits bb_len] in *.
  unfold buf_overwrite_u. cbn [bb_bits bb_len]. destruct (Nat.ltb_spec size 1) as [G|G].
  - rewrite (proj2 (Nat.ltb_ge 1 k)) by lia. cbn [bind]. destruct bits; cbn [length] in S; [reflexivity|lia].
  - assert (exists bits', (if Nat.ltb 1 k then fill bits (k - 1) 1 else Ret bits) = Ret bits' /\ exists x,
        bits' = x :: repeat 1 (k - 2) ++ skipn (Nat.max 1 (k - 1)) bits) as (bits' & -> & x & ->).
    { destruct bits as [|d bits]; cbn [length] in S; try lia. destruct (Nat.ltb_spec 1 k) as [K|K].
      - unfold fill. rewrite (proj2 (Nat.leb_le _ _)) by (cbn [length]; lia). eexists. split; [reflexivity|].
        destruct (k - 1)%nat as [|j] eqn:J; [lia|]. exists 1. replace (k - 2)%nat with j by lia. reflexivity.
      - eexists. split; [reflexivity|]. exists d. replace (k - 2)%nat with O by lia. replace (Nat.max 1 (k - 1)) with 1%nat by lia. reflexivity. }
    cbn [bind]. unfold wr. cbn [length Nat.ltb Nat.leb upd bind].
    eexists. split; [reflexivity|]. split; [reflexivity|]. split.
    + intros H. destruct (Nat.le_gt_cases k 1) as [K|K]; [exact K|exfalso]. specialize (T ltac:(lia)). apply T.
      assert (nth (k - 1) (g :: repeat 1 (k - 2) ++ skipn (Nat.max 1 (k - 1)) bits) 0 = nth (k - 1) bits 0) as <-.
      { replace (k - 1)%nat with (Datatypes.S (k - 2)) at 1 by lia. cbn [nth].
        rewrite app_nth2 by (rewrite repeat_length; lia). rewrite repeat_length, nth_skipn. f_equal. lia. }
      apply (stale _ _ _ _ H). cbn [bb_len]. destruct (_ =? 0); cbn [negb]; lia.
    + intros K. apply isbuf_holds. replace (k - 2)%nat with O by lia. replace (Nat.max 1 (k - 1)) with 1%nat by lia. cbn [repeat app].
      assert (skipn 1 bits = zeros (size - 1)) as -> by (rewrite <- S; apply zeros_from; intros i I; apply (stale _ _ _ _ Hb); cbn [bb_len]; lia).
      assert (val (g :: zeros (size - 1)) = g) as V by (cbn [val]; rewrite val_zeros; ring).
      split; cbn [bb_bits bb_len].
      * cbn [length]. rewrite length_zeros. lia.
      * constructor; [exact Hg|apply limbs_zeros].
      * exact V.
      * destruct (_ =? 0); cbn [negb]; lia.
      * destruct (Z.eqb_spec g 0) as [H0|H0]; cbn [negb]; [change (Bp 0) with 1|change (Bp 1) with (2 ^ 32)]; lia.
      * destruct (Z.eqb_spec g 0) as [H0|H0]; cbn [negb]; intros Q; [congruence|]. cbn [Nat.sub]. change (Bp 0) with 1. lia.
Qed.

Lemma actual_length_beyond l m : (length l < m)%nat -> actual_length l m = Undef OutOfBounds.
Proof.
  intros H. destruct m as [|m]; [lia|]. cbn [actual_length]. unfold rd. now rewrite (proj2 (nth_error_None l m)) by lia.
Qed.

Theorem refresh size b v m : holds size b v ->
  if Nat.ltb size m then buf_refresh b m = Undef OutOfBounds
  else exists r, buf_refresh b m = Ret r /\
    bb_bits r = (if Nat.ltb m (bb_len b) then repeat (Z.of_nat m mod 2 ^ 32) (bb_len b - m) ++ skipn (bb_len b - m) (bb_bits b) else bb_bits b) /\
    (holds size r (v mod 2 ^ (32 * Z.of_nat m)) <-> ((bb_len b <= m)%nat \/ m = O)).
Proof.
  intros Hb. pose proof Hb as (S & L & N & E & T & Z). destruct b as [bits k]. cbn [bb_bits bb_len] in *.
  unfold buf_refresh. cbn [bb_bits bb_len]. destruct (Nat.ltb_spec size m) as [G|G].
  - rewrite (proj2 (Nat.ltb_ge m k)) by lia. cbn [bind]. rewrite actual_length_beyond by lia. reflexivity.
  - destruct (Nat.ltb_spec m k) as [K|K].
    + unfold fill. rewrite (proj2 (Nat.leb_le _ _)) by lia. cbn [bind].
      set (bits' := repeat (u32 (Z.of_nat m)) (k - m) ++ skipn (k - m) bits).
      assert (length bits' = size) as S' by (unfold bits'; rewrite app_length, repeat_length, skipn_length; lia).
      destruct (wp_inv _ _ (actual_length_spec bits' m ltac:(lia))) as (n & En & A & _ & _). rewrite En. cbn [bind].
      eexists. split; [reflexivity|]. split; [reflexivity|]. split.
      * intros H. destruct (Nat.eq_dec m 0) as [M|M]; [right; exact M|exfalso]. apply (T ltac:(lia)).
        pose proof (stale _ _ _ (k - 1) H) as Q. cbn [bb_bits bb_len] in Q. transitivity (nth (k - 1) bits' 0); [|apply Q; lia].
        unfold bits'. symmetry. apply nth_after; [apply repeat_length|lia].
      * intros [M|M]; [lia|]. subst m. assert (n = O) as -> by lia. unfold bits'. change (u32 (Z.of_nat 0)) with 0. rewrite Nat.sub_0_r.
        change (2 ^ (32 * Z.of_nat 0)) with 1. rewrite Z.mod_1_r. apply isbuf_holds.
        assert (skipn k bits = zeros (size - k)) as -> by (rewrite <- S; apply zeros_from; intros i I; apply (stale _ _ _ _ Hb); exact I).
        rewrite repeat_zeros. replace (k + (size - k))%nat with size by lia.
        split; cbn [bb_bits bb_len]; try lia; [apply length_zeros|apply limbs_zeros|apply val_zeros|change (Bp 0) with 1; lia].
    + cbn [bind]. apply isbuf_holds in Hb as Ib. pose proof Ib as [_ L2 V _ B _]. cbn [bb_bits bb_len] in *.
      destruct (wp_inv _ _ (make_isbuf bits m L2 ltac:(lia) ltac:(pose proof (Bp_le k m K); lia))) as (n & En & I & _).
      rewrite En. cbn [bind]. eexists. split; [reflexivity|]. split; [reflexivity|].
      split; [auto|]. intros _. apply isbuf_holds. rewrite S, V in I. rewrite Z.mod_small; [exact I|]. rewrite <- Bp_pow2.
      pose proof (Bp_le k m K). lia.
Qed.

(** ** The named functions *)

Theorem named_functions c a b x y : represents a x -> represents b y ->
  returns (named_add c a b) (x + y) /\ returns (named_subtract c a b) (x - y) /\ returns (named_multiply c a b) (x * y) /\
  denotes (named_divide c a b) (if y =? 0 then Throw DivideByZero else Ret (Z.quot x y)) /\
  denotes (named_remainder c a b) (if y =? 0 then Throw DivideByZero else Ret (Z.rem x y)) /\
  exists r, named_compare c a b = Ret r /\ (r < 0 <-> x < y) /\ (r = 0 <-> x = y) /\ (r > 0 <-> x > y).
Proof.
  intros Ha Hb. split.
  { unfold named_add. rewrite (assert_valid_ok c a x Ha). cbn [bind]. apply (add_family c a b x y Ha Hb). }
  split; [apply (add_sub_family c a b x y Ha Hb)|]. split; [now apply mul_returns|].
  split; [|split].
  - destruct (Z.eqb_spec y 0) as [->|Y]; [apply (div_zero_calls c a b x Ha Hb)|now apply div_returns].
  - destruct (Z.eqb_spec y 0) as [->|Y]; [apply (div_zero_calls c a b x Ha Hb)|now apply rem_returns].
  - now apply compare_call.
Qed.

(** Closes a conjunction of concrete cases. *)
Ltac holds_one := unfold holds; cbn [bb_bits bb_len];
  split; [reflexivity|]; split; [repeat constructor; discriminate || reflexivity|]; split; [repeat constructor|];
  split; [vm_compute; reflexivity|]; split; [intros _; discriminate|repeat constructor].
Ltac holds_case := repeat match goal with |- _ /\ _ => split end;
  match goal with
  | |- holds _ _ _ => holds_one
  | |- blank _ _ => reflexivity
  | |- _ => vm_compute; reflexivity
  end.
