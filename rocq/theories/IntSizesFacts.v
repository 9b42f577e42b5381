(** Proofs about the byte conversions with lengths kept in [int]. *)
From Verif Require Import Machine Facts Spec SpecPos PosFacts AddSubFacts SquMulFacts DivCoreFacts SpecFacts BigIntFacts
  CompareFacts ConvFacts SpecApi ShiftFacts WordFacts BytesFacts BigInt BigIntBytes ToBytesFacts RunExact IntSizes SpecSizes.
Ltac Zify.zify_post_hook ::= idtac.

(** ** Loops *)

Lemma for_up_eq {S : Type} (I : nat -> S -> Prop) (b1 b2 : nat -> S -> outcome S) n start s :
  I start s ->
  (forall i s, (start <= i < start + n)%nat -> I i s -> b1 i s = b2 i s) ->
  (forall i s s', (start <= i < start + n)%nat -> I i s -> b2 i s = Ret s' -> I (Datatypes.S i) s') ->
  for_up n start b1 s = for_up n start b2 s.
Proof.
  revert start s. induction n as [|n IH]; intros start s H0 He Hp; [reflexivity|]. cbn [for_up].
  rewrite He by (auto; lia). destruct (b2 start s) as [s'| | | |] eqn:E; try reflexivity. cbn [bind].
  apply IH.
  - apply (Hp start s s'); auto; lia.
  - intros i t Hi. apply He. lia.
  - intros i t t' Hi. apply Hp. lia.
Qed.

Lemma for_up_ret {S : Type} (I : nat -> S -> Prop) (b : nat -> S -> outcome S) n start s s' :
  I start s ->
  (forall i s s', (start <= i < start + n)%nat -> I i s -> b i s = Ret s' -> I (Datatypes.S i) s') ->
  for_up n start b s = Ret s' -> I (start + n)%nat s'.
Proof.
  revert start s. induction n as [|n IH]; intros start s H0 Hp.
  - cbn [for_up]. intros E. injection E as <-. now rewrite Nat.add_0_r.
  - cbn [for_up]. destruct (b start s) as [t| | | |] eqn:E; try discriminate. cbn [bind].
    intros R. replace (start + Datatypes.S n)%nat with (Datatypes.S start + n)%nat by lia.
    apply (IH (Datatypes.S start) t); [apply (Hp start s t); auto; lia| |exact R].
    intros i u u' Hi. apply Hp. lia.
Qed.

Lemma for_down_eq {S : Type} (b1 b2 : nat -> S -> outcome S) n s :
  (forall i s, (i < n)%nat -> b1 i s = b2 i s) -> for_down n b1 s = for_down n b2 s.
Proof.
  revert s. induction n as [|n IH]; intros s He; [reflexivity|]. cbn [for_down]. rewrite He by lia.
  destruct (b2 n s); try reflexivity. cbn [bind]. apply IH. intros i t Hi. apply He. lia.
Qed.

Lemma bind_eq {A B} (o1 o2 : outcome A) (f g : A -> outcome B) :
  o1 = o2 -> (forall a, o2 = Ret a -> f a = g a) -> bind o1 f = bind o2 g.
Proof. intros -> H. destruct o2; try reflexivity. cbn [bind]. now apply H. Qed.

(** ** Reads below a bound *)

Lemma rd_firstn (v : list Z) n i : (i < n)%nat -> rd (firstn n v) i = rd v i.
Proof.
  intros H. unfold rd. assert (nth_error (firstn n v) i = nth_error v i) as ->; [|reflexivity].
  revert v i H. induction n; intros [|x v] [|i] H; try lia; try reflexivity. cbn [firstn nth_error]. apply IHn. lia.
Qed.

Lemma be_skip_firstn v n m off : (off + m <= n)%nat -> be_skip (firstn n v) m off = be_skip v m off.
Proof.
  revert off. induction m as [|m IH]; intros off H; [reflexivity|]. cbn [be_skip]. rewrite rd_firstn by lia.
  apply bind_eq; [reflexivity|]. intros a _. destruct (a =? 0); [apply IH; lia|reflexivity].
Qed.

Lemma trim_len_firstn v n m : (m <= n)%nat -> trim_len (firstn n v) m = trim_len v m.
Proof.
  induction m as [|m IH]; intros H; [reflexivity|]. cbn [trim_len]. rewrite rd_firstn by lia.
  apply bind_eq; [reflexivity|]. intros a _. destruct (a =? 0); [apply IH; lia|reflexivity].
Qed.

Lemma chk32_in c x : INT_MIN <= x <= INT_MAX -> chk32 c x = Ret x.
Proof.
  intros H. unfold chk32. destruct (Z.leb_spec INT_MIN x); [|lia]. destruct (Z.leb_spec x INT_MAX); [|lia]. reflexivity.
Qed.

(** ** Lengths *)

Lemma s32_range x : INT_MIN <= s32 x <= INT_MAX.
Proof.
  unfold s32, u32. cbv zeta. pose proof (Z.mod_pos_bound x W32 ltac:(num; lia)) as R.
  destruct (Z.ltb_spec (x mod W32) 2147483648); num; lia.
Qed.

Lemma s32_shift x y k : y = x + k * W32 -> INT_MIN <= x <= INT_MAX -> s32 y = x.
Proof. intros E H. rewrite (s32_eq x y k E). now apply s32_small. Qed.

Lemma s32_u64 x : s32 (u64 x) = s32 x.
Proof.
  apply (s32_eq x (u64 x) (- (x / W64 * W32))). unfold u64. rewrite Z.mod_eq by (num; lia).
  num. ring.
Qed.

(** ** The constructor *)

Section Words.
Variables (c : cfg) (v v' : list Z) (n : nat).
Hypothesis Hv : forall i, (i < n)%nat -> rd v i = rd v' i.
Hypothesis Hmax : Z.of_nat n <= INT_MAX.

Lemma rdz_eq z : z < Z.of_nat n -> rdz v z = rdz v' z.
Proof using Hv.
  intros H. unfold rdz. destruct (Z.ltb_spec z 0); [reflexivity|]. apply Hv. lia.
Qed.

Lemma full_words_eq dw full be : (4 * full <= n)%nat -> (4 <= n)%nat ->
  full_words_i c v (Z.of_nat n) dw full be = full_words v' n dw full be.
Proof using Hv Hmax.
  intros Hf H4. unfold full_words_i, full_words. destruct be.
  - rewrite s32_u64. replace (s32 (u64 (Z.of_nat n) - 4)) with (Z.of_nat n - 4).
    2:{ symmetry. apply (s32_shift _ _ 0); [|num; lia]. unfold u64. rewrite Z.mod_small by (num; lia). ring. }
    apply (for_up_eq (fun i st => snd st = Z.of_nat n - 4 - 4 * Z.of_nat i)).
    + cbn [snd]. lia.
    + intros i (val & cur) Hi E. cbn [snd] in E. apply bind_eq.
      * apply (for_up_eq (fun t st => snd st = cur + Z.of_nat t)).
        -- cbn [snd]. lia.
        -- intros t (val' & cur') Ht E'. cbn [snd] in E'. rewrite rdz_eq by lia.
           apply bind_eq; [reflexivity|]. intros x _. apply bind_eq; [reflexivity|]. intros y _.
           apply bind_eq; [reflexivity|]. intros val2 _. rewrite chk32_in by (num; lia). reflexivity.
        -- intros t (val' & cur') st Ht E' R. cbn [snd] in E'.
           destruct (rdz _ cur'); try discriminate R. cbn [bind] in R.
           destruct (rd val' i); try discriminate R. cbn [bind] in R.
           destruct (wr _ _ _); try discriminate R. cbn [bind] in R. injection R as <-. cbn [snd]. lia.
      * intros (val' & cur') R. cbn beta iota.
        assert (cur' = cur + 4) as E'.
        { apply (for_up_ret (fun t st => snd st = cur + Z.of_nat t)) in R; [exact R|cbn [snd]; lia|].
          intros t (val2 & cur2) st Ht E2 R2. cbn [snd] in E2.
          destruct (rdz _ cur2); try discriminate R2. cbn [bind] in R2.
          destruct (rd val2 i); try discriminate R2. cbn [bind] in R2.
          destruct (wr _ _ _); try discriminate R2. cbn [bind] in R2. injection R2 as <-. cbn [snd]. lia. }
        rewrite chk32_in by (num; lia). reflexivity.
    + intros i (val & cur) st Hi E R. cbn [snd] in E.
      match type of R with bind ?o _ = _ => destruct o as [(val' & cur')| | | |] eqn:R' end; try discriminate R.
      cbn [bind] in R. injection R as <-. cbn [snd].
      assert (cur' = cur + 4) as E'; [|lia].
      apply (for_up_ret (fun t st => snd st = cur + Z.of_nat t)) in R'; [exact R'|cbn [snd]; lia|].
      intros t (val2 & cur2) st Ht E2 R2. cbn [snd] in E2.
      destruct (rdz _ cur2); try discriminate R2. cbn [bind] in R2.
      destruct (rd val2 i); try discriminate R2. cbn [bind] in R2.
      destruct (wr _ _ _); try discriminate R2. cbn [bind] in R2. injection R2 as <-. cbn [snd]. lia.
  - apply (for_up_eq (fun i st => snd st = 3 + 4 * Z.of_nat i)).
    + cbn [snd]. lia.
    + intros i (val & cur) Hi E. cbn [snd] in E. apply bind_eq.
      * apply (for_up_eq (fun t st => snd st = cur - Z.of_nat t)).
        -- cbn [snd]. lia.
        -- intros t (val' & cur') Ht E'. cbn [snd] in E'. rewrite rdz_eq by lia.
           apply bind_eq; [reflexivity|]. intros x _. apply bind_eq; [reflexivity|]. intros y _.
           apply bind_eq; [reflexivity|]. intros val2 _. rewrite chk32_in by (num; lia). reflexivity.
        -- intros t (val' & cur') st Ht E' R. cbn [snd] in E'.
           destruct (rdz _ cur'); try discriminate R. cbn [bind] in R.
           destruct (rd val' i); try discriminate R. cbn [bind] in R.
           destruct (wr _ _ _); try discriminate R. cbn [bind] in R. injection R as <-. cbn [snd]. lia.
      * intros (val' & cur') R. cbn beta iota.
        assert (cur' = cur - 4) as E'.
        { apply (for_up_ret (fun t st => snd st = cur - Z.of_nat t)) in R; [exact R|cbn [snd]; lia|].
          intros t (val2 & cur2) st Ht E2 R2. cbn [snd] in E2.
          destruct (rdz _ cur2); try discriminate R2. cbn [bind] in R2.
          destruct (rd val2 i); try discriminate R2. cbn [bind] in R2.
          destruct (wr _ _ _); try discriminate R2. cbn [bind] in R2. injection R2 as <-. cbn [snd]. lia. }
        rewrite chk32_in; [reflexivity|]. assert (4 * Z.of_nat full <= Z.of_nat n) by lia. num. lia.
    + intros i (val & cur) st Hi E R. cbn [snd] in E.
      match type of R with bind ?o _ = _ => destruct o as [(val' & cur')| | | |] eqn:R' end; try discriminate R.
      cbn [bind] in R. injection R as <-. cbn [snd].
      assert (cur' = cur - 4) as E'; [|lia].
      apply (for_up_ret (fun t st => snd st = cur - Z.of_nat t)) in R'; [exact R'|cbn [snd]; lia|].
      intros t (val2 & cur2) st Ht E2 R2. cbn [snd] in E2.
      destruct (rdz _ cur2); try discriminate R2. cbn [bind] in R2.
      destruct (rd val2 i); try discriminate R2. cbn [bind] in R2.
      destruct (wr _ _ _); try discriminate R2. cbn [bind] in R2. injection R2 as <-. cbn [snd]. lia.
Qed.

Lemma top_word_eq val un full be : (un <= n)%nat ->
  top_word_i v val n un full be = top_word v' val n un full be.
Proof using Hv.
  intros Hu. unfold top_word_i, top_word. destruct be.
  - apply (for_up_eq (fun _ _ => True)); [exact I| |auto]. intros i s Hi _. now rewrite Hv by lia.
  - apply for_down_eq. intros i s Hi. now rewrite Hv by lia.
Qed.
End Words.

(** ** The constructor *)

(** All that follows the trimming, for [n] bytes out of an array that may be longer. *)
Definition rest (c : cfg) (value : list Z) (n : nat) (neg be : bool) : outcome bigint :=
   if Nat.eqb n 0 then checked c (Big 0 [])
   else if Nat.leb n 4 then small_case c value n neg be
   else
     let unalignedBytes := Nat.modulo n 4 in
     let dwordCount := (Nat.div n 4 + (if Nat.eqb unalignedBytes 0 then 0 else 1))%nat in
     let full := (dwordCount - (if Nat.eqb unalignedBytes 0 then 0 else 1))%nat in
     st <- full_words value n dwordCount full be ;;
     let '(val, _) := st in
     val <-
       (if Nat.eqb unalignedBytes 0 then Ret val
        else
          val <- (if neg : bool then wr val (dwordCount - 1) UINT_MAX else Ret val) ;;
          top_word value val n unalignedBytes full be) ;;
     finish_big c val neg.

Definition rest_i (c : cfg) (value : list Z) (byteCount : Z) (isNegative isBigEndian : bool) : outcome bigint :=
  if byteCount =? 0 then checked c (Big 0 [])
  else if byteCount <=? 4 then
    let sign := if isNegative : bool then -1 else 0 in
    sign <-
      (if isBigEndian then
         for_up (Z.to_nat byteCount) 0 (fun i sign =>
           s <- shl8_int c sign ;; v <- rd value i ;; Ret (Z.lor s v)) sign
       else
         i <- chk32 c (byteCount - 1) ;;
         for_down (Z.to_nat (i + 1)) (fun i sign =>
           s <- shl8_int c sign ;; v <- rd value i ;; Ret (Z.lor s v)) sign) ;;
    let this := if (sign <? 0) && negb isNegative then Big 1 [u32 sign] else Big sign [] in
    let this := if sign_of this =? INT_MIN then s_bnMinInt else this in
    checked c this
  else
    let n := Z.to_nat byteCount in
    let unalignedBytes := Nat.modulo n 4 in
    let dwordCount := (Nat.div n 4 + (if Nat.eqb unalignedBytes 0 then 0 else 1))%nat in
    let full := (dwordCount - (if Nat.eqb unalignedBytes 0 then 0 else 1))%nat in
    st <- full_words_i c value byteCount dwordCount full isBigEndian ;;
    let '(val, _) := st in
    val <-
      (if Nat.eqb unalignedBytes 0 then Ret val
       else
         val <- (if isNegative then wr val (dwordCount - 1) UINT_MAX else Ret val) ;;
         top_word_i value val n unalignedBytes full isBigEndian) ;;
    finish_big_i c val isNegative.

Definition first_step_i (value : list Z) (isUnsigned isBigEndian : bool) : outcome (list Z * Z * bool) :=
  let byteCount := s32 (Z.of_nat (length value)) in
  if 0 <? byteCount then
    msb <- (if isBigEndian then rd value 0 else rdz value (byteCount - 1)) ;;
    let isNegative := negb (Z.land msb 128 =? 0) && negb isUnsigned in
    if msb =? 0 then
      if isBigEndian then
        offset <- be_skip value (Z.to_nat byteCount - 1) 1 ;;
        let value := skipn offset value in
        Ret (value, s32 (Z.of_nat (length value)), isNegative)
      else
        n <- trim_len value (Z.to_nat byteCount - 1) ;;
        Ret (value, Z.of_nat n, isNegative)
    else Ret (value, byteCount, isNegative)
  else Ret (value, byteCount, false).

Lemma of_bytes_split c value u be :
  bi_of_bytes c value u be = (r <- first_step value u be ;; let '(v, n, neg) := r in rest c v n neg be).
Proof. reflexivity. Qed.

Lemma of_bytes_i_split c value u be :
  bi_of_bytes_i c value u be = (r <- first_step_i value u be ;; let '(v, n, neg) := r in rest_i c v n neg be).
Proof. reflexivity. Qed.

Lemma rest_eq c v v' n neg be : (forall i, (i < n)%nat -> rd v i = rd v' i) -> Z.of_nat n <= INT_MAX ->
  rest_i c v (Z.of_nat n) neg be = rest c v' n neg be.
Proof.
  intros Hn Hm. unfold rest_i, rest. rewrite Nat2Z.id.
  destruct (Nat.eqb_spec n 0) as [E0|E0]; (destruct (Z.eqb_spec (Z.of_nat n) 0); [|try lia]); try lia; [reflexivity|].
  destruct (Nat.leb_spec n 4) as [E4|E4]; (destruct (Z.leb_spec (Z.of_nat n) 4); [|try lia]); try lia.
  - unfold small_case. apply bind_eq; [|reflexivity]. destruct be.
    + apply (for_up_eq (fun _ _ => True)); [exact I| |auto]. intros i t Hi _. now rewrite Hn by lia.
    + rewrite chk32_in by (num; lia). cbn [bind]. replace (Z.to_nat (Z.of_nat n - 1 + 1)) with n by lia.
      apply for_down_eq. intros i t Hi. now rewrite Hn by lia.
  - cbv zeta. set (un := Nat.modulo n 4). set (q := Nat.div n 4).
    assert (n = 4 * q + un)%nat as En by (apply Nat.div_mod; lia).
    assert (un < 4)%nat as Hun by (apply Nat.mod_upper_bound; lia).
    set (dw := (q + (if Nat.eqb un 0 then 0 else 1))%nat).
    assert (dw - (if Nat.eqb un 0 then 0 else 1) = q)%nat as Efull by (unfold dw; lia).
    rewrite Efull. apply bind_eq.
    + apply full_words_eq; auto; lia.
    + intros (val & cur) _. apply bind_eq; [|reflexivity].
      destruct (Nat.eqb un 0); [reflexivity|]. apply bind_eq; [reflexivity|].
      intros val' _. apply top_word_eq; [exact Hn|lia].
Qed.

(** A length that wraps to [k >= 0]: only [k] bytes are looked at. *)
Lemma of_bytes_wrapped c l u be k :
  s32 (Z.of_nat (length l)) = Z.of_nat k ->
  bi_of_bytes_i c l u be = bi_of_bytes c (firstn k l) u be.
Proof.
  intros E. destruct (s32_mod (Z.of_nat (length l))) as (w & Ew). rewrite E in Ew.
  pose proof (s32_range (Z.of_nat (length l))) as Rk. rewrite E in Rk.
  assert (k <= length l)%nat as Hk.
  { num. destruct (Z.le_gt_cases w 0) as [W|W]; lia. }
  assert (forall i, (i < k)%nat -> rd l i = rd (firstn k l) i) as Hrd by (intros i Hi; now rewrite rd_firstn).
  rewrite of_bytes_split, of_bytes_i_split. unfold first_step_i, first_step. cbv zeta. rewrite E, Nat2Z.id.
  rewrite firstn_length_le by exact Hk.
  destruct (Nat.ltb_spec 0 k) as [K0|K0]; (destruct (Z.ltb_spec 0 (Z.of_nat k)); [|try lia]); try lia.
  2:{ cbn [bind]. apply rest_eq; [exact Hrd|lia]. }
  assert ((if be then rd l 0 else rdz l (Z.of_nat k - 1)) =
    (if be then rd (firstn k l) 0 else rd (firstn k l) (k - 1))) as ->.
  { destruct be; [now rewrite rd_firstn|]. rewrite rd_firstn by lia. unfold rdz.
    destruct (Z.ltb_spec (Z.of_nat k - 1) 0); [lia|]. f_equal. lia. }
  destruct (if be then _ else _) as [m| | | |] eqn:Em; try reflexivity. cbn [bind].
  destruct (m =? 0) eqn:Em0.
  2:{ cbn [bind]. apply rest_eq; [exact Hrd|lia]. }
  destruct be.
  - pose proof (be_skip_spec (firstn k l) (k - 1) 1) as BS. rewrite firstn_length_le in BS by exact Hk.
    specialize (BS ltac:(lia)). apply wp_inv in BS. destruct BS as (off & Eo & O1 & _).
    rewrite <- (be_skip_firstn l k) by lia. rewrite Eo. cbn [bind].
    replace (s32 (Z.of_nat (length (skipn off l)))) with (Z.of_nat (k - off)).
    2:{ symmetry. apply (s32_shift _ _ (- w)); [|num; lia]. rewrite skipn_length. num. lia. }
    rewrite skipn_firstn_comm, firstn_length_le by (rewrite skipn_length; lia).
    apply rest_eq; [|lia]. intros i Hi. now rewrite rd_firstn.
  - rewrite trim_len_firstn by lia.
    pose proof (trim_len_zeros l (k - 1) ltac:(lia)) as BS. apply wp_inv in BS.
    destruct BS as (n & En & N1 & _). rewrite En. cbn [bind].
    apply rest_eq; [|lia]. intros i Hi. apply Hrd. lia.
Qed.

(** A length that wraps to a negative number, big-endian: zero. *)
Lemma of_bytes_negative_be c l u : s32 (Z.of_nat (length l)) < 0 -> bi_of_bytes_i c l u true = Ret (Big 0 []).
Proof.
  intros H. rewrite of_bytes_i_split. unfold first_step_i. cbv zeta.
  destruct (Z.ltb_spec 0 (s32 (Z.of_nat (length l)))); [lia|]. cbn [bind]. unfold rest_i.
  destruct (Z.eqb_spec (s32 (Z.of_nat (length l))) 0); [lia|].
  destruct (Z.leb_spec (s32 (Z.of_nat (length l))) 4); [|lia].
  replace (Z.to_nat (s32 (Z.of_nat (length l)))) with O by lia. cbn [for_up bind].
  destruct c as [[] []]; reflexivity.
Qed.

(** Little-endian the same, unless [byteCount - 1] leaves the range of int. *)
Lemma of_bytes_negative_le c l u : INT_MIN < s32 (Z.of_nat (length l)) < 0 -> bi_of_bytes_i c l u false = Ret (Big 0 []).
Proof.
  intros H. rewrite of_bytes_i_split. unfold first_step_i. cbv zeta.
  destruct (Z.ltb_spec 0 (s32 (Z.of_nat (length l)))); [lia|]. cbn [bind]. unfold rest_i.
  destruct (Z.eqb_spec (s32 (Z.of_nat (length l))) 0); [lia|].
  destruct (Z.leb_spec (s32 (Z.of_nat (length l))) 4); [|lia].
  rewrite chk32_in by (num; lia). cbn [bind].
  replace (Z.to_nat (s32 (Z.of_nat (length l)) - 1 + 1)) with O by lia. cbn [for_down bind].
  destruct c as [[] []]; reflexivity.
Qed.

Lemma digits_firstn n l : digits 256 l -> digits 256 (firstn n l).
Proof.
  intros H. rewrite <- (firstn_skipn n l) in H. apply digits_app in H. apply H.
Qed.

Lemma sign_word_spec c l n : strict c = false -> bytes l -> (n <= length l)%nat ->
  for_down n (fun i sign => s <- shl8_int c sign ;; v <- rd l i ;; Ret (Z.lor s v)) 0 =
  Ret (s32 (positional 256 (firstn n l))).
Proof.
  intros Hc Hl Hn. set (P := positional 256 (firstn n l)).
  pose proof (digits_firstn n l Hl) as Hf.
  assert (P / p8 n = 0) as P0.
  { apply Z.div_small. unfold P. pose proof (pos_bound 256 B8_ok _ Hf) as B. now rewrite firstn_length_le in B by exact Hn. }
  assert (wp (for_down n (fun i sign => s <- shl8_int c sign ;; v <- rd l i ;; Ret (Z.lor s v)) 0)
    (fun s => s = s32 P)) as W.
  { eapply wp_for_down with (I := fun i s => s = s32 (P / p8 i)).
    - now rewrite P0.
    - intros i s Hi ->. rewrite shl8_ok by now left. cbn [bind]. wstep. wstep; [lia|]. wstep.
      assert (nth i l 0 = byte_of P i) as E.
      { unfold P. rewrite <- byte_pos by exact Hf. rewrite <- (firstn_skipn n l) at 1. apply app_nth1.
        rewrite firstn_length_le by exact Hn. exact Hi. }
      rewrite s32_shl8 by now apply bytes_nth. rewrite E. now rewrite <- horner.
    - intros s ->. change (p8 0) with 1. now rewrite Z.div_1_r. }
  apply wp_inv in W. destruct W as (r & E & ->). exact E.
Qed.

Lemma of_bytes_min_strict c l u : s32 (Z.of_nat (length l)) = INT_MIN -> strict c = true ->
  bi_of_bytes_i c l u false = Undef SignedOverflow.
Proof.
  intros H Hc. rewrite of_bytes_i_split. unfold first_step_i. cbv zeta. rewrite H.
  change (0 <? INT_MIN) with false. cbn [bind]. unfold rest_i.
  change (INT_MIN =? 0) with false. change (INT_MIN <=? 4) with true. cbv iota.
  unfold chk32. rewrite Hc. reflexivity.
Qed.

Lemma nat_of_size z : 0 <= z -> exists n, Z.of_nat n = z.
Proof. intros H. exists (Z.to_nat z). now apply Z2Nat.id. Qed.

Lemma of_bytes_min_wrap c l u : s32 (Z.of_nat (length l)) = INT_MIN -> strict c = false -> bytes l ->
  returns (bi_of_bytes_i c l u false) (positional 256 (firstn 4 l)).
Proof.
  intros H Hc Hl. destruct (s32_mod (Z.of_nat (length l))) as (w & Ew). rewrite H in Ew.
  destruct (nat_of_size 2147483648 ltac:(discriminate)) as (N & EN).
  assert (N <= length l)%nat as HN by (num; lia).
  assert (4 <= N)%nat as N4 by lia.
  rewrite of_bytes_i_split. unfold first_step_i. cbv zeta.
  remember (s32 (Z.of_nat (length l))) as bc eqn:Ebc. clear Ebc.
  assert (0 <? bc = false) as -> by (rewrite H; reflexivity). cbn [bind]. unfold rest_i.
  assert (bc =? 0 = false) as -> by (rewrite H; reflexivity).
  assert (bc <=? 4 = true) as -> by (rewrite H; reflexivity).
  assert (chk32 c (bc - 1) = Ret 2147483647) as ->.
  { unfold chk32. rewrite Hc, H. reflexivity. }
  cbn [bind]. assert (forall z, z = 2147483648 -> Z.to_nat z = N) as ET by (intros z ->; rewrite <- EN; apply Nat2Z.id).
  rewrite (ET (2147483647 + 1) eq_refl). clear ET.
  rewrite sign_word_spec by assumption. cbn [bind]. clear EN.
  set (A := positional 256 (firstn 4 l)).
  assert (0 <= A < 4294967296) as HA.
  { unfold A. pose proof (pos_bound 256 B8_ok (firstn 4 l) (digits_firstn 4 l Hl)) as B.
    rewrite firstn_length_le in B by lia. change (p8 4) with 4294967296 in B. exact B. }
  replace (s32 (positional 256 (firstn N l))) with (s32 A).
  2:{ symmetry. apply (s32_eq _ _ (positional 256 (skipn 4 (firstn N l)))).
      rewrite <- (firstn_skipn 4 (firstn N l)) at 1. rewrite (pos_app 256), firstn_firstn.
      replace (Nat.min 4 N) with 4%nat by lia. rewrite firstn_length_le by lia.
      change (bp 256 4) with W32. unfold A. ring. }
  rewrite Bool.andb_true_r. apply returns_wp. apply wp_checked.
  unfold s32. rewrite (u32_small A) by (num; lia). cbv zeta.
  destruct (Z.ltb_spec A 2147483648) as [G|G].
  - destruct (Z.ltb_spec A 0); [lia|]. cbn [sign_of]. destruct (Z.eqb_spec A INT_MIN); [num; lia|].
    apply repr_small. num; lia.
  - destruct (Z.ltb_spec (A - W32) 0); [|num; lia]. cbn [sign_of]. change (1 =? INT_MIN) with false.
    cbn beta iota. replace (u32 (A - W32)) with A.
    + replace A with (1 * A) at 2 by ring. apply repr_limb1; auto; num; lia.
    + unfold u32. apply (Z.mod_unique_pos _ _ (-1)); num; lia.
Qed.

(** ** to_byte_array *)

(** The body of the loop over whole words, as in BigIntBytes.v. *)
Definition put_words (sign : Z) (bits : list Z) (nz : nat) (increment : Z) (dest : list Z) (curByte : Z)
    : outcome (list Z * Z) :=
  for_up (length bits - 1) 0 (fun i st =>
    let '(dest, curByte) := st in
    dword <- rd bits i ;;
    let dword :=
      if sign =? -1 then
        let dword := not32 dword in
        if Nat.leb i nz then u32 (dword + 1) else dword
      else dword in
    dest <- wrz dest curByte (u8 dword) ;;
    dest <- wrz dest (curByte + increment) (u8 (Z.shiftr dword 8)) ;;
    dest <- wrz dest (curByte + increment + increment) (u8 (Z.shiftr dword 16)) ;;
    dest <- wrz dest (curByte + increment + increment + increment) (u8 (Z.shiftr dword 24)) ;;
    Ret (dest, curByte + increment + increment + increment + increment)) (dest, curByte).

Ltac bret R := match type of R with bind ?o _ = Ret _ => destruct o; try discriminate R; cbn [bind] in R end.

Lemma put_words_eq c sign bits nz inc dest cur :
  inc = 1 \/ inc = -1 ->
  INT_MIN <= cur <= INT_MAX -> INT_MIN <= cur + inc * (4 * (Z.of_nat (length bits) - 1)) <= INT_MAX ->
  put_words_i c sign bits nz inc dest cur = put_words sign bits nz inc dest cur.
Proof.
  intros Hi H0 H1. unfold put_words_i, put_words.
  apply (for_up_eq (fun i st => snd st = cur + inc * (4 * Z.of_nat i))).
  - cbn [snd]. ring.
  - intros i (d & k) Hl E. cbn [snd] in E. apply bind_eq; [reflexivity|]. intros w _. cbv zeta.
    assert (INT_MIN <= k <= INT_MAX /\ INT_MIN <= k + inc * 4 <= INT_MAX) as (K1 & K2).
    { subst k. destruct Hi as [-> | ->]; lia. }
    apply bind_eq; [reflexivity|]. intros d1 _. rewrite chk32_in by (destruct Hi as [-> | ->]; lia). cbn [bind].
    apply bind_eq; [reflexivity|]. intros d2 _. rewrite chk32_in by (destruct Hi as [-> | ->]; lia). cbn [bind].
    apply bind_eq; [reflexivity|]. intros d3 _. rewrite chk32_in by (destruct Hi as [-> | ->]; lia). cbn [bind].
    apply bind_eq; [reflexivity|]. intros d4 _. rewrite chk32_in by (destruct Hi as [-> | ->]; lia). reflexivity.
  - intros i (d & k) st Hl E R. cbn [snd] in E. do 5 bret R. injection R as <-. cbn [snd]. subst k. lia.
Qed.

Lemma put_words_cur sign bits nz inc dest cur d k :
  put_words sign bits nz inc dest cur = Ret (d, k) -> k = cur + inc * (4 * Z.of_nat (length bits - 1)).
Proof.
  intros R. unfold put_words in R.
  apply (for_up_ret (fun i st => snd st = cur + inc * (4 * Z.of_nat i))) in R; [exact R|cbn [snd]; ring|].
  intros i (d' & k') st Hl E R'. cbn [snd] in E. do 5 bret R'. injection R' as <-. cbn [snd]. subst k'. lia.
Qed.

(** Too small an array. *)
Lemma wrz_oob l z v : z < 0 \/ Z.of_nat (length l) <= z -> wrz l z v = Undef OutOfBounds.
Proof.
  intros H. unfold wrz, wr. destruct (Z.ltb_spec z 0); [reflexivity|].
  destruct (Nat.ltb_spec (Z.to_nat z) (length l)); [lia|reflexivity].
Qed.

Lemma wrz_in l z v : 0 <= z < Z.of_nat (length l) -> exists l', wrz l z v = Ret l' /\ length l' = length l.
Proof.
  intros H. unfold wrz, wr. destruct (Z.ltb_spec z 0); [lia|].
  destruct (Nat.ltb_spec (Z.to_nat z) (length l)); [|lia]. exists (upd l (Z.to_nat z) v).
  split; [reflexivity|apply length_upd].
Qed.

Lemma put_words_oob c sign bits nz (be : bool) dest :
  Z.of_nat (length dest) <= INT_MAX -> Z.of_nat (length dest) < 4 * (Z.of_nat (length bits) - 1) ->
  put_words_i c sign bits nz (if be then -1 else 1) dest (if be then Z.of_nat (length dest) - 1 else 0)
  = Undef OutOfBounds.
Proof.
  intros Hm Hs. unfold put_words_i. set (L := Z.of_nat (length dest)) in *.
  set (inc := if be then -1 else 1).
  set (at_ := fun j => if be then L - 1 - j else j).
  assert (forall j, 0 <= j <= L -> INT_MIN <= at_ j <= INT_MAX) as Hr.
  { intros j Hj. unfold at_. destruct be; num; lia. }
  assert (forall j, at_ j + inc = at_ (j + 1)) as HS by (intros j; unfold at_, inc; destruct be; lia).
  assert (forall d v, Z.of_nat (length d) = L -> wrz d (at_ L) v = Undef OutOfBounds) as Hoob.
  { intros d v E. apply wrz_oob. unfold at_. destruct be; lia. }
  assert (forall d j v, Z.of_nat (length d) = L -> 0 <= j < L -> exists d', wrz d (at_ j) v = Ret d' /\ Z.of_nat (length d') = L) as Hin.
  { intros d j v E Hj. destruct (wrz_in d (at_ j) v) as (d' & E1 & E2).
    - rewrite E. unfold at_. destruct be; lia.
    - exists d'. split; [exact E1|]. now rewrite E2. }
  replace (if be then L - 1 else 0) with (at_ (4 * Z.of_nat 0)) by (unfold at_; destruct be; lia).
  assert (0 <= L) as HL0 by (unfold L; lia).
  assert (Z.of_nat (length dest) = L) as HL by reflexivity.
  assert (L < 4 * (Z.of_nat 0 + Z.of_nat (length bits - 1))) as Hend by lia.
  assert (4 * Z.of_nat 0 <= L) as Hst by lia.
  assert (Z.of_nat 0 + Z.of_nat (length bits - 1) <= Z.of_nat (length bits)) as Hbits by lia.
  clearbody L at_ inc. clear Hs Hm. revert Hend Hbits. generalize (length bits - 1)%nat. intros n Hend Hbits.
  revert HL Hst Hend Hbits. generalize 0%nat as start. revert dest.
  induction n as [|n IH]; intros dest start HL Hst Hend Hbits.
  { lia. }
  cbn [for_up]. unfold rd at 1. destruct (nth_error bits start) as [w|] eqn:En.
  2:{ apply nth_error_None in En. lia. }
  cbn [bind]. cbv zeta. remember (4 * Z.of_nat start) as j eqn:Ej.
  set (w' := if sign =? -1 then _ else w). clearbody w'. clear En.
  destruct (Z.eq_dec j L) as [E|N0]; [rewrite E, Hoob by exact HL; reflexivity|].
  destruct (Hin dest j (u8 w') HL ltac:(lia)) as (d1 & -> & L1). cbn [bind].
  rewrite HS, chk32_in by (apply Hr; lia). cbn [bind].
  destruct (Z.eq_dec (j + 1) L) as [E|N1]; [rewrite E, Hoob by exact L1; reflexivity|].
  destruct (Hin d1 (j + 1) (u8 (Z.shiftr w' 8)) L1 ltac:(lia)) as (d2 & -> & L2). cbn [bind].
  rewrite HS, chk32_in by (apply Hr; lia). cbn [bind].
  destruct (Z.eq_dec (j + 1 + 1) L) as [E|N2]; [rewrite E, Hoob by exact L2; reflexivity|].
  destruct (Hin d2 (j + 1 + 1) (u8 (Z.shiftr w' 16)) L2 ltac:(lia)) as (d3 & -> & L3). cbn [bind].
  rewrite HS, chk32_in by (apply Hr; lia). cbn [bind].
  destruct (Z.eq_dec (j + 1 + 1 + 1) L) as [E|N3]; [rewrite E, Hoob by exact L3; reflexivity|].
  destruct (Hin d3 (j + 1 + 1 + 1) (u8 (Z.shiftr w' 24)) L3 ltac:(lia)) as (d4 & -> & L4). cbn [bind].
  rewrite HS, chk32_in by (apply Hr; lia). cbn [bind].
  replace (j + 1 + 1 + 1 + 1) with (4 * Z.of_nat (S start)) by lia.
  apply IH; [exact L4|lia|lia|lia].
Qed.

Definition out_of_room (c : cfg) (mode : bytes_mode) (b : bigint) (u be : bool) (len : Z) : sized (list Z * Z) :=
  match mode with
  | CountOnly => Sized (Ret ([], s32 len))
  | AllocateArray =>
      if len <=? INT_MAX then Sized (bi_to_bytes_mode c AllocateArray b u be)
      else if s32 len <? 0 then LengthError
      else Sized (Undef OutOfBounds)
  end.

Lemma to_bytes_mode_i_spec c mode b V u be :
  represents b V -> V <> 0 -> (u = true -> 0 < V) ->
  exists len, holds u len V /\ len <> O /\ (forall n, (n < len)%nat -> n <> O -> ~ holds u n V) /\
    bi_to_bytes_mode_i c mode b u be = out_of_room c mode b u be (Z.of_nat len).
Proof.
  intros Hb HV Hu. pose proof (bytes_head_spec c b V Hb HV) as HH.
  apply wp_inv in HH. destruct HH as (((hb, nz), hd) & EH & H).
  destruct (bytes_msb hb hd) as (msb, m) eqn:EM.
  pose proof (byte_len_ok b V hb nz hd msb m u H HV Hu EM) as (HL & HM).
  set (len := (4 * (word_count b - 1) + m + 1 + (if extra_byte hb msb u then 1 else 0))%nat) in *.
  exists len. split; [exact HL|]. split; [unfold len; lia|]. split; [exact HM|]. clear HL HM.
  destruct (msb_split b V hb nz hd msb m H HV EM) as (Hm & _ & _ & _).
  assert (sign_of b =? 0 = false) as Es0.
  { apply Z.eqb_neq. intros E. apply HV. apply (repr_sign_zero b V Hb). exact E. }
  assert (u && (sign_of b <? 0) = false) as Es1.
  { destruct u; [|reflexivity]. cbn [andb]. rewrite (repr_sign_ltb b V Hb). apply Z.ltb_ge. specialize (Hu eq_refl). lia. }
  unfold bi_to_bytes_mode_i, out_of_room, bi_to_bytes_mode. rewrite Es0, Es1, EH. cbn [bind]. rewrite EM.
  fold (extra_byte hb msb u). cbv zeta. set (xt := extra_byte hb msb u) in *. clearbody xt.
  assert ((if is_nil (bits_of b) then (m + 1 + (if xt then 1 else 0))%nat
     else (4 * (length (bits_of b) - 1) + (m + 1 + (if xt then 1 else 0)))%nat) = len) as EL.
  { unfold len, word_count. destruct (is_nil (bits_of b)); lia. }
  assert ((if is_nil (bits_of b) then Z.of_nat m + 1 + (if xt then 1 else 0)
     else s32 (u64 (4 * (Z.of_nat (length (bits_of b)) - 1) + (Z.of_nat m + 1 + (if xt then 1 else 0)))))
     = s32 (Z.of_nat len)) as ELI.
  { rewrite <- EL. destruct (bits_of b) as [|b0 bs] eqn:Eb; cbn [is_nil].
    - symmetry. apply (s32_shift _ _ 0); destruct xt; num; lia.
    - rewrite s32_u64. f_equal. cbn [length]. destruct xt; lia. }
  rewrite ELI, EL. clear EL ELI. destruct mode; [|reflexivity].
  assert (1 <= len)%nat as Len1 by (unfold len; lia).
  assert (Z.of_nat len = 4 * Z.of_nat (word_count b - 1) + Z.of_nat m + 1 + (if xt then 1 else 0)) as Elen
    by (unfold len; destruct xt; lia).
  clearbody len. pose proof (s32_range (Z.of_nat len)) as SR.
  destruct (Z.leb_spec (Z.of_nat len) INT_MAX) as [Fit|Big_].
  - (* the length fits *)
    assert (s32 (Z.of_nat len) = Z.of_nat len) as -> by (apply s32_small; num; lia).
    assert (u64 (Z.of_nat len) = Z.of_nat len) as -> by (unfold u64; apply Z.mod_small; num; lia).
    destruct (Z.ltb_spec LONG_MAX (Z.of_nat len)); [num; lia|]. rewrite Nat2Z.id. f_equal.
    assert ((if be then chk32 c (Z.of_nat len - 1) else Ret 0) = Ret (if be then Z.of_nat len - 1 else 0)) as ->.
    { destruct be; [|reflexivity]. apply chk32_in. num; lia. }
    cbn [bind]. set (cur := if be then Z.of_nat len - 1 else 0). set (inc := if be then -1 else 1).
    assert (inc = 1 \/ inc = -1) as Hinc by (unfold inc; destruct be; auto).
    assert (forall j, 0 <= j < Z.of_nat len -> INT_MIN <= cur + inc * j <= INT_MAX) as Hr.
    { intros j Hj. unfold cur, inc. destruct be; num; lia. }
    apply bind_eq.
    { destruct (is_nil (bits_of b)) eqn:En; [reflexivity|]. apply put_words_eq; [exact Hinc| |].
      - replace cur with (cur + inc * 0) by ring. apply Hr. lia.
      - apply Hr. unfold word_count in Elen. rewrite En in Elen.
        destruct (bits_of b); [discriminate En|]. cbn [length] in *. destruct xt; lia. }
    intros (d & k) R. cbn beta iota.
    assert (k = cur + inc * (4 * Z.of_nat (word_count b - 1))) as Ek.
    { unfold word_count. destruct (is_nil (bits_of b)) eqn:En.
      - injection R as _ <-. cbn [Nat.sub]. lia.
      - apply put_words_cur in R. exact R. }
    assert (forall t, 0 <= t <= Z.of_nat m + (if xt then 1 else 0) -> INT_MIN <= k + inc * t <= INT_MAX) as Hk.
    { intros t Ht. subst k. replace (cur + inc * (4 * Z.of_nat (word_count b - 1)) + inc * t)
        with (cur + inc * (4 * Z.of_nat (word_count b - 1) + t)) by ring. apply Hr. lia. }
    clear R Ek Hr. apply bind_eq; [reflexivity|]. intros d1 _. apply bind_eq.
    { destruct (Nat.eqb_spec m 0) as [|M0]; [reflexivity|].
      rewrite chk32_in by (specialize (Hk 1); destruct xt; lia). cbn [bind].
      apply bind_eq; [reflexivity|]. intros d2 _. destruct (Nat.eqb_spec m 1) as [|M1]; [reflexivity|].
      rewrite chk32_in by (specialize (Hk 2); destruct xt; lia). cbn [bind].
      apply bind_eq; [reflexivity|]. intros d3 _. destruct (Nat.eqb_spec m 2) as [|M2]; [reflexivity|].
      rewrite chk32_in by (specialize (Hk 3); destruct xt; lia). cbn [bind].
      apply bind_eq; reflexivity. }
    intros (d2 & k2) R. cbn beta iota.
    assert (k2 = k + inc * Z.of_nat m) as Ek2.
    { destruct (Nat.eqb_spec m 0) as [->|M0]; [injection R as _ <-; lia|]. bret R.
      destruct (Nat.eqb_spec m 1) as [->|M1]; [injection R as _ <-; lia|]. bret R.
      destruct (Nat.eqb_spec m 2) as [->|M2]; [injection R as _ <-; lia|]. bret R.
      injection R as _ <-. assert (m = 3)%nat as -> by lia. lia. }
    apply bind_eq; [reflexivity|]. intros _ _. apply bind_eq; [reflexivity|]. intros _ _.
    apply bind_eq; [|reflexivity]. destruct xt; [|reflexivity].
    rewrite chk32_in; [reflexivity|]. subst k2. specialize (Hk (Z.of_nat m + 1) ltac:(lia)). lia.
  - destruct (Z.ltb_spec (s32 (Z.of_nat len)) 0) as [Neg|Pos].
    + (* negative *)
      assert (u64 (s32 (Z.of_nat len)) = s32 (Z.of_nat len) + W64) as ->.
      { unfold u64. symmetry. apply (Z.mod_unique_pos _ _ (-1)); num; lia. }
      destruct (Z.ltb_spec LONG_MAX (s32 (Z.of_nat len) + W64)); [reflexivity|num; lia].
    + (* too small *)
      destruct (s32_mod (Z.of_nat len)) as (w & Ew).
      assert (s32 (Z.of_nat len) <= Z.of_nat len - W32) as Small by (num; lia). clear Ew.
      destruct (nat_of_size _ Pos) as (r & Er). rewrite <- Er in *. clear Er.
      assert (u64 (Z.of_nat r) = Z.of_nat r) as -> by (unfold u64; apply Z.mod_small; num; lia).
      destruct (Z.ltb_spec LONG_MAX (Z.of_nat r)); [num; lia|]. rewrite Nat2Z.id. f_equal.
      assert ((if be then chk32 c (Z.of_nat r - 1) else Ret 0) = Ret (if be then Z.of_nat r - 1 else 0)) as ->.
      { destruct be; [|reflexivity]. apply chk32_in. num; lia. }
      cbn [bind].
      assert (is_nil (bits_of b) = false) as En.
      { destruct (is_nil (bits_of b)) eqn:En; [|reflexivity]. unfold word_count in Elen. rewrite En in Elen.
        destruct xt; num; lia. }
      rewrite En. pose proof (put_words_oob c (sign_of b) (bits_of b) nz be (zeros r)) as O.
      rewrite length_zeros in O. rewrite O; [reflexivity|lia|].
      unfold word_count in Elen. rewrite En in Elen. destruct xt; num; lia.
Qed.

(** ** Laws *)

Lemma int_of_size_s32 n r : int_of_size n r -> s32 n = r.
Proof.
  intros (H & k & E). apply (s32_shift r n k); [|num; lia].
  rewrite E. f_equal.
Qed.

Lemma s32_int_of_size n : int_of_size n (s32 n).
Proof.
  destruct (s32_mod n) as (k & E). pose proof (s32_range n) as R. split; [num; lia|].
  exists (- k). rewrite E. change (2 ^ 32) with W32. ring.
Qed.

Lemma int_of_size_small n : 0 <= n < 2 ^ 31 -> s32 n = n.
Proof. intros H. apply s32_small. num; lia. Qed.

Lemma holds_needs u len V : V <> 0 -> (u = true -> 0 < V) ->
  holds u len V -> len <> O -> (forall n, (n < len)%nat -> n <> O -> ~ holds u n V) ->
  needs_bytes u V (Z.of_nat len).
Proof.
  intros HV Hu HL Hn HM. split; [lia|]. intros m Hm.
  replace (256 ^ m) with (p8 (Z.to_nat m)) by (unfold bp; rewrite Z2Nat.id by lia; reflexivity).
  split.
  - intros G. pose proof (bp_le 256 B8_ok len (Z.to_nat m) ltac:(lia)) as P. unfold holds, cfits in HL.
    destruct u; lia.
  - intros G. destruct (Z.le_gt_cases (Z.of_nat len) m) as [K|K]; [exact K|exfalso].
    apply (HM (Z.to_nat m)); [lia|lia|]. unfold holds, cfits. destruct u; [specialize (Hu eq_refl)|]; lia.
Qed.

Lemma needs_unique u x n n' : needs_bytes u x n -> needs_bytes u x n' -> n = n'.
Proof.
  intros (A & B) (A' & B').
  pose proof (proj1 (B n A) ltac:(lia)) as P. pose proof (proj1 (B' n' A') ltac:(lia)) as P'.
  apply (B' n A) in P. apply (B n' A') in P'. lia.
Qed.

Lemma needs_zero u : needs_bytes u 0 1.
Proof.
  split; [lia|]. intros m Hm. pose proof (Z.pow_pos_nonneg 256 m). destruct u; lia.
Qed.

Lemma byte_count_i_spec c a x u n :
  represents a x -> (u = true -> 0 <= x) -> needs_bytes u x n ->
  exists r, bi_byte_count_i c a u = Sized (Ret r) /\ int_of_size n r.
Proof.
  intros Ha Hu Hn. destruct (Z.eq_dec x 0) as [->|Hx].
  - apply represents_unique with (b := Big 0 []) in Ha; [|apply repr_zero]. subst a.
    exists 1. split; [reflexivity|]. rewrite (needs_unique u 0 n 1 Hn (needs_zero u)). split; [lia|exists 0; ring].
  - assert (u = true -> 0 < x) as Hu' by (intros E; specialize (Hu E); lia).
    destruct (to_bytes_mode_i_spec c CountOnly a x u false Ha Hx Hu') as (len & HL & H0 & HM & E).
    exists (s32 n). split; [|apply s32_int_of_size]. unfold bi_byte_count_i. rewrite E.
    rewrite (needs_unique u x n _ Hn (holds_needs u len x Hx Hu' HL H0 HM)). reflexivity.
Qed.

Lemma byte_count_i_wrong c a x u n :
  represents a x -> (u = true -> 0 <= x) -> needs_bytes u x n -> 2 ^ 31 <= n ->
  exists r, bi_byte_count_i c a u = Sized (Ret r) /\ r < n /\ (n < 2 ^ 32 -> r = n - 2 ^ 32).
Proof.
  intros Ha Hu Hn Hb. destruct (byte_count_i_spec c a x u n Ha Hu Hn) as (r & E & R & k & Ek).
  exists r. split; [exact E|]. split; [lia|]. intros G. assert (k = 1) by lia. lia.
Qed.

Lemma to_bytes_i_room c a x u be n : represents a x -> (u = true -> 0 <= x) -> needs_bytes u x n ->
  bi_to_bytes_i c a u be =
    if n <=? INT_MAX then Sized (bi_to_bytes c a u be)
    else if s32 n <? 0 then LengthError else Sized (Undef OutOfBounds).
Proof.
  intros Ha Hu Hn. destruct (Z.eq_dec x 0) as [->|Hx].
  - apply represents_unique with (b := Big 0 []) in Ha; [|apply repr_zero]. subst a.
    rewrite (needs_unique u 0 n 1 Hn (needs_zero u)). reflexivity.
  - assert (u = true -> 0 < x) as Hu' by (intros E; specialize (Hu E); lia).
    destruct (to_bytes_mode_i_spec c AllocateArray a x u be Ha Hx Hu') as (len & HL & H0 & HM & E).
    rewrite (needs_unique u x n _ Hn (holds_needs u len x Hx Hu' HL H0 HM)).
    unfold bi_to_bytes_i. rewrite E. unfold out_of_room.
    destruct (Z.of_nat len <=? INT_MAX); [reflexivity|]. destruct (s32 (Z.of_nat len) <? 0); reflexivity.
Qed.

Lemma to_bytes_i_fits c a x u be n :
  represents a x -> (u = true -> 0 <= x) -> needs_bytes u x n -> n < 2 ^ 31 ->
  exists l, bi_to_bytes_i c a u be = Sized (Ret l) /\ byte_encoding u be x n l.
Proof.
  intros Ha Hu Hn Hs. rewrite (to_bytes_i_room c a x u be n Ha Hu Hn).
  destruct (Z.leb_spec n INT_MAX); [|num; lia].
  destruct (to_bytes_returns c a x u be Ha Hu) as (l & E & D & V & Hl & _).
  destruct (byte_count_returns c a x u be Ha Hu) as (l' & E' & C).
  rewrite E' in E. injection E as ->. destruct (byte_count_value c a x u Ha Hu) as (m & C' & M).
  rewrite C in C'. injection C' as <-. exists l. rewrite E'. split; [reflexivity|].
  split; [exact D|]. split; [exact V|]. apply (needs_unique u x); assumption.
Qed.

Lemma to_bytes_i_fails c a x u be n r :
  represents a x -> (u = true -> 0 <= x) -> needs_bytes u x n -> 2 ^ 31 <= n -> int_of_size n r ->
  bi_to_bytes_i c a u be = if r <? 0 then LengthError else Sized (Undef OutOfBounds).
Proof.
  intros Ha Hu Hn Hs Hr. rewrite (to_bytes_i_room c a x u be n Ha Hu Hn).
  destruct (Z.leb_spec n INT_MAX); [num; lia|]. now rewrite (int_of_size_s32 n r Hr).
Qed.

Lemma to_bytes_i_throws c a x be : represents a x -> x < 0 ->
  bi_to_bytes_i c a true be = Sized (Throw RuntimeError) /\ bi_byte_count_i c a true = Sized (Throw RuntimeError).
Proof.
  intros Ha Hx. unfold bi_to_bytes_i, bi_byte_count_i, bi_to_bytes_mode_i.
  assert (sign_of a =? 0 = false) as ->.
  { apply Z.eqb_neq. intros E. pose proof (repr_sign_zero a x Ha E). lia. }
  rewrite (repr_sign_ltb a x Ha). apply Z.ltb_lt in Hx. rewrite Hx. split; reflexivity.
Qed.

Lemma of_bytes_i_prefix c l u be r l' :
  digits 256 l -> int_of_size (Z.of_nat (length l)) r -> 0 <= r -> l' = firstn (Z.to_nat r) l ->
  strict c = false \/ 0 <= bytes_value u be l' \/ 4 < r ->
  returns (bi_of_bytes_i c l u be) (bytes_value u be l').
Proof.
  intros D Hr H0 -> Hs.
  destruct (nat_of_size r H0) as (k & Ek). subst r. rewrite Nat2Z.id in *.
  pose proof (int_of_size_s32 _ _ Hr) as E.
  rewrite (of_bytes_wrapped c l u be k E). apply of_bytes_returns; [now apply digits_firstn|].
  destruct Hs as [Hs|[Hs|Hs]]; [now left|right; now left|right; right].
  destruct Hr as (R & w & Ew). change (2 ^ 32) with 4294967296 in Ew. change (2 ^ 31) with 2147483648 in R.
  rewrite firstn_length_le by lia. lia.
Qed.

Lemma of_bytes_i_strict c l u be r :
  digits 256 l -> int_of_size (Z.of_nat (length l)) r -> 0 <= r <= 4 ->
  strict c = true -> bytes_value u be (firstn (Z.to_nat r) l) < 0 ->
  bi_of_bytes_i c l u be = Undef ShiftNegative.
Proof.
  intros D Hr H0 Hc Hv.
  destruct (nat_of_size r ltac:(lia)) as (k & Ek). subst r. rewrite Nat2Z.id in Hv.
  pose proof (int_of_size_s32 _ _ Hr) as E.
  rewrite (of_bytes_wrapped c l u be k E). apply of_bytes_strict; auto; [now apply digits_firstn|].
  rewrite firstn_length. lia.
Qed.

Lemma of_bytes_i_fits c l u be :
  digits 256 l -> Z.of_nat (length l) < 2 ^ 31 ->
  strict c = false \/ 0 <= bytes_value u be l \/ (4 < length l)%nat ->
  returns (bi_of_bytes_i c l u be) (bytes_value u be l).
Proof.
  intros D Hl Hs. rewrite (of_bytes_wrapped c l u be (length l)) by (apply int_of_size_small; lia).
  rewrite firstn_all. now apply of_bytes_returns.
Qed.

Lemma of_bytes_i_zero c l u be r :
  int_of_size (Z.of_nat (length l)) r -> r < 0 -> be = true \/ - 2 ^ 31 < r ->
  returns (bi_of_bytes_i c l u be) 0.
Proof.
  intros Hr H0 Hb. pose proof (int_of_size_s32 _ _ Hr) as E. exists (Big 0 []). split; [|apply repr_zero].
  destruct be; [apply of_bytes_negative_be; lia|]. destruct Hb as [Hb|Hb]; [discriminate Hb|].
  apply of_bytes_negative_le. num. lia.
Qed.

Lemma of_bytes_i_min c l u :
  digits 256 l -> int_of_size (Z.of_nat (length l)) (- 2 ^ 31) ->
  if strict c then bi_of_bytes_i c l u false = Undef SignedOverflow
  else returns (bi_of_bytes_i c l u false) (positional 256 (firstn 4 l)).
Proof.
  intros D Hr. pose proof (int_of_size_s32 _ _ Hr) as E. change (- 2 ^ 31) with INT_MIN in E.
  destruct (strict c) eqn:Hc; [now apply of_bytes_min_strict|now apply of_bytes_min_wrap].
Qed.

(** Storing what a number of that size encodes to and reading it back cannot
    work: a case for the theorems. *)
Lemma needs_power u k : 0 <= k -> needs_bytes u (2 ^ (8 * k)) (k + 1).
Proof.
  intros Hk. split; [lia|]. intros m Hm. rewrite Z.pow_mul_r by lia. change (2 ^ 8) with 256.
  pose proof (Z.pow_pos_nonneg 256 m ltac:(lia) ltac:(lia)) as P.
  pose proof (Z.pow_pos_nonneg 256 k ltac:(lia) ltac:(lia)) as Pk.
  split.
  - intros G. assert (256 ^ (k + 1) <= 256 ^ m) as Q by (apply Z.pow_le_mono_r; lia).
    rewrite Z.pow_add_r, Z.pow_1_r in Q by lia. destruct u; lia.
  - intros G. destruct (Z.le_gt_cases (k + 1) m) as [K|K]; [exact K|exfalso].
    assert (256 ^ m <= 256 ^ k) as Q by (apply Z.pow_le_mono_r; lia). destruct u; lia.
Qed.

Lemma sizes_case k : k = 2 ^ 31 -> exists a,
  represents a (2 ^ (8 * k)) /\ needs_bytes false (2 ^ (8 * k)) (k + 1) /\ 2 ^ 31 <= k + 1 < 2 ^ 32 /\
  int_of_size (k + 1) (1 - 2 ^ 31).
Proof.
  intros Hk. destruct (represents_total (2 ^ (8 * k))) as (a & Ha). exists a. split; [exact Ha|].
  change (2 ^ 31) with 2147483648 in *. split; [apply needs_power; lia|]. clear Ha a.
  split; [lia|]. split; [lia|]. exists 1. lia.
Qed.

Lemma sizes_case_wrapped k : k = 2 ^ 32 -> exists a,
  represents a (2 ^ (8 * k)) /\ needs_bytes false (2 ^ (8 * k)) (k + 1) /\ 2 ^ 31 <= k + 1 /\
  int_of_size (k + 1) 1.
Proof.
  intros Hk. destruct (represents_total (2 ^ (8 * k))) as (a & Ha). exists a. split; [exact Ha|].
  change (2 ^ 32) with 4294967296 in *. split; [apply needs_power; lia|]. clear Ha a.
  split; [lia|]. split; [lia|]. exists 1. lia.
Qed.

(** A string of [n] bytes, not all zero. *)
Lemma bytes_of_size n be : 0 < n -> exists l,
  digits 256 l /\ Z.of_nat (length l) = n /\ 0 < bytes_value true be l.
Proof.
  intros H. destruct (nat_of_size n ltac:(lia)) as (k & E). exists (repeat 7 k).
  assert (forall m, digits 256 (repeat 7 m)) as D.
  { intros m. apply Forall_forall. intros x Hx. apply repeat_spec in Hx. subst x. lia. }
  split; [apply D|]. split; [now rewrite repeat_length|]. cbn [bytes_value].
  assert (le_order be (repeat 7 k) = repeat 7 k) as ->.
  { destruct be; [|reflexivity]. cbn [le_order]. clear. induction k as [|k IH]; [reflexivity|].
    cbn [repeat rev]. rewrite IH. symmetry. apply (repeat_cons k 7). }
  destruct k as [|k]; [lia|]. cbn [repeat positional].
  pose proof (pos_bound 256 B8_ok (repeat 7 k) (D k)). lia.
Qed.

Lemma prefix_case be k : k = 2 ^ 32 -> exists l,
  digits 256 l /\ int_of_size (Z.of_nat (length l)) 5 /\ Z.of_nat (length l) = k + 5 /\ 0 < bytes_value true be l.
Proof.
  intros Hk. change (2 ^ 32) with 4294967296 in Hk. destruct (bytes_of_size (k + 5) be ltac:(lia)) as (l & D & L & V).
  exists l. split; [exact D|]. split; [|split; assumption]. rewrite L. split; [lia|]. exists 1.
  change (2 ^ 32) with 4294967296. lia.
Qed.

Lemma zero_case be k : k = 2 ^ 31 -> exists l,
  digits 256 l /\ int_of_size (Z.of_nat (length l)) (1 - 2 ^ 31) /\ Z.of_nat (length l) = k + 1 /\
  0 < bytes_value true be l.
Proof.
  intros Hk. change (2 ^ 31) with 2147483648 in *. destruct (bytes_of_size (k + 1) be ltac:(lia)) as (l & D & L & V).
  exists l. split; [exact D|]. split; [|split; assumption]. rewrite L. split; [lia|]. exists 1.
  change (2 ^ 32) with 4294967296. lia.
Qed.

Lemma min_case k : k = 2 ^ 31 -> exists l,
  digits 256 l /\ int_of_size (Z.of_nat (length l)) (- 2 ^ 31) /\ Z.of_nat (length l) = k.
Proof.
  intros Hk. change (2 ^ 31) with 2147483648 in *. destruct (bytes_of_size k false ltac:(lia)) as (l & D & L & _).
  exists l. split; [exact D|]. split; [|exact L]. rewrite L. split; [lia|]. exists 1.
  change (2 ^ 32) with 4294967296. lia.
Qed.
