(** The random operands of the tests of is_power_of_two and is_even. *)
From Coq Require Import String Ascii.
From Verif Require Import Facts Spec SpecPos PosFacts BytesFacts ToBytesFacts BigInt BigIntText BigIntBytes SpecFacts SpecText TextFacts
  BigIntFacts CompareFacts ConvFacts ArithLaws SpecOracle SpecNumbers TestOracle TestNumbers OracleFacts OracleFacts2 OracleFacts3.

Ltac Zify.zify_post_hook ::= idtac.

(** ** CheckExpected *)

Fixpoint ones (v : Z) (n : nat) : Z :=
  match n with O => 0 | S n => ones v n + b2z (Z.testbit v (Z.of_nat n)) end.

Lemma mod_step v n : v mod 2 ^ Z.of_nat (S n) = v mod 2 ^ Z.of_nat n + 2 ^ Z.of_nat n * b2z (Z.testbit v (Z.of_nat n)).
Proof.
  pose proof (pow2_pos n). pose proof (bit_step v n) as B. pose proof (Z.div_mod v (2 ^ Z.of_nat n) ltac:(lia)) as D1.
  pose proof (Z.div_mod v (2 ^ Z.of_nat (S n)) ltac:(rewrite pow2_S; lia)) as D2. rewrite pow2_S in *. nia.
Qed.

Lemma b2z_cases b : b2z b = 0 /\ b = false \/ b2z b = 1 /\ b = true.
Proof. destruct b; cbn; auto. Qed.

Lemma ones_spec v n : 0 <= ones v n /\ (ones v n = 0 <-> v mod 2 ^ Z.of_nat n = 0) /\
  (ones v n = 1 <-> exists k, 0 <= k < Z.of_nat n /\ v mod 2 ^ Z.of_nat n = 2 ^ k).
Proof.
  induction n as [|n (P & Z0 & O)]; cbn [ones].
  - change (2 ^ Z.of_nat 0) with 1. rewrite Z.mod_1_r. split; [lia|]. split; [lia|]. split; [lia|]. intros (k & K & _). lia.
  - rewrite mod_step. pose proof (pow2_pos n) as P2. pose proof (Z.mod_pos_bound v _ P2) as M.
    destruct (b2z_cases (Z.testbit v (Z.of_nat n))) as [(-> & _)|(-> & _)].
    + rewrite Z.mul_0_r, !Z.add_0_r. split; [lia|]. split; [exact Z0|]. rewrite O. split; intros (k & K & E).
      * exists k. split; [lia|exact E].
      * exists k. split; [|exact E]. rewrite E in M. destruct (Z.eq_dec k (Z.of_nat n)) as [->|]; [lia|]. lia.
    + rewrite Z.mul_1_r. split; [lia|]. split; [split; lia|]. split.
      * intros E. exists (Z.of_nat n). split; [lia|]. assert (ones v n = 0) as E0 by lia. apply Z0 in E0. lia.
      * intros (k & K & E). assert (k = Z.of_nat n) as ->.
        { destruct (Z.eq_dec k (Z.of_nat n)) as [|N]; [assumption|]. exfalso.
          assert (2 ^ k < 2 ^ Z.of_nat n) by (apply Z.pow_lt_mono_r; lia). lia. }
        assert (ones v n = 0) by (apply Z0; lia). lia.
Qed.

Lemma is_power_iff z : is_power z = true <-> exists k, 0 <= k /\ z = 2 ^ k.
Proof.
  unfold is_power. rewrite Z.eqb_eq. split.
  - intros E. exists (Z.log2 z). split; [apply Z.log2_nonneg|exact E].
  - intros (k & K & ->). now rewrite Z.log2_pow2 by lia.
Qed.

Lemma bool_iff (a b : bool) : (a = true <-> b = true) -> a = b.
Proof. destruct a, b; intuition. Qed.

Theorem check_expected_exact l : digits 256 l -> check_expected l = Ret (is_power (cv l)).
Proof.
  intros D. unfold check_expected. cbv zeta. pose proof (pv_bound l D) as B. rewrite p8_pow in B.
  assert (wp (for_up (8 * length l) 0 (fun i valueOne => one <- bits_get l (8 * length l) i ;;
            Ret (if one : bool then valueOne + 1 else valueOne)) 0) (fun n => n = ones (pv l) (8 * length l))) as W.
  { apply wp_for_up with (I := fun i n => n = ones (pv l) i); [reflexivity| |intros s ->; reflexivity].
    intros i s H ->. eapply wp_bind_cut; [apply bits_get_spec; [exact D|lia|lia]|]. intros b ->. apply wp_ret.
    cbn [ones]. destruct (Z.testbit (pv l) (Z.of_nat i)); cbn [b2z]; lia. }
  apply wp_inv in W as (n & -> & ->). cbn [bind]. destruct (ones_spec (pv l) (8 * length l)) as (_ & _ & O).
  replace (Z.of_nat (8 * length l)) with (8 * Z.of_nat (length l)) in O by lia. rewrite Z.mod_small in O by exact B.
  destruct (Z.eqb_spec 1 (ones (pv l) (8 * length l))) as [E|E].
  - symmetry in E. apply O in E as (k & K & E).
    destruct (wp_inv _ _ (bits_get_spec l (8 * length l) (8 * length l - 1) D ltac:(lia) ltac:(lia))) as (b & -> & ->).
    cbn [bind]. f_equal. apply bool_iff. rewrite is_power_iff, negb_true_iff.
    replace (Z.of_nat (8 * length l - 1)) with (8 * Z.of_nat (length l) - 1) by lia. rewrite E, Z.pow2_bits_eqb by lia.
    unfold complement. rewrite E. change (256 ^ Z.of_nat (length l)) with (p8 (length l)). rewrite p8_pow.
    assert (enc l (cv l)) as EN by (split; [exact D|split; [intros ->; cbn [length] in K; lia|reflexivity]]).
    pose proof (enc_range l _ EN) as R. pose proof (enc_sign l _ EN) as SG. rewrite p8_pow in R. unfold complement in R, SG.
    rewrite E in R, SG. change (256 ^ Z.of_nat (length l)) with (p8 (length l)) in R, SG. rewrite p8_pow in R, SG.
    assert (0 < 2 ^ k) by (apply Z.pow_pos_nonneg; lia).
    destruct (Z.leb_spec 256 (2 * last l 0)) as [T|T].
    + split; [|intros (j & J & EJ); assert (0 < 2 ^ j) by (apply Z.pow_pos_nonneg; lia); lia].
      intros N. apply Z.eqb_neq in N. exfalso.
      assert (2 ^ k * 2 <= 2 ^ (8 * Z.of_nat (length l) - 1)).
      { replace (2 ^ k * 2) with (2 ^ (k + 1)) by (rewrite Z.pow_add_r by lia; lia). apply Z.pow_le_mono_r; lia. }
      assert (2 ^ (8 * Z.of_nat (length l)) = 2 * 2 ^ (8 * Z.of_nat (length l) - 1)) as P2.
      { replace (8 * Z.of_nat (length l)) with (1 + (8 * Z.of_nat (length l) - 1)) at 1 by lia. rewrite Z.pow_add_r by lia. reflexivity. }
      lia.
    + rewrite Z.sub_0_r in *. split; [intros _; exists k; split; [lia|reflexivity]|]. intros _. apply Z.eqb_neq. intros ->.
      assert (2 ^ (8 * Z.of_nat (length l)) = 2 * 2 ^ (8 * Z.of_nat (length l) - 1)) as P2.
      { replace (8 * Z.of_nat (length l)) with (1 + (8 * Z.of_nat (length l) - 1)) at 1 by lia. rewrite Z.pow_add_r by lia. reflexivity. }
      lia.
  - f_equal. symmetry. apply not_true_iff_false. rewrite is_power_iff. intros (k & K & C). apply E. symmetry. apply O.
    assert (0 < 2 ^ k) by (apply Z.pow_pos_nonneg; lia).
    assert (l <> []) as NE by (intros ->; change (cv []) with 0 in C; lia).
    pose proof (enc_pv l (cv l) (conj D (conj NE eq_refl))) as P. destruct (Z.ltb_spec (cv l) 0); [lia|].
    exists k. split; [|lia]. split; [exact K|]. destruct (Z.lt_ge_cases k (8 * Z.of_nat (length l))) as [|G]; [assumption|].
    pose proof (Z.pow_le_mono_r 2 _ _ ltac:(lia) G). lia.
Qed.

(** ** The random cases *)

Section Draws.
  Context {E : Type} (draw : E -> Z -> Z -> Z * E).

  Lemma shadowed_empty isSmall e : shadowed_bytes draw isSmall e = [].
  Proof. unfold shadowed_bytes. cbv zeta. reflexivity. Qed.

  Lemma drawn_ranges e : in_bounds draw -> 0 <= drawn_byte draw e <= 32 /\ 0 <= drawn_bit draw e <= 8 /\
    (drawn_byte draw e = 31 -> drawn_bit draw e <= 7).
  Proof.
    intros B. unfold drawn_byte, drawn_bit, drawn_byte. split; [apply B; lia|].
    pose proof (B (snd (draw e 0 32)) 0 8 ltac:(lia)).
    pose proof (B (snd (draw (snd (draw e 0 32)) 0 8)) 0 7 ltac:(lia)).
    destruct (Z.eqb_spec (fst (draw e 0 32)) 31); lia.
  Qed.

  Lemma power_bytes_draws cast e : power_of_two_bytes draw cast e =
    (b <- byte_of_double cast (2 ^ drawn_bit draw e) ;; wrz (repeat 0 32) (drawn_byte draw e) b).
  Proof.
    unfold power_of_two_bytes, drawn_bit, drawn_byte. cbv zeta. destruct (draw e 0 32) as (p & e1). cbn [fst snd].
    destruct (draw e1 0 8) as (x & e2). reflexivity.
  Qed.

  Lemma zeros32 i : nth i (repeat 0 32) 0 = 0.
  Proof. destruct (nth_in_or_default i (repeat 0 32) 0) as [H|H]; [exact (repeat_spec _ _ _ H)|exact H]. Qed.

  Lemma one_byte_array pos b : 0 <= pos < 32 -> 0 <= b < 256 ->
    digits 256 (upd (repeat 0 32) (Z.to_nat pos) b) /\ cv (upd (repeat 0 32) (Z.to_nat pos) b) = one_byte pos b /\
    length (upd (repeat 0 32) (Z.to_nat pos) b) = 32%nat.
  Proof.
    intros P B. assert (length (upd (repeat 0 32) (Z.to_nat pos) b) = 32%nat) as L by (rewrite length_upd; reflexivity).
    split; [apply digits_upd; [|exact B]; repeat constructor; lia|]. split; [|exact L].
    unfold complement. rewrite L, last_nth, L, pv_upd by (cbn [length repeat]; lia). rewrite zeros32.
    change (pv (repeat 0 32)) with 0. unfold one_byte, bp. rewrite Z2Nat.id by lia. change (Z.of_nat 32) with 32.
    replace (256 <=? 2 * nth (32 - 1) (upd (repeat 0 32) (Z.to_nat pos) b) 0) with ((pos =? 31) && (128 <=? b)).
    { destruct ((pos =? 31) && (128 <=? b)); lia. }
    destruct (Z.eqb_spec pos 31) as [->|N].
    - rewrite nth_upd_same by (cbn [length repeat]; lia). cbn [andb].
      destruct (Z.leb_spec 128 b), (Z.leb_spec 256 (2 * b)); lia || reflexivity.
    - rewrite nth_upd_other by lia. rewrite zeros32. reflexivity.
  Qed.

  Lemma pow_byte k : 0 <= k <= 8 -> (if k =? 8 then 2 ^ k = 256 else 0 <= 2 ^ k < 256).
  Proof.
    intros K. destruct (Z.eqb_spec k 8) as [->|N]; [reflexivity|]. split; [apply Z.pow_nonneg; lia|].
    change 256 with (2 ^ 8). apply Z.pow_lt_mono_r; lia.
  Qed.

  Lemma verify_power_exact c b z expected : represents b z -> verify_power_of_two c b expected = Ret (Bool.eqb expected (is_power z)).
  Proof.
    intros R. unfold verify_power_of_two. destruct (bi_is_power_of_two_spec c b z R) as (p & -> & H). cbn [bind]. do 2 f_equal.
    apply bool_iff. now rewrite is_power_iff.
  Qed.

  Theorem samples_exact cast c e : in_bounds draw -> (forall b, cast 256 = Ret b -> 0 <= b < 256) ->
    power_of_two_samples draw cast c e = power_verdict cast (drawn_byte draw e) (drawn_bit draw e).
  Proof.
    intros B C. unfold power_of_two_samples. rewrite !shadowed_empty, power_bytes_draws. cbv zeta. unfold power_verdict.
    destruct (drawn_ranges e B) as (P & T & _). pose proof (pow_byte _ T) as PB. unfold byte_of_double.
    assert (forall b, 0 <= b < 256 ->
      (byteArray3 <- wrz (repeat 0 32) (drawn_byte draw e) b;; small <- bi_of_bytes c [] false false;;
       large <- bi_of_bytes c [] false false;; power <- bi_of_bytes c byteArray3 false false;;
       e1 <- check_expected [];; ok1 <- verify_power_of_two c small e1;; e2 <- check_expected [];;
       ok2 <- verify_power_of_two c large e2;; ok3 <- verify_power_of_two c power true;; Ret (ok1 && ok2 && ok3)) =
      (if drawn_byte draw e =? 32 then Undef OutOfBounds else Ret (is_power (one_byte (drawn_byte draw e) b)))) as G.
    { intros b Hb. unfold wrz, wr. destruct (Z.ltb_spec (drawn_byte draw e) 0); [lia|]. change (length (repeat 0 32)) with 32%nat.
      destruct (Z.eqb_spec (drawn_byte draw e) 32) as [->|N]; [reflexivity|].
      destruct (Nat.ltb_spec (Z.to_nat (drawn_byte draw e)) 32); [|lia]. cbn [bind].
      destruct (of_bytes_returns c [] false false ltac:(constructor) ltac:(right; left; vm_compute; discriminate)) as (z & -> & Z0). cbn [bind].
      destruct (one_byte_array (drawn_byte draw e) b ltac:(lia) Hb) as (D & V & L).
      destruct (of_bytes_returns c _ false false D ltac:(right; right; rewrite L; lia)) as (q & -> & Q). cbn [bind].
      rewrite check_expected_exact by constructor. cbn [bind]. rewrite (verify_power_exact c z _ _ Z0). cbn [bind].
      rewrite (verify_power_exact c q _ _ Q). cbn [bind]. unfold bytes_value, le_order. rewrite V.
      destruct (is_power (one_byte (drawn_byte draw e) b)); reflexivity. }
    destruct (drawn_bit draw e =? 8).
    - rewrite PB. change ((0 <=? 256) && (256 <=? 255)) with false. cbn iota.
      destruct (cast 256) as [b| | | |] eqn:Cb; try reflexivity. cbn [bind]. exact (G b (C b eq_refl)).
    - destruct (Z.leb_spec 0 (2 ^ drawn_bit draw e)); [|lia]. destruct (Z.leb_spec (2 ^ drawn_bit draw e) 255); [|lia].
      cbn [andb bind]. exact (G _ PB).
  Qed.

  Lemma pow_shift pos k : 0 <= pos -> 0 <= k -> 2 ^ k * 256 ^ pos = 2 ^ (8 * pos + k).
  Proof. intros P K. change 256 with (2 ^ 8). rewrite <- Z.pow_mul_r, <- Z.pow_add_r by lia. f_equal. lia. Qed.

  Theorem samples_pass cast c e : in_bounds draw -> drawn_byte draw e <= 31 -> drawn_bit draw e <= 7 ->
    ~ (drawn_byte draw e = 31 /\ drawn_bit draw e = 7) ->
    power_of_two_bytes draw cast e = Ret (upd (repeat 0 32) (Z.to_nat (drawn_byte draw e)) (2 ^ drawn_bit draw e)) /\
    complement 256 (upd (repeat 0 32) (Z.to_nat (drawn_byte draw e)) (2 ^ drawn_bit draw e)) =
      2 ^ (8 * drawn_byte draw e + drawn_bit draw e) /\
    power_of_two_samples draw cast c e = Ret true.
  Proof.
    intros B P T N. destruct (drawn_ranges e B) as (P0 & T0 & _). pose proof (pow_byte _ T0) as PB.
    destruct (Z.eqb_spec (drawn_bit draw e) 8) as [|N8]; [lia|].
    assert (one_byte (drawn_byte draw e) (2 ^ drawn_bit draw e) = 2 ^ (8 * drawn_byte draw e + drawn_bit draw e)) as O.
    { unfold one_byte. rewrite pow_shift by lia.
      destruct (Z.eqb_spec (drawn_byte draw e) 31) as [E31|]; cbn [andb]; [|lia].
      destruct (Z.leb_spec 128 (2 ^ drawn_bit draw e)) as [G|]; [|lia]. exfalso.
      assert (drawn_bit draw e <= 6) as G6 by lia. apply (Z.pow_le_mono_r 2) in G6; [|lia]. change (2 ^ 6) with 64 in G6. lia. }
    split; [|split].
    - rewrite power_bytes_draws. unfold byte_of_double. destruct (Z.leb_spec 0 (2 ^ drawn_bit draw e)); [|lia].
      destruct (Z.leb_spec (2 ^ drawn_bit draw e) 255); [|lia]. cbn [andb bind]. unfold wrz, wr.
      destruct (Z.ltb_spec (drawn_byte draw e) 0); [lia|]. change (length (repeat 0 32)) with 32%nat.
      destruct (Nat.ltb_spec (Z.to_nat (drawn_byte draw e)) 32); [reflexivity|lia].
    - rewrite <- O. apply one_byte_array; lia.
    - assert (power_of_two_samples draw cast c e = power_of_two_samples draw (fun _ => Undef OutOfBounds) c e) as ->.
      { unfold power_of_two_samples. rewrite !power_bytes_draws. unfold byte_of_double.
        destruct (Z.leb_spec 0 (2 ^ drawn_bit draw e)); [|lia].
        destruct (Z.leb_spec (2 ^ drawn_bit draw e) 255); [|lia]. reflexivity. }
      rewrite samples_exact by (exact B || discriminate). unfold power_verdict.
      destruct (Z.eqb_spec (drawn_bit draw e) 8); [lia|]. cbn [bind]. destruct (Z.eqb_spec (drawn_byte draw e) 32); [lia|].
      f_equal. rewrite O. apply is_power_iff. exists (8 * drawn_byte draw e + drawn_bit draw e). split; [lia|reflexivity].
  Qed.

  Theorem samples_fail cast c e : in_bounds draw ->
    (drawn_bit draw e <= 7 -> drawn_byte draw e = 32 -> power_of_two_samples draw cast c e = Undef OutOfBounds) /\
    (drawn_byte draw e = 31 -> drawn_bit draw e = 7 -> power_of_two_samples draw cast c e = Ret false) /\
    (drawn_bit draw e = 8 -> drawn_byte draw e <= 31 -> cast 256 = Ret 0 -> power_of_two_samples draw cast c e = Ret false) /\
    (drawn_bit draw e = 8 -> forall u, cast 256 = Undef u -> power_of_two_samples draw cast c e = Undef u).
  Proof.
    intros B. destruct (drawn_ranges e B) as (P0 & T0 & _).
    assert (drawn_bit draw e <= 7 -> power_of_two_samples draw cast c e =
      power_verdict (fun _ => Undef OutOfBounds) (drawn_byte draw e) (drawn_bit draw e)) as S.
    { intros T. pose proof (pow_byte _ T0) as PB. destruct (Z.eqb_spec (drawn_bit draw e) 8) as [|N8]; [lia|].
      rewrite <- (samples_exact (fun _ => Undef OutOfBounds) c e B) by discriminate.
      unfold power_of_two_samples. rewrite !power_bytes_draws. unfold byte_of_double.
      destruct (Z.leb_spec 0 (2 ^ drawn_bit draw e)); [|lia].
      destruct (Z.leb_spec (2 ^ drawn_bit draw e) 255); [|lia]. reflexivity. }
    split; [|split; [|split]].
    - intros T P. rewrite S by exact T. rewrite P. unfold power_verdict. destruct (Z.eqb_spec (drawn_bit draw e) 8); [lia|]. reflexivity.
    - intros E1 E2. rewrite S by lia. rewrite E1, E2. reflexivity.
    - intros T P C. rewrite samples_exact by (exact B || (intros b Hb; rewrite C in Hb; injection Hb as <-; lia)).
      unfold power_verdict. rewrite T, C. cbn [Z.eqb Pos.eqb bind]. destruct (Z.eqb_spec (drawn_byte draw e) 32); [lia|].
      unfold one_byte. rewrite andb_comm. reflexivity.
    - intros T u C. rewrite samples_exact by (exact B || (intros b Hb; rewrite C in Hb; discriminate)).
      unfold power_verdict. rewrite T, C. reflexivity.
  Qed.

  (** ** The signed byte arrays *)

  Lemma fill_digits n : forall e, digits 256 (fst (fill_bytes draw n e)) /\ length (fst (fill_bytes draw n e)) = n.
  Proof.
    induction n as [|n IH]; intros e; cbn [fill_bytes]; [split; [constructor|reflexivity]|].
    destruct (draw e 0 256) as (v & e1). destruct (IH e1) as (D & L). destruct (fill_bytes draw n e1) as (l & e2).
    cbn [fst length] in *. split; [|now rewrite L]. constructor; [|exact D]. unfold u8. change (2 ^ 8) with 256.
    apply Z.mod_pos_bound. lia.
  Qed.

  Lemma last_upd (l : list Z) v : l <> [] -> last (upd l (length l - 1) v) 0 = v.
  Proof.
    intros N. apply ne_length in N. rewrite last_nth, length_upd. apply nth_upd_same. lia.
  Qed.

  Lemma byte_land t : 0 <= t < 256 -> 0 <= Z.land t 127 < 128.
  Proof. intros H. change 127 with (Z.ones 7). rewrite Z.land_ones by lia. change (2 ^ 7) with 128. apply Z.mod_pos_bound. lia. Qed.

  Lemma byte_lor t : 0 <= t < 256 -> 128 <= Z.lor t 128 < 256.
  Proof.
    intros H. assert ((128 <=? Z.lor t 128) && (Z.lor t 128 <? 256) = true) as A.
    { apply (byte_all (fun t => (128 <=? Z.lor t 128) && (Z.lor t 128 <? 256))); [vm_compute; reflexivity|exact H]. }
    apply andb_true_iff in A as [A1 A2]. apply Z.leb_le in A1. apply Z.ltb_lt in A2. lia.
  Qed.

  Theorem signed_bytes n e : 
    (n = O -> positive_bytes draw n e = Undef OutOfBounds /\ negative_bytes draw n e = Undef OutOfBounds) /\
    (n <> O ->
       (exists l, positive_bytes draw n e = Ret l /\ length l = n /\ digits 256 l /\ 0 <= complement 256 l) /\
       (exists l, negative_bytes draw n e = Ret l /\ length l = n /\ digits 256 l /\ complement 256 l < 0)).
  Proof.
    split; [intros ->; split; reflexivity|]. intros N. destruct (fill_digits n e) as (D & L).
    unfold positive_bytes, negative_bytes. cbv zeta. set (l := fst (fill_bytes draw n e)) in *.
    assert (l <> []) as NE by (intros ->; cbn [length] in L; lia).
    unfold rdz, wrz. destruct (Z.ltb_spec (Z.of_nat (length l) - 1) 0); [lia|].
    replace (Z.to_nat (Z.of_nat (length l) - 1)) with (length l - 1)%nat by lia.
    assert (rd l (length l - 1) = Ret (nth (length l - 1) l 0)) as ->.
    { unfold rd. rewrite (nth_error_nth' l 0) by lia. reflexivity. }
    cbn [bind]. unfold wr. destruct (Nat.ltb_spec (length l - 1) (length l)); [|lia].
    assert (0 <= nth (length l - 1) l 0 < 256) as T.
    { unfold digits in D. rewrite Forall_forall in D. apply D. apply nth_In. lia. }
    set (t := nth (length l - 1) l 0) in *. pose proof (byte_land t T). pose proof (byte_lor t T).
    assert (forall v, 0 <= v < 256 -> enc (upd l (length l - 1) v) (cv (upd l (length l - 1) v))) as EN.
    { intros v Hv. split; [apply digits_upd; assumption|]. split; [apply ne_length; rewrite length_upd; lia|reflexivity]. }
    split; eexists; (split; [reflexivity|]); (split; [rewrite length_upd; exact L|]); (split; [apply digits_upd; [exact D|lia]|]).
    - pose proof (enc_sign _ _ (EN (Z.land t 127) ltac:(lia))) as S. rewrite last_upd in S by exact NE. lia.
    - pose proof (enc_sign _ _ (EN (Z.lor t 128) ltac:(lia))) as S. rewrite last_upd in S by exact NE. lia.
  Qed.
End Draws.

(** ** BuildRandomNumber *)

Lemma digits_app a b : all_digits a -> all_digits b -> all_digits (a ++ b)%string.
Proof.
  unfold all_digits. intros A B. induction a as [|ch a IH]; [exact B|]. cbn [String.append leading_digits String.length] in *.
  destruct (digit_of ch); [|discriminate]. cbn [List.length] in *. injection A as A. now rewrite (IH A).
Qed.

Lemma length_app a b : String.length (a ++ b)%string = (String.length a + String.length b)%nat.
Proof. induction a as [|ch a IH]; [reflexivity|]. cbn [String.append String.length Nat.add]. now rewrite IH. Qed.

Lemma digits_cut a : all_digits a -> forall k, (k <= String.length a)%nat ->
  all_digits (String.substring 0 k a) /\ String.length (String.substring 0 k a) = k.
Proof.
  unfold all_digits. intros A. induction a as [|ch a IH]; intros k K.
  - cbn [String.length] in K. assert (k = O) as -> by lia. split; reflexivity.
  - destruct k as [|k]; [split; reflexivity|]. cbn [String.substring leading_digits String.length] in *.
    destruct (digit_of ch); [|discriminate]. cbn [List.length] in *. injection A as A. destruct (IH A k ltac:(lia)) as (D & L).
    now rewrite D, L.
Qed.

Lemma to_string_pos v : 0 <= v -> all_digits (std_to_string v) /\ (0 < String.length (std_to_string v))%nat.
Proof.
  intros H. destruct (std_to_string_numeral v) as (t & E & A & N & _). destruct (Z.ltb_spec v 0); [lia|].
  cbn [String.append] in E. rewrite E. split; [exact A|]. destruct t; [congruence|cbn [String.length]; lia].
Qed.

Lemma to_string_short v : INT_MIN <= v <= INT_MAX -> (String.length (std_to_string v) <= 11)%nat.
Proof.
  intros H. destruct (std_to_string_numeral v) as (t & -> & A & N & D & L). rewrite length_app.
  assert (String.length t <= 10)%nat.
  { destruct (Z.eq_dec (decimal t) 0) as [Z0|NZ].
    - assert (t = std_to_string 0) as ->; [|cbn; lia]. apply (numeral_unique _ _ 0); [|apply std_to_string_numeral].
      exists t. split; [reflexivity|]. split; [exact A|]. split; [exact N|]. split; [exact Z0|exact L].
    - pose proof (decimal_width_length t A N L NZ) as (W & _).
      destruct (Nat.le_gt_cases (String.length t) 10) as [|G]; [assumption|]. exfalso.
      assert (10 ^ 10 <= 10 ^ (Z.of_nat (String.length t) - 1)) as P by (apply Z.pow_le_mono_r; lia).
      change (10 ^ 10) with 10000000000 in P. unfold INT_MIN, INT_MAX in H. lia. }
  destruct (v <? 0); cbn [String.length]; lia.
Qed.

Section Numbers.
  Context {E : Type} (engine : E -> Z * E) (seeded : Z -> E).

  Lemma s32_not_min u : 0 <= u < 2 ^ 32 -> u <> 2 ^ 31 -> INT_MIN < s32 u <= INT_MAX.
  Proof.
    change (2 ^ 32) with 4294967296. change (2 ^ 31) with 2147483648. intros H N. unfold INT_MIN, INT_MAX.
    destruct (Z.lt_ge_cases u 2147483648).
    - rewrite s32_small; unfold INT_MIN, INT_MAX; lia.
    - rewrite s32_hi; unfold W32; lia.
  Qed.

  Lemma next_ok c e : engine_ok engine -> no_min engine ->
    exists v, next_int engine c e = Ret (v, snd (engine e)) /\ 0 <= v <= INT_MAX.
  Proof.
    intros K N. unfold next_int. pose proof (s32_not_min _ (K e) (N e)) as R. destruct (engine e) as (u & e1).
    cbn [fst snd] in *. exists (Z.abs (s32 u)). assert (0 <= Z.abs (s32 u) <= INT_MAX) by (unfold INT_MIN, INT_MAX in *; lia).
    rewrite chk32_ok by (unfold INT_MIN; lia). split; [reflexivity|assumption].
  Qed.

  Lemma digits_loop_ok fuel c n : engine_ok engine -> no_min engine -> 0 <= n <= INT_MAX -> forall r e,
    all_digits r -> n <= Z.of_nat fuel + Z.of_nat (String.length r) ->
    exists r' e', digits_loop engine fuel c n r e = Ret (r', e') /\ all_digits r' /\ n <= Z.of_nat (String.length r').
  Proof.
    intros K N H. assert (u64 n = n) as U by (apply u64_small; unfold INT_MAX, W64 in *; lia).
    induction fuel as [|fuel IH]; intros r e A L; cbn [digits_loop]; rewrite U.
    - destruct (Z.ltb_spec (Z.of_nat (String.length r)) n); [lia|]. exists r, e. auto.
    - destruct (Z.ltb_spec (Z.of_nat (String.length r)) n); [|exists r, e; auto].
      destruct (next_ok c e K N) as (v & -> & V). cbn [bind]. destruct (to_string_pos v ltac:(lia)) as (D & P).
      apply IH; [now apply digits_app|]. rewrite length_app. lia.
  Qed.

  Theorem number_ok fuel c maxdigits seed : engine_ok engine -> no_min engine -> 1 <= maxdigits < 2 ^ 31 ->
    maxdigits <= Z.of_nat fuel ->
    exists s, build_random_number engine seeded fuel c maxdigits seed = Ret s /\ random_numeral maxdigits s.
  Proof.
    change (2 ^ 31) with 2147483648. intros K N M F. unfold build_random_number.
    destruct (next_ok c (seeded seed) K N) as (v & -> & V). cbn [bind].
    destruct (Z.eqb_spec maxdigits 0) as [|_]; [lia|]. pose proof (Z.rem_bound_pos v maxdigits ltac:(lia) ltac:(lia)) as R.
    rewrite chk32_ok by (unfold INT_MIN, INT_MAX; lia). cbn [bind]. set (n := Z.rem v maxdigits + 1) in *.
    destruct (digits_loop_ok fuel c n K N ltac:(unfold INT_MAX; lia) ""%string (snd (engine (seeded seed))) eq_refl
                ltac:(cbn [String.length]; lia)) as (r & e & -> & A & L).
    cbn [bind]. destruct (next_ok c e K N) as (w & -> & W). cbn [bind]. rewrite u64_small by (unfold W64; lia).
    rewrite Z.min_l by exact L. destruct (digits_cut r A (Z.to_nat n) ltac:(lia)) as (A' & L').
    eexists. split; [reflexivity|]. exists (String.substring 0 (Z.to_nat n) r). split; [|split; [exact A'|rewrite L'; lia]].
    destruct (Z.rem w 2 =? 0); auto.
  Qed.

  Lemma next_min c e : fst (engine e) = 2 ^ 31 ->
    next_int engine c e = if strict c then Undef SignedOverflow else Ret (- 2 ^ 31, snd (engine e)).
  Proof.
    intros H. unfold next_int. destruct (engine e) as (u & e1). cbn [fst snd] in *. subst u.
    change (Z.abs (s32 (2 ^ 31))) with 2147483648. rewrite chk32_min. destruct (strict c); reflexivity.
  Qed.

  Lemma next_wrap c e : strict c = false -> exists v, next_int engine c e = Ret (v, snd (engine e)) /\ INT_MIN <= v <= INT_MAX.
  Proof.
    intros Hc. unfold next_int. destruct (engine e) as (u & e1). cbn [snd]. unfold chk32. rewrite Hc.
    destruct ((INT_MIN <=? Z.abs (s32 u)) && (Z.abs (s32 u) <=? INT_MAX)) eqn:B; cbn [bind]; eexists; (split; [reflexivity|]).
    - apply andb_true_iff in B as [B1 B2]. apply Z.leb_le in B1, B2. lia.
    - apply s32_range.
  Qed.

  Lemma digits_loop_endless fuel c n : strict c = false -> INT_MIN <= n < 0 -> forall r e,
    11 * Z.of_nat fuel + Z.of_nat (String.length r) < 2 ^ 63 -> digits_loop engine fuel c n r e = NoFuel.
  Proof.
    intros Hc H. change (2 ^ 63) with 9223372036854775808.
    assert (9223372036854775808 <= u64 n) as U.
    { unfold u64, W64. replace n with (n + 18446744073709551616 + (-1) * 18446744073709551616) by lia.
      rewrite Z.mod_add, Z.mod_small by (unfold INT_MIN in H; lia). unfold INT_MIN in H. lia. }
    induction fuel as [|fuel IH]; intros r e L; cbn [digits_loop].
    - destruct (Z.ltb_spec (Z.of_nat (String.length r)) (u64 n)); [reflexivity|lia].
    - destruct (Z.ltb_spec (Z.of_nat (String.length r)) (u64 n)); [|lia].
      destruct (next_wrap c e Hc) as (v & -> & V). cbn [bind]. apply IH. rewrite length_app.
      pose proof (to_string_short v V). lia.
  Qed.

  Theorem number_min fuel c maxdigits seed : fst (engine (seeded seed)) = 2 ^ 31 -> 0 < maxdigits ->
    (strict c = true -> build_random_number engine seeded fuel c maxdigits seed = Undef SignedOverflow) /\
    (strict c = false -> 1 < 2 ^ 31 mod maxdigits -> 11 * Z.of_nat fuel < 2 ^ 63 ->
     build_random_number engine seeded fuel c maxdigits seed = NoFuel).
  Proof.
    intros H M. unfold build_random_number. rewrite (next_min c _ H). split; intros Hc; rewrite Hc; [reflexivity|].
    intros R F. cbn [bind]. destruct (Z.eqb_spec maxdigits 0); [lia|].
    assert (Z.rem (- 2 ^ 31) maxdigits = - (2 ^ 31 mod maxdigits)) as E1.
    { rewrite Z.rem_opp_l by lia. f_equal. apply Z.rem_mod_nonneg; lia. }
    assert (2 ^ 31 mod maxdigits <= 2 ^ 31) as LE by (apply Z.mod_le; lia). change (2 ^ 31) with 2147483648 in *.
    rewrite E1. rewrite chk32_ok by (unfold INT_MIN, INT_MAX; lia). cbn [bind].
    rewrite digits_loop_endless; [reflexivity|exact Hc|unfold INT_MIN; lia|]. cbn [String.length]. lia.
  Qed.

  (** ** The tests of is_even *)

  Lemma even_number_ok fuel seed_first c e : engine_ok engine -> no_min engine -> 400 <= Z.of_nat fuel ->
    exists s e', even_test_number engine seeded fuel seed_first c e = Ret (s, e') /\ random_numeral 400 s.
  Proof.
    intros K N F. unfold even_test_number. destruct (next_ok c e K N) as (v & -> & V). cbn [bind].
    destruct (next_ok c (snd (engine e)) K N) as (w & -> & W). cbn [bind].
    assert (forall m seed, 0 <= m -> exists s,
      build_random_number engine seeded fuel c (Z.rem m 400 + 1) seed = Ret s /\ random_numeral 400 s) as G.
    { intros m seed Hm. pose proof (Z.rem_bound_pos m 400 Hm ltac:(lia)) as R.
      destruct (number_ok fuel c (Z.rem m 400 + 1) seed K N ltac:(change (2 ^ 31) with 2147483648; lia) ltac:(lia)) as (s & -> & t & T & A & L).
      exists s. split; [reflexivity|]. exists t. split; [exact T|]. split; [exact A|lia]. }
    destruct seed_first.
    - destruct (G w v ltac:(lia)) as (s & -> & S). cbn [bind]. eauto.
    - destruct (G v w ltac:(lia)) as (s & -> & S). cbn [bind]. eauto.
  Qed.

  Lemma even_samples_ok reps fuel seed_first c check : engine_ok engine -> no_min engine -> 400 <= Z.of_nat fuel ->
    (forall b z, represents b z -> check b = Ret true) -> forall e,
    exists e', even_samples engine seeded reps fuel seed_first c check e = Ret (true, e').
  Proof.
    intros K N F C. induction reps as [|reps IH]; intros e; cbn [even_samples]; [eauto|].
    destruct (even_number_ok fuel seed_first c e K N F) as (s & e1 & -> & _). cbn [bind].
    destruct (parse_returns c s) as (b & -> & R). cbn [bind]. rewrite (C b _ R). cbn [bind].
    destruct (IH e1) as (e2 & ->). cbn [bind]. eauto.
  Qed.

  Lemma verify_even_exact c b z expected : represents b z -> verify_even c b expected = Ret (Bool.eqb expected (Z.even z)).
  Proof. intros R. unfold verify_even. now rewrite (bi_is_even_spec c b z R). Qed.

  Lemma even_twice z : Z.even (z * 2) = true.
  Proof. rewrite Z.even_mul. apply orb_true_r. Qed.

  Theorem even_samples_pass reps fuel seed_first c e : engine_ok engine -> no_min engine -> 400 <= Z.of_nat fuel ->
    (exists e', even_samples engine seeded reps fuel seed_first c (check_twice c) e = Ret (true, e')) /\
    (exists e', even_samples engine seeded reps fuel seed_first c (check_twice_less_one c) e = Ret (true, e')) /\
    (exists e', even_samples engine seeded reps fuel seed_first c (check_minus_twice c) e = Ret (true, e')).
  Proof.
    intros K N F. repeat split; apply even_samples_ok; try assumption; intros b z R.
    - unfold check_twice. destruct (wp_inv _ _ (int32_wp c 2 ltac:(lia))) as (t & -> & T). cbn [bind].
      destruct (mul_returns c b t z 2 R T) as (p & -> & P). cbn [bind]. rewrite (verify_even_exact c p _ _ P), even_twice. reflexivity.
    - unfold check_twice_less_one. destruct (wp_inv _ _ (int32_wp c 2 ltac:(lia))) as (t & -> & T). cbn [bind].
      destruct (mul_returns c b t z 2 R T) as (p & -> & P). cbn [bind].
      destruct (wp_inv _ _ (bi_one_spec c)) as (o & -> & O). cbn [bind].
      destruct (sub_returns c p o _ 1 P O) as (d & -> & D). cbn [bind]. rewrite (verify_even_exact c d _ _ D), Z.even_sub, even_twice.
      reflexivity.
    - unfold check_minus_twice. destruct (wp_inv _ _ (int32_wp c (-2) ltac:(lia))) as (t & -> & T). cbn [bind].
      destruct (mul_returns c b t z (-2) R T) as (p & -> & P). cbn [bind]. rewrite (verify_even_exact c p _ _ P).
      replace (z * -2) with ((- z) * 2) by lia. rewrite even_twice. reflexivity.
  Qed.
End Numbers.

(** Engines for the examples. *)
Definition odd_engine (e : Z) : Z * Z := ((2 * e + 1) mod 2 ^ 32, 1103515245 * e + 12345).
Definition counter (e : Z) : Z * Z := (e mod 2 ^ 32, e + 1).

Lemma odd_engine_ok : engine_ok odd_engine /\ no_min odd_engine.
Proof.
  split; intros e; cbn [odd_engine fst]; [apply Z.mod_pos_bound; lia|].
  pose proof (Z.div_mod (2 * e + 1) (2 ^ 32) ltac:(lia)) as D. change (2 ^ 32) with 4294967296 in *. change (2 ^ 31) with 2147483648. lia.
Qed.
