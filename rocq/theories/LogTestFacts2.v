(** How the samples of the test of log(value, base), and the test, end. *)
From Coq Require Import String Ascii ZArith Reals Lra Lia.
From Flocq Require Import Core BinarySingleNaN.
From Verif Require Import Machine Facts Spec SpecFacts SpecApi SpecPos SpecText SpecActual SpecPyRun SpecReference SpecIdentity SpecOracle SpecBodies
  SpecGcd SpecDouble SpecLog SpecLogDouble SpecTestLog SpecLogBodies SpecNumbers SpecLogTest
  BigInt BigIntText BigIntBytes BigIntFacts BigIntDouble BigIntLogDouble TestOracle TestCalc TestRandom TestNumbers TestBodies TestLog TestLogBody
  OracleFacts3 TextFacts LeakyModPow CalcFacts OracleFacts OracleFacts2 OracleTotal RandomFacts IdentityFacts BodyFacts NumberFacts
  LogReal RunExact LogDoubleFacts BytesFacts ToBytesFacts ConvLaws ArithLaws PosFacts
  TestLogFacts TestLogFacts2 TestLogFacts3 TestLogFacts4 TestLogFacts5 TestShiftFacts LogBodyFacts LogBaseFacts LogTestFacts.
Open Scope string_scope.
Open Scope list_scope.
Open Scope Z_scope.

Ltac Zify.zify_post_hook ::= idtac.

(** ** Steps *)

Lemma iter_in {A : Type} (f : A -> A) n x : Nat.iter (S n) f x = Nat.iter n f (f x).
Proof. induction n as [|n IH]; [reflexivity|]. cbn [Nat.iter nat_rect] in *. now rewrite IH. Qed.

Lemma repeated_some {E : Type} (a : step E) (f : E -> E) n ok e :
  (forall k, (k < n)%nat -> a (ok, Nat.iter k f e) = Ret (Some (ok, f (Nat.iter k f e)))) ->
  repeated n a (ok, e) = Ret (Some (ok, Nat.iter n f e)).
Proof.
  revert e. induction n as [|n IH]; intros e H; [reflexivity|]. cbn [repeated]. unfold then_do.
  pose proof (H O ltac:(lia)) as H0. cbn [Nat.iter nat_rect] in H0. rewrite H0. cbn [bind]. rewrite IH.
  - do 3 f_equal. change (Nat.iter n f (f e) = Nat.iter (S n) f e). symmetry. apply iter_in.
  - intros k K. specialize (H (S k) ltac:(lia)). now rewrite !iter_in in H.
Qed.

Lemma repeated_same {E : Type} (a : step E) n s : a s = Ret (Some s) -> repeated n a s = Ret (Some s).
Proof. intros H. induction n as [|n IH]; [reflexivity|]. cbn [repeated]. unfold then_do. rewrite H. exact IH. Qed.

Section Samples.
  Context (fuel : nat) (c : cfg) (logf log10f : double -> double) (cast : double -> outcome Z)
          (s1 m1 : string -> bigint -> outcome bigint) (tolerance : double)
          (HL : libm_log logf) (HT : libm_log10 log10f).
  Let sn2 := sn_log2 logf log10f cast c.
  Let mine2 := mine_log2 logf log10f cast c.
  Let run := verify fuel c s1 m1 sn2 mine2 false.
  Let leaves := leaves fuel c s1 m1 sn2 mine2.
  Context {E : Type} (draw : E -> Z -> Z -> Z * E) (engine : E -> Z * E) (copied : bool)
          (B : in_bounds draw) (K : engine_ok engine) (NM : no_min engine).
  Let next := next_engine engine.


  Lemma next_value e : next_int engine c e = Ret (next_of engine e, next e) /\ 0 <= next_of engine e <= INT_MAX.
  Proof using K NM.
    unfold next_int, next_of, next, next_engine. pose proof (s32_not_min _ (K e) (NM e)) as R. destruct (engine e) as (u & e1).
    cbn [fst snd] in *. assert (0 <= Z.abs (s32 u) <= INT_MAX) by (unfold INT_MIN, INT_MAX in *; lia).
    rewrite chk32_ok by (unfold INT_MIN; lia). split; [reflexivity|assumption].
  Qed.
  Lemma next_double_value e : next_double engine c e = Ret (unit_double (next_of engine e), next e).
  Proof using K NM. unfold next_double. rewrite (proj1 (next_value e)). reflexivity. Qed.

  (** ** Logarithms of drawn numbers *)

  Lemma complement_bound l : digits 256 l -> Z.abs (complement 256 l) <= 2 ^ (8 * Z.of_nat (List.length l)).
  Proof using.
    intros D. pose proof (complement_range 256 B8_ok B8_even l D) as R. unfold cfits, bp in R.
    rewrite Z.pow_mul_r by lia. change (2 ^ 8) with 256. lia.
  Qed.

  Lemma bytes_log l base : digits 256 l -> 0 <= complement 256 l -> (List.length l <= 1024)%nat ->
    exists r, log_bytes logf c l base = Ret r /\ log_meaning (complement 256 l) (double_bits base) r.
  Proof using HL.
    intros D P N. destruct (of_bytes_returns c l false false D) as (b & Eb & Hb); [right; left; exact P|].
    change (bytes_value false false l) with (complement 256 l) in Hb.
    unfold log_bytes. rewrite Eb. cbn [bind]. unfold log_base.
    pose proof (complement_bound l D) as Q. pose proof (size_short (complement 256 l) _ Q ltac:(change (2 ^ 30) with 1073741824; lia)) as S.
    destruct (log_total logf c b (complement 256 l) (limbs_of (complement 256 l)) (double_bits base) HL Hb (limbs_of_count _) (Z.le_trans _ (2 ^ 26) (2 ^ 57) S ltac:(discriminate)) (bits_pattern base)) as (r & Er & M).
    exists r. split; [exact Er|exact M].
  Qed.

  Lemma ran_value n e : (n <= 1024)%nat -> let l := get_random_bytes draw n e in
    digits 256 l /\ 0 <= complement 256 l /\ (List.length l <= 1024)%nat.
  Proof using B.
    intros H l. destruct (next_bytes_low draw n B e) as (L & LN). split; [now apply low7_digits|].
    split; [apply (low7_value _ L)|]. unfold l, get_random_bytes. rewrite LN. exact H.
  Qed.

  (** ** The samples *)

  Notation step_ok a s := (a s = Ret (Some s)).

  Lemma one_ok (s : bool * E) : step_ok (one_to_infinity logf c) s.
  Proof using HL.
    destruct s as (ok & e). unfold one_to_infinity, asserted. cbn [fst snd].
    destruct (wp_inv _ _ (int32_wp c 1 ltac:(lia))) as (o & -> & Ho). cbn [bind]. unfold log_base.
    destruct (log_total logf c o 1 (limbs_of 1) (double_bits (B754_infinity false)) HL Ho (limbs_of_count 1)) as (r & -> & M); [discriminate|apply bits_pattern|].
    cbn [bind]. rewrite (to_infinity _ _ _ M) by (reflexivity || lia). reflexivity.
  Qed.

  Context (Hc : strict c = false).
  Lemma lit : leaves "0 " 1 0 /\ leaves "1 " 1 1.
  Proof using.
    split; [apply (leaves_number fuel c s1 m1 sn2 mine2 "0")|apply (leaves_number fuel c s1 m1 sn2 mine2 "1")];
      reflexivity || (apply blankless_ok; reflexivity).
  Qed.

  Lemma zero_one_ok : run "0 1 bLog" = Ret true /\ run "1 0 bLog" = Ret true.
  Proof using HL HT.
    destruct lit as (L0 & L1). split.
    - apply (special_pair fuel c logf log10f cast s1 m1 HL HT "0 " "1 " 1 0 L0 L1); [discriminate|lia].
    - apply (special_pair fuel c logf log10f cast s1 m1 HL HT "1 " "0 " 0 1 L1 L0); [discriminate|lia].
  Qed.

  Lemma checked_ok (p : E -> outcome bool) s : p (snd s) = Ret true -> step_ok (checked p) s.
  Proof using. destruct s as (ok & e). unfold checked. cbn [fst snd]. intros ->. cbn [bind]. now rewrite Bool.andb_true_r. Qed.

  Lemma small_limbs x k : 0 <= x <= 2 ^ k -> 0 <= k <= 2 ^ 30 -> limbs_of x <= 2 ^ 26.
  Proof using. intros X. apply size_short. lia. Qed.

  Lemma zero_value_ok s : step_ok (zero_value_sample draw run) s.
  Proof using HL HT Hc.
    apply checked_ok. destruct (positive_random draw 10 (snd s)) as (l & -> & _ & P & R); [lia|lia|]. cbn [bind].
    destruct lit as (L0 & _).
    apply (special_pair fuel c logf log10f cast s1 m1 HL HT (print_bytes l) "0 " 0 (operand l)); [now apply leaves_print|exact L0|discriminate|lia].
  Qed.

  Lemma zero_small_ok ok e :
    zero_small_sample engine logf c (ok, e) = Ret (if inside (next_of engine e) then Some (ok, next e) else None).
  Proof using HL K NM.
    unfold zero_small_sample, asserted. cbn [fst snd]. rewrite next_double_value. cbn [bind].
    destruct (wp_inv _ _ (int32_wp c 0 ltac:(lia))) as (o & -> & Ho). cbn [bind]. unfold log_base.
    set (v := next_of engine e). pose proof (proj2 (next_value e)) as V. fold v in V.
    destruct (log_total logf c o 0 (limbs_of 0) (double_bits (unit_double v)) HL Ho (limbs_of_count 0)) as (r & -> & M); [discriminate|apply bits_pattern|].
    cbn [bind]. unfold inside.
    destruct (Z.ltb_spec 0 v) as [V0|V0]; cbn [andb].
    - destruct (Z.ltb_spec v INT_MAX) as [V1|V1].
      + destruct (unit_inside v (conj V0 V1)) as (F & R). destruct (bits_real _ F) as (FI & RR).
        rewrite (zero_to_small _ _ _ M eq_refl FI) by (rewrite RR; exact R). reflexivity.
      + assert (v = INT_MAX) as -> by lia. rewrite (to_one _ _ _ M unit_one_bits). reflexivity.
    - assert (v = 0) as -> by lia. rewrite unit_zero in M. rewrite (to_zero _ _ _ M) by (auto || lia). reflexivity.
  Qed.

  Lemma base_zero_ok fl ok e : exists l, positive_bytes draw 8 e = Ret l /\
    base_zero_sample draw logf c fl (ok, e) =
      if complement 256 l =? 1 then NoFuel else match fl with O => NoFuel | S _ => Ret (Some (ok, e)) end.
  Proof using HL.
    destruct (proj2 (signed_bytes draw 8 e) ltac:(lia)) as ((l & El & L & D & P) & _). exists l. split; [exact El|].
    unfold base_zero_sample, asserted. cbn [fst snd].
    destruct (wp_inv _ _ (int32_wp c 1 ltac:(lia))) as (o & -> & Ho). cbn [bind].
    assert (forall f bi x, represents bi x -> other_than_one draw c (S f) bi o e =
              if x =? 1 then (l <- positive_bytes draw 8 e ;; b <- bi_of_bytes c l false false ;; other_than_one draw c f b o e) else Ret bi) as U.
    { intros f bi x Hx. cbn [other_than_one]. rewrite (proj1 (equal_calls c bi o x 1 Hx Ho)). cbn [bind]. reflexivity. }
    assert (forall bi x, represents bi x -> other_than_one draw c 0 bi o e = if x =? 1 then NoFuel else Ret bi) as U0.
    { intros bi x Hx. cbn [other_than_one]. rewrite (proj1 (equal_calls c bi o x 1 Hx Ho)). cbn [bind]. reflexivity. }
    destruct (of_bytes_returns c l false false D) as (b & Eb & Hb); [right; left; exact P|].
    change (bytes_value false false l) with (complement 256 l) in Hb.
    destruct (Z.eqb_spec (complement 256 l) 1) as [X|X].
    - rewrite X in Hb. assert (forall f bi, represents bi 1 -> other_than_one draw c f bi o e = NoFuel) as W.
      { induction f as [|f IH]; intros bi H1; [rewrite (U0 bi 1 H1); reflexivity|]. rewrite (U f bi 1 H1), Z.eqb_refl, El. cbn [bind]. rewrite Eb. cbn [bind]. apply (IH b Hb). }
      rewrite (W fl o Ho). reflexivity.
    - destruct fl as [|fl]; [rewrite (U0 o 1 Ho); reflexivity|]. rewrite (U fl o 1 Ho), Z.eqb_refl, El. cbn [bind]. rewrite Eb. cbn [bind].
      assert (other_than_one draw c fl b o e = Ret b) as ->.
      { destruct fl as [|fl]; [rewrite (U0 b _ Hb)|rewrite (U fl b _ Hb)]; now rewrite (proj2 (Z.eqb_neq _ _) X). }
      cbn [bind]. destruct (bytes_log l (int_double 0) D P ltac:(lia)) as (r & Er & M). unfold log_bytes in Er. rewrite Eb in Er. cbn [bind] in Er.
      rewrite Er. cbn [bind]. rewrite (to_zero _ _ _ M) by (auto || lia). rewrite (proj2 (Z.eqb_neq _ _) X). reflexivity.
  Qed.

  Lemma base_one_ok s : step_ok (base_one_sample draw copied run) s.
  Proof using HL HT Hc B.
    apply checked_ok. pose proof (any_random draw copied B 0 100 (snd s) ltac:(lia)) as R.
    destruct lit as (_ & L1).
    apply (special_pair fuel c logf log10f cast s1 m1 HL HT "1 " (print_bytes (any_bytes draw copied 0 100 (snd s))) (operand (any_bytes draw copied 0 100 (snd s))) 1 L1);
      [apply leaves_print; [exact Hc|apply (plain_random _ R)]|apply (ran_short _ R)|lia].
  Qed.

  Lemma base_nan_ok s : step_ok (base_nan_sample draw logf c) s.
  Proof using HL B.
    destruct s as (ok & e). unfold base_nan_sample, asserted. cbn [fst snd].
    destruct (ran_value 10 e ltac:(lia)) as (D & P & N). destruct (bytes_log _ B754_nan D P N) as (r & -> & M). cbn [bind].
    rewrite (to_nan _ _ _ M) by (reflexivity || discriminate). reflexivity.
  Qed.

  Lemma base_infinite_ok s :
    base_infinite_sample draw logf c s = Ret (if complement 256 (get_random_bytes draw 10 (snd s)) =? 1 then None else Some s).
  Proof using HL B.
    destruct s as (ok & e). unfold base_infinite_sample, asserted. cbn [fst snd].
    destruct (ran_value 10 e ltac:(lia)) as (D & P & N). destruct (bytes_log _ (B754_infinity false) D P N) as (r & -> & M). cbn [bind].
    rewrite (to_infinity _ _ _ M eq_refl P). destruct (_ =? 1); reflexivity.
  Qed.

  Lemma negated_bits v : 0 < v <= INT_MAX -> dbl_negative (double_bits (Bopp (unit_double v))) = true /\ double_bits (Bopp (unit_double v)) <> 2 ^ 63.
  Proof using.
    intros V. assert (is_finite (unit_double v) = true /\ (0 < B2R (unit_double v))%R) as (F & P).
    { destruct (Z.eq_dec v INT_MAX) as [->|Q]; [|destruct (unit_inside v) as (F & P); [unfold INT_MAX in *; lia|split; [exact F|lra]]].
      split; [vm_compute; reflexivity|]. destruct (bits_real (unit_double INT_MAX) ltac:(vm_compute; reflexivity)) as (_ & <-). rewrite unit_one_bits.
      unfold dbl_real. change (dbl_signed _ _) with 4503599627370496. change (dbl_scale _) with (-52). change (powerRZ 2 (-52)) with (/ 2 ^ 52)%R.
      apply Rmult_lt_0_compat; [lra|]. apply Rinv_0_lt_compat. apply pow_lt. lra. }
    destruct (unit_double v) as [s|s| |s m ex H]; try discriminate F; [cbn in P; lra|].
    destruct s; [exfalso; cbn [B2R] in P; apply (Rlt_irrefl 0), (Rlt_trans _ _ _ P), F2R_lt_0; reflexivity|].
    cbn [Bopp negb]. destruct (double_bits_fields true m ex H) as (_ & _ & NG & SG & _). split; [exact NG|].
    intros Q. rewrite Q in SG. discriminate SG.
  Qed.

  Lemma base_negative_ok ok e :
    base_negative_sample draw engine copied run logf c (ok, e) =
    Ret (if (next_of engine e =? 0) && (complement 256 (get_random_bytes draw 10 (if copied then e else next e)) =? 1) then None else Some (ok, next e)).
  Proof using HL HT Hc B K NM.
    unfold base_negative_sample, then_do. rewrite checked_ok.
    2:{ cbn [snd]. pose proof (small_random draw B 10 e ltac:(lia)) as R1. destruct (negative_random draw 1 e) as (l & -> & LL & D & _ & R2); [lia|]. cbn [bind].
        change (16 * Z.of_nat 1) with 16 in R2. change (2 ^ 16) with 65536 in R2.
        assert (plain l (operand l)) as P2.
        { split; [exact D|]. split; [reflexivity|]. apply text_near. change (2 ^ 31) with 2147483648; lia. }
        apply (special_pair fuel c logf log10f cast s1 m1 HL HT (print_bytes l) (print_bytes (get_random_bytes draw 10 e)) (operand (get_random_bytes draw 10 e)) (operand l));
          [now apply leaves_print|apply leaves_print; [exact Hc|apply (plain_random _ R1)]|apply (ran_short _ R1)|lia]. }
    cbn [bind]. unfold asserted. cbn [fst snd]. rewrite next_double_value. cbn [bind].
    set (e1 := if copied then e else next e). set (v := next_of engine e). pose proof (proj2 (next_value e)) as V. fold v in V.
    destruct (ran_value 10 e1 ltac:(lia)) as (D & P & N). destruct (bytes_log _ (Bopp (unit_double v)) D P N) as (r & -> & M). cbn [bind].
    destruct (Z.eqb_spec v 0) as [V0|V0]; cbn [andb].
    - rewrite V0, unit_zero in M. rewrite (to_zero _ _ _ M) by (auto || lia). destruct (_ =? 1); reflexivity.
    - destruct (negated_bits v ltac:(lia)) as (Q1 & Q2). rewrite (to_negative _ _ _ M Q1 Q2). reflexivity.
  Qed.

  Lemma value_negative_ok s : exists l, negative_bytes draw 10 (snd s) = Ret l /\ digits 256 l /\ - 2 ^ 160 <= operand l < 0 /\
    value_negative_sample draw run s = (_ <- text (operand l) ;; Ret (Some s)).
  Proof using HL HT Hc.
    destruct s as (ok & e). unfold value_negative_sample, checked. cbn [fst snd].
    destruct (negative_random draw 10 e) as (l & El & LL & D & _ & R); [lia|]. exists l. split; [exact El|]. split; [exact D|].
    change (16 * Z.of_nat 10) with 160 in R. split; [exact R|]. rewrite El. cbn [bind].
    destruct (positive_random draw 1 e) as (l2 & -> & _ & P2 & R2); [lia|lia|]. cbn [bind].
    unfold run, sn2, mine2. rewrite (special_unwritten fuel c logf log10f cast s1 m1 Hc HL HT (print_bytes l2) l (operand l2));
      [|now apply leaves_print|exact D|apply (size_short _ 160); [lia|change (2 ^ 30) with 1073741824; lia]|lia].
    unfold if_written. destruct (text (operand l)); try reflexivity. cbn [bind]. now rewrite Bool.andb_true_r.
  Qed.

  Context (FT : is_finite tolerance = true) (T0 : (0 <= B2R tolerance)%R).

  Lemma compare_logs_ok l e : digits 256 l -> 0 <= complement 256 l -> (List.length l <= 100)%nat ->
    exists k, compare_logs engine logf tolerance c l e = Ret (k, next e) /\
      (complement 256 l < 2 ^ 31 \/ (tol46 <= B2R tolerance)%R -> k = true).
  Proof using HL K NM FT T0.
    intros D P N. unfold compare_logs. destruct (of_bytes_returns c l false false D) as (b & -> & Hb); [right; left; exact P|].
    change (bytes_value false false l) with (complement 256 l) in Hb. cbn [bind]. rewrite next_double_value. cbn [bind].
    pose proof (complement_bound l D) as Q.
    assert (complement 256 l < 2 ^ 1024) as Q2.
    { apply Z.le_lt_trans with (2 ^ (8 * Z.of_nat (List.length l))); [lia|]. apply Z.pow_lt_mono_r; lia. }
    destruct (compare_ok logf HL tolerance FT T0 c b (complement 256 l) (next_of engine e) Hb (conj P Q2) (proj2 (next_value e))) as (r & t & -> & Et & A).
    cbn [bind]. rewrite Et. cbn [bind]. eexists. split; [reflexivity|exact A].
  Qed.

  Lemma positive_any_ok e : exists l, positive_any draw copied e = Ret (l, snd (draw e 1 100)) /\
    positive_bytes draw (Z.to_nat (fst (draw e 1 100))) (if copied then e else snd (draw e 1 100)) = Ret l /\
    (List.length l <= 100)%nat /\ digits 256 l /\ 0 <= complement 256 l /\ plain l (operand l) /\ 0 <= operand l <= 2 ^ 1600.
  Proof using B.
    unfold positive_any. pose proof (B e 1 100 ltac:(lia)) as R. destruct (draw e 1 100) as (n & e'). cbn [fst snd] in *.
    assert (Z.to_nat n <> O) as N0 by lia. destruct (proj2 (signed_bytes draw (Z.to_nat n) (if copied then e else e')) N0) as ((l & El & L & D & P) & _).
    destruct (positive_random draw (Z.to_nat n) (if copied then e else e')) as (l' & El' & _ & Q & S); [exact N0|lia|].
    rewrite El in El'. injection El' as <-. exists l. rewrite El. cbn [bind]. split; [reflexivity|]. split; [reflexivity|]. split; [lia|].
    split; [exact D|]. split; [exact P|]. split; [exact Q|]. split; [lia|]. apply (Z.le_trans _ _ _ (proj2 S)). apply Z.pow_le_mono_r; lia.
  Qed.

  Lemma small_small_ok ok e : exists l k, positive_bytes draw 10 e = Ret l /\ compare_logs engine logf tolerance c l e = Ret (k, next e) /\
    (complement 256 l < 2 ^ 31 \/ (tol46 <= B2R tolerance)%R -> k = true) /\
    small_small_sample draw engine logf tolerance c (ok, e) = Ret (if k : bool then Some (ok, next e) else None).
  Proof using HL K NM FT T0.
    destruct (proj2 (signed_bytes draw 10 e) ltac:(lia)) as ((l & El & L & D & P) & _).
    destruct (compare_logs_ok l e D P ltac:(lia)) as (k & Ek & A). exists l, k. split; [exact El|]. split; [exact Ek|]. split; [exact A|].
    unfold small_small_sample, asserted. cbn [fst snd]. rewrite El. cbn [bind]. rewrite Ek. reflexivity.
  Qed.

  Lemma large_small_ok ok e : let e' := snd (draw e 1 100) in exists l k,
    positive_bytes draw (Z.to_nat (fst (draw e 1 100))) (if copied then e else e') = Ret l /\ compare_logs engine logf tolerance c l e' = Ret (k, next e') /\
    (complement 256 l < 2 ^ 31 \/ (tol46 <= B2R tolerance)%R -> k = true) /\
    large_small_sample draw engine copied logf tolerance c (ok, e) = Ret (if k : bool then Some (ok, next e') else None).
  Proof using HL K NM FT T0 B.
    intros e'. destruct (positive_any_ok e) as (l & E1 & E2 & L & D & P & _).
    destruct (compare_logs_ok l e' D P ltac:(lia)) as (k & Ek & A). exists l, k. split; [exact E2|]. split; [exact Ek|]. split; [exact A|].
    unfold large_small_sample, asserted. cbn [fst snd]. rewrite E1. cbn [bind]. fold e'. rewrite Ek. reflexivity.
  Qed.

  (** Whether the calculators agree on the logarithm of [x] to base [y]. *)
  Definition verdict_on (x y : Z) (k : bool) : Prop := (bases_agree x y -> k = true) /\ (bases_clash x y -> k = false).

  Lemma two_printed l1 l2 m : plain l1 (operand l1) -> plain l2 (operand l2) -> 0 <= operand l1 -> 0 <= operand l2 <= 2 ^ m -> 0 <= m <= 2 ^ 30 ->
    exists k, run (print_bytes l1 ++ print_bytes l2 ++ "bLog") = Ret k /\ verdict_on (operand l2) (operand l1) k.
  Proof using HL HT Hc.
    intros P1 P2 R1 R2 M. destruct (pair_ends fuel c logf log10f cast s1 m1 HL HT (print_bytes l1) (print_bytes l2) (operand l2) (operand l1)) as (k & Ek & A & C);
      [now apply leaves_print|now apply leaves_print|now apply (small_limbs _ m)|lia|lia|]. exists k. split; [exact Ek|]. split; [exact A|intros (X & Y); auto].
  Qed.

  Lemma two_small_ok e : exists l1 l2 k, positive_bytes draw 2 e = Ret l1 /\ positive_bytes draw 3 e = Ret l2 /\ verdict_on (operand l2) (operand l1) k /\
    forall ok, two_small_sample draw run (ok, e) = Ret (Some (ok && k, e)).
  Proof using HL HT Hc.
    destruct (positive_random draw 2 e) as (l1 & E1 & _ & P1 & R1); [lia|lia|]. destruct (positive_random draw 3 e) as (l2 & E2 & _ & P2 & R2); [lia|lia|].
    destruct (two_printed l1 l2 48 P1 P2 ltac:(lia) R2) as (k & Ek & V); [change (2 ^ 30) with 1073741824; lia|]. exists l1, l2, k. split; [exact E1|]. split; [exact E2|]. split; [exact V|].
    intros ok. unfold two_small_sample, checked. cbn [fst snd]. rewrite E1. cbn [bind]. rewrite E2. cbn [bind]. rewrite Ek. reflexivity.
  Qed.

  Lemma small_and_large_ok e : let e' := snd (draw e 1 100) in exists l1 l2 k, positive_bytes draw 1 e = Ret l1 /\
    positive_bytes draw (Z.to_nat (fst (draw e 1 100))) (if copied then e else e') = Ret l2 /\ verdict_on (operand l2) (operand l1) k /\
    forall ok, small_and_large_sample draw copied run (ok, e) = Ret (Some (ok && k, e')).
  Proof using HL HT Hc B.
    intros e'. destruct (positive_random draw 1 e) as (l1 & E1 & _ & P1 & R1); [lia|lia|]. destruct (positive_any_ok e) as (l2 & EA & E2 & _ & _ & _ & P2 & R2).
    destruct (two_printed l1 l2 1600 P1 P2 ltac:(lia) R2) as (k & Ek & V); [change (2 ^ 30) with 1073741824; lia|]. exists l1, l2, k. split; [exact E1|]. split; [exact E2|]. split; [exact V|].
    intros ok. unfold small_and_large_sample, drawn_check. cbn [fst snd]. rewrite E1. cbn [bind]. rewrite EA. cbn [bind]. rewrite Ek. reflexivity.
  Qed.

  Lemma two_large_ok e : let e1 := snd (draw e 1 100) in let e2 := snd (draw e1 1 100) in exists l1 l2 k,
    positive_bytes draw (Z.to_nat (fst (draw e 1 100))) (if copied then e else e1) = Ret l1 /\
    positive_bytes draw (Z.to_nat (fst (draw e1 1 100))) (if copied then e1 else e2) = Ret l2 /\ verdict_on (operand l2) (operand l1) k /\
    forall ok, two_large_sample draw copied run (ok, e) = Ret (Some (ok && k, e2)).
  Proof using HL HT Hc B.
    intros e1 e2. destruct (positive_any_ok e) as (l1 & EA1 & E1 & _ & _ & _ & P1 & R1). destruct (positive_any_ok e1) as (l2 & EA2 & E2 & _ & _ & _ & P2 & R2).
    destruct (two_printed l1 l2 1600 P1 P2 ltac:(lia) R2) as (k & Ek & V); [change (2 ^ 30) with 1073741824; lia|]. exists l1, l2, k. split; [exact E1|]. split; [exact E2|]. split; [exact V|].
    intros ok. unfold two_large_sample, drawn_check. cbn [fst snd]. rewrite EA1. cbn [bind]. fold e1. rewrite EA2. cbn [bind]. rewrite Ek. reflexivity.
  Qed.
End Samples.
