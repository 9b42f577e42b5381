(** How the samples of the test of log(value, base) end. *)
From Coq Require Import String Ascii ZArith Reals Lra Lia.
From Flocq Require Import Core BinarySingleNaN.
From Verif Require Import Machine Facts Spec SpecFacts SpecApi SpecPos SpecText SpecActual SpecPyRun SpecReference SpecIdentity SpecOracle SpecBodies
  SpecGcd SpecDouble SpecLog SpecLogDouble SpecTestLog SpecLogBodies SpecNumbers SpecLogTest
  BigInt BigIntText BigIntBytes BigIntFacts BigIntDouble BigIntLogDouble TestOracle TestCalc TestRandom TestNumbers TestBodies TestLog TestLogBody
  OracleFacts3 TextFacts LeakyModPow CalcFacts OracleFacts OracleFacts2 OracleTotal RandomFacts IdentityFacts BodyFacts NumberFacts
  LogReal RunExact LogDoubleFacts BytesFacts ToBytesFacts ConvLaws ArithLaws
  TestLogFacts TestLogFacts2 TestLogFacts3 TestLogFacts4 TestLogFacts5 TestShiftFacts LogBodyFacts LogBaseFacts.
Open Scope string_scope.
Open Scope list_scope.
Open Scope Z_scope.

Ltac Zify.zify_post_hook ::= idtac.

(** ** Two printed operands and bLog *)

Section Pairs.
  Context (fuel : nat) (c : cfg) (sl1 ml1 : string -> bigint -> outcome bigint) (sl2 ml2 : string -> bigint -> bigint -> outcome bigint)
          (Hc : strict c = false).
  Let loop := verify_loop fuel c sl1 ml1 sl2 ml2.
  Let run := verify fuel c sl1 ml1 sl2 ml2 false.
  Let leaves := leaves fuel c sl1 ml1 sl2 ml2.

  (** A printed operand that perhaps cannot be written. *)
  Lemma print_step l rest n sn so mo : digits 256 l -> exists b, represents b (operand l) /\
    loop (1 + n) false (Calc sn sn (tokens (print_bytes l ++ rest)) so mo) =
    (_ <- text (operand l) ;; loop n false (Calc (b :: sn) (b :: sn) (tokens rest) so mo)).
  Proof using Hc.
    intros D. destruct (printed_value c l rest Hc D) as (toks & E & b & EB & Hb). exists b. split; [exact Hb|].
    rewrite E. unfold loop. cbn [verify_loop Nat.add]. unfold do_next. cbn [operators snCalc myCalc snOut myOut].
    cbn [begins Ascii.eqb Bool.eqb String.eqb]. rewrite EB. cbn [bind pop_top snCalc myCalc].
    rewrite (text_step c b b _ _ _ _ Hb Hb), BodyFacts.written. unfold if_written. destruct (text (operand l)); reflexivity.
  Qed.

  Section Ending.
    Context (x y z w : Z) (TZ : text z = Ret z) (TW : text w = Ret w)
      (HS : forall a b, represents a x -> represents b y -> denotes_pair (sn_binary fuel c sl2 a b "bLog") (Ret z) 0)
      (HM : forall a b, represents a x -> represents b y -> denotes_pair (mine_binary c ml2 a b "bLog") (Ret w) 0).

    Lemma log_step n a b so mo : represents a x -> represents b y ->
      loop (S (S n)) false (Calc [a; b] [a; b] ["bLog"] so mo) = Ret (z =? w).
    Proof using TZ TW HS HM.
      intros Ha Hb. unfold loop. cbn [verify_loop]. unfold do_next. cbn [operators snCalc myCalc snOut myOut].
      cbn [begins Ascii.eqb Bool.eqb pop_top bind].
      destruct (HS a b Ha Hb) as (r & s & -> & Hr & Hs). cbn [bind]. destruct (HM a b Ha Hb) as (m & ms & -> & Hm & Hms). cbn [bind].
      unfold check_values. rewrite (ne_same c a x Ha), (ne_same c b y Hb). cbn [bind pop_top snCalc myCalc].
      rewrite (text_step c r m z w _ _ Hr Hm). unfold same_text. rewrite TZ, TW. cbn [bind].
      destruct (z =? w); [|reflexivity]. cbn [verify_loop do_next operators bind]. reflexivity.
    Qed.

    Lemma verify_two t1 t2 : leaves t1 1 y -> leaves t2 1 x -> run (t1 ++ t2 ++ "bLog") = Ret (z =? w).
    Proof using TZ TW HS HM.
      intros H1 H2. destruct (H1 (t2 ++ "bLog")%string) as (L1 & R1). destruct (H2 "bLog") as (L2 & R2).
      change (tokens "bLog") with ["bLog"] in *. cbn [List.length] in *.
      unfold run, verify, new_calc. destruct (wp_inv _ _ (int32_wp c 0 ltac:(lia))) as (o & -> & Ho). cbn [bind operators].
      set (m := List.length (tokens (t1 ++ t2 ++ "bLog"))) in *.
      replace (2 * m + 1)%nat with (1 + (1 + S (S (2 * m + 1 - 4))))%nat by lia. fold loop.
      destruct (R1 (1 + S (S (2 * m + 1 - 4)))%nat [] o o) as (b & so & mo & Hb & E1). fold loop in E1. rewrite E1.
      destruct (R2 (S (S (2 * m + 1 - 4))) [b] so mo) as (a & so2 & mo2 & Ha & E2). fold loop in E2. rewrite E2.
      now apply log_step.
    Qed.

    Lemma verify_unwritten t1 l : leaves t1 1 y -> digits 256 l -> operand l = x ->
      run (t1 ++ print_bytes l ++ "bLog") = (_ <- text x ;; Ret (z =? w)).
    Proof using Hc TZ TW HS HM.
      intros H1 D EX. destruct (H1 (print_bytes l ++ "bLog")%string) as (L1 & R1). pose proof (tokens_print l "bLog" D) as TP.
      assert (2 <= List.length (tokens (print_bytes l ++ "bLog")))%nat as L2.
      { rewrite TP. cbn [List.length]. rewrite app_length. cbn [List.length]. lia. }
      unfold run, verify, new_calc. destruct (wp_inv _ _ (int32_wp c 0 ltac:(lia))) as (o & -> & Ho). cbn [bind operators].
      set (m := List.length (tokens (t1 ++ print_bytes l ++ "bLog"))) in *.
      replace (2 * m + 1)%nat with (1 + (1 + S (S (2 * m + 1 - 4))))%nat by lia. fold loop.
      destruct (R1 (1 + S (S (2 * m + 1 - 4)))%nat [] o o) as (b & so & mo & Hb & E1). fold loop in E1. rewrite E1.
      destruct (print_step l "bLog" (S (S (2 * m + 1 - 4))) [b] so mo D) as (a & Ha & E2). rewrite EX in Ha, E2. rewrite E2.
      change (tokens "bLog") with ["bLog"]. rewrite log_step by assumption. reflexivity.
    Qed.
  End Ending.
End Pairs.

Lemma size_short x k : Z.abs x <= 2 ^ k -> 0 <= k <= 2 ^ 30 -> limbs_of x <= 2 ^ 26.
Proof.
  intros X K. unfold limbs_of. assert (Z.log2 (Z.abs x) <= k) as L.
  { rewrite <- (Z.log2_pow2 k) by lia. now apply Z.log2_le_mono. }
  change (2 ^ 30) with 1073741824 in K. change (2 ^ 26) with 67108864.
  assert (Z.log2 (Z.abs x) / 32 <= k / 32) by (apply Z.div_le_mono; lia). assert (k / 32 <= 1073741824 / 32) by (apply Z.div_le_mono; lia).
  change (1073741824 / 32) with 33554432 in *. destruct (x =? 0); lia.
Qed.

Section Checks.
  Context (fuel : nat) (c : cfg) (logf log10f : double -> double) (cast : double -> outcome Z)
          (s1 m1 : string -> bigint -> outcome bigint)
          (Hc : strict c = false) (HL : libm_log logf) (HT : libm_log10 log10f).
  Let sn2 := sn_log2 logf log10f cast c.
  Let mine2 := mine_log2 logf log10f cast c.
  Let run := verify fuel c s1 m1 sn2 mine2 false.
  Let leaves := leaves fuel c s1 m1 sn2 mine2.

  Lemma text_ratio x y : text (ratio_special x y) = Ret (ratio_special x y).
  Proof. unfold ratio_special. repeat match goal with |- context [if ?p then _ else _] => destruct p end; reflexivity. Qed.

  Lemma special_pair t1 t2 x y : leaves t1 1 y -> leaves t2 1 x -> limbs_of x <= 2 ^ 26 -> x <= 1 \/ y <= 1 \/ 2 ^ 1024 <= y ->
    run (t1 ++ t2 ++ "bLog") = Ret true.
  Proof using HL HT.
    intros H1 H2 S X. unfold run.
    rewrite (verify_two fuel c s1 m1 sn2 mine2 x y (ratio_special x y) (ratio_special x y) (text_ratio x y) (text_ratio x y)); [now rewrite Z.eqb_refl|..|exact H1|exact H2];
      intros a b Ha Hb; apply (binary_special logf log10f cast fuel c a b x y (limbs_of x)); assumption || apply limbs_of_count.
  Qed.

  Lemma special_unwritten t1 l y : leaves t1 1 y -> digits 256 l -> limbs_of (operand l) <= 2 ^ 26 -> operand l <= 1 \/ y <= 1 \/ 2 ^ 1024 <= y ->
    run (t1 ++ print_bytes l ++ "bLog") = if_written (operand l).
  Proof using Hc HL HT.
    intros H1 D S X. unfold run, if_written. set (x := operand l) in *.
    rewrite (verify_unwritten fuel c s1 m1 sn2 mine2 Hc x y (ratio_special x y) (ratio_special x y) (text_ratio x y) (text_ratio x y)); [now rewrite Z.eqb_refl|..|exact H1|exact D|reflexivity];
      intros a b Ha Hb; apply (binary_special logf log10f cast fuel c a b x y (limbs_of x)); assumption || apply limbs_of_count.
  Qed.

  (** Whatever the operands, the two calculators return something. *)
  Lemma sn_some x y : limbs_of x <= 2 ^ 26 -> 2 <= x -> 2 <= y < 2 ^ 1024 -> exists z, text z = Ret z /\ 1 <= z /\
    forall a b, represents a x -> represents b y -> denotes_pair (sn_binary fuel c sn2 a b "bLog") (Ret z) 0.
  Proof using HL HT.
    intros S X Y. destruct (represents_total x) as (a & Ha). destruct (represents_total y) as (b & Hb).
    pose proof (limbs_of_count x) as Hn.
    destruct (sn_close logf HL c a b x y (limbs_of x) Ha Hb Hn S X Y) as (d & r & Ed & Er & F & R).
    pose proof (ratio_range x y (limbs_of x) Hn S X Y) as LR. pose proof (ln_range x (limbs_of x) X Hn S) as LX.
    unfold rel in R. rewrite (Rabs_pos_eq (_ / _)) in R by lra. apply Rabs_le_inv in R. unfold ulp1 in R.
    destruct (ceiling_exists (B2R r)) as (z & Z). exists z. destruct Z as (Z1 & Z2).
    assert (0 < z) as ZP by (apply lt_IZR; lra). assert (z < 4294967299) as ZB by (apply lt_IZR; lra).
    split; [apply (text_bound z 40); [change (2 ^ 40) with 1099511627776; lia|discriminate]|]. split; [lia|].
    intros a' b' Ha' Hb'. rewrite (represents_unique a' a x Ha' Ha), (represents_unique b' b y Hb' Hb). apply sn_binary_log.
    unfold sn_log2. rewrite Ed. cbn [bind]. rewrite Er. cbn [bind].
    apply (approximate_ok log10f HT); [exact F|apply Rabs_le; lra|split; assumption].
  Qed.

  Lemma mine_some x y : limbs_of x <= 2 ^ 26 -> 2 <= x < 2 ^ 1024 -> 2 <= y < 2 ^ 1024 -> exists z, text z = Ret z /\
    forall a b, represents a x -> represents b y -> denotes_pair (mine_binary c mine2 a b "bLog") (Ret z) 0.
  Proof using HL HT.
    intros S X Y. destruct (represents_total x) as (a & Ha). destruct (represents_total y) as (b & Hb).
    pose proof (limbs_of_count x) as Hn. pose proof (ln_y_lower y Y) as LY. pose proof ln2_bounds as L2.
    pose proof (ln_range x (limbs_of x) ltac:(lia) Hn S) as LX.
    destruct (to_double_ln c a x Ha ltac:(lia) ltac:(lia)) as (d1 & E1 & _ & F1 & B1 & R1).
    destruct (to_double_ln c b y Hb ltac:(lia) ltac:(lia)) as (d2 & E2 & _ & F2 & B2 & R2).
    destruct (ratio_ok logf _ _ _ _ HL F1 B1 R1 F2 B2 R2 ltac:(lra) ltac:(lra)) as (F & R). set (r := csharp_log _ _ _) in *.
    pose proof (ratio_range x y (limbs_of x) Hn S ltac:(lia) Y) as LB.
    unfold rel in R. rewrite (Rabs_pos_eq (_ / _)) in R by lra. apply Rabs_le_inv in R. unfold ulp1 in R.
    destruct (ceiling_exists (B2R r)) as (z & Z). exists z. pose proof Z as (Z1 & Z2).
    assert (0 < z) as ZP by (apply lt_IZR; lra). assert (z < 4294967299) as ZB by (apply lt_IZR; lra).
    split; [apply (text_bound z 40); [change (2 ^ 40) with 1099511627776; lia|discriminate]|].
    intros a' b' Ha' Hb'. rewrite (represents_unique a' a x Ha' Ha), (represents_unique b' b y Hb' Hb).
    apply (mine_binary_log _ _ _ _ _ _ x y z Ha Hb). unfold mine_log2. rewrite E1, E2. cbn [bind]. fold r.
    apply (approximate_ok log10f HT); [exact F|apply Rabs_le; lra|exact Z].
  Qed.

  Lemma pair_ends t1 t2 x y : leaves t1 1 y -> leaves t2 1 x -> limbs_of x <= 2 ^ 26 -> 0 <= x -> 0 <= y ->
    exists k, run (t1 ++ t2 ++ "bLog") = Ret k /\
      (bases_agree x y -> k = true) /\ (2 ^ 1024 <= x -> 2 <= y < 2 ^ 1024 -> k = false).
  Proof using HL HT.
    intros H1 H2 S X Y. assert (2 < 2 ^ 1024) as P1024 by reflexivity. set (big := 2 ^ 1024) in *.
    destruct (Z.le_gt_cases x 1) as [X1|X1]; [exists true; split; [now apply (special_pair t1 t2 x y); auto|split; [auto|lia]]|].
    destruct (Z.le_gt_cases y 1) as [Y1|Y1]; [exists true; split; [now apply (special_pair t1 t2 x y); auto|split; [auto|lia]]|].
    destruct (Z.le_gt_cases big y) as [YB|YB]; [exists true; split; [now apply (special_pair t1 t2 x y); auto|split; [auto|lia]]|].
    destruct (sn_some x y S ltac:(lia) ltac:(fold big; lia)) as (z & TZ & Z1 & HS).
    destruct (Z.le_gt_cases big x) as [XB|XB].
    { exists (z =? -103). split.
      - apply (verify_two fuel c s1 m1 sn2 mine2 x y z (-103)); [exact TZ|reflexivity|exact HS| |exact H1|exact H2].
        intros a b Ha Hb. apply (binary_large logf log10f cast fuel c a b x y (limbs_of x)); try assumption; try (apply limbs_of_count). fold big; lia.
      - split; [|intros _ _; apply Z.eqb_neq; lia]. intros A. exfalso. unfold bases_agree in A. fold big in A.
        assert (2 ^ 31 < big) by reflexivity. lia. }
    destruct (mine_some x y S ltac:(fold big; lia) ltac:(fold big; lia)) as (w & TW & HM).
    exists (z =? w). split; [now apply (verify_two fuel c s1 m1 sn2 mine2 x y z w)|]. split; [|lia].
    intros A. destruct (represents_total x) as (a & Ha). destruct (represents_total y) as (b & Hb).
    pose proof (HS a b Ha Hb) as (r & s & E1 & Hr & Hs). pose proof (HM a b Ha Hb) as (m & ms & E2 & Hm & Hms).
    apply Z.eqb_eq. destruct A as [A|[A|[A|[A|(_ & A)]]]]; [lia|lia|fold big in A; lia|..].
    - pose proof (binary_same logf log10f cast fuel c a b x y HL Ha Hb ltac:(lia) ltac:(fold big; lia)) as E. fold sn2 mine2 in E.
      rewrite E1, E2 in E. injection E as <- <-. exact (represents_fun r z w Hr Hm).
    - destruct (ceiling_exists (ln (IZR x) / ln (IZR y))) as (v & V).
      destruct (binary_regular logf log10f cast fuel c a b x y (limbs_of x) v HL HT Ha Hb (limbs_of_count x) S ltac:(lia) ltac:(fold big; lia) A V) as (R1 & R2).
      specialize (R2 ltac:(fold big; lia)). destruct R1 as (r' & s' & E1' & Hr' & _). destruct R2 as (m' & ms' & E2' & Hm' & _).
      fold sn2 in E1'. fold mine2 in E2'. rewrite E1 in E1'. rewrite E2 in E2'. injection E1' as <- _. injection E2' as <- _.
      rewrite (represents_fun r z v Hr Hr'). symmetry. exact (represents_fun m w v Hm Hm').
  Qed.
End Checks.
