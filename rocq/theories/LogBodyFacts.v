(** How the tests of log02.cpp and log10.cpp end. *)
From Coq Require Import String Ascii ZArith Reals Lra Lia.
From Flocq Require Import Core BinarySingleNaN.
From Verif Require Import Machine Facts Spec SpecFacts SpecApi SpecPos SpecText SpecActual SpecPyRun SpecReference SpecIdentity SpecOracle SpecBodies
  SpecGcd SpecDouble SpecLog SpecLogDouble SpecTestLog SpecLogBodies
  BigInt BigIntText BigIntFacts BigIntLogDouble TestOracle TestCalc TestRandom TestBodies TestLog
  OracleFacts3 SpecFacts OracleFacts3 TextFacts LeakyModPow CalcFacts OracleFacts OracleFacts2 OracleTotal RandomFacts IdentityFacts BodyFacts LogReal RunExact LogDoubleFacts
  TestLogFacts TestLogFacts2 TestLogFacts3 TestLogFacts5 LogGaps.
Open Scope string_scope.
Open Scope list_scope.
Open Scope Z_scope.

Ltac Zify.zify_post_hook ::= idtac.

Section Steps.
  Context (fuel : nat) (c : cfg) (sl1 ml1 : string -> bigint -> outcome bigint) (sl2 ml2 : string -> bigint -> bigint -> outcome bigint)
          (Hc : strict c = false).
  Let loop := verify_loop fuel c sl1 ml1 sl2 ml2.

  (** The text [t], read in at most [k] rounds, puts [x] on both stacks. *)
  Definition leaves (t : string) (k : nat) (x : Z) : Prop := forall rest,
    (k + List.length (tokens rest) <= List.length (tokens (t ++ rest)))%nat /\
    forall n sn so mo, exists b so' mo', represents b x /\
      loop (k + n) false (Calc sn sn (tokens (t ++ rest)) so mo) = loop n false (Calc (b :: sn) (b :: sn) (tokens rest) so' mo').

  Lemma same_text_refl_ok v : text v = Ret v -> same_text v v = Ret true.
  Proof. intros H. unfold same_text. rewrite H. cbn [bind]. now rewrite Z.eqb_refl. Qed.

  Lemma same_step {A} b x (K d : outcome A) : represents b x -> text x = Ret x ->
    (ts <- bi_to_string c b ;; tm <- bi_to_string c b ;; if (ts =? tm)%string then K else d) = K.
  Proof. intros Hb T. rewrite (text_step c b b x x K d Hb Hb), (same_text_refl_ok x T). reflexivity. Qed.

  Lemma leaves_print l x : plain l x -> leaves (print_bytes l) 1 x.
  Proof using Hc.
    intros (D & <- & T) rest. rewrite (tokens_print l rest D). split.
    { cbn [List.length]. rewrite app_length. cbn [List.length]. lia. }
    intros n sn so mo. destruct (printed_value c l rest Hc D) as (toks & E & b & EB & Hb).
    rewrite (tokens_print l rest D) in E. injection E as <-. exists b, so, mo. split; [exact Hb|].
    unfold loop. cbn [verify_loop Nat.add]. unfold do_next. cbn [operators snCalc myCalc snOut myOut].
    cbn [begins Ascii.eqb Bool.eqb String.eqb]. rewrite EB. cbn [bind pop_top snCalc myCalc].
    now rewrite (same_step b (operand l) _ _ Hb T).
  Qed.

  (** A numeral that is not an operator. *)
  Lemma leaves_number op : (begins "u" op || begins "b" op || begins "t" op || (op =? "make")%string || (op =? "Corruption")%string) = false ->
    no_blank op -> text (signed_decimal op) = Ret (signed_decimal op) -> leaves (op ++ " ") 1 (signed_decimal op).
  Proof using.
    intros N B T rest. rewrite append_assoc. change (" " ++ rest)%string with (String " " rest).
    assert (tokens (op ++ String " " rest) = op :: tokens rest) as ->.
    { unfold tokens at 1. rewrite (cut_first op rest "" B). reflexivity. }
    split; [cbn [List.length]; lia|]. intros n sn so mo. destruct (parse_returns c op) as (b & E & Hb). exists b, so, mo. split; [exact Hb|].
    apply Bool.orb_false_elim in N as (N & N5). apply Bool.orb_false_elim in N as (N & N4).
    apply Bool.orb_false_elim in N as (N & N3). apply Bool.orb_false_elim in N as (N1 & N2).
    unfold loop. cbn [verify_loop Nat.add]. unfold do_next. cbn [operators snCalc myCalc snOut myOut].
    rewrite N1, N2, N3, N4, N5. destruct (wp_inv _ _ (int32_wp c 0 ltac:(lia))) as (z & -> & Hz). cbn [bind].
    unfold bi_try_parse. rewrite E. cbn [bind pop_top snCalc myCalc].
    now rewrite (same_step b _ _ _ Hb T).
  Qed.

  (** Two numerals and b+. *)
  Lemma leaves_sum t1 t2 x y : leaves t1 1 x -> leaves t2 1 y -> text (y + x) = Ret (y + x) -> leaves (t1 ++ t2 ++ "b+ ") 3 (y + x).
  Proof using Hc.
    intros H1 H2 T rest. rewrite !append_assoc. destruct (H1 (t2 ++ "b+ " ++ rest)%string) as (L1 & S1).
    destruct (H2 ("b+ " ++ rest)%string) as (L2 & S2).
    change (tokens ("b+ " ++ rest)) with ("b+" :: tokens rest) in *. split; [cbn [List.length] in *; lia|].
    intros n sn so mo. destruct (S1 (2 + n)%nat sn so mo) as (a & so1 & mo1 & Ha & E1).
    change (3 + n)%nat with (1 + (2 + n))%nat. rewrite E1.
    destruct (S2 (1 + n)%nat (a :: sn) so1 mo1) as (b & so2 & mo2 & Hb & E2).
    change (2 + n)%nat with (1 + (1 + n))%nat. rewrite E2.
    unfold loop. cbn [verify_loop Nat.add]. unfold do_next. cbn [operators snCalc myCalc snOut myOut].
    cbn [begins Ascii.eqb Bool.eqb pop_top bind].
    pose proof (sn_binary_exact fuel c sl2 b a y x "b+" (fun x y => Ret (x + y)) Hb Ha ltac:(cbn; tauto)) as D.
    cbn [denotes_pair] in D. destruct D as (r & s & -> & Hr & Hs). cbn [bind].
    destruct (lookup_some binary_table "b+" ltac:(cbn; tauto)) as ((f & ok) & Lf).
    assert (f y x = y + x /\ ok x = true) as (Ef & Hok).
    { cbn in Lf. injection Lf as <- <-. split; reflexivity. }
    destruct (wp_inv _ _ (mine_binary_wp c ml2 b a y x "b+" f ok Hc Hb Ha (lookup_in _ _ _ Lf) Hok)) as ((m & ms) & -> & Hm & Hms).
    cbn [bind]. unfold check_values. rewrite (ne_same c b y Hb), (ne_same c a x Ha). cbn [bind pop_top snCalc myCalc].
    rewrite Ef in Hm. rewrite <- (represents_unique _ _ _ Hr Hm) in *.
    rewrite (same_step r (y + x) _ _ Hr T). exists r, s, ms. split; [exact Hr|reflexivity].
  Qed.

  (** The logarithm at the end. *)
  Context (op : string) (OP : is_log op).

  Lemma log_tokens : tokens op = [op] /\ begins "u" op = true.
  Proof using OP. destruct OP as [-> | ->]; split; reflexivity. Qed.

  Lemma at_end t k x (Q : bigint -> outcome bool -> Prop) : leaves t k x ->
    (forall b n so mo, represents b x -> Q b (loop (S (S n)) false (Calc [b] [b] [op] so mo))) ->
    exists b, represents b x /\ Q b (verify fuel c sl1 ml1 sl2 ml2 false (t ++ op)).
  Proof using OP.
    intros H HQ. destruct (H op) as (L & R). destruct log_tokens as (T & _). rewrite T in L. cbn [List.length] in L.
    unfold verify, new_calc. destruct (wp_inv _ _ (int32_wp c 0 ltac:(lia))) as (z & -> & Hz). cbn [bind operators].
    set (m := List.length (tokens (t ++ op))) in *.
    replace (2 * m + 1)%nat with (k + S (S (2 * m + 1 - k - 2)))%nat by lia.
    destruct (R (S (S (2 * m + 1 - k - 2))) [] z z) as (b & so & mo & Hb & E). fold loop. rewrite E, T.
    exists b. split; [exact Hb|]. apply HQ. exact Hb.
  Qed.

  Lemma verify_log t k x z w : leaves t k x -> text z = Ret z -> text w = Ret w ->
    (forall b, represents b x -> returns (sn_unary c sl1 b op) z) ->
    (forall b, represents b x -> returns (mine_unary c ml1 b op) w) ->
    verify fuel c sl1 ml1 sl2 ml2 false (t ++ op) = Ret (z =? w).
  Proof using OP.
    intros H TZ TW HS HM. destruct (at_end t k x (fun _ o => o = Ret (z =? w)) H) as (b & _ & E); [|exact E].
    intros b n so mo Hb. unfold loop. destruct log_tokens as (_ & U). cbn [verify_loop]. unfold do_next. cbn [operators snCalc myCalc snOut myOut].
    rewrite U. cbn [pop_top bind]. destruct (HS b Hb) as (r & -> & Hr). cbn [bind]. destruct (HM b Hb) as (m & -> & Hm). cbn [bind].
    unfold check_values. rewrite (ne_same c b x Hb). cbn [bind pop_top snCalc myCalc].
    rewrite (text_step c r m z w _ _ Hr Hm). unfold same_text. rewrite TZ, TW. cbn [bind].
    destruct (z =? w); [|reflexivity]. cbn [verify_loop do_next operators bind]. reflexivity.
  Qed.

  Lemma verify_log_undefined t k x z u : leaves t k x ->
    (forall b, represents b x -> returns (sn_unary c sl1 b op) z) ->
    (forall b, represents b x -> mine_unary c ml1 b op = Undef u) ->
    verify fuel c sl1 ml1 sl2 ml2 false (t ++ op) = Undef u.
  Proof using OP.
    intros H HS HM. destruct (at_end t k x (fun _ o => o = Undef u) H) as (b & _ & E); [|exact E].
    intros b n so mo Hb. unfold loop. destruct log_tokens as (_ & U). cbn [verify_loop]. unfold do_next. cbn [operators snCalc myCalc snOut myOut].
    rewrite U. cbn [pop_top bind]. destruct (HS b Hb) as (r & -> & Hr). cbn [bind]. rewrite (HM b Hb). reflexivity.
  Qed.
End Steps.

Fixpoint blankless (t : string) : bool :=
  match t with "" => true | String ch t => negb (ch =? " ")%char && blankless t end.
Lemma blankless_ok t : blankless t = true -> no_blank t.
Proof.
  induction t as [|ch t IH]; intros H a b E; [destruct a; discriminate E|]. cbn [blankless] in H. apply andb_prop in H as (H1 & H2).
  destruct a as [|x a]; cbn [String.append] in E; injection E as -> E; [discriminate H1|]. exact (IH H2 a b E).
Qed.

(** ** The logarithms *)

Section Logs.
  Context (fuel : nat) (c : cfg) (logf log10f : double -> double) (cast : double -> outcome Z)
          (s2 m2 : string -> bigint -> bigint -> outcome bigint)
          (Hc : strict c = false) (HL : libm_log logf) (HT : libm_log10 log10f) (op : string) (OP : is_log op).
  Let sn1 := sn_log1 logf log10f cast c.
  Let mine1 := mine_log1 logf log10f cast c.
  Let run := verify fuel c sn1 mine1 s2 m2 false.
  Let leaves := leaves fuel c sn1 mine1 s2 m2.

  Lemma text_int z : - 2 ^ 31 < z <= 2 ^ 32 -> text z = Ret z.
  Proof.
    intros H. change (2 ^ 31) with 2147483648 in H. change (2 ^ 32) with 4294967296 in H. unfold text.
    replace (z <=? - 2 ^ 31) with false by (symmetry; apply Z.leb_gt; change (2 ^ 31) with 2147483648; lia). cbn [andb].
    replace (214748364 <? limbs_of z) with false; [reflexivity|]. symmetry. apply Z.ltb_ge. unfold limbs_of.
    assert (Z.log2 (Z.abs z) <= Z.log2 4294967296) as L by (apply Z.log2_le_mono; lia). change (Z.log2 4294967296) with 32 in L.
    assert (Z.log2 (Z.abs z) / 32 <= 32 / 32) by (apply Z.div_le_mono; lia). change (32 / 32) with 1 in *. lia.
  Qed.

  (** Numbers of at most this many bits. *)
  Definition short (x : Z) : Prop := limbs_of x <= 2 ^ 26.

  Lemma ceiling_int L z : (0 <= L <= 2147483649)%R -> ceiling L z -> - 2 ^ 31 < z <= 2 ^ 32.
  Proof.
    intros H (A & B). change (2 ^ 31) with 2147483648. change (2 ^ 32) with 4294967296.
    assert (-1 < z) by (apply lt_IZR; lra). assert (z < 2147483650) by (apply lt_IZR; lra). lia.
  Qed.

  Lemma regular_log x : 2 <= x -> short x -> log_regular op x ->
    exists z, text z = Ret z /\
      (forall b, represents b x -> returns (sn_unary c sn1 b op) z) /\ (forall b, represents b x -> returns (mine_unary c mine1 b op) z).
  Proof using HL HT OP.
    intros X S R. pose proof (limbs_of_count x) as Hn.
    assert (clear (log_of op x) -> exists z, text z = Ret z /\
      (forall b, represents b x -> returns (sn_unary c sn1 b op) z) /\ (forall b, represents b x -> returns (mine_unary c mine1 b op) z)) as Far.
    { intros C. destruct (ceiling_exists (log_of op x)) as (z & CZ). exists z.
      pose proof (ln_range x (limbs_of x) X Hn S) as R1. pose proof (log10_range x (limbs_of x) X Hn S) as R2.
      split. { apply text_int. apply (ceiling_int (log_of op x)); [|exact CZ]. unfold log_of. destruct (op =? "uLog10")%string; lra. }
      destruct OP as [-> | ->]; unfold log_of in C, CZ; cbn [String.eqb Ascii.eqb Bool.eqb] in C, CZ; split; intros b Hb.
      - now apply (unary_ln logf log10f cast c b x (limbs_of x) z).
      - now apply (unary_ln logf log10f cast c b x (limbs_of x) z).
      - now apply (unary_log10 logf log10f cast c b x (limbs_of x) z).
      - now apply (unary_log10 logf log10f cast c b x (limbs_of x) z). }
    destruct R as [R|R]; [|exact (Far R)].
    destruct OP as [-> | ->]; [apply Far; unfold log_of; cbn [String.eqb Ascii.eqb Bool.eqb]; apply clear_ln_small; lia|]. clear Far.
    destruct (wp_inv _ _ (int32_wp c x ltac:(lia))) as (b & _ & Hb).
    destruct (log10_accurate logf c b x (limbs_of x) HL Hb ltac:(lia) Hn ltac:(apply Z.le_trans with (1 := S); vm_compute; discriminate)) as (r & E & F & A).
    pose proof (log10_range x (limbs_of x) X Hn S) as R2. destruct (ceiling_exists (B2R r)) as (z & CZ).
    set (L := (ln (IZR x) / ln 10)%R) in *. clearbody L.
    assert (0 <= B2R r <= 2147483649)%R as RR.
    { rewrite (Rabs_pos_eq L) in A by lra. replace (/ 2 ^ 48)%R with (/ 281474976710656)%R in A by (f_equal; lra). apply Rabs_le_inv in A. lra. }
    assert (returns (sn1 "uLog10" b) z) as Sn.
    { unfold sn1, sn_log1. cbn [String.eqb Ascii.eqb Bool.eqb]. rewrite E. cbn [bind].
      apply (approximate_ok log10f HT); [exact F|apply Rabs_le; lra|exact CZ]. }
    exists z. split; [apply text_int; now apply (ceiling_int (B2R r))|].
    assert (forall b', represents b' x -> b' = b) as U by (intros b' H'; now apply (represents_unique b' b x)).
    split; intros b' H'; rewrite (U b' H').
    - unfold sn1. rewrite sn_unary_log by (right; reflexivity). exact Sn.
    - unfold mine1. rewrite (mine_unary_log logf log10f cast c "uLog10" b x) by ((right; reflexivity) || exact Hb).
      rewrite <- (same_log10 logf log10f cast c b x HL Hb) by lia. exact Sn.
  Qed.

  Lemma log_of_text t k x : leaves t k x -> 2 <= x -> short x -> log_regular op x -> run (t ++ op) = Ret true.
  Proof using HL HT OP.
    intros H X S R. destruct (regular_log x X S R) as (z & T & A & B). unfold run.
    rewrite (verify_log fuel c sn1 mine1 s2 m2 op OP t k x z z H T T A B). now rewrite Z.eqb_refl.
  Qed.

  Definition special (x : Z) : Z := if x <? 0 then -101 else if x =? 0 then -102 else 0.
  Lemma text_special x : text (special x) = Ret (special x).
  Proof. unfold special. destruct (x <? 0), (x =? 0); reflexivity. Qed.

  Lemma log_of_special t k x : leaves t k x -> x <= 1 -> (x = 1 \/ exists f, cast (first_log x) = Ret f /\ f <= 100) -> run (t ++ op) = Ret true.
  Proof using HL HT OP.
    intros H X F. unfold run. rewrite (verify_log fuel c sn1 mine1 s2 m2 op OP t k x (special x) (special x) H); [now rewrite Z.eqb_refl|apply text_special|apply text_special|..].
    - intros b Hb. now apply (unary_special logf log10f cast c op b x).
    - intros b Hb. now apply (unary_special logf log10f cast c op b x).
  Qed.

  Lemma log_undefined_text t k x u : leaves t k x -> x <= 0 -> cast (first_log x) = Undef u -> run (t ++ op) = Undef u.
  Proof using HL HT OP.
    intros H X F. unfold run. apply (verify_log_undefined fuel c sn1 mine1 s2 m2 op OP t k x (special x) u H).
    - intros b Hb. apply (unary_special logf log10f cast c op b x); assumption || lia.
    - intros b Hb. now apply (unary_undefined logf log10f cast c op b x).
  Qed.

  (** ** Any number of at most 2^24 bits *)

  Lemma ln_bits x : 2 <= x < 2 ^ bits_max -> (/ 2 <= ln (IZR x) <= 16777216)%R.
  Proof.
    intros (X & U). pose proof ln2_bounds as T. split.
    - apply Rle_trans with (ln 2); [lra|]. apply ln_le_mono; [lra|apply (IZR_le 2); lia].
    - apply Rle_trans with (ln (IZR (2 ^ bits_max))).
      + apply ln_le_mono; [apply (IZR_lt 0); lia|]. apply IZR_le. lia.
      + pose proof bits_max_eq as EB. change 2 with (radix_val radix2). rewrite IZR_Zpower by lia.
        rewrite bpow_exp, ln_exp, EB. change (radix_val radix2) with 2. lra.
  Qed.

  Lemma log_bits x : 2 <= x < 2 ^ bits_max -> (0 <= log_of op x <= 16777216 /\ margin (log_of op x) < / 2)%R.
  Proof.
    intros X. pose proof (ln_bits x X) as R. pose proof ln10_bounds as T.
    assert (0 <= log_of op x <= 16777216)%R as B.
    { unfold log_of. destruct (op =? "uLog10")%string; [|lra]. split; [apply Rlt_le, Rdiv_lt_0_compat; lra|].
      apply Rmult_le_reg_r with (ln 10); [lra|]. unfold Rdiv. rewrite Rmult_assoc, Rinv_l by lra. lra. }
    split; [exact B|]. set (L := log_of op x) in *. clearbody L. unfold margin. replace (2 ^ 52)%R with 4503599627370496%R by lra.
    assert (L * (L + 64) <= 16777216 * 16777280)%R by (apply Rmult_le_compat; lra). lra.
  Qed.

  (** The two calculators are at most one apart. *)
  Lemma any_log b x : represents b x -> 2 <= x < 2 ^ bits_max -> short x ->
    exists z w, text z = Ret z /\ text w = Ret w /\ Z.abs (z - w) <= 1 /\ returns (sn_unary c sn1 b op) z /\ returns (mine_unary c mine1 b op) w.
  Proof using HL HT OP.
    intros Hb X S. destruct (log_bits x X) as (B & M). pose proof (limbs_of_count x) as Hn.
    set (near o := exists z, returns o z /\ (log_of op x - margin (log_of op x) <= IZR z < log_of op x + margin (log_of op x) + 1)%R).
    assert (forall v : double, is_finite v = true -> (Rabs (B2R v - log_of op x) <= margin (log_of op x))%R ->
      near (approximate log10f cast c v)) as A.
    { intros v F D. destruct (ceiling_exists (B2R v)) as (z & Z1 & Z2). apply Rabs_le_inv in D. exists z. split; [|lra].
      apply (approximate_ok log10f HT); [exact F|apply Rabs_le; lra|split; assumption]. }
    assert (near (sn1 op b) /\ near (mine1 op b)) as ((z & Z & ZB) & (w & W & WB)).
    { destruct OP as [-> | ->]; unfold log_of in *; cbn [String.eqb Ascii.eqb Bool.eqb] in *; split.
      - exact (sn_ln_near logf log10f HL cast c b x (limbs_of x) Hb (proj1 X) Hn S _ M A).
      - exact (mine_ln_near logf log10f HL cast c b x (limbs_of x) Hb (proj1 X) Hn S _ M A).
      - exact (sn_log10_near logf log10f HL cast c b x (limbs_of x) Hb (proj1 X) Hn S _ M A).
      - exact (mine_log10_near logf log10f HL cast c b x (limbs_of x) Hb (proj1 X) Hn S _ M A). }
    exists z, w. set (L := log_of op x) in *. clearbody L.
    assert (forall y, (L - margin L <= IZR y < L + margin L + 1)%R -> -1 < y < 16777218) as Int.
    { intros y Y. split; apply lt_IZR; lra. }
    assert (forall y, -1 < y < 16777218 -> text y = Ret y) as TX.
    { intros y Y. apply text_int. change (2 ^ 31) with 2147483648. change (2 ^ 32) with 4294967296. lia. }
    split; [now apply TX, Int|]. split; [now apply TX, Int|]. split.
    { assert (-2 < z - w < 2); [|lia]. split; apply lt_IZR; rewrite minus_IZR; lra. }
    split; [unfold sn1; now rewrite sn_unary_log|]. unfold mine1. now rewrite (mine_unary_log _ _ _ _ _ _ x).
  Qed.

  Lemma log_of_any t k x : leaves t k x -> 2 <= x < 2 ^ bits_max -> short x -> exists o, run (t ++ op) = Ret o.
  Proof using HL HT OP.
    intros H X S. destruct (wp_inv _ _ (int32_wp c 0 ltac:(lia))) as (o & _ & _).
    destruct (proj2 (H "") O [] o o) as (b & _ & _ & Hb & _). destruct (any_log b x Hb X S) as (z & w & TZ & TW & _ & Z & W).
    exists (z =? w). unfold run. apply (verify_log fuel c sn1 mine1 s2 m2 op OP t k x z w H TZ TW); intros b' H'; now rewrite (represents_unique b' b x H' Hb).
  Qed.

  (** ** The literals *)

  Lemma sum_literal t1 t2 v : leaves t1 1 (v - signed_decimal t2) ->
    (begins "u" t2 || begins "b" t2 || begins "t" t2 || (t2 =? "make")%string || (t2 =? "Corruption")%string) = false ->
    no_blank t2 -> text (signed_decimal t2) = Ret (signed_decimal t2) -> text v = Ret v ->
    leaves (t1 ++ (t2 ++ " ") ++ "b+ ") 3 v.
  Proof using Hc.
    intros H N B T TV. replace v with (signed_decimal t2 + (v - signed_decimal t2)) by lia.
    apply leaves_sum; [exact Hc|exact H|now apply leaves_number|]. now replace (signed_decimal t2 + (v - signed_decimal t2)) with v by lia.
  Qed.

  Ltac number t := apply (leaves_number fuel c sn1 mine1 s2 m2 t); [reflexivity|apply blankless_ok; reflexivity|vm_compute; reflexivity].
  Ltac summed t1 t2 := apply (sum_literal (t1 ++ " ") t2); [number t1|reflexivity|apply blankless_ok; reflexivity|vm_compute; reflexivity|vm_compute; reflexivity].

  Lemma literals :
    leaves "0 " 1 0 /\ leaves "-1 " 1 (-1) /\ leaves "1 " 1 1 /\
    leaves (int32_min ++ " ") 1 (-2147483648) /\ leaves (int32_min ++ " -1 b+ ") 3 (-2147483649) /\ leaves (int32_min ++ " 1 b+ ") 3 (-2147483647) /\
    leaves (int32_max ++ " ") 1 2147483647 /\ leaves (int32_max ++ " -1 b+ ") 3 2147483646 /\ leaves (int32_max ++ " 1 b+ ") 3 2147483648 /\
    leaves (int64_min ++ " ") 1 (-9223372036854775808) /\ leaves (int64_min ++ " -1 b+ ") 3 (-9223372036854775809) /\
    leaves (int64_min ++ " 1 b+ ") 3 (-9223372036854775807) /\
    leaves (int64_max ++ " ") 1 9223372036854775807 /\ leaves (int64_max ++ " -1 b+ ") 3 9223372036854775806 /\
    leaves (int64_max ++ " 1 b+ ") 3 9223372036854775808.
  Proof using Hc.
    split; [number "0"|]. split; [number "-1"|]. split; [number "1"|].
    split; [number int32_min|]. split; [summed int32_min "-1"|]. split; [summed int32_min "1"|].
    split; [number int32_max|]. split; [summed int32_max "-1"|]. split; [summed int32_max "1"|].
    split; [number int64_min|]. split; [summed int64_min "-1"|]. split; [summed int64_min "1"|].
    split; [number int64_max|]. split; [summed int64_max "-1"|summed int64_max "1"].
  Qed.
End Logs.

(** The literals lie between 2^31 and 2^63, whose logarithms are well known. *)
Lemma ln_two : (11 <= 16 * ln 2)%R /\ (23 * ln 2 <= 16)%R /\ (37 * ln 10 <= 125 * ln 2)%R /\ (93 * ln 2 <= 28 * ln 10)%R.
Proof.
  pose proof exp_1_bounds as (E1 & E2).
  assert (forall z (n m : nat), (0 < z)%R -> (z ^ n <= 2 ^ m)%R -> (INR n * ln z <= INR m * ln 2)%R) as U.
  { intros z n m Hz H. rewrite <- !ln_pow by lra. apply ln_le_mono; [apply pow_lt; lra|exact H]. }
  assert (forall z (n m : nat), (0 < z)%R -> (2 ^ m <= z ^ n)%R -> (INR m * ln 2 <= INR n * ln z)%R) as L.
  { intros z n m Hz H. rewrite <- !ln_pow by lra. apply ln_le_mono; [apply pow_lt; lra|exact H]. }
  split; [|split; [|split]].
  - assert (INR 11 * ln (exp 1) <= INR 16 * ln 2)%R as H.
    { apply U; [lra|]. apply Rle_trans with ((2719 / 1000) ^ 11)%R; [apply pow_incr; lra|lra]. }
    rewrite ln_exp, !INR_IZR_INZ in H. change (Z.of_nat 11) with 11 in H. change (Z.of_nat 16) with 16 in H. lra.
  - assert (INR 23 * ln 2 <= INR 16 * ln (exp 1))%R as H.
    { apply L; [lra|]. apply Rle_trans with ((2718 / 1000) ^ 16)%R; [lra|apply pow_incr; lra]. }
    rewrite ln_exp, !INR_IZR_INZ in H. change (Z.of_nat 23) with 23 in H. change (Z.of_nat 16) with 16 in H. lra.
  - assert (INR 37 * ln 10 <= INR 125 * ln 2)%R as H.
    { apply U; [lra|]. rewrite !pow_IZR. apply IZR_le. vm_compute. discriminate. }
    rewrite !INR_IZR_INZ in H. change (Z.of_nat 37) with 37 in H. change (Z.of_nat 125) with 125 in H. exact H.
  - assert (INR 93 * ln 2 <= INR 28 * ln 10)%R as H.
    { apply L; [lra|]. rewrite !pow_IZR. apply IZR_le. vm_compute. discriminate. }
    rewrite !INR_IZR_INZ in H. change (Z.of_nat 93) with 93 in H. change (Z.of_nat 28) with 28 in H. exact H.
Qed.

(** x^10 is at least 2^629. *)
Lemma ln_high x : 9223372036854775806 <= x <= 9223372036854775808 -> (62.9 * ln 2 <= ln (IZR x) <= 63 * ln 2)%R.
Proof.
  intros H. assert (0 < IZR x)%R as P by (apply IZR_lt; lia). split.
  - assert (INR 629 * ln 2 <= INR 10 * ln (IZR x))%R as Q.
    { rewrite <- !ln_pow by lra. apply ln_le_mono; [apply pow_lt; lra|]. rewrite !pow_IZR. apply IZR_le.
      apply Z.le_trans with (9223372036854775806 ^ 10); [vm_compute; discriminate|]. apply Z.pow_le_mono_l. lia. }
    rewrite !INR_IZR_INZ in Q. change (Z.of_nat 629) with 629 in Q. change (Z.of_nat 10) with 10 in Q. lra.
  - replace 63%R with (INR 63) by (rewrite INR_IZR_INZ; reflexivity). rewrite <- ln_pow by lra. apply ln_le_mono; [exact P|].
    rewrite pow_IZR. apply IZR_le. apply H.
Qed.
Lemma ln_low : (ln (IZR 2147483648) = 31 * ln 2)%R.
Proof.
  replace 31%R with (INR 31) by (rewrite INR_IZR_INZ; reflexivity). rewrite <- ln_pow by lra. now rewrite pow_IZR.
Qed.

Lemma regular_literals op : is_log op -> Forall (log_regular op) [2147483648; 9223372036854775806; 9223372036854775807; 9223372036854775808].
Proof.
  destruct ln_two as (A & B & C & D).
  assert (0 < ln 10)%R as L10 by lra.
  assert (forall L (k : Z), ((IZR k + / 1000) * ln 10 <= L <= (IZR k + 1 - / 1000) * ln 10 ->
    IZR k + / 1000 <= L / ln 10 <= IZR k + 1 - / 1000)%R) as Q.
  { intros L k (H1 & H2). split; apply Rmult_le_reg_r with (ln 10); try exact L10; unfold Rdiv; rewrite Rmult_assoc, Rinv_l by lra; lra. }
  intros [-> | ->]; repeat (apply Forall_cons || apply Forall_nil); right; unfold log_of; cbn [String.eqb Ascii.eqb Bool.eqb];
    try (match goal with |- context [ln (IZR ?x)] => pose proof (ln_high x ltac:(lia)) as (H1 & H2) end).
  1: apply (clear_between _ 21); [lia|]; rewrite ln_low; lra.
  1-3: apply (clear_between _ 43); [lia|]; lra.
  1: apply (clear_between _ 9); [lia|]; apply Q; rewrite ln_low; lra.
  1-3: apply (clear_between _ 18); [lia|]; apply Q; lra.
Qed.

(** ** The whole tests *)

Lemma ran_short l : random_array l -> short (operand l).
Proof.
  intros H. pose proof (random_bound l H) as B. unfold short, limbs_of. rewrite Z.abs_eq by lia.
  assert (Z.log2 (operand l) <= bits_max) as L.
  { destruct (Z.eq_dec (operand l) 0) as [->|N]; [rewrite bits_max_eq; change (Z.log2 0) with 0; lia|].
    apply Z.lt_le_incl, Z.log2_lt_pow2; lia. }
  rewrite bits_max_eq in L. change (2 ^ 26) with 67108864.
  assert (Z.log2 (operand l) / 32 <= 16777216 / 32) by (apply Z.div_le_mono; lia). change (16777216 / 32) with 524288 in *.
  destruct (operand l =? 0); lia.
Qed.

Lemma all_pass_undefined checks u rest : Forall (fun p => p = Ret true) checks -> all_pass (checks ++ Undef u :: rest) = Undef u.
Proof. induction 1; [reflexivity|]. cbn [app]. now rewrite all_pass_cons. Qed.

Lemma all_pass_never checks u rest : all_pass (checks ++ Undef u :: rest) <> Ret true /\ all_pass (checks ++ Undef u :: rest) <> Ret false.
Proof.
  induction checks as [|p checks (IH1 & IH2)]; [split; discriminate|]. cbn [app all_pass]. destruct p; cbn [bind]; try (split; discriminate).
  destruct (all_pass (checks ++ Undef u :: rest)) as [[]| | | |]; cbn [bind]; try (split; discriminate); contradiction.
Qed.

Section Whole.
  Context (fuel : nat) (c : cfg) (logf log10f : double -> double) (cast : double -> outcome Z)
          (s2 m2 : string -> bigint -> bigint -> outcome bigint)
          (Hc : strict c = false) (HL : libm_log logf) (HT : libm_log10 log10f) (op : string) (OP : is_log op)
          {E : Type} (draw : E -> Z -> Z -> Z * E) (copied : bool) (B : in_bounds draw).
  Let run := verify fuel c (sn_log1 logf log10f cast c) (mine_log1 logf log10f cast c) s2 m2 false.

  Lemma random_log l : random_array l -> log_regular op (operand l) ->
    (exists f, cast (B754_infinity true) = Ret f /\ f <= 100) -> run (print_bytes l ++ op) = Ret true.
  Proof using Hc HL HT OP.
    intros R G F. destruct (plain_random l R) as (P & N). pose proof (leaves_print fuel c (sn_log1 logf log10f cast c) (mine_log1 logf log10f cast c) s2 m2 Hc l _ P) as L.
    destruct (Z.le_gt_cases (operand l) 1) as [X|X].
    - eapply log_of_special; try eassumption. destruct (Z.eq_dec (operand l) 1) as [->|N1]; [auto|].
      right. replace (operand l) with 0 by lia. exact F.
    - eapply log_of_text; try eassumption; [lia|]. now apply ran_short.
  Qed.

  Lemma random_log_undefined l u : random_array l -> log_regular op (operand l) -> cast (B754_infinity true) = Undef u ->
    run (print_bytes l ++ op) = Ret true \/ run (print_bytes l ++ op) = Undef u.
  Proof using Hc HL HT OP.
    intros R G F. destruct (plain_random l R) as (P & N). pose proof (leaves_print fuel c (sn_log1 logf log10f cast c) (mine_log1 logf log10f cast c) s2 m2 Hc l _ P) as L.
    destruct (Z.le_gt_cases (operand l) 1) as [X|X].
    - destruct (Z.eq_dec (operand l) 1) as [E1|N1]; [left; eapply log_of_special; try eassumption; auto|].
      right. assert (operand l = 0) as E0 by lia. rewrite E0 in *. eapply log_undefined_text; try eassumption; lia.
    - left. eapply log_of_text; try eassumption; [lia|]. now apply ran_short.
  Qed.

  Lemma small_regular e : random_array (get_random_bytes draw 2 e) /\ log_regular op (operand (get_random_bytes draw 2 e)).
  Proof using B.
    split; [apply small_random; [exact B|lia]|]. destruct (next_bytes_low draw 2 B e) as (L & N).
    left. pose proof (two_bytes _ L N) as T. unfold get_random_bytes. change (2 ^ 24) with 16777216 in T. change (2 ^ 31) with 2147483648. lia.
  Qed.

  Lemma log_test_rest e :
    (exists f, cast B754_nan = Ret f /\ f <= 100) -> (exists f, cast (B754_infinity true) = Ret f /\ f <= 100) ->
    exists rest, unary_test draw copied run 0 op e = all_pass (run (print_bytes (any_bytes draw copied 0 1024 e) ++ op)%string :: rest) /\
      all_pass rest = Ret true.
  Proof using Hc HL HT OP B.
    intros FN FI. unfold unary_test. rewrite !samples_same, !all_pass_one. cbn [app map]. eexists. split; [reflexivity|].
    apply all_pass_true.
    apply Forall_cons; [destruct (small_regular e); now apply random_log|].
    destruct (literals fuel c logf log10f cast s2 m2 Hc) as (L1 & L2 & L3 & L4 & L5 & L6 & L7 & L8 & L9 & L10 & L11 & L12 & L13 & L14 & L15).
    pose proof (regular_literals op OP) as RL. inversion RL as [|? ? R1 RL1]; subst. inversion RL1 as [|? ? R2 RL2]; subst.
    inversion RL2 as [|? ? R3 RL3]; subst. inversion RL3 as [|? ? R4 _]; subst. clear RL RL1 RL2 RL3.
    assert (forall x, x < 2147483648 -> log_regular op x) as Small by (intros x H; left; exact H).
    repeat (apply Forall_cons || apply Forall_nil).
    - eapply log_of_special; try eassumption; [lia|right; exact FI].
    - eapply log_of_special; try eassumption; [lia|right; exact FN].
    - eapply log_of_special; try eassumption; [lia|auto].
    - eapply log_of_special; try eassumption; [lia|right; exact FN].
    - eapply log_of_special; try eassumption; [lia|right; exact FN].
    - eapply log_of_special; try eassumption; [lia|right; exact FN].
    - eapply log_of_text; try eassumption; [lia|vm_compute; discriminate|apply Small; lia].
    - eapply log_of_text; try eassumption; [lia|vm_compute; discriminate|apply Small; lia].
    - eapply log_of_text; try eassumption; [lia|vm_compute; discriminate].
    - eapply log_of_special; try eassumption; [lia|right; exact FN].
    - eapply log_of_special; try eassumption; [lia|right; exact FN].
    - eapply log_of_special; try eassumption; [lia|right; exact FN].
    - eapply log_of_text; try eassumption; [lia|vm_compute; discriminate].
    - eapply log_of_text; try eassumption; [lia|vm_compute; discriminate].
    - eapply log_of_text; try eassumption; [lia|vm_compute; discriminate].
  Qed.

  Theorem log_test_passes e : log_regular op (operand (any_bytes draw copied 0 1024 e)) ->
    (exists f, cast B754_nan = Ret f /\ f <= 100) -> (exists f, cast (B754_infinity true) = Ret f /\ f <= 100) ->
    unary_test draw copied run 0 op e = Ret true.
  Proof using Hc HL HT OP B.
    intros G FN FI. destruct (log_test_rest e FN FI) as (rest & -> & P).
    rewrite all_pass_cons; [exact P|]. apply random_log; [now apply any_random|exact G|exact FI].
  Qed.

  (** Whatever is drawn, it passes or fails. *)
  Theorem log_test_ends e : (exists f, cast B754_nan = Ret f /\ f <= 100) -> (exists f, cast (B754_infinity true) = Ret f /\ f <= 100) ->
    exists k, unary_test draw copied run 0 op e = Ret k.
  Proof using Hc HL HT OP B.
    intros FN FI. set (l := any_bytes draw copied 0 1024 e). pose proof (any_random draw copied B 0 1024 e ltac:(lia)) as R. fold l in R.
    destruct (Z.lt_ge_cases (operand l) (2 ^ 31)) as [S|S]; [exists true; apply log_test_passes; auto; now left|].
    destruct (log_test_rest e FN FI) as (rest & -> & P). fold l. cbn [all_pass].
    destruct (plain_random l R) as (PL & N). pose proof (leaves_print fuel c (sn_log1 logf log10f cast c) (mine_log1 logf log10f cast c) s2 m2 Hc l _ PL) as L.
    pose proof (random_bound l R) as U.
    destruct (log_of_any fuel c logf log10f cast s2 m2 HL HT op OP _ _ _ L ltac:(change (2 ^ 31) with 2147483648 in S; lia) (ran_short l R)) as (k & Ek).
    fold run in Ek. rewrite Ek, P. cbn [bind]. eauto.
  Qed.

  Lemma zero_undefined u : cast (B754_infinity true) = Undef u -> run ("0 " ++ op) = Undef u.
  Proof using Hc HL HT OP.
    intros F. destruct (literals fuel c logf log10f cast s2 m2 Hc) as (L1 & _). eapply log_undefined_text; try eassumption; lia.
  Qed.

  Theorem log_test_undefined e u : cast (B754_infinity true) = Undef u ->
    (log_regular op (operand (any_bytes draw copied 0 1024 e)) -> unary_test draw copied run 0 op e = Undef u) /\
    (forall k, unary_test draw copied run 0 op e <> Ret k).
  Proof using Hc HL HT OP B.
    intros F. unfold unary_test. rewrite !samples_same, !all_pass_one. cbn [app map]. rewrite (zero_undefined u F). split.
    - intros G. destruct (small_regular e) as (RS & GS).
      destruct (random_log_undefined _ u (any_random draw copied B 0 1024 e ltac:(lia)) G F) as [-> | ->]; [|reflexivity].
      rewrite all_pass_cons by reflexivity. destruct (random_log_undefined _ u RS GS F) as [-> | ->]; [|reflexivity].
      rewrite all_pass_cons by reflexivity. reflexivity.
    - intros k. match goal with |- all_pass (?p :: ?q :: Undef u :: ?rest) <> _ => pose proof (all_pass_never [p; q] u rest) as (N1 & N2) end.
      destruct k; assumption.
  Qed.
End Whole.

(** The calculators' logarithms of one number. *)
Theorem log_near logf log10f cast c op b x n : libm_log logf -> libm_log10 log10f -> is_log op ->
  represents b x -> 2 <= x -> limb_count x n -> n <= 2 ^ 19 ->
  exists z w, Z.abs (z - w) <= 1 /\
    returns (sn_unary c (sn_log1 logf log10f cast c) b op) z /\ returns (mine_unary c (mine_log1 logf log10f cast c) b op) w.
Proof.
  intros HL HT OP Hb X Hn N. pose proof (limb_count_unique _ _ _ Hn (limbs_of_count x)) as E. change (2 ^ 19) with 524288 in N.
  assert (x < 2 ^ bits_max) as U.
  { destruct Hn as (N1 & F & _). unfold fits_limbs in F. apply (Z.le_lt_trans _ (Z.abs x)); [lia|]. apply (Z.lt_le_trans _ _ _ F).
    rewrite bits_max_eq. apply Z.pow_le_mono_r; lia. }
  destruct (any_log c logf log10f cast HL HT op OP b x Hb ltac:(lia)) as (z & w & _ & _ & A & Z & W).
  { unfold short. rewrite <- E. change (2 ^ 26) with 67108864. lia. }
  exists z, w. auto.
Qed.
