(** How the tests of powers of TestShifts.v end. *)
From Coq Require Import String Ascii.
From Verif Require Import Facts Spec SpecPos PosFacts BytesFacts BigInt BigIntBytes SpecGcd SpecActual PyRun SpecPyRun SpecOracle SpecReference SpecIdentity
  PowLaws TestOracle TestCalc TestRandom TestNumbers TestBodies SpecBodies TestShifts SpecShifts
  OracleFacts OracleFacts2 CalcFacts RandomFacts NumberFacts IdentityFacts BodyFacts BodyAxioms TestShiftFacts.

Ltac Zify.zify_post_hook ::= idtac.

Section Run.
  Context (fuel : nat) (c : cfg) (s1 m1 : string -> bigint -> outcome bigint) (s2 m2 : string -> bigint -> bigint -> outcome bigint) (Hc : strict c = false).
  Notation run := (verify fuel c s1 m1 s2 m2 false).
  Notation ident := (verify_identity fuel c s1 m1 s2 m2).

  Local Ltac no_log := let T := fresh in intros T; destruct T as [T|[T|T]]; discriminate T.
  Local Ltac named := let t := fresh in let H := fresh in let T := fresh in intros t H T; cbv in H;
    repeat (destruct H as [<-|H]; [destruct T as [T|[T|T]]; discriminate T|]); contradiction.
  Local Ltac computed := generalize Hc; generalize c as c'; intros [d' s'] Hs; cbn in Hs; subst s'; vm_compute; reflexivity.
  Local Ltac literal := apply run_text; [exact Hc|named|computed].
  Local Ltac closed_ends := split; [computed|named].

  (** ** One power *)

  Definition small_power (x e : Z) : Prop := (0 <= x <= 1 /\ 0 <= e < 2 ^ 31) \/ (0 <= x < 2 ^ bits_max /\ 0 <= e <= 255).

  Lemma limbs_bound x : 0 <= x < 2 ^ bits_max -> 1 <= limbs_of x <= 524289.
  Proof.
    intros X. unfold limbs_of. rewrite Z.abs_eq by lia. pose proof (log_below x bits_max X bits_max_pos) as L. rewrite bits_max_eq in L.
    pose proof (Z.div_pos (Z.log2 x) 32 (Z.log2_nonneg x) ltac:(lia)).
    pose proof (Z.div_le_mono (Z.log2 x) 16777216 32 ltac:(lia) ltac:(lia)) as D. change (16777216 / 32) with 524288 in D. lia.
  Qed.

  Lemma pow_value x e : small_power x e -> (n <- big_count c e ;; power_of LP64 x n) = Ret (x ^ e).
  Proof.
    intros H. assert (0 <= e < 2 ^ 31) as E by (change (2 ^ 31) with 2147483648 in *; destruct H; lia).
    rewrite (count_int c Hc e) by lia. cbn [bind]. unfold power_of.
    destruct (Z.ltb_spec e 0); [lia|].
    replace ((1 <? e) && (1 <? Z.abs x) && (2 ^ 31 - 1 <=? limbs_of x * e + 1)) with false; [reflexivity|].
    symmetry. destruct H as [(X & _)|(X & E')].
    - destruct (Z.ltb_spec 1 (Z.abs x)); [lia|]. now rewrite andb_false_r.
    - pose proof (limbs_bound x X). destruct (Z.leb_spec (2 ^ 31 - 1) (limbs_of x * e + 1)) as [F|]; [|now rewrite andb_false_r].
      change (2 ^ 31) with 2147483648 in F. nia.
  Qed.

  Lemma pow_text x e : small_power x e -> text (x ^ e) = Ret (x ^ e).
  Proof.
    intros [(X & E)|(X & E)].
    - apply (text_bound _ 1); [|change (2 ^ 32) with 4294967296; lia]. change (2 ^ 1) with 2.
      assert (x = 0 \/ x = 1) as [-> | ->] by lia; [|rewrite Z.pow_1_l by lia; lia].
      destruct (Z.eq_dec e 0) as [->|]; [cbn; lia|rewrite Z.pow_0_l by lia; lia].
    - apply (text_bound _ (bits_max * 256)); [|rewrite bits_max_eq; apply Z.leb_le; reflexivity].
      split; [apply Z.pow_nonneg; lia|]. pose proof bits_max_pos as BP. rewrite Z.pow_mul_r by lia.
      apply (Z.lt_le_trans _ ((2 ^ bits_max) ^ (e + 1))).
      + apply (Z.le_lt_trans _ ((2 ^ bits_max) ^ e)); [apply Z.pow_le_mono_l; lia|].
        apply Z.pow_lt_mono_r; [pose proof pow_max_pos; lia|lia|lia].
      + apply Z.pow_le_mono_r; [pose proof pow_max_pos; lia|lia].
  Qed.

  Lemma pow_two l1 l2 x e : plain l1 e -> plain l2 x -> small_power x e -> two run "bPow" l1 l2 = Ret true.
  Proof.
    intros P1 P2 H. rewrite (run_two fuel c s1 m1 s2 m2 Hc false l1 l2 x e "bPow" P2 P1 eq_refl ltac:(no_log)).
    erewrite verdict_binary; [|reflexivity|reflexivity|reflexivity]. cbv beta. rewrite (pow_value x e H). cbn [bind].
    rewrite written. apply written_ok, pow_text, H.
  Qed.

  Lemma pow_two_negative l1 l2 x e : plain l1 e -> plain l2 x -> - 2 ^ 31 < e < 0 -> two run "bPow" l1 l2 = Throw OutOfRange.
  Proof.
    intros P1 P2 H. rewrite (run_two fuel c s1 m1 s2 m2 Hc false l1 l2 x e "bPow" P2 P1 eq_refl ltac:(no_log)).
    erewrite verdict_binary; [|reflexivity|reflexivity|reflexivity]. cbv beta.
    rewrite (count_int c Hc e) by (change (2 ^ 31) with 2147483648 in *; lia). cbn [bind]. unfold power_of.
    destruct (Z.ltb_spec e 0); [reflexivity|lia].
  Qed.

  (** ** The laws *)

  Lemma ends_first l d n op g f v w : digits 256 l -> In (d, n) [("0"%string, 0); ("1"%string, 1)] ->
    tokens op = [op] -> starts_with "u" op = false -> starts_with "b" op = true -> ~ takes_log op ->
    lookup (lib_binary_table fuel c) op = Some g -> lookup ref_binary_table op = Some f ->
    g (operand l) n = v -> f (operand l) n = Ret w ->
    text_ends fuel c (d ++ " " ++ print_bytes l ++ op) v.
  Proof.
    intros D Hn T U S N G F Hv Hw.
    assert (tokens (d ++ " " ++ print_bytes l ++ op) = d :: tokens (print_bytes l ++ op)) as T1.
    { destruct Hn as [Hn|[Hn|[]]]; injection Hn as <- <-; reflexivity. }
    split.
    - rewrite T1.
      assert (ends_with fuel c (d :: tokens (print_bytes l ++ op)) None [] [] false = ends_with fuel c (tokens (print_bytes l ++ op)) None [n] [n] false) as ->.
      { destruct Hn as [Hn|[Hn|[]]]; injection Hn as <- <-; reflexivity. }
      rewrite (ends_print fuel c l _ _ _ false D), T. cbn [ends_with]. rewrite U, S, G, F, Hv, Hw.
      destruct v; cbn [bind]; auto; now rewrite !Z.eqb_refl.
    - rewrite T1. intros op' [<-|H].
      + destruct Hn as [Hn|[Hn|[]]]; injection Hn as <- <-; no_log.
      + apply (print_log l op D); [|exact H]. rewrite T. intros o [<-|[]]. exact N.
  Qed.

  (** The exponent is printed or a literal. *)
  Lemma ends_pow_step d n e rest : In (d, n) [("0"%string, 0); ("1"%string, 1)] -> 0 <= e -> rest = [d; "bPow"%string] ->
    ends_with fuel c rest None [e] [e] false = (x <- (if e <? 2 ^ 31 then Ret (n ^ e) else Throw OverflowError) ;; Ret (Some x)).
  Proof.
    intros Hn P ->.
    assert (0 <= n <= 1) as N by (destruct Hn as [Hn|[Hn|[]]]; injection Hn as _ <-; lia).
    assert (ends_with fuel c [d; "bPow"%string] None [e] [e] false = ends_with fuel c ["bPow"%string] None [n; e] [n; e] false) as ->.
    { destruct Hn as [Hn|[Hn|[]]]; injection Hn as <- <-; reflexivity. }
    cbn [ends_with starts_with Ascii.eqb Bool.eqb lookup lib_binary_table ref_binary_table String.eqb].
    destruct (Z.ltb_spec e (2 ^ 31)) as [L|L].
    - rewrite pow_value by (left; lia). cbn [bind]. unfold ref_power, an_int, ref_exponent.
      destruct (Z.leb_spec (- 2 ^ 31) e); [|lia]. destruct (Z.ltb_spec e (2 ^ 31)); [|lia]. cbn [andb bind].
      destruct (Z.ltb_spec e 0); [lia|]. now rewrite !Z.eqb_refl.
    - unfold big_count. destruct (Z.ltb_spec e (2 ^ 31)); [lia|]. rewrite andb_false_r. reflexivity.
  Qed.

  Definition base_table : list (string * Z) := [("0"%string, 0); ("1"%string, 1)].

  Lemma ends_pow l d n : digits 256 l -> In (d, n) base_table -> 0 <= operand l ->
    text_ends fuel c (print_bytes l ++ d ++ " bPow") (if operand l <? 2 ^ 31 then Ret (n ^ operand l) else Throw OverflowError).
  Proof.
    intros D Hn P.
    assert (tokens (d ++ " bPow") = [d; "bPow"%string]) as Td by (destruct Hn as [Hn|[Hn|[]]]; injection Hn as <- <-; reflexivity).
    split.
    - rewrite (ends_print fuel c l _ [] [] false D). exact (ends_pow_step d n (operand l) _ Hn P Td).
    - apply (print_log l _ D). rewrite Td. intros op' [<-|[<-|[]]]; [|no_log].
      destruct Hn as [Hn|[Hn|[]]]; injection Hn as <- <-; no_log.
  Qed.

  Lemma ends_pow_max d n : In (d, n) base_table -> text_ends fuel c (int32_max ++ " " ++ d ++ " bPow") (Ret n).
  Proof.
    intros Hn.
    assert (tokens (int32_max ++ " " ++ d ++ " bPow") = [int32_max; d; "bPow"%string]) as Td
      by (destruct Hn as [Hn|[Hn|[]]]; injection Hn as <- <-; reflexivity).
    split.
    - rewrite Td. change (ends_with fuel c [int32_max; d; "bPow"%string] None [] [] false) with
        (ends_with fuel c [d; "bPow"%string] None [2147483647] [2147483647] false).
      rewrite (ends_pow_step d n 2147483647 _ Hn ltac:(lia) eq_refl). change (2147483647 <? 2 ^ 31) with true. cbv iota.
      destruct Hn as [Hn|[Hn|[]]]; injection Hn as <- <-; [rewrite Z.pow_0_l by lia|rewrite Z.pow_1_l by lia]; reflexivity.
    - rewrite Td. intros op' [<-|[<-|[<-|[]]]]; [no_log| |no_log].
      destruct Hn as [Hn|[Hn|[]]]; injection Hn as <- <-; no_log.
  Qed.

  Lemma ends_base d n : In (d, n) base_table -> text_ends fuel c d (Ret n).
  Proof. intros [Hn|[Hn|[]]]; injection Hn as <- <-; closed_ends. Qed.

  Lemma byte_exponent l : digits 256 l -> List.length l = 1%nat -> Z.abs (operand l) <= 255.
  Proof.
    intros D L. destruct l as [|b [|? ?]]; try discriminate L. inversion D; subst. now apply byte_signed.
  Qed.

  Context {E : Type} (draw : E -> Z -> Z -> Z * E) (copied : bool) (B : in_bounds draw).

  Lemma zero_plain : plain [0] 0.
  Proof. apply (constant_plain [0] 0). cbn. auto. Qed.

  Theorem pow_positive_passes e : pow_debug run = Ret true /\ pow_positive draw copied run e = Ret true.
  Proof.
    split.
    - unfold pow_debug. eapply pow_two; [| |].
      + split; [repeat constructor; lia|]. split; [reflexivity|]. vm_compute. reflexivity.
      + split; [repeat constructor; lia|]. split; [reflexivity|]. vm_compute. reflexivity.
      + right. split; [|vm_compute; split; discriminate]. split; [vm_compute; discriminate|].
        apply (Z.lt_le_trans _ (2 ^ 64)); [vm_compute; reflexivity|]. apply Z.pow_le_mono_r; [lia|rewrite bits_max_eq; lia].
    - unfold pow_positive. destruct (positive_random draw 1 e ltac:(lia) ltac:(lia)) as (l1 & -> & L1 & P1 & O1).
      destruct (positive_random draw 2 e ltac:(lia) ltac:(lia)) as (l2 & -> & L2 & P2 & O2). cbn [bind].
      pose proof (small_random draw B 2 e ltac:(lia)) as RS. pose proof (any_random draw copied B 0 10 e ltac:(lia)) as RL.
      pose proof (byte_exponent l1 (proj1 P1) L1). pose proof (two_signed l2 (proj1 P2) L2) as O2'.
      assert (0 <= operand l2 < 2 ^ bits_max) as B2.
      { split; [lia|]. apply (Z.lt_le_trans _ (2 ^ 25)); [change (2 ^ 25) with 33554432; change (2 ^ 24) with 16777216 in O2'; lia|].
        apply Z.pow_le_mono_r; [lia|rewrite bits_max_eq; lia]. }
      change (2 ^ 24) with 16777216 in O2'.
      rewrite !samples_same, !all_pass_one. apply all_pass_true.
      repeat apply Forall_cons; [literal|literal| | | | |apply Forall_nil].
      + apply (pow_two _ _ _ _ P1 (proj1 (plain_random _ RS))). right. split; [now apply random_bound|lia].
      + apply (pow_two _ _ _ _ P1 (proj1 (plain_random _ RL))). right. split; [now apply random_bound|lia].
      + apply (pow_two _ _ _ _ zero_plain (proj1 (plain_random _ RL))). right. split; [now apply random_bound|lia].
      + apply all_pass_true. apply Forall_cons; [|apply Forall_cons; [|apply Forall_nil]].
        * apply (pow_two _ _ _ _ P2 zero_plain). left. change (2 ^ 31) with 2147483648. lia.
        * apply (pow_two _ _ _ _ zero_plain P2). right. split; [exact B2|lia].
  Qed.

  Theorem pow_laws_pass e : pow_one draw copied ident e = Ret true /\ pow_zero draw copied ident e = Ret true.
  Proof.
    pose proof (any_random draw copied B 0 10 e ltac:(lia)) as R. destruct (random_written _ R) as (D & P & T). pose proof (random_bound _ R) as RB.
    assert (forall n, 0 <= n <= 1 -> small_power (operand (any_bytes draw copied 0 10 e)) n) as SP by (intros n N; right; split; [exact RB|lia]).
    split.
    - unfold pow_one. cbv zeta. rewrite samples_same, all_pass_one. apply all_pass_true.
      apply Forall_cons; [apply (ident_closed _ _ _ _ _ _ Hc _ _ 2147483647); [closed_ends|closed_ends|reflexivity]|].
      apply Forall_cons; [apply (ident_closed _ _ _ _ _ _ Hc _ _ 9223372036854775807); [closed_ends|closed_ends|reflexivity]|].
      apply Forall_cons; [|apply Forall_nil].
      apply (ident_closed _ _ _ _ _ _ Hc _ _ (operand (any_bytes draw copied 0 10 e))); [|now apply ends_of_but_last|exact T].
      eapply (ends_first _ "1" 1 "bPow"); [exact D|cbn; auto|reflexivity|reflexivity|reflexivity|no_log|reflexivity|reflexivity| |reflexivity].
      cbv beta. rewrite pow_value by (apply SP; lia). now rewrite Z.pow_1_r.
    - unfold pow_zero. cbv zeta. rewrite samples_same, all_pass_one. apply all_pass_true.
      apply Forall_cons; [apply (ident_closed _ _ _ _ _ _ Hc _ _ 1); [closed_ends|closed_ends|reflexivity]|].
      apply Forall_cons; [apply (ident_closed _ _ _ _ _ _ Hc _ _ 1); [closed_ends|closed_ends|reflexivity]|].
      apply Forall_cons; [|apply Forall_nil].
      apply (ident_closed _ _ _ _ _ _ Hc _ _ 1); [|closed_ends|reflexivity].
      eapply (ends_first _ "0" 0 "bPow"); [exact D|cbn; auto|reflexivity|reflexivity|reflexivity|no_log|reflexivity|reflexivity| |reflexivity].
      cbv beta. rewrite pow_value by (apply SP; lia). reflexivity.
  Qed.

  (** 0^X and 1^X *)
  Theorem pow_of_exact e : exists a, positive_bytes draw 4 e = Ret a /\
    pow_of draw ident "0" e = zero_to (operand a) /\ pow_of draw ident "1" e = one_to (operand a).
  Proof.
    destruct (positive_random draw 4 e ltac:(lia) ltac:(lia)) as (a & R & _ & (D & _) & O). exists a. split; [exact R|].
    assert (forall d n, In (d, n) base_table -> pow_of draw ident d e =
      if operand a <? 2 ^ 31 then (if n ^ operand a =? n then Ret true else Ret false) else Throw OverflowError) as K.
    { intros d n Hn. unfold pow_of. rewrite samples_same, all_pass_one, R. cbn [bind].
      rewrite all_pass_cons.
      2:{ apply (ident_closed _ _ _ _ _ _ Hc _ _ n); [now apply ends_pow_max|now apply ends_base|].
          destruct Hn as [Hn|[Hn|[]]]; injection Hn as <- <-; reflexivity. }
      rewrite all_pass_one. destruct (ends_pow a d n D Hn (proj1 O)) as (E1 & L1), (ends_base d n Hn) as (E2 & L2).
      rewrite identity_exact; [|exact Hc|intros op [H|H]; auto]. rewrite E1.
      destruct (Z.ltb_spec (operand a) (2 ^ 31)) as [L|]; [|reflexivity]. cbn [bind]. rewrite E2. cbn [bind compared].
      assert (small_power n (operand a)) as SP by (left; destruct Hn as [Hn|[Hn|[]]]; injection Hn as <- <-; lia).
      rewrite (pow_text n _ SP). cbn [bind]. unfold same_text. rewrite (pow_text n _ SP). cbn [bind].
      assert (text n = Ret n) as -> by (destruct Hn as [Hn|[Hn|[]]]; injection Hn as <- <-; reflexivity). cbn [bind].
      now destruct (_ =? n). }
    split; [rewrite (K "0"%string 0)|rewrite (K "1"%string 1)]; try (cbn; auto; fail).
    - unfold zero_to. destruct (Z.eqb_spec (operand a) 0) as [->|]; [reflexivity|]. rewrite Z.pow_0_l by lia. reflexivity.
    - unfold one_to. rewrite Z.pow_1_l by lia. reflexivity.
  Qed.

  Theorem pow_boundary_passes : pow_boundary run = Ret true.
  Proof. unfold pow_boundary. apply all_pass_true. repeat apply Forall_cons; [literal|literal|apply Forall_nil]. Qed.

  Theorem pow_negative_passes e : pow_negative draw run e = Ret true.
  Proof.
    unfold pow_negative. destruct (negative_random draw 2 e ltac:(lia)) as (l & -> & L & D & _ & O). cbn [bind].
    rewrite samples_same, all_pass_one. apply all_pass_true.
    pose proof (two_signed l D L) as A. change (2 ^ 24) with 16777216 in A.
    repeat apply Forall_cons; [| | |apply Forall_nil].
    - replace (run _) with (Throw OutOfRange : outcome bool); [reflexivity|]. symmetry. literal.
    - replace (run _) with (Throw OutOfRange : outcome bool); [reflexivity|]. symmetry. literal.
    - erewrite pow_two_negative; [reflexivity|apply near_plain; [exact D|change (2 ^ 30) with 1073741824; lia]
        |apply plain_random, (small_random draw B 2 e ltac:(lia))|change (2 ^ 31) with 2147483648; lia].
  Qed.
End Run.

Theorem pow_overflow_passes c : TestShifts.pow_overflow c = Ret true.
Proof.
  unfold TestShifts.pow_overflow. change (wrz (repeat 0 1000) 999 1) with (Ret (repeat 0 999 ++ [1])%list). cbn [bind].
  assert (bytes_value false false (repeat 0 999 ++ [1]) = 2 ^ 7992) as V by (vm_compute; reflexivity).
  assert (bytes (repeat 0 999 ++ [1])) as D.
  { apply Forall_app. split; [apply Forall_forall; intros b H; apply repeat_spec in H; subst; lia|repeat constructor; lia]. }
  pose proof (of_bytes_spec c (repeat 0 999 ++ [1]) false false D) as H. rewrite V in H.
  destruct (bi_of_bytes c _ _ _) as [b| | | |]; cbn [wp] in H;
    (match type of H with ?P -> _ => assert P as K by (right; left; apply Z.pow_nonneg; lia) end); specialize (H K); try contradiction H.
  cbn [bind]. unfold expect_overflow.
  assert (2 ^ 1 < 2 ^ 7992) as G by (apply Z.pow_lt_mono_r; lia). change (2 ^ 1) with 2 in G.
  rewrite (PowLaws.pow_overflow c b (2 ^ 7992) INT_MAX 250 H).
  - reflexivity.
  - apply limb_count_compute. vm_compute. reflexivity.
  - vm_compute. split; reflexivity.
  - rewrite Z.abs_eq by lia. lia.
  - vm_compute. discriminate.
Qed.
