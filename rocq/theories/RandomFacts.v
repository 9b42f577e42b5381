(** What the random operands of the tests are, and what follows for the tests of
    div_rem. *)
From Coq Require Import String Ascii.
From Verif Require Import Facts Spec SpecPos PosFacts BytesFacts BigInt SpecGcd SpecActual PyRun SpecPyRun SpecOracle TestOracle TestCalc TestRandom
  OracleFacts OracleFacts2 CalcFacts.

Ltac Zify.zify_post_hook ::= idtac.

Lemma next_bytes_low {E} (draw : E -> Z -> Z -> Z * E) n : in_bounds draw -> forall e,
  low7 (fst (next_bytes draw n e)) /\ List.length (fst (next_bytes draw n e)) = n.
Proof.
  intros B. induction n as [|n IH]; intros e; cbn [next_bytes]; [split; [constructor|reflexivity]|].
  pose proof (B e 0 127 ltac:(lia)) as H. destruct (draw e 0 127) as (v & e1). cbn [fst] in H.
  destruct (IH e1) as (L & N). destruct (next_bytes draw n e1) as (l & e2). cbn [fst List.length] in *.
  split; [|now rewrite N]. constructor; [|exact L]. unfold u8. change (2 ^ 8) with 256. rewrite Z.mod_small by lia. lia.
Qed.

Lemma nonzero_low {E} (draw : E -> Z -> Z -> Z * E) fuel n : in_bounds draw -> forall v e l,
  low7 v -> List.length v = n -> nonzero_loop draw fuel n v e = Ret l -> low7 l /\ List.length l = n /\ ref_is_zero l = false.
Proof.
  intros B. induction fuel as [|fuel IH]; intros v e l L N H; cbn [nonzero_loop] in H.
  - destruct (ref_is_zero v) eqn:Z0; [discriminate|]. injection H as <-. auto.
  - destruct (ref_is_zero v) eqn:Z0; [|injection H as <-; auto].
    destruct (next_bytes_low draw n B e) as (L1 & N1). destruct (next_bytes draw n e) as (v1 & e1). exact (IH v1 e1 l L1 N1 H).
Qed.

Lemma get_nonzero_low {E} (draw : E -> Z -> Z -> Z * E) fuel n e l : in_bounds draw ->
  get_nonzero_bytes draw fuel n e = Ret l -> low7 l /\ List.length l = n /\ ref_is_zero l = false.
Proof.
  intros B. apply nonzero_low; [exact B| |apply repeat_length].
  apply Forall_forall. intros b Hb. apply repeat_spec in Hb. lia.
Qed.

Lemma any_size_low {E} (draw : E -> Z -> Z -> Z * E) copied fuel lo hi e l : in_bounds draw -> lo <= hi ->
  any_size_bytes draw copied fuel lo hi e = Ret l -> low7 l /\ Z.of_nat (List.length l) <= Z.max 0 hi /\ ref_is_zero l = false.
Proof.
  intros B H R. unfold any_size_bytes in R. pose proof (B e lo hi H) as S. destruct (draw e lo hi) as (size & e1). cbn [fst] in S.
  apply (get_nonzero_low draw _ _ _ _ B) in R as (L & N & Z0). split; [exact L|]. split; [rewrite N; lia|exact Z0].
Qed.

Lemma low7_digits l : low7 l -> digits 256 l.
Proof. apply Forall_impl. intros; lia. Qed.

Lemma blanks_lost_low l : low7 l -> low7 (blanks_lost l).
Proof.
  unfold blanks_lost. induction 1 as [|b l Hb D IH]; [constructor|]. cbn [flat_map].
  destruct (b =? 32); cbn [app]; repeat constructor; auto; lia.
Qed.

Lemma blanks_lost_length l : (List.length (blanks_lost l) <= 2 * List.length l)%nat.
Proof.
  unfold blanks_lost. induction l as [|b l IH]; [cbn; lia|]. cbn [flat_map]. rewrite app_length. cbn [List.length].
  destruct (b =? 32); cbn [List.length]; lia.
Qed.

Lemma low7_value l : low7 l -> 0 <= complement 256 l < 256 ^ Z.of_nat (List.length l).
Proof.
  intros L. pose proof (pos_bound 256 ltac:(lia) l (low7_digits l L)) as B. unfold bp in B. unfold complement.
  replace (256 <=? 2 * last l 0) with false; [lia|]. symmetry. apply Z.leb_gt.
  assert (last l 0 < 128); [|lia]. clear B. induction L as [|b l Hb L IH]; [cbn; lia|]. destruct l; [cbn; lia|exact IH].
Qed.

Lemma text_small v n : 0 <= v < 256 ^ Z.of_nat n -> Z.of_nat n <= 2 ^ 29 -> text v = Ret v.
Proof.
  intros H Hn. change (2 ^ 29) with 536870912 in Hn. unfold text.
  replace (v <=? - 2 ^ 31) with false by (symmetry; apply Z.leb_gt; change (2 ^ 31) with 2147483648; lia). cbn [andb].
  replace (214748364 <? limbs_of v) with false; [reflexivity|]. symmetry. apply Z.ltb_ge. unfold limbs_of. rewrite Z.abs_eq by lia.
  assert (Z.log2 v <= 8 * Z.of_nat n) as L.
  { destruct (Z.eq_dec v 0) as [->|]; [change (Z.log2 0) with 0; lia|].
    change 256 with (2 ^ 8) in H. rewrite <- Z.pow_mul_r in H by lia.
    assert (Z.log2 v < 8 * Z.of_nat n); [|lia]. apply Z.log2_lt_pow2; lia. }
  assert (Z.log2 v / 32 <= 134217728); [|lia]. apply Z.div_le_upper_bound; lia.
Qed.

Lemma operand_range l : low7 l -> Z.of_nat (List.length l) <= 2 ^ 28 -> 0 <= operand l /\ text (operand l) = Ret (operand l).
Proof.
  intros L N. pose proof (low7_value _ (blanks_lost_low l L)) as V. pose proof (blanks_lost_length l) as B.
  change (2 ^ 28) with 268435456 in N. unfold operand. split; [lia|].
  apply (text_small _ _ V). change (2 ^ 29) with 536870912. lia.
Qed.

Lemma same_text_ok v : text v = Ret v -> same_text v v = Ret true.
Proof. intros H. unfold same_text. rewrite H. cbn [bind]. now rewrite Z.eqb_refl. Qed.

(** A printed operand followed by more. *)
Lemma verdict_operand fuel c outs l rest st : low7 l -> Z.of_nat (List.length l) <= 2 ^ 28 ->
  verdict fuel c outs (tokens (print_bytes l ++ rest)) None st = verdict fuel c outs (tokens rest) None (operand l :: st).
Proof.
  intros L N. rewrite (verdict_print fuel c outs l rest st (low7_digits l L)). cbv zeta. fold (operand l).
  destruct (operand_range l L N) as (_ & T). now rewrite (same_text_ok _ T).
Qed.

Lemma print_no_log l rest t : digits 256 l -> takes_log t -> In t (tokens (print_bytes l ++ rest)) -> In t (tokens rest).
Proof.
  intros L T H. rewrite (tokens_print l rest L) in H.
  assert (t <> "make" /\ t <> "endmake" /\ (String.length t > 1)%nat)%string as (N1 & N2 & N3).
  { unfold takes_log in T. destruct T as [->|[->| ->]]; repeat split; try discriminate; cbn; lia. }
  destruct H as [H|H]; [congruence|]. apply in_app_or in H as [H|[H|H]]; [|congruence|exact H].
  exfalso. apply in_flat_map in H as (b & _ & H). unfold tokens_of in H.
  destruct (b =? 32); cbn [In] in H; intuition (subst t; cbn in N3; lia).
Qed.

Lemma tokens_two l1 l2 op : low7 l1 -> low7 l2 -> forall t,
  In t (tokens (print_bytes l1 ++ print_bytes l2 ++ op)) -> takes_log t -> In t (tokens op).
Proof.
  intros L1 L2 t H T. apply (print_no_log l2 op t (low7_digits _ L2) T), (print_no_log l1 _ t (low7_digits _ L1) T), H.
Qed.

Lemma verify_two fuel c s1 m1 s2 m2 outs l1 l2 op : strict c = false -> low7 l1 -> low7 l2 ->
  Z.of_nat (List.length l1) <= 2 ^ 28 -> Z.of_nat (List.length l2) <= 2 ^ 28 ->
  (forall t, In t (tokens op) -> ~ takes_log t) ->
  verify fuel c s1 m1 s2 m2 outs (print_bytes l1 ++ print_bytes l2 ++ op) =
  verdict fuel c outs (tokens op) None [operand l2; operand l1].
Proof.
  intros Hc L1 L2 N1 N2 HL. rewrite (verify_exact fuel c s1 m1 s2 m2 outs _ Hc).
  - rewrite (verdict_operand fuel c outs l1 _ [] L1 N1). now apply verdict_operand.
  - intros t H T. apply (HL t); [|exact T]. exact (tokens_two l1 l2 op L1 L2 t H T).
Qed.

Lemma text_lower v w : text w = Ret w -> 0 <= v <= w -> text v = Ret v.
Proof.
  unfold text. intros H B.
  replace (v <=? - 2 ^ 31) with false by (symmetry; apply Z.leb_gt; change (2 ^ 31) with 2147483648; lia). cbn [andb].
  destruct (Z.ltb_spec 214748364 (limbs_of w)) as [|S]; [discriminate|].
  replace (214748364 <? limbs_of v) with false; [reflexivity|]. symmetry. apply Z.ltb_ge.
  unfold limbs_of in *. rewrite Z.abs_eq in * by lia. pose proof (Z.log2_le_mono v w ltac:(lia)) as M.
  pose proof (Z.div_le_mono _ _ 32 ltac:(lia) M). lia.
Qed.

(** The tests of div_rem with random operands. *)
Lemma divrem_random fuel c s1 m1 s2 m2 l1 l2 : strict c = false -> low7 l1 -> low7 l2 ->
  Z.of_nat (List.length l1) <= 2 ^ 28 -> Z.of_nat (List.length l2) <= 2 ^ 28 ->
  verify fuel c s1 m1 s2 m2 true (print_bytes l1 ++ print_bytes l2 ++ "bDivRem") =
  if operand l1 =? 0 then Throw DivideByZero else Ret true.
Proof.
  intros Hc L1 L2 N1 N2. rewrite verify_two; auto.
  2: { intros t [<-|[]] T. unfold takes_log in T. destruct T as [T|[T|T]]; discriminate. }
  destruct (operand_range l1 L1 N1) as (P1 & T1). destruct (operand_range l2 L2 N2) as (P2 & T2).
  change (tokens "bDivRem") with ["bDivRem"%string]. cbn [verdict starts_with Ascii.eqb Bool.eqb].
  change (lookup (lib_binary_table fuel c) "bDivRem") with (Some (divided Z.quot)).
  change (lookup binary_table "bDivRem") with (Some (Z.quot, nonzero)). cbv beta iota.
  unfold divided. destruct (Z.eqb_spec (operand l1) 0) as [E|E]; [reflexivity|]. cbn [bind].
  rewrite same_text_ok.
  2: { apply (text_lower _ (operand l2) T2). rewrite Z.quot_div_nonneg by lia. split; [apply Z.div_pos; lia|].
       apply Z.div_le_upper_bound; [lia|]. nia. }
  cbn [bind negb].
  replace (lib_second_result "bDivRem" (operand l2) (operand l1) =? second_result "bDivRem" (operand l2) (operand l1)) with true.
  2: { symmetry. apply Z.eqb_eq. unfold lib_second_result, second_result. cbn [String.eqb Ascii.eqb Bool.eqb].
       unfold divmod_rem. cbv zeta. replace (operand l2 <=? - 2 ^ 31) with false by (symmetry; apply Z.leb_gt; change (2 ^ 31) with 2147483648; lia).
       reflexivity. }
  cbn [negb]. rewrite andb_false_r. reflexivity.
Qed.

Lemma same_samples {E} samples (get : E -> outcome (list Z)) run op e l : get e = Ret l ->
  two_operand_samples (S samples) get run op e =
  (ok <- run (print_bytes l ++ print_bytes l ++ op)%string ;; Ret ok).
Proof.
  intros H. induction samples as [|samples IH].
  - cbn [two_operand_samples]. rewrite H. cbn [bind]. destruct (run _) as [ok| | | |]; cbn [bind]; auto. now rewrite andb_true_r.
  - change (two_operand_samples (S (S samples)) get run op e) with
      (a1 <- get e ;; a2 <- get e ;; ok <- run (print_bytes a1 ++ print_bytes a2 ++ op)%string ;;
       rest <- two_operand_samples (S samples) get run op e ;; Ret (ok && rest)).
    rewrite IH, H. cbn [bind]. destruct (run _) as [ok| | | |]; cbn [bind]; auto. now rewrite andb_diag.
Qed.

Lemma divrem_samples {E} (draw : E -> Z -> Z -> Z * E) samples copied tries fuel c s1 m1 s2 m2 lo hi e l :
  strict c = false -> in_bounds draw -> lo <= hi <= 2 ^ 28 ->
  any_size_bytes draw copied tries lo hi e = Ret l ->
  two_operand_samples (S samples) (any_size_bytes draw copied tries lo hi) (verify fuel c s1 m1 s2 m2 true) "bDivRem" e =
  if operand l =? 0 then Throw DivideByZero else Ret true.
Proof.
  intros Hc B H R. rewrite (same_samples samples _ _ _ e l R).
  destruct (any_size_low draw copied tries lo hi e l B (proj1 H) R) as (L & N & _).
  assert (Z.of_nat (List.length l) <= 2 ^ 28) as N' by (change (2 ^ 28) with 268435456 in *; lia).
  rewrite (divrem_random fuel c s1 m1 s2 m2 l l Hc L L N' N'). destruct (operand l =? 0); reflexivity.
Qed.

(** When an array becomes 0. *)
Lemma operand_zero l : low7 l -> (operand l = 0 <-> Forall (fun b => b = 0 \/ b = 32) l).
Proof.
  intros L. unfold operand.
  assert (forall l, low7 l -> (complement 256 l = 0 <-> Forall (fun b => b = 0) l)) as K.
  { clear. intros l L. split.
    - intros H. induction L as [|b l Hb L IH]; [constructor|]. destruct l as [|d l].
      + constructor; [|constructor]. pose proof (complement_hd b [] ltac:(lia)) as M. rewrite H in M. symmetry. exact M.
      + pose proof (complement_hd b (d :: l) ltac:(lia)) as M. rewrite H in M. change (0 mod 256) with 0 in M.
        rewrite complement_cons in H by discriminate. constructor; [lia|]. apply IH. lia.
    - induction 1 as [|b l -> F IH]; [reflexivity|]. destruct l as [|d l]; [reflexivity|].
      rewrite complement_cons by discriminate. inversion L. rewrite IH by assumption. reflexivity. }
  rewrite (K _ (blanks_lost_low l L)). unfold blanks_lost. clear K. induction L as [|b l Hb L IH]; [split; constructor|].
  cbn [flat_map]. rewrite Forall_app, IH. destruct (Z.eqb_spec b 32) as [->|N].
  - split; [intros (_ & F); constructor; auto|]. intros F. inversion F. split; [repeat constructor|assumption].
  - split; [intros (F1 & F); inversion F1; constructor; auto|]. intros F. inversion F as [|? ? [->|C]]; [|congruence]. split; [repeat constructor|assumption].
Qed.

(** ** Any two printed operands of div_rem *)

Lemma divrem_any fuel c s1 m1 s2 m2 l1 l2 x y : strict c = false -> digits 256 l1 -> digits 256 l2 ->
  operand l2 = x -> operand l1 = y -> text x = Ret x -> text y = Ret y -> y <> 0 -> text (Z.quot x y) = Ret (Z.quot x y) ->
  verify fuel c s1 m1 s2 m2 true (print_bytes l1 ++ print_bytes l2 ++ "bDivRem") =
  if dbg c && negb (divmod_rem x y =? Z.rem x y) then AssertFail else Ret true.
Proof.
  intros Hc D1 D2 Ex Ey Tx Ty Hy Tq. rewrite verify_exact; [|exact Hc|].
  2: { intros t H T. apply (print_no_log _ _ _ D1 T) in H. apply (print_no_log _ _ _ D2 T) in H.
       destruct H as [<-|[]]. destruct T as [T|[T|T]]; discriminate. }
  rewrite (verdict_print fuel c true l1 _ [] D1). cbv zeta. fold (operand l1). rewrite Ey, (same_text_ok y Ty). cbn [bind].
  rewrite (verdict_print fuel c true l2 _ [y] D2). cbv zeta. fold (operand l2). rewrite Ex, (same_text_ok x Tx). cbn [bind].
  change (tokens "bDivRem") with ["bDivRem"%string]. cbn [verdict starts_with Ascii.eqb Bool.eqb].
  change (lookup (lib_binary_table fuel c) "bDivRem") with (Some (divided Z.quot)).
  change (lookup binary_table "bDivRem") with (Some (Z.quot, nonzero)). cbv beta iota.
  unfold divided. destruct (Z.eqb_spec y 0) as [E|E]; [contradiction|]. cbn [bind].
  rewrite (same_text_ok _ Tq). cbn [bind negb]. unfold lib_second_result, second_result. cbn [String.eqb Ascii.eqb Bool.eqb andb].
  destruct (dbg c && negb (divmod_rem x y =? Z.rem x y)); reflexivity.
Qed.

Lemma random_operand {E} (draw : E -> Z -> Z -> Z * E) copied tries lo hi e l :
  in_bounds draw -> lo <= hi -> any_size_bytes draw copied tries lo hi e = Ret l -> low7 l /\ 0 <= operand l.
Proof.
  intros B H R. destruct (any_size_low draw copied tries lo hi e l B H R) as (L & _). split; [exact L|].
  unfold operand. apply (low7_value _ (blanks_lost_low l L)).
Qed.

(** A generator that counts, for examples. *)
Definition counting (e lo hi : Z) : Z * Z := (lo + e mod (hi - lo + 1), e + 1).
Lemma counting_in_bounds : in_bounds counting.
Proof. intros e lo hi H. cbn [counting fst]. pose proof (Z.mod_pos_bound e (hi - lo + 1) ltac:(lia)). lia. Qed.

(** Proves [encodes] of a given string. *)
Ltac encoding :=
  split; [repeat (apply Forall_cons; [split; [discriminate|reflexivity]|]); apply Forall_nil|split; [discriminate|vm_compute; reflexivity]].
