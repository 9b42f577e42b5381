(** Lemmas quoted by PropActual.v: the calls that are undefined; raw add and subtract. *)
From Coq Require Import String.
From Verif Require Import Facts Spec AddSubFacts SpecFacts BigIntFacts SpecApi BigInt BigIntText BigIntBytes BigIntDouble.
From Verif Require Import ArithLaws ApiMem SpecMem MemFacts ApiRun SpecPos SpecText SpecDouble SpecGcd SpecReduce SpecRun PosFacts.
From Verif Require Import WordFacts ShiftFacts ConvLaws BytesFacts ToBytesFacts DoubleFacts TextFacts PowFacts ModPowApi ReducerFacts LargeModPow PowLaws GcdFacts SafeModPow.
From Verif Require Import CalcAddSub RawFacts RunExact SpecModPow SpecActual GcdRegions GcdExact LeakyModPow ActualFacts.

Ltac Zify.zify_post_hook ::= idtac.

(** ** The undefined calls *)

Lemma denotes_undef o z : denotes o z -> ((exists u, o = Undef u) <-> exists u, z = Undef u).
Proof.
  destruct z; cbn [denotes].
  - intros (r & -> & _). split; intros (u & E); discriminate.
  - intros ->. split; intros (u & E); discriminate.
  - intros ->. split; intros (u' & E); injection E as <-; eauto.
  - intros ->. split; intros (u & E); discriminate.
  - intros ->. split; intros (u & E); discriminate.
Qed.

Lemma agrees_undef run m o : agrees run m o -> ((exists u, fst run = Undef u) <-> exists u, o = Undef u).
Proof.
  destruct o; cbn [agrees].
  - intros (m' & -> & _). cbn [fst]. split; intros (u & E); discriminate.
  - intros ->. cbn [fst]. split; intros (u & E); discriminate.
  - intros ->. split; intros (u' & E); injection E as <-; eauto.
  - intros ->. split; intros (u & E); discriminate.
  - intros ->. split; intros (u & E); discriminate.
Qed.

Lemma too_long_gen x n : 2 <= n -> (~ fits_limbs x (n - 1) <-> n <= limbs_of x).
Proof.
  intros Hn. destruct (limbs_of_count x) as (P & F & M). split.
  - intros H. destruct (Z.le_gt_cases n (limbs_of x)) as [G|G]; [exact G|]. exfalso. apply H.
    unfold fits_limbs in *. eapply Z.lt_le_trans; [exact F|]. apply Z.pow_le_mono_r; lia.
  - intros H K. apply M in K; lia.
Qed.
Lemma too_long_iff x : ~ fits_limbs x (2 ^ 26 - 1) <-> 2 ^ 26 <= limbs_of x.
Proof. apply too_long_gen. discriminate. Qed.
Opaque fits_limbs.

Lemma right_shift_undef c x n :
  (exists u, right_shift c x n = Undef u) <-> strict c = true /\ x < 0 /\ ~ fits_limbs x (2 ^ 26 - 1).
Proof.
  unfold right_shift. rewrite too_long_iff.
  destruct (Z.leb_spec 0 x) as [H|H]; [split; [intros (u & E); discriminate|lia]|].
  destruct (strict c); cbn [andb].
  - destruct (Z.leb_spec (2 ^ 26) (limbs_of x)) as [G|G]; [split; eauto|].
    split; [|lia]. intros (u & E). destruct (int_of _ <=? n), (drops_ones x n); discriminate.
  - split; [|intros (E & _); discriminate]. intros (u & E). destruct (int_of _ <=? n), (drops_ones x n); discriminate.
Qed.

Lemma shift_by_undef c x n s r :
  (exists u, keep s r (shift_by c x n) = Undef u) <-> n < 0 /\ strict c = true /\ x < 0 /\ ~ fits_limbs x (2 ^ 26 - 1).
Proof.
  unfold shift_by, keep. destruct (Z.leb_spec 0 n) as [H|H].
  - cbn [bind]. split; [intros (u & E); discriminate|lia].
  - rewrite <- (right_shift_undef c x (- n)).
    destruct (right_shift c x (- n)); cbn [bind]; split; try (intros (u & E); discriminate);
      try (intros (_ & u & E); discriminate); intros; eauto.
Qed.

Lemma quot_rem_undef s d v t :
  (exists u, quot_rem s d v t = Undef u) <-> v = t /\ s v <> 0 /\ both_small (s d) (s v) /\ Z.rem (s d) (s v) = 0.
Proof.
  unfold quot_rem, both_small. cbv zeta. destruct (Z.eqb_spec (s v) 0) as [E|N].
  { split; [intros (u & H); discriminate|tauto]. }
  destruct (Z.ltb_spec (Z.abs (s d)) (2 ^ 31)) as [H1|H1]; cbn [andb];
    [|split; [intros (u & H); discriminate|lia]].
  destruct (Z.ltb_spec (Z.abs (s v)) (2 ^ 31)) as [H2|H2]; [|split; [intros (u & H); discriminate|lia]].
  rewrite set_reread. rewrite stored_rem_plain by (unfold div_rem_bad; change (2 ^ 31) with 2147483648 in *; num; lia).
  unfold reread. destruct (Nat.eqb_spec v t) as [->|Nt].
  - destruct (Z.eqb_spec (Z.rem (s d) (s t)) 0) as [E|E]; [split; eauto; tauto|].
    split; [intros (u & H); discriminate|tauto].
  - rewrite (proj2 (Z.eqb_neq _ _) N). split; [intros (u & H); discriminate|tauto].
Qed.

Lemma raw_minus_undef c l y b neg u : raw_minus c l y b neg <> Undef u.
Proof. unfold raw_minus. cbv zeta. destruct (_ && _); discriminate. Qed.

Ltac no_undef := intros (? & ?E); cbn [bind] in *; discriminate.

Lemma raw_sum_undef c a s1 b s2 :
  (exists u, raw_sum c a s1 b s2 = Undef u) <->
  strict c = true /\ (a = [] /\ b <> [] /\ s1 = - 2 ^ 31 \/ a <> [] /\ b = [] /\ s2 = - 2 ^ 31).
Proof.
  unfold raw_sum. cbv zeta. destruct a as [|d a], b as [|d' b].
  - split; [no_undef|]. intros (_ & [(_ & H & _)|(H & _)]); now destruct H.
  - destruct (strict c); cbn [andb]; [|split; [no_undef|intros (H & _); discriminate]].
    destruct (Z.eqb_spec s1 (- 2 ^ 31)); split; eauto; try no_undef.
    + intros _. split; [reflexivity|]. left. repeat split; [discriminate|assumption].
    + intros (_ & [(_ & _ & H)|(H & _)]); [contradiction|now destruct H].
  - destruct (strict c); cbn [andb]; [|split; [no_undef|intros (H & _); discriminate]].
    destruct (Z.eqb_spec s2 (- 2 ^ 31)); split; eauto; try no_undef.
    + intros _. split; [reflexivity|]. right. repeat split; [discriminate|assumption].
    + intros (_ & [(H & _)|(_ & _ & H)]); [discriminate|contradiction].
  - split; [no_undef|]. intros (_ & [(H & _)|(_ & H & _)]); discriminate.
Qed.

Lemma raw_diff_undef c a s1 b s2 :
  (exists u, raw_diff c a s1 b s2 = Undef u) <->
  strict c = true /\ (a = [] /\ b <> [] /\ s1 = - 2 ^ 31 \/ a <> [] /\ b = [] /\ s2 = - 2 ^ 31).
Proof.
  unfold raw_diff. destruct a as [|d a], b as [|d' b].
  - split; [no_undef|]. intros (_ & [(_ & H & _)|(H & _)]); now destruct H.
  - destruct (strict c); cbn [andb].
    2: { split; [intros (u & H); now apply raw_minus_undef in H|intros (H & _); discriminate]. }
    destruct (Z.eqb_spec s1 (- 2 ^ 31)); split; eauto.
    + intros _. split; [reflexivity|]. left. repeat split; [discriminate|assumption].
    + intros (u & H). now apply raw_minus_undef in H.
    + intros (_ & [(_ & _ & H)|(H & _)]); [contradiction|now destruct H].
  - destruct (strict c); cbn [andb].
    2: { split; [intros (u & H); now apply raw_minus_undef in H|intros (H & _); discriminate]. }
    destruct (Z.eqb_spec s2 (- 2 ^ 31)); split; eauto.
    + intros _. split; [reflexivity|]. right. repeat split; [discriminate|assumption].
    + intros (u & H). now apply raw_minus_undef in H.
    + intros (_ & [(H & _)|(_ & _ & H)]); [discriminate|contradiction].
  - split; [|intros (_ & [(H & _)|(_ & H & _)]); discriminate].
    destruct (raw_less _ _); intros (u & H); now apply raw_minus_undef in H.
Qed.

Lemma keep_undef s r o : (exists u, keep s r o = Undef u) <-> exists u, o = Undef u.
Proof. unfold keep. destruct o; cbn [bind]; split; intros (v & E); try discriminate; injection E as <-; eauto. Qed.

Lemma into_undef r o m : (exists u, fst (into r o m) = Undef u) <-> exists u, o = Undef u.
Proof. destruct o; cbn; split; intros (v & E); try discriminate; injection E as <-; eauto. Qed.

Lemma actual_gcd_undef fuel debug x y :
  (exists u, actual_gcd fuel debug x y = Undef u) <->
  debug = false /\ lost fuel (Z.max (Z.abs x) (Z.abs y)) (Z.min (Z.abs x) (Z.abs y)).
Proof. apply rounds_undef. Qed.

Lemma raw_gcd_undef fuel c a b : limbs b ->
  (exists u, raw_gcd fuel c a b = Undef u) <->
  (length b = 2%nat /\ last b 0 = 0 /\ (dbg c = true -> raw_less a b = false)) \/
  dbg c = false /\
  ((length a < 2 /\ length b = 2)%nat \/
   (3 <= length b)%nat /\ ((length a < 2)%nat /\ 0 < number b < 2 ^ 64 \/ lost fuel (number a) (number b))).
Proof.
  intros Lb. unfold raw_gcd. cbv zeta. destruct (dbg c && raw_less a b) eqn:RL.
  { apply andb_prop in RL as [D R]. split; [no_undef|]. intros [(_ & _ & H)|(H & _)]; [specialize (H D)|]; congruence. }
  assert (dbg c = true -> raw_less a b = false) as RL' by (intros D; rewrite D in RL; exact RL).
  destruct b as [|b0 [|b1 [|b2 b]]].
  - split; [destruct (dbg c); no_undef|]. intros [(H & _)|(_ & [(_ & H)|(H & _)])]; cbn [length] in H; lia.
  - split; [destruct a; [no_undef|]; destruct (_ =? _); no_undef|]. intros [(H & _)|(_ & [(_ & H)|(H & _)])]; cbn [length] in H; lia.
  - cbn [last length]. destruct (Z.eqb_spec b1 0) as [E|E]; [split; eauto|].
    destruct (Nat.ltb_spec (length a) 2) as [G|G].
    + split; [|eauto]. intros _. right. split; [|auto].
      destruct (dbg c); [|reflexivity]. specialize (RL' eq_refl). unfold raw_less in RL'. apply Bool.orb_false_elim in RL' as [R _].
      apply Nat.ltb_ge in R. cbn [length] in R. lia.
    + split; [no_undef|]. intros [(_ & H & _)|(_ & [(H & _)|(H & _)])]; try contradiction; lia.
  - set (l := b0 :: b1 :: b2 :: b) in *. assert (3 <= length l)%nat as L3 by (cbn [length l]; lia). clearbody l.
    destruct (dbg c) eqn:D; cbn [andb].
    + assert (2 <= length a)%nat as G.
      { specialize (RL' eq_refl). unfold raw_less in RL'. apply Bool.orb_false_elim in RL' as [R _]. apply Nat.ltb_ge in R. lia. }
      split; [|intros [(H & _)|(H & _)]; [lia|discriminate]].
      destruct (_ || _); [no_undef|]. rewrite (proj2 (Nat.ltb_ge (length a) 2)) by lia. cbn [andb].
      intros H. apply rounds_undef in H as (H & _). discriminate.
    + destruct (Nat.ltb (length a) 2 && (0 <? number l) && (number l <? 2 ^ 64)) eqn:S1.
      * apply andb_prop in S1 as [S1 S3]. apply andb_prop in S1 as [S1 S2]. apply Nat.ltb_lt in S1. apply Z.ltb_lt in S2, S3.
        split; [intros _|eauto]. right. split; [reflexivity|]. right. auto.
      * rewrite rounds_undef. fold (lost fuel (number a) (number l)). split.
        -- intros (_ & H). right. split; [reflexivity|]. right. auto.
        -- intros [(H & _)|(_ & [(_ & H)|(_ & [(H1 & H2 & H3)|H])])]; try lia; [|auto].
           apply Nat.ltb_lt in H1. apply Z.ltb_lt in H2, H3. rewrite H1, H2, H3 in S1. discriminate.
Qed.

Lemma actual_undef fuel c s k :
  typed k -> (forall r p e m, k <> ModPow r p e m) -> ((exists u, actual fuel c s k = Undef u) <-> undefined_call fuel c s k).
Proof.
  intros T NM. destruct k; cbn [actual undefined_call]; cbv zeta;
    try (split; [no_undef|contradiction]); try apply shift_by_undef;
    try (rewrite shift_by_undef; split; (intros (? & ?); split; [lia|assumption]));
    try (destruct (div_op o && _); split; [no_undef|contradiction|no_undef|contradiction]).
  - destruct (strict c); cbn [andb]; [|split; [no_undef|intros (H & _); discriminate]].
    destruct (Z.eqb_spec v (- 2 ^ 63)); split; eauto; [no_undef|tauto].
  - destruct (_ =? _); split; try no_undef; contradiction.
  - destruct (strict c); cbn [andb]; [|split; [no_undef|intros (H & _); discriminate]].
    destruct (Z.ltb_spec (bytes_value isUnsigned isBigEndian bytes) 0); cbn [andb]; [|split; [no_undef|lia]].
    destruct (Nat.leb_spec (length bytes) 4); split; eauto; [no_undef|lia].
  - rewrite <- quot_rem_undef. destruct (quot_rem s dividend divisor remainder) as [(q & s')| | | |]; cbn [bind];
      split; intros (w & E); try discriminate; injection E as <-; eauto.
  - destruct (_ <? 0); [split; [no_undef|contradiction]|]. destruct (_ && _); split; try no_undef; contradiction.
  - exfalso. eapply NM. reflexivity.
  - rewrite keep_undef. apply actual_gcd_undef.
  - rewrite keep_undef. apply raw_gcd_undef, T.
  - rewrite keep_undef. apply raw_sum_undef.
  - rewrite keep_undef. apply raw_diff_undef.
Qed.

Theorem undefined_exactly fuel c s k m :
  typed k -> stands_for m s ->
  ((exists u, fst (run_cmd fuel c k m) = Undef u) <-> undefined_call fuel c s k).
Proof.
  intros T ST.
  assert ((forall r p e z, k <> ModPow r p e z) ->
    ((exists u, fst (run_cmd fuel c k m) = Undef u) <-> undefined_call fuel c s k)) as OT.
  { intros NM. rewrite (agrees_undef _ _ _ (agrees_cmd fuel c s k m T ST)). now apply actual_undef. }
  destruct k; try (apply OT; discriminate).
  cbn [run_cmd undefined_call]. mem_reads. rewrite into_undef. rename value into p, modulus into z, exponent into e.
  destruct (Z.lt_ge_cases (s e) 0) as [L|L].
  - rewrite (mod_pow_negative c (m p) (m e) (m z) (s p) (s e) (s z)) by (auto; lia). split; [no_undef|lia].
  - rewrite (mod_pow_undefined_exactly c (m p) (m e) (m z) (s p) (s e) (s z)) by auto. tauto.
Qed.

(** ** The raw overloads on the parts of two objects *)

Lemma parts_of a x : represents a x ->
  limbs (bits_of a) /\ is_int (sign_of a) /\ sign_of a <> - 2 ^ 31 /\ (sign_of a <? 0) = (x <? 0) /\
  match bits_of a with
  | [] => sign_of a = x /\ Z.abs x < 2 ^ 31
  | l => number l = Z.abs x /\ top_nz l /\ 2 ^ 31 <= Z.abs x
  end.
Proof.
  intros Ha. destruct Ha as (C & V). unfold is_int, number.
  destruct (bits_of a) as [|d l] eqn:E.
  - unfold canonical, value in C, V. rewrite E in C, V. subst x. change (2 ^ 31) with 2147483648 in *.
    repeat split; try lia. constructor.
  - rewrite <- val_positional. unfold canonical in C. rewrite E in C. destruct C as (C1 & C2 & C3 & C4). unfold value in V. rewrite E in V.
    rewrite magnitude_val in *. rewrite last_nth in C3. change (2 ^ 31) with 2147483648 in *.
    split; [exact C2|]. split; [lia|]. split; [lia|]. split.
    { destruct C1 as [C1|C1]; rewrite C1 in *; destruct (Z.ltb_spec x 0); try lia; reflexivity. }
    assert (val (d :: l) = Z.abs x) as A by (destruct C1 as [C1|C1]; rewrite C1 in V; lia).
    repeat split; [exact A|exact C3|lia].
Qed.

Lemma strict_off c s : s <> - 2 ^ 31 -> strict c && (s =? - 2 ^ 31) = false.
Proof. intros H. rewrite (proj2 (Z.eqb_neq _ _) H). apply Bool.andb_false_r. Qed.

Lemma add_parts_of c a b x y :
  represents a x -> represents b y ->
  returns (bi_add_parts c (bits_of a) (sign_of a) (bits_of b) (sign_of b))
    (if (Z.abs x <? 2 ^ 31) && (Z.abs y <? 2 ^ 31) then x + y
     else if x <? 0 then - (Z.abs x + Z.abs y) else Z.abs x + Z.abs y).
Proof.
  intros Ha Hb. destruct (parts_of a x Ha) as (A1 & A2 & A3 & A4 & A5). destruct (parts_of b y Hb) as (B1 & B2 & B3 & B4 & B5).
  pose proof (add_parts_exact c _ _ _ _ A1 B1 A2 B2) as D. unfold raw_sum in D. cbv zeta in D. rewrite A4, !strict_off in D by assumption.
  destruct (bits_of a) as [|d l], (bits_of b) as [|d' l']; cbn [denotes] in D.
  - destruct A5 as (<- & A5), B5 as (<- & B5). apply Z.ltb_lt in A5, B5. rewrite A5, B5. exact D.
  - destruct A5 as (<- & _), B5 as (<- & _ & B5). rewrite (proj2 (Z.ltb_ge _ _) B5), Bool.andb_false_r.
    rewrite Z.add_comm in D. exact D.
  - destruct A5 as (<- & _ & A5), B5 as (<- & _). rewrite (proj2 (Z.ltb_ge _ _) A5). exact D.
  - destruct A5 as (<- & _ & A5), B5 as (<- & _). rewrite (proj2 (Z.ltb_ge _ _) A5). exact D.
Qed.

Lemma raw_minus_plain c l y b (neg : bool) : limbs l -> 0 <= y <= number l ->
  raw_minus c l y b neg = Ret (if neg then - (number l - y) else number l - y).
Proof.
  unfold raw_minus, number. rewrite <- val_positional. cbv zeta. intros H Hy. rewrite (proj2 (Z.ltb_ge _ _)) by lia.
  rewrite Bool.andb_false_r. pose proof (val_bound l H) as B. rewrite ConvFacts.Bp_pow2 in B.
  rewrite Z.mod_small by lia. reflexivity.
Qed.

Lemma raw_less_iff l l' : limbs l -> limbs l' -> l <> [] -> l' <> [] -> top_nz l -> top_nz l' ->
  raw_less l l' = (number l <? number l').
Proof.
  unfold raw_less, number. rewrite <- !val_positional. intros L L' N N' T T'.
  pose proof (val_bound l L). pose proof (val_bound l' L'). pose proof (top_nz_bound l L N T). pose proof (top_nz_bound l' L' N' T').
  destruct (Nat.ltb_spec (length l) (length l')) as [G|G]; cbn [orb].
  - symmetry. apply Z.ltb_lt. assert (Bp (length l) <= Bp (length l' - 1)) by (rewrite !ConvFacts.Bp_pow2; apply Z.pow_le_mono_r; lia). lia.
  - destruct (Nat.eqb_spec (length l) (length l')) as [E|E]; cbn [andb]; [reflexivity|].
    symmetry. apply Z.ltb_ge. assert (Bp (length l') <= Bp (length l - 1)) by (rewrite !ConvFacts.Bp_pow2; apply Z.pow_le_mono_r; lia). lia.
Qed.

Lemma sub_parts_of c a b x y :
  represents a x -> represents b y ->
  returns (bi_sub_parts c (bits_of a) (sign_of a) (bits_of b) (sign_of b))
    (if (Z.abs x <? 2 ^ 31) && (Z.abs y <? 2 ^ 31) then x - y
     else if x <? 0 then - (Z.abs x - Z.abs y) else Z.abs x - Z.abs y).
Proof.
  intros Ha Hb. destruct (parts_of a x Ha) as (A1 & A2 & A3 & A4 & A5). destruct (parts_of b y Hb) as (B1 & B2 & B3 & B4 & B5).
  pose proof (sub_parts_exact c _ _ _ _ A1 B1 A2 B2) as D. unfold raw_diff in D.
  assert ((0 <=? sign_of a) = negb (x <? 0)) as A6 by (rewrite Z.leb_antisym, A4; reflexivity).
  rewrite A4, A6, !strict_off in D by assumption.
  destruct (bits_of a) as [|d l], (bits_of b) as [|d' l'].
  - cbn [denotes] in D. destruct A5 as (<- & A5), B5 as (<- & B5). apply Z.ltb_lt in A5, B5. rewrite A5, B5. exact D.
  - destruct A5 as (E & A5), B5 as (F & _ & B5). rewrite (proj2 (Z.ltb_ge _ _) B5), Bool.andb_false_r.
    rewrite E, raw_minus_plain, F in D by (auto; lia). cbn [denotes] in D. rewrite <- E in D at 1.
    destruct (x <? 0); cbn [negb] in D; [replace (- (Z.abs x - Z.abs y)) with (Z.abs y - Z.abs x) by lia; exact D|].
    replace (Z.abs x - Z.abs y) with (- (Z.abs y - Z.abs x)) by lia. exact D.
  - destruct A5 as (E & _ & A5), B5 as (F & B5). rewrite (proj2 (Z.ltb_ge _ _) A5). cbn [andb].
    rewrite F, raw_minus_plain, E in D by (auto; lia). rewrite <- F in D at 1. exact D.
  - destruct A5 as (E & T & A5), B5 as (F & T' & B5). rewrite (proj2 (Z.ltb_ge _ _) A5). cbn [andb].
    rewrite raw_less_iff, E, F in D by (auto; discriminate). destruct (Z.ltb_spec (Z.abs x) (Z.abs y)) as [G|G].
    + rewrite raw_minus_plain, F in D by (auto; lia). cbn [denotes] in D.
      destruct (x <? 0); cbn [negb] in D; [replace (- (Z.abs x - Z.abs y)) with (Z.abs y - Z.abs x) by lia; exact D|].
      replace (Z.abs x - Z.abs y) with (- (Z.abs y - Z.abs x)) by lia. exact D.
    + rewrite raw_minus_plain, E in D by (auto; lia). exact D.
Qed.
