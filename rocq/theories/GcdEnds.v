(** The loop of greatest_common_divisor ends within a bound or never. *)
From Verif Require Import Facts Spec SpecPos SpecGcd SpecGcdEnds BigInt CalcGcd GcdExact GcdFacts SpecFacts SpecApi SpecActual ApiMem ApiRun SpecRun ActualFacts LeakyModPow SpecWinRun WinBigInt WinRunFacts WinGcdExact.

Ltac Zify.zify_post_hook ::= idtac.

(** One round, without what is above the lengths. *)
Definition round_xy (debug : bool) (x y : Z) : outcome (Z * Z) :=
  '(x, _, y, _) <- gcd_round debug x 0 y 0 ;; Ret (x, y).

Lemma round_any debug x i y j :
  match round_xy debug x y with
  | Ret (x', y') => exists i' j', gcd_round debug x i y j = Ret (x', i', y', j')
  | o => gcd_round debug x i y j = match o with Throw e => Throw e | Undef u => Undef u | AssertFail => AssertFail | _ => NoFuel end
  end.
Proof.
  unfold round_xy, gcd_round. destruct (x <? 2 ^ 64); [destruct debug; reflexivity|].
  destruct (debug && _); [reflexivity|]. destruct (cofactor x y) as (n & b). destruct (b =? 0); [cbn [bind]; eauto|].
  cbv zeta. destruct (Z.odd n); cbn [bind]; eauto.
Qed.

(** Whether the loop is still running after [n] rounds. *)
Fixpoint runs (n : nat) (debug : bool) (x y : Z) : bool :=
  if y <? 2 ^ 64 then false
  else match n with
       | O => true
       | S n => match round_xy debug x y with Ret (x, y) => runs n debug x y | _ => false end
       end.

Lemma round_no_fuel debug x y : round_xy debug x y <> NoFuel.
Proof.
  unfold round_xy, gcd_round. destruct (x <? 2 ^ 64); [destruct debug; discriminate|].
  destruct (debug && _); [discriminate|]. destruct (cofactor x y) as (n & b). destruct (b =? 0); [discriminate|].
  cbv zeta. destruct (Z.odd n); discriminate.
Qed.

Lemma runs_spec n debug : forall x i y j, runs n debug x y = true <-> gcd_rounds n debug x i y j = NoFuel.
Proof.
  induction n as [|n IH]; intros x i y j; cbn [runs gcd_rounds]; destruct (y <? 2 ^ 64).
  - split; discriminate.
  - split; reflexivity.
  - split; discriminate.
  - pose proof (round_any debug x i y j) as R. pose proof (round_no_fuel debug x y) as N.
    destruct (round_xy debug x y) as [(x1 & y1)| | | |]; try (rewrite R; cbn [bind]; split; discriminate); [|congruence].
    destruct R as (i1 & j1 & ->). cbn [bind]. apply IH.
Qed.

Lemma clobbered_small x m : 1 <= m -> 0 <= x -> 0 <= clobbered x m < 2 ^ (32 * m).
Proof.
  intros Hm Hx. unfold clobbered.
  assert (2 ^ (32 * m) = 2 ^ 32 * 2 ^ (32 * (m - 1))) as E by (rewrite <- Z.pow_add_r by lia; f_equal; lia).
  pose proof (Z.pow_pos_nonneg 2 (32 * (m - 1)) ltac:(lia) ltac:(lia)) as P.
  set (p := 2 ^ (32 * (m - 1))) in *. change (2 ^ 32) with 4294967296 in *.
  pose proof (Z.mod_pos_bound m 4294967296 ltac:(lia)) as M.
  pose proof (Z.mod_pos_bound x 4294967296 ltac:(lia)) as L.
  assert (x mod 2 ^ (32 * m) = x mod 4294967296 + 4294967296 * ((x / 4294967296) mod p)) as D by (rewrite E; apply Z.rem_mul_r; lia).
  pose proof (Z.mod_pos_bound (x / 4294967296) p P). rewrite D, E. nia.
Qed.

Lemma limbs_pow x : 0 < x -> 2 ^ (32 * (limbs_of x - 1)) <= x < 2 ^ (32 * limbs_of x).
Proof.
  intros H. unfold limbs_of. rewrite Z.abs_eq by lia. pose proof (Z.log2_spec x H) as (A & B).
  pose proof (Z.log2_nonneg x). pose proof (Z.div_mod (Z.log2 x) 32 ltac:(lia)) as D. pose proof (Z.mod_pos_bound (Z.log2 x) 32 ltac:(lia)).
  split.
  - eapply Z.le_trans; [|exact A]. apply Z.pow_le_mono_r; lia.
  - eapply Z.lt_le_trans; [exact B|]. apply Z.pow_le_mono_r; lia.
Qed.

Lemma cofactor_short x y : limbs_of x < limbs_of y -> cofactor x y = (0, 0).
Proof.
  intros H. unfold cofactor, leading. replace (limbs_of x <? limbs_of y) with true by (symmetry; apply Z.ltb_lt; exact H). reflexivity.
Qed.

Definition size (x y : Z) : Z := Z.log2 x + Z.log2 y.

(** A round ends the loop, makes the operands smaller, or leaves or exchanges them. *)
Lemma round_cases debug x y x' y' : 0 <= x -> 2 ^ 64 <= y -> round_xy debug x y = Ret (x', y') ->
  0 <= x' /\ 0 <= y' /\
  (size x' y' < size x y \/ y' < 2 ^ 64 \/ (x' = x /\ y' = y) \/ (x' = y /\ y' = x)).
Proof.
  intros Hx Hy R. change (2 ^ 64) with 18446744073709551616 in *.
  unfold round_xy, gcd_round in R. change (2 ^ 64) with 18446744073709551616 in R.
  destruct (Z.ltb_spec x 18446744073709551616) as [|Lx]; [destruct debug; discriminate|].
  destruct (debug && _); [discriminate|]. destruct (cofactor x y) as (n & b) eqn:C.
  destruct (Z.eqb_spec b 0) as [->|B].
  - cbn [bind] in R. injection R as <- <-. pose proof (Z.mod_pos_bound x y ltac:(lia)) as M. split; [lia|]. split; [lia|].
    destruct (Z.lt_ge_cases x y) as [L|L].
    + right. right. right. split; [reflexivity|]. apply Z.mod_small. lia.
    + destruct (Z.lt_ge_cases (x mod y) 18446744073709551616) as [S|S]; [right; now left|left].
      unfold size. assert (Z.log2 (x mod y) < Z.log2 x); [|lia].
      assert (2 * (x mod y) < x) as Hh.
      { pose proof (Z.div_mod x y ltac:(lia)) as D. assert (1 <= x / y) by (apply Z.div_le_lower_bound; lia). nia. }
      pose proof (Z.log2_le_mono (2 * (x mod y)) x ltac:(lia)) as Q. rewrite Z.log2_double in Q by lia. lia.
  - cbv zeta in R. set (m := limbs_of y) in *.
    assert (m <= limbs_of x) as Hm.
    { destruct (Z.le_gt_cases m (limbs_of x)) as [|G]; [assumption|]. rewrite (cofactor_short x y G) in C. injection C as <- <-. congruence. }
    pose proof (limbs_of_pos y) as P. fold m in P.
    destruct (Z.eqb_spec (limbs_of x) m) as [E|E].
    + destruct (Z.odd n); cbn [bind] in R; injection R as <- <-; (split; [lia|]); (split; [lia|]); auto 10.
    + pose proof (clobbered_small x m P Hx) as K. pose proof (limbs_pow x ltac:(lia)) as (Lo & _).
      assert (Z.log2 (clobbered x m) < Z.log2 x) as D.
      { destruct (Z.eq_dec (clobbered x m) 0) as [->|Nz].
        - change (Z.log2 0) with 0. apply Z.log2_pos. lia.
        - assert (Z.log2 (clobbered x m) < 32 * m) as U by (apply Z.log2_lt_pow2; lia).
          assert (32 * m <= Z.log2 x); [|lia]. apply Z.log2_le_pow2; [lia|]. eapply Z.le_trans; [|exact Lo]. apply Z.pow_le_mono_r; lia. }
      unfold size. destruct (Z.odd n); cbn [bind] in R; injection R as <- <-; (split; [lia|]); (split; [lia|]); left; lia.
Qed.

Lemma runs_fixed debug x y : 2 ^ 64 <= y -> round_xy debug x y = Ret (x, y) -> forall n, runs n debug x y = true.
Proof.
  intros Hy R. induction n as [|n IH]; cbn [runs]; replace (y <? 2 ^ 64) with false by (symmetry; apply Z.ltb_ge; exact Hy); [reflexivity|].
  rewrite R. exact IH.
Qed.

Lemma runs_cycle debug x y : 2 ^ 64 <= y -> 2 ^ 64 <= x -> round_xy debug x y = Ret (y, x) -> round_xy debug y x = Ret (x, y) ->
  forall n, runs n debug x y = true /\ runs n debug y x = true.
Proof.
  intros Hy Hx R R'. induction n as [|n IH]; cbn [runs];
    replace (y <? 2 ^ 64) with false by (symmetry; apply Z.ltb_ge; exact Hy);
    replace (x <? 2 ^ 64) with false by (symmetry; apply Z.ltb_ge; exact Hx); [auto|].
  rewrite R, R'. tauto.
Qed.

Lemma runs_small n debug x y : y < 2 ^ 64 -> runs n debug x y = false.
Proof. intros H. destruct n; cbn [runs]; replace (y <? 2 ^ 64) with true by (symmetry; apply Z.ltb_lt; exact H); reflexivity. Qed.

Lemma runs_bound debug : forall k x y, 0 <= x -> 0 <= y -> size x y < Z.of_nat k ->
  runs (2 * k) debug x y = true -> forall n, runs n debug x y = true.
Proof.
  induction k as [|k IH]; intros x y Hx Hy Sz H.
  { unfold size in Sz. pose proof (Z.log2_nonneg x). pose proof (Z.log2_nonneg y). lia. }
  destruct (Z.lt_ge_cases y (2 ^ 64)) as [L|L]; [rewrite (runs_small _ debug x y L) in H; discriminate|].
  assert (y <? 2 ^ 64 = false) as Fy by (apply Z.ltb_ge; exact L).
  replace (2 * S k)%nat with (S (S (2 * k))) in H by lia. cbn [runs] in H. rewrite Fy in H.
  destruct (round_xy debug x y) as [(x1 & y1)| | | |] eqn:R; try discriminate.
  destruct (round_cases debug x y x1 y1 Hx L R) as (Hx1 & Hy1 & [D|[D|[(-> & ->)|(-> & ->)]]]).
  - (* smaller *)
    assert (forall n, runs n debug x1 y1 = true) as G.
    { apply IH; [lia|lia|lia|]. revert H.
      assert (forall n x y, runs (S n) debug x y = true -> runs n debug x y = true) as Less.
      { clear. induction n as [|n IHn]; intros x y; cbn [runs]; destruct (y <? 2 ^ 64); try discriminate; [reflexivity|].
        destruct (round_xy debug x y) as [(x1 & y1)| | | |]; try discriminate. apply IHn. }
      apply Less. }
    intros [|n]; cbn [runs]; rewrite Fy; [reflexivity|]. rewrite R. apply G.
  - change (runs (S (2 * k)) debug x1 y1 = true) in H. rewrite (runs_small _ debug x1 y1 D) in H. discriminate.
  - exact (runs_fixed debug x y L R).
  - (* exchanged *)
    destruct (Z.lt_ge_cases x (2 ^ 64)) as [Lx|Lx].
    { rewrite (proj2 (Z.ltb_lt x (2 ^ 64)) Lx) in H. discriminate. }
    assert (x <? 2 ^ 64 = false) as Fx by (apply Z.ltb_ge; exact Lx). rewrite Fx in H.
    destruct (round_xy debug y x) as [(x2 & y2)| | | |] eqn:R2; try discriminate.
    assert (forall n, runs n debug x2 y2 = true) as G.
    { destruct (round_cases debug y x x2 y2 Hy Lx R2) as (Hx2 & Hy2 & [D|[D|[(-> & ->)|(-> & ->)]]]).
      - apply IH; [lia|lia| |exact H]. unfold size in *. lia.
      - rewrite (runs_small _ debug x2 y2 D) in H. discriminate.
      - exact (runs_fixed debug y x Lx R2).
      - intros n. apply (runs_cycle debug x y L Lx R R2). }
    intros [|[|n]]; cbn [runs]; rewrite Fy; [reflexivity| |]; rewrite R, Fx; [reflexivity|]. rewrite R2. apply G.
Qed.

Lemma size_max_min x y : size (Z.max (Z.abs x) (Z.abs y)) (Z.min (Z.abs x) (Z.abs y)) = Z.log2 (Z.abs x) + Z.log2 (Z.abs y).
Proof. unfold size. destruct (Z.le_ge_cases (Z.abs x) (Z.abs y)); [rewrite Z.max_r, Z.min_l by lia|rewrite Z.max_l, Z.min_r by lia]; lia. Qed.

Lemma runs_less debug : forall n m x y, (m <= n)%nat -> runs n debug x y = true -> runs m debug x y = true.
Proof.
  induction n as [|n IHn]; intros [|m] x y L; cbn [runs]; destruct (y <? 2 ^ 64); try discriminate; try reflexivity; [lia|].
  destruct (round_xy debug x y) as [(x1 & y1)| | | |]; try discriminate. apply IHn. lia.
Qed.

Lemma rounds_bound debug x i y j n fuel : 0 <= x -> 0 <= y -> 2 * size x y + 2 <= Z.of_nat n ->
  gcd_rounds n debug x i y j = NoFuel -> gcd_rounds fuel debug x i y j = NoFuel.
Proof.
  intros Hx Hy L H. apply runs_spec. apply runs_spec in H. pose proof (Z.log2_nonneg x). pose proof (Z.log2_nonneg y).
  apply (runs_bound debug (Z.to_nat (size x y + 1)) x y Hx Hy); [unfold size in *; lia|].
  apply (runs_less debug n); [unfold size in *; lia|exact H].
Qed.

Lemma enough debug x y n fuel : rounds_for x y <= Z.of_nat n -> actual_gcd n debug x y = NoFuel -> actual_gcd fuel debug x y = NoFuel.
Proof. unfold actual_gcd, rounds_for. intros L. apply rounds_bound; [lia|lia|]. rewrite size_max_min. lia. Qed.

(** The classification, at the loop. *)
Lemma limbs_mod x m : 0 < x -> limbs_of x = m -> x mod 2 ^ (32 * m) = x.
Proof. intros H <-. apply Z.mod_small. pose proof (limbs_pow x H). lia. Qed.

(** With what is above the lengths. *)
Lemma round_moves debug x i y j x' i' y' j' : 0 <= x -> 2 ^ 64 <= y -> gcd_round debug x i y j = Ret (x', i', y', j') ->
  0 <= x' /\ 0 <= y' /\
  (size x' y' < size x y \/ y' < 2 ^ 64 \/ (x', i', y', j') = (x, i, y, j) \/ (x', i', y', j') = (y, j, x, i)).
Proof.
  intros Hx Hy R. pose proof (round_any debug x i y j) as A.
  destruct (round_xy debug x y) as [(x1 & y1)| | | |] eqn:E; try (rewrite R in A; discriminate).
  destruct A as (i1 & j1 & A). rewrite R in A. injection A as <- <- <- <-.
  destruct (round_cases debug x y x' y' Hx Hy E) as (P & Q & C). split; [exact P|]. split; [exact Q|].
  destruct C as [C|[C|C]]; [now left|right; now left|].
  destruct (Z.lt_ge_cases y' (2 ^ 64)) as [S|S]; [auto|]. right. right.
  unfold gcd_round in R. change (2 ^ 64) with 18446744073709551616 in *.
  destruct (Z.ltb_spec x 18446744073709551616) as [|Lx]; [destruct debug; discriminate|].
  destruct (debug && _); [discriminate|]. destruct (cofactor x y) as (n & b) eqn:Co.
  destruct (Z.eqb_spec b 0) as [->|B].
  - injection R as <- <- <- <-. right. destruct (Z.lt_ge_cases x y) as [L|L].
    + rewrite (Z.mod_small x y) by lia. reflexivity.
    + pose proof (Z.mod_pos_bound x y ltac:(lia)). exfalso. destruct C as [(C1 & C2)|(C1 & C2)]; lia.
  - cbv zeta in R. set (m := limbs_of y) in *. pose proof (limbs_of_pos y) as Pm. fold m in Pm.
    destruct (Z.eqb_spec (limbs_of x) m) as [El|El].
    + rewrite (limbs_mod x m ltac:(lia) El), Z.sub_diag, Z.add_0_r in R. destruct (Z.odd n); injection R as <- <- <- <-; auto.
    + exfalso.
      assert (m <= limbs_of x) as Hm.
      { destruct (Z.le_gt_cases m (limbs_of x)) as [|G]; [assumption|]. rewrite (cofactor_short x y G) in Co. injection Co as <- <-. congruence. }
      pose proof (clobbered_small x m Pm Hx) as K. pose proof (limbs_pow x ltac:(lia)) as (Lo & _).
      assert (2 ^ (32 * m) <= x) by (eapply Z.le_trans; [|exact Lo]; apply Z.pow_le_mono_r; lia).
      pose proof (limbs_pow y ltac:(lia)) as (_ & Up). fold m in Up.
      destruct (Z.odd n); injection R as <- <- <- <-; destruct C as [(C1 & C2)|(C1 & C2)]; lia.
Qed.

Lemma for_ever_runs debug x i y j : for_ever debug x i y j -> forall n, gcd_rounds n debug x i y j = NoFuel.
Proof.
  assert (forall y : Z, 2 ^ 64 <= y -> y <? 2 ^ 64 = false) as F by (intros z Hz; apply Z.ltb_ge; exact Hz).
  induction 1 as [x i y j Hy R|x i y j Hy Hx R R'|x i y j x' i' y' j' Hy R _ IH].
  - induction n as [|n IH]; cbn [gcd_rounds]; rewrite (F y Hy); [reflexivity|]. rewrite R. exact IH.
  - assert (forall n, gcd_rounds n debug x i y j = NoFuel /\ gcd_rounds n debug y j x i = NoFuel) as G.
    { induction n as [|n IH]; cbn [gcd_rounds]; rewrite (F y Hy), (F x Hx); [auto|]. rewrite R, R'. tauto. }
    intros n. apply G.
  - intros [|n]; cbn [gcd_rounds]; rewrite (F y Hy); [reflexivity|]. rewrite R. apply IH.
Qed.

Lemma runs_for_ever debug : forall k x i y j, 0 <= x -> 0 <= y -> size x y < Z.of_nat k ->
  (forall n, gcd_rounds n debug x i y j = NoFuel) -> for_ever debug x i y j.
Proof.
  induction k as [|k IH]; intros x i y j Hx Hy Sz H.
  { unfold size in Sz. pose proof (Z.log2_nonneg x). pose proof (Z.log2_nonneg y). lia. }
  assert (forall x i y j, (forall n, gcd_rounds n debug x i y j = NoFuel) ->
    2 ^ 64 <= y /\ exists x' i' y' j', gcd_round debug x i y j = Ret (x', i', y', j') /\ forall n, gcd_rounds n debug x' i' y' j' = NoFuel) as Step.
  { clear. intros x i y j H. split.
    - specialize (H O). cbn [gcd_rounds] in H. destruct (Z.ltb_spec y (2 ^ 64)); [discriminate|lia].
    - pose proof (round_no_fuel debug x y) as N. pose proof (round_any debug x i y j) as A.
      pose proof (H 1%nat) as H1. cbn [gcd_rounds] in H1. destruct (y <? 2 ^ 64) eqn:E; [discriminate|].
      destruct (round_xy debug x y) as [(x1 & y1)| | | |]; try (rewrite A in H1; discriminate); [|congruence].
      destruct A as (i1 & j1 & A). exists x1, i1, y1, j1. split; [exact A|]. intros n. specialize (H (S n)). cbn [gcd_rounds] in H.
      rewrite E, A in H. exact H. }
  destruct (Step x i y j H) as (Ly & x1 & i1 & y1 & j1 & R & H1).
  destruct (Step x1 i1 y1 j1 H1) as (Ly1 & x2 & i2 & y2 & j2 & R2 & H2).
  destruct (round_moves debug x i y j x1 i1 y1 j1 Hx Ly R) as (Hx1 & Hy1 & [D|[D|[E|E]]]).
  - eapply later; [exact Ly|exact R|]. apply IH; [lia|lia|lia|exact H1].
  - lia.
  - injection E as -> -> -> ->. apply unchanged; [exact Ly|exact R].
  - injection E as -> -> -> ->.
    destruct (round_moves debug y j x i x2 i2 y2 j2 Hy Ly1 R2) as (Hx2 & Hy2 & [D|[D|[E|E]]]).
    + eapply later; [exact Ly|exact R|]. eapply later; [exact Ly1|exact R2|].
      apply IH; [lia|lia| |exact H2]. unfold size in *. lia.
    + destruct (Step x2 i2 y2 j2 H2) as (Ly2 & _). lia.
    + injection E as -> -> -> ->. eapply later; [exact Ly|exact R|]. apply unchanged; [exact Ly1|exact R2].
    + injection E as -> -> -> ->. apply exchanged; [exact Ly|exact Ly1|exact R|exact R2].
Qed.

(** * At the library *)
Lemma denotes_nofuel o z : denotes o z -> (o = NoFuel <-> z = NoFuel).
Proof.
  destruct z; cbn [denotes]; [intros (r & -> & _)|intros ->..]; split; congruence.
Qed.

Lemma denotes_same o o' z : denotes o z -> denotes o' z -> o = o'.
Proof.
  destruct z; cbn [denotes]; [intros (r & -> & R) (r' & -> & R'); now rewrite (represents_unique _ _ _ R R')|congruence..].
Qed.

Lemma gcd_settled c a b x y n fuel : represents a x -> represents b y -> rounds_for x y <= Z.of_nat n -> (n <= fuel)%nat ->
  bi_gcd fuel c a b = bi_gcd n c a b.
Proof.
  intros A B L F. pose proof (gcd_exact c a b x y n A B) as E. pose proof (gcd_exact c a b x y fuel A B) as E'.
  apply (denotes_same _ _ (actual_gcd n (dbg c) x y)); [|exact E].
  assert (actual_gcd n (dbg c) x y = NoFuel \/ actual_gcd n (dbg c) x y <> NoFuel) as [N|N]
    by (destruct (actual_gcd n (dbg c) x y); (left; reflexivity) || (right; discriminate)).
  - rewrite N. rewrite (enough _ _ _ n fuel L N) in E'. exact E'.
  - rewrite (gcd_more (dbg c) n fuel x y N F) in E'. exact E'.
Qed.

Lemma gcd_never c a b x y : represents a x -> represents b y ->
  ((forall fuel, bi_gcd fuel c a b = NoFuel) <-> gcd_for_ever (dbg c) x y).
Proof.
  intros A B. split.
  - intros H. apply (runs_for_ever (dbg c) (Z.to_nat (size (Z.max (Z.abs x) (Z.abs y)) (Z.min (Z.abs x) (Z.abs y)) + 1))); [lia|lia| |].
    + unfold size. pose proof (Z.log2_nonneg (Z.max (Z.abs x) (Z.abs y))). pose proof (Z.log2_nonneg (Z.min (Z.abs x) (Z.abs y))). lia.
    + intros n. apply (denotes_nofuel _ _ (gcd_exact c a b x y n A B)). apply H.
  - intros H fuel. apply (denotes_nofuel _ _ (gcd_exact c a b x y fuel A B)). apply for_ever_runs, H.
Qed.

Lemma gcd_ends c a b x y n : represents a x -> represents b y -> rounds_for x y <= Z.of_nat n ->
  (bi_gcd n c a b = NoFuel <-> gcd_for_ever (dbg c) x y).
Proof.
  intros A B L. rewrite <- (gcd_never c a b x y A B). split; [|auto]. intros H fuel.
  apply (denotes_nofuel _ _ (gcd_exact c a b x y fuel A B)). apply (enough _ _ _ n); [exact L|].
  apply (denotes_nofuel _ _ (gcd_exact c a b x y n A B)), H.
Qed.

(** * On limb arrays, in programs, and where long has 32 bits *)
Lemma settled_raw fuel n c l l' : 0 <= number l -> 0 <= number l' -> rounds_for (number l) (number l') <= Z.of_nat n -> (n <= fuel)%nat ->
  raw_gcd fuel c l l' = raw_gcd n c l l'.
Proof.
  intros Hx Hy L F. unfold raw_gcd. cbv zeta. destruct (dbg c && raw_less l l'); [reflexivity|].
  destruct l' as [|d0 [|d1 [|d2 l']]]; try reflexivity. set (y := number (d0 :: d1 :: d2 :: l')) in *. set (x := number l) in *.
  destruct (dbg c && _); [reflexivity|]. destruct (Nat.ltb (length l) 2 && (0 <? y) && (y <? 2 ^ 64)); [reflexivity|].
  assert (gcd_rounds n (dbg c) x 0 y 0 = NoFuel \/ gcd_rounds n (dbg c) x 0 y 0 <> NoFuel) as [N|N]
    by (destruct (gcd_rounds n (dbg c) x 0 y 0); (left; reflexivity) || (right; discriminate)).
  - rewrite N. apply (rounds_bound _ x 0 y 0 n fuel Hx Hy); [|exact N]. unfold rounds_for in L. rewrite !Z.abs_eq in L by lia. unfold size. lia.
  - apply rounds_more; assumption.
Qed.

Lemma words_nonneg l : is_words l -> 0 <= number l.
Proof.
  unfold number. induction 1 as [|d l Hd _ IH]; cbn [positional]; [lia|]. change (2 ^ 32) with 4294967296 in *. lia.
Qed.

Lemma gcd_bits_settled c l l' n fuel : is_words l -> is_words l' -> rounds_for (number l) (number l') <= Z.of_nat n -> (n <= fuel)%nat ->
  bi_gcd_bits fuel c l l' = bi_gcd_bits n c l l'.
Proof.
  intros A B L F. apply (denotes_same _ _ (raw_gcd n c l l')); [|exact (gcd_bits_exact n c l l' A B)].
  rewrite <- (settled_raw fuel n c l l' (words_nonneg l A) (words_nonneg l' B) L F). exact (gcd_bits_exact fuel c l l' A B).
Qed.

Lemma cmd_settled c k m s : typed k -> stands_for m s -> exists n, forall fuel, (n <= fuel)%nat -> run_cmd fuel c k m = run_cmd n c k m.
Proof.
  intros T St. destruct k; try (exists O; reflexivity).
  - exists (Z.to_nat (rounds_for (s p) (s q))). intros fuel F. cbn [run_cmd]. unfold seq, load, into, lift.
    rewrite (gcd_settled c (m p) (m q) (s p) (s q) (Z.to_nat (rounds_for (s p) (s q))) fuel (St p) (St q)); [reflexivity| |exact F]. lia.
  - destruct T as (A & B). exists (Z.to_nat (rounds_for (number leftBits) (number rightBits))). intros fuel F. cbn [run_cmd]. unfold into, seq, lift.
    rewrite (gcd_bits_settled c leftBits rightBits (Z.to_nat (rounds_for (number leftBits) (number rightBits))) fuel A B); [reflexivity| |exact F]. lia.
Qed.

Lemma calls_settled c : forall l m s, Forall typed l -> stands_for m s ->
  exists n, forall fuel, (n <= fuel)%nat -> run_calls fuel c l m = run_calls n c l m.
Proof.
  induction l as [|k l IH]; intros m s T St; [now exists O|]. inversion T as [|k' l' Tk Tl]; subst.
  destruct (cmd_settled c k m s Tk St) as (n1 & H1). pose proof (agrees_cmd n1 c s k m Tk St) as A.
  assert (forall o m1, run_cmd n1 c k m = (o, m1) -> (o = Ret tt \/ exists e, o = Throw e) ->
    exists n, forall fuel, (n <= fuel)%nat -> run_calls fuel c l m1 = run_calls n c l m1) as Next.
  { intros o m1 R [->|(e & ->)]; destruct (actual n1 c s k) as [s1|e'|u| |]; cbn [agrees] in A; rewrite R in A; cbn [fst] in A; try discriminate.
    - destruct A as (m' & E & S1). injection E as <-. exact (IH m1 s1 Tl S1).
    - destruct A as (m' & E & S1). discriminate.
    - injection A as <- <-. exact (IH m1 s Tl St). }
  destruct (run_cmd n1 c k m) as (o & m1) eqn:R.
  assert ((o = Ret tt \/ exists e, o = Throw e) \/ match o with Ret _ | Throw _ => False | _ => True end) as [O|O]
    by (destruct o as [[]|e| | |]; eauto).
  - destruct (Next o m1 eq_refl O) as (n2 & H2). exists (Nat.max n1 n2). intros fuel F. cbn [run_calls].
    rewrite (H1 fuel), (H1 (Nat.max n1 n2)) by lia. rewrite (H2 fuel), (H2 (Nat.max n1 n2)) by lia. reflexivity.
  - exists n1. intros fuel F. cbn [run_calls]. rewrite (H1 fuel F), R. destruct o as [[]|e| | |]; try contradiction; reflexivity.
Qed.

Lemma win_rounds_end debug : forall k x y, 0 <= y <= x -> size x y < Z.of_nat k -> win_gcd_rounds k debug x y <> NoFuel.
Proof.
  induction k as [|k IH]; intros x y H Sz.
  { unfold size in Sz. pose proof (Z.log2_nonneg x). pose proof (Z.log2_nonneg y). lia. }
  cbn [win_gcd_rounds]. change (2 ^ 64) with 18446744073709551616 in *.
  destruct (Z.ltb_spec y 18446744073709551616) as [|Ly]; [discriminate|].
  destruct (x <? 18446744073709551616); [destruct debug; discriminate|]. destruct (debug && _); [discriminate|].
  destruct (snd (cofactor x y) =? 0); [|discriminate]. pose proof (Z.mod_pos_bound x y ltac:(lia)) as M.
  destruct (Z.lt_ge_cases (x mod y) 18446744073709551616) as [S|S].
  { destruct k; cbn [win_gcd_rounds]; change (2 ^ 64) with 18446744073709551616;
      rewrite (proj2 (Z.ltb_lt (x mod y) 18446744073709551616) S); discriminate. }
  apply IH; [lia|]. unfold size in *. assert (Z.log2 (x mod y) < Z.log2 x); [|lia].
  assert (2 * (x mod y) < x) as Hh.
  { pose proof (Z.div_mod x y ltac:(lia)) as D. assert (1 <= x / y) by (apply Z.div_le_lower_bound; lia). nia. }
  pose proof (Z.log2_le_mono (2 * (x mod y)) x ltac:(lia)) as Q. rewrite Z.log2_double in Q by lia. lia.
Qed.

Lemma win_gcd_ends c a b x y n : represents a x -> represents b y -> rounds_for x y <= Z.of_nat n -> bi_gcd_w None n c a b <> NoFuel.
Proof.
  intros A B L H. apply (denotes_nofuel _ _ (gcd_w_every c a b x y n A B)) in H. revert H. unfold win_gcd.
  apply win_rounds_end; [lia|]. rewrite size_max_min. unfold rounds_for in L.
  pose proof (Z.log2_nonneg (Z.abs x)). pose proof (Z.log2_nonneg (Z.abs y)). lia.
Qed.
