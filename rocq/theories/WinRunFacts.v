(** Lemmas quoted by PropWinRun.v: what every call does in the LLP64 reading. *)
From Coq Require Import String.
From Verif Require Import Facts Spec AddSubFacts SpecFacts BigIntFacts SpecApi BigInt BigIntText BigIntBytes BigIntDouble.
From Verif Require Import ArithLaws ApiMem SpecMem MemFacts ApiRun SpecPos SpecText SpecDouble SpecGcd SpecReduce SpecRun PosFacts.
From Verif Require Import WordFacts ShiftFacts ConvLaws DoubleFacts PowFacts ModPowApi GcdFacts ModPowFacts.
From Verif Require Import CalcAddSub RawFacts RunExact SpecModPow SpecActual GcdExact LeakyModPow ActualFacts.
From Verif Require Import WinCalc WinBigInt WinRun SpecWin SpecWinRun WinFacts WinMulFacts WinPowFacts WinConvFacts WinGcdFacts WinModPowFacts WinModPowLarge WinGcdExact.

Ltac Zify.zify_post_hook ::= idtac.

Lemma meets_denotes o z : meets o z -> denotes o (defined z).
Proof. destruct z; exact (fun H => H). Qed.

(** ** Limb arrays *)

Lemma add_parts_w_exact w c l s l' s' :
  limbs l -> limbs l' -> is_int s -> is_int s' ->
  denotes (bi_add_parts_w w c l s l' s') (win_raw_sum c l s l' s').
Proof.
  intros Hl Hl' Hs Hs'. unfold bi_add_parts_w, win_raw_sum, is_int, number in *. rewrite <- !val_positional.
  destruct l as [|d l], l' as [|d' l']; cbn [is_nil andb].
  - apply int64_sum. change (2 ^ 31) with 2147483648 in *. change (2 ^ 63) with 9223372036854775808. lia.
  - rewrite abs32_int by exact Hs. destruct (strict c && (s =? - 2 ^ 31)); [reflexivity|]. cbn [bind denotes].
    destruct (wp_inv _ _ (calc_add_u_w_spec c (d' :: l') (Z.abs s) ltac:(discriminate) Hl' (abs_int_limb _ Hs))) as (r & -> & _ & R & V).
    cbn [bind]. now apply of_mag_signed.
  - rewrite abs32_int by exact Hs'. destruct (strict c && (s' =? - 2 ^ 31)); [reflexivity|]. cbn [bind denotes].
    destruct (wp_inv _ _ (calc_add_u_w_spec c (d :: l) (Z.abs s') ltac:(discriminate) Hl (abs_int_limb _ Hs'))) as (r & -> & _ & R & V).
    cbn [bind]. now apply of_mag_signed.
  - cbn [denotes]. destruct (Nat.ltb_spec (List.length (d :: l)) (List.length (d' :: l'))) as [H|H].
    + destruct (wp_inv _ _ (calc_add_spec c (d' :: l') (d :: l) ltac:(discriminate) ltac:(discriminate) Hl' Hl ltac:(lia))) as (r & -> & _ & R & V).
      cbn [bind]. apply of_mag_signed; [exact R|]. rewrite V. apply Z.add_comm.
    + destruct (wp_inv _ _ (calc_add_spec c (d :: l) (d' :: l') ltac:(discriminate) ltac:(discriminate) Hl Hl' ltac:(lia))) as (r & -> & _ & R & V).
      cbn [bind]. now apply of_mag_signed.
Qed.

Lemma calc_sub_u_w_raw c lhs rhs :
  lhs <> [] -> limbs lhs -> limb rhs ->
  calc_sub_u_w None c lhs rhs =
    if dbg c && Nat.eqb (List.length lhs) 1 && (val lhs <? rhs) then AssertFail else Undef ShiftRange.
Proof.
  intros Hne Hl Hr. pose proof (nonempty_length _ Hne) as Hlen. pose proof (limbs_nth _ 0 Hl) as H0.
  destruct (dbg c && Nat.eqb (List.length lhs) 1 && (val lhs <? rhs)) eqn:E.
  { apply andb_prop in E as [E E3]. apply andb_prop in E as [E1 E2].
    apply Nat.eqb_eq in E2. apply Z.ltb_lt in E3.
    destruct lhs as [|x [|y t]]; try discriminate. unfold calc_sub_u_w, massert. rewrite E1.
    cbn [is_nil negb bind rd nth_error List.length]. cbn [val] in E3.
    rewrite (proj2 (Z.leb_gt rhs x)) by lia. reflexivity. }
  unfold calc_sub_u_w. apply ub_massert; [now rewrite is_nil_false|].
  destruct (dbg c) eqn:D.
  - apply ub_bind_wp with (P := fun _ => True).
    { repeat wstep; try lia; auto. apply orb_true_iff. rewrite Z.leb_le, Nat.leb_le. cbn [andb] in E.
      destruct (Nat.eqb_spec (List.length lhs) 1) as [E1|E1]; [|right; lia]. cbn [andb] in E. apply Z.ltb_ge in E.
      left. destruct lhs as [|x [|y t]]; try discriminate. cbn [nth val] in *. lia. }
    intros [] _. apply ub_rd; [lia|]. cbv zeta. apply ub_wr; [rewrite length_zeros; lia|]. reflexivity.
  - cbn [bind]. apply ub_rd; [lia|]. cbv zeta. apply ub_wr; [rewrite length_zeros; lia|]. reflexivity.
Qed.

(** The assertions of Subtract compare lengths first. *)
Definition ordered (a b : list Z) : Prop :=
  (List.length b < List.length a)%nat \/ (List.length b <= List.length a)%nat /\ val b <= val a.

Lemma ordered_core c a b : limbs a -> limbs b -> ordered a b ->
  wp (calc_compare_core c a b) (fun z => 0 <= z).
Proof.
  intros Hl Hr [H|(H & V)]; [|now apply calc_compare_core_ge].
  unfold calc_compare_core. rewrite (proj2 (Nat.ltb_ge _ _)) by lia. rewrite (proj2 (Nat.ltb_lt _ _)) by exact H. wstep. lia.
Qed.

Lemma calc_sub_w_raw c lhs rhs :
  lhs <> [] -> rhs <> [] -> limbs lhs -> limbs rhs -> ordered lhs rhs ->
  calc_sub_w None c lhs rhs = Undef ShiftRange.
Proof.
  intros Hn1 Hn2 Hl Hr Hge. unfold calc_sub_w. pose proof (nonempty_length _ Hn2).
  assert (List.length rhs <= List.length lhs)%nat as Hlen by (destruct Hge; lia).
  apply ub_massert; [now rewrite is_nil_false|].
  apply ub_massert; [now rewrite is_nil_false|].
  apply ub_massert; [now apply Nat.leb_le|].
  apply ub_dbg.
  { wstep. assert (calc_compare c lhs rhs = calc_compare_core c lhs rhs) as ->.
    { unfold calc_compare, calc_compare_core, massert.
      rewrite !is_nil_false by assumption. now destruct (dbg c). }
    eapply wp_mono; [apply ordered_core; auto|].
    intros z Hz. wstep; auto. now apply Z.leb_le. }
  unfold calc_sub_core_w.
  apply ub_massert; [apply Nat.leb_le; lia|].
  apply ub_dbg.
  { wstep. eapply wp_mono; [apply ordered_core; auto|].
    intros z Hz. wstep; auto. now apply Z.leb_le. }
  apply ub_massert; [apply Nat.eqb_eq, length_zeros|].
  apply ub_for_up; [lia|]. apply ub_rd; [lia|]. apply ub_rd; [lia|]. cbv zeta.
  apply ub_wr; [rewrite length_zeros; lia|]. reflexivity.
Qed.

Lemma sub_parts_w_exact c l s l' s' :
  limbs l -> limbs l' -> is_int s -> is_int s' ->
  denotes (bi_sub_parts_w None c l s l' s') (win_raw_diff c l s l' s').
Proof.
  intros Hl Hl' Hs Hs'. unfold bi_sub_parts_w, win_raw_diff, win_raw_minus, is_int, number in *. rewrite <- !val_positional.
  destruct l as [|d l], l' as [|d' l']; cbn [is_nil andb].
  - apply int64_sum. change (2 ^ 31) with 2147483648 in *. change (2 ^ 63) with 9223372036854775808. lia.
  - rewrite abs32_int by exact Hs. destruct (strict c && (s =? - 2 ^ 31)); [reflexivity|]. cbn [bind].
    rewrite calc_sub_u_w_raw; [|discriminate|exact Hl'|now apply abs_int_limb].
    destruct (_ && _ && _); reflexivity.
  - rewrite abs32_int by exact Hs'. destruct (strict c && (s' =? - 2 ^ 31)); [reflexivity|]. cbn [bind].
    rewrite calc_sub_u_w_raw; [|discriminate|exact Hl|now apply abs_int_limb].
    destruct (_ && _ && _); reflexivity.
  - set (a := d :: l) in *. set (b := d' :: l') in *.
    assert (a <> []) as Na by discriminate. assert (b <> []) as Nb by discriminate. clearbody a b. cbn [denotes].
    assert (calc_compare c a b = Ret (if Nat.ltb (List.length a) (List.length b) then -1
      else if Nat.ltb (List.length b) (List.length a) then 1 else cmpz (val a) (val b))) as ->.
    { unfold calc_compare. rewrite !massert_true by (now rewrite is_nil_false). cbn [bind].
      destruct (Nat.ltb_spec (List.length a) (List.length b)); [reflexivity|].
      destruct (Nat.ltb_spec (List.length b) (List.length a)); [reflexivity|].
      rewrite compare_loop_spec by (auto; lia). rewrite vl_all, (vl_ge b) by lia. reflexivity. }
    cbn [bind].
    destruct (Nat.ltb_spec (List.length a) (List.length b)) as [H1|H1].
    { change (-1 <? 0) with true. cbn beta iota. rewrite calc_sub_w_raw by (auto; unfold ordered; lia). reflexivity. }
    destruct (Nat.ltb_spec (List.length b) (List.length a)) as [H2|H2].
    { change (1 <? 0) with false. cbn beta iota. rewrite calc_sub_w_raw by (auto; unfold ordered; lia). reflexivity. }
    unfold cmpz. destruct (Z.compare_spec (val a) (val b)) as [E|E|E].
    + change (0 <? 0) with false. cbn beta iota. rewrite calc_sub_w_raw by (auto; unfold ordered; lia). reflexivity.
    + change (-1 <? 0) with true. cbn beta iota. rewrite calc_sub_w_raw by (auto; unfold ordered; lia). reflexivity.
    + change (1 <? 0) with false. cbn beta iota. rewrite calc_sub_w_raw by (auto; unfold ordered; lia). reflexivity.
Qed.

(** ** mod_pow *)

Lemma mod_pow_w_every c a b m x e z :
  represents a x -> represents b e -> represents m z ->
  denotes (bi_mod_pow_w None c a b m) (win_power_mod (dbg c) x e z).
Proof.
  intros Ha Hb Hm. unfold win_power_mod. destruct (Z.ltb_spec e 0) as [He|He].
  { cbn [denotes]. eapply mod_pow_w_negative; eauto. }
  destruct (limbs32 z) eqn:E.
  - apply meets_denotes. now apply mod_pow_w_large.
  - rewrite (mod_pow_w_small c a b m x e z Ha Hb Hm E). now apply mod_pow_exact.
Qed.

(** ** Compound assignment *)

Definition pure_assign_w (w : win) (o : assign) (c : cfg) (a b : bigint) : outcome bigint :=
  match o with
  | AddA => bi_add_w w c a b | SubA => bi_sub_w w c a b | MulA => bi_mul_w w c a b
  | _ => pure_assign o c a b
  end.

Lemma run_assign_w_pure w o c this rhs m :
  commits (run_assign_w w o c this rhs m) (pure_assign_w w o c (m this) (m rhs)) m this.
Proof.
  destruct o; cbn [run_assign_w pure_assign_w]; try apply run_assign_pure.
  - unfold mem_add_w, bi_add_w. mem_go.
  - unfold mem_sub_w, bi_sub_w. mem_go.
  - unfold mem_mul_w, bi_mul_w. mem_go.
Qed.

Lemma bin_w_pure w o c a b : bin_w w o c a b = pure_assign_w w o c a b.
Proof. destruct o; reflexivity. Qed.

Lemma pure_assign_w_exact o c a b x y :
  represents a x -> represents b y -> denotes (pure_assign_w None o c a b) (win_binary o x y).
Proof.
  intros Ha Hb.
  assert (denotes (pure_assign o c a b) (if div_op o && (y =? 0) then Throw DivideByZero else Ret (meaning o x y))) as K.
  { destruct (div_op o && (y =? 0)) eqn:E.
    - apply andb_prop in E as [E1 E2]. apply div_op_divides in E1. apply Z.eqb_eq in E2. subst y.
      exact (pure_assign_zero o c a b x E1 Ha Hb).
    - apply pure_assign_exact; auto. intros D N. apply div_op_divides in D. apply Z.eqb_eq in N. rewrite D, N in E. discriminate. }
  destruct o; cbn [pure_assign_w win_binary]; try exact K; apply meets_denotes.
  - now apply bi_add_w_exact.
  - now apply bi_sub_w_exact.
  - now apply bi_mul_w_exact.
Qed.

Lemma agrees_commits m s run p o z : stands_for m s -> commits run o m p -> denotes o z -> agrees run m (keep s p z).
Proof.
  intros H C D. destruct z; cbn [denotes keep bind agrees] in *; try (subst o; cbn [commits] in C; now rewrite C).
  destruct D as (b & -> & Hb). destruct C as (C1 & C2). exists (snd run). rewrite <- C1, <- surjective_pairing. split; [reflexivity|].
  intros q. rewrite C2. unfold set. destruct (Nat.eqb q p); [exact Hb|apply H].
Qed.

(** ** Every call *)

Theorem agrees_cmd_w fuel c s k m :
  typed k -> stands_for m s -> agrees (run_cmd_w None fuel c k m) m (actual_win fuel c s k).
Proof.
  intros T ST. destruct k; cbn [run_cmd_w actual_win];
    try match goal with |- agrees (run_cmd _ _ _ _) _ _ => exact (agrees_cmd fuel c s _ m T ST) end; cbn [typed] in T; mem_reads.
  - pose proof (bi_of_double_w_exact c pattern T) as D. destruct (Z.testbit pattern 31); [rewrite D; reflexivity|].
    now apply agrees_ret.
  - apply agrees_ret; [exact ST|]. apply parse_w_exact.
  - destruct (try_parse_w_exact c s0 (m result)) as (r & E & R). unfold seq, lift. rewrite E. cbn [snd store].
    exists (put m result r). split; [reflexivity|]. now apply stands_put.
  - eapply agrees_commits; [exact ST|apply run_assign_w_pure|]. apply pure_assign_w_exact; apply ST.
  - apply agrees_into; [exact ST|]. rewrite bin_w_pure. apply pure_assign_w_exact; apply ST.
  - pose proof (bi_inc_w_exact c (m this) (s this) (ST this)) as D. apply meets_denotes in D.
    eapply agrees_commits with (o := bi_inc_w None c (m this)); [exact ST| |exact D].
    unfold mem_inc_w, bi_inc_w, seq, lift, load, store. destruct (bi_one c); cbn [bind commits]; try reflexivity.
    destruct (bi_add_w None c (m this) a); cbn [commits]; try reflexivity. split; reflexivity.
  - pose proof (bi_dec_w_exact c (m this) (s this) (ST this)) as D. apply meets_denotes in D.
    eapply agrees_commits with (o := bi_dec_w None c (m this)); [exact ST| |exact D].
    unfold mem_dec_w, bi_dec_w, seq, lift, load, store. destruct (bi_one c); cbn [bind commits]; try reflexivity.
    destruct (bi_sub_w None c (m this) a); cbn [commits]; try reflexivity. split; reflexivity.
  - apply agrees_into; [exact ST|]. apply meets_denotes, bi_not_w_exact, ST.
  - destruct (bi_pow_w_exact c (m p) (s p) exponent (limbs_of (s p)) (ST p) (limbs_of_count (s p)) T) as (P1 & P2 & P3).
    destruct (Z.ltb_spec exponent 0) as [L|L]; [rewrite P1 by exact L; reflexivity|].
    destruct ((1 <? exponent) && (1 <? Z.abs (s p)) && (2 ^ 31 - 1 <=? limbs_of (s p) * exponent + 1)) eqn:E.
    + apply andb_prop in E as [E E3]. apply andb_prop in E as [E1 E2]. apply Z.ltb_lt in E1, E2. apply Z.leb_le in E3.
      rewrite P3 by assumption. reflexivity.
    + apply agrees_into; [exact ST|]. apply meets_denotes, P2; [exact L|].
      destruct (Z.ltb_spec 1 exponent); [|right; left; lia].
      destruct (Z.ltb_spec 1 (Z.abs (s p))); [|left; lia]. cbn [andb] in E. apply Z.leb_gt in E. auto.
  - apply agrees_into; [exact ST|]. apply mod_pow_w_every; apply ST.
  - apply agrees_into; [exact ST|]. apply gcd_w_every; apply ST.
  - destruct T as (T1 & T2). apply agrees_into; [exact ST|]. now apply gcd_bits_w_exact.
  - destruct T as (T1 & T2 & T3 & T4). apply agrees_into; [exact ST|]. now apply add_parts_w_exact.
  - destruct T as (T1 & T2 & T3 & T4). apply agrees_into; [exact ST|]. now apply sub_parts_w_exact.
Qed.

Theorem calls_w_exact fuel c l : forall s m,
  Forall typed l -> stands_for m s ->
  match actual_calls_win fuel c s l with
  | Some (tr, s') => exists m', run_calls_w None fuel c l m = Some (tr, m') /\ stands_for m' s'
  | None => run_calls_w None fuel c l m = None
  end.
Proof.
  induction l as [|k l IH]; intros s m T ST.
  { exists m. auto. }
  inversion T as [|k' l' Tk Tl]; subst k' l'. cbn [actual_calls_win run_calls_w].
  pose proof (agrees_cmd_w fuel c s k m Tk ST) as A.
  destruct (actual_win fuel c s k) as [s1|e|u| |]; cbn [agrees] in A.
  - destruct A as (m1 & -> & S1). specialize (IH s1 m1 Tl S1). destruct (actual_calls_win fuel c s1 l) as [(tr, s2)|]; cbn [option_map fst snd].
    + destruct IH as (m2 & -> & S2). exists m2. auto.
    + now rewrite IH.
  - rewrite A. specialize (IH s m Tl ST). destruct (actual_calls_win fuel c s l) as [(tr, s2)|]; cbn [option_map fst snd].
    + destruct IH as (m2 & -> & S2). exists m2. auto.
    + now rewrite IH.
  - destruct (run_cmd_w None fuel c k m) as [o m']. cbn [fst] in A. now rewrite A.
  - destruct (run_cmd_w None fuel c k m) as [o m']. cbn [fst] in A. now rewrite A.
  - destruct (run_cmd_w None fuel c k m) as [o m']. cbn [fst] in A. now rewrite A.
Qed.

(** ** Canonical objects *)

Lemma reachable_w_stands c m : reachable_w None c m -> exists s, stands_for m s.
Proof.
  induction 1 as [|k fuel m m' _ (s & ST) T E|k fuel e m m' _ (s & ST) T E].
  - exists (fun _ => 0). intros p. apply repr_zero.
  - pose proof (agrees_cmd_w fuel c s k m T ST) as A. rewrite E in A.
    destruct (actual_win fuel c s k) as [s1| | | |]; cbn [agrees fst] in A; try discriminate A.
    destruct A as (m1 & E1 & S1). injection E1 as <-. eauto.
  - pose proof (agrees_cmd_w fuel c s k m T ST) as A. rewrite E in A.
    destruct (actual_win fuel c s k) as [s1| | | |]; cbn [agrees fst] in A; try discriminate A.
    + destruct A as (m1 & E1 & S1). discriminate.
    + injection A as _ <-. eauto.
Qed.

Theorem reachable_w_canonical c m p : reachable_w None c m -> canonical (m p).
Proof. intros H. destruct (reachable_w_stands c m H) as (s & ST). apply (ST p). Qed.

(** ** Post-increment and post-decrement *)

Lemma post_inc_w_exact c a x : represents a x ->
  match win_sum x 1 with
  | Some v => exists r, bi_post_inc_w None c a = Ret (r, r) /\ represents r v
  | None => bi_post_inc_w None c a = Undef ShiftRange
  end.
Proof.
  intros Ha. pose proof (bi_inc_w_exact c a x Ha) as D. apply meets_denotes in D. unfold bi_post_inc_w.
  destruct (win_sum x 1); cbn [defined denotes] in D; [|now rewrite D].
  destruct D as (r & -> & R). exists r. auto.
Qed.

Lemma post_dec_w_exact c a x : represents a x ->
  match win_difference x 1 with
  | Some v => exists r, bi_post_dec_w None c a = Ret (r, r) /\ represents r v
  | None => bi_post_dec_w None c a = Undef ShiftRange
  end.
Proof.
  intros Ha. pose proof (bi_dec_w_exact c a x Ha) as D. apply meets_denotes in D. unfold bi_post_dec_w.
  destruct (win_difference x 1); cbn [defined denotes] in D; [|now rewrite D].
  destruct D as (r & -> & R). exists r. auto.
Qed.
