(** How the tests of greatest common divisors and modular powers of TestShifts.v end. *)
From Coq Require Import String Ascii.
From Verif Require Import Facts Spec SpecPos PosFacts BytesFacts BigInt SpecText SpecModPow SpecGcd SpecActual PyRun SpecPyRun SpecOracle SpecReference SpecIdentity
  LeakyModPow TestOracle TestCalc TestRandom TestNumbers TestBodies SpecBodies TestShifts SpecShifts
  OracleFacts OracleFacts2 CalcFacts RandomFacts NumberFacts IdentityFacts BodyFacts BodyAxioms TestShiftFacts TestPowFacts.

Ltac Zify.zify_post_hook ::= idtac.

(** ** Greatest common divisors *)

Lemma gcd_short fuel d x y : 0 <= x -> 0 <= y -> Z.min x y < 2 ^ 64 -> actual_gcd fuel d x y = Ret (Z.gcd x y).
Proof.
  intros X Y H. unfold actual_gcd. rewrite !Z.abs_eq by assumption.
  assert (Z.gcd (Z.max x y) (Z.min x y) = Z.gcd x y) as G.
  { destruct (Z.max_spec x y) as [(L & ->)|(L & ->)]; [rewrite Z.min_l by lia; apply Z.gcd_comm|now rewrite Z.min_r by lia]. }
  destruct fuel; cbn [gcd_rounds]; (destruct (Z.ltb_spec (Z.min x y) (2 ^ 64)); [|lia]); now rewrite G, Z.add_0_r.
Qed.

Lemma gcd_itself fuel d x : 0 <= x -> actual_gcd (S fuel) d x x = Ret x.
Proof.
  intros X. unfold actual_gcd. rewrite Z.abs_eq, Z.max_id, Z.min_id by lia. cbn [gcd_rounds].
  destruct (Z.ltb_spec x (2 ^ 64)) as [L|L]; [now rewrite Z.gcd_diag_nonneg, Z.add_0_r|].
  assert (0 < 2 ^ 64) as P64 by (apply Z.pow_pos_nonneg; lia).
  assert (62 <= Z.log2 x) as LG.
  { apply (Z.le_trans _ (Z.log2 (2 ^ 64))); [rewrite Z.log2_pow2 by lia; lia|now apply Z.log2_le_mono]. }
  set (X' := x / 2 ^ (Z.log2 x - 62)).
  assert (0 < X' < 2 ^ 63) as (XP & XB).
  { destruct (Z.log2_spec x ltac:(lia)) as (S1 & S2). unfold X'. pose proof (Z.pow_pos_nonneg 2 (Z.log2 x - 62) ltac:(lia) ltac:(lia)). split.
    - apply Z.div_str_pos. split; [lia|]. apply (Z.le_trans _ (2 ^ Z.log2 x)); [|exact S1]. apply Z.pow_le_mono_r; lia.
    - apply Z.div_lt_upper_bound; [lia|]. rewrite <- Z.pow_add_r by lia. now replace (Z.log2 x - 62 + 63) with (Z.succ (Z.log2 x)) by lia. }
  assert (leading x x = (X', X')) as LE.
  { unfold leading. fold X'. rewrite Z.ltb_irrefl. now rewrite Z.mod_small by lia. }
  unfold SpecGcd.gcd_round. destruct (Z.ltb_spec x (2 ^ 64)); [lia|].
  rewrite LE. cbn [fst snd]. rewrite !Z.ltb_irrefl. rewrite andb_false_r. cbv iota.
  assert (cofactor x x = (0, 0)) as ->.
  { unfold cofactor. rewrite LE. change 400%nat with (S 399). generalize 399%nat as n. intros n. cbn [guess].
    rewrite Z.div_same, Z.mod_same by lia. change (0 <? 0 + 1 * 1) with true. rewrite orb_true_r. reflexivity. }
  change (0 =? 0) with true. cbv iota. cbn [bind]. rewrite Z.mod_same by lia.
  destruct fuel; cbn [gcd_rounds]; (destruct (Z.ltb_spec 0 (2 ^ 64)); [|lia]); rewrite Z.gcd_0_r, Z.abs_eq, Z.add_0_r by lia; reflexivity.
Qed.

(** ** Modular powers *)

Lemma modpow_ok d x e z : 0 <= x -> 0 <= e -> 0 < z < 2 ^ 992 -> modpow_ends d x e z = Ret true.
Proof.
  intros X E Z0. unfold modpow_ends, power_mod.
  assert (0 <= Z.rem (x ^ e) z < z) as R by (apply Z.rem_bound_pos; [apply Z.pow_nonneg; lia|lia]).
  assert (text (Z.rem (x ^ e) z) = Ret (Z.rem (x ^ e) z)) as T by (apply (text_bound _ 992); [lia|change (2 ^ 32) with 4294967296; lia]).
  destruct (Z.ltb_spec e 0); [lia|]. destruct (Z.eqb_spec z 0); [lia|].
  destruct (Z.ltb_spec (Z.abs z) (2 ^ 31)) as [|_].
  - destruct (Z.ltb_spec (Z.rem (x ^ e) z) 0); [lia|]. cbn [bind]. rewrite written. now apply written_ok.
  - destruct (Z.ltb_spec (Z.abs z) (2 ^ 992)); [|lia]. cbn [bind]. rewrite written. now apply written_ok.
Qed.

Lemma modpow_by_zero d x e : 0 <= e -> modpow_ends d x e 0 =
  if (Z.abs x <? 2 ^ 31) && (2 ^ 32 <=? e) then Undef DivByZero else Throw DivideByZero.
Proof.
  intros E. unfold modpow_ends, power_mod. destruct (Z.ltb_spec e 0); [lia|]. change (0 =? 0) with true. cbv iota. now destruct (_ && _).
Qed.

Lemma modpow_at_zero d x z : 0 <= z -> modpow_ends d x 0 z = by_zero z.
Proof.
  intros H. destruct (Z.eq_dec z 0) as [->|N].
  - rewrite modpow_by_zero by lia. rewrite andb_false_r. reflexivity.
  - unfold by_zero. destruct (Z.eqb_spec z 0); [contradiction|]. unfold modpow_ends, power_mod.
    destruct (Z.ltb_spec 0 0); [lia|]. destruct (Z.eqb_spec z 0); [contradiction|]. rewrite Z.pow_0_r.
    assert (0 <= Z.rem 1 z <= 1) as R.
    { split; [apply Z.rem_nonneg; lia|]. apply Z.rem_le; lia. }
    assert (text (Z.rem 1 z) = Ret (Z.rem 1 z)) as T by (apply text_near; change (2 ^ 31) with 2147483648; lia).
    assert (same_text (Z.rem 1 z) (Z.rem 1 z) = Ret true) as S by (rewrite written; now apply written_ok).
    destruct (Z.ltb_spec (Z.abs z) (2 ^ 31)) as [|L]; [destruct (Z.ltb_spec (Z.rem 1 z) 0); [lia|exact S]|].
    destruct (Z.ltb_spec (Z.abs z) (2 ^ 992)); [exact S|].
    replace (overruns x 0 z) with false by reflexivity. cbv iota. rewrite leaky_exponent_0. cbn [bind].
    rewrite Z.rem_small in S |- * by (change (2 ^ 31) with 2147483648 in L; lia). exact S.
Qed.

Section Run.
  Context (fuel : nat) (c : cfg) (s1 m1 : string -> bigint -> outcome bigint) (s2 m2 : string -> bigint -> bigint -> outcome bigint) (Hc : strict c = false).
  Notation run := (verify fuel c s1 m1 s2 m2 false).
  Notation ident := (verify_identity fuel c s1 m1 s2 m2).

  Local Ltac no_log := let T := fresh in intros T; destruct T as [T|[T|T]]; discriminate T.
  Local Ltac named := let t := fresh in let H := fresh in let T := fresh in intros t H T; cbv in H;
    repeat (destruct H as [<-|H]; [destruct T as [T|[T|T]]; discriminate T|]); contradiction.
  Local Ltac computed := generalize Hc; generalize c as c'; intros [d' s'] Hs; cbn in Hs; subst s'; vm_compute; reflexivity.
  Local Ltac literal := apply run_text; [exact Hc|named|computed].

  (** An array that reads as a number that is not negative. *)
  Definition counting_array (l : list Z) : Prop := plain l (operand l) /\ 0 <= operand l.
  Lemma random_counting l : random_array l -> counting_array l.
  Proof. exact (plain_random l). Qed.

  Lemma verdict_modpow x e z : verdict fuel c false ["tModPow"%string] None [x; e; z] = modpow_ends (dbg c) x e z.
  Proof.
    unfold modpow_ends. cbn [verdict starts_with Ascii.eqb Bool.eqb lookup lib_ternary_table String.eqb].
    destruct (power_mod _ _ _ _); cbn [bind]; auto. destruct (same_text _ _) as [[]| | | |]; reflexivity.
  Qed.

  Lemma three_exact z e x : plain z (operand z) -> plain e (operand e) -> plain x (operand x) ->
    run (three z e x) = modpow_ends (dbg c) (operand x) (operand e) (operand z).
  Proof.
    intros Pz Pe Px. unfold three. rewrite (verify_exact fuel c s1 m1 s2 m2 false _ Hc).
    - rewrite (verdict_plain _ _ _ _ _ _ _ Pz), (verdict_plain _ _ _ _ _ _ _ Pe), (verdict_plain _ _ _ _ _ _ _ Px).
      apply verdict_modpow.
    - intros t H L. apply (print_no_log _ _ _ (proj1 Pz) L), (print_no_log _ _ _ (proj1 Pe) L), (print_no_log _ _ _ (proj1 Px) L) in H.
      cbv in H. destruct H as [<-|[]]. destruct L as [L|[L|L]]; discriminate L.
  Qed.

  (** A literal among the operands. *)
  Lemma modulus_literal e x : plain e (operand e) -> plain x (operand x) ->
    run ("0" ++ " " ++ print_bytes e ++ print_bytes x ++ "tModPow")%string = modpow_ends (dbg c) (operand x) (operand e) 0.
  Proof.
    intros Pe Px.
    assert (tokens ("0" ++ " " ++ print_bytes e ++ print_bytes x ++ "tModPow") = "0"%string :: tokens (print_bytes e ++ print_bytes x ++ "tModPow")) as T
      by reflexivity.
    rewrite (verify_exact fuel c s1 m1 s2 m2 false _ Hc).
    - rewrite T. change (verdict fuel c false ("0"%string :: tokens (print_bytes e ++ print_bytes x ++ "tModPow")) None [])
        with (verdict fuel c false (tokens (print_bytes e ++ print_bytes x ++ "tModPow")) None [0]).
      rewrite (verdict_plain _ _ _ _ _ _ _ Pe), (verdict_plain _ _ _ _ _ _ _ Px). apply verdict_modpow.
    - rewrite T. intros t [<-|H] L; [destruct L as [L|[L|L]]; discriminate L|].
      apply (print_no_log _ _ _ (proj1 Pe) L), (print_no_log _ _ _ (proj1 Px) L) in H.
      cbv in H. destruct H as [<-|[]]. destruct L as [L|[L|L]]; discriminate L.
  Qed.
  Lemma exponent_literal z x : plain z (operand z) -> plain x (operand x) ->
    run (print_bytes z ++ "0" ++ " " ++ print_bytes x ++ "tModPow")%string = modpow_ends (dbg c) (operand x) 0 (operand z).
  Proof.
    intros Pz Px.
    assert (tokens ("0" ++ " " ++ print_bytes x ++ "tModPow") = "0"%string :: tokens (print_bytes x ++ "tModPow")) as T by reflexivity.
    rewrite (verify_exact fuel c s1 m1 s2 m2 false _ Hc).
    - rewrite (verdict_plain _ _ _ _ _ _ _ Pz), T.
      change (verdict fuel c false ("0"%string :: tokens (print_bytes x ++ "tModPow")) None [operand z])
        with (verdict fuel c false (tokens (print_bytes x ++ "tModPow")) None [0; operand z]).
      rewrite (verdict_plain _ _ _ _ _ _ _ Px). apply verdict_modpow.
    - intros t H L. apply (print_no_log _ _ _ (proj1 Pz) L) in H. rewrite T in H.
      destruct H as [<-|H]; [destruct L as [L|[L|L]]; discriminate L|].
      apply (print_no_log _ _ _ (proj1 Px) L) in H. cbv in H. destruct H as [<-|[]]. destruct L as [L|[L|L]]; discriminate L.
  Qed.
  Lemma base_literal z e : plain z (operand z) -> plain e (operand e) ->
    run (print_bytes z ++ print_bytes e ++ "0" ++ " tModPow")%string = modpow_ends (dbg c) 0 (operand e) (operand z).
  Proof.
    intros Pz Pe. rewrite (verify_exact fuel c s1 m1 s2 m2 false _ Hc).
    - rewrite (verdict_plain _ _ _ _ _ _ _ Pz), (verdict_plain _ _ _ _ _ _ _ Pe).
      change (verdict fuel c false (tokens ("0" ++ " tModPow")) None [operand e; operand z])
        with (verdict fuel c false ["tModPow"%string] None [0; operand e; operand z]).
      apply verdict_modpow.
    - intros t H L. apply (print_no_log _ _ _ (proj1 Pz) L), (print_no_log _ _ _ (proj1 Pe) L) in H.
      cbv in H. destruct H as [<-|[<-|[]]]; destruct L as [L|[L|L]]; discriminate L.
  Qed.

  Section Arrays.
    Context (large small pos1 pos2 neg2 pos : list Z) (HL : counting_array large) (HS : counting_array small)
            (H1 : counting_array pos1) (H2 : counting_array pos2) (HP : counting_array pos).
    Notation ends x e z := (modpow_ends (dbg c) (operand x) (operand e) (operand z)).

    Theorem modpow_tests_exact :
      modpow_small run small pos2 = ends small pos2 small /\
      modpow_one_large run large small pos1 pos2 pos = all_pass [ends small pos small; ends large pos2 small; ends small pos1 large] /\
      modpow_two_large run large small pos = ends large pos small /\
      modpow_zero_power run large small = all_pass [by_zero (operand small); by_zero (operand large)] /\
      modpow_zero_base run large small pos2 pos =
        all_pass (map (fun '(e, z) => modpow_ends (dbg c) 0 (operand e) (operand z)) [(pos2, small); (pos2, large); (pos, small); (pos, large)]).
    Proof.
      unfold modpow_small, modpow_one_large, modpow_two_large, modpow_zero_power, modpow_zero_base. cbv zeta.
      rewrite !samples_same, !all_pass_one.
      rewrite !three_exact by (apply HL || apply HS || apply H1 || apply H2 || apply HP).
      rewrite !exponent_literal by (apply HL || apply HS). rewrite !base_literal by (apply HL || apply HS || apply H2 || apply HP).
      rewrite !modpow_at_zero by (apply HL || apply HS).
      split; [reflexivity|]. split; [reflexivity|]. split; [reflexivity|]. split; [|reflexivity].
      unfold by_zero. destruct (operand small =? 0), (operand large =? 0); reflexivity.
    Qed.

    Theorem modpow_negative_passes : digits 256 neg2 -> - 2 ^ 30 <= operand neg2 < 0 -> operand pos1 <= 255 ->
      modpow_valid_small run = Ret true /\ modpow_negative run large pos1 neg2 = Ret true.
    Proof.
      intros DN HN HO. split.
      - unfold modpow_valid_small. apply all_pass_true. repeat apply Forall_cons; [literal|literal|apply Forall_nil].
      - unfold modpow_negative. apply all_pass_true. rewrite !Forall_app. split; [|split].
        + cbn [flat_map map app]. repeat (apply Forall_cons; [match goal with |- expect_divide_by_zero (run ?t) = _ =>
            replace (run t) with (Throw DivideByZero : outcome bool); [reflexivity|symmetry; literal] end|]). apply Forall_nil.
        + cbn [flat_map map app]. repeat (apply Forall_cons; [match goal with |- expect_out_of_range (run ?t) = _ =>
            replace (run t) with (Throw OutOfRange : outcome bool); [reflexivity|symmetry; literal] end|]). apply Forall_nil.
        + rewrite !samples_same, !all_pass_one.
          assert (plain neg2 (operand neg2)) as PN by (apply near_plain; [exact DN|change (2 ^ 30) with 1073741824 in *; lia]).
          apply Forall_cons; [|apply Forall_cons; [|apply Forall_nil]].
          * rewrite three_exact by (apply HL || exact PN). unfold modpow_ends, power_mod.
            destruct (Z.ltb_spec (operand neg2) 0); [reflexivity|lia].
          * rewrite modulus_literal by (apply HL || apply H1). rewrite modpow_by_zero by apply H1.
            replace (2 ^ 32 <=? operand pos1) with false by (symmetry; apply Z.leb_gt; change (2 ^ 32) with 4294967296; lia).
            rewrite andb_false_r. reflexivity.
    Qed.
  End Arrays.

  (** The law: both texts end with the same number. *)
  Theorem modpow_axiom_exact large small pos1 : counting_array large -> counting_array small -> counting_array pos1 ->
    operand small < 2 ^ bits_max -> operand pos1 <= 255 ->
    modpow_axiom ident large small pos1 = modpow_ends (dbg c) (operand small) (operand pos1) (operand large).
  Proof.
    intros ((DL & _) & PL) ((DS & _) & PS) ((D1 & _) & P1) BS B1. unfold modpow_axiom. rewrite samples_same, all_pass_one.
    rewrite identity_exact; [|exact Hc|].
    - unfold three.
      rewrite (ends_print fuel c large _ [] [] false DL), (ends_print fuel c pos1 _ _ _ false D1), (ends_print fuel c small _ _ _ false DS).
      change (tokens "tModPow") with ["tModPow"%string].
      cbn [ends_with starts_with Ascii.eqb Bool.eqb lookup lib_ternary_table String.eqb]. unfold modpow_ends.
      destruct (power_mod (dbg c) (operand small) (operand pos1) (operand large)) as [v| | | |] eqn:PM; cbn [bind]; auto.
      assert (operand large <> 0) as NZ.
      { intros E. rewrite E in PM. unfold power_mod in PM. destruct (operand pos1 <? 0); [discriminate PM|].
        change (0 =? 0) with true in PM. cbv iota in PM. destruct (_ && _); discriminate PM. }
      rewrite !Z.eqb_refl. cbn [orb negb].
      rewrite (ends_print fuel c large _ [] [] false DL), (ends_print fuel c pos1 _ _ _ false D1), (ends_print fuel c small _ _ _ false DS).
      change (tokens ("bPow" ++ " bRemainder")) with ["bPow"; "bRemainder"]%string.
      cbn [ends_with starts_with Ascii.eqb Bool.eqb lookup lib_binary_table ref_binary_table String.eqb].
      rewrite (pow_value c Hc) by (right; split; [lia|lia]). cbn [bind]. unfold ref_power, an_int, ref_exponent.
      destruct (Z.leb_spec (- 2 ^ 31) (operand pos1)) as [|F]; [|change (2 ^ 31) with 2147483648 in F; lia].
      destruct (Z.ltb_spec (operand pos1) (2 ^ 31)) as [|F]; [|change (2 ^ 31) with 2147483648 in F; lia]. cbn [andb].
      destruct (Z.ltb_spec (operand pos1) 0); [lia|]. cbn [bind].
      unfold divided. destruct (Z.eqb_spec (operand large) 0); [contradiction|]. cbn [bind].
      rewrite !Z.eqb_refl. cbn [orb negb hd_error compared]. unfold same_text.
      destruct (text v) as [t| | | |]; reflexivity.
    - intros op [H|H] L.
      + unfold three in H. apply (print_no_log _ _ _ DL L), (print_no_log _ _ _ D1 L), (print_no_log _ _ _ DS L) in H.
        cbv in H. destruct H as [<-|[]]. destruct L as [L|[L|L]]; discriminate L.
      + apply (print_no_log _ _ _ DL L), (print_no_log _ _ _ D1 L), (print_no_log _ _ _ DS L) in H.
        cbv in H. destruct H as [<-|[<-|[]]]; destruct L as [L|[L|L]]; discriminate L.
  Qed.

  Lemma boundary_step t n :
    In (t, n) [("4294967296.000000"%string, signed_decimal "4294967296.000000"); ("8589934592.000000"%string, signed_decimal "8589934592.000000");
               ("34359738368.000000"%string, signed_decimal "34359738368.000000"); ("2"%string, 2)] ->
    forall ops st, verdict fuel c false (t :: ops) None st = verdict fuel c false ops None (n :: st).
  Proof. intros I ops st. destruct I as [I|[I|[I|[I|[]]]]]; injection I as <- <-; reflexivity. Qed.

  Theorem modpow_boundary_passes : modpow_boundary run = Ret true.
  Proof.
    unfold modpow_boundary.
    assert (forall e n, In (e, n) [("4294967296.000000"%string, signed_decimal "4294967296.000000"); ("8589934592.000000"%string, signed_decimal "8589934592.000000")] ->
      run ("34359738368.000000" ++ " " ++ e ++ " 2 tModPow")%string = Ret true) as K.
    { intros e n I.
      assert (tokens ("34359738368.000000" ++ " " ++ e ++ " 2 tModPow") = ["34359738368.000000"; e; "2"; "tModPow"]%string) as T
        by (destruct I as [I|[I|[]]]; injection I as <- <-; reflexivity).
      rewrite (verify_exact fuel c s1 m1 s2 m2 false _ Hc).
      - rewrite T.
        rewrite (boundary_step "34359738368.000000" (signed_decimal "34359738368.000000") ltac:(cbn; auto)).
        rewrite (boundary_step e n ltac:(destruct I as [I|[I|[]]]; injection I as <- <-; cbn; auto)).
        rewrite (boundary_step "2" 2 ltac:(cbn; auto)).
        rewrite verdict_modpow. apply modpow_ok; [lia| |].
        + destruct I as [I|[I|[]]]; injection I as <- <-; vm_compute; discriminate.
        + split; vm_compute; reflexivity.
      - rewrite T. intros t [<-|[<-|[<-|[<-|[]]]]] L; [| |destruct L as [L|[L|L]]; discriminate L|destruct L as [L|[L|L]]; discriminate L].
        + destruct L as [L|[L|L]]; discriminate L.
        + destruct I as [I|[I|[]]]; injection I as <- <-; destruct L as [L|[L|L]]; discriminate L. }
    apply all_pass_true. apply Forall_cons; [|apply Forall_cons; [|apply Forall_nil]].
    - exact (K "4294967296.000000"%string _ (or_introl eq_refl)).
    - exact (K "8589934592.000000"%string _ (or_intror (or_introl eq_refl))).
  Qed.
End Run.

(** ** The test of greatest common divisors *)
Section Gcd.
  Context (fuel : nat) (c : cfg) (s1 m1 : string -> bigint -> outcome bigint) (s2 m2 : string -> bigint -> bigint -> outcome bigint) (Hc : strict c = false).
  Notation run := (verify (S fuel) c s1 m1 s2 m2 false).
  Notation ident := (verify_identity (S fuel) c s1 m1 s2 m2).
  Local Ltac no_log := let T := fresh in intros T; destruct T as [T|[T|T]]; discriminate T.
  Local Ltac named := let t := fresh in let H := fresh in let T := fresh in intros t H T; cbv in H;
    repeat (destruct H as [<-|H]; [destruct T as [T|[T|T]]; discriminate T|]); contradiction.

  Lemma gcd_two l1 l2 : counting_array l1 -> counting_array l2 -> l1 = l2 \/ Z.min (operand l1) (operand l2) < 2 ^ 64 ->
    two run "bGCD" l1 l2 = Ret true.
  Proof.
    intros (P1 & O1) (P2 & O2) H.
    assert (actual_gcd (S fuel) (dbg c) (operand l2) (operand l1) = Ret (Z.gcd (operand l2) (operand l1))) as G.
    { destruct H as [<-|H]; [rewrite gcd_itself by lia; now rewrite Z.gcd_diag_nonneg|]. apply gcd_short; [lia|lia|now rewrite Z.min_comm]. }
    erewrite two_exact; [|exact Hc|exact P2|exact P1|reflexivity|no_log|reflexivity|reflexivity|reflexivity|exact G].
    apply written_ok.
    destruct P1 as (_ & _ & T1), P2 as (_ & _ & T2).
    destruct (Z.eq_dec (operand l2) 0) as [E|N]; [rewrite E; rewrite Z.gcd_0_l, Z.abs_eq by lia; exact T1|].
    destruct H as [->|H]; [rewrite Z.gcd_diag_nonneg by lia; exact T2|].
    destruct (Z.eq_dec (operand l1) 0) as [E|N1]; [rewrite E; rewrite Z.gcd_0_r, Z.abs_eq by lia; exact T2|].
    assert (Z.gcd (operand l2) (operand l1) <= Z.min (operand l1) (operand l2)) as U.
    { apply Z.min_glb; (apply Z.divide_pos_le; [lia|]); [apply Z.gcd_divide_r|apply Z.gcd_divide_l]. }
    pose proof (Z.gcd_nonneg (operand l2) (operand l1)).
    apply (text_bound _ 64); [|change (2 ^ 32) with 4294967296; lia]. lia.
  Qed.

  Theorem gcd_test_passes large small : counting_array large -> counting_array small -> operand small < 2 ^ 64 ->
    gcd_test run ident large small = Ret true.
  Proof.
    intros HL HS BS. unfold gcd_test. rewrite !samples_same, !all_pass_one.
    assert (counting_array [0]) as H0 by (split; [exact zero_plain|vm_compute; discriminate]).
    assert (operand [0] < 2 ^ 64) as B0 by (vm_compute; reflexivity).
    apply all_pass_true. repeat apply Forall_cons; [| | | | | | |apply Forall_nil].
    - apply gcd_two; auto.
    - apply gcd_two; auto.
    - apply all_pass_true. repeat apply Forall_cons; [| |apply Forall_nil]; apply gcd_two; auto; right; lia.
    - apply all_pass_true. repeat apply Forall_cons; [| |apply Forall_nil]; apply gcd_two; auto; right; lia.
    - apply all_pass_true. repeat apply Forall_cons; [| |apply Forall_nil]; apply gcd_two; auto; right; lia.
    - apply (ident_closed _ _ _ _ _ _ Hc _ _ 1); [split; [|named]|split; [|named]|reflexivity].
      + generalize Hc; generalize c as c'; intros [d' s'] Hs; cbn in Hs; subst s'. vm_compute. reflexivity.
      + generalize Hc; generalize c as c'; intros [d' s'] Hs; cbn in Hs; subst s'. vm_compute. reflexivity.
    - destruct HL as ((D & _ & T) & P).
      assert (text_ends (S fuel) c (print_bytes large ++ print_bytes large ++ print_bytes large ++ "bGCD bGCD") (Ret (operand large))) as K.
      { split.
        - rewrite !(ends_print (S fuel) c large _ _ _ false D). change (tokens "bGCD bGCD") with ["bGCD"; "bGCD"]%string.
          cbn [ends_with starts_with Ascii.eqb Bool.eqb lookup lib_binary_table ref_binary_table String.eqb].
          rewrite gcd_itself by lia. cbn [bind]. rewrite Z.gcd_diag_nonneg by lia. rewrite !Z.eqb_refl. cbn [orb negb].
          rewrite gcd_itself by lia. cbn [bind]. reflexivity.
        - apply (print_log large _ D), (print_log large _ D), (print_log large _ D). named. }
      apply (ident_closed _ _ _ _ _ _ Hc _ _ (operand large)); auto.
  Qed.
End Gcd.

(** ** With the arrays that the tests draw *)
Section Draws.
  Context {E : Type} (draw : E -> Z -> Z -> Z * E) (copied : bool) (B : in_bounds draw).

  Lemma positive_counting n e l : (0 < n <= 1024)%nat -> positive_bytes draw n e = Ret l -> counting_array l /\ digits 256 l /\ List.length l = n.
  Proof.
    intros N H. destruct (positive_random draw n e ltac:(lia) ltac:(lia)) as (l' & R & L & P & O). rewrite R in H. injection H as <-.
    split; [split; [exact P|apply O]|]. split; [apply P|exact L].
  Qed.

  Theorem gcd_passes fuel c s1 m1 s2 m2 e : strict c = false ->
    gcd_test (verify (S fuel) c s1 m1 s2 m2 false) (verify_identity (S fuel) c s1 m1 s2 m2)
      (any_bytes draw copied 1 100 e) (get_random_bytes draw 2 e) = Ret true.
  Proof.
    intros Hc. pose proof (small_random draw B 2 e ltac:(lia)) as RS.
    apply (gcd_test_passes fuel c s1 m1 s2 m2 Hc).
    - apply random_counting, any_random; [exact B|lia].
    - apply random_counting, RS.
    - pose proof (next_bytes_low draw 2 B e) as (L & N).
      apply (Z.lt_trans _ (2 ^ 24)); [apply (two_bytes _ L N)|reflexivity].
  Qed.

  Theorem modpow_drawn fuel c s1 m1 s2 m2 e n e' pos1 pos2 neg2 pos : strict c = false -> (0 < n <= 100)%nat ->
    positive_bytes draw 1 e = Ret pos1 -> positive_bytes draw 2 e = Ret pos2 -> negative_bytes draw 2 e = Ret neg2 ->
    positive_bytes draw n e' = Ret pos ->
    let run := verify fuel c s1 m1 s2 m2 false in
    let large := any_bytes draw copied 1 100 e in let small := get_random_bytes draw 2 e in
    let ends x e z := modpow_ends (dbg c) (operand x) (operand e) (operand z) in
    modpow_valid_small run = Ret true /\ modpow_boundary run = Ret true /\
    modpow_negative run large pos1 neg2 = Ret true /\
    modpow_small run small pos2 = by_zero (operand small) /\
    modpow_one_large run large small pos1 pos2 pos = all_pass [ends small pos small; ends large pos2 small; ends small pos1 large] /\
    modpow_two_large run large small pos = ends large pos small /\
    modpow_zero_power run large small = all_pass [by_zero (operand small); by_zero (operand large)] /\
    modpow_zero_base run large small pos2 pos =
      all_pass (map (fun '(e, z) => modpow_ends (dbg c) 0 (operand e) (operand z)) [(pos2, small); (pos2, large); (pos, small); (pos, large)]) /\
    modpow_axiom (verify_identity fuel c s1 m1 s2 m2) large small pos1 = ends small pos1 large.
  Proof.
    intros Hc N R1 R2 RN RP run large small ends.
    destruct (positive_counting 1 e pos1 ltac:(lia) R1) as (C1 & D1 & L1).
    destruct (positive_counting 2 e pos2 ltac:(lia) R2) as (C2 & D2 & L2).
    destruct (positive_counting n e' pos ltac:(lia) RP) as (CP & _ & _).
    assert (random_array large) as RL by (apply any_random; [exact B|lia]).
    assert (random_array small) as RS by (apply small_random; [exact B|lia]).
    pose proof (random_counting large RL) as CL. pose proof (random_counting small RS) as CS.
    pose proof (byte_exponent pos1 D1 L1) as A1. pose proof (two_signed pos2 D2 L2) as A2.
    destruct (negative_random draw 2 e ltac:(lia)) as (l & R & L & D & _ & O). rewrite RN in R. injection R as <-.
    pose proof (two_signed neg2 D L) as AN.
    destruct (modpow_tests_exact fuel c s1 m1 s2 m2 Hc large small pos1 pos2 pos CL CS C1 C2 CP) as (E1 & E2 & E3 & E4 & E5).
    destruct (modpow_negative_passes fuel c s1 m1 s2 m2 Hc large pos1 neg2 CL C1 D) as (N1 & N2).
    { change (2 ^ 24) with 16777216 in AN. change (2 ^ 30) with 1073741824. lia. }
    { lia. }
    split; [exact N1|]. split; [exact (modpow_boundary_passes fuel c s1 m1 s2 m2 Hc)|]. split; [exact N2|].
    split; [|split; [exact E2|split; [exact E3|split; [exact E4|split; [exact E5|]]]]].
    - unfold run. rewrite E1. change (2 ^ 24) with 16777216 in A2.
      unfold by_zero. destruct (Z.eqb_spec (operand small) 0) as [Hz|Hz].
      + rewrite Hz, modpow_by_zero by apply C2.
        replace (2 ^ 32 <=? operand pos2) with false by (symmetry; apply Z.leb_gt; change (2 ^ 32) with 4294967296; lia).
        now rewrite andb_false_r.
      + apply modpow_ok; [apply CS|apply C2|]. destruct CS as (_ & PS).
        pose proof (next_bytes_low draw 2 B e) as (LL & LN). destruct (two_bytes _ LL LN) as (_ & U).
        split; [lia|]. apply (Z.lt_trans _ (2 ^ 24)); [exact U|reflexivity].
    - apply (modpow_axiom_exact fuel c s1 m1 s2 m2 Hc large small pos1 CL CS C1); [apply random_bound, RS|lia].
  Qed.
End Draws.

(** ** A negative number without blanks *)
Lemma no_blanks l : ~ In 32 l -> blanks_lost l = l.
Proof.
  induction l as [|b l IH]; intros H; [reflexivity|]. unfold blanks_lost in *. cbn [flat_map]. cbn [In] in H.
  destruct (Z.eqb_spec b 32) as [->|]; [exfalso; auto|]. cbn [app]. f_equal. apply IH. tauto.
Qed.

Theorem shift_without_blanks {E : Type} (draw : E -> Z -> Z -> Z * E) c e l n : strict c = false ->
  negative_bytes draw 100 e = Ret l -> ~ In 32 l ->
  (-1000 <= n <= -800 -> shift_ends c (operand l) (operand (int_bytes n)) = if_written (operand l)) /\
  (800 <= n <= 1000 -> shift_ends c (operand l) (- operand (int_bytes n)) = if_written (operand l)).
Proof.
  intros Hc R NB. destruct (negative_random draw 100 e ltac:(discriminate)) as (l' & R' & L & D & NG & _). rewrite R in R'. injection R' as <-.
  assert (operand l = complement 256 l) as OC by (unfold operand; now rewrite no_blanks).
  assert (- 2 ^ 799 <= operand l < 0) as HX.
  { rewrite OC. split; [|exact NG]. clear OC NB R. destruct (exists_last (l := l) ltac:(intros ->; discriminate L)) as (l' & b & ->).
    rewrite app_length in L. cbn [List.length] in L. assert (List.length l' = 99%nat) as L' by lia. clear L.
    apply Forall_app in D as (D' & Db). inversion Db; subst.
    pose proof (pos_bound 256 ltac:(lia) l' D') as PB. unfold bp in PB. rewrite L' in PB.
    revert NG. unfold complement. rewrite pos_app, last_last, app_length, L' by lia. unfold bp. cbn [List.length Nat.add positional].
    change (Z.of_nat 100) with 100. change (Z.of_nat 99) with 99 in *.
    replace (256 ^ 100) with (512 * 2 ^ 791 * 1) by reflexivity. replace (256 ^ 99) with (2 * 2 ^ 791) by reflexivity.
    replace (256 ^ 99) with (2 * 2 ^ 791) in PB by reflexivity. replace (2 ^ 799) with (256 * 2 ^ 791) by reflexivity.
    generalize dependent (2 ^ 791). intros h. generalize (positional 256 l'). intros p PB.
    match goal with |- context [?p <=? ?q] => destruct (Z.leb_spec p q) as [G|G] end; intros NG; nia. }
  split; intros Hn.
  - destruct (int_second_value "b<<" 1 (-1000) (-800) n ltac:(cbn; auto) Hn) as (_ & _ & S).
    apply shift_to_minus_one; [exact Hc|exact HX|lia].
  - destruct (int_second_value "b>>" (-1) 800 1000 n ltac:(cbn; auto) Hn) as (_ & _ & S).
    apply shift_to_minus_one; [exact Hc|exact HX|lia].
Qed.

(** ** Generators for the examples *)

(** The counter's value decides; a number from a distant range is [far] and leaves the engine as it is. *)
Definition scripted (script : Z -> Z) (far : Z) (e lo hi : Z) : Z * Z :=
  let clamp v := Z.min hi (Z.max lo v) in
  if (hi <=? -800) || (800 <=? lo) then (clamp far, e) else (clamp (script e), e + 1).
Lemma scripted_in_bounds script far : in_bounds (scripted script far).
Proof. intros e lo hi H. unfold scripted. destruct (_ || _); cbn [fst]; lia. Qed.
(** One, zeros, seventeen blanks and 255. *)
Definition seventeen_blanks (e : Z) : Z := if e =? 40 then 1 else if e <? 122 then 0 else if e <? 139 then 32 else 255.

(** ** Together *)
Theorem power_tests_pass fuel c s1 m1 s2 m2 : strict c = false ->
  forall {E : Type} (draw : E -> Z -> Z -> Z * E) (copied : bool), in_bounds draw -> forall e,
    let run := verify fuel c s1 m1 s2 m2 false in let ident := verify_identity fuel c s1 m1 s2 m2 in
    (pow_debug run = Ret true /\ pow_positive draw copied run e = Ret true) /\
    (pow_one draw copied ident e = Ret true /\ pow_zero draw copied ident e = Ret true) /\
    pow_boundary run = Ret true /\ pow_negative draw run e = Ret true /\ TestShifts.pow_overflow c = Ret true.
Proof.
  intros Hc E draw copied B e run ident. split; [apply pow_positive_passes; assumption|]. split; [apply pow_laws_pass; assumption|].
  split; [apply pow_boundary_passes; assumption|]. split; [apply pow_negative_passes; assumption|apply pow_overflow_passes].
Qed.

Theorem modpow_ends_family debug x e z : 0 <= x -> 0 <= e ->
  (0 < z < 2 ^ 992 -> modpow_ends debug x e z = Ret true) /\
  modpow_ends debug x e 0 = (if (x <? 2 ^ 31) && (2 ^ 32 <=? e) then Undef DivByZero else Throw DivideByZero).
Proof. intros X H. split; [now apply modpow_ok|]. rewrite modpow_by_zero by exact H. now rewrite Z.abs_eq. Qed.
