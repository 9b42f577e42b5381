(** Lemmas on PyClassLog.v quoted by PropClass.v. *)
From Coq Require Import ZArith Reals String.
From Verif Require Import Machine Spec SpecApi SpecDouble SpecFloat SpecPy BigInt SpecLog SpecLogDouble BigIntLog BigIntLogDouble LogDoubleFacts WinLog WinLogFacts.
From Verif Require Import PyBind PyFacts PyFloat PyRun PyClass SpecPyClass PyClassFacts PyClassLog SpecPyLog.
From Coq Require Import Lia.
Import ListNotations.
Open Scope Z_scope.

Lemma log_base_same d logf c a base : libm_log logf -> dbl_pattern base -> log_base d logf c a base = bi_log_double logf c a base.
Proof. intros L P. destruct d; [reflexivity|]. now apply log_win. Qed.

Lemma int_float_exact v : py_int_float v = if Z.abs v <? 2 ^ 1024 - 2 ^ 970 then Some (dbl_of (round_even 53 v)) else None.
Proof.
  unfold py_int_float. cbv zeta. destruct (Z.ltb_spec (Z.abs v) (2 ^ 1024 - 2 ^ 970)) as [H|H].
  - apply round_even_bound in H. now rewrite (proj2 (Z.leb_gt _ _)) by exact H.
  - rewrite (proj2 (Z.leb_le _ _)); [reflexivity|].
    destruct (Z.le_gt_cases (2 ^ 1024) (Z.abs (round_even 53 v))) as [|G]; [assumption|]. apply round_even_bound in G. lia.
Qed.

Lemma as_double_exact c x v : is_value x v -> as_double true c x = float_of v.
Proof.
  intros H. destruct x as [a|n], v as [z|n']; try easy; cbn in H.
  - cbn [as_double float_of]. unfold py_float. rewrite (to_py_returns c a z H). cbn [bind]. rewrite int_float_exact.
    destruct (Z.abs z <? _); reflexivity.
  - subst n'. destruct n; cbn [as_double as_int float_of integer]; try reflexivity; apply int_float_exact.
Qed.

Lemma as_double_first c x base : as_double false c x = Some base -> as_double true c x = Some base.
Proof. destruct x as [a|[]]; cbn [as_double]; try discriminate; auto. Qed.

Lemma log_call_two d logf c x y :
  log_call d logf c false [x; y] =
  match x with
  | PBig a => option_map (log_base d logf c a) (as_double true c y)
  | PNative n => match as_int n, as_double true c y with
                 | Some (z, v), Some base => Some (b <- of_py c z v ;; log_base d logf c b base) | _, _ => None end
  end.
Proof.
  unfold log_call, log_methods. cbn [fold_right accept_log].
  pose proof (as_double_first c y) as F. destruct (as_double false c y) as [b|].
  - rewrite (F b eq_refl). destruct x as [a|n]; [reflexivity|]. destruct (as_int n) as [[z v]|]; reflexivity.
  - destruct x as [a|n]; cbn [option_map].
    + destruct (as_double true c y); reflexivity.
    + destruct (as_int n) as [[z v]|]; [|reflexivity]. destruct (as_double true c y); reflexivity.
Qed.

Lemma log_one d logf c x :
  log_call d logf c false [x] = log_call d logf c false [x; PNative (NFloat DBL_E)] /\
  log_call d logf c true [x] = log_call d logf c false [x; PNative (NFloat DBL_TEN)].
Proof.
  rewrite !log_call_two. unfold log_call, log_methods. cbn [fold_right accept_log as_double option_map].
  destruct x as [a|n]; [destruct d; split; reflexivity|]. destruct (as_int n) as [[z v]|]; [destruct d; split; reflexivity|split; reflexivity].
Qed.

Lemma log_call_total d logf c x y v w :
  libm_log logf -> is_value x v -> is_value y w -> float_ok w ->
  match log_operand v, float_of w with
  | Some z, Some base =>
      operand_defined c v z -> forall n, limb_count z n -> n <= 2 ^ 57 ->
      exists r, log_call d logf c false [x; y] = Some (Ret r) /\ log_meaning z base r
  | _, _ => log_call d logf c false [x; y] = None
  end.
Proof.
  intros L Hx Hy Ok. rewrite log_call_two, (as_double_exact c y w Hy).
  assert (forall base, float_of w = Some base -> dbl_pattern base) as P.
  { intros base E. assert (forall z, (if Z.abs z <? 2 ^ 1024 - 2 ^ 970 then Some (dbl_of (round_even 53 z)) else None) = Some base -> dbl_pattern base) as K.
    { intros z. destruct (Z.ltb_spec (Z.abs z) (2 ^ 1024 - 2 ^ 970)) as [H|H]; [|discriminate]. intros [= <-].
      apply round_even_bound in H. exact (proj1 (dbl_of_exact _ H (round_even_divides z))). }
    destruct w as [z|n]; [exact (K z E)|]. destruct n; cbn [float_of integer] in E; try discriminate E; try exact (K _ E).
    injection E as <-. exact Ok. }
  destruct x as [a|n], v as [z|n']; try easy; cbn in Hx; cbn [log_operand].
  - destruct (float_of w) as [base|]; [|reflexivity]. intros _ n N B. cbn [option_map].
    rewrite (log_base_same d logf c a base L (P base eq_refl)).
    destruct (log_total logf c a z n base L Hx N B (P base eq_refl)) as (r & -> & M). exists r. split; [reflexivity|exact M].
  - subst n'. pose proof (as_int_integer n) as I. destruct (as_int n) as [[s z]|].
    + destruct I as [-> I]. destruct (float_of w) as [base|]; [|reflexivity]. intros D k N B.
      destruct (of_py_returns c s z I D) as (b & E & R). rewrite E. cbn [bind].
      rewrite (log_base_same d logf c b base L (P base eq_refl)).
      destruct (log_total logf c b z k base L R N B (P base eq_refl)) as (r & -> & M). exists r. split; [reflexivity|exact M].
    + rewrite I. reflexivity.
Qed.
