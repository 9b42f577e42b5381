(** Lemmas on PyLog.v quoted by PropLogDouble.v. *)
From Coq Require Import ZArith Reals.
From Verif Require Import Machine Spec SpecApi SpecDouble BigInt SpecLog SpecLogDouble BigIntLogDouble LogDoubleFacts PyBind PyFacts PyLog.

Lemma py_log_total logf c z v n base :
  libm_log logf -> (z = true -> v = 0%Z) -> strict c = false \/ (0 <= v)%Z \/ (v < - 2 ^ 31)%Z ->
  limb_count v n -> (n <= 2 ^ 57)%Z -> dbl_pattern base ->
  exists r, py_log_int logf c z v base = Ret r /\ log_meaning v base r.
Proof.
  intros L Z H N B P. destruct (of_py_returns c z v Z H) as (b & E & R). unfold py_log_int. rewrite E.
  exact (log_total logf c b v n base L R N B P).
Qed.

Lemma py_log_strict logf c v base :
  strict c = true -> (- 2 ^ 31 <= v < 0)%Z -> v <> (- 2 ^ 24)%Z -> py_log_int logf c false v base = Undef ShiftNegative.
Proof. intros S H N. unfold py_log_int. now rewrite (of_py_strict c v S H N). Qed.

Lemma py_ln_accurate logf c v n :
  libm_log logf -> (1 <= v)%Z -> limb_count v n -> (n <= 2 ^ 57)%Z ->
  exists r, py_ln_int logf c false v = Ret r /\ is_finite r = true /\
    (Rabs (B2R r - ln (IZR v)) <= / 2 ^ 47 * Rabs (ln (IZR v)))%R.
Proof.
  intros L V N B. destruct (of_py_returns c false v ltac:(discriminate) ltac:(right; left; apply Z.le_trans with 1%Z; [discriminate|exact V])) as (b & E & R).
  unfold py_ln_int. rewrite E. exact (ln_accurate logf c b v n L R V N B).
Qed.

Lemma py_log10_accurate logf c v n :
  libm_log logf -> (1 <= v)%Z -> limb_count v n -> (n <= 2 ^ 57)%Z ->
  exists r, py_log10_int logf c false v = Ret r /\ is_finite r = true /\
    (Rabs (B2R r - ln (IZR v) / ln 10) <= / 2 ^ 48 * Rabs (ln (IZR v) / ln 10))%R.
Proof.
  intros L V N B. destruct (of_py_returns c false v ltac:(discriminate) ltac:(right; left; apply Z.le_trans with 1%Z; [discriminate|exact V])) as (b & E & R).
  unfold py_log10_int. rewrite E. exact (log10_accurate logf c b v n L R V N B).
Qed.
