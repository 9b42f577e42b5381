(** Model of the log functions of the Python module
    (bindings/python/python-bindings.cpp:332-341) on an int argument; on a
    BigInteger they are BigInteger::log and log10 themselves. *)
From Coq Require Import ZArith.
From Verif Require Import Machine BigInt PyBind BigIntLogDouble.
Open Scope Z_scope.

(** log(value, base_value): 337-339 *)
Definition py_log_int (logf : double -> double) (c : cfg) (z : bool) (v base : Z) : outcome double :=
  b <- of_py c z v ;; bi_log_double logf c b base.
(** log(value): 333; log10(value): 341 *)
Definition py_ln_int (logf : double -> double) (c : cfg) (z : bool) (v : Z) : outcome double :=
  b <- of_py c z v ;; bi_ln_double logf c b.
Definition py_log10_int (logf : double -> double) (c : cfg) (z : bool) (v : Z) : outcome double :=
  b <- of_py c z v ;; bi_log10_double logf c b.
