(** Property theorems: the byte order argument of to_biginteger in the Python bindings. *)
From Verif Require Import Machine Spec SpecPos SpecPy SpecPyOrder BigInt PyBind PyOrderFacts Examples.

(** C99. to_biginteger(value, is_bigendian) gives value in either byte order. True of the default
    order (C35), the only one the bindings use. With is_bigendian the bytes are written highest first and
    read lowest first. What every such call does: *)
Theorem C99_big_endian : forall c v,
  strict c = false \/ 0 <= reread v \/ reread v < - 2 ^ 31 -> returns (to_biginteger c false v true) (reread v).
Proof. exact big_endian_returns. Qed.
Print Assumptions C99_big_endian.
Theorem C99_zero : forall c, returns (to_biginteger c true 0 true) 0.
Proof. exact big_endian_zero. Qed.
Print Assumptions C99_zero.
Theorem C99_exact : forall v, reread v = v <-> rev (bytes_of_int v) = bytes_of_int v.
Proof. exact reread_exact. Qed.
Print Assumptions C99_exact.
Example C99_case :
  bytes_of_int 66051 = [3; 2; 1] /\ reread 66051 = 197121 /\ bytes_of_int (-129) = [127; 255] /\ reread (-129) = 32767 /\
  bytes_of_int (-32769) = [255; 127; 255] /\ reread (-32769) = -32769 /\
  to_biginteger debug_strict false 66051 true = Ret (Big 197121 []) /\
  to_biginteger debug_strict false (-129) true = Ret (Big 32767 []) /\
  to_biginteger release_wrap false (-32769) true = Ret (Big (-32769) []) /\
  to_biginteger debug_strict false (2 ^ 40 + 7) true = Ret (Big 1 [1; 1792]).
Proof. repeat split; vm_compute; reflexivity. Qed.

(** The claim holds of numbers of one byte, *)
Theorem C99_partial : forall c v,
  -128 <= v < 256 -> strict c = false \/ 0 <= v -> returns (to_biginteger c false v true) v.
Proof. exact big_endian_short. Qed.
Print Assumptions C99_partial.

(** and of no number whose bytes differ when reversed. *)
Theorem C99_refuted : forall c v,
  strict c = false -> rev (bytes_of_int v) <> bytes_of_int v ->
  exists z, z <> v /\ returns (to_biginteger c false v true) z.
Proof. exact big_endian_wrong. Qed.
Print Assumptions C99_refuted.
Example C99_refuted_case : bytes_of_int 256 = [0; 1] /\ to_biginteger release_wrap false 256 true = Ret (Big 1 []).
Proof. repeat split; vm_compute; reflexivity. Qed.
