(** Specification: what to_biginteger of the bindings makes of an int if it is
    asked for big-endian bytes. *)
From Coq Require Import ZArith List Bool.
From Verif Require Import SpecPos SpecPy.
Import ListNotations.
Open Scope Z_scope.

(** The bytes of an int, lowest first: as many as its magnitude takes, and one
    more if it is negative and all bits of these bytes are needed. *)
Definition bytes_of_int (v : Z) : list Z :=
  let n := (py_num_bits v + 7) / 8 in
  low_bytes (Z.to_nat (if (v <? 0) && (py_num_bits (- v - 1) mod 8 =? 0) then n + 1 else n)) v.

(** The int read from them in the other direction. *)
Definition reread (v : Z) : Z := bytes_value (0 <=? v) true (bytes_of_int v).
