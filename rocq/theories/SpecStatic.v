(** Specification vocabulary: calls made before the constants of BigInteger.cpp
    are initialised, on integers. *)
From Coq Require Import ZArith.
From Verif Require Import Machine Spec SpecGcd SpecActual.
Open Scope Z_scope.

(** The value -2^31. *)
Definition is_min (z : Z) : bool := z =? - 2 ^ 31.
(** Stored in the sign field. *)
Definition in_sign (x : Z) : bool := Z.abs x <? 2 ^ 31.
(** Fits in one two's complement dword. *)
Definition in_dword (x : Z) : bool := (- 2 ^ 31 <=? x) && (x <? 2 ^ 31).

(** An operation on two integers whose result is found by 64-bit arithmetic if both are small. *)
Definition lost_small (x y z : Z) : bool := in_sign x && in_sign y && is_min z.
(** A bitwise operation with result [z]. *)
Definition lost_bits (x y z : Z) : bool := if in_dword x && in_dword y then is_min z else z =? -1.
(** x >> n, n > 0: all bits of a negative number are shifted out. *)
Definition lost_shift (c : cfg) (x n : Z) : bool :=
  (x <? 0) && negb (strict c && (2 ^ 26 <=? limbs_of x)) && (int_of (32 * limbs_of x) <=? n).
(** x >> n for any [n]; 2^31 is done as 2^31 - 1 and then 1. *)
Definition lost_shift_by (c : cfg) (x n : Z) : bool :=
  if n <=? 0 then false
  else if n <? 2 ^ 31 then lost_shift c x n
  else lost_shift c x (2 ^ 31 - 1) || match right_shift c x (2 ^ 31 - 1) with Ret z => lost_shift c z 1 | _ => false end.
(** pow(x, e). *)
Definition lost_pow (x e : Z) : bool := (e =? 0) || ((x =? -1) && (0 <? e) && Z.even e).
(** [z] decoded from [n] dwords. *)
Definition lost_dwords (n : nat) (z : Z) : bool := if Nat.leb n 1 then is_min z else z =? -1.
(** [z] decoded from [n] bytes. *)
Definition lost_bytes (c : cfg) (n : nat) (z : Z) : bool :=
  if Nat.leb n 4 then is_min z && negb (strict c) else is_min z || (z =? -1).

(** The outcome [o], but 0 instead if the value is lost. *)
Definition unless (lost : bool) (o : outcome bigint) : outcome bigint := if lost then Ret (Big 0 nil) else o.
