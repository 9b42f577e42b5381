(** Specification vocabulary for the LLP64 (Windows) reading: integer
    arithmetic only. *)
From Coq Require Import ZArith Bool List String Ascii.
From Verif Require Import Machine Spec SpecText SpecDouble.
Open Scope Z_scope.

(** [x] is stored in the sign field alone. *)
Definition is_inline (x : Z) : bool := (- 2 ^ 31 <? x) && (x <? 2 ^ 31).

(** [b + s] without the carry out of bit 63. *)
Definition carry_dropped (b s : Z) : Z :=
  if 2 ^ 64 <=? b mod 2 ^ 64 + s then b + s - 2 ^ 64 else b + s.

(** The sum of two magnitudes, at least one of them not inline, as the LLP64
    build computes it. *)
Definition win_mag_sum (a b : Z) : Z :=
  if is_inline a then carry_dropped b a
  else if is_inline b then carry_dropped a b
  else a + b.

(** [x + y] in the LLP64 build; [None] is undefined behaviour. *)
Definition win_sum (x y : Z) : option Z :=
  if is_inline x && is_inline y then Some (x + y)
  else if xorb (x <? 0) (y <? 0) then None
  else Some (if x <? 0 then - win_mag_sum (- x) (- y) else win_mag_sum x y).

(** [x - y] in the LLP64 build. *)
Definition win_difference (x y : Z) : option Z :=
  if is_inline x && is_inline y then Some (x - y)
  else if xorb (x <? 0) (y <? 0)
  then Some (if x <? 0 then - win_mag_sum (- x) y else win_mag_sum x (- y))
  else None.

(** The call has undefined behaviour, or returns the integer. *)
Definition meets (o : outcome bigint) (z : option Z) : Prop :=
  match z with Some z => returns o z | None => o = Undef ShiftRange end.

(** [x] has at least 32 limbs. *)
Definition limbs32 (x : Z) : bool := 2 ^ 992 <=? Z.abs x.

(** [x * y] in the LLP64 build: undefined when both operands reach Karatsuba's
    threshold. *)
Definition win_product (x y : Z) : option Z :=
  if limbs32 x && limbs32 y then None else Some (x * y).

(** [x ^ e] in the LLP64 build, by repeated squaring from the lowest bit: the
    last square of an intermediate power, or the last product, may have two
    factors at the threshold. *)
Definition win_power (x e : Z) : option Z :=
  if limbs32 (x ^ 2 ^ (Z.log2 e - 1)) || limbs32 (x ^ (e - 2 ^ Z.log2 e)) then None else Some (x ^ e).

(** ~[x] in the LLP64 build. *)
Definition win_complement (x : Z) : option Z :=
  match win_sum x 1 with Some z => Some (- z) | None => None end.

(** operator long and operator unsigned long in the LLP64 build. *)
Definition win_long (wraps : bool) (x : Z) : outcome Z :=
  if is_inline x then Ret x
  else if x =? - 2 ^ 31 then (if wraps then Ret x else Undef SignedOverflow)
  else if Z.abs x <? 2 ^ 32 then Throw OverflowError
  else if Z.abs x <? 2 ^ 64 then Undef ShiftRange
  else Throw OverflowError.
Definition win_ulong (x : Z) : outcome Z :=
  if (x <? 0) || (2 ^ 64 <=? x) then Throw OverflowError
  else if x <? 2 ^ 32 then Ret x
  else Undef ShiftRange.

(** The number parse reads from a run of digits in the LLP64 build. *)
Definition win_digit (a d : Z) : Z :=
  if is_inline (a * 10) then a * 10 + d else carry_dropped (a * 10) d.
Definition win_decimal (s : string) : Z := fold_left win_digit (leading_digits s) 0.
Definition win_signed_decimal (s : string) : Z :=
  match s with
  | String "-"%char t => - win_decimal t
  | String "+"%char t => win_decimal t
  | _ => win_decimal s
  end.

(** BigInteger(double) in the LLP64 build, for a pattern whose bit 31 is clear. *)
Definition win_of_double (d : Z) : Z :=
  if dbl_exp d =? 2047 then dbl_signed d (dbl_frac d / 2) else dbl_trunc d.

(** The base mod_pow starts from: reduced only when it has more limbs than the
    modulus. *)
Definition win_base (x z : Z) : Z :=
  if Z.abs x <? 2 ^ (32 * (Z.log2 (Z.abs z) / 32 + 1)) then Z.abs x else Z.abs x mod Z.abs z.

(** mod_pow in the LLP64 build for a modulus of 32 limbs or more: the first
    reduction that has something to do is undefined. *)
Definition win_mod_pow (x e z : Z) : option Z :=
  if win_base x z ^ e <? Z.abs z then
    match win_power (win_base x z) e with
    | Some r => Some (if (x <? 0) && Z.odd e then - r else r)
    | None => None
    end
  else None.
