(** Specification for integers of any size: what conversions and predicates do
    once the number of 32-bit limbs no longer fits in an [int]. *)
From Coq Require Import ZArith List.
From Verif Require Import Machine Spec SpecGcd SpecActual SpecDouble SpecHelpers SpecPyRun SpecLimbs.
Open Scope Z_scope.

(** Limb [i] of the magnitude. *)
Definition limb_at (x i : Z) : Z := (Z.abs x / 2 ^ (32 * i)) mod 2 ^ 32.

(** Zero or a power of two. *)
Definition one_bit (h : Z) : bool := (h =? 0) || (h =? 2 ^ Z.log2 h).

(** The index of the limb taken for the highest; it is read. *)
Definition top_index (c : cfg) (x : Z) : outcome Z :=
  r <- visited c (int_limbs x) ;; if r <=? 0 then Undef OutOfBounds else Ret (r - 1).

Definition power_of_two_any (x : Z) : outcome bool :=
  if Z.abs x <? 2 ^ 31 then Ret ((0 <? x) && one_bit x)
  else if x <? 0 then Ret false
  else
    let i := int_of (limbs_of x - 1) in
    if i <? 0 then Undef OutOfBounds else Ret (one_bit (limb_at x i) && (low x i =? 0)).

(** get_bit_length for 2^31 <= |x|. A negative length comes out as an unsigned
    64-bit number. *)
Definition bit_length_any (c : cfg) (x : Z) : outcome Z :=
  i <- top_index c x ;;
  let h := limb_at x i in
  let bits := 32 * int_limbs x - zeros_before 32 h in
  Ret ((if (x <? 0) && one_bit h && (low x i =? 0) then bits - 1 else bits) mod 2 ^ 64).

(** The limbs a conversion to 64 bits takes. *)
Definition taken (x : Z) : Z := if 1 <? int_limbs x then low x 2 else low x 1.

Definition long_any (c : cfg) (x : Z) : outcome Z :=
  if Z.abs x <? 2 ^ 31 then Ret x
  else if 2 <? int_limbs x then Throw OverflowError
  else if (taken x =? 0) || (2 ^ 63 <? taken x) then Throw OverflowError
  else if taken x =? 2 ^ 63 then
    (if 0 <? x then Throw OverflowError else if strict c then Undef SignedOverflow else Ret (- 2 ^ 63))
  else Ret (Z.sgn x * taken x).

Definition ulong_any (x : Z) : outcome Z :=
  if x <? 0 then Throw OverflowError
  else if x <? 2 ^ 31 then Ret x
  else if 2 <? int_limbs x then Throw OverflowError
  else Ret (taken x).

Definition hash_any (c : cfg) (x : Z) : outcome Z :=
  if Z.abs x <? 2 ^ 31 then Ret x
  else r <- visited c (int_limbs x) ;; Ret (limb_hash (Z.to_nat r) (Z.abs x) (Z.sgn x)).

(** operator double for 2^31 <= |x|: the limbs below the index are taken for the
    number. A zero there is shifted by 64 bits, which is undefined. At the least
    int the length less two, times 32, wraps to -64. *)
Definition double_any (c : cfg) (x : Z) (o : outcome Z) : Prop :=
  let r := int_limbs x in
  if 32 <? r then o = Ret (if x <? 0 then minus_infinity else plus_infinity)
  else
    match top_index c x with
    | Ret i =>
        if limb_at x i =? 0 then o = Undef ShiftRange
        else if 0 <? r then exists d, o = Ret d /\ rounded_down d (x <? 0) (low x r) 0
        else exists d, o = Ret d /\ rounded_down d (x <? 0) (limb_at x i) (-32)
    | u => o = u
    end.
