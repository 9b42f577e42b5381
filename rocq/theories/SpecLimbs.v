(** Specification for integers of any size: what comparison, equality and shifts
    do once the number of 32-bit limbs no longer fits in an [int]. *)
From Coq Require Import ZArith List.
From Verif Require Import Machine Spec SpecGcd SpecActual IntSizes.
Import ListNotations.
Open Scope Z_scope.

(** The number of limbs as the [int] the code holds. *)
Definition int_limbs (x : Z) : Z := int_of (limbs_of x).

(** The magnitude in the lowest [r] limbs; none if [r] is negative. *)
Definition low (x r : Z) : Z := Z.abs x mod 2 ^ (32 * Z.max 0 r).

Definition order (x y : Z) : Z := match x ?= y with Lt => -1 | Eq => 0 | Gt => 1 end.

(** Both are stored in limb arrays and have the same sign. *)
Definition both_long (x y : Z) : bool :=
  (2 ^ 31 <=? Z.abs x) && (2 ^ 31 <=? Z.abs y) && (Z.sgn x =? Z.sgn y).

(** How many limbs a loop over [r] of them visits. Counting down from the least
    int overflows; where that wraps, it visits 2^31. *)
Definition visited (c : cfg) (r : Z) : outcome Z :=
  if r =? - 2 ^ 31 then (if strict c then Undef SignedOverflow else Ret (2 ^ 31)) else Ret r.

Definition compared (c : cfg) (x y : Z) : outcome Z :=
  if both_long x y then
    if int_limbs x =? int_limbs y then
      r <- visited c (int_limbs x) ;; Ret (Z.sgn x * order (low x r) (low y r))
    else Ret (Z.sgn x * order (int_limbs x) (int_limbs y))
  else Ret (order x y).

Definition found_equal (c : cfg) (x y : Z) : outcome bool :=
  if x =? y then Ret true
  else if both_long x y && (limbs_of x =? limbs_of y) then
    r <- visited c (int_limbs x) ;; Ret (low x r =? low y r)
  else Ret false.

(** x << n for 0 < n < 2^31. *)
Definition shl_any (c : cfg) (x n : Z) : sized Z :=
  let r := int_limbs x in
  if 2 ^ 31 <=? r + n / 32 + 1 then (if strict c then Sized (Undef SignedOverflow) else LengthError)
  else if r + n / 32 + 1 <? 0 then LengthError
  else if 0 <=? r then Sized (Ret (Z.sgn x * low x r * 2 ^ n))
  else if n mod 32 =? 0 then Sized (Ret 0)
  else Sized (Undef OutOfBounds).

(** x >> n for 0 < n < 2^31. *)
Definition shr_any (c : cfg) (x n : Z) : outcome Z :=
  let r := int_limbs x in
  if 0 <=? x then
    if strict c && ((r =? - 2 ^ 31) || (r - n / 32 <? - 2 ^ 31)) then Undef SignedOverflow
    else if r =? - 2 ^ 31 then
      (if n <? 32 then Undef OutOfBounds else Ret (low x (2 ^ 31) / 2 ^ n))
    else Ret (low x r / 2 ^ n)
  else if strict c && ((2 ^ 26 <=? r) || (r <? - 2 ^ 26)) then Undef SignedOverflow
  else if int_of (32 * r) <=? n then Ret (-1)
  else if r <? 0 then Ret 0
  else
    let m := x mod 2 ^ (32 * r) in
    if (n mod 32 =? 0) && (m <? 2 ^ n) then Ret 0 else Ret ((m - 2 ^ (32 * r)) / 2 ^ n).

(** Shifts by any int. *)
Definition left_any (c : cfg) (x n : Z) : sized Z :=
  if n =? 0 then Sized (Ret x)
  else if n =? - 2 ^ 31 then Sized (y <- shr_any c x (2 ^ 31 - 1) ;; shr_any c y 1)
  else if n <? 0 then Sized (shr_any c x (- n))
  else shl_any c x n.
Definition right_any (c : cfg) (x n : Z) : sized Z :=
  if n =? 0 then Sized (Ret x)
  else if n =? - 2 ^ 31 then
    match shl_any c x (2 ^ 31 - 1) with Sized (Ret y) => shl_any c y 1 | other => other end
  else if n <? 0 then shl_any c x (- n)
  else Sized (shr_any c x n).

(** A call does what [z] says. *)
Definition sized_denotes (o : sized bigint) (z : sized Z) : Prop :=
  match z, o with
  | Sized z, Sized o => denotes o z
  | LengthError, LengthError => True
  | _, _ => False
  end.
