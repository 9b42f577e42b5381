(** Specification for integers of any size: what the bitwise operators and the
    conversions from and to 32-bit words do once the number of words no longer
    fits in an [int]. *)
From Coq Require Import ZArith List.
From Verif Require Import Machine Spec SpecGcd SpecActual SpecLimbs IntSizes.
Open Scope Z_scope.

(** The number of 32-bit words of the two's complement notation of [v]. *)
Definition words (v : Z) : Z := (Z.log2 (if v <? 0 then - v - 1 else v) + 1) / 32 + 1.

(** [x] with the words from number [r] on replaced by its sign. *)
Definition cut (x r : Z) : Z := x mod 2 ^ (32 * r) - (if x <? 0 then 2 ^ (32 * r) else 0).

(** The number whose words to_uint32_array gives for [x]. *)
Definition worded (c : cfg) (x : Z) : sized Z :=
  let r := int_of (limbs_of x - 1) + 1 in
  if r <=? 0 then Sized (Undef OutOfBounds)
  else if 2 ^ 31 <=? words (cut x r) then
    (if strict c then Sized (Undef SignedOverflow) else LengthError)
  else Sized (Ret (cut x r)).

Definition bitwise_any (c : cfg) (op : Z -> Z -> Z) (x y : Z) : sized Z :=
  match worded c x, worded c y with
  | Sized (Ret v), Sized (Ret w) => Sized (Ret (op v w))
  | Sized (Ret _), other | other, _ => other
  end.
Definition xor_any (c : cfg) (x y : Z) : sized Z := bitwise_any c Z.lxor x y.
Definition and_any (c : cfg) (x y : Z) : sized Z :=
  if (x =? 0) || (y =? 0) then Sized (Ret 0) else bitwise_any c Z.land x y.
Definition or_any (c : cfg) (x y : Z) : sized Z :=
  if x =? 0 then Sized (Ret y) else if y =? 0 then Sized (Ret x) else bitwise_any c Z.lor x y.
