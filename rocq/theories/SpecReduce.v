(** Specification vocabulary: the length of a natural number in 32-bit limbs. *)
From Coq Require Import ZArith.
From Verif Require Import Machine CalcPowMod.
Open Scope Z_scope.

(** [k] is the number of limbs of [y >= 0]; zero has none. *)
Definition exact_length (y : Z) (k : nat) : Prop :=
  y < 2 ^ (32 * Z.of_nat k) /\ (k <> O -> 2 ^ (32 * (Z.of_nat k - 1)) <= y).

(** [red] is a FastReducer constructed for the limb array [m], possibly after
    any calls of its public member Reduce. *)
Inductive reducer_for (c : cfg) (m : list Z) : reducer -> Prop :=
| made red : reducer_make c m = Ret red -> reducer_for c m red
| used red v len k red' : reducer_for c m red ->
    reducer_reduce c red v len = Ret (k, red') -> reducer_for c m red'.

(** The calls mod_pow(x, e, z), e >= 0, that execute an undefined operation:
    a small base and a long exponent with modulus zero (division by zero), and
    a modulus that is a power of 2^32 of 32 or more limbs with a base of as
    many limbs whose square needs twice as many (write past a buffer). *)
Definition mod_pow_undefined (x e z : Z) : Prop :=
  z = 0 /\ Z.abs x < 2 ^ 31 /\ 2 ^ 32 <= e \/
  exists n, 32 <= n /\ Z.abs z = 2 ^ (32 * (n - 1)) /\ 2 <= e /\
    Z.abs x < 2 ^ (32 * n) /\ 2 ^ (32 * (2 * n - 1)) <= x * x.
