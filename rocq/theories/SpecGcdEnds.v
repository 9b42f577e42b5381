(** When the loop of greatest_common_divisor never ends. *)
From Verif Require Import Facts SpecGcd.

(** The rounds that settle the loop on operands of [log2 |x| + 1] and
    [log2 |y| + 1] bits. *)
Definition rounds_for (x y : Z) : Z := 2 * (Z.log2 (Z.abs x) + Z.log2 (Z.abs y)) + 4.

(** The main loop comes to buffers which a round leaves as they are, or which
    one round exchanges and the next exchanges back. *)
Inductive for_ever (debug : bool) : Z -> Z -> Z -> Z -> Prop :=
| unchanged x i y j : 2 ^ 64 <= y -> gcd_round debug x i y j = Ret (x, i, y, j) -> for_ever debug x i y j
| exchanged x i y j : 2 ^ 64 <= y -> 2 ^ 64 <= x ->
    gcd_round debug x i y j = Ret (y, j, x, i) -> gcd_round debug y j x i = Ret (x, i, y, j) -> for_ever debug x i y j
| later x i y j x' i' y' j' : 2 ^ 64 <= y -> gcd_round debug x i y j = Ret (x', i', y', j') ->
    for_ever debug x' i' y' j' -> for_ever debug x i y j.
(** greatest_common_divisor(x, y). *)
Definition gcd_for_ever (debug : bool) (x y : Z) : Prop :=
  for_ever debug (Z.max (Z.abs x) (Z.abs y)) 0 (Z.min (Z.abs x) (Z.abs y)) 0.
