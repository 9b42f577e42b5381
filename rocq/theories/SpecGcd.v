(** Vocabulary for greatest_common_divisor. *)
From Verif Require Import Machine SpecApi.

(** The code leaves Euclid's algorithm on [x >= y] when, with [X] the 63
    leading bits of [x] and [Y] the bits of [y] at the same scale, the quotient
    [X / Y] fits 31 bits and does not exceed the remainder. *)
Definition lehmer_step (x y : Z) : Prop :=
  exists k, 0 <= k /\ 2 ^ 62 <= x / 2 ^ k < 2 ^ 63 /\
    0 < y / 2 ^ k /\
    (x / 2 ^ k) / (y / 2 ^ k) < 2 ^ 31 /\
    (x / 2 ^ k) / (y / 2 ^ k) <= (x / 2 ^ k) mod (y / 2 ^ k).

(** Euclid's algorithm from [x >= y] reaches a second operand below 2^64
    without such a step. *)
Inductive euclid_run : Z -> Z -> Prop :=
| run_small x y : y < 2 ^ 64 -> euclid_run x y
| run_step x y : 2 ^ 64 <= y -> ~ lehmer_step x y -> euclid_run y (x mod y) -> euclid_run x y.

(** Euclid's algorithm from [x >= y] reaches such a step with operands of the
    same number of limbs, three or more. *)
Inductive lehmer_stuck : Z -> Z -> Prop :=
| stuck_here x y n : 2 ^ 64 <= y -> limb_count x n -> limb_count y n -> lehmer_step x y -> lehmer_stuck x y
| stuck_step x y : 2 ^ 64 <= y -> ~ lehmer_step x y -> lehmer_stuck y (x mod y) -> lehmer_stuck x y.

(** Euclid's algorithm from [x >= y] reaches such a step with operands of
    different numbers of limbs. *)
Inductive lehmer_uneven : Z -> Z -> Prop :=
| uneven_here x y n : 2 ^ 64 <= y -> limb_count x (n + 1) -> limb_count y n -> lehmer_step x y -> lehmer_uneven x y
| uneven_step x y : 2 ^ 64 <= y -> ~ lehmer_step x y -> lehmer_uneven y (x mod y) -> lehmer_uneven x y.

(** What a Lehmer step leaves of the longer operand [x] when the other has [n]
    limbs: the limbs from [n] on are cut off, the lowest is replaced by [n]. *)
Definition clobbered (x n : Z) : Z := x mod 2 ^ (32 * n) - x mod 2 ^ 32 + n mod 2 ^ 32.

(** The guessing loop of the Lehmer step stops after one iteration. *)
Definition lehmer_once (x y : Z) : Prop :=
  exists k, 0 <= k /\ 2 ^ 62 <= x / 2 ^ k < 2 ^ 63 /\
    let X := x / 2 ^ k in let Y := y / 2 ^ k in
    0 < Y /\ X / Y < 2 ^ 31 /\ X / Y <= X mod Y /\ Y mod (X mod Y) < Y / (X mod Y).

(** * What the code computes, for all operands *)

(** The number of limbs of [|x|], at least one. *)
Definition limbs_of (x : Z) : Z := Z.log2 (Z.abs x) / 32 + 1.

(** The guessing loop: Euclid's algorithm on [u] and [v] with its cofactors,
    while those fit 31 bits and the quotient is certain. [n] counts the steps;
    the result is the count and the cofactor called b in the code, which is the
    second of [u] after an even number of steps. *)
Fixpoint guess (fuel : nat) (n u e f v g h : Z) : Z * Z :=
  let stop := (n, if Z.even n then f else g) in
  match fuel with
  | O => stop
  | S fuel =>
      let q := u / v in let t := u mod v in let r := e + q * g in let s := f + q * h in
      if (v =? 0) || (2 ^ 31 <=? r) || (2 ^ 31 <=? s) || (t <? s) || (v - g <? t + r) then stop
      else if t =? s then (n + 1, if Z.even n then s else g)
      else guess fuel (n + 1) v h g t s r
  end.
(** On the 63 leading bits of [x] and the bits of [y] at the same positions. *)
Definition leading (x y : Z) : Z * Z :=
  let k := Z.log2 x - 62 in
  (x / 2 ^ k, if limbs_of x <? limbs_of y then 0 else (y / 2 ^ k) mod 2 ^ 63).
Definition cofactor (x y : Z) : Z * Z :=
  let '(X, Y) := leading x y in guess 400 0 X 1 0 Y 0 1.

(** One round of the main loop on the buffers holding [x] and [y]. A buffer can
    also hold cut-off limbs above its length, of value [i] resp. [j]. *)
Definition gcd_round (debug : bool) (x i y j : Z) : outcome (Z * Z * Z * Z) :=
  if x <? 2 ^ 64 then (if debug then AssertFail else Undef OutOfBounds)
  else if debug && ((limbs_of x <? limbs_of y) || (fst (leading x y) <? snd (leading x y))) then AssertFail
  else
    let '(n, b) := cofactor x y in
    if b =? 0 then Ret (y, j, x mod y, i)
    else
      let m := limbs_of y in
      let x' := if limbs_of x =? m then x else clobbered x m in
      let i' := i + (x - x mod 2 ^ (32 * m)) in
      Ret (if Z.odd n then (y, j, x', i') else (x', i', y, j)).
(** The main loop, at most [fuel] rounds. The answer includes what is left above
    the length of the buffer. *)
Fixpoint gcd_rounds (fuel : nat) (debug : bool) (x i y j : Z) : outcome Z :=
  if y <? 2 ^ 64 then Ret (Z.gcd x y + i)
  else
    match fuel with
    | O => NoFuel
    | S fuel => '(x, i, y, j) <- gcd_round debug x i y j ;; gcd_rounds fuel debug x i y j
    end.
(** The buffers after [n] rounds without assertions, if the loop gets there. *)
Fixpoint gcd_after (n : nat) (x i y j : Z) : option (Z * Z * Z * Z) :=
  match n with
  | O => Some (x, i, y, j)
  | S n =>
      if y <? 2 ^ 64 then None
      else match gcd_round false x i y j with Ret (x, i, y, j) => gcd_after n x i y j | _ => None end
  end.
(** greatest_common_divisor(x, y). *)
Definition actual_gcd (fuel : nat) (debug : bool) (x y : Z) : outcome Z :=
  gcd_rounds fuel debug (Z.max (Z.abs x) (Z.abs y)) 0 (Z.min (Z.abs x) (Z.abs y)) 0.
(** In a build without assertions the loop started on [x] and [y] comes, within
    [fuel] rounds, to a first operand below 2^64 and a second that is not, and
    then reads in front of the buffer. *)
Definition lost (fuel : nat) (x y : Z) : Prop :=
  exists n x' i y' j, (n < fuel)%nat /\ x' < 2 ^ 64 <= y' /\ gcd_after n x 0 y 0 = Some (x', i, y', j).
