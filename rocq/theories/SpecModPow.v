(** Specification vocabulary: what mod_pow computes for a modulus of 32 limbs or
    more, as arithmetic on integers. Its three buffers are integers here; a
    length in limbs says how much of one is meant to count, but what is above
    it is never cleared and leaks into later products. *)
From Coq Require Import ZArith.
From Verif Require Import Machine SpecGcd.
Open Scope Z_scope.

(** The lowest [k] limbs of [y], and the rest in place. *)
Definition low (k y : Z) : Z := y mod 2 ^ (32 * k).
Definition rest (k y : Z) : Z := y - low k y.
(** The number of limbs of [y]; zero has none. *)
Definition len_of (y : Z) : Z := if y =? 0 then 0 else limbs_of y.

(** The product of [a] ([la] limbs) and [b] ([lb <= la] limbs) when the array it
    goes to holds [s] instead of zero: Karatsuba's recursion. *)
Fixpoint leaky_product (fuel : nat) (debug : bool) (la lb a b s : Z) : outcome Z :=
  if lb <? 32 then Ret (a * b + low la s)
  else
    match fuel with
    | O => NoFuel
    | S fuel =>
        let n := lb / 2 in
        let a0 := low n a in let a1 := a / 2 ^ (32 * n) in
        let b0 := low n b in let b1 := b / 2 ^ (32 * n) in
        p0 <- leaky_product fuel debug n n a0 b0 (low (2 * n) s) ;;
        p1 <- leaky_product fuel debug (la - n) (lb - n) a1 b1 (s / 2 ^ (64 * n)) ;;
        let mid := low (la + lb - 2 * n + 2) ((a0 + a1) * (b0 + b1) - p0 - p1) in
        let p := p0 + 2 ^ (32 * n) * mid + 2 ^ (64 * n) * p1 in
        if debug && (2 ^ (32 * (la + lb)) <=? p) then AssertFail else Ret (low (la + lb) p)
    end.

(** A buffer: its contents, and its length. *)
Definition buffer : Set := Z * Z.
Definition counts (b : buffer) : Z := low (snd b) (fst b).

(** [b] := the product [p] of [total] limbs, computed in the buffer [temp];
    then the old contents of [b], cleared below its length, become [temp]. *)
Definition swapped (b : buffer) (temp p total : Z) : buffer * Z :=
  ((p + rest total temp, len_of p), rest (snd b) (fst b)).
Definition times (debug : bool) (b v : buffer) (temp : Z) : outcome (buffer * Z) :=
  let total := snd b + snd v in
  p <- (if snd b <? snd v
        then leaky_product (Z.to_nat (snd b)) debug (snd v) (snd b) (counts v) (counts b) (low total temp)
        else leaky_product (Z.to_nat (snd v)) debug (snd b) (snd v) (counts b) (counts v) (low total temp)) ;;
  Ret (swapped b temp p total).
Definition squared (v : buffer) (temp : Z) : buffer * Z :=
  swapped v temp (counts v * counts v) (2 * snd v).

(** "Reduction" modulo [m]: the length of the remainder, but not the remainder. *)
Definition shortened (m : Z) (b : buffer) : buffer := (fst b, len_of (counts b mod m)).

(** One bit of the exponent. *)
Definition power_state : Set := buffer * buffer * Z.
Definition bit_times (debug : bool) (m : Z) (odd : bool) (st : power_state) : outcome power_state :=
  let '(value, result, temp) := st in
  if odd then '(result, temp) <- times debug result value temp ;; Ret (value, shortened m result, temp)
  else Ret st.
Definition bit_square (m : Z) (st : power_state) : power_state :=
  let '(value, result, temp) := st in
  let '(value, temp) := squared value temp in (shortened m value, result, temp).

(** The bits of [e], up to the highest. *)
Fixpoint short_loop (fuel : nat) (debug : bool) (m e : Z) (st : power_state) : outcome power_state :=
  if e =? 0 then Ret st
  else
    match fuel with
    | O => NoFuel
    | S fuel =>
        st <- bit_times debug m (Z.odd e) st ;;
        short_loop fuel debug m (e / 2) (if e =? 1 then st else bit_square m st)
    end.
(** The lowest [k] bits of [e]. *)
Fixpoint long_loop (k : nat) (debug : bool) (m e : Z) (st : power_state) : outcome power_state :=
  match k with
  | O => Ret st
  | S k =>
      st <- bit_times debug m (Z.odd e) st ;;
      long_loop k debug m (e / 2) (bit_square m st)
  end.

(** mod_pow(x, e, z), e >= 0. An exponent of 2^31 or more goes through all its
    limbs and then through the highest one again. *)
Definition leaky_mod_pow (debug : bool) (x e z : Z) : outcome Z :=
  let m := Z.abs z in
  let v := if Z.abs x <? 2 ^ (32 * limbs_of z) then Z.abs x else Z.abs x mod m in
  let start := ((v, len_of v), (1, 1), 0) in
  st <- (if e <? 2 ^ 31 then short_loop 32 debug m e start
         else
           st <- long_loop (32 * Z.to_nat (limbs_of e)) debug m e start ;;
           short_loop 32 debug m (e / 2 ^ (32 * (limbs_of e - 1))) st) ;;
  let r := fst (snd (fst st)) in
  Ret (if (x <? 0) && Z.odd e then - r else r).
