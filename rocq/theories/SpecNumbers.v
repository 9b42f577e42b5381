(** Specification vocabulary: the numbers the tests of is_power_of_two and
    is_even are made with. *)
From Coq Require Import ZArith List String Ascii Bool.
From Verif Require Import Machine SpecPos SpecText SpecOracle.
Import ListNotations.
Open Scope Z_scope.

Definition is_power (z : Z) : bool := z =? 2 ^ Z.log2 z.

(** ** IsPowerOfTwo.cpp *)

(** The byte and the bit in it that are drawn. *)
Definition drawn_byte {E : Type} (draw : E -> Z -> Z -> Z * E) (e : E) : Z := fst (draw e 0 32).
Definition drawn_bit {E : Type} (draw : E -> Z -> Z -> Z * E) (e : E) : Z :=
  let e1 := snd (draw e 0 32) in
  if drawn_byte draw e =? 31 then fst (draw (snd (draw e1 0 8)) 0 7) else fst (draw e1 0 8).

(** The integer a 32-byte string encodes that holds [b] at [pos] and zeros elsewhere. *)
Definition one_byte (pos b : Z) : Z := b * 256 ^ pos - (if (pos =? 31) && (128 <=? b) then 256 ^ 32 else 0).

(** How the test's random cases end. *)
Definition power_verdict (cast : Z -> outcome Z) (pos bit : Z) : outcome bool :=
  b <- (if bit =? 8 then cast 256 else Ret (2 ^ bit)) ;;
  if pos =? 32 then Undef OutOfBounds else Ret (is_power (one_byte pos b)).

(** ** utils.cpp *)

(** The engine's numbers are unsigned ints. *)
Definition engine_ok {E : Type} (engine : E -> Z * E) : Prop := forall e, 0 <= fst (engine e) < 2 ^ 32.
(** None of them is 2^31, whose absolute value as an int overflows. *)
Definition no_min {E : Type} (engine : E -> Z * E) : Prop := forall e, fst (engine e) <> 2 ^ 31.

(** At most [n] digits, at least one, perhaps after a minus sign. *)
Definition random_numeral (n : Z) (s : string) : Prop :=
  exists t, (s = t \/ s = String "-"%char t) /\ all_digits t /\ 1 <= Z.of_nat (String.length t) <= n.
