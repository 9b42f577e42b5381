(** Specification vocabulary: how the tests of shifts, powers and modular powers end. *)
From Coq Require Import ZArith List String Bool.
From Verif Require Import Machine SpecActual SpecPyRun SpecOracle TestNumbers TestShifts.
Import ListNotations.
Open Scope Z_scope.

(** [x] is written, shifted by [n], and the result compared. *)
Definition shift_ends (c : cfg) (x n : Z) : outcome bool :=
  _ <- text x ;; v <- shift_by c x n ;; same_text v (Z.shiftl x n).

(** The engine after [n] numbers between [lo] and [hi] were drawn. *)
Definition after {E : Type} (draw : E -> Z -> Z -> Z * E) (n : nat) (lo hi : Z) (e : E) : E :=
  Nat.iter n (fun e => snd (draw e lo hi)) e.

(** The last loop of the shift tests: negative numbers of 100 bytes, shifted to the right. [sign]: 1
    for a shift to the left by a negative number, -1 for a shift to the right. *)
Fixpoint negative_loop {E : Type} (draw : E -> Z -> Z -> Z * E) (c : cfg) (sign lo hi : Z) (samples : nat) (e : E) : outcome bool :=
  match samples with
  | O => Ret true
  | S samples =>
      l <- negative_bytes draw 100 e ;;
      let (n, e) := draw e lo hi in
      ok <- shift_ends c (operand l) (sign * operand (int_bytes n)) ;;
      rest <- negative_loop draw c sign lo hi samples e ;;
      Ret (ok && rest)
  end.
(** The engine at its beginning. *)
Definition engine_then {E : Type} (draw : E -> Z -> Z -> Z * E) (lo hi : Z) (e : E) : E :=
  after draw 10 lo hi (after draw 10 (-31) 0 (after draw 10 1 32 (after draw 10 (-31) 0 (after draw 10 1 32 e)))).

(** 0^e and 1^e in the tests of the laws: an exponent that is no int throws, and 0^0 is 1. *)
Definition zero_to (e : Z) : outcome bool :=
  if e =? 0 then Ret false else if e <? 2 ^ 31 then Ret true else Throw OverflowError.
Definition one_to (e : Z) : outcome bool := if e <? 2 ^ 31 then Ret true else Throw OverflowError.

(** x^e modulo z is computed and compared. *)
Definition modpow_ends (debug : bool) (x e z : Z) : outcome bool :=
  v <- power_mod debug x e z ;; same_text v (Z.rem (x ^ e) z).
