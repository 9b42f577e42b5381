(** Model of the random operands of the project's tests: tests/Random.cpp and
    the functions that call it. *)
From Coq Require Import String.
From Verif Require Import Machine BigInt TestOracle TestCalc.

Section Random.
  (** [E]: the states of the engine of a Random, an std::mt19937; [draw e lo hi]:
      the value of Next(lo, hi), Random.cpp:5-10, and the engine afterwards.
      Nothing is assumed about it here. *)
  Context {E : Type} (draw : E -> Z -> Z -> Z * E).

  (** Random::NextBytes: Random.cpp:12-17 *)
  Fixpoint next_bytes (size : nat) (e : E) : list Z * E :=
    match size with
    | O => ([], e)
    | S size =>
        let (v, e) := draw e 0 127 in
        let (l, e) := next_bytes size e in
        (u8 v :: l, e)
    end.

  (** MyBigIntImp::GetRandomByteArray: MyBigInt.cpp:6-10. The Random is passed by
      value: what becomes of the copy is lost. *)
  Definition get_random_bytes (size : nat) (e : E) : list Z := fst (next_bytes size e).

  (** MyBigIntImp::GetNonZeroRandomByteArray: MyBigInt.cpp:873-879. [fuel] bounds
      the attempts. *)
  Fixpoint nonzero_loop (fuel : nat) (size : nat) (value : list Z) (e : E) : outcome (list Z) :=
    if ref_is_zero value then
      match fuel with
      | O => NoFuel
      | S fuel => let (value, e) := next_bytes size e in nonzero_loop fuel size value e
      end
    else Ret value.
  Definition get_nonzero_bytes (fuel : nat) (size : nat) (e : E) : outcome (list Z) :=
    nonzero_loop fuel size (repeat 0 size) e.

  (** GetRandomByteArray(random): divrem.cpp:27-29 and the same in the other files.
      Whether the Random is copied before the size is drawn from it is
      unspecified: [copied]. *)
  Definition any_size_bytes (copied : bool) (fuel : nat) (lo hi : Z) (e : E) : outcome (list Z) :=
    let (size, e') := draw e lo hi in get_nonzero_bytes fuel (Z.to_nat size) (if copied then e else e').

  (** The loop over the samples of divrem.cpp:41-46, divide.cpp:49-54, gcd.cpp:48-52,
      multiply.cpp:55-60 and others: both operands come from the function [get],
      which takes s_random by value. [Ret true]: no check failed. *)
  Fixpoint two_operand_samples (samples : nat) (get : E -> outcome (list Z)) (run : string -> outcome bool)
      (op : string) (s_random : E) : outcome bool :=
    match samples with
    | O => Ret true
    | S samples =>
        a1 <- get s_random ;;
        a2 <- get s_random ;;
        ok <- run (print_bytes a1 ++ print_bytes a2 ++ op)%string ;;
        rest <- two_operand_samples samples get run op s_random ;;
        Ret (ok && rest)
    end.
End Random.
