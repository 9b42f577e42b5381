(** Specification vocabulary for BitsBuffer. *)
From Verif Require Import Machine Spec SpecPos SpecActual CalcPowMod.

(** The buffer has [size] words and holds [v]: the first _length words are those of [v], the last
    of them is not 0, and all words behind them are. *)
Definition holds (size : nat) (b : bitsbuf) (v : Z) : Prop :=
  length (bb_bits b) = size /\ Forall (fun d => 0 <= d < 2 ^ 32) (bb_bits b) /\ (bb_len b <= size)%nat /\
  number (firstn (bb_len b) (bb_bits b)) = v /\
  (bb_len b <> O -> nth (bb_len b - 1) (bb_bits b) 0 <> 0) /\
  Forall (fun d => d = 0) (skipn (bb_len b) (bb_bits b)).

(** A buffer of [size] zeros, whatever its length says. *)
Definition blank (size : nat) (b : bitsbuf) : Prop := bb_bits b = repeat 0 size.

(** The words that Overwrite leaves behind: those of [g], then the number 2 (or 1) for
    [k] - 4 (or [k] - 2) times, then what was there before. *)
Definition overwritten64 (k : nat) (bits : list Z) (g : Z) : list Z :=
  g mod 2 ^ 32 :: g / 2 ^ 32 :: repeat 2 (k - 4) ++ skipn (Nat.max 2 (k - 2)) bits.
Definition overwritten32 (k : nat) (bits : list Z) (g : Z) : list Z :=
  g :: repeat 1 (k - 2) ++ skipn (Nat.max 1 (k - 1)) bits.
