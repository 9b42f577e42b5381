(** Property theorems: BitsBuffer and the named functions. *)
From Verif Require Import Machine Spec SpecPos SpecActual BigInt CalcPowMod BufCalls SpecBuffer BufferFacts Examples.

(** C86. The constructors. *)
Theorem C86_new_value : forall size v, 0 <= v < 2 ^ 32 ->
  match size with
  | O => buf_of_u size v = Undef OutOfBounds
  | S _ => exists b, buf_of_u size v = Ret b /\ holds size b v
  end.
Proof. exact new_value. Qed.
Print Assumptions C86_new_value.
Example C86_new_value_case : buf_of_u 3 7 = Ret (Buf [7; 0; 0] 1) /\ buf_of_u 3 0 = Ret (Buf [0; 0; 0] 0).
Proof. split; reflexivity. Qed.

Theorem C86_new_words : forall size l, Forall (fun d => 0 <= d < 2 ^ 32) l -> number l < 2 ^ (32 * Z.of_nat size) ->
  exists b, buf_of_v size l = Ret b /\ holds size b (number l).
Proof. exact new_words. Qed.
Print Assumptions C86_new_words.
(** Also with zeros that do not fit. *)
Example C86_new_words_case :
  Forall (fun d => 0 <= d < 2 ^ 32) [5; 0; 9; 0; 0] /\ number [5; 0; 9; 0; 0] < 2 ^ (32 * Z.of_nat 4) /\
  buf_of_v 4 [5; 0; 9; 0; 0] = Ret (Buf [5; 0; 9; 0] 3).
Proof. split; [repeat constructor; discriminate || reflexivity|]. split; reflexivity. Qed.

(** MultiplySelf, SquareSelf and both overloads of Reduce. *)
Theorem C86_multiply_self : forall c size this value temp x y,
  holds size this x -> holds size value y -> blank size temp -> (bb_len this + bb_len value <= size)%nat ->
  exists this' temp', buf_mul_self c this value temp = Ret (this', temp') /\ holds size this' (x * y) /\ blank size temp'.
Proof. exact multiply_self. Qed.
Print Assumptions C86_multiply_self.
Example C86_multiply_self_case :
  holds 5 (Buf [7; 1; 0; 0; 0] 2) (2 ^ 32 + 7) /\ holds 5 (Buf [0; 0; 3; 0; 0] 3) (3 * 2 ^ 64) /\ blank 5 (Buf [0; 0; 0; 0; 0] 2) /\
  buf_mul_self debug_strict (Buf [7; 1; 0; 0; 0] 2) (Buf [0; 0; 3; 0; 0] 3) (Buf [0; 0; 0; 0; 0] 2) =
    Ret (Buf [0; 0; 21; 3; 0] 4, Buf [0; 0; 0; 0; 0] 2).
Proof. holds_case. Qed.

Theorem C86_square_self : forall c size this temp x,
  holds size this x -> blank size temp -> (bb_len this + bb_len this <= size)%nat ->
  exists this' temp', buf_square_self c this temp = Ret (this', temp') /\ holds size this' (x * x) /\ blank size temp'.
Proof. exact square_self. Qed.
Print Assumptions C86_square_self.
Example C86_square_self_case :
  holds 5 (Buf [7; 1; 0; 0; 0] 2) (2 ^ 32 + 7) /\ blank 5 (Buf [0; 0; 0; 0; 0] 0) /\
  buf_square_self debug_strict (Buf [7; 1; 0; 0; 0] 2) (Buf [0; 0; 0; 0; 0] 0) =
    Ret (Buf [49; 14; 1; 0; 0] 3, Buf [0; 0; 0; 0; 0] 0).
Proof. holds_case. Qed.

Theorem C86_reduce_words : forall c size this x m,
  holds size this x -> Forall (fun d => 0 <= d < 2 ^ 32) m -> m <> [] -> nth (length m - 1) m 0 <> 0 -> (length m <= size)%nat ->
  exists b, buf_reduce c this m = Ret b /\ holds size b (x mod number m).
Proof. exact reduce_words. Qed.
Print Assumptions C86_reduce_words.
Example C86_reduce_words_case :
  holds 4 (Buf [0; 0; 3; 0] 3) (3 * 2 ^ 64) /\ number [7; 1] = 2 ^ 32 + 7 /\ 3 * 2 ^ 64 mod (2 ^ 32 + 7) = 147 /\
  buf_reduce debug_strict (Buf [0; 0; 3; 0] 3) [7; 1] = Ret (Buf [147; 0; 0; 0] 1).
Proof. holds_case. Qed.

Theorem C86_reduce_buffer : forall c sx sy this modulus x y,
  holds sx this x -> holds sy modulus y -> 0 < y -> (bb_len modulus <= sx)%nat ->
  exists b, buf_reduce_buf c this modulus = Ret b /\ holds sx b (x mod y).
Proof. exact reduce_buffer. Qed.
Print Assumptions C86_reduce_buffer.
Example C86_reduce_buffer_case :
  holds 4 (Buf [0; 0; 3; 0] 3) (3 * 2 ^ 64) /\ holds 3 (Buf [7; 1; 0] 2) (2 ^ 32 + 7) /\
  buf_reduce_buf debug_strict (Buf [0; 0; 3; 0] 3) (Buf [7; 1; 0] 2) = Ret (Buf [147; 0; 0; 0] 1).
Proof. holds_case. Qed.

(** Overwrite(uint64_t) gives a buffer holding the new value exactly if the old value had at most two
    words; std::fill gets a count and a value where it should get a range. *)
Theorem C86_overwrite64_refuted : forall size b v g, holds size b v -> 0 <= g < 2 ^ 64 ->
  if Nat.ltb size 2 then buf_overwrite b g = Undef OutOfBounds
  else exists r, buf_overwrite b g = Ret r /\ bb_bits r = overwritten64 (bb_len b) (bb_bits b) g /\
    (holds size r g <-> (bb_len b <= 2)%nat).
Proof. exact overwrite64. Qed.
Print Assumptions C86_overwrite64_refuted.
Example C86_overwrite64_case :
  holds 7 (Buf [3; 4; 5; 6; 7; 8; 0] 6) (3 + 4 * 2 ^ 32 + 5 * 2 ^ 64 + 6 * 2 ^ 96 + 7 * 2 ^ 128 + 8 * 2 ^ 160) /\
  buf_overwrite (Buf [3; 4; 5; 6; 7; 8; 0] 6) (2 ^ 32 + 9) = Ret (Buf [9; 1; 2; 2; 7; 8; 0] 2) /\
  holds 4 (Buf [3; 4; 0; 0] 2) (3 + 4 * 2 ^ 32) /\ buf_overwrite (Buf [3; 4; 0; 0] 2) 9 = Ret (Buf [9; 0; 0; 0] 1).
Proof. holds_case. Qed.

(** Overwrite(uint32_t) likewise with one word. *)
Theorem C86_overwrite32_refuted : forall size b v g, holds size b v -> 0 <= g < 2 ^ 32 ->
  if Nat.ltb size 1 then buf_overwrite_u b g = Undef OutOfBounds
  else exists r, buf_overwrite_u b g = Ret r /\ bb_bits r = overwritten32 (bb_len b) (bb_bits b) g /\
    (holds size r g <-> (bb_len b <= 1)%nat).
Proof. exact overwrite32. Qed.
Print Assumptions C86_overwrite32_refuted.
Example C86_overwrite32_case :
  holds 4 (Buf [3; 4; 5; 0] 3) (3 + 4 * 2 ^ 32 + 5 * 2 ^ 64) /\
  buf_overwrite_u (Buf [3; 4; 5; 0] 3) 9 = Ret (Buf [9; 1; 5; 0] 1).
Proof. holds_case. Qed.

(** Refresh(m) gives a buffer holding the value modulo 2^(32 m) exactly if the value had at most m
    words or m is 0. *)
Theorem C86_refresh_refuted : forall size b v m, holds size b v ->
  if Nat.ltb size m then buf_refresh b m = Undef OutOfBounds
  else exists r, buf_refresh b m = Ret r /\
    bb_bits r = (if Nat.ltb m (bb_len b) then repeat (Z.of_nat m mod 2 ^ 32) (bb_len b - m) ++ skipn (bb_len b - m) (bb_bits b) else bb_bits b) /\
    (holds size r (v mod 2 ^ (32 * Z.of_nat m)) <-> ((bb_len b <= m)%nat \/ m = O)).
Proof. exact refresh. Qed.
Print Assumptions C86_refresh_refuted.
Example C86_refresh_case :
  holds 4 (Buf [3; 4; 5; 0] 3) (3 + 4 * 2 ^ 32 + 5 * 2 ^ 64) /\
  buf_refresh (Buf [3; 4; 5; 0] 3) 2 = Ret (Buf [2; 4; 5; 0] 2).
Proof. holds_case. Qed.

(** C87. BigInteger::add, subtract, multiply, divide, remainder and Compare. *)
Theorem C87_named_functions : forall c a b x y, represents a x -> represents b y ->
  returns (named_add c a b) (x + y) /\ returns (named_subtract c a b) (x - y) /\ returns (named_multiply c a b) (x * y) /\
  denotes (named_divide c a b) (if y =? 0 then Throw DivideByZero else Ret (Z.quot x y)) /\
  denotes (named_remainder c a b) (if y =? 0 then Throw DivideByZero else Ret (Z.rem x y)) /\
  exists r, named_compare c a b = Ret r /\ (r < 0 <-> x < y) /\ (r = 0 <-> x = y) /\ (r > 0 <-> x > y).
Proof. exact named_functions. Qed.
Print Assumptions C87_named_functions.
Example C87_named_functions_case :
  represents (Big (-1) [0; 0; 3]) (- (3 * 2 ^ 64)) /\ represents (Big 10 []) 10 /\
  named_add debug_strict (Big (-1) [0; 0; 3]) (Big 10 []) = Ret (Big (-1) [4294967286; 4294967295; 2]) /\
  named_remainder debug_strict (Big (-1) [0; 0; 3]) (Big 10 []) = Ret (Big (-8) []) /\
  named_compare debug_strict (Big (-1) [0; 0; 3]) (Big 10 []) = Ret (-1).
Proof. split; [repr|]. split; [repr|]. repeat split; vm_compute; reflexivity. Qed.
