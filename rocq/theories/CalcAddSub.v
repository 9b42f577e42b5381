(** Model of src/BigIntegerCalculator/AddSub.cpp.
    A (pointer, length) pair is the list of the limbs it delimits; a function
    that writes through a pointer returns the new list. Index variables are
    exact naturals (array lengths are assumed to fit an int). *)
From Verif Require Import Machine.

(** BigIntegerCalculator::add(const uint_array&, uint32_t): AddSub.cpp:4-26 *)
Definition calc_add_u (c : cfg) (lhs : list Z) (rhs : Z) : outcome (list Z) :=
  massert c (negb (is_nil lhs)) ;;;
  let bits := zeros (length lhs + 1) in
  l0 <- rd lhs 0 ;;
  digit <- chk64 c (l0 + rhs) ;;
  bits <- wr bits 0 (u32 digit) ;;
  let carry := Z.shiftr digit 32 in
  '(bits, carry) <-
    for_up (length lhs - 1) 1 (fun i st =>
      let '(bits, carry) := st in
      l <- rd lhs i ;;
      digit <- chk64 c (l + carry) ;;
      bits <- wr bits i (u32 digit) ;;
      Ret (bits, Z.shiftr digit 32)) (bits, carry) ;;
  wr bits (length lhs) (u32 carry).

(** BigIntegerCalculator::add(const uint32_t*, int, const uint32_t*, int,
    uint32_t*, int): AddSub.cpp:40-63 *)
Definition calc_add_core (c : cfg) (lhs rhs bits : list Z) : outcome (list Z) :=
  massert c (Nat.leb (length rhs) (length lhs)) ;;;
  massert c (Nat.eqb (length bits) (length lhs + 1)) ;;;
  '(bits, carry) <-
    for_up (length rhs) 0 (fun i st =>
      let '(bits, carry) := st in
      l <- rd lhs i ;;
      r <- rd rhs i ;;
      let digit := u64 (u64 (l + carry) + r) in
      bits <- wr bits i (u32 digit) ;;
      Ret (bits, Z.shiftr digit 32)) (bits, 0) ;;
  '(bits, carry) <-
    for_up (length lhs - length rhs) (length rhs) (fun i st =>
      let '(bits, carry) := st in
      l <- rd lhs i ;;
      let digit := u64 (l + carry) in
      bits <- wr bits i (u32 digit) ;;
      Ret (bits, Z.shiftr digit 32)) (bits, carry) ;;
  wr bits (Nat.max (length lhs) (length rhs)) (u32 carry).

(** BigIntegerCalculator::add(const uint_array&, const uint_array&): AddSub.cpp:28-38 *)
Definition calc_add (c : cfg) (lhs rhs : list Z) : outcome (list Z) :=
  massert c (negb (is_nil lhs)) ;;;
  massert c (negb (is_nil rhs)) ;;;
  massert c (Nat.leb (length rhs) (length lhs)) ;;;
  calc_add_core c lhs rhs (zeros (length lhs + 1)).

(** BigIntegerCalculator::add_self: AddSub.cpp:65-89.
    The asserts at 66-67 dereference both pointers. *)
Definition calc_add_self (c : cfg) (lhs rhs : list Z) : outcome (list Z) :=
  (if dbg c then l0 <- rd lhs 0 ;; r0 <- rd rhs 0 ;; massert c ((0 <=? l0) && (0 <=? r0))
   else Ret tt) ;;;
  massert c (Nat.leb (length rhs) (length lhs)) ;;;
  '(lhs', carry) <-
    for_up (length rhs) 0 (fun i st =>
      let '(lhs, carry) := st in
      l <- rd lhs i ;;
      r <- rd rhs i ;;
      d1 <- chk64 c (l + carry) ;;
      digit <- chk64 c (d1 + r) ;;
      lhs <- wr lhs i (u32 digit) ;;
      Ret (lhs, Z.shiftr digit 32)) (lhs, 0) ;;
  '(lhs', carry) <-
    for_up_while (length lhs - length rhs) (length rhs)
      (fun st => negb (snd st =? 0)) (fun i st =>
      let '(lhs, carry) := st in
      l <- rd lhs i ;;
      digit <- chk64 c (l + carry) ;;
      lhs <- wr lhs i (u32 digit) ;;
      Ret (lhs, Z.shiftr digit 32)) (lhs', carry) ;;
  massert c (carry =? 0) ;;;
  Ret lhs'.

(** The scanning loop shared by the two compare overloads:
    AddSub.cpp:184-190 and 202-209. [n] is i + 1. *)
Fixpoint compare_loop (lhs rhs : list Z) (n : nat) : outcome Z :=
  match n with
  | O => Ret 0
  | S i =>
      l <- rd lhs i ;;
      r <- rd rhs i ;;
      if l <? r then Ret (-1)
      else if r <? l then Ret 1
      else compare_loop lhs rhs i
  end.

(** BigIntegerCalculator::compare(const uint32_t*, int, const uint32_t*, int):
    AddSub.cpp:193-210 *)
Definition calc_compare_core (c : cfg) (lhs rhs : list Z) : outcome Z :=
  if Nat.ltb (length lhs) (length rhs) then Ret (-1)
  else if Nat.ltb (length rhs) (length lhs) then Ret 1
  else compare_loop lhs rhs (length lhs).

(** BigIntegerCalculator::compare(uint_array, uint_array): AddSub.cpp:175-191 *)
Definition calc_compare (c : cfg) (lhs rhs : list Z) : outcome Z :=
  massert c (negb (is_nil lhs)) ;;;
  massert c (negb (is_nil rhs)) ;;;
  if Nat.ltb (length lhs) (length rhs) then Ret (-1)
  else if Nat.ltb (length rhs) (length lhs) then Ret 1
  else compare_loop lhs rhs (length lhs).

(** BigIntegerCalculator::subtract(const uint_array&, uint32_t): AddSub.cpp:91-113 *)
Definition calc_sub_u (c : cfg) (lhs : list Z) (rhs : Z) : outcome (list Z) :=
  massert c (negb (is_nil lhs)) ;;;
  (if dbg c then l0 <- rd lhs 0 ;; massert c ((rhs <=? l0) || Nat.leb 2 (length lhs))
   else Ret tt) ;;;
  let bits := zeros (length lhs) in
  l0 <- rd lhs 0 ;;
  digit <- chk64 c (l0 - rhs) ;;
  bits <- wr bits 0 (u32 digit) ;;
  let carry := Z.shiftr digit 32 in
  '(bits, _) <-
    for_up (length lhs - 1) 1 (fun i st =>
      let '(bits, carry) := st in
      l <- rd lhs i ;;
      digit <- chk64 c (l + carry) ;;
      bits <- wr bits i (u32 digit) ;;
      Ret (bits, Z.shiftr digit 32)) (bits, carry) ;;
  Ret bits.

(** BigIntegerCalculator::subtract(const uint32_t*, int, const uint32_t*, int,
    uint32_t*, int): AddSub.cpp:128-157 *)
Definition calc_sub_core (c : cfg) (lhs rhs bits : list Z) : outcome (list Z) :=
  massert c (Nat.leb (length rhs) (length lhs)) ;;;
  (if dbg c then cmp <- calc_compare_core c lhs rhs ;; massert c (0 <=? cmp) else Ret tt) ;;;
  massert c (Nat.eqb (length bits) (length lhs)) ;;;
  '(bits, carry) <-
    for_up (length rhs) 0 (fun i st =>
      let '(bits, carry) := st in
      l <- rd lhs i ;;
      r <- rd rhs i ;;
      d1 <- chk64 c (l + carry) ;;
      digit <- chk64 c (d1 - r) ;;
      bits <- wr bits i (u32 digit) ;;
      Ret (bits, Z.shiftr digit 32)) (bits, 0) ;;
  '(bits, carry) <-
    for_up (length lhs - length rhs) (length rhs) (fun i st =>
      let '(bits, carry) := st in
      l <- rd lhs i ;;
      digit <- chk64 c (l + carry) ;;
      bits <- wr bits i (u32 digit) ;;
      Ret (bits, Z.shiftr digit 32)) (bits, carry) ;;
  massert c (carry =? 0) ;;;
  Ret bits.

(** BigIntegerCalculator::subtract(const uint_array&, const uint_array&): AddSub.cpp:115-126 *)
Definition calc_sub (c : cfg) (lhs rhs : list Z) : outcome (list Z) :=
  massert c (negb (is_nil lhs)) ;;;
  massert c (negb (is_nil rhs)) ;;;
  massert c (Nat.leb (length rhs) (length lhs)) ;;;
  (if dbg c then cmp <- calc_compare c lhs rhs ;; massert c (0 <=? cmp) else Ret tt) ;;;
  calc_sub_core c lhs rhs (zeros (length lhs)).

(** BigIntegerCalculator::subtract_self: AddSub.cpp:159-173 (no asserts) *)
Definition calc_sub_self (c : cfg) (left right : list Z) : outcome (list Z) :=
  '(left', carry) <-
    for_up (length right) 0 (fun i st =>
      let '(lv, carry) := st in
      l <- rd lv i ;;
      r <- rd right i ;;
      d1 <- chk64 c (l + carry) ;;
      digit <- chk64 c (d1 - r) ;;
      lv <- wr lv i (u32 digit) ;;
      Ret (lv, Z.shiftr digit 32)) (left, 0) ;;
  '(left', _) <-
    for_up_while (length left - length right) (length right)
      (fun st => negb (snd st =? 0)) (fun i st =>
      let '(lv, carry) := st in
      l <- rd lv i ;;
      digit <- chk64 c (l + carry) ;;
      lv <- wr lv i (u32 digit) ;;
      Ret (lv, Z.shiftr digit 32)) (left', carry) ;;
  Ret left'.
