(** The C++ subset the model is written in: outcomes, fixed-width integers,
    bounds-checked arrays and loops.  Nothing here is specific to one function
    of /repo; each definition says which C++ construct it stands for. *)
From Coq Require Export ZArith List Bool.
Export ListNotations.
Open Scope Z_scope.

(** Kinds of undefined behaviour that are kept apart. *)
Inductive ub_kind :=
| OutOfBounds      (* vector or pointer access outside the array *)
| SignedOverflow   (* signed + - * or unary minus overflow *)
| ShiftNegative    (* left shift of a negative value (undefined before C++20) *)
| ShiftRange       (* shift count not in [0, width) *)
| DivByZero.       (* built-in integer / or % by zero *)

(** C++ exceptions thrown by the library.
    include/exceptions.h:5-9 (DivideByZero); CastError is pybind11::cast_error,
    thrown by obj.cast<int>() in the bindings; the others are std:: classes. *)
Inductive exn :=
| DivideByZero | OverflowError | OutOfRange | RuntimeError | InvalidArgument | CastError.

(** Result of running a piece of code. *)
Inductive outcome (A : Type) :=
| Ret (a : A)
| Throw (e : exn)
| Undef (u : ub_kind)
| AssertFail            (* assert() aborted the process (debug builds) *)
| NoFuel.               (* loop still running when the fuel ran out *)
Arguments Ret {A} a.
Arguments Throw {A} e.
Arguments Undef {A} u.
Arguments AssertFail {A}.
Arguments NoFuel {A}.

Definition bind {A B} (m : outcome A) (k : A -> outcome B) : outcome B :=
  match m with
  | Ret a => k a
  | Throw e => Throw e
  | Undef u => Undef u
  | AssertFail => AssertFail
  | NoFuel => NoFuel
  end.

Notation "x <- e ;; k" := (bind e (fun x => k))
  (at level 61, e at next level, right associativity).
Notation "' p <- e ;; k" := (bind e (fun x => match x with p => k end))
  (at level 61, p pattern, e at next level, right associativity).
Notation "e ;;; k" := (bind e (fun _ => k)) (at level 61, right associativity).

(** Build configuration. [dbg]: assert() is compiled in. [strict]: signed
    overflow and left shifts of negative values are undefined (C++17 abstract
    machine); otherwise they wrap (GCC/Clang behaviour of these expressions). *)
Record cfg := Cfg { dbg : bool; strict : bool }.

(** assert(b) *)
Definition massert (c : cfg) (b : bool) : outcome unit :=
  if dbg c then (if b then Ret tt else AssertFail) else Ret tt.

(** Fixed-width integers as Z. *)
Definition W32 := 4294967296.            (* 2^32 *)
Definition W64 := 18446744073709551616.  (* 2^64 *)
Definition INT_MIN := -2147483648.
Definition INT_MAX := 2147483647.
Definition UINT_MAX := 4294967295.
Definition LONG_MIN := -9223372036854775808.
Definition LONG_MAX := 9223372036854775807.

(** Conversion to uint32_t / uint64_t / unsigned char: reduction modulo 2^n. *)
Definition u32 (x : Z) := x mod W32.
Definition u64 (x : Z) := x mod W64.
Definition u8 (x : Z) := x mod 256.
(** Conversion to int / long: two's complement wrap (implementation-defined, universal). *)
Definition s32 (x : Z) := let y := u32 x in if y <? 2147483648 then y else y - W32.
Definition s64 (x : Z) := let y := u64 x in if y <? 9223372036854775808 then y else y - W64.

(** Value of a signed int / long arithmetic expression whose exact value is [x]. *)
Definition chk32 (c : cfg) (x : Z) : outcome Z :=
  if (INT_MIN <=? x) && (x <=? INT_MAX) then Ret x
  else if strict c then Undef SignedOverflow else Ret (s32 x).
Definition chk64 (c : cfg) (x : Z) : outcome Z :=
  if (LONG_MIN <=? x) && (x <=? LONG_MAX) then Ret x
  else if strict c then Undef SignedOverflow else Ret (s64 x).

(** std::abs(int), then conversion of the result to uint32_t. *)
Definition abs32 (c : cfg) (x : Z) : outcome Z :=
  y <- chk32 c (Z.abs x) ;; Ret (u32 y).

(** Shifts. [shl32]/[shl64]: << on uint32_t / uint64_t; [shr]: >> (arithmetic
    on negative operands). The shift count is checked against the width. *)
Definition shl32 (x k : Z) : outcome Z :=
  if (0 <=? k) && (k <? 32) then Ret (u32 (Z.shiftl x k)) else Undef ShiftRange.
Definition shl64 (x k : Z) : outcome Z :=
  if (0 <=? k) && (k <? 64) then Ret (u64 (Z.shiftl x k)) else Undef ShiftRange.
Definition shr32 (x k : Z) : outcome Z :=
  if (0 <=? k) && (k <? 32) then Ret (Z.shiftr x k) else Undef ShiftRange.
Definition shr64 (x k : Z) : outcome Z :=
  if (0 <=? k) && (k <? 64) then Ret (Z.shiftr x k) else Undef ShiftRange.
(** ~x on uint32_t *)
Definition not32 (x : Z) := u32 (Z.lnot x).
(** Built-in unsigned / and % *)
Definition udiv (a b : Z) : outcome Z := if b =? 0 then Undef DivByZero else Ret (a / b).
Definition umod (a b : Z) : outcome Z := if b =? 0 then Undef DivByZero else Ret (a mod b).

(** Arrays: std::vector or the slice delimited by (pointer, length). *)
Definition zeros (n : nat) : list Z := repeat 0 n.

(** l[i] as an rvalue *)
Definition rd (l : list Z) (i : nat) : outcome Z :=
  match nth_error l i with Some v => Ret v | None => Undef OutOfBounds end.

Fixpoint upd (l : list Z) (i : nat) (v : Z) : list Z :=
  match l, i with
  | [], _ => []
  | _ :: t, O => v :: t
  | h :: t, S j => h :: upd t j v
  end.

(** l[i] = v *)
Definition wr (l : list Z) (i : nat) (v : Z) : outcome (list Z) :=
  if Nat.ltb i (length l) then Ret (upd l i v) else Undef OutOfBounds.

(** Same with an int index that may be negative. *)
Definition rdz (l : list Z) (i : Z) : outcome Z :=
  if i <? 0 then Undef OutOfBounds else rd l (Z.to_nat i).
Definition wrz (l : list Z) (i v : Z) : outcome (list Z) :=
  if i <? 0 then Undef OutOfBounds else wr l (Z.to_nat i) v.

(** The slice (&l[off], len), and writing a slice back. *)
Definition slice (l : list Z) (off len : nat) : outcome (list Z) :=
  if Nat.leb (off + len) (length l) then Ret (firstn len (skipn off l)) else Undef OutOfBounds.
Definition splice (l : list Z) (off : nat) (s : list Z) : outcome (list Z) :=
  if Nat.leb (off + length s) (length l)
  then Ret (firstn off l ++ s ++ skipn (off + length s) l) else Undef OutOfBounds.

(** std::fill(l.begin(), l.begin() + n, v) *)
Definition fill (l : list Z) (n : nat) (v : Z) : outcome (list Z) :=
  if Nat.leb n (length l) then Ret (repeat v n ++ skipn n l) else Undef OutOfBounds.

Definition is_nil (l : list Z) : bool := match l with [] => true | _ => false end.

(** for (i = start; n iterations; i++) body *)
Fixpoint for_up {S : Type} (n start : nat) (body : nat -> S -> outcome S) (s : S) : outcome S :=
  match n with
  | O => Ret s
  | Datatypes.S n' => s' <- body start s ;; for_up n' (Datatypes.S start) body s'
  end.

(** for (i = n - 1; i >= 0; i--) body *)
Fixpoint for_down {S : Type} (n : nat) (body : nat -> S -> outcome S) (s : S) : outcome S :=
  match n with
  | O => Ret s
  | Datatypes.S n' => s' <- body n' s ;; for_down n' body s'
  end.

(** for (; cond && i < end; i++) body, with n = end - start *)
Fixpoint for_up_while {S : Type} (n start : nat) (cond : S -> bool)
    (body : nat -> S -> outcome S) (s : S) : outcome S :=
  match n with
  | O => Ret s
  | Datatypes.S n' =>
      if cond s then s' <- body start s ;; for_up_while n' (Datatypes.S start) cond body s'
      else Ret s
  end.

(** while (cond) body *)
Fixpoint while_fuel {S : Type} (fuel : nat) (cond : S -> bool)
    (body : S -> outcome S) (s : S) : outcome S :=
  if cond s then
    match fuel with
    | O => NoFuel
    | Datatypes.S f => s' <- body s ;; while_fuel f cond body s'
    end
  else Ret s.

(** A BigInteger object: include/public/bigintegercpp/BigInteger.h:187-188
    (_sign and _bits). *)
Record bigint := Big { sign_of : Z; bits_of : list Z }.
