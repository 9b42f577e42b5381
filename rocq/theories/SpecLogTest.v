(** Specification vocabulary for the test of log(value, base). *)
From Coq Require Import ZArith Reals List.
From Flocq Require Import BinarySingleNaN.
From Verif Require Import Machine SpecPos SpecOracle SpecTestLog SpecPyRun BigIntLogDouble TestRandom TestNumbers TestLogBody.
Import ListNotations.
Open Scope Z_scope.

(** NextDouble() is the int of Next() over INT_MAX. It is strictly between 0 and 1. *)
Definition inside (v : Z) : bool := (0 <? v) && (v <? INT_MAX).

(** Values [x] and bases [y] on which the two calculators cannot but agree. *)
Definition bases_agree (x y : Z) : Prop :=
  x < 2 \/ y < 2 \/ 2 ^ 1024 <= y \/ x < 2 ^ 31 \/ (x < 2 ^ 1024 /\ clear (ln (IZR x) / ln (IZR y))).
(** Values and bases on which they cannot but disagree. *)
Definition bases_clash (x y : Z) : Prop := 2 ^ 1024 <= x /\ 2 <= y < 2 ^ 1024.

Section Draws.
  Context {E : Type} (draw : E -> Z -> Z -> Z * E) (engine : E -> Z * E) (copied : bool).

  (** The int that Next() returns, and what the engine becomes. *)
  Definition next_of (e : E) : Z := Z.abs (s32 (fst (engine e))).
  Definition next_engine (e : E) : E := snd (engine e).
  (** Next(1, 100): the size, the engine afterwards, and the engine that the bytes come from. *)
  Definition size_of (e : E) : nat := Z.to_nat (fst (draw e 1 100)).
  Definition after_size (e : E) : E := snd (draw e 1 100).
  Definition bytes_from (e : E) : E := if copied then e else after_size e.

  (** The numbers that [n] bytes drawn from [e] make: of GetRandomByteArray, of
      GetRandomPosByteArray, and what is left of these and of those of
      GetRandomNegByteArray when they have been printed and read. *)
  Definition made (o : outcome (list Z)) (f : list Z -> Z) : Z := match o with Ret l => f l | _ => 0 end.
  Definition unsigned_number (n : nat) (e : E) : Z := complement 256 (get_random_bytes draw n e).
  Definition positive_number (n : nat) (e : E) : Z := made (positive_bytes draw n e) (complement 256).
  Definition positive_read (n : nat) (e : E) : Z := made (positive_bytes draw n e) operand.
  Definition negative_read (n : nat) (e : E) : Z := made (negative_bytes draw n e) operand.

  (** The engine after the loops of lines 128-130, 162-168, 178-183, 186-190 and 200-204. *)
  Definition engine1 (s : E) : E := Nat.iter 10 next_engine s.
  Definition engine2 (s : E) : E := Nat.iter 10 next_engine (engine1 s).
  Definition engine3 (s : E) : E := Nat.iter 10 next_engine (engine2 s).
  Definition engine4 (s : E) : E := Nat.iter 10 (fun e => next_engine (after_size e)) (engine3 s).
  Definition engine5 (s : E) : E := Nat.iter 10 after_size (engine4 s).

  (** What the test needs of its draws, up to line 168. *)
  Record good_start (s : E) : Prop := {
    doubles_inside : forall k, (k < 10)%nat -> inside (next_of (Nat.iter k next_engine s)) = true;
    eight_not_one : positive_number 8 (engine1 s) <> 1;
    ten_not_one : unsigned_number 10 (engine1 s) <> 1;
    not_zero_and_one : forall k, (k < 10)%nat -> let e := Nat.iter k next_engine (engine1 s) in
      next_of e = 0 -> unsigned_number 10 (if copied then e else next_engine e) <> 1 }.

  Context (logf : double -> double) (tolerance : double) (c : cfg).

  (** ApproxEqual holds in lines 182 and 189 for the bytes that are drawn as [o], and
      the base that is drawn from [e]. *)
  Definition logs_close (o : outcome (list Z)) (e : E) : Prop :=
    forall l, o = Ret l -> compare_logs engine logf tolerance c l e = Ret (true, next_engine e).

  (** Up to line 190. *)
  Record good_draws (s : E) : Prop := {
    starts_good : good_start s;
    negative_written : text (negative_read 10 (engine2 s)) = Ret (negative_read 10 (engine2 s));
    small_close : forall k, (k < 10)%nat -> let e := Nat.iter k next_engine (engine2 s) in
      logs_close (positive_bytes draw 10 e) e;
    large_close : forall k, (k < 10)%nat -> let e := Nat.iter k (fun e => next_engine (after_size e)) (engine3 s) in
      logs_close (positive_bytes draw (size_of e) (bytes_from e)) (after_size e) }.

  (** The bases and values of lines 193-211: the states of the engine, and for each the
      value and the base. *)
  Definition small_pairs (P : Z -> Z -> Prop) (s : E) : Prop :=
    P (positive_read 3 (engine4 s)) (positive_read 2 (engine4 s)).
  Definition mixed_pair (P : Z -> Z -> Prop) (s : E) (k : nat) : Prop :=
    let e := Nat.iter k after_size (engine4 s) in
    P (positive_read (size_of e) (bytes_from e)) (positive_read 1 e).
  Definition large_pair (P : Z -> Z -> Prop) (s : E) (k : nat) : Prop :=
    let e := Nat.iter k (fun e => after_size (after_size e)) (engine5 s) in
    P (positive_read (size_of (after_size e)) (bytes_from (after_size e))) (positive_read (size_of e) (bytes_from e)).
End Draws.
