(** Specification vocabulary: what an identity test of the project compares. *)
From Coq Require Import ZArith List String Ascii Bool.
From Verif Require Import Machine SpecPos SpecText SpecActual SpecPyRun SpecOracle SpecReference.
Import ListNotations.
Open Scope string_scope.
Open Scope Z_scope.

(** The number that a calculation ends with, [Ret None] when there is none.
    [lib] and [ref] are the numbers on the stacks of the library and of the
    reference implementation; [differ] says whether an operator has taken
    different operands from the two, in which case the calculation ends with
    -33. Wrong results that no later operator takes are not noticed. *)
Fixpoint ends_with (fuel : nat) (c : cfg) (ops : list string) (making : option (list Z)) (lib ref : list Z)
    (differ : bool) : outcome (option Z) :=
  match ops with
  | [] =>
      match making with
      | Some _ => Undef OutOfBounds
      | None => Ret (if differ then Some (-33) else hd_error lib)
      end
  | op :: ops =>
      match making with
      | Some bytes =>
          if (op =? "endmake")%string then
            let v := complement 256 bytes in ends_with fuel c ops None (v :: lib) (v :: ref) differ
          else ends_with fuel c ops (Some (bytes ++ [first_byte op])%list) lib ref differ
      | None =>
          if starts_with "u" op then
            match lib, ref with
            | x :: lib, x' :: ref =>
                match lookup unary_table op with
                | Some f => ends_with fuel c ops None (f x :: lib) (f x' :: ref) (differ || negb (x =? x'))
                | None => Throw RuntimeError
                end
            | _, _ => Undef OutOfBounds
            end
          else if starts_with "b" op then
            match lib, ref with
            | x :: y :: lib, x' :: y' :: ref =>
                match lookup (lib_binary_table fuel c) op, lookup ref_binary_table op with
                | Some g, Some f =>
                    v <- g x y ;;
                    w <- f x' y' ;;
                    ends_with fuel c ops None (v :: lib) (w :: ref) (differ || negb (x =? x') || negb (y =? y'))
                | _, _ => Throw RuntimeError
                end
            | _, _ => Undef OutOfBounds
            end
          else if starts_with "t" op then
            match lib, ref with
            | x :: y :: z :: lib, x' :: y' :: z' :: ref =>
                match lookup (lib_ternary_table c) op with
                | Some g =>
                    v <- g x y z ;;
                    ends_with fuel c ops None (v :: lib) (ref_power_mod x' y' z' :: ref)
                      (differ || negb (x =? x') || negb (y =? y') || negb (z =? z'))
                | None => Throw RuntimeError
                end
            | _, _ => Undef OutOfBounds
            end
          else if (op =? "make")%string then ends_with fuel c ops (Some []) lib ref differ
          else if (op =? "Corruption")%string then ends_with fuel c ops None (-33 :: lib) (-555 :: ref) differ
          else let v := signed_decimal op in ends_with fuel c ops None (v :: lib) (v :: ref) differ
      end
  end.

(** How a test ends that compares the numbers [v] and [w]. *)
Definition compared (v w : option Z) : outcome bool :=
  match v with
  | None => Undef OutOfBounds
  | Some v =>
      _ <- text v ;;
      match w with None => Undef OutOfBounds | Some w => same_text v w end
  end.

(** The library's numbers alone: what a calculation ends with when the reference implementation is left out. *)
Fixpoint library_ends (fuel : nat) (c : cfg) (ops : list string) (making : option (list Z)) (lib : list Z)
    : outcome (option Z) :=
  match ops with
  | [] => match making with Some _ => Undef OutOfBounds | None => Ret (hd_error lib) end
  | op :: ops =>
      match making with
      | Some bytes =>
          if (op =? "endmake")%string then library_ends fuel c ops None (complement 256 bytes :: lib)
          else library_ends fuel c ops (Some (bytes ++ [first_byte op])%list) lib
      | None =>
          if starts_with "u" op then
            match lib, lookup unary_table op with
            | x :: lib, Some f => library_ends fuel c ops None (f x :: lib)
            | _ :: _, None => Throw RuntimeError
            | _, _ => Undef OutOfBounds
            end
          else if starts_with "b" op then
            match lib, lookup (lib_binary_table fuel c) op with
            | x :: y :: lib, Some g => v <- g x y ;; library_ends fuel c ops None (v :: lib)
            | _ :: _ :: _, None => Throw RuntimeError
            | _, _ => Undef OutOfBounds
            end
          else if starts_with "t" op then
            match lib, lookup (lib_ternary_table c) op with
            | x :: y :: z :: lib, Some g => v <- g x y z ;; library_ends fuel c ops None (v :: lib)
            | _ :: _ :: _ :: _, None => Throw RuntimeError
            | _, _ => Undef OutOfBounds
            end
          else if (op =? "make")%string then library_ends fuel c ops (Some []) lib
          else if (op =? "Corruption")%string then library_ends fuel c ops None (-33 :: lib)
          else library_ends fuel c ops None (signed_decimal op :: lib)
      end
  end.
