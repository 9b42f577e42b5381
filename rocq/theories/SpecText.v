(** Specification vocabulary: decimal numerals. *)
From Coq Require Import ZArith List String Ascii.
From Verif Require Import SpecPos.
Open Scope Z_scope.

(** The digit written by a character. *)
Definition digit_of (ch : ascii) : option Z :=
  match ch with
  | "0"%char => Some 0 | "1"%char => Some 1 | "2"%char => Some 2 | "3"%char => Some 3
  | "4"%char => Some 4 | "5"%char => Some 5 | "6"%char => Some 6 | "7"%char => Some 7
  | "8"%char => Some 8 | "9"%char => Some 9 | _ => None
  end.

(** The longest run of digits at the start of a string, in reading order. *)
Fixpoint leading_digits (s : string) : list Z :=
  match s with
  | EmptyString => nil
  | String ch t =>
      match digit_of ch with Some d => d :: leading_digits t | None => nil end
  end.

(** The natural number written by that run; 0 if it is empty. *)
Definition decimal (s : string) : Z := positional 10 (rev (leading_digits s)).

(** Every character is a digit. *)
Definition all_digits (s : string) : Prop := List.length (leading_digits s) = String.length s.

(** An optional sign and digits; what comes after is ignored. *)
Definition signed_decimal (s : string) : Z :=
  match s with
  | String "-"%char t => - decimal t
  | String "+"%char t => decimal t
  | _ => decimal s
  end.

(** An optional sign and at least one digit, and nothing else. *)
Definition well_formed (s : string) : Prop :=
  exists t, t <> EmptyString /\ all_digits t /\
    (s = t \/ s = String "-"%char t \/ s = String "+"%char t).

(** [s] is the usual notation for [z]: no leading zeros, no plus sign. *)
Definition numeral (s : string) (z : Z) : Prop :=
  exists t, s = String.append (if z <? 0 then "-"%string else EmptyString) t /\
    all_digits t /\ t <> EmptyString /\ decimal t = Z.abs z /\
    (forall u, t = String "0"%char u -> u = EmptyString).

(** The decimal notation of [z] has [k] digits. *)
Definition decimal_width (z k : Z) : Prop := 1 <= k /\ 10 ^ (k - 1) <= Z.abs z < 10 ^ k.

(** Negative, not small, and the number of digits is a multiple of nine. *)
Definition sign_hits (x : Z) : Prop := x <= - 2 ^ 31 /\ exists k, decimal_width x (9 * k).
