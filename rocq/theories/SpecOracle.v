(** Specification vocabulary: what the tests' reference implementation and
    their stack calculator compute, on integers. *)
From Coq Require Import ZArith List String Ascii Bool.
From Verif Require Import Machine Spec SpecPos SpecText SpecModPow SpecGcd SpecActual PyRun SpecPyRun.
Import ListNotations.
Open Scope string_scope.
Open Scope Z_scope.

Fixpoint lookup {A : Type} (t : list (string * A)) (op : string) : option A :=
  match t with
  | [] => None
  | (name, f) :: t => if (op =? name)%string then Some f else lookup t op
  end.

(** ** The meaning of the operators *)
Definition unary_table : list (string * (Z -> Z)) :=
  [("uSign", Z.sgn); ("u~", Z.lnot); ("uAbs", Z.abs); ("uNegate", Z.opp); ("u-", Z.opp);
   ("u--", Z.pred); ("u++", Z.succ); ("u+", fun x => x);
   ("uMultiply", fun x => x * x); ("u*", fun x => x * x)].

(** With the values of the second operand for which it makes sense. *)
Definition always (_ : Z) : bool := true.
Definition nonzero (y : Z) : bool := negb (y =? 0).
Definition an_int (y : Z) : bool := (- 2 ^ 31 <=? y) && (y <? 2 ^ 31).
Definition binary_table : list (string * ((Z -> Z -> Z) * (Z -> bool))) :=
  [("bMin", (Z.min, always)); ("bMax", (Z.max, always));
   ("b>>", (Z.shiftr, an_int)); ("b<<", (Z.shiftl, an_int));
   ("b^", (Z.lxor, always)); ("b|", (Z.lor, always)); ("b&", (Z.land, always));
   ("b%", (Z.rem, nonzero)); ("b/", (Z.quot, nonzero)); ("b*", (Z.mul, always));
   ("b-", (Z.sub, always)); ("b+", (Z.add, always));
   ("bGCD", (Z.gcd, always)); ("bPow", (Z.pow, fun e => (0 <=? e) && an_int e));
   ("bDivRem", (Z.quot, nonzero)); ("bRemainder", (Z.rem, nonzero)); ("bDivide", (Z.quot, nonzero));
   ("bMultiply", (Z.mul, always)); ("bSubtract", (Z.sub, always)); ("bAdd", (Z.add, always))].
(** What is stored besides the result. *)
Definition second_result (op : string) (x y : Z) : Z := if (op =? "bDivRem")%string then Z.rem x y else 0.

(** [l] is a non-empty byte string that encodes [x]. *)
Definition encodes (l : list Z) (x : Z) : Prop := digits 256 l /\ l <> [] /\ complement 256 l = x.
(** [o] returns such a string. *)
Definition encoded (o : outcome (list Z)) (x : Z) : Prop := exists l, o = Ret l /\ encodes l x.

(** The operators that take logarithms. *)
Definition takes_log (op : string) : Prop := op = "uLog10"%string \/ op = "uLog"%string \/ op = "bLog"%string.

(** ** Texts *)

(** [toks] are the pieces of [input] between its blanks. *)
Definition pieces (input : string) (toks : list string) : Prop :=
  toks <> [] /\ Forall (fun t => forall a b, t <> (a ++ " " ++ b)%string) toks /\ input = String.concat " " toks.

(** ** The notation for byte strings *)

(** The bytes that "make ... endmake" stands for, when [bytes] was printed: a
    blank is taken for two empty tokens. *)
Definition blanks_lost (bytes : list Z) : list Z :=
  flat_map (fun b => if b =? 32 then [0; 0] else [b]) bytes.

(** The integer that a printed byte string becomes. *)
Definition operand (bytes : list Z) : Z := complement 256 (blanks_lost bytes).

(** Bytes in 0..127, and a distribution that stays within its bounds. *)
Definition low7 (l : list Z) : Prop := Forall (fun b => 0 <= b < 128) l.
Definition in_bounds {E : Type} (draw : E -> Z -> Z -> Z * E) : Prop :=
  forall e lo hi, lo <= hi -> lo <= fst (draw e lo hi) <= hi.

(** ** The library's results *)
Definition lib_binary_table (fuel : nat) (c : cfg) : list (string * (Z -> Z -> outcome Z)) :=
  [("bMin", fun x y => Ret (Z.min x y)); ("bMax", fun x y => Ret (Z.max x y));
   ("b>>", fun x y => n <- big_count c y ;; shift_by c x (- n));
   ("b<<", fun x y => n <- big_count c y ;; shift_by c x n);
   ("b^", fun x y => Ret (Z.lxor x y)); ("b|", fun x y => Ret (Z.lor x y)); ("b&", fun x y => Ret (Z.land x y));
   ("b%", divided Z.rem); ("b/", divided Z.quot); ("b*", fun x y => Ret (x * y));
   ("b-", fun x y => Ret (x - y)); ("b+", fun x y => Ret (x + y));
   ("bGCD", actual_gcd fuel (dbg c)); ("bPow", fun x y => e <- big_count c y ;; power_of LP64 x e);
   ("bDivRem", divided Z.quot); ("bRemainder", divided Z.rem); ("bDivide", divided Z.quot);
   ("bMultiply", fun x y => Ret (x * y)); ("bSubtract", fun x y => Ret (x - y)); ("bAdd", fun x y => Ret (x + y))].
Definition lib_ternary_table (c : cfg) : list (string * (Z -> Z -> Z -> outcome Z)) :=
  [("tModPow", power_mod (dbg c))].
(** What div_rem stores, and 0 for the other operators. *)
Definition lib_second_result (op : string) (x y : Z) : Z := if (op =? "bDivRem")%string then divmod_rem x y else 0.

(** ** What becomes of a test *)

Definition starts_with (ch : ascii) (op : string) : bool :=
  match op with String a _ => Ascii.eqb a ch | EmptyString => false end.
Definition first_byte (op : string) : Z :=
  match op with String a _ => Z.of_nat (nat_of_ascii a) | EmptyString => 0 end.

(** A result [v] is compared with [w] by their decimal texts. *)
Definition same_text (v w : Z) : outcome bool := s <- text v ;; t <- text w ;; Ret (s =? t).

(** The verdict of a test on the tokens [ops], with the numbers [st] on the
    stack: [Ret true], passed; [Ret false], failed. [making]: the bytes read so
    far after "make". [outs]: whether the second results are compared as well. *)
Fixpoint verdict (fuel : nat) (c : cfg) (outs : bool) (ops : list string) (making : option (list Z)) (st : list Z)
    : outcome bool :=
  match ops with
  | [] => match making with None => Ret true | Some _ => Undef OutOfBounds end
  | op :: ops =>
      let continue v w st :=
        same <- same_text v w ;; if same : bool then verdict fuel c outs ops None (v :: st) else Ret false in
      match making with
      | Some bytes =>
          if (op =? "endmake")%string then let v := complement 256 bytes in continue v v st
          else verdict fuel c outs ops (Some (bytes ++ [first_byte op])%list) st
      | None =>
          if starts_with "u" op then
            match st with
            | x :: st =>
                match lookup unary_table op with
                | Some f => continue (f x) (f x) st
                | None => Throw RuntimeError
                end
            | _ => Undef OutOfBounds
            end
          else if starts_with "b" op then
            match st with
            | x :: y :: st =>
                match lookup (lib_binary_table fuel c) op, lookup binary_table op with
                | Some g, Some (f, _) =>
                    v <- g x y ;;
                    same <- same_text v (f x y) ;;
                    if negb same then Ret false
                    else if outs && dbg c && negb (lib_second_result op x y =? second_result op x y) then AssertFail
                    else verdict fuel c outs ops None (v :: st)
                | _, _ => Throw RuntimeError
                end
            | _ => Undef OutOfBounds
            end
          else if starts_with "t" op then
            match st with
            | x :: y :: z :: st =>
                match lookup (lib_ternary_table c) op with
                | Some g => v <- g x y z ;; continue v (Z.rem (x ^ y) z) st
                | None => Throw RuntimeError
                end
            | _ => Undef OutOfBounds
            end
          else if (op =? "make")%string then verdict fuel c outs ops (Some []) st
          else if (op =? "Corruption")%string then Ret false
          else let v := signed_decimal op in continue v v st
      end
  end.

(** The tokens that can make a test fail. *)
Definition blamed : list string := ["b>>"; "b<<"; "bGCD"; "tModPow"; "Corruption"].
