(** Specification vocabulary for the bodies of the logarithm tests. *)
From Coq Require Import Bool ZArith Reals String.
From Verif Require Import SpecTestLog.
Open Scope R_scope.

(** The logarithm an operator is named after. *)
Definition log_of (op : string) (x : Z) : R := if (op =? "uLog10")%string then ln (IZR x) / ln 10 else ln (IZR x).

(** Numbers for which the two calculators cannot but agree: those below 2^31, and those
    whose logarithm is not too close to an integer. *)
Definition log_regular (op : string) (x : Z) : Prop := (x < 2 ^ 31)%Z \/ clear (log_of op x).
