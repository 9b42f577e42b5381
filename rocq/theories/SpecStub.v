(** Replacing text, and what the stub fixer is for. *)
From Coq Require Import String Ascii List.
Import ListNotations.
Open Scope string_scope.

Definition contains (s t : string) : Prop := exists a b, s = a ++ t ++ b.

(** [r] is [s] with [old] replaced: cut at the first occurrence, and go on behind it. *)
Inductive replaced (old new : string) : string -> string -> Prop :=
| none_left s : ~ contains s old -> replaced old new s s
| cut a s r : (forall b c, a ++ old = b ++ old ++ c -> b = a) -> replaced old new s r ->
    replaced old new (a ++ old ++ s) (a ++ new ++ r).

(** What to replace by what. *)
Definition wanted : list (string * string) :=
  [(": buffer", ": bytes"); ("neo3vm::", ""); ("int_", "int"); ("bool_", "bool");
   ("from numpy import float64", ""); ("_Shape = Tuple[int, ...]", "")].
(** All of it in turn. *)
Inductive all_replaced : list (string * string) -> string -> string -> Prop :=
| all_done s : all_replaced [] s s
| one_more old new l s r t : replaced old new s r -> all_replaced l r t -> all_replaced ((old, new) :: l) s t.

(** Only the last pattern of the list that occurs is replaced. *)
Definition last_replaced (l : list (string * string)) (s r : string) : Prop :=
  (Forall (fun p => ~ contains s (fst p)) l /\ r = s) \/
  exists before old new after, l = (before ++ (old, new) :: after)%list /\ contains s old /\
    Forall (fun p => ~ contains s (fst p)) after /\ replaced old new s r.

(** A line feed. *)
Definition end_of_line : string := String (ascii_of_nat 10) "".
(** A line of a file: text up to and with a newline. *)
Definition is_line (s : string) : Prop :=
  exists a, s = a ++ end_of_line /\ forall x y, a <> x ++ end_of_line ++ y.
(** The lines of a file; the last one may lack the newline. *)
Inductive file_lines : list string -> Prop :=
| no_lines : file_lines []
| unfinished s : s <> "" -> (forall x y, s <> x ++ end_of_line ++ y) -> file_lines [s]
| one_line s l : is_line s -> file_lines l -> file_lines (s :: l).
Definition text (l : list string) : string := String.concat "" l.
(** Changed line by line, and a line put in third place, or at the end of a shorter file. *)
Inductive fixed (extra : string) : list string -> list string -> Prop :=
| third p q l p' q' l' : last_replaced wanted p p' -> last_replaced wanted q q' -> Forall2 (last_replaced wanted) l l' ->
    fixed extra (p :: q :: l) (p' :: q' :: extra :: l')
| at_end l l' : (List.length l < 2)%nat -> Forall2 (last_replaced wanted) l l' -> fixed extra l (l' ++ [extra])%list.
