(** Model of tools/fix-stubs.py, which edits the generated Python type stubs. *)
From Coq Require Import String Ascii List.
Import ListNotations.
Open Scope string_scope.

(** tools/fix-stubs.py:3-10 *)
Definition patterns : list (string * string) :=
  [(": buffer", ": bytes"); ("neo3vm::", ""); ("int_", "int"); ("bool_", "bool");
   ("from numpy import float64", ""); ("_Shape = Tuple[int, ...]", "")].

(** [old in s] *)
Fixpoint occurs (old s : string) : bool :=
  String.prefix old s || match s with EmptyString => false | String _ t => occurs old t end.

(** [s.replace(old, new)], [old] not empty: scan from the left, after an occurrence
    go on behind it. [k] characters are still to be skipped. *)
Fixpoint replace_from (k : nat) (old new s : string) : string :=
  match s with
  | EmptyString => ""
  | String a t =>
      match k with
      | S k => replace_from k old new t
      | O => if String.prefix old s then new ++ replace_from (String.length old - 1) old new t
             else String a (replace_from 0 old new t)
      end
  end.
Definition replace (old new s : string) : string := replace_from 0 old new s.

(** The loop body, 16-19: each pattern is looked for in [line], and replaced in
    [line], which stays what was read. *)
Definition fix_line (line : string) : string :=
  fold_left (fun now p => if occurs (fst p) line then replace (fst p) (snd p) line else now) patterns line.

(** readlines and writelines; a line is kept with its newline. Text mode: the
    file has been read with newlines translated. *)
Definition newline : ascii := "010"%char.
Fixpoint lines_of (s : string) : list string :=
  match s with
  | EmptyString => []
  | String a t =>
      if Ascii.eqb a newline then String a "" :: lines_of t
      else match lines_of t with [] => [String a ""] | l :: r => String a l :: r end
  end.
Definition text_of (l : list string) : string := fold_right append "" l.

(** main, 12-27. [path] is sys.argv[1]. [list.insert(2, x)] appends to a shorter list. *)
Definition import_line : string := "from pybiginteger import BigInteger" ++ String newline "".
Definition fix_stubs (path content : string) : string :=
  let l := map fix_line (lines_of content) in
  text_of (if occurs "neo3vm" path then firstn 2 l ++ import_line :: skipn 2 l else l)%list.
