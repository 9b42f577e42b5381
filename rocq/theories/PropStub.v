(** Property theorems: tools/fix-stubs.py, which edits the type stubs of the Python module. *)
From Coq Require Import String List.
From Verif Require Import StubFix SpecStub StubFacts.
Import ListNotations.
Open Scope string_scope.

(** C78. The full claim,
      all_replaced wanted s (fix_line s),
    is false: the loop replaces in the line it read, not in the line as changed
    so far. For every line: only the last pattern of the list that occurs in it
    is replaced. *)
Theorem C78_line_exact_refuted : forall s r, r = fix_line s <-> last_replaced wanted s r.
Proof. exact line_iff. Qed.
Print Assumptions C78_line_exact_refuted.
(** A pattern followed in the list by another one in the line is left there. The
    two conditions exclude patterns that overlap. *)
Theorem C78_stale_refuted : forall s before old new after p,
  wanted = (before ++ (old, new) :: after)%list -> contains s old -> In p after -> contains s (fst p) ->
  (old = ": buffer" -> ~ contains s "neo3vm::") -> (old = "int_" \/ old = "bool_" -> ~ contains s "_Shape = Tuple[int, ...]") ->
  contains (fix_line s) old.
Proof. exact stale_pattern. Qed.
Print Assumptions C78_stale_refuted.
(** A line about the method __int__, which the class has, is about __int_ afterwards. *)
Theorem C78_int_refuted : forall a b,
  ~ contains (a ++ "__") "int_" -> ~ contains ("_" ++ b) "int_" ->
  Forall (fun t => ~ contains (a ++ "__int__" ++ b) t) ["bool_"; "from numpy import float64"; "_Shape = Tuple[int, ...]"] ->
  fix_line (a ++ "__int__" ++ b) = a ++ "__int_" ++ b.
Proof. exact int_renamed. Qed.
Print Assumptions C78_int_refuted.
(** The whole file, with the import added for neo3vm. *)
Theorem C78_file_exact : forall path l, file_lines l ->
  (~ contains path "neo3vm" -> exists l', Forall2 (last_replaced wanted) l l' /\ fix_stubs path (text l) = text l') /\
  (contains path "neo3vm" -> exists l', fixed ("from pybiginteger import BigInteger" ++ end_of_line) l l' /\ fix_stubs path (text l) = text l').
Proof. exact file_exact. Qed.
Print Assumptions C78_file_exact.
(** Every file has such lines. *)
Theorem C78_every_file : forall s, exists l, file_lines l /\ s = text l.
Proof. exact every_file. Qed.
Print Assumptions C78_every_file.
(** The two parameters of one line; the method __int__; a file of three lines. *)
Example C78_case :
  fix_line "def f(a: int_, b: bool_, c: buffer)" = "def f(a: int_, b: bool, c: buffer)" /\
  contains "def f(a: int_, b: bool_, c: buffer)" "int_" /\
  fix_line "    def __int__(self) -> int: ..." = "    def __int_(self) -> int: ..." /\
  fix_line "def f(a: buffer) -> int" = "def f(a: bytes) -> int" /\
  fix_stubs "neo3vm-stubs/__init__.pyi" (text ["a" ++ end_of_line; "b: int_" ++ end_of_line; "c" ++ end_of_line]) =
    text ["a" ++ end_of_line; "b: int" ++ end_of_line; "from pybiginteger import BigInteger" ++ end_of_line; "c" ++ end_of_line].
Proof.
  split; [vm_compute; reflexivity|]. split; [now exists "def f(a: ", ", b: bool_, c: buffer)"|]. repeat split; vm_compute; reflexivity.
Qed.
