(** Property theorems: the Python class under CPython's operator protocol and pybind11's
    overload resolution, with operands of any type. *)
From Coq Require Import String List.
From Verif Require Import Machine Spec SpecApi SpecPy SpecPyRun SpecPyClass BigInt ApiMem PyRun PyClass PyClassFacts Examples.
Import ListNotations.
Open Scope Z_scope.

(** C69. Every expression over variables that hold BigIntegers and other objects evaluates
    to what SpecPyClass.v says, or raises TypeError where it says so. [py] is whatever Python
    does when no BigInteger is involved, [lim] the digit limit of int(str). *)
Theorem C69_py_any_expression : forall d c lim py m s e,
  expr_ok e -> holds m s -> agrees (evaluate d c lim py m e) (meaning d c lim py s e).
Proof. exact evaluate_exact. Qed.
Print Assumptions C69_py_any_expression.
Theorem C69_py_any_script : forall d c lim py l m s,
  python_ok py -> Forall (fun i => expr_ok (snd i)) l -> holds m s ->
  match script_meaning d c lim py l s with
  | Some (vs, s') => exists rs m', run_script d c lim py l m = Some (rs, m') /\ Forall2 agree rs vs /\ holds m' s'
  | None => run_script d c lim py l m = None
  end.
Proof. exact run_script_exact. Qed.
Print Assumptions C69_py_any_script.
(** a = BigInteger(5); b = True; a + b; 1.0; a == 1.0; x = 7 - a; y = x + x; pow(a, y, y);
    pow(a, a, y); u = a.to_array(1, None); z = BigInteger(u); BigInteger(a); divmod(23, a);
    a.get_bit_Length(); a.to_array(a); bool(BigInteger(0)); 17 < a; None != a; float(a); str(a). *)
Definition C69_python : python := fun name l =>
  match l with
  | [NInt a; NInt b] => if String.eqb name "__add__" then Some (Ret (One (NInt (a + b)))) else None
  | _ => None
  end.
Definition C69_script : list (loc * loc * expr) :=
  [(0, 0, XLiteral (NInt 5)); (0, 0, XNew 0); (1, 1, XLiteral (NBool true)); (2, 2, XBinary OAdd 0 1); (3, 3, XLiteral (NFloat 4607182418800017408));
   (9, 9, XBinary OEq 0 3); (4, 4, XLiteral (NInt 7)); (4, 4, XBinary OSub 4 0); (5, 5, XBinary OAdd 4 4); (9, 9, XPower3 0 5 5);
   (9, 9, XPower3 0 0 5); (6, 6, XLiteral NNone); (7, 7, XToArray 0 [1; 6]); (8, 8, XNew 7); (9, 9, XNew 0); (10, 10, XLiteral (NInt 23));
   (11, 12, XBinary ODivMod 10 0); (9, 9, XBitLength 0); (9, 9, XToArray 0 [0]); (13, 13, XZero); (9, 9, XTruth 13); (9, 9, XBinary OLt 10 0);
   (9, 9, XBinary ONe 6 0); (9, 9, XUnary UFloat 0); (14, 14, XUnary UStr 0)]%nat.
Definition C69_none : SpecPyClass.store := fun _ => IsNative NNone.
Example C69_case :
  python_ok C69_python /\ Forall (fun i => expr_ok (snd i)) C69_script /\ holds (fun _ => PNative NNone) C69_none /\
  let n x := inl (One (IsNative x)) in let b z := inl (One (IsBig z)) in
  option_map fst (script_meaning LP64 debug_strict 4300 C69_python C69_script C69_none) =
    Some [n (NInt 5); b 5; n (NBool true); b 6; n (NFloat 4607182418800017408); inr None; n (NInt 7); n (NInt 2); n (NInt 4); inr None;
      b 1; n NNone; n (bytes_holding [5]); b 5; inr None; n (NInt 23); inl (Two (IsNative (NInt 4)) (IsNative (NInt 3))); n (NInt 3); inr None;
      b 0; n (NBool true); n (NBool false); inr None; n (NFloat 4617315517961601024); n (NText "5")] /\
  option_map (fun p => snd p 8%nat) (run_script LP64 debug_strict 4300 C69_python C69_script (fun _ => PNative NNone)) = Some (PBig (Big 5 [])) /\
  run_script LP64 debug_strict 4300 C69_python (app C69_script [(9, 9, XBinary OMod 14 0)]%nat) (fun _ => PNative NNone) = None.
Proof.
  split.
  { intros name l r _. unfold C69_python. destruct l as [|[] [|[] [|]]]; try discriminate. destruct (String.eqb _ _); [|discriminate].
    intros E. injection E as E. subst r. exact I. }
  split; [repeat constructor|]. split; [intros p; split; [reflexivity|exact I]|]. repeat split; vm_compute; reflexivity.
Qed.

(** sum() of a list of BigIntegers is the sum, as an int. *)
Theorem C69_sum : forall c lim l xs v, strict c = false -> Forall2 represents l xs ->
  sum_from LP64 c lim (PNative (NInt v)) l = Some (Ret (PNative (NInt (fold_left Z.add xs v)))).
Proof. exact sum_exact. Qed.
Print Assumptions C69_sum.
(** C71. == and != do not answer, as Python objects do, that objects of other types are
    different: they raise TypeError, on either side. *)
Theorem C71_equality_refuted : forall d c a n, integer n = None ->
  binary d c OEq (PBig a) (PNative n) = None /\ binary d c OEq (PNative n) (PBig a) = None /\
  binary d c ONe (PBig a) (PNative n) = None /\ binary d c ONe (PNative n) (PBig a) = None.
Proof. exact eq_type_error. Qed.
Print Assumptions C71_equality_refuted.
(** pow(a, n, m) with two ints is not supported, and bool(a) is True for every a, 0 too. *)
Theorem C71_pow_ints_refuted : forall d c a n m, power3 d c (PBig a) (PNative n) (PNative m) = None.
Proof. exact pow3_int_int. Qed.
Print Assumptions C71_pow_ints_refuted.
Theorem C71_truth_refuted : forall d c lim py p, 
  evaluate d c lim py (fun _ => PBig bi_default) (XTruth p) = Some (Ret (One (PNative (NBool true)))).
Proof. exact truth_of_zero. Qed.
Print Assumptions C71_truth_refuted.
Example C71_case :
  binary LP64 debug_strict OEq (PBig (Big 5 [])) (PNative NNone) = None /\ represents bi_default 0 /\
  sum_from LP64 release_wrap 4300 (PNative (NInt 0)) [Big 1 [0; 1]; Big (-7) []; Big (-1) [5; 0; 1]] =
    Some (Ret (PNative (NInt (2 ^ 32 - 7 - (2 ^ 64 + 5))))).
Proof. split; [reflexivity|]. split; [repr|vm_compute; reflexivity]. Qed.
