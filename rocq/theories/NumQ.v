(* Rational numbers standing for Python floats, and numpy's comparison helpers. *)
From Coq Require Export QArith Qabs Qminmax.
From Verif Require Import Prelude.

(* a < b on floats (no NaN). *)
Definition Qlt_bool (a b : Q) : bool := negb (Qle_bool b a).

(* sum(l) *)
Definition Qsum (l : list Q) : Q := fold_right Qplus 0 l.

(* numpy.isclose(a, b) with the default rtol=1e-05, atol=1e-08:
   |a - b| <= atol + rtol * |b|. Not symmetric in a and b. *)
Definition isclose (a b : Q) : bool :=
  Qle_bool (Qabs (a - b)) ((1 # 100000000) + (1 # 100000) * Qabs b).

(* numpy.allclose on lists of equal length. *)
Fixpoint allclose (l1 l2 : list Q) : bool :=
  match l1, l2 with
  | a :: l1', b :: l2' => isclose a b && allclose l1' l2'
  | _, _ => true
  end.

(* numpy.dot of two vectors; a length mismatch raises ValueError. *)
Fixpoint dot (l1 l2 : list Q) : result Q :=
  match l1, l2 with
  | [], [] => Ok 0
  | a :: l1', b :: l2' =>
      match dot l1' l2' with Ok s => Ok (a * b + s) | Err e => Err e end
  | _, _ => Err ValueError
  end.

(* Plain numerals and operators are natural numbers in the files importing this
   one; rational expressions are marked with %Q. *)
#[global] Open Scope nat_scope.
