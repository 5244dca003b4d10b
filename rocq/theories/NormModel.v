(* The normalised text of a reaction: normalized_repr_and_factor, normalized_repr and _str_from_comp with
   reduce=True of reactions/basic.py, with gcd_float of monty; from_formulas. Numbers are exact. *)
From Coq Require Import Ascii Qround.
From Verif Require Import Prelude NumQ UtilsModel ReactionModel StrModel.
Open Scope list_scope.
Open Scope nat_scope.

(* monty/fractions.py gcd_float (from memory of the package, basic.py:14), whose tolerance is 1e-8 *)
Definition GCD_TOL : Q := 1 # 100000000.
(* a % b of floats that are not negative *)
Definition py_mod (a b : Q) : Q := Qred (a - b * inject_Z (Qfloor (a / b)))%Q.
(* pair_gcd_tol: while b > tol: a, b = b, a % b *)
Fixpoint pair_gcd (fuel : nat) (a b : Q) : result Q :=
  match fuel with
  | 0 => Err OutOfFuel
  | S fuel' => if Qlt_bool GCD_TOL b then pair_gcd fuel' b (py_mod a b) else Ok a
  end.
(* b is halved by two rounds *)
Definition gcd_fuel (b : Q) : nat := S (2 * Z.to_nat (Z.log2_up (Qceiling (b / GCD_TOL)))).
(* n = numbers[0]; for i in numbers: n = pair_gcd_tol(i, n) *)
Fixpoint gcd_loop (n : Q) (l : list Q) : result Q :=
  match l with
  | [] => Ok n
  | i :: l' => bind (pair_gcd (gcd_fuel n) i n) (fun n' => gcd_loop n' l')
  end.
Definition gcd_float (l : list Q) : result Q := match l with [] => Err IndexError | n :: _ => gcd_loop n l end.

Section Norm.
Variable C : chem.
Variable name : nat -> text.              (* reduced formula of a composition *)

(* basic.py:163-167 normalized_repr_and_factor, 445-458 _str_from_comp with reduce=True. If the divisor is zero
   numpy goes on with inf and nan, here it is ZeroDivisionError. Fractions are reduced, which changes no number. *)
Definition normalized_repr_and_factor (r : brxn) : result (text * Q) :=
  let amts := map (fun ck => (name (fst ck), (snd ck * fac C (fst ck))%Q)) (combine (comps r) (coeffs r)) in
  bind (gcd_float (map (fun fa => Qabs (snd fa)) amts)) (fun g =>
  if Qeq_bool g 0 then Err ZeroDivisionError
  else let factor := (1 / g)%Q in Ok (str_from_formulas (map (fun fa => (Qred (snd fa * factor), fst fa)) amts), factor)).
(* basic.py:358-363 *)
Definition normalized_repr (r : brxn) : result text := bind (normalized_repr_and_factor r) (fun tf => Ok (fst tf)).

(* basic.py:289-303 from_formulas; Composition(text) and the linear algebra are arguments *)
Definition from_formulas (parse : text -> result nat) (lsq : list nat -> list nat -> list nat -> list Q) (lrank : list nat -> list nat -> nat) (rs ps : list text) : result brxn :=
  bind (mapM parse rs) (fun rc => bind (mapM parse ps) (fun pc => basic_balance C rc pc (lsq rc pc) (lrank rc pc))).
End Norm.
