(* Vocabulary for the text form of reactions (C92). *)
From Coq Require Import Ascii String Qpower.
From Verif Require Import Prelude NumQ ReactionModel StrModel.
Local Open Scope string_scope.
Open Scope nat_scope.
Open Scope list_scope.

(* A formula as pymatgen writes it: a capital letter, then letters, digits, points,
   parentheses; an E is not followed by a digit or a point. *)
Definition capitals : text := list_ascii_of_string "ABCDEFGHIJKLMNOPQRSTUVWXYZ".
Definition numerals : text := list_ascii_of_string "0123456789.".
Definition letters : text := list_ascii_of_string "ABCDEFGHIJKLMNOPQRSTUVWXYZabcdefghijklmnopqrstuvwxyz()".
Definition spelled (f : text) : Prop :=
  exists c w, f = c :: w /\ In c capitals /\ (forall d, In d w -> In d letters \/ In d numerals)
  /\ (c = "E"%char -> forall d w', w = d :: w' -> ~ In d numerals).

(* A number with at most four significant digits. *)
Definition short (q : Q) : Prop := exists n k : Z, (Z.abs n < 10000)%Z /\ (q == inject_Z n * Qpower 10 k)%Q.
(* a is q to four significant digits. *)
Definition four_digit_value (q a : Q) : Prop := (Qabs (a - q) <= (1 # 2000) * Qabs q)%Q /\ (short q -> (a == q)%Q).

(* The amounts of the reduced formulas, negative for reactants. *)
Definition amounts (C : chem) (r : brxn) : list (nat * Q) :=
  map (fun ck => (fst ck, (snd ck * fac C (fst ck))%Q)) (combine (comps r) (coeffs r)).
Definition consumed_amounts (C : chem) (r : brxn) : list (nat * Q) := filter (fun ca => Qlt_bool (snd ca) (- (1 # 1000000))) (amounts C r).
Definition formed_amounts (C : chem) (r : brxn) : list (nat * Q) := filter (fun ca => Qlt_bool (1 # 1000000) (snd ca)) (amounts C r).

(* --- how a reaction is written --- *)
(* The texts of l with sep between them. *)
Inductive sep_by (sep : text) : list text -> text -> Prop :=
| sep_none : sep_by sep [] []
| sep_one x : sep_by sep [x] x
| sep_more x y l t : sep_by sep (y :: l) t -> sep_by sep (x :: y :: l) (x ++ sep ++ t).
(* No zero at the end of a fraction, and no point without a fraction. *)
Definition tidy (n : text) : Prop := forall x y, n = x ++ "."%char :: y ->
  exists y' d e, y = y' ++ d :: e /\ In d (list_ascii_of_string "123456789") /\ (e = [] \/ exists e', e = "e"%char :: e').
(* One is not written; another amount is written to four digits before the formula. *)
Definition written (a : Q) (f t : text) : Prop :=
  ((Qabs (a - 1) < 1 # 1000000)%Q -> t = f)
  /\ ((1 # 1000000 <= Qabs (a - 1))%Q -> exists n v, t = n ++ " "%char :: f /\ tidy n /\ py_float n = Ok v /\ four_digit_value a v).
