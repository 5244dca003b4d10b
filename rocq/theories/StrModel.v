(* Model of the text form of reactions (reactions/basic.py): __str__ and from_string.
   Texts are lists of ASCII characters; the classes \d, \s and \w are restricted to
   ASCII. Numbers are exact. *)
From Coq Require Import Ascii Qround Qpower.
From Verif Require Import Prelude NumQ ReactionModel.
Open Scope nat_scope.

Notation text := (list ascii).
Definition code (c : ascii) : nat := nat_of_ascii c.
Definition between (a b : nat) (c : ascii) : bool := Nat.leb a (code c) && Nat.leb (code c) b.
Definition is_digit (c : ascii) : bool := between 48 57 c.
Definition is_upper (c : ascii) : bool := between 65 90 c.
Definition is_lower (c : ascii) : bool := between 97 122 c.
Definition is_space (c : ascii) : bool := between 9 13 c || between 28 32 c.
Definition is_char (n : nat) (c : ascii) : bool := Nat.eqb (code c) n.
Definition dot_char : ascii := "."%char.
(* [\d\.] *)
Definition num_char (c : ascii) : bool := is_digit c || is_char 46 c.
(* [\w\.\(\)] *)
Definition formula_char (c : ascii) : bool :=
  is_digit c || is_upper c || is_lower c || is_char 95 c || is_char 46 c || is_char 40 c || is_char 41 c.

Fixpoint span (p : ascii -> bool) (s : text) : text * text :=
  match s with
  | [] => ([], [])
  | c :: s' => if p c then let (a, b) := span p s' in (c :: a, b) else ([], s)
  end.

(* basic.py:281, the regular expression at one position: first group [\d\.] any number of
   times, then optionally [eE], an optional - and [\d\.] at least once; \s any number of
   times; second group [A-Z] and then [\w\.\(\)] any number of times. Shorter runs of [\d\.], \s or of the digits of the exponent never
   lead to a match, since the next character would be of the same class; the exponent
   is tried first. *)
Definition match_exponent (s : text) : option (text * text) :=
  match s with
  | c :: r =>
      if is_char 101 c || is_char 69 c then
        let (m, r1) := match r with
                       | d :: r' => if is_char 45 d then ([d], r') else ([], r)
                       | [] => ([], r)
                       end in
        match span num_char r1 with
        | ([], _) => None
        | (ds, r2) => Some (c :: m ++ ds, r2)
        end
      else None
  | [] => None
  end.
Definition match_formula (s : text) : option (text * text) :=
  match snd (span is_space s) with
  | c :: r => if is_upper c then let (w, r') := span formula_char r in Some (c :: w, r') else None
  | [] => None
  end.
Definition match_at (s : text) : option (text * text * text) :=
  let (d, r) := span num_char s in
  let plain := match match_formula r with Some (f, rest) => Some (d, f, rest) | None => None end in
  match match_exponent r with
  | Some (x, r') => match match_formula r' with Some (f, rest) => Some (d ++ x, f, rest) | None => plain end
  | None => plain
  end.
(* re.finditer; every match has at least one character *)
Fixpoint finditer_loop (fuel : nat) (s : text) : list (text * text) :=
  match fuel with
  | 0 => []
  | S n =>
      match s with
      | [] => []
      | _ :: s' => match match_at s with
                   | Some (g1, g2, rest) => (g1, g2) :: finditer_loop n rest
                   | None => finditer_loop n s'
                   end
      end
  end.
Definition finditer (s : text) : list (text * text) := finditer_loop (length s) s.

(* float(text) for a text matched by the first group *)
Definition digit_value (c : ascii) : Z := Z.of_nat (code c) - 48.
Definition digits_value (ds : text) : Z := fold_left (fun n c => (10 * n + digit_value c)%Z) ds 0%Z.
Definition all_digits (ds : text) : bool := forallb is_digit ds.
Definition mantissa (s : text) : result Q :=
  let (a, r) := span is_digit s in
  let b := match r with [] => [] | _ :: r' => r' end in    (* r starts with a point *)
  match a ++ b with
  | [] => Err ValueError
  | ds => if all_digits b then Ok (inject_Z (digits_value ds) * Qpower 10 (- Z.of_nat (length b)))%Q else Err ValueError
  end.
Definition py_float (g : text) : result Q :=
  let (d, x) := span num_char g in
  bind (mantissa d) (fun m =>
  match x with
  | [] => Ok m
  | _ :: r =>
      let (sign, ds) := match r with
                        | c :: r' => if is_char 45 c then ((-1)%Z, r') else (1%Z, r)
                        | [] => (1%Z, r)
                        end in
      match ds with
      | [] => Err ValueError
      | _ => if all_digits ds then Ok (m * Qpower 10 (sign * digits_value ds))%Q else Err ValueError
      end
  end).

Section Read.
Variable C : chem.
Variable parse : text -> result nat.        (* Composition(text) *)

(* basic.py:278-282 get_comp_amt *)
Definition get_comp_amt (s : text) : result (list (nat * Q)) :=
  bind (mapM (fun m => bind (parse (snd m)) (fun c =>
                       bind (match fst m with [] => Ok 1%Q | g => py_float g end) (fun q => Ok (c, q)))) (finditer s))
       (fun l => Ok (dict_of l)).

(* rxn_string.split("->") *)
Fixpoint split_arrow (cur s : text) : list text :=
  match s with
  | [] => [rev cur]
  | c :: s' => match s' with
               | d :: s'' => if is_char 45 c && is_char 62 d then rev cur :: split_arrow [] s'' else split_arrow (c :: cur) s'
               | [] => split_arrow (c :: cur) s'
               end
  end.

(* basic.py:424-427 _from_coeff_dicts: unpacking zip of nothing raises *)
Definition from_coeff_dicts (r p : list (nat * Q)) : result brxn :=
  match r, p with
  | [], _ | _, [] => Err ValueError
  | _, _ => Ok (basic_init C (map fst r ++ map fst p) (map (fun kv => (-(1) * snd kv)%Q) r ++ map snd p) None None)
  end.
(* basic.py:265-287 from_string *)
Definition from_string (s : text) : result brxn :=
  match split_arrow [] s with
  | [a; b] => bind (get_comp_amt a) (fun r => bind (get_comp_amt b) (fun p => from_coeff_dicts r p))
  | _ => Err ValueError
  end.
End Read.

(* --- f"{q:.4g}" for a positive number --- *)
(* rounding to the nearest integer, ties to even *)
Definition round_even (x : Q) : Z :=
  let f := Qfloor x in
  let r := (x - inject_Z f)%Q in
  if Qlt_bool r (1 # 2) then f else if Qlt_bool (1 # 2) r then (f + 1)%Z else if Z.even f then f else (f + 1)%Z.
(* the number of decimal digits of a positive integer *)
Fixpoint ndigits_loop (fuel : nat) (n : Z) : Z :=
  match fuel with
  | 0 => 0%Z
  | S k => if (n <? 10)%Z then 1%Z else (1 + ndigits_loop k (n / 10))%Z
  end.
Definition ndigits (n : Z) : Z := ndigits_loop (S (Z.to_nat (Z.log2 n))) n.
(* the largest x with 10^x <= q *)
Definition exponent (q : Q) : Z :=
  let x := (ndigits (Qnum q) - ndigits (Zpos (Qden q)))%Z in
  if Qle_bool (Qpower 10 x) q then x else (x - 1)%Z.
(* four significant digits and the exponent of the first *)
Definition four (q : Q) : Z * Z :=
  let x := exponent q in
  let m := round_even (q * Qpower 10 (3 - x))%Q in
  if (m =? 10000)%Z then (1000%Z, (x + 1)%Z) else (m, x).

Definition digit_char (n : Z) : ascii := ascii_of_nat (48 + Z.to_nat (n mod 10)).
Definition four_digits (m : Z) : text := [digit_char (m / 1000); digit_char (m / 100); digit_char (m / 10); digit_char m].
Definition strip_zeros (s : text) : text := rev (snd (span (is_char 48) (rev s))).
Definition with_fraction (a b : text) : text := match strip_zeros b with [] => a | f => a ++ dot_char :: f end.
(* an exponent has at least two digits; that of a float has at most three *)
Definition exponent_digits (n : Z) : text :=
  (if (n <? 100)%Z then [] else [digit_char (n / 100)]) ++ [digit_char (n / 10); digit_char n].
Definition render (m x : Z) : text :=
  let ds := four_digits m in
  if ((-4 <=? x) && (x <? 4))%Z then
    if (0 <=? x)%Z then with_fraction (firstn (Z.to_nat (x + 1)) ds) (skipn (Z.to_nat (x + 1)) ds)
    else with_fraction ["0"%char] (repeat "0"%char (Z.to_nat (- x - 1)) ++ ds)
  else with_fraction (firstn 1 ds) (skipn 1 ds)
       ++ "e"%char :: (if (x <? 0)%Z then "-"%char else "+"%char) :: exponent_digits (Z.abs x).
Definition format_4g (q : Q) : text := let (m, x) := four q in render m x.

Section Write.
Variable C : chem.
Variable name : nat -> text.              (* reduced formula of a composition *)

(* basic.py:25 *)
Definition TOL : Q := 1 # 1000000.
(* basic.py:430-443 _str_from_formulas: one term of the left and of the right side *)
Definition left_term (amt : Q) (f : text) : option text :=
  if Qlt_bool (Qabs (amt + 1)) TOL then Some f
  else if Qlt_bool (Qabs (amt - 1)) TOL then None
  else if Qlt_bool amt (- TOL) then Some (format_4g (- amt) ++ " "%char :: f)
  else None.
Definition right_term (amt : Q) (f : text) : option text :=
  if Qlt_bool (Qabs (amt + 1)) TOL then None
  else if Qlt_bool (Qabs (amt - 1)) TOL then Some f
  else if Qlt_bool amt (- TOL) then None
  else if Qlt_bool TOL amt then Some (format_4g amt ++ " "%char :: f)
  else None.
Fixpoint somes {A} (l : list (option A)) : list A :=
  match l with [] => [] | Some x :: l' => x :: somes l' | None :: l' => somes l' end.
Fixpoint join (sep : text) (l : list text) : text :=
  match l with [] => [] | [x] => x | x :: l' => x ++ sep ++ join sep l' end.
Definition plus_sep : text := [" "; "+"; " "]%char.
Definition arrow_sep : text := [" "; "-"; ">"; " "]%char.
Definition str_from_formulas (terms : list (Q * text)) : text :=
  join plus_sep (somes (map (fun t => left_term (fst t) (snd t)) terms)) ++ arrow_sep
  ++ join plus_sep (somes (map (fun t => right_term (fst t) (snd t)) terms)).
(* basic.py:445-458 _str_from_comp without reduce; 486-487 __str__ *)
Definition to_string (r : brxn) : text :=
  str_from_formulas (map (fun ck => ((snd ck * fac C (fst ck))%Q, name (fst ck))) (combine (comps r) (coeffs r))).
End Write.
