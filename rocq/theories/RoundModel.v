(* Model of the arithmetic of reactions with rounding. [fl] is applied to the result of every operation on
   floats; comparisons and absolute values are exact. There are no infinities and there is no smallest float. *)
From Coq Require Import Qround Qpower.
From Verif Require Import Prelude NumQ UtilsModel ReactionModel.
Open Scope nat_scope.

Section Rounded.
Variable fl : Q -> Q.

(* pymatgen's Composition drops amounts below 1e-8 (amount_tolerance) whenever one is made. *)
Definition keep (x : Q) : Q := if Qlt_bool (Qabs x) (1 # 100000000) then 0%Q else x.
(* reactions/basic.py:71-72: k * abs(v), added up from Composition({}) *)
Definition rounded_total (C : chem) (d : list (nat * Q)) (e : nat) : Q :=
  fold_left (fun acc kv =>
    if memb Nat.eqb e (elems C (fst kv)) then keep (fl (acc + keep (fl (amt C (fst kv) e * Qabs (snd kv))))) else acc)%Q d 0%Q.
(* basic.py:74 almost_equals with atol=TOLERANCE *)
Definition rounded_equal (C : chem) (r p : list (nat * Q)) : bool :=
  forallb (fun e => Qle_bool (Qabs (fl (rounded_total C p e - rounded_total C r e))) (fl (1 # 1000000)))
          (dict_elems C r ++ dict_elems C p).
(* basic.py:61-77: the attribute balanced of a reaction made without it *)
Definition rounded_flag (C : chem) (cs : list nat) (ks : list Q) : bool :=
  let r := dict_of (filter (fun kv => Qlt_bool (snd kv) 0) (combine cs ks)) in
  let p := dict_of (filter (fun kv => Qlt_bool 0 (snd kv)) (combine cs ks)) in
  rounded_equal C r p.

(* computed.py:115-119 *)
Definition rounded_energies (C : chem) (es : list entry) : list (nat * Q) :=
  fold_left (fun d e =>
    let comp := red C (e_comp e) in
    let v := fl (e_energy e / fac C (e_comp e))%Q in
    dict_set comp (match dict_get comp d with
                   | None => v
                   | Some w => if Qlt_bool v w then v else w end) d) es [].
(* computed.py:121. Since python 3.12 sum() of plain floats carries the rounding errors along; the coefficients are
   numpy floats, for which it does not. *)
Definition rounded_energy (C : chem) (r : crxn) : result Q :=
  let d := rounded_energies C (c_entries r) in
  bind (mapM (fun kc => match dict_get (snd kc) d with
                        | Some v => Ok (fl (fst kc * v)%Q)
                        | None => Err KeyError end) (combine (coeffs (c_base r)) (comps (c_base r))))
       (fun l => Ok (fold_left (fun acc t => fl (acc + t)%Q) l 0%Q)).

(* numpy.isclose(a, b) *)
Definition rounded_close (a b : Q) : bool :=
  Qle_bool (Qabs (fl (a - b))) (fl (fl (1 # 100000000) + fl (fl (1 # 100000) * Qabs b))).
(* reactions/reaction_set.py:668-671 as [is_multiple] *)
Definition rounded_multiple (r row : list Q) : bool :=
  match r, row with
  | a :: _, b :: _ =>
      forallb (fun q => negb (Qeq_bool q 0)) row
      && forallb (fun rq => rounded_close (Qabs (fl (a / b))) (fl (fst rq / snd rq))) (combine r row)
  | _, _ => true
  end.
End Rounded.

(* Rounding to 53 binary digits, ties to the even number: the binary64 format without limits for the exponent. *)
Definition nearest (y : Q) : Z :=
  let f := Qfloor y in
  let rest := (y - inject_Z f)%Q in
  if Qlt_bool rest (1 # 2) then f else if Qlt_bool (1 # 2) rest then (f + 1)%Z else if Z.even f then f else (f + 1)%Z.
Definition binary64 (x : Q) : Q :=
  let y := Qred x in
  if Qeq_bool y 0 then 0%Q
  else
    let e := (Z.log2 (Z.abs (Qnum y)) - Z.log2 (Zpos (Qden y)) - 53)%Z in
    let e := if Qle_bool (9007199254740992 # 1) (Qabs y * Qpower (2 # 1) (- e)) then (e + 1)%Z else e in
    (inject_Z (nearest (y * Qpower (2 # 1) (- e))) * Qpower (2 # 1) e)%Q.
