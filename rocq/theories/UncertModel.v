(* Uncertainty of reaction energies: reactions/computed.py:131-165. *)
From Verif Require Import Prelude NumQ UtilsModel ReactionModel.
Open Scope nat_scope.

(* A number with uncertainty (package uncertainties): a nominal value and a linear
   form in independent variables. A variable is the position of the entry whose call
   of ufloat made it, in the loop at computed.py:138. *)
Record ufloat := { nominal : Q; form : list (nat * Q) }.

Definition udiv (u : ufloat) (q : Q) : ufloat :=
  {| nominal := (nominal u / q)%Q; form := map (fun t => (fst t, snd t / q)%Q) (form u) |}.
Definition umul (q : Q) (u : ufloat) : ufloat :=
  {| nominal := (q * nominal u)%Q; form := map (fun t => (fst t, q * snd t)%Q) (form u) |}.
Definition uadd (u v : ufloat) : ufloat :=
  {| nominal := (nominal u + nominal v)%Q; form := form u ++ form v |}.

(* computed.py:141-143: nan counts as no uncertainty *)
Definition std (unc : entry -> option Q) (e : entry) : Q := match unc e with Some s => s | None => 0%Q end.

(* computed.py:136-145: the loop over the entries. Comparing two ufloats compares the
   nominal values; min keeps the first of equals. *)
Fixpoint calc_ufloats (C : chem) (i : nat) (es : list entry) (d : list (nat * ufloat)) : list (nat * ufloat) :=
  match es with
  | [] => d
  | e :: es' =>
    let comp := red C (e_comp e) in
    let u := udiv {| nominal := e_energy e; form := [(i, 1%Q)] |} (fac C (e_comp e)) in
    calc_ufloats C (S i) es'
      (dict_set comp (match dict_get comp d with
                      | None => u
                      | Some w => if Qlt_bool (nominal u) (nominal w) then u else w end) d)
  end.

(* computed.py:147-149: the sum; KeyError for a composition without entry *)
Definition uterms (d : list (nat * ufloat)) (kcs : list (Q * nat)) : result (list ufloat) :=
  mapM (fun kc => match dict_get (snd kc) d with Some u => Ok (umul (fst kc) u) | None => Err KeyError end) kcs.

(* The square of the attribute s: each variable contributes the square of its total
   coefficient times its standard deviation. *)
Definition variance (stds : list Q) (u : ufloat) : Q :=
  Qsum (map (fun i =>
    let k := (Qsum (map snd (filter (fun t => fst t =? i) (form u))) * nth i stds 0)%Q in (k * k)%Q)
    (seq 0 (length stds))).

(* computed.py:131-151 energy_uncertainty, squared. The sum of nothing is the integer
   0, without attribute s. *)
Definition energy_variance (C : chem) (unc : entry -> option Q) (r : crxn) : result Q :=
  bind (uterms (calc_ufloats C 0 (c_entries r) []) (combine (coeffs (c_base r)) (comps (c_base r)))) (fun us =>
  match us with
  | [] => Err AttributeError
  | _ => Ok (variance (map (std unc) (c_entries r)) (fold_left uadd us {| nominal := 0; form := [] |}))
  end).

(* computed.py:153-158 energy_uncertainty_per_atom, squared; nan for zero atoms is
   ZeroDivisionError *)
Definition energy_variance_per_atom (C : chem) (unc : entry -> option Q) (r : crxn) : result Q :=
  let n := num_atoms C (c_base r) in
  bind (energy_variance C unc r) (fun v => if Qeq_bool n 0 then Err ZeroDivisionError else Ok (v / (n * n))%Q).
