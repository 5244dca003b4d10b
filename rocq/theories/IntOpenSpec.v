(* What is asked of looking for reactions between the intermediates when an element is open. *)
From Verif Require Import Prelude NumQ SumQ ReactionModel ReactionSpec SolveJobSpec IntSpec IntMinSpec.
Open Scope nat_scope.

Section Spec.
Variable C : chem.
Variable ents : list entry.
Variable rxns : list rxn.
Variable net : rxn.
Variable gas : nat.      (* the formula of the open phase *)

(* One or two solids, and some of the phases of the open element, all of them intermediates. *)
Definition is_gas (i : nat) : Prop := formula_at C ents i = gas.
Definition few_solids (c : list nat) : Prop := few c /\ forall i, In i c -> intermediate C ents rxns net i /\ ~ is_gas i.
Definition some_gas (c : list nat) : Prop := NoDup c /\ c <> [] /\ forall i, In i c -> intermediate C ents rxns net i /\ is_gas i.
Definition with_gas_added (r p : list nat) : Prop := few_solids r /\ exists c oc, few_solids c /\ some_gas oc /\ Permutation p (c ++ oc).

(* Solids on both sides and gas on one of them; p has something else than gas that the net reaction makes, and
   r and the gas are of two to nine elements. *)
Definition gas_reacts (r p : list nat) : Prop :=
  (with_gas_added r p \/ with_gas_added p r) /\ (forall i, In i r -> ~ In i p) /\ (exists t, In t p /\ target net t /\ ~ is_gas t)
  /\ exists els, NoDup els /\ 2 <= length els <= 9
     /\ forall el, In el els <-> exists i, (In i r \/ intermediate C ents rxns net i /\ is_gas i) /\ occurs C ents i el.
End Spec.

(* The grand potential of an entry, as the program has it: that of the open element alone is its energy. *)
Definition potential (C : chem) (el : nat) (mu : Q) (e : entry) : Q :=
  if list_eq_dec Nat.eq_dec (ReactionModel.elems C (e_comp e)) [el] then e_energy e else (e_energy e - amt C (e_comp e) el * mu)%Q.
(* The change of the grand potential in a reaction, the atoms on its right side that are not of the open element, and a
   change below the cutoff. *)
Definition grand_heat (C : chem) (el : nat) (mu : Q) (items : list (entry * Q)) : Q := sumQ (fun ek => snd ek * (potential C el mu (fst ek) / fac C (e_comp (fst ek))))%Q items.
Definition others_made (C : chem) (el : nat) (items : list (entry * Q)) : Q :=
  sumQ (fun ek => if Qlt_bool 0 (snd ek) then snd ek * (natoms C (red C (e_comp (fst ek))) - amt C (red C (e_comp (fst ek))) el) else 0)%Q items.
Definition grand_low (C : chem) (el : nat) (mu cutoff : Q) (items : list (entry * Q)) : Prop := (grand_heat C el mu items < cutoff * others_made C el items)%Q.

(* A reaction between entries of the list for this open element and chemical potential. *)
Definition open_of_entries (ents : list entry) (el : nat) (mu : Q) (r : rxn) : Prop :=
  exists c, r = ROpen {| o_base := c; chempots := [(el, mu)] |} /\ length (coeffs (c_base c)) = length (c_entries c) /\ forall e, In e (c_entries c) -> nth_error ents (e_id e) = Some e.
