(* What is asked of looking for reactions between the intermediates. *)
From Verif Require Import Prelude NumQ SumQ ReactionModel ReactionSpec SolveJobSpec.
Open Scope nat_scope.

(* The entry number i of the list is made or used by one of the reactions, is made by the net reaction, or is an element. *)
Definition target (net : rxn) (i : nat) : Prop := exists e k, In (e, k) (parts net) /\ (0 < k)%Q /\ e_id e = i.
Definition intermediate (C : chem) (ents : list entry) (rxns : list rxn) (net : rxn) (i : nat) : Prop :=
  (exists r e k, In r rxns /\ In (e, k) (parts r) /\ e_id e = i) \/ target net i
  \/ exists e el, nth_error ents i = Some e /\ ReactionModel.elems C (e_comp e) = [el].

(* A reaction between entries of the list, each with its coefficient. *)
Definition of_entries (ents : list entry) (r : rxn) : Prop :=
  exists c, r = RComputed c /\ length (coeffs (c_base c)) = length (c_entries c) /\ forall e, In e (c_entries c) -> nth_error ents (e_id e) = Some e.

(* The same, but only the number and the composition of an entry count. *)
Definition names_entries (ents : list entry) (r : rxn) : Prop :=
  (forall b, r <> RBasic b) /\ forall e k, In (e, k) (parts r) -> exists e', nth_error ents (e_id e) = Some e' /\ e_comp e' = e_comp e.

(* Each entry of the reaction has its coefficient. *)
Definition each_with_amount (r : rxn) : Prop :=
  forall c, (r = RComputed c \/ exists mus, r = ROpen {| o_base := c; chempots := mus |}) -> length (coeffs (c_base c)) = length (c_entries c).

(* One or two phases, in the order of the list or not. *)
Definition few (l : list nat) : Prop := NoDup l /\ 1 <= length l <= 2.

(* The phases r and p are intermediates, one of p is made by the net reaction, and r is of two to nine elements. *)
Definition might_react (C : chem) (ents : list entry) (rxns : list rxn) (net : rxn) (r p : list nat) : Prop :=
  few r /\ few p /\ (forall i, In i r -> ~ In i p) /\ (forall i, In i (r ++ p) -> intermediate C ents rxns net i)
  /\ (exists t, In t p /\ target net t)
  /\ exists els, NoDup els /\ 2 <= length els <= 9 /\ forall el, In el els <-> exists i e, In i r /\ nth_error ents i = Some e /\ In el (ReactionModel.elems C (e_comp e)).

(* The energy of a reaction, from the energies per formula unit, and the atoms on its right side. *)
Definition heat (C : chem) (items : list (entry * Q)) : Q := sumQ (fun ek => snd ek * (e_energy (fst ek) / fac C (e_comp (fst ek))))%Q items.
Definition atoms_made (C : chem) (items : list (entry * Q)) : Q := sumQ (fun ek => if Qlt_bool 0 (snd ek) then snd ek * natoms C (red C (e_comp (fst ek))) else 0)%Q items.
Definition low (C : chem) (cutoff : Q) (items : list (entry * Q)) : Prop := (heat C items < cutoff * atoms_made C items)%Q.

(* No two phases of one formula. *)
Definition distinct (C : chem) (items : list (entry * Q)) : Prop := NoDup (map (fun ek => red C (e_comp (fst ek))) items).

(* The reaction turns exactly the phases r into exactly the phases p, each in an amount that counts, and conserves the elements up to the tolerance. *)
Definition turns_into (C : chem) (r p : list nat) (y : rxn) : Prop :=
  (forall i, In i r -> (turnover y i <= -(1 # 1000000))%Q) /\ (forall i, In i p -> (1 # 1000000 <= turnover y i)%Q) /\ (forall i, ~ In i (r ++ p) -> (turnover y i == 0)%Q)
  /\ forall el, (Qabs (sumQ (fun ek => amt C (red C (e_comp (fst ek))) el * snd ek) (parts y)) <= 1 # 100000000)%Q.

(* The formula of the entry number i. *)
Definition formula_at (C : chem) (ents : list entry) (i : nat) : nat := match nth_error ents i with Some e => red C (e_comp e) | None => 0 end.
