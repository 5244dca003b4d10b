(* What is asked of the hull of the reactions between two reactants. *)
From Verif Require Import Prelude NumQ SumQ ReactionModel ReactionSpec HullSpec.
Open Scope nat_scope.

(* The chemical potentials of a reaction, none if it is closed. *)
Definition potentials (r : rxn) : list (nat * Q) := match r with ROpen o => chempots o | _ => [] end.

(* A reaction as the constructors leave it: balanced, no composition twice. *)
Definition proper (C : chem) (r : rxn) : Prop :=
  (exists es ks n, length es = length ks /\ NoDup (map (fun e => red C (e_comp e)) es)
   /\ (r = RComputed (computed_init C es ks n) \/ exists mu, r = ROpen (open_init C es ks mu n)))
  /\ conserving C (base_of r).

(* The number of atoms of one formula unit of c, without those of open elements. *)
Definition atoms_left (C : chem) (mu : list (nat * Q)) (c : nat) : Q :=
  sumQ (fun e => if in_dec Nat.eq_dec e (map fst mu) then 0%Q else amt C c e) (elems C c).
(* c is a reactant of r; the atoms r takes from it *)
Definition consumes (r : rxn) (c : nat) : Prop := exists k, In (c, k) (species (base_of r)) /\ (k < 0)%Q.
Definition takes (C : chem) (r : rxn) (c : nat) : Q :=
  sumQ (fun ck => if Nat.eqb (fst ck) c && Qlt_bool (snd ck) 0 then (- snd ck * atoms_left C (potentials r) c)%Q else 0%Q) (species (base_of r)).

(* The atomic mixing ratio of the two reactants. *)
Definition mixing_ratio (C : chem) (c1 c2 : nat) (r : rxn) : Q := (takes C r c2 / (takes C r c1 + takes C r c2))%Q.

(* Rounding to twelve digits. *)
Definition rounds12 (f : Q -> Q) : Prop :=
  (forall q, Qabs (f q - q) <= 1 # 2000000000000)%Q /\ (forall q, 0 <= q <= 1 -> 0 <= f q <= 1)%Q.
(* Positions in ascending order of the keys, ties in any order. *)
Definition sorts (argsort : list Q -> list nat) : Prop :=
  forall l, Permutation (argsort l) (seq 0 (length l))
  /\ forall i j a b x y, i < j -> nth_error (argsort l) i = Some a -> nth_error (argsort l) j = Some b ->
     nth_error l a = Some x -> nth_error l b = Some y -> (x <= y)%Q.

(* p is the point of the reaction r: its mixing ratio and its energy per atom. *)
Definition point_of (C : chem) (c1 c2 : nat) (r : rxn) (p : Q * Q) : Prop :=
  (Qabs (fst p - mixing_ratio C c1 c2 r) <= 1 # 2000000000000)%Q /\ (0 <= fst p <= 1)%Q /\ energy_per_atom C r = Ok (snd p).

(* r turns one c into one c, at no cost of energy. *)
Definition nothing_happens (C : chem) (c : nat) (r : rxn) : Prop :=
  comps (base_of r) = [c; c] /\ coeffs (base_of r) = [-1; 1]%Q /\ exists v, energy_per_atom C r = Ok v /\ (v == 0)%Q.
